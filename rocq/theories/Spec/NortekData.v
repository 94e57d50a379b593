(** What the values of a Nortek file mean. *)
From Coq Require Import ZArith QArith List.
From Verif.Model Require Import Nortek Gaps.
From Verif.Spec Require Import Gaps.
Import ListNotations.
Open Scope Z_scope.

(** two bytes hold an unsigned or a signed integer *)
Definition holds_unsigned (e : endian) (b0 b1 v : Z) : Prop := word e b0 b1 = v.
Definition holds_signed (e : endian) (b0 b1 v : Z) : Prop := -32768 <= v < 32768 /\ word e b0 b1 = v mod 65536.

(** two series of rational numbers that are equal as numbers *)
Definition same_series (a b : series) : Prop :=
  Forall2 (fun x y => match x, y with Some p, Some q => p == q | None, None => True | _, _ => False end)%Q a b.

(** system data with this status bit were read at sample [k] *)
Definition status_bit (status : list (option Z)) (k : nat) (b : bool) : Prop :=
  exists s, nth_error status k = Some (Some s) /\ Z.testbit s 0 = b.
(** the sample with system data before [k] is [i] *)
Definition previous_status (status : list (option Z)) (k i : nat) : Prop :=
  (i < k)%nat /\ (exists s, nth_error status i = Some (Some s)) /\ forall m, (i < m < k)%nat -> nth_error status m = Some None.

(** at least three times were read in the burst, and all lie on the line [a + b k] *)
Definition keeps_clock (t : series) (ab : Q * Q) : Prop :=
  exists i0 i j, (exists v, valid t i0 v) /\ (i0 < i)%nat /\ (exists v, valid t i v) /\ (i < j)%nat /\ (exists v, valid t j v) /\
    (forall k v, valid t k v -> v == fst ab + snd ab * inject_Z (Z.of_nat k))%Q.
(** what that clock shows at the samples of a burst *)
Definition clock_reading (n : nat) (ab : Q * Q) : series :=
  map (fun k => Some (fst ab + snd ab * inject_Z (Z.of_nat k)))%Q (seq 0 n).
