(** What the properties of AD2CP blocks say. *)
From Coq Require Import String.
From Coq Require Import ZArith List Bool.
From Verif.Model Require Import Nortek Ad2cp.
Import ListNotations.
Open Scope Z_scope.

Definition all_bytes (bs : bytes) : Prop := Forall (fun b => 0 <= b < 256) bs.
(** little-endian bytes of an integer *)
Fixpoint le_bytes (n : nat) (v : Z) : bytes := match n with O => [] | S n' => v mod 256 :: le_bytes n' (v / 256) end.
Definition in_range (k : kind) (v : Z) : Prop :=
  let w := 8 * Z.of_nat (ksize k) in
  if ksigned k then - 2 ^ (w - 1) <= v < 2 ^ (w - 1) else 0 <= v < 2 ^ w.
(** a block holds these values: for each definition as many as its shape says, one after the other, then
    the bytes that are skipped *)
Inductive holds : layout -> list (list Z) -> bytes -> Prop :=
| holds_nil : holds [] [] []
| holds_cons f l vs vals skip bs : (0 < prod (fshape f))%nat -> length vs = prod (fshape f) -> Forall (in_range (fkind f)) vs ->
    length skip = fskip f -> holds l vals bs ->
    holds (f :: l) (vs :: vals) (concat (map (le_bytes (ksize (fkind f))) vs) ++ skip ++ bs).
(** the checksum of a block of whole words *)
Definition sum16 (bs : bytes) : Z := (46476 + total (words LE bs)) mod 65536.

Definition all_equal (vec : list Z) : Prop := forall x y, In x vec -> In y vec -> x = y.
Definition occurrences (vec : list Z) (x : Z) : nat := count_occ Z.eq_dec vec x.

(** a configuration word of raw altimeter pings: no profiles, with or without AHRS data *)
Definition altimeter_only (config : Z) (ahrs : bool) : Prop :=
  let f := headconfig config BurstMode in
  (flag f "echo" = false /\ flag f "vel" = false /\ flag f "amp" = false /\ flag f "corr" = false /\ flag f "p_gd" = false /\ flag f "std" = false /\
  flag f "altraw" = true /\ flag f "ahrs" = ahrs)%string.
