(** Bins of a series. *)
From Coq Require Import ZArith QArith Qround List.
Import ListNotations.
Open Scope nat_scope.

(** the sample [j] of bin [i] *)
Definition cell {A} (rows : list (list A)) (i j : nat) : option A :=
  match nth_error rows i with Some r => nth_error r j | None => None end.

(** a table of [nb] rows of [w] samples *)
Definition table {A} (rows : list (list A)) (nb w : nat) : Prop :=
  length rows = nb /\ forall r, In r rows -> length r = w.

(** sample [k] of the series [x], [zero] outside it *)
Definition at_or {A} (zero : A) (x : list A) (k : Z) : A :=
  if (k <? 0)%Z then zero else nth (Z.to_nat k) x zero.

Fixpoint strictly_increasing (l : list nat) : Prop :=
  match l with
  | a :: ((b :: _) as r) => a < b /\ strictly_increasing r
  | _ => True
  end.

(** not a whole number *)
Definition fractional (q : Q) : Prop := forall z : Z, ~ (q == inject_Z z)%Q.
