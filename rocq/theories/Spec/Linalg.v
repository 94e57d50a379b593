(** Matrices as lists of rows: shape, identity, orthonormality. *)
From Coq Require Import Reals List.
From Verif.Model Require Import Linalg.
Import ListNotations.
Open Scope R_scope.

Definition is_vec (n : nat) (v : vec) : Prop := length v = n.
Definition is_mat (n : nat) (M : mat) : Prop := length M = n /\ Forall (is_vec n) M.

Definition entry (M : mat) (i j : nat) : R := nth j (nth i M []) 0.
Definition comp (v : vec) (i : nat) : R := nth i v 0.

Definition kron (i j : nat) : R := if Nat.eqb i j then 1 else 0.

Definition dot3 (a b : vec) : R := comp a 0 * comp b 0 + comp a 1 * comp b 1 + comp a 2 * comp b 2.
Definition column (M : mat) (j : nat) : vec := [entry M 0 j; entry M 1 j; entry M 2 j].

(** rows are orthonormal and columns are orthonormal *)
Definition orthonormal (M : mat) : Prop :=
  is_mat 3 M /\
  forall i j, (i < 3)%nat -> (j < 3)%nat ->
    dot3 (nth i M []) (nth j M []) = kron i j /\ dot3 (column M i) (column M j) = kron i j.

Definition det3 (M : mat) : R :=
    entry M 0 0 * (entry M 1 1 * entry M 2 2 - entry M 1 2 * entry M 2 1)
  - entry M 0 1 * (entry M 1 0 * entry M 2 2 - entry M 1 2 * entry M 2 0)
  + entry M 0 2 * (entry M 1 0 * entry M 2 1 - entry M 1 1 * entry M 2 0).

Definition proper_rotation (M : mat) : Prop := orthonormal M /\ det3 M = 1.

(** squared length of the first three components *)
Definition norm2 (v : vec) : R := dot3 v v.
