(** Vocabulary for the cleaning of profiler data. *)
From Coq Require Import String.
From Coq Require Import ZArith Reals List.
From Verif.Model Require Import CleanAdp.
Import ListNotations.
Open Scope R_scope.

(** range beyond which the side lobes of a beam inclined by [angle] degrees hit a surface at [depth],
    for an instrument at [h] *)
Definition clear_range (angle cell_size h depth : R) : R := h + (depth - h) * cos (angle * PI / 180) - cell_size.
(** element [k] of [b] is [f] of that of [a] where [p] holds, unchanged elsewhere *)
Definition changed_where {A} (p : nat -> Prop) (f : A -> A) (a b : list A) : Prop :=
  length b = length a /\ forall k x, nth_error a k = Some x ->
    (p k -> nth_error b k = Some (f x)) /\ (~ p k -> nth_error b k = Some x).
(** missing in a float array, 0 in an integer one *)
Definition erased (x : num) : num := match x with Fl _ => Fl None | It _ => It 0 end.
(** correlation at most [t] *)
Definition low_corr (t : R) (corr : list num) (k : nat) : Prop :=
  exists x, x <= t /\ (nth_error corr k = Some (Fl (Some x)) \/ exists z, x = IZR z /\ nth_error corr k = Some (It z)).
(** [j] is the last index with [p], below [n] *)
Definition last_with (n : nat) (p : nat -> Prop) (j : nat) : Prop :=
  (j < n)%nat /\ p j /\ forall i, (j < i < n)%nat -> ~ p i.
