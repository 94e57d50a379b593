(** One-dimensional slices of an array. *)
From Coq Require Import List.
Import ListNotations.

(** [t] selects one line along axis [a] of an array of shape [shape]: a full slice ([None])
    at position [a], an index in range at every other position. *)
Definition line_of (shape : list nat) (a : nat) (t : list (option nat)) : Prop :=
  length t = length shape /\
  forall p n, nth_error shape p = Some n ->
    (p = a -> nth_error t p = Some None) /\
    (p <> a -> exists i, nth_error t p = Some (Some i) /\ i < n).

(** row-major order: the first position at which two tuples differ decides *)
Definition row_major (s t : list (option nat)) : Prop :=
  exists p i j, nth_error s p = Some (Some i) /\ nth_error t p = Some (Some j) /\ i < j /\
    forall q, q < p -> nth_error s q = nth_error t q.
