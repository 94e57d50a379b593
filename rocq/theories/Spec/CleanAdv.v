(** Vocabulary for the cleaning of a time series. *)
From Coq Require Import QArith Qabs List.
From Verif.Spec Require Import Gaps.
Import ListNotations.

(** the sample at [k] is present and strictly between [lo] and [hi] *)
Definition inside (lo hi : Q) (u : list (option Q)) (k : nat) : Prop :=
  exists v, valid u k v /\ (lo < v)%Q /\ (v < hi)%Q.
(** the sample at [k] and the one before it ([0] before the first) are present and differ by [d] *)
Definition jump (u : list (option Q)) (k : nat) (d : Q) : Prop :=
  exists v p, valid u k v /\ match k with O => p = 0%Q | S j => valid u j p end /\ (d == v - p)%Q.
Definition flagged (mask : list bool) (k : nat) : Prop := nth_error mask k = Some true.

(** an interpolator returns as many samples as it gets and keeps those that are present *)
Definition interpolator (f : nat -> list (option Q) -> list (option Q)) : Prop :=
  forall s w, length (f s w) = length w /\ forall k v, valid w k v -> valid (f s w) k v.
(** number of missing samples in a row that end at [k] *)
Fixpoint run_to (u : list (option Q)) (k : nat) : nat :=
  match nth_error u k with
  | Some None => match k with O => 1 | S j => S (run_to u j) end
  | _ => 0
  end.
(** [a] is [u] with the flagged samples missing *)
Definition masked {A} (mask : list bool) (u a : list (option A)) : Prop :=
  length a = length u /\ forall k, (k < length u)%nat ->
    (flagged mask k -> nth_error a k = Some None) /\ (~ flagged mask k -> nth_error a k = nth_error u k).
(** [f] fills every missing sample that has [npt] samples of its window on either side, the window
    [w] starting at [s] of [n] samples (fewer samples at the ends of the data) *)
Definition fills (f : nat -> list (option Q) -> list (option Q)) (npt n : nat) : Prop :=
  forall s w k, missing w k -> (s = 0 \/ npt <= k)%nat -> (s + length w = n \/ k + npt < length w)%nat ->
    exists v, valid (f s w) k v.
