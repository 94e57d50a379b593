(** Vocabulary for median filters. *)
From Coq Require Import Reals List Bool Arith.
Import ListNotations.
Open Scope R_scope.

(** how many elements of [l] are at most, or at least, [x] *)
Definition at_most (l : list R) (x : R) : nat := length (filter (fun y => if Rle_dec y x then true else false) l).
Definition at_least (l : list R) (x : R) : nat := length (filter (fun y => if Rle_dec x y then true else false) l).
(** [x] is one of the numbers; half of them are no larger, half no smaller *)
Definition is_median (l : list R) (x : R) : Prop :=
  In x l /\ (length l <= 2 * at_most l x)%nat /\ (length l <= 2 * at_least l x)%nat.
(** the [n] samples centred on index [i] *)
Definition centred (n : nat) (l : list R) (i : nat) : list R := firstn n (skipn (i - n / 2) l).
Definition inside (n : nat) (l : list R) (i : nat) : Prop := (n / 2 <= i)%nat /\ (i + n / 2 < length l)%nat.
(** how many elements of [l] lie between [lo] and [hi] *)
Definition between (lo hi : R) (l : list R) : nat :=
  length (filter (fun y => if Rle_dec lo y then (if Rle_dec y hi then true else false) else false) l).
Definition is_least (l : list R) (x : R) : Prop := In x l /\ forall y, In y l -> x <= y.
(** how many samples are missing among those at most half a kernel from index [i] *)
Definition missing_near (n : nat) (l : list (option R)) (i : nat) : nat :=
  length (filter (fun j => match nth_error l j with Some None => (i <=? j + n / 2)%nat && (j <=? i + n / 2)%nat | _ => false end) (seq 0 (length l))).
