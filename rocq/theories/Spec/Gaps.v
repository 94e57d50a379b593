(** Vocabulary for gap filling, independent of Model/Gaps. A series is a list of
    [option Q]; [None] is a missing sample. *)
From Coq Require Import ZArith QArith List.

Definition valid (a : list (option Q)) (k : nat) (v : Q) : Prop := nth_error a k = Some (Some v).
Definition missing (a : list (option Q)) (k : nat) : Prop := nth_error a k = Some None.

(** [i] is the position, and [x] the value, of the last valid sample before [k]. *)
Definition left_nb (a : list (option Q)) (k i : nat) (x : Q) : Prop :=
  (i < k)%nat /\ valid a i x /\ forall m, (i < m < k)%nat -> missing a m.
(** [j] is the position, and [y] the value, of the first valid sample after [k]. *)
Definition right_nb (a : list (option Q)) (k j : nat) (y : Q) : Prop :=
  (k < j)%nat /\ valid a j y /\ forall m, (k < m < j)%nat -> missing a m.

Definition none_before (a : list (option Q)) (k : nat) : Prop :=
  forall m, (m < k)%nat -> missing a m.
Definition none_after (a : list (option Q)) (k : nat) : Prop :=
  forall m, (k < m < length a)%nat -> missing a m.

(** A gap of [n] samples is allowed to be filled. [None] is "no limit". *)
Definition fits (n : nat) (maxgap : option nat) : Prop :=
  match maxgap with None => True | Some m => (n <= m)%nat end.

Definition qn (n : nat) : Q := inject_Z (Z.of_nat n).

(** [(k,v)] is on the straight line through [(i,x)] and [(j,y)], index as abscissa. *)
Definition on_line (i j k : nat) (x y v : Q) : Prop :=
  ((v - x) * (qn j - qn i) == (y - x) * (qn k - qn i))%Q.

(** The same with abscissae [ti], [tj], [tk]. *)
Definition on_line_t (ti tj tk x y v : Q) : Prop :=
  ((v - x) * (tj - ti) == (y - x) * (tk - ti))%Q.
