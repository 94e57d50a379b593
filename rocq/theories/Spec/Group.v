(** Maximal runs of True in a boolean array. *)
From Coq Require Import ZArith List Sorting.Sorted.

Definition is_true_at (bl : list bool) (k : nat) : Prop := nth_error bl k = Some true.

(** The half-open range [u, d) holds only True and cannot be extended on either side. *)
Definition maximal_run (bl : list bool) (u d : nat) : Prop :=
  u < d <= length bl /\ (forall k, u <= k < d -> is_true_at bl k) /\
  (forall k, S k = u -> ~ is_true_at bl k) /\ ~ is_true_at bl d.

(** [out] lists exactly the maximal runs of at least [m] samples, in order. *)
Definition lists_runs (bl : list bool) (m : Z) (out : list (nat * nat)) : Prop :=
  StronglySorted (fun p q => snd p < fst q) out /\
  forall u d, In (u, d) out <-> maximal_run bl u d /\ (m <= Z.of_nat d - Z.of_nat u)%Z.

(** there is a run that does not start at the first sample *)
Definition later_run (bl : list bool) : Prop := exists u d, maximal_run bl u d /\ 0 < u.
