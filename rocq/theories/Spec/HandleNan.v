(** What "trailing missing samples" means. *)
From Coq Require Import String.
From Coq Require Import QArith List.
From Verif.Model Require Import HandleNan.
Import ListNotations.
Open Scope nat_scope.

Definition missing_in (l : list (option Q)) (k : nat) : Prop := nth_error l k = Some None.

(** the name contains the word *)
Definition mentions (word s : string) : Prop := exists a b, s = (a ++ word ++ b)%string.
Definition imu_variable (v : nvar) : Prop :=
  mentions "accel" (vname v) \/ mentions "angrt" (vname v) \/ mentions "mag" (vname v).
(** every line of a variable has the same length *)
Definition rectangular (v : nvar) : Prop := lines v <> [] /\ (ndim v = 1 -> length (lines v) = 1) /\
  forall l, In l (lines v) -> length l = width v.
(** sample [k] has no time, or a component of an IMU variable is missing *)
Definition incomplete (d : ndata) (k : nat) : Prop :=
  missing_in (ntime d) k \/
  exists v l, In v (nvars d) /\ imu_variable v /\ width v = length (ntime d) /\ ndim v <= 2 /\ In l (lines v) /\ missing_in l k.
(** the same, looking only at the last component *)
Definition last_incomplete (d : ndata) (k : nat) : Prop :=
  missing_in (ntime d) k \/
  exists v, In v (nvars d) /\ imu_variable v /\ width v = length (ntime d) /\ (ndim v = 1 \/ ndim v = 2) /\ missing_in (last (lines v) []) k.
