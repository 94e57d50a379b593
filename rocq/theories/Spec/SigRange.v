(** Where the cells of a profile are. *)
From Coq Require Import String.
From Coq Require Import ZArith Reals List Bool.
From Verif.Model Require Import Ad2cp Ad2cpIndex.
From Verif.Spec Require Import Ad2cp Ad2cpIndex ReadSig.
Import ListNotations.
Open Scope R_scope.

(** profiles of velocities: bursts, averages, the fifth beam *)
Definition velocity_ids : list Z := [21; 22; 24]%Z.
(** all pings of the part that is read have these counts: cell size in mm, blanking in cm if bit 1 of the status is set (nortek2_lib.py:416), else in mm *)
Definition settings (conf : Z -> Z * Z) (enss : list (list piece)) (start : nat) (stop : option nat) (id cell blank : Z) (cm : bool) : Prop :=
  forall k p, in_ping enss start stop k p -> p_id p = id ->
    has conf p "cell_size" [cell] /\ has conf p "blank_dist" [blank] /\ exists s, has conf p "status" [s] /\ Z.testbit s 1 = cm.
Definition blanking (blank : Z) (cm : bool) : R := if cm then IZR blank / 100 else IZR blank / 1000.
(** the velocities of the profile have [nc] cells *)
Definition cells_recorded (conf : Z -> Z * Z) (id : Z) (nc : nat) : Prop :=
  exists l nb, reader_for id (fst (conf id)) (snd (conf id)) = Some l /\ In (Field "vel" S16 0 [nb; nc]) l.
(** distances in m from the transducer to the centres of the cells *)
Definition centres (nc : nat) (cell blank : R) (r : list R) : Prop :=
  length r = nc /\ forall i, (i < nc)%nat -> nth i r 0 = blank + INR (i + 1) * cell.
(** [vs]: the counts of the pings, one by one *)
Definition counts (conf : Z -> Z * Z) (enss : list (list piece)) (start : nat) (stop : option nat) (id : Z) (nm : string) (vs : list Z) : Prop :=
  length vs = (upto enss stop - start)%nat /\ forall k p, in_ping enss start stop k p -> p_id p = id -> has conf p nm [nth k vs 0%Z].
(** the count to take for the profile: the one that all have; of the fifth beam, whose pings may be missing, the one that all have that are not 0;
    of bursts and averages the most frequent *)
Definition agreed (id : Z) (vs : list Z) (n : Z) : Prop :=
  In n vs /\ ((forall v, In v vs -> v = n) \/ (id = 24%Z /\ n <> 0%Z /\ forall v, In v vs -> v = 0%Z \/ v = n) \/
              (id <> 24%Z /\ forall v, v <> n -> (occurrences vs v < occurrences vs n)%nat)).
