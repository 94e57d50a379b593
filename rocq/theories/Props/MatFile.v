(** C169: a dataset survives a MATLAB file. *)
From Coq Require Import String.
From Coq Require Import List Bool Arith ZArith QArith Lia.
From Verif.Model Require Import SigData CreateDataset MatFile.
From Verif.Spec Require Import CreateDataset MatFile.
From Verif.Proofs Require MatFile MatTimes.
Import ListNotations.
Local Open Scope nat_scope.
Open Scope string_scope.

(** C169. Whatever variables of its instrument a dataset holds, of whatever sizes from two up: what is loaded is the dataset
    that was saved, every coordinate and every variable on the same axes and with the same values, and nothing else. *)
Theorem C169_vector_partial : forall (V : Type) size (ds : dict (entry V)) n na, na = Some 3 \/ na = None /\ n = Some 3 ->
  lies_on (dataset_layout vector_layout) 3 size ds ->
  exists ds', load_mat (save_mat n na ds) = inr ds' /\ holds_all ds ds'
    /\ (forall k, get ds' k <> None -> In k (map fst ds) \/ In k frames).
Proof. exact @Proofs.MatFile.vector_reload. Qed.
Theorem C169_awac_partial : forall (V : Type) size (ds : dict (entry V)) n na, na = Some 3 \/ na = None /\ n = Some 3 ->
  lies_on (dataset_layout awac_layout) 3 size ds ->
  exists ds', load_mat (save_mat n na ds) = inr ds' /\ holds_all ds ds'
    /\ (forall k, get ds' k <> None -> In k (map fst ds) \/ In k frames).
Proof. exact @Proofs.MatFile.awac_reload. Qed.
Theorem C169_trdi_partial : forall (V : Type) size (ds : dict (entry V)) n na, na = Some 4 \/ na = None /\ n = Some 4 ->
  lies_on (dataset_layout trdi_layout) 4 size ds ->
  exists ds', load_mat (save_mat n na ds) = inr ds' /\ holds_all ds ds'
    /\ (forall k, get ds' k <> None -> In k (map fst ds) \/ In k frames).
Proof. exact @Proofs.MatFile.trdi_reload. Qed.
(** The profiles of a fifth beam survive if they do not have three cells and stand behind other data of the fifth beam. *)
Theorem C169_signature_partial : forall (V : Type) nb size (ds : dict (entry V)) n na, nb = 3 \/ nb = 4 ->
  na = Some nb \/ na = None /\ n = Some nb -> lies_on (dataset_layout (signature_layout nb)) nb size ds ->
  (forall key, In key (variable_names ds) -> is_fifth key = true -> size "range_b5" <> 3) ->
  fifth_behind false (variable_names ds) ->
  exists ds', load_mat (save_mat n na ds) = inr ds' /\ holds_all ds ds'
    /\ (forall k, get ds' k <> None -> In k (map fst ds) \/ In k frames).
Proof. exact @Proofs.MatFile.signature_reload. Qed.

(** Times up to 2038 come back within 61 microseconds as day numbers and within a microsecond as seconds; multiples of
    100 microseconds, or of one, exactly. *)
Theorem C169_times_partial : forall ns : Z, (0 <= ns <= 2 ^ 31 * 1000000000)%Z ->
  (Z.abs (time_from_file true (time_in_file true ns) - ns) <= 60747)%Z
  /\ (Z.abs (time_from_file false (time_in_file false ns) - ns) <= 747)%Z
  /\ ((1000 | ns)%Z -> time_from_file false (time_in_file false ns) = ns)
  /\ ((100000 | ns)%Z -> time_from_file true (time_in_file true ns) = ns).
Proof. exact Proofs.MatTimes.mat_times. Qed.
Theorem C169_times_refuted : exists ns : Z, (0 <= ns <= 2 ^ 31 * 1000000000)%Z /\ (1000 | ns)%Z
  /\ time_from_file true (time_in_file true ns) <> ns.
Proof. exists 1600000000123457000%Z. split; [split; discriminate|]. split; [exists 1600000000123457%Z; reflexivity|]. vm_compute. discriminate. Qed.

(** *** cases *)
Definition counted (sh : list nat) : array (list nat) := Array sh (fun ix => ix).
Definition file_sizes (nb : nat) (k : string) : nat :=
  if existsb (String.eqb k) ["beam"; "dir"; "x1"; "x2"] then nb
  else if existsb (String.eqb k) ["dirIMU"; "earth"; "inst"] then 3 else if k =? "q" then 4
  else if k =? "range_b5" then 7 else if k =? "range" then 5 else 6.
Definition axis_of (nb : nat) (k : string) : string * entry (list nat) := (k, ([k], Axis (file_sizes nb k))).
Definition var_of (nb : nat) (k : string) (axes : list string) : string * entry (list nat) :=
  (k, (axes, Data (counted (map (file_sizes nb) axes)))).
(** a Signature with bursts, a fifth beam and a bottom track *)
Definition sig_dataset : dict (entry (list nat)) := app (map (axis_of 4) ["time"; "time_b5"; "time_bt"; "range"; "range_b5"; "beam"; "dir"; "earth"; "inst"; "dirIMU"])
  [var_of 4 "pitch" ["time"]; var_of 4 "mag" ["dirIMU"; "time"]; var_of 4 "vel" ["dir"; "range"; "time"];
   var_of 4 "vel_bt" ["dir"; "time_bt"]; var_of 4 "accel_b5" ["dirIMU"; "time_b5"]; var_of 4 "vel_b5" ["range_b5"; "time_b5"];
   var_of 4 "amp_b5" ["range_b5"; "time_b5"]; var_of 4 "orientmat" ["earth"; "inst"; "time"]].
Ltac lies := split; [repeat split|]; split; [repeat (constructor; [cbn; intuition discriminate|]); constructor|];
  intros k e H; cbn [app map sig_dataset] in H;
  repeat (destruct H as [H|H]; [injection H as <- <-;
    first [left; split; [first [left; cbn; tauto|right; split; [cbn; tauto|]; first
              [exists "pitch"; eexists; split; [vm_compute; reflexivity|cbn; tauto]
              |exists "vel"; eexists; split; [vm_compute; reflexivity|cbn; tauto]
              |exists "vel_bt"; eexists; split; [vm_compute; reflexivity|cbn; tauto]
              |exists "vel_b5"; eexists; split; [vm_compute; reflexivity|cbn; tauto]]]|split; [reflexivity|cbn; lia]]
          |right; eexists; eexists; split; [vm_compute; reflexivity|]; split; [reflexivity|]; split; [reflexivity|];
           split; [intros d D; cbn in D; repeat destruct D as [<-|D]; try contradiction; cbn; lia
                  |intros d D _; cbn in D; repeat destruct D as [<-|D]; try contradiction; cbn; tauto]]|]); contradiction.
Example C169_signature_case : lies_on (dataset_layout (signature_layout 4)) 4 (file_sizes 4) sig_dataset
  /\ (forall key, In key (variable_names sig_dataset) -> is_fifth key = true -> file_sizes 4 "range_b5" <> 3)
  /\ fifth_behind false (variable_names sig_dataset).
Proof. split; [lies|]. split; [intros; vm_compute; discriminate|]. vm_compute. repeat split. Qed.
Example C169_vector_case : lies_on (dataset_layout vector_layout) 3 (file_sizes 3) (app (map (axis_of 3) ["time"; "beam"; "dir"; "x1"; "x2"])
  [var_of 3 "pitch" ["time"]; var_of 3 "vel" ["dir"; "time"]; var_of 3 "corr" ["beam"; "time"]; var_of 3 "beam2inst_orientmat" ["x1"; "x2"]]).
Proof. lies. Qed.
Example C169_trdi_case : lies_on (dataset_layout trdi_layout) 4 (file_sizes 4) (app (map (axis_of 4) ["time"; "range"; "beam"; "dir"])
  [var_of 4 "pitch" ["time"]; var_of 4 "vel" ["dir"; "range"; "time"]; var_of 4 "vel_bt" ["dir"; "time"]]).
Proof. lies. Qed.
Example C169_awac_case : lies_on (dataset_layout awac_layout) 3 (file_sizes 3) (app (map (axis_of 3) ["time"; "range"; "beam"; "dir"; "earth"; "inst"])
  [var_of 3 "pitch" ["time"]; var_of 3 "vel" ["dir"; "range"; "time"]; var_of 3 "orientmat" ["earth"; "inst"; "time"]]).
Proof. lies. Qed.
Example C169_times_case : (0 <= 1600000000123400000 <= 2 ^ 31 * 1000000000)%Z /\ (100000 | 1600000000123400000)%Z /\ (1000 | 1600000000123400000)%Z.
Proof. split; [split; discriminate|]. split; [exists 16000000001234%Z|exists 1600000000123400%Z]; reflexivity. Qed.

(** *** where it fails *)
(** A dataset with one time, or one cell, can be saved but not loaded. *)
Theorem C169_single_refuted : forall (V : Type) (ds : dict (entry V)) n na k, In (k, ([k], Axis 1)) ds -> k <> "beam" -> k <> "dir" ->
  exists e, load_mat (save_mat n na ds) = inl e.
Proof. exact @Proofs.MatFile.single_fails. Qed.
(** A variable that a user has computed, on cells and times, is not loaded, and nothing is said. *)
Theorem C169_computed_refuted : exists (ds ds' : dict (entry (list nat))) a, In ("U_mag", (["range"; "time"], Data a)) ds
  /\ load_mat (save_mat (Some 4) None ds) = inr ds' /\ get ds' "U_mag" = None.
Proof.
  exists (app (map (axis_of 4) ["time"; "range"; "beam"; "dir"]) [var_of 4 "vel" ["dir"; "range"; "time"]; var_of 4 "U_mag" ["range"; "time"]]).
  do 2 eexists. split; [cbn; tauto|]. split; vm_compute; reflexivity.
Qed.
(** A profile of the fifth beam is not loaded if it stands behind other data than those of the fifth beam, and cannot be
    loaded if it comes first. *)
Theorem C169_fifth_lost_refuted : exists (ds ds' : dict (entry (list nat))) a, In ("vel_b5", (["range_b5"; "time_b5"], Data a)) ds
  /\ lies_on (dataset_layout (signature_layout 4)) 4 (file_sizes 4) ds
  /\ load_mat (save_mat (Some 4) None ds) = inr ds' /\ get ds' "vel_b5" = None.
Proof.
  exists (app (map (axis_of 4) ["time"; "time_b5"; "range"; "range_b5"; "beam"; "dir"]) [var_of 4 "vel" ["dir"; "range"; "time"]; var_of 4 "vel_b5" ["range_b5"; "time_b5"]]).
  do 2 eexists. split; [cbn; tauto|]. split; [lies|]. split; vm_compute; reflexivity.
Qed.
Theorem C169_fifth_first_refuted : exists (ds : dict (entry (list nat))), lies_on (dataset_layout (signature_layout 4)) 4 (file_sizes 4) ds
  /\ load_mat (save_mat (Some 4) None ds) = inl (Raised NameError).
Proof.
  exists (app (map (axis_of 4) ["time_b5"; "range_b5"; "beam"; "dir"]) [var_of 4 "vel_b5" ["range_b5"; "time_b5"]]).
  split; [lies|]. vm_compute. reflexivity.
Qed.
(** A profile of the fifth beam with three cells comes back on other axes. *)
Theorem C169_fifth_cells_refuted : forall (V : Type) (ds ds' : dict (entry V)) n na key a m, is_fifth key = true -> NoDup (map fst ds) ->
  In (key, (["range_b5"; "time_b5"], Data a)) ds -> shape a = [3; m] -> (2 <= m)%nat ->
  load_mat (save_mat n na ds) = inr ds' -> exists b, get ds' key = Some (["dirIMU"; "time_b5"], Data b).
Proof. exact @Proofs.MatFile.three_cells. Qed.
Example C169_fifth_cells_case : exists (ds' : dict (entry (list nat))),
  load_mat (save_mat (Some 4) None [axis_of 4 "time_b5"; ("range_b5", (["range_b5"], Axis 3));
    ("vel_b5", (["range_b5"; "time_b5"], Data (counted [3; 6])))]) = inr ds'.
Proof. eexists. vm_compute. reflexivity. Qed.

(** All the theorems of this file, for one listing of axioms. *)
Definition all_theorems :=
  (@C169_vector_partial,
   @C169_awac_partial,
   @C169_trdi_partial,
   @C169_signature_partial,
   @C169_times_partial,
   @C169_times_refuted,
   @C169_single_refuted,
   @C169_computed_refuted,
   @C169_fifth_lost_refuted,
   @C169_fifth_first_refuted,
   @C169_fifth_cells_refuted).
Print Assumptions all_theorems.
