(** C141, C142: datasets hold everything that was read, on the right axes. *)
From Coq Require Import String.
From Coq Require Import List Bool Arith Lia.
From Verif.Model Require Import SigData CreateDataset.
From Verif.Spec Require Import CreateDataset.
From Verif.Proofs Require CreateDataset.
Import ListNotations.
Open Scope string_scope.

(** C141. Whatever variables of its layout a reader has collected, in whatever order and of whatever sizes: the dataset
    is made, and every coordinate and every variable is in it, with its values, on the axes of its own record. *)
Theorem C141_signature : forall (V : Type) nb size (c : collected V), nb = 3 \/ nb = 4 -> fits (signature_layout nb) nb size c ->
  (forall key a, In (key, a) (data_vars c) -> contains "bt" key = true -> In "time_bt" (map fst (coords c))) ->
  exists ds, create_dataset c = inr ds /\ complete (signature_layout nb) c ds.
Proof. exact @Proofs.CreateDataset.signature_assembled. Qed.
Theorem C141_trdi : forall (V : Type) size (c : collected V), fits trdi_layout 4 size c -> ~ In "time_bt" (map fst (coords c)) ->
  exists ds, create_dataset c = inr ds /\ complete trdi_layout c ds.
Proof. exact @Proofs.CreateDataset.trdi_assembled. Qed.
Theorem C141_vector : forall (V : Type) size (c : collected V), fits vector_layout 3 size c ->
  exists ds, create_dataset c = inr ds /\ complete vector_layout c ds.
Proof. exact @Proofs.CreateDataset.vector_assembled. Qed.
Theorem C141_awac : forall (V : Type) size (c : collected V), fits awac_layout 3 size c ->
  exists ds, create_dataset c = inr ds /\ complete awac_layout c ds.
Proof. exact @Proofs.CreateDataset.awac_assembled. Qed.

(** a Signature with bursts of four beams, averages, a fifth beam and a bottom track; each element is its index *)
Definition numbered (sh : list nat) : array (list nat) := Array sh (fun ix => ix).
Definition sig_file : collected (list nat) :=
  Collected [("time", 6); ("time_avg", 6); ("time_b5", 6); ("time_bt", 6); ("range", 5); ("range_avg", 7); ("range_b5", 9)]
    (Some 4) (Some 4)
    [("pitch", numbered [6]); ("mag", numbered [3; 6]); ("vel", numbered [4; 5; 6]); ("amp_avg", numbered [4; 7; 6]);
     ("pitch_avg", numbered [6]); ("vel_bt", numbered [4; 6]); ("accel_b5", numbered [3; 6]); ("vel_b5", numbered [1; 9; 6]);
     ("orientmat", numbered [3; 3; 6]); ("beam2inst_orientmat", numbered [4; 4])].
Definition sig_sizes (k : string) : nat :=
  if existsb (String.eqb k) ["beam"; "dir"; "x1"; "x2"; "q"] then 4
  else if existsb (String.eqb k) ["dirIMU"; "earth"; "inst"] then 3
  else match get (coords sig_file) k with Some n => n | None => 0 end.
Example C141_signature_fits : fits (signature_layout 4) 4 sig_sizes sig_file
  /\ (forall key a, In (key, a) (data_vars sig_file) -> contains "bt" key = true -> In "time_bt" (map fst (coords sig_file))).
Proof.
  split; [|intros; cbn; tauto].
  split; [repeat split|]. split; [now left|]. split; [|split; [|split]].
  - repeat (constructor; [cbn; intuition discriminate|]). constructor.
  - repeat (constructor; [cbn; intuition discriminate|]). constructor.
  - intros k n H. cbn in H. repeat destruct H as [H|H]; [injection H as <- <-; split; [cbn; tauto|reflexivity]..|contradiction].
  - intros key a H. cbn [data_vars sig_file] in H.
    repeat destruct H as [H|H]; [injection H as <- <-; eexists; split; [vm_compute; reflexivity|vm_compute; reflexivity]..|contradiction].
Qed.
Example C141_signature_example : exists ds, create_dataset sig_file = inr ds
  /\ option_map fst (get ds "mag") = Some ["dirIMU"; "time"] /\ option_map fst (get ds "amp_avg") = Some ["beam"; "range_avg"; "time_avg"]
  /\ option_map fst (get ds "vel_b5") = Some ["range_b5"; "time_b5"].
Proof. eexists. split; [vm_compute; reflexivity|]. repeat split. Qed.
Example C141_others_fit :
  fits trdi_layout 4 (fun k => if existsb (String.eqb k) ["beam"; "dir"; "x1"; "x2"; "q"] then 4
      else if existsb (String.eqb k) ["dirIMU"; "earth"; "inst"] then 3 else if k =? "range_sl" then 2 else if k =? "time_gps" then 9 else 6)
    (Collected [("time", 6); ("time_gps", 9); ("range", 6); ("range_sl", 2)] (Some 4) None
      [("vel", numbered [4; 6; 6]); ("amp_bt", numbered [4; 6]); ("status_sl", numbered [4; 2; 6]); ("hdop_gps", numbered [9])])
  /\ fits vector_layout 3 (fun k => if existsb (String.eqb k) ["beam"; "dir"; "x1"; "x2"; "dirIMU"; "earth"; "inst"] then 3
      else if k =? "q" then 4 else 8)
    (Collected [("time", 8)] (Some 3) None [("vel", numbered [3; 8]); ("corr", numbered [3; 8]); ("mag", numbered [3; 8]); ("temp", numbered [8])]).
Proof.
  split.
  - split; [repeat split|]. split; [now right|]. split; [|split; [|split]].
    + repeat (constructor; [cbn; intuition discriminate|]). constructor.
    + repeat (constructor; [cbn; intuition discriminate|]). constructor.
    + intros k n H. cbn in H. repeat destruct H as [H|H]; [injection H as <- <-; split; [cbn; tauto|reflexivity]..|contradiction].
    + intros key a H. cbn [data_vars] in H.
      repeat destruct H as [H|H]; [injection H as <- <-; eexists; split; [vm_compute; reflexivity|vm_compute; reflexivity]..|contradiction].
  - split; [repeat split|]. split; [now right|]. split; [|split; [|split]].
    + repeat (constructor; [cbn; intuition discriminate|]). constructor.
    + repeat (constructor; [cbn; intuition discriminate|]). constructor.
    + intros k n H. cbn in H. repeat destruct H as [H|H]; [injection H as <- <-; split; [cbn; tauto|reflexivity]..|contradiction].
    + intros key a H. cbn [data_vars] in H.
      repeat destruct H as [H|H]; [injection H as <- <-; eexists; split; [vm_compute; reflexivity|vm_compute; reflexivity]..|contradiction].
Qed.

(** C142. The number of beams is taken once, from the averages if there are any, and made 3 or 4. No file whose profiles
    have another number of beams can be read: one or two beams, or bursts and averages with different numbers. *)
Theorem C142_beams_refuted : forall (V : Type) (c : collected V) nb key a n m p, number_of_beams c = Some nb ->
  NoDup (map fst (data_vars c)) -> ~ In "dir" (map fst (data_vars c)) -> ~ In "beam" (map fst (data_vars c)) ->
  In (key, a) (data_vars c) -> In key ["vel"; "amp"; "corr"; "vel_avg"; "amp_avg"; "corr_avg"] -> shape a = [n; m; p] -> n <> nb ->
  exists e, create_dataset c = inl e.
Proof. exact @Proofs.CreateDataset.beams_conflict. Qed.
(** bursts with four beams and averages with three; a plan with one beam *)
Example C142_plans : create_dataset (Collected [("time", 6); ("time_avg", 6); ("range", 5); ("range_avg", 7)] (Some 4) (Some 3)
    [("vel", numbered [4; 5; 6]); ("vel_avg", numbered [3; 7; 6])]) = inl ValueError
  /\ create_dataset (Collected [("time", 6); ("range", 5)] (Some 1) None [("vel", numbered [1; 5; 6])]) = inl ValueError.
Proof. split; vm_compute; reflexivity. Qed.
(** one or two beams, with averages or without *)
Theorem C142_few_beams_refuted : forall (V : Type) (c : collected V) key a n m p,
  n_beams_avg c = Some n \/ n_beams_avg c = None /\ n_beams_attr c = Some n -> (n < 3)%nat ->
  NoDup (map fst (data_vars c)) -> ~ In "dir" (map fst (data_vars c)) -> ~ In "beam" (map fst (data_vars c)) ->
  In (key, a) (data_vars c) -> In key ["vel"; "amp"; "corr"; "vel_avg"; "amp_avg"; "corr_avg"] -> shape a = [n; m; p] ->
  exists e, create_dataset c = inl e.
Proof.
  intros V c key a n m p Hb Hn N D B I K S. apply (C142_beams_refuted V c 3 key a n m p); try assumption; [|lia].
  unfold number_of_beams. destruct Hb as [Hb|(Ha & Hb)]; [rewrite Hb|rewrite Ha, Hb]; f_equal; lia.
Qed.
(** A bottom track with four beams beside averages with three is lost without a message. *)
Theorem C142_bottom_track_lost_refuted : exists (c : collected (list nat)) a ds, In ("vel_bt", a) (data_vars c)
  /\ create_dataset c = inr ds /\ get ds "vel_bt" = None.
Proof.
  exists (Collected [("time_avg", 6); ("time_bt", 6); ("range_avg", 7)] None (Some 3)
    [("pitch_avg", numbered [6]); ("vel_avg", numbered [3; 7; 6]); ("vel_bt", numbered [4; 6]); ("pitch_bt", numbered [6])]).
  exists (numbered [4; 6]). eexists. split; [cbn; tauto|]. split; [vm_compute; reflexivity|]. reflexivity.
Qed.
(** One with three beams in a file of four is put on the axis of the motion sensor, not on that of the velocities. *)
Theorem C142_bottom_track_axis_refuted : forall (V : Type) (c : collected V) a n ds, create_dataset c = inr ds ->
  number_of_beams c = Some 4 -> NoDup (map fst (data_vars c)) -> In ("vel_bt", a) (data_vars c) -> shape a = [3; n] ->
  get ds "vel_bt" = Some (["dirIMU"; "time_bt"], Data a).
Proof. exact @Proofs.CreateDataset.bt3_axis. Qed.
(** The figure of merit of the bottom track, one number per beam, is put on the axis of the velocity components. *)
Theorem C142_figure_of_merit_refuted : forall (V : Type) (c : collected V) nb a n ds, create_dataset c = inr ds ->
  (nb = 3 \/ nb = 4) -> number_of_beams c = Some nb -> NoDup (map fst (data_vars c)) -> In ("fom_bt", a) (data_vars c) ->
  shape a = [nb; n] -> get (coords c) "time_bt" <> None ->
  get ds "fom_bt" = Some (["dir"; "time_bt"], Data a).
Proof. exact @Proofs.CreateDataset.fom_axis. Qed.
Example C142_axes_example : exists ds, create_dataset (Collected [("time_bt", 6)] (Some 4) None
    [("fom_bt", numbered [4; 6]); ("vel_bt", numbered [3; 6])]) = inr ds
  /\ get ds "fom_bt" <> None /\ get ds "vel_bt" <> None.
Proof. eexists. split; [vm_compute; reflexivity|]. split; discriminate. Qed.

(** All the theorems of this file, for one listing of axioms. *)
Definition all_theorems :=
  (@C141_signature,
   @C141_trdi,
   @C141_vector,
   @C141_awac,
   @C142_beams_refuted,
   @C142_few_beams_refuted,
   @C142_bottom_track_lost_refuted,
   @C142_bottom_track_axis_refuted,
   @C142_figure_of_merit_refuted).
Print Assumptions all_theorems.
