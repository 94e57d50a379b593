(** C01-C09: frame rotations, declination, inst2head. *)
From Coq Require Import Reals List String Lra Lia.
From Verif.Model Require Import Linalg Rotate.
From Verif.Spec Require Import Linalg Rotate.
From Verif.Proofs Require Linalg Rotate RotateProps Declination Inst2head.
Import ListNotations.
Open Scope R_scope.

(** ** C01 *)
Theorem C01_round_trip_restores_dataset : forall fam d out d',
  admissible fam d -> rotate2 d out = Ok d' -> rotate2 d' (coord_sys d) = Ok d.
Proof. exact (fun fam d out d' A H => proj2 (Rotate.round_trip fam d out d' A H)). Qed.

Theorem C01_rotation_keeps_dataset_admissible : forall fam d out d',
  admissible fam d -> rotate2 d out = Ok d' -> admissible fam d'.
Proof. exact (fun fam d out d' A H => proj1 (Rotate.round_trip fam d out d' A H)). Qed.

Theorem C01_rotation_succeeds : forall fam d out,
  admissible fam d -> frame_ok d (coord_sys d) -> frame_ok d (lower out) ->
  exists d', rotate2 d out = Ok d' /\ coord_sys d' = lower out.
Proof. exact Rotate.reaches. Qed.

(** ** C02 *)
Theorem C02_route_does_not_matter : forall fam d b d1 c d2,
  admissible fam d -> rotate2 d b = Ok d1 -> rotate2 d1 c = Ok d2 -> rotate2 d c = Ok d2.
Proof. exact Rotate.route. Qed.

(** ** C03 *)
Theorem C03_speed_and_error_velocity_kept : forall fam d out d' nm k c x,
  admissible fam d -> rotate2 d out = Ok d' ->
  coord_sys d <> "beam"%string -> lower out <> "beam"%string ->
  (forall v, lookup nm (data d) = Some v -> ncomp v = 3%nat \/ fam = Rdi) ->
  value d nm k c = Some x ->
  exists y, value d' nm k c = Some y /\ norm2 y = norm2 x /\ skipn 3 y = skipn 3 x.
Proof. exact RotateProps.speed_kept. Qed.

Theorem C03_principal_keeps_vertical : forall fam d out d' nm k c x,
  admissible fam d -> rotate2 d out = Ok d' ->
  (coord_sys d = "earth" \/ coord_sys d = "principal")%string ->
  (lower out = "earth" \/ lower out = "principal")%string ->
  value d nm k c = Some x ->
  exists y, value d' nm k c = Some y /\ skipn 2 y = skipn 2 x /\
    comp y 0 * comp y 0 + comp y 1 * comp y 1 = comp x 0 * comp x 0 + comp x 1 * comp x 1.
Proof. exact RotateProps.vertical_kept. Qed.

Theorem C03_other_variables_untouched : forall fam d out d' nm,
  admissible fam d -> rotate2 d out = Ok d' -> ~ In nm (rotate_vars d) ->
  (nm = "vel"%string -> inst2head d = None \/ fam <> Vector) ->
  lookup nm (data d') = lookup nm (data d).
Proof. exact RotateProps.other_kept. Qed.

(** ** C04 *)
Theorem C04_terminates : forall d out d', rotate2 d out <> Err OutOfFuel d'.
Proof. exact RotateProps.rotate2_terminates. Qed.

Theorem C04_reaches_requested_frame : forall d out d', rotate2 d out = Ok d' ->
  (d' = d /\ lower (coord_sys d) = lower out) \/ coord_sys d' = lower out.
Proof. exact RotateProps.rotate2_reaches. Qed.

Theorem C04_labels_of_requested_frame : forall fam d out d',
  admissible fam d -> rotate2 d out = Ok d' ->
  coord_sys d' = lower out /\ dir d' = axis_labels fam (lower out) (beam_labels d') /\
  (dirIMU d' = None \/ dirIMU d' = Some (imu_labels (lower out))).
Proof. exact RotateProps.labels_reached. Qed.

Theorem C04_unknown_rejected_unmodified : forall d out,
  family_of (make_model d) = None \/ ~ In (lower out) frames \/
  ~ In (lower (coord_sys d)) ("ship"%string :: frames) ->
  exists e, rotate2 d out = Err e d.
Proof. exact RotateProps.rejected. Qed.

Theorem C04_ship_to_inst_or_beam_is_an_error : forall d out,
  coord_sys d = "ship"%string -> lower out = "inst"%string \/ lower out = "beam"%string ->
  exists e d', rotate2 d out = Err e d'.
Proof. exact RotateProps.ship_down. Qed.

Theorem C04_ship_to_earth_as_from_inst : forall d out,
  admissible Rdi (set_cs d "inst" (dir d) (dirIMU d)) -> coord_sys d = "ship"%string ->
  lower out = "earth"%string \/ (lower out = "principal"%string /\ principal_heading d <> None) ->
  exists d', rotate2 d out = Ok d' /\ rotate2 (set_cs d "inst" (dir d) (dirIMU d)) out = Ok d'.
Proof. exact RotateProps.ship_up. Qed.

(** ** C05 *)
Theorem C05_declination_replaces : forall fam d a b,
  admissible fam d -> NoDup (rotate_vars d) -> frame_ok d (coord_sys d) ->
  exists d1 d2, set_declination d a = Ok d1 /\ set_declination d1 b = Ok d2 /\
                set_declination d b = Ok d2.
Proof. exact Declination.replaces. Qed.

Theorem C05_same_declination_twice : forall fam d a d1,
  admissible fam d -> NoDup (rotate_vars d) -> frame_ok d (coord_sys d) ->
  set_declination d a = Ok d1 -> set_declination d1 a = Ok d1.
Proof. exact Declination.twice. Qed.

Theorem C05_original_recovered : forall fam d a d1,
  admissible fam d -> NoDup (rotate_vars d) -> frame_ok d (coord_sys d) ->
  set_declination d a = Ok d1 ->
  (declination d = None -> set_declination d1 0 = Ok (set_decl d (Some 0))) /\
  (forall old, declination d = Some old -> set_declination d1 old = Ok d).
Proof. exact Declination.recovers. Qed.

(** ** C06 *)
Theorem C06_earth_velocity_turns_clockwise : forall fam d a d' nm k c x,
  admissible fam d -> NoDup (rotate_vars d) -> coord_sys d = "earth"%string ->
  set_declination d a = Ok d' -> In nm (rotate_vars d) ->
  value d nm k c = Some x -> value d' nm k c = Some (clockwise (declination_change d a) x).
Proof. exact Declination.earth_clockwise. Qed.

Theorem C06_other_frames_unchanged : forall fam d a d',
  admissible fam d -> NoDup (rotate_vars d) -> frame_ok d (coord_sys d) ->
  coord_sys d <> "earth"%string -> set_declination d a = Ok d' -> data d' = data d.
Proof. exact Declination.not_earth_same. Qed.

Theorem C06_attributes : forall fam d a d',
  admissible fam d -> NoDup (rotate_vars d) -> frame_ok d (coord_sys d) ->
  set_declination d a = Ok d' ->
  declination d' = Some a /\ coord_sys d' = coord_sys d /\
  heading d' = option_map (map (fun h => h + declination_change d a)) (heading d) /\
  principal_heading d' = option_map (fun h => h + declination_change d a) (principal_heading d).
Proof. exact Declination.attributes. Qed.

Theorem C06_commutes_with_rotate2 : forall fam d out a d1 d2,
  admissible fam d -> NoDup (rotate_vars d) -> frame_ok d (coord_sys d) ->
  rotate2 d out = Ok d1 -> set_declination d a = Ok d2 ->
  exists d3, rotate2 d2 out = Ok d3 /\ set_declination d1 a = Ok d3.
Proof. exact Declination.commutes. Qed.

(** ** C07 *)
Theorem C07_principal_data_unaffected : forall fam d a d' out d1,
  admissible fam d -> NoDup (rotate_vars d) -> coord_sys d = "principal"%string ->
  principal_heading d <> None -> set_declination d a = Ok d' -> lower out = "earth"%string ->
  rotate2 d out = Ok d1 ->
  data d' = data d /\
  exists d2, rotate2 d' out = Ok d2 /\
    forall nm k c x, In nm (rotate_vars d) -> value d1 nm k c = Some x ->
      value d2 nm k c = Some (clockwise (declination_change d a) x).
Proof. exact Declination.principal_unaffected. Qed.

Theorem C07_principal_frame_same_before_and_after : forall fam d a d' dp,
  admissible fam d -> NoDup (rotate_vars d) -> frame_ok d (coord_sys d) ->
  set_declination d a = Ok d' -> rotate2 d "principal" = Ok dp ->
  exists dp', rotate2 d' "principal" = Ok dp' /\ data dp' = data dp.
Proof. exact Declination.principal_same. Qed.

(** ** C08 *)
Theorem C08_same_in_every_frame : forall M d out d1 d2,
  admissible Vector d -> proper_rotation M -> In "vel"%string (rotate_vars d) ->
  inst_model d = "vector"%string -> inst2head d = None -> frame_ok d (coord_sys d) ->
  rotate2 d out = Ok d1 -> set_inst2head_rotmat d M = Ok d2 ->
  exists d3, rotate2 d2 out = Ok d3 /\ set_inst2head_rotmat d1 M = Ok d3.
Proof. exact Inst2head.i2h_commutes. Qed.

Theorem C08_succeeds_once : forall M d,
  admissible Vector d -> proper_rotation M -> In "vel"%string (rotate_vars d) ->
  inst_model d = "vector"%string -> inst2head d = None -> frame_ok d (coord_sys d) ->
  exists d', set_inst2head_rotmat d M = Ok d' /\ admissible Vector d' /\ inst2head d' = Some M /\
    coord_sys d' = coord_sys d /\ forall N, set_inst2head_rotmat d' N = Err Inst2headTwice d'.
Proof. exact Inst2head.i2h_result. Qed.

Theorem C08_inst_frame_effect : forall M d d' k c x,
  admissible Vector d -> proper_rotation M -> In "vel"%string (rotate_vars d) ->
  inst_model d = "vector"%string -> inst2head d = None -> coord_sys d = "inst"%string ->
  set_inst2head_rotmat d M = Ok d' -> value d "vel" k c = Some x -> value d' "vel" k c = Some (mv M x).
Proof. exact Inst2head.i2h_inst. Qed.

Theorem C08_only_vector : forall M d,
  inst_model d <> "vector"%string -> set_inst2head_rotmat d M = Err Inst2headNotVector d.
Proof. exact Inst2head.only_vector. Qed.

(** ** C09: the check accepts a shear, whose rotations are not reversible *)
Theorem C09_accepted_matrix_not_reversible_refuted :
  exists d M d1 d2 d3, set_inst2head_rotmat d M = Ok d1 /\ coord_sys d1 = "beam"%string /\
    is_mat 3 M /\
    check_rotmat_det M = true /\ rotate2 d1 "inst" = Ok d2 /\ rotate2 d2 "beam" = Ok d3 /\
    value d3 "vel" 0 0 <> value d1 "vel" 0 0.
Proof. exact Inst2head.shear_counterexample. Qed.

Theorem C09_orthonormal_accepted_is_proper_partial : forall M,
  orthonormal M -> check_rotmat_det M = true -> proper_rotation M.
Proof. exact (fun M O H => conj O (Inst2head.accepted_orthonormal M O H)). Qed.

Theorem C09_reversible_only_if_orthonormal : forall M, is_mat 3 M ->
  (forall x, is_vec 3 x -> mv M (mv (tr 3 M) x) = x) ->
  (forall x, is_vec 3 x -> mv (tr 3 M) (mv M x) = x) -> orthonormal M.
Proof. exact Inst2head.reversible_orthonormal. Qed.

(** ** Concrete datasets that meet the hypotheses *)
Definition O_ex : mat := [[0;0-1;0];[1;0;0];[0;0;1]].
Definition B_ex : mat := [[2;0;1];[0;3;0];[1;0;1]].
Definition M_ex : mat := [[0;0;1];[1;0;0];[0;1;0]].
Definition vector_ex : ds :=
  Ds "nortek vector" "vector" "earth" ["E";"N";"U"]%string (Some ["E";"N";"U"]%string)
     ["1";"2";"3"]%string "up" B_ex [O_ex; O_ex] (Some [10; 20]) None false (Some 37) (Some 15)
     ["vel"; "accel"]%string
     [("vel"%string, Var 3 [[[1;2;3]]; [[4;5;6]]]); ("accel"%string, Var 3 [[[1;0;0]]; [[0;1;0]]]);
      ("corr"%string, Var 1 [[[7]]; [[8]]])].
Definition signature_ex : ds :=
  Ds "nortek signature1000" "signature1000" "inst" ["X";"Y";"Z1";"Z2"]%string None
     ["1";"2";"3";"4"]%string "down" [[1;0;0;0];[0;1;0;0];[0;0;1;0];[0;0;0;2]] [O_ex] None None false
     None None ["vel"; "accel"]%string
     [("vel"%string, Var 4 [[[1;2;3;4]; [5;6;7;8]]]); ("accel"%string, Var 3 [[[1;0;0]]])].
Definition rdi_ex : ds :=
  Ds "teledyne rdi workhorse" "workhorse" "ship" ["X";"Y";"Z";"err"]%string None
     ["1";"2";"3";"4"]%string "down" [[1;0;0;0];[0;1;0;0];[0;0;1;0];[0;0;0;2]] [O_ex] None None false
     (Some 12) None ["vel"]%string [("vel"%string, Var 4 [[[1;2;3;4]; [5;6;7;8]]])].

Lemma O_ex_orth : orthonormal O_ex.
Proof. apply Linalg.orth_of_eqs; repeat split; ring. Qed.
Lemma M_ex_proper : proper_rotation M_ex.
Proof. split; [apply Linalg.orth_of_eqs; repeat split; ring|unfold det3, entry, M_ex; cbn; ring]. Qed.
Lemma B_ex_det : det 3 B_ex = 3.
Proof. unfold B_ex. cbn. unfold sgn. cbn. ring. Qed.
Lemma diag_det a b c d : det 4 [[a;0;0;0];[0;b;0;0];[0;0;c;0];[0;0;0;d]] = a * b * c * d.
Proof. cbn. unfold sgn. cbn. ring. Qed.

Example vector_ex_admissible : admissible Vector vector_ex.
Proof.
  constructor; try reflexivity.
  - repeat split.
  - simpl; tauto.
  - right; reflexivity.
  - exists 3%nat. split; [tauto|]. split; [split; [reflexivity|repeat constructor]|].
    change (det 3 B_ex <> 0). rewrite B_ex_det. lra.
  - repeat (apply Forall_cons; [apply O_ex_orth|]); apply Forall_nil.
  - discriminate.
  - repeat constructor; simpl; intuition discriminate.
  - intros nm [<-|[<-|[]]]; eexists; (split; [reflexivity|]); (split; [|reflexivity]); (split; [reflexivity|]);
      repeat constructor.
  - discriminate.
Qed.
Example signature_ex_admissible : admissible Signature signature_ex.
Proof.
  constructor; try reflexivity.
  - repeat split. left. reflexivity.
  - simpl; tauto.
  - left; reflexivity.
  - exists 4%nat. split; [tauto|]. split; [split; [reflexivity|repeat constructor]|].
    simpl beam2inst. rewrite diag_det. lra.
  - repeat (apply Forall_cons; [apply O_ex_orth|]); apply Forall_nil.
  - intros _. repeat constructor. unfold entry. simpl. lra.
  - repeat constructor; simpl; intuition discriminate.
  - intros nm [<-|[<-|[]]]; eexists; (split; [reflexivity|]); (split; [split; [reflexivity|repeat constructor]|]);
      simpl; tauto.
  - discriminate.
Qed.
Example rdi_ex_admissible : admissible Rdi (set_cs rdi_ex "inst" (dir rdi_ex) (dirIMU rdi_ex)).
Proof.
  constructor; try reflexivity.
  - repeat split.
  - simpl; tauto.
  - left; reflexivity.
  - exists 4%nat. split; [tauto|]. split; [split; [reflexivity|repeat constructor]|].
    simpl beam2inst. rewrite diag_det. lra.
  - repeat (apply Forall_cons; [apply O_ex_orth|]); apply Forall_nil.
  - discriminate.
  - repeat constructor; simpl; intuition discriminate.
  - intros nm [<-|[]]; eexists; (split; [reflexivity|]); (split; [split; [reflexivity|repeat constructor]|]);
      simpl; lia.
  - discriminate.
Qed.
(** C01, C02, C03, C05-C08: rotations that succeed, in an earth-frame Vector file with a
    principal heading and a declination *)
Example vector_ex_frames : NoDup (rotate_vars vector_ex) /\ frame_ok vector_ex (coord_sys vector_ex) /\
  forall f, In f frames -> exists d', rotate2 vector_ex f = Ok d'.
Proof.
  split; [repeat constructor; simpl; intuition discriminate|].
  assert (F : forall f, In f frames -> frame_ok vector_ex f) by (intros f H; split; [exact H|discriminate]).
  split; [apply F; simpl; tauto|]. intros f H.
  destruct (C01_rotation_succeeds Vector vector_ex f vector_ex_admissible) as (d' & E & _).
  - apply F. simpl. tauto.
  - replace (lower f) with f; [apply F; exact H|].
    repeat (destruct H as [<-|H]; [reflexivity|]). destruct H.
  - exists d'. exact E.
Qed.
Example vector_ex_inst2head : exists d', set_inst2head_rotmat vector_ex M_ex = Ok d'.
Proof.
  destruct (C08_succeeds_once M_ex vector_ex) as (d' & E & _); try reflexivity.
  - apply vector_ex_admissible.
  - apply M_ex_proper.
  - simpl; tauto.
  - apply vector_ex_frames.
  - exists d'. exact E.
Qed.
(** an admissible dataset that carries an inst2head rotation *)
Example vector_ex_with_head : exists d', admissible Vector d' /\ inst2head d' = Some M_ex.
Proof.
  destruct (C08_succeeds_once M_ex vector_ex) as (d' & _ & A & B & _); try reflexivity.
  - apply vector_ex_admissible.
  - apply M_ex_proper.
  - simpl; tauto.
  - apply vector_ex_frames.
  - exists d'. auto.
Qed.
(** C04: the ship-frame TRDI dataset *)
Example rdi_ex_to_earth : exists d', rotate2 rdi_ex "earth" = Ok d'.
Proof.
  destruct (C04_ship_to_earth_as_from_inst rdi_ex "earth") as (d' & E & _).
  - apply rdi_ex_admissible.
  - reflexivity.
  - left. reflexivity.
  - exists d'. exact E.
Qed.
Example rejected_ex : exists e, rotate2 vector_ex "moon" = Err e vector_ex.
Proof. apply C04_unknown_rejected_unmodified. right. left. simpl. intuition discriminate. Qed.

(** All the theorems of this file, for one listing of axioms. *)
Definition all_theorems :=
  (@C01_round_trip_restores_dataset,
   @C01_rotation_keeps_dataset_admissible,
   @C01_rotation_succeeds,
   @C02_route_does_not_matter,
   @C03_speed_and_error_velocity_kept,
   @C03_principal_keeps_vertical,
   @C03_other_variables_untouched,
   @C04_terminates,
   @C04_reaches_requested_frame,
   @C04_labels_of_requested_frame,
   @C04_unknown_rejected_unmodified,
   @C04_ship_to_inst_or_beam_is_an_error,
   @C04_ship_to_earth_as_from_inst,
   @C05_declination_replaces,
   @C05_same_declination_twice,
   @C05_original_recovered,
   @C06_earth_velocity_turns_clockwise,
   @C06_other_frames_unchanged,
   @C06_attributes,
   @C06_commutes_with_rotate2,
   @C07_principal_data_unaffected,
   @C07_principal_frame_same_before_and_after,
   @C08_same_in_every_frame,
   @C08_succeeds_once,
   @C08_inst_frame_effect,
   @C08_only_vector,
   @C09_accepted_matrix_not_reversible_refuted,
   @C09_orthonormal_accepted_is_proper_partial,
   @C09_reversible_only_if_orthonormal).
Print Assumptions all_theorems.
