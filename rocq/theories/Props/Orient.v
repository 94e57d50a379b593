(** C10-C17, C81-C83: orientation matrices, Euler angles, quaternions, TRDI beam matrix,
    explicit effect of each rotation, principal heading, tilt, angle conventions. *)
From Coq Require Import Reals List String Lra Lia Ratan.
From Verif.Model Require Import Linalg Rotate Angles Euler Principal.
From Verif.Spec Require Import Linalg Rotate Euler Principal.
From Verif.Proofs Require Linalg Rotate Angles Euler RotateValues Principal.
From Verif.Props Require Rotate.
Import ListNotations.
Open Scope R_scope.

(** ** C10 *)
Theorem C10_euler2orient_proper : forall h p r units O,
  euler2orient h p r units = Some O -> proper_rotation O.
Proof. exact Euler.euler_proper. Qed.

Theorem C10_nortek_proper : forall h p r down, proper_rotation (nortek_omat h p r down).
Proof. exact Euler.nortek_proper. Qed.

Theorem C10_trdi_proper : forall h p r up level, proper_rotation (rdi_orientmat h p r up level).
Proof. exact Euler.rdi_proper. Qed.

Theorem C10_euler2orient_and_nortek_agree : forall h p r,
  euler2orient h p r "degrees" = Some (nortek_omat h p r false).
Proof. exact Euler.nortek_agrees. Qed.

(** mounted downwards: the x-axis stays, y and z point the other way *)
Theorem C10_nortek_mounted_downwards : forall h p r i, (i < 3)%nat ->
  let up := nortek_omat h p r false in let down := nortek_omat h p r true in
  entry down 0 i = entry up 0 i /\ entry down 1 i = - entry up 1 i /\ entry down 2 i = - entry up 2 i.
Proof. exact Euler.nortek_down_rows. Qed.

(** The instrument x-axis points to the heading (clockwise from North) and up by the pitch;
    positive roll lifts the y-axis. *)
Theorem C10_axes_of_euler_angles : forall h p r O, euler2orient h p r "degrees" = Some O ->
  let s x := sin (deg2rad x) in let c x := cos (deg2rad x) in
  nth 0 O [] = [c p * s h; c p * c h; s p] /\ entry O 1 2 = c p * s r /\ entry O 2 2 = c p * c r.
Proof. exact Euler.euler_axes. Qed.

(** A TRDI heading is that of the y-axis (beam 3); an upward instrument has its x- and z-axes
    reversed. *)
Theorem C10_axes_of_trdi_angles : forall h p r up, let O := rdi_orientmat h p r up false in
  let p' := atan (tan (deg2rad p) * cos (deg2rad r)) in
  let sg := if up then -1 else 1 in
  nth 1 O [] = [cos p' * sin (deg2rad h); cos p' * cos (deg2rad h); sin p'] /\
  entry O 0 2 = - sg * cos p' * sin (deg2rad r) /\ entry O 2 2 = sg * cos p' * cos (deg2rad r).
Proof. exact Euler.rdi_axes. Qed.

(** ** C11 *)
Theorem C11_angles_recovered : forall h p r O, 0 <= h < 360 -> -90 < p < 90 -> -180 < r <= 180 ->
  euler2orient h p r "degrees" = Some O -> orient2euler O = (h, p, r).
Proof.
  exact (fun h p r O Hh Hp Hr E =>
    eq_trans (f_equal orient2euler (eq_sym (f_equal (fun x => match x with Some M => M | None => O end) E)))
             (Euler.o2e_e2o h p r Hh Hp Hr)).
Qed.

Theorem C11_angle_ranges : forall O, let '(h, p, r) := orient2euler O in
  0 <= h < 360 /\ -90 <= p <= 90 /\ -180 < r <= 180.
Proof. exact Euler.o2e_ranges. Qed.

Theorem C11_matrix_recovered : forall O, proper_rotation O -> Rabs (entry O 0 2) < 1 ->
  let '(h, p, r) := orient2euler O in euler2orient h p r "degrees" = Some O.
Proof. exact (fun O P V => f_equal Some (Euler.e2o_o2e O P V)). Qed.

(** ** C12 *)
Theorem C12_only_zero_rejected : forall q0 q1 q2 q3,
  quaternion2orient q0 q1 q2 q3 = None <-> q0 = 0 /\ q1 = 0 /\ q2 = 0 /\ q3 = 0.
Proof. exact Euler.quat_total. Qed.

Theorem C12_proper : forall q0 q1 q2 q3 O, quaternion2orient q0 q1 q2 q3 = Some O -> proper_rotation O.
Proof. exact Euler.quat_proper. Qed.

Theorem C12_sign_and_scale : forall q0 q1 q2 q3 k, k <> 0 ->
  quaternion2orient (k * q0) (k * q1) (k * q2) (k * q3) = quaternion2orient q0 q1 q2 q3.
Proof. exact Euler.quat_scale. Qed.

Theorem C12_identity : quaternion2orient 1 0 0 0 = Some [[1;0;0];[0;1;0];[0;0;1]].
Proof. exact Euler.quat_identity. Qed.

(** [q v q*] is |q|^2 times the earth vector of the instrument vector [v] *)
Theorem C12_is_conjugation : forall q0 q1 q2 q3 O v,
  quaternion2orient q0 q1 q2 q3 = Some O -> is_vec 3 v ->
  let q := (q0, q1, q2, q3) in let e := mv (tr 3 O) v in
  qmul (qmul q (qvec v)) (qconj q) =
    (0, qnorm2 q * comp e 0, qnorm2 q * comp e 1, qnorm2 q * comp e 2).
Proof. exact Euler.quat_conjugation. Qed.

(** ** C13 *)
Theorem C13_homogeneous_flow_recovered : forall th convex u v w, sin th <> 0 -> cos th <> 0 ->
  mv (rdi_beam_mat th convex) (radial th convex u v w) = [u; v; w; 0].
Proof. exact Euler.janus_inverse. Qed.

Theorem C13_invertible : forall th convex b, sin th <> 0 -> cos th <> 0 -> is_vec 4 b ->
  det 4 (rdi_beam_mat th convex) <> 0 /\
  mv (inv 4 (rdi_beam_mat th convex)) (mv (rdi_beam_mat th convex) b) = b.
Proof. exact (fun th cv b Hs Hc Hb => conj (Euler.beam_det th cv Hs Hc) (Euler.beam_round_trip th cv b Hs Hc Hb)). Qed.

Theorem C13_error_ignores_homogeneous_part : forall th convex u v w b,
  sin th <> 0 -> cos th <> 0 -> is_vec 4 b ->
  comp (mv (rdi_beam_mat th convex) (add4 (radial th convex u v w) b)) 3 =
  comp (mv (rdi_beam_mat th convex) b) 3.
Proof. exact Euler.error_only_departure. Qed.

Theorem C13_error_zero_iff_homogeneous : forall th convex b, sin th <> 0 -> cos th <> 0 -> is_vec 4 b ->
  comp (mv (rdi_beam_mat th convex) b) 3 = 0 <-> exists u v w, b = radial th convex u v w.
Proof. exact Euler.error_zero_iff. Qed.

(** ** C14 *)
Theorem C14_agreeing_verticals_rotate_as_3d : forall d out d' nm k c x y z,
  admissible Signature d -> NoDup (rotate_vars d) ->
  coord_sys d = "inst"%string -> lower out = "earth"%string -> rotate2 d out = Ok d' ->
  In nm (rotate_vars d) -> value d nm k c = Some [x; y; z; z] ->
  exists O, nth_error (orientmat d) k = Some O /\
    let u := in_earth O (mounted (String.eqb (orientation d) "down") [x; y; z]) in
    value d' nm k c = Some [comp u 0; comp u 1; comp u 2; comp u 2].
Proof.
  exact (fun d out d' nm k c x y z A =>
    RotateValues.four_beam Signature d out d' nm k c x y z A eq_refl).
Qed.

Theorem C14_invertible_iff_z_not_horizontal : forall O, orthonormal O ->
  (det 4 (rmat4 (tr 3 O)) <> 0 <-> entry O 2 2 <> 0).
Proof. exact RotateValues.four_beam_invertible. Qed.

Theorem C14_horizontal_z_refused : forall d out,
  standard_make Signature (make_model d) -> coord_sys d = "earth"%string ->
  lower out = "inst"%string -> inst2head d = None ->
  Forall orthonormal (orientmat d) -> Exists (fun O => entry O 2 2 = 0) (orientmat d) ->
  rotate2 d out = Err Singular d.
Proof. exact RotateValues.four_beam_rejected. Qed.

(** ** C15 *)
Theorem C15_reversal_invariant : forall vel vel',
  Forall2 (fun x y => y = x \/ y = reversed x) vel vel' ->
  calc_principal_heading vel' true = calc_principal_heading vel true.
Proof. exact Principal.reversal. Qed.

Theorem C15_bidirectional_flow_returns_axis : forall vel deg,
  Forall (fun p => exists t, p = (t * sin (deg2rad deg), t * cos (deg2rad deg))) (valid vel) ->
  (exists p, In p (valid vel) /\ p <> (0, 0)) ->
  exists h, calc_principal_heading vel true = Some h /\ near 180 (5 / 100000) h deg.
Proof. exact Principal.bidirectional. Qed.

Theorem C15_direction_of_mean : forall vel deg T, 0 < T ->
  sum_by fst (valid vel) = T * sin (deg2rad deg) -> sum_by snd (valid vel) = T * cos (deg2rad deg) ->
  exists h, calc_principal_heading vel false = Some h /\ near 360 (5 / 100000) h deg.
Proof. exact Principal.mean_direction. Qed.

Theorem C15_turns_with_the_flow_tidal : forall vel phi h, has_axis (valid vel) ->
  calc_principal_heading vel true = Some h ->
  exists h', calc_principal_heading (map (turned_sample phi) vel) true = Some h' /\
             near 180 (1 / 10000) h' (h + phi).
Proof. exact Principal.turns_tidal. Qed.

Theorem C15_turns_with_the_flow : forall vel phi h, has_mean_direction (valid vel) ->
  calc_principal_heading vel false = Some h ->
  exists h', calc_principal_heading (map (turned_sample phi) vel) false = Some h' /\
             near 360 (1 / 10000) h' (h + phi).
Proof. exact Principal.turns_plain. Qed.

Theorem C15_nan_only_without_valid_samples : forall vel tidal,
  calc_principal_heading vel tidal = None <-> valid vel = [].
Proof. exact Principal.heading_none. Qed.

(** ** C16 *)
Theorem C16_zero_iff_level : forall p r, -90 < p < 90 -> -90 < r < 90 ->
  (calc_tilt p r = 0 <-> p = 0 /\ r = 0).
Proof. exact Euler.tilt_zero. Qed.

Theorem C16_range : forall p r, 0 <= calc_tilt p r < 90.
Proof. exact Euler.tilt_range. Qed.

Theorem C16_even_and_symmetric : forall p r,
  calc_tilt (- p) r = calc_tilt p r /\ calc_tilt p (- r) = calc_tilt p r /\ calc_tilt r p = calc_tilt p r.
Proof.
  exact (fun p r => conj (proj1 (Euler.tilt_even p r)) (conj (proj2 (Euler.tilt_even p r)) (Euler.tilt_sym r p))).
Qed.

Theorem C16_at_least_pitch_and_roll : forall p r, -90 < p < 90 -> -90 < r < 90 ->
  Rabs p <= calc_tilt p r /\ Rabs r <= calc_tilt p r.
Proof.
  exact (fun p r Hp Hr => conj (Euler.tilt_ge_pitch p r Hp)
    (eq_ind_r (fun x => Rabs r <= x) (Euler.tilt_ge_pitch r p Hr) (Euler.tilt_sym p r))).
Qed.

(** the angle to the vertical of the z-axis of the matrix made from TRDI angles *)
Theorem C16_is_inclination_of_trdi_matrix : forall h p r, -90 < p < 90 -> -90 < r < 90 ->
  entry (rdi_orientmat h p r false false) 2 2 = cos (deg2rad (calc_tilt p r)) /\
  entry (rdi_orientmat h p r true false) 2 2 = - cos (deg2rad (calc_tilt p r)).
Proof. exact Euler.tilt_rdi. Qed.

(** for the matrix of euler2orient and of the Nortek reader: only when one of them is zero *)
Theorem C16_is_inclination_of_nortek_matrix_partial : forall h p r, -90 < p < 90 -> -90 < r < 90 ->
  p = 0 \/ r = 0 -> entry (nortek_omat h p r false) 2 2 = cos (deg2rad (calc_tilt p r)).
Proof. exact Euler.tilt_nortek_axis. Qed.

Theorem C16_is_inclination_of_nortek_matrix_refuted : exists p r, -90 < p < 90 /\ -90 < r < 90 /\
  forall h, entry (nortek_omat h p r false) 2 2 <> cos (deg2rad (calc_tilt p r)).
Proof. exact Euler.tilt_nortek_refuted. Qed.

(** ** C17 *)
Theorem C17_involution : forall deg tm tm', cong 360 (convert_degrees (convert_degrees deg tm) tm') deg.
Proof. exact Angles.conv_involution. Qed.

Theorem C17_exact_involution : forall deg,
  (0 <= deg < 360 -> convert_degrees (convert_degrees deg false) false = deg) /\
  (-180 < deg <= 180 -> convert_degrees (convert_degrees deg true) true = deg).
Proof. exact (fun deg => conj (Angles.conv_exact_plain deg) (Angles.conv_exact_tidal deg)). Qed.

Theorem C17_ranges : forall deg,
  0 <= convert_degrees deg false < 360 /\ -180 < convert_degrees deg true <= 180.
Proof. exact (fun deg => conj (Angles.conv_range_plain deg) (Angles.conv_range_tidal deg)). Qed.

Theorem C17_same_direction : forall deg tm,
  dir_cw_north (convert_degrees deg tm) = dir_ccw_east deg /\
  dir_ccw_east (convert_degrees deg tm) = dir_cw_north deg.
Proof. exact Angles.conv_direction. Qed.

(** ** C81 *)
Theorem C81_beam_to_inst : forall fam d out d' nm k c x, admissible fam d -> NoDup (rotate_vars d) ->
  coord_sys d = "beam"%string -> lower out = "inst"%string -> rotate2 d out = Ok d' ->
  In nm (rotate_vars d) -> value d nm k c = Some x ->
  List.length x = List.length (beam2inst d) ->
  (fam = Vector -> nm = "vel"%string -> inst2head d = None) ->
  value d' nm k c = Some (mv (beam2inst d) x).
Proof. exact RotateValues.beam_to_inst. Qed.

Theorem C81_inst_to_earth : forall fam d out d' nm k c x, admissible fam d -> NoDup (rotate_vars d) ->
  coord_sys d = "inst"%string -> lower out = "earth"%string -> rotate2 d out = Ok d' ->
  In nm (rotate_vars d) -> value d nm k c = Some x ->
  (fam = Signature -> List.length x = 3%nat) ->
  exists O, nth_error (orientmat d) k = Some O /\
    value d' nm k c =
      Some (in_earth O (mounted (match fam with Signature => String.eqb (orientation d) "down"
                                 | _ => false end) (firstn 3 x)) ++ skipn 3 x).
Proof. exact RotateValues.inst_to_earth. Qed.

Theorem C81_earth_to_principal : forall fam d out d' nm k c x ph, admissible fam d -> NoDup (rotate_vars d) ->
  coord_sys d = "earth"%string -> lower out = "principal"%string -> rotate2 d out = Ok d' ->
  principal_heading d = Some ph ->
  In nm (rotate_vars d) -> value d nm k c = Some x ->
  value d' nm k c =
    Some (along ph (comp x 0) (comp x 1) :: left_of ph (comp x 0) (comp x 1) :: skipn 2 x).
Proof. exact RotateValues.earth_to_principal. Qed.

(** ** C82 *)
Theorem C82_tidal_range : forall vel h, calc_principal_heading vel true = Some h -> 0 <= h <= 180.
Proof. exact Principal.range_tidal. Qed.

Theorem C82_plain_range_partial : forall vel h, calc_principal_heading vel false = Some h -> -90 <= h <= 270.
Proof. exact Principal.range_plain. Qed.

Theorem C82_plain_range_refuted : exists vel h, calc_principal_heading vel false = Some h /\ h < 0.
Proof. exact Principal.range_plain_refuted. Qed.

(** ** C83 *)
Theorem C83_valid_end_untouched : forall (l : list hpr) t l', rev l = t :: l' -> ~ unknown t ->
  fill_tail l = Some l.
Proof. exact Euler.fill_tail_kept. Qed.

Theorem C83_trailing_gap_filled : forall (l : list hpr) t l', rev l = t :: l' -> unknown t -> Exists known l ->
  exists out g, fill_tail l = Some out /\ List.length out = List.length l /\
    known (nth g l (None, None, None)) /\ (g < List.length l)%nat /\
    (forall j, (g < j < List.length l)%nat -> ~ known (nth j l (None, None, None))) /\
    (forall j, (j <= g)%nat -> nth j out (None, None, None) = nth j l (None, None, None)) /\
    (forall j, (g <= j < List.length l)%nat -> nth j out (None, None, None) = nth g l (None, None, None)).
Proof. exact Euler.fill_tail_filled. Qed.

(** ** the hypotheses are met *)
Example euler_ex : exists O, euler2orient 30 20 10 "Degrees" = Some O /\ Rabs (entry O 0 2) < 1.
Proof.
  eexists. split; [reflexivity|]. rewrite Euler.euler_rad_entries. unfold entry. cbn [nth].
  pose proof (Euler.cos_deg 20 ltac:(lra)) as C. pose proof (Euler.sc (deg2rad 20)) as Q.
  assert (0 < cos (deg2rad 20) * cos (deg2rad 20)) by (apply Rmult_lt_0_compat; exact C).
  apply Rabs_def1; destruct (Rlt_le_dec (sin (deg2rad 20)) 1); destruct (Rlt_le_dec (-1) (sin (deg2rad 20))); try assumption; exfalso.
  - assert (1 * 1 <= sin (deg2rad 20) * sin (deg2rad 20)) by (apply Rmult_le_compat; lra). lra.
  - assert (1 * 1 <= sin (deg2rad 20) * sin (deg2rad 20)) by (apply Rmult_le_compat; lra). lra.
  - assert (1 * 1 <= (- sin (deg2rad 20)) * (- sin (deg2rad 20))) by (apply Rmult_le_compat; lra). lra.
  - assert (1 * 1 <= sin (deg2rad 20) * sin (deg2rad 20)) by (apply Rmult_le_compat; lra). lra.
Qed.
Example quat_ex : exists O, quaternion2orient 1 2 (-3) 4 = Some O.
Proof.
  destruct (quaternion2orient 1 2 (-3) 4) as [O|] eqn:E; [exists O; reflexivity|].
  apply C12_only_zero_rejected in E. lra.
Qed.
Example beam_ex : sin (PI / 6) <> 0 /\ cos (PI / 6) <> 0.
Proof. rewrite sin_PI6, cos_PI6. pose proof (sqrt_lt_R0 3). split; lra. Qed.
(** a Signature dataset with agreeing vertical estimates, instrument frame, mounted down *)
Definition sig_agree : ds :=
  set_data Rotate.signature_ex [("vel"%string, Var 4 [[[1;2;3;3]; [5;6;7;7]]]); ("accel"%string, Var 3 [[[1;0;0]]])].
Example sig_agree_ok : admissible Signature sig_agree /\ NoDup (rotate_vars sig_agree) /\
  value sig_agree "vel" 0 1 = Some [5;6;7;7] /\ exists d', rotate2 sig_agree "earth" = Ok d'.
Proof.
  assert (A : admissible Signature sig_agree).
  { destruct Rotate.signature_ex_admissible. constructor; try assumption.
    - intros nm [<-|[<-|[]]]; eexists; (split; [reflexivity|]); (split; [split; [reflexivity|repeat constructor]|]);
      simpl; tauto.
    - discriminate. }
  split; [exact A|]. split; [repeat constructor; simpl; intuition discriminate|]. split; [reflexivity|].
  destruct (Rotate.C01_rotation_succeeds Signature sig_agree "earth" A) as (d' & E & _).
  - split; [simpl; tauto|discriminate].
  - split; [simpl; tauto|discriminate].
  - exists d'. exact E.
Qed.
Example horizontal_z : orthonormal [[1;0;0];[0;0;1];[0;-1;0]] /\ entry [[1;0;0];[0;0;1];[0;-1;0]] 2 2 = 0.
Proof. split; [apply Linalg.orth_of_eqs; repeat split; ring|reflexivity]. Qed.
(** ebb and flood along 30 degrees, with a missing sample *)
Example tidal_ex : let vel := [(Some (2 * sin (deg2rad 30)), Some (2 * cos (deg2rad 30))); (None, Some 1);
                               (Some (-3 * sin (deg2rad 30)), Some (-3 * cos (deg2rad 30)))] in
  exists h, calc_principal_heading vel true = Some h /\ near 180 (5 / 100000) h 30.
Proof.
  cbv zeta. apply C15_bidirectional_flow_returns_axis.
  - cbn [valid]. repeat constructor; eexists; reflexivity.
  - cbn [valid]. eexists. split; [left; reflexivity|]. intros E. injection E as E1 E2.
    pose proof (Euler.sc (deg2rad 30)) as Q.
    assert (S0 : sin (deg2rad 30) = 0) by lra. assert (C0 : cos (deg2rad 30) = 0) by lra. rewrite S0, C0 in Q. lra.
Qed.
Example axis_ex : has_axis (valid [(Some 1, Some 0)]) /\ has_mean_direction (valid [(Some 1, Some 0)]).
Proof.
  split; left; cbn.
  - replace (1 * 1 + 0 * 0) with 1 by ring. rewrite sqrt_1. lra.
  - lra.
Qed.
Example tail_ex : fill_tail [(Some 1, Some 2, Some 3); (None, Some 5, Some 6); (None, None, None)]
  = Some [(Some 1, Some 2, Some 3); (Some 1, Some 2, Some 3); (Some 1, Some 2, Some 3)].
Proof. reflexivity. Qed.

(** All the theorems of this file, for one listing of axioms. *)
Definition all_theorems :=
  (@C10_euler2orient_proper,
   @C10_nortek_proper,
   @C10_trdi_proper,
   @C10_euler2orient_and_nortek_agree,
   @C10_nortek_mounted_downwards,
   @C10_axes_of_euler_angles,
   @C10_axes_of_trdi_angles,
   @C11_angles_recovered,
   @C11_angle_ranges,
   @C11_matrix_recovered,
   @C12_only_zero_rejected,
   @C12_proper,
   @C12_sign_and_scale,
   @C12_identity,
   @C12_is_conjugation,
   @C13_homogeneous_flow_recovered,
   @C13_invertible,
   @C13_error_ignores_homogeneous_part,
   @C13_error_zero_iff_homogeneous,
   @C14_agreeing_verticals_rotate_as_3d,
   @C14_invertible_iff_z_not_horizontal,
   @C14_horizontal_z_refused,
   @C15_reversal_invariant,
   @C15_bidirectional_flow_returns_axis,
   @C15_direction_of_mean,
   @C15_turns_with_the_flow_tidal,
   @C15_turns_with_the_flow,
   @C15_nan_only_without_valid_samples,
   @C16_zero_iff_level,
   @C16_range,
   @C16_even_and_symmetric,
   @C16_at_least_pitch_and_roll,
   @C16_is_inclination_of_trdi_matrix,
   @C16_is_inclination_of_nortek_matrix_partial,
   @C16_is_inclination_of_nortek_matrix_refuted,
   @C17_involution,
   @C17_exact_involution,
   @C17_ranges,
   @C17_same_direction,
   @C81_beam_to_inst,
   @C81_inst_to_earth,
   @C81_earth_to_principal,
   @C82_tidal_range,
   @C82_plain_range_partial,
   @C82_plain_range_refuted,
   @C83_valid_end_untouched,
   @C83_trailing_gap_filled).
Print Assumptions all_theorems.
