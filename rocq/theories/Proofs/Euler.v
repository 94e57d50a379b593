From Coq Require Import Reals List Ratan Lra Lia ZArith String Bool.
From Verif.Model Require Import Linalg Rotate Angles Euler.
From Verif.Spec Require Import Linalg Euler.
From Verif.Proofs Require Import Linalg Angles Rotate.
Import ListNotations.
Open Scope R_scope.

Ltac lin := unfold mm, mv, tr, dot; cbn [map seq nth].

(** ** elementary rotations *)
Definition Hm c s : mat := [[c; s; 0]; [- s; c; 0]; [0; 0; 1]].
Definition Pm c s : mat := [[c; 0; - s]; [0; 1; 0]; [s; 0; c]].
Definition Rm c s : mat := [[1; 0; 0]; [0; c; s]; [0; - s; c]].

Lemma proper_H c s : s * s + c * c = 1 -> proper_rotation (Hm c s).
Proof.
  intros H. split; [apply orth_of_eqs; repeat split; lra|].
  unfold det3, entry, Hm; cbn [nth]. lra.
Qed.
Lemma proper_P c s : s * s + c * c = 1 -> proper_rotation (Pm c s).
Proof.
  intros H. split; [apply orth_of_eqs; repeat split; lra|].
  unfold det3, entry, Pm; cbn [nth]. lra.
Qed.
Lemma proper_R c s : s * s + c * c = 1 -> proper_rotation (Rm c s).
Proof.
  intros H. split; [apply orth_of_eqs; repeat split; lra|].
  unfold det3, entry, Rm; cbn [nth]. lra.
Qed.
Lemma sc t : sin t * sin t + cos t * cos t = 1.
Proof. exact (sin2_cos2 t). Qed.

Lemma proper_tr M : proper_rotation M -> proper_rotation (tr 3 M).
Proof.
  intros [O D]. split; [apply orth_tr, O|]. rewrite det3_tr; [exact D|]. apply O.
Qed.

(** ** C10 *)
Lemma euler_rad_eq h p r : euler2orient_rad h p r =
  mm 3 (Rm (cos r) (sin r)) (mm 3 (Pm (cos p) (- sin p)) (Hm (sin h) (cos h))).
Proof.
  unfold euler2orient_rad. cbv zeta. rewrite cos_shift, sin_shift, cos_neg, sin_neg. reflexivity.
Qed.

Lemma euler_rad_proper h p r : proper_rotation (euler2orient_rad h p r).
Proof.
  rewrite euler_rad_eq. apply proper_mm; [apply proper_R, sc|apply proper_mm].
  - apply proper_P. rewrite <- (sc p). ring.
  - apply proper_H. rewrite <- (sc h). ring.
Qed.

Lemma euler_rad_entries h p r : euler2orient_rad h p r =
  [[cos p * sin h; cos p * cos h; sin p];
   [- cos r * cos h - sin r * sin p * sin h; cos r * sin h - sin r * sin p * cos h; sin r * cos p];
   [sin r * cos h - cos r * sin p * sin h; - sin r * sin h - cos r * sin p * cos h; cos r * cos p]].
Proof.
  rewrite euler_rad_eq. unfold Rm, Pm, Hm. lin.
  apply f_equal2; [apply vec3_ext; ring|]. apply f_equal2; [apply vec3_ext; ring|].
  apply f_equal2; [apply vec3_ext; ring|reflexivity].
Qed.

Lemma euler_proper h p r u O : euler2orient h p r u = Some O -> proper_rotation O.
Proof.
  unfold euler2orient. destruct (String.eqb _ _); [|destruct (String.eqb _ _)]; intros E; inversion E;
  apply euler_rad_proper.
Qed.

Lemma nortek_eq h p r :
  nortek_euler2orient h p r = euler2orient_rad (deg2rad h) (deg2rad p) (deg2rad r).
Proof.
  rewrite euler_rad_entries. unfold nortek_euler2orient. cbv zeta. rewrite cos_shift, sin_shift.
  apply f_equal2; [apply vec3_ext; ring|]. apply f_equal2; [apply vec3_ext; ring|].
  apply f_equal2; [apply vec3_ext; ring|reflexivity].
Qed.

Lemma nortek_agrees h p r : euler2orient h p r "degrees" = Some (nortek_euler2orient h p r).
Proof. rewrite nortek_eq. reflexivity. Qed.

Lemma nortek_proper h p r down : proper_rotation (nortek_omat h p r down).
Proof. unfold nortek_omat. rewrite nortek_eq. apply euler_rad_proper. Qed.

(** mounted down: the y and z axes of the instrument are reversed *)
Lemma nortek_down h p r : nortek_omat h p r true =
  map (fun p => vmul (snd p) (fst p)) (combine (nortek_omat h p r false) [[1;1;1];[-1;-1;-1];[-1;-1;-1]]).
Proof.
  unfold nortek_omat. rewrite !nortek_eq, !euler_rad_entries, deg2rad_add, d180.
  rewrite neg_cos, neg_sin. cbn [combine map vmul fst snd].
  apply f_equal2; [apply vec3_ext; ring|]. apply f_equal2; [apply vec3_ext; ring|].
  apply f_equal2; [apply vec3_ext; ring|reflexivity].
Qed.
Lemma nortek_down_rows h p r i : (i < 3)%nat ->
  ent (nortek_omat h p r true) 0 i = ent (nortek_omat h p r false) 0 i /\
  ent (nortek_omat h p r true) 1 i = - ent (nortek_omat h p r false) 1 i /\
  ent (nortek_omat h p r true) 2 i = - ent (nortek_omat h p r false) 2 i.
Proof.
  intros Hi. rewrite nortek_down. unfold nortek_omat. rewrite nortek_eq, euler_rad_entries.
  destruct i as [|[|[|i]]]; [| | |lia]; cbn [combine map vmul fst snd ent nth]; unfold ent; cbn [nth]; repeat split; ring.
Qed.

Lemma rdi_eq h p r : let O := mm 3 (Hm (cos h) (sin h)) (mm 3 (Rm (cos p) (- sin p)) (Pm (cos r) (- sin r))) in
  [[cos h * cos r + sin h * sin p * sin r; sin h * cos p; cos h * sin r - sin h * sin p * cos r];
   [- sin h * cos r + cos h * sin p * sin r; cos h * cos p; - sin h * sin r - cos h * sin p * cos r];
   [- cos p * sin r; sin p; cos p * cos r]] = O.
Proof.
  cbv zeta. unfold Rm, Pm, Hm. lin.
  apply f_equal2; [apply vec3_ext; ring|]. apply f_equal2; [apply vec3_ext; ring|].
  apply f_equal2; [apply vec3_ext; ring|reflexivity].
Qed.

Lemma rdi_proper h p r up level : proper_rotation (rdi_orientmat h p r up level).
Proof.
  unfold rdi_orientmat. cbv zeta. apply proper_tr. rewrite rdi_eq.
  set (q := if level then 0 else atan _). set (r' := if level then 0 else _).
  apply proper_mm; [apply proper_H, sc|apply proper_mm].
  - apply proper_R. rewrite <- (sc q). ring.
  - apply proper_P. rewrite <- (sc r'). ring.
Qed.

(** ** C11 *)
Lemma ent3 a b c d e f g h i :
  let M := [[a;b;c];[d;e;f];[g;h;i]] in
  ent M 0 0 = a /\ ent M 0 1 = b /\ ent M 0 2 = c /\ ent M 1 0 = d /\ ent M 1 1 = e /\ ent M 1 2 = f /\
  ent M 2 0 = g /\ ent M 2 1 = h /\ ent M 2 2 = i.
Proof. repeat split. Qed.

Lemma o2e_e2o h p r : 0 <= h < 360 -> -90 < p < 90 -> -180 < r <= 180 ->
  orient2euler (euler2orient_rad (deg2rad h) (deg2rad p) (deg2rad r)) = (h, p, r).
Proof.
  intros Hh Hp Hr. rewrite euler_rad_entries. unfold orient2euler, ent. cbn [nth].
  assert (P1 : deg2rad p < PI / 2) by (rewrite <- d90; apply deg2rad_lt; lra).
  assert (P2 : - (PI / 2) < deg2rad p) by (rewrite <- d90, <- deg2rad_neg; apply deg2rad_lt; lra).
  assert (C : 0 < cos (deg2rad p)) by (apply cos_gt_0; lra).
  assert (R1 : - PI < deg2rad r) by (rewrite <- d180, <- deg2rad_neg; apply deg2rad_lt; lra).
  assert (R2 : deg2rad r <= PI) by (rewrite <- d180; apply deg2rad_le; lra).
  rewrite asin_sin by lra. rewrite deg2rad2deg.
  rewrite (Rmult_comm (sin (deg2rad r))), (Rmult_comm (cos (deg2rad r))).
  rewrite (atan2_of_polar (cos (deg2rad p)) (deg2rad r)) by lra. rewrite deg2rad2deg.
  f_equal. f_equal. set (c := cos (deg2rad p)) in *.
  destruct (Rle_dec h 180) as [L|L].
  - assert (H1 : 0 <= deg2rad h) by (rewrite <- d0; apply deg2rad_le; lra).
    assert (H2 : deg2rad h <= PI) by (rewrite <- d180; apply deg2rad_le; lra).
    rewrite atan2_of_polar by (pose proof PI_RGT_0; lra). rewrite deg2rad2deg.
    apply rmod_unique; [lra|lra|apply cong_refl].
  - destruct (cong_trig h (h - 360)) as [C1 S1]; [exists 1%Z; ring|]. rewrite C1, S1.
    rewrite atan2_of_polar; [|exact C|].
    + rewrite deg2rad2deg. apply rmod_unique; [lra|lra|]. exists 1%Z. ring.
    + split; [rewrite <- d180, <- deg2rad_neg; apply deg2rad_lt; lra|
              rewrite <- d180; apply deg2rad_le; lra].
Qed.

Lemma o2e_ranges O : let '(h, p, r) := orient2euler O in
  0 <= h < 360 /\ -90 <= p <= 90 /\ -180 < r <= 180.
Proof.
  unfold orient2euler. split; [apply rmod_range; lra|split].
  - destruct (asin_bound (ent O 0 2)) as [A B]. apply rad2deg_le in A, B.
    replace (rad2deg (PI / 2)) with 90 in B by (rewrite r90; reflexivity).
    rewrite rad2deg_neg, r90 in A. lra.
  - destruct (atan2_range (ent O 1 2) (ent O 2 2)) as [A B]. apply rad2deg_lt in A. apply rad2deg_le in B.
    rewrite rad2deg_neg, r180 in A. rewrite r180 in B. lra.
Qed.

Lemma unit_polar x y c : 0 < c -> x * x + y * y = c * c ->
  c * cos (atan2 y x) = x /\ c * sin (atan2 y x) = y.
Proof.
  intros Hc H. pose proof (atan2_polar y x) as P. cbv zeta in P. rewrite H in P.
  rewrite sqrt_square in P by lra. exact P.
Qed.

Lemma e2o_o2e O : proper_rotation O -> Rabs (entry O 0 2) < 1 ->
  let '(h, p, r) := orient2euler O in
  euler2orient_rad (deg2rad h) (deg2rad p) (deg2rad r) = O.
Proof.
  intros [Or D] Hx. destruct (is_mat3 O (proj1 Or)) as (a & b & c & d & e & f & g & h & i & ->).
  destruct (orth_eqs _ _ _ _ _ _ _ _ _ Or) as [(E1 & E2 & E3 & E4 & E5 & E6) (F1 & F2 & F3 & F4 & F5 & F6)].
  unfold det3, entry in D. unfold entry in Hx. cbn [nth] in D, Hx.
  unfold orient2euler, ent. cbn [nth]. rewrite euler_rad_entries.
  apply Rabs_def2 in Hx.
  set (k := sqrt (1 - c * c)). assert (Kp : 0 < 1 - c * c).
  { assert (0 < (1 - c) * (1 + c)) by (apply Rmult_lt_0_compat; lra). lra. }
  assert (K0 : 0 < k) by (apply sqrt_lt_R0, Kp).
  assert (KK : k * k = 1 - c * c) by (apply sqrt_def; lra).
  rewrite !rad2deg2rad.
  rewrite sin_asin by lra. rewrite cos_asin by lra. unfold Rsqr. fold k.
  destruct (cong_trig _ _ (rmod_cong (rad2deg (atan2 a b)) 360)) as [Ch Sh].
  rewrite Ch, Sh, rad2deg2rad.
  destruct (unit_polar b a k K0) as [Hc Hs]; [lra|].
  destruct (unit_polar i f k K0) as [Rc Rs]; [lra|].
  set (A := atan2 a b) in *. set (B := atan2 f i) in *.
  (* rows as cross products *)
  assert (Xb : b = f * g - d * i).
  { assert (T : b * (a * (e * i - f * h) - b * (d * i - f * g) + c * (d * h - e * g)) = f * g - d * i).
    { transitivity ((a*b+d*e+g*h)*(-(f*h-e*i)) + (b*b+e*e+h*h) * (f*g-d*i) + (b*c+e*f+h*i)*(d*h-e*g)); [ring|].
      rewrite F2, F4, F6. ring. }
    rewrite D in T. lra. }
  assert (Xa : a = e * i - f * h).
  { assert (T : a * (a * (e * i - f * h) - b * (d * i - f * g) + c * (d * h - e * g)) = e * i - f * h).
    { transitivity ((a*a+d*d+g*g)*(e*i-f*h) + (a*b+d*e+g*h) * (f*g-d*i) + (a*c+d*f+g*i)*(d*h-e*g)); [ring|].
      rewrite F1, F4, F5. ring. }
    rewrite D in T. lra. }
  assert (Q : forall x y, k * k * x = k * k * y -> x = y).
  { intros x y Hxy. apply Rmult_eq_reg_l in Hxy; [exact Hxy|]. lra. }
  assert (KF : k * k = f * f + i * i) by lra.
  apply f_equal2; [apply vec3_ext; [exact Hs|exact Hc|reflexivity]|].
  apply f_equal2; [apply vec3_ext|apply f_equal2; [apply vec3_ext|reflexivity]].
  - apply Q. transitivity (- (k * cos B) * (k * cos A) - (k * sin B) * c * (k * sin A)); [ring|].
    rewrite Hc, Hs, Rc, Rs. rewrite KF. replace (f * c * a) with (f * (a * c)) by ring.
    replace (a * c) with (- (d * f + g * i)) by lra. rewrite Xb. ring.
  - apply Q. transitivity ((k * cos B) * (k * sin A) - (k * sin B) * c * (k * cos A)); [ring|].
    rewrite Hc, Hs, Rc, Rs. rewrite KF. replace (f * c * b) with (f * (b * c)) by ring.
    replace (b * c) with (- (e * f + h * i)) by lra. rewrite Xa. ring.
  - rewrite Rmult_comm. exact Rs.
  - apply Q. transitivity ((k * sin B) * (k * cos A) - (k * cos B) * c * (k * sin A)); [ring|].
    rewrite Hc, Hs, Rc, Rs. rewrite KF. replace (i * c * a) with (i * (a * c)) by ring.
    replace (a * c) with (- (d * f + g * i)) by lra. rewrite Xb. ring.
  - apply Q. transitivity (- (k * sin B) * (k * sin A) - (k * cos B) * c * (k * cos A)); [ring|].
    rewrite Hc, Hs, Rc, Rs. rewrite KF. replace (i * c * b) with (i * (b * c)) by ring.
    replace (b * c) with (- (e * f + h * i)) by lra. rewrite Xa. ring.
  - rewrite Rmult_comm. exact Rc.
Qed.

(** ** C12 *)
Lemma norm_parts q0 q1 q2 q3 : let n := sqrt (q1*q1 + q2*q2 + q3*q3 + q0*q0) in
  n <> 0 -> (q1/n)*(q1/n) + (q2/n)*(q2/n) + (q3/n)*(q3/n) + (q0/n)*(q0/n) = 1 /\ 0 < n /\ n * n = q1*q1 + q2*q2 + q3*q3 + q0*q0.
Proof.
  cbv zeta. intros H. set (n := sqrt _) in *.
  assert (N : n * n = q1*q1 + q2*q2 + q3*q3 + q0*q0).
  { apply sqrt_def. pose proof (Rle_0_sqr q0); pose proof (Rle_0_sqr q1); pose proof (Rle_0_sqr q2); pose proof (Rle_0_sqr q3).
    unfold Rsqr in *. lra. }
  split; [|split; [|exact N]].
  - transitivity ((q1*q1 + q2*q2 + q3*q3 + q0*q0) / (n * n)); [field; exact H|]. rewrite <- N. field. exact H.
  - pose proof (sqrt_pos (q1*q1 + q2*q2 + q3*q3 + q0*q0)) as P. fold n in P. lra.
Qed.

Lemma quat_total q0 q1 q2 q3 : quaternion2orient q0 q1 q2 q3 = None <-> q0 = 0 /\ q1 = 0 /\ q2 = 0 /\ q3 = 0.
Proof.
  unfold quaternion2orient. destruct (Req_EM_T _ _) as [E|E]; split; intros H; try discriminate.
  - apply sqrt_eq_0 in E;
    pose proof (Rle_0_sqr q0); pose proof (Rle_0_sqr q1); pose proof (Rle_0_sqr q2); pose proof (Rle_0_sqr q3);
    unfold Rsqr in *; [|lra].
    repeat split; apply Rsqr_0_uniq; unfold Rsqr; lra.
  - reflexivity.
  - exfalso. apply E. destruct H as (-> & -> & -> & ->). rewrite Rmult_0_l, !Rplus_0_r. apply sqrt_0.
Qed.

Lemma quat_proper q0 q1 q2 q3 O : quaternion2orient q0 q1 q2 q3 = Some O -> proper_rotation O.
Proof.
  unfold quaternion2orient. destruct (Req_EM_T _ _) as [E|E]; [discriminate|]. intros H. inversion H as [H1]. clear H H1.
  destruct (norm_parts _ _ _ _ E) as [N _]. set (n := sqrt _) in *.
  generalize dependent (q1 / n). generalize dependent (q2 / n). generalize dependent (q3 / n). generalize dependent (q0 / n).
  intros w z y x N. apply proper_tr. split.
  - assert (M : (x*x+y*y+z*z+w*w)*(x*x+y*y+z*z+w*w) = 1) by (rewrite N; ring).
    apply orth_of_eqs; repeat split; first [ring | rewrite <- M; ring].
  - unfold det3, entry. cbn [nth].
    transitivity ((x*x+y*y+z*z+w*w)*(x*x+y*y+z*z+w*w)*(x*x+y*y+z*z+w*w)); [ring|]. rewrite N. ring.
Qed.

Lemma quat_scale q0 q1 q2 q3 k : k <> 0 ->
  quaternion2orient (k * q0) (k * q1) (k * q2) (k * q3) = quaternion2orient q0 q1 q2 q3.
Proof.
  intros Hk. unfold quaternion2orient.
  assert (N : sqrt (k * q1 * (k * q1) + k * q2 * (k * q2) + k * q3 * (k * q3) + k * q0 * (k * q0))
              = Rabs k * sqrt (q1*q1 + q2*q2 + q3*q3 + q0*q0)).
  { rewrite <- sqrt_Rsqr_abs. rewrite <- sqrt_mult_alt by apply Rle_0_sqr. f_equal. unfold Rsqr. ring. }
  rewrite N. set (n := sqrt (q1*q1 + q2*q2 + q3*q3 + q0*q0)) in *.
  assert (Ak : Rabs k <> 0) by (apply Rabs_no_R0, Hk).
  destruct (Req_EM_T (Rabs k * n) 0) as [E|E]; destruct (Req_EM_T n 0) as [F|F]; try reflexivity.
  - apply Rmult_integral in E. tauto.
  - exfalso. apply E. rewrite F. ring.
  - f_equal. f_equal.
    assert (KK : Rabs k * Rabs k = k * k) by (rewrite <- Rabs_mult; apply Rabs_pos_eq, Rle_0_sqr).
    assert (T : forall a b, (k * a / (Rabs k * n)) * (k * b / (Rabs k * n)) = (a / n) * (b / n)).
    { intros a b. transitivity ((k * k) / (Rabs k * Rabs k) * ((a / n) * (b / n))); [field; auto|].
      rewrite KK. field. auto. }
    rewrite !T. reflexivity.
Qed.

Lemma quat_identity : quaternion2orient 1 0 0 0 = Some [[1;0;0];[0;1;0];[0;0;1]].
Proof.
  unfold quaternion2orient.
  replace (sqrt (0 * 0 + 0 * 0 + 0 * 0 + 1 * 1)) with 1 by (rewrite !Rmult_0_l, !Rplus_0_l, Rmult_1_l; symmetry; apply sqrt_1).
  destruct (Req_EM_T 1 0) as [E|E]; [lra|]. f_equal. lin.
  apply f_equal2; [apply vec3_ext; field|]. apply f_equal2; [apply vec3_ext; field|].
  apply f_equal2; [apply vec3_ext; field|reflexivity].
Qed.

Lemma quat_conjugation q0 q1 q2 q3 O v : quaternion2orient q0 q1 q2 q3 = Some O -> is_vec 3 v ->
  let q := (q0, q1, q2, q3) in
  qmul (qmul q (qvec v)) (qconj q) =
    (0, qnorm2 q * comp (mv (tr 3 O) v) 0, qnorm2 q * comp (mv (tr 3 O) v) 1, qnorm2 q * comp (mv (tr 3 O) v) 2).
Proof.
  intros H Hv. destruct (is_vec3 v Hv) as (a & b & c & ->). clear Hv.
  unfold quaternion2orient in H. destruct (Req_EM_T _ _) as [E|E]; [discriminate|].
  inversion H as [H1]. clear H H1.
  destruct (norm_parts _ _ _ _ E) as (_ & _ & N).
  set (n := sqrt _) in *. cbv zeta. unfold qmul, qvec, qconj, qnorm2, comp. lin.
  assert (NN : q0 * q0 + q1 * q1 + q2 * q2 + q3 * q3 = n * n) by lra. rewrite NN.
  repeat (apply f_equal2); try ring; field; exact E.
Qed.

(** ** C13 *)
Lemma janus_inverse th cv u v w : sin th <> 0 -> cos th <> 0 ->
  mv (rdi_beam_mat th cv) (radial th cv u v w) = [u; v; w; 0].
Proof.
  intros Hs Hc. assert (Hq : sqrt 2 <> 0) by (pose proof (sqrt_lt_R0 2); lra).
  unfold rdi_beam_mat, radial, beam_dirs, dot3, comp.
  destruct cv; lin; apply vec4_ext; field; auto.
Qed.

Lemma beam_det th cv : sin th <> 0 -> cos th <> 0 -> det 4 (rdi_beam_mat th cv) <> 0.
Proof.
  intros Hs Hc. assert (Hq : sqrt 2 <> 0) by (pose proof (sqrt_lt_R0 2); lra).
  assert (E : exists z, z <> 0 /\ det 4 (rdi_beam_mat th cv) = z / (sin th * sin th * sin th * cos th * sqrt 2)).
  { destruct cv.
    - exists (-1/4). split; [lra|]. unfold rdi_beam_mat, det, sgn. cbn [map seq nth Nat.even drop_nth fold_right]. field. auto.
    - exists (-1/4). split; [lra|]. unfold rdi_beam_mat, det, sgn. cbn [map seq nth Nat.even drop_nth fold_right]. field. auto. }
  destruct E as (z & Hz & ->). intros F.
  unfold Rdiv in F. apply Rmult_integral in F. destruct F as [F|F]; [exact (Hz F)|].
  revert F. apply Rinv_neq_0_compat. repeat apply Rmult_integral_contrapositive_currified; assumption.
Qed.

Lemma error_only_departure th cv u v w b : sin th <> 0 -> cos th <> 0 -> is_vec 4 b ->
  comp (mv (rdi_beam_mat th cv) (add4 (radial th cv u v w) b)) 3 = comp (mv (rdi_beam_mat th cv) b) 3.
Proof.
  intros Hs Hc Hb. assert (Hq : sqrt 2 <> 0) by (pose proof (sqrt_lt_R0 2); lra).
  destruct (is_vec4 b Hb) as (b1 & b2 & b3 & b4 & ->).
  unfold rdi_beam_mat, radial, beam_dirs, dot3, comp, add4, comp. destruct cv; lin; field; auto.
Qed.

Lemma error_zero_iff th cv b : sin th <> 0 -> cos th <> 0 -> is_vec 4 b ->
  comp (mv (rdi_beam_mat th cv) b) 3 = 0 <-> exists u v w, b = radial th cv u v w.
Proof.
  intros Hs Hc Hb. assert (Hq : sqrt 2 <> 0) by (pose proof (sqrt_lt_R0 2); lra). split.
  - destruct (is_vec4 b Hb) as (b1 & b2 & b3 & b4 & ->). intros H.
    assert (E : b1 + b2 = b3 + b4).
    { unfold rdi_beam_mat, comp in H. revert H. lin. intros H.
      assert (F : (b1 + b2 - b3 - b4) * (1 / (2 * sin th) / sqrt 2) = 0) by (rewrite <- H; ring).
      apply Rmult_integral in F. destruct F as [F|F]; [lra|]. exfalso. revert F.
      unfold Rdiv. rewrite Rmult_1_l. apply Rmult_integral_contrapositive_currified; apply Rinv_neq_0_compat; [lra|assumption]. }
    assert (E' : b1 = b3 + b4 - b2) by lra. subst b1.
    destruct cv.
    + exists ((b3 + b4 - 2 * b2) / (2 * sin th)), ((b4 - b3) / (2 * sin th)), ((b3 + b4) / (2 * cos th)).
      unfold radial, beam_dirs, dot3, comp. cbn [map nth]. apply vec4_ext; field; auto.
    + exists (- (b3 + b4 - 2 * b2) / (2 * sin th)), (- (b4 - b3) / (2 * sin th)), ((b3 + b4) / (2 * cos th)).
      unfold radial, beam_dirs, dot3, comp. cbn [map nth]. apply vec4_ext; field; auto.
  - intros (u & v & w & ->). rewrite janus_inverse by assumption. reflexivity.
Qed.

(** the map from along-beam to instrument velocities has exactly one preimage *)
Lemma beam_round_trip th cv b : sin th <> 0 -> cos th <> 0 -> is_vec 4 b ->
  mv (inv 4 (rdi_beam_mat th cv)) (mv (rdi_beam_mat th cv) b) = b.
Proof.
  intros Hs Hc Hb. apply inv4_l; [|apply beam_det; assumption|exact Hb].
  split; [reflexivity|]. destruct cv; repeat constructor.
Qed.

(** ** C16 *)
Lemma cos_deg x : -90 < x < 90 -> 0 < cos (deg2rad x).
Proof.
  intros H. apply cos_gt_0; [rewrite <- d90, <- deg2rad_neg; apply deg2rad_lt; lra|
                             rewrite <- d90; apply deg2rad_lt; lra].
Qed.
Lemma deg_bounds x : -90 < x < 90 -> - (PI / 2) < deg2rad x < PI / 2.
Proof.
  intros H.
  split; [rewrite <- d90, <- deg2rad_neg; apply deg2rad_lt; lra|rewrite <- d90; apply deg2rad_lt; lra].
Qed.

Lemma sq_nonneg x : 0 <= x * x. Proof. exact (Rle_0_sqr x). Qed.

Lemma atan_nonneg x : 0 <= x -> 0 <= atan x.
Proof. intros [H| <-]; [left; rewrite <- atan_0; apply atan_increasing, H|rewrite atan_0; lra]. Qed.
Lemma atan_le x y : x <= y -> atan x <= atan y.
Proof. intros [H| ->]; [left; apply atan_increasing, H|lra]. Qed.

Lemma tilt_range p r : 0 <= calc_tilt p r < 90.
Proof.
  unfold calc_tilt. set (s := sqrt _). assert (S0 : 0 <= s) by apply sqrt_pos. split.
  - rewrite <- r0. apply rad2deg_le, atan_nonneg, S0.
  - rewrite <- r90. apply rad2deg_lt. apply atan_bound.
Qed.

Lemma tilt_zero p r : -90 < p < 90 -> -90 < r < 90 -> (calc_tilt p r = 0 <-> p = 0 /\ r = 0).
Proof.
  intros Hp Hr. split.
  - unfold calc_tilt. intros H. rewrite <- r0 in H.
    assert (E : forall x y, rad2deg x = rad2deg y -> x = y).
    { intros x y Q. apply (f_equal deg2rad) in Q. rewrite !rad2deg2rad in Q. exact Q. }
    apply E in H. rewrite <- atan_0 in H.
    assert (I : forall x y, atan x = atan y -> x = y).
    { intros x y Q. apply (f_equal tan) in Q. rewrite !tan_atan in Q. exact Q. }
    apply I in H. apply sqrt_eq_0 in H.
    + pose proof (sq_nonneg (tan (deg2rad p))). pose proof (sq_nonneg (tan (deg2rad r))).
      assert (A : tan (deg2rad p) = 0) by (apply Rsqr_0_uniq; unfold Rsqr; lra).
      assert (B : tan (deg2rad r) = 0) by (apply Rsqr_0_uniq; unfold Rsqr; lra).
      apply (f_equal atan) in A, B. rewrite atan_tan in A by (apply deg_bounds, Hp).
      rewrite atan_tan in B by (apply deg_bounds, Hr). rewrite atan_0 in A, B.
      split.
      * rewrite <- (deg2rad2deg p), A. apply r0.
      * rewrite <- (deg2rad2deg r), B. apply r0.
    + pose proof (sq_nonneg (tan (deg2rad p))). pose proof (sq_nonneg (tan (deg2rad r))). lra.
  - intros [-> ->]. unfold calc_tilt. rewrite d0, tan_0. rewrite Rmult_0_l, Rplus_0_r, sqrt_0, atan_0. apply r0.
Qed.

Lemma tilt_even p r : calc_tilt (- p) r = calc_tilt p r /\ calc_tilt p (- r) = calc_tilt p r.
Proof.
  unfold calc_tilt. rewrite !deg2rad_neg, !tan_neg. split; do 3 f_equal; ring.
Qed.

Lemma tilt_sym p r : calc_tilt p r = calc_tilt r p.
Proof. unfold calc_tilt. do 3 f_equal. ring. Qed.

Lemma tilt_ge_pitch p r : -90 < p < 90 -> Rabs p <= calc_tilt p r.
Proof.
  intros Hp. assert (W : forall q, 0 <= q < 90 -> q <= calc_tilt q r).
  { intros q Hq. unfold calc_tilt. rewrite <- (deg2rad2deg q) at 1. apply rad2deg_le.
    rewrite <- (atan_tan (deg2rad q)) at 1 by (apply deg_bounds; lra). apply atan_le.
    assert (T : 0 <= tan (deg2rad q)).
    { destruct Hq as [[L|E] U]; [left; apply tan_gt_0|rewrite <- E, d0, tan_0; lra].
      - rewrite <- d0. apply deg2rad_lt, L.
      - rewrite <- d90. apply deg2rad_lt, U. }
    rewrite <- (sqrt_square (tan (deg2rad q))) at 1 by exact T. apply sqrt_le_1_alt.
    pose proof (sq_nonneg (tan (deg2rad r))). lra. }
  unfold Rabs. destruct (Rcase_abs p).
  - rewrite <- (proj1 (tilt_even p r)). apply W. lra.
  - apply W. lra.
Qed.

Lemma cos_tilt p r : cos (deg2rad (calc_tilt p r)) =
  / sqrt (1 + tan (deg2rad p) * tan (deg2rad p) + tan (deg2rad r) * tan (deg2rad r)).
Proof.
  unfold calc_tilt. rewrite rad2deg2rad.
  destruct (atan_cos_sin (sqrt (tan (deg2rad r) * tan (deg2rad r) + tan (deg2rad p) * tan (deg2rad p)))) as [-> _].
  rewrite sqrt_def.
  - do 2 f_equal. ring.
  - pose proof (sq_nonneg (tan (deg2rad p))). pose proof (sq_nonneg (tan (deg2rad r))). lra.
Qed.

Lemma sec2 x : cos x <> 0 -> 1 + tan x * tan x = / (cos x * cos x).
Proof.
  intros H. unfold tan. transitivity ((sin x * sin x + cos x * cos x) / (cos x * cos x)); [field; exact H|].
  rewrite sc. field. exact H.
Qed.

(** the inclination of the z-axis of the TRDI orientation matrix *)
Lemma tilt_rdi h p r : -90 < p < 90 -> -90 < r < 90 ->
  entry (rdi_orientmat h p r false false) 2 2 = cos (deg2rad (calc_tilt p r)) /\
  entry (rdi_orientmat h p r true false) 2 2 = - cos (deg2rad (calc_tilt p r)).
Proof.
  intros Hp Hr. rewrite cos_tilt. unfold rdi_orientmat, entry. lin. rewrite neg_cos.
  set (tp := tan (deg2rad p)). pose proof (cos_deg r Hr) as C. set (cr := cos (deg2rad r)) in *.
  destruct (atan_cos_sin (tp * cr)) as [-> _].
  assert (E : / sqrt (1 + tp * cr * (tp * cr)) * cr = / sqrt (1 + tp * tp + tan (deg2rad r) * tan (deg2rad r))).
  { replace (1 + tp * tp + tan (deg2rad r) * tan (deg2rad r)) with (tp * tp + (1 + tan (deg2rad r) * tan (deg2rad r))) by ring.
    rewrite sec2 by (fold cr; lra). fold cr.
    assert (Q : tp * tp + / (cr * cr) = (1 + tp * cr * (tp * cr)) * / (cr * cr)) by (field; lra).
    rewrite Q. pose proof (sq_nonneg (tp * cr)).
    rewrite sqrt_mult_alt by lra.
    assert (I : / (cr * cr) = / cr * / cr) by (field; lra). rewrite I.
    rewrite sqrt_square by (left; apply Rinv_0_lt_compat, C).
    assert (0 < sqrt (1 + tp * cr * (tp * cr))) by (apply sqrt_lt_R0; lra). field. lra. }
  split; [exact E|]. rewrite <- E. ring.
Qed.

(** for the matrices of euler2orient and the Nortek reader, only on the axes *)
Lemma nortek_incl h p r : entry (nortek_euler2orient h p r) 2 2 = cos (deg2rad p) * cos (deg2rad r).
Proof. reflexivity. Qed.

Lemma tilt_nortek_axis h p r : -90 < p < 90 -> -90 < r < 90 -> p = 0 \/ r = 0 ->
  entry (nortek_euler2orient h p r) 2 2 = cos (deg2rad (calc_tilt p r)).
Proof.
  intros Hp Hr Z. rewrite nortek_incl, cos_tilt.
  assert (W : forall x, -90 < x < 90 -> cos (deg2rad x) = / sqrt (1 + tan (deg2rad x) * tan (deg2rad x))).
  { intros x Hx. pose proof (cos_deg x Hx). rewrite sec2 by lra. set (c := cos (deg2rad x)) in *.
    replace (/ (c * c)) with (/ c * / c) by (field; lra).
    rewrite sqrt_square by (left; apply Rinv_0_lt_compat; assumption). field. lra. }
  destruct Z as [-> | ->]; rewrite d0, tan_0, cos_0, Rmult_0_l, Rplus_0_r; [rewrite Rmult_1_l|rewrite Rmult_1_r]; apply W; assumption.
Qed.

Lemma tilt_nortek_refuted : exists p r, -90 < p < 90 /\ -90 < r < 90 /\ forall h,
  entry (nortek_euler2orient h p r) 2 2 <> cos (deg2rad (calc_tilt p r)).
Proof.
  exists 45, 45. split; [lra|split; [lra|]]. intros h. rewrite nortek_incl, cos_tilt.
  replace (deg2rad 45) with (PI / 4) by (unfold deg2rad; field).
  rewrite tan_PI4, cos_PI4. intros H.
  assert (A : 1 / sqrt 2 * (1 / sqrt 2) = 1 / 2).
  { assert (sqrt 2 * sqrt 2 = 2) by (apply sqrt_def; lra). assert (0 < sqrt 2) by (apply sqrt_lt_R0; lra).
    transitivity (1 / (sqrt 2 * sqrt 2)); [field; lra|]. rewrite H0. field. }
  rewrite A in H. replace (1 + 1 * 1 + 1 * 1) with 3 in H by ring.
  assert (B : sqrt 3 * sqrt 3 = 3) by (apply sqrt_def; lra). assert (0 < sqrt 3) by (apply sqrt_lt_R0; lra).
  assert (C : sqrt 3 = 2). { rewrite <- (Rinv_inv (sqrt 3)), <- H. field. }
  rewrite C in B. lra.
Qed.

(** ** orientation of the axes *)
Lemma euler_axes h p r O : euler2orient h p r "degrees" = Some O ->
  let s x := sin (deg2rad x) in let c x := cos (deg2rad x) in
  nth 0 O [] = [c p * s h; c p * c h; s p] /\ entry O 1 2 = c p * s r /\ entry O 2 2 = c p * c r.
Proof.
  intros H. injection H as <-. cbv zeta. rewrite euler_rad_entries. unfold entry. cbn [nth].
  repeat split; ring.
Qed.

Lemma rdi_axes h p r up : let O := rdi_orientmat h p r up false in
  let p' := atan (tan (deg2rad p) * cos (deg2rad r)) in
  let sg := if up then -1 else 1 in
  nth 1 O [] = [cos p' * sin (deg2rad h); cos p' * cos (deg2rad h); sin p'] /\
  entry O 0 2 = - sg * cos p' * sin (deg2rad r) /\ entry O 2 2 = sg * cos p' * cos (deg2rad r).
Proof.
  cbv zeta. unfold rdi_orientmat, entry. cbv zeta. lin. destruct up; [rewrite neg_cos, neg_sin|]; repeat split;
  try ring. apply vec3_ext; ring. apply vec3_ext; ring.
Qed.

Lemma rdi_level h p r up : rdi_orientmat h p r up true =
  [[cos (deg2rad h); - sin (deg2rad h); 0]; [sin (deg2rad h); cos (deg2rad h); 0]; [0; 0; 1]].
Proof.
  unfold rdi_orientmat. cbv zeta. rewrite cos_0, sin_0. lin.
  apply f_equal2; [apply vec3_ext; ring|]. apply f_equal2; [apply vec3_ext; ring|].
  apply f_equal2; [apply vec3_ext; ring|reflexivity].
Qed.

(** ** trailing NaN *)
Lemma last_valid_spec (l : list triple) k g : last_valid l k = Some g ->
  (k <= g < k + List.length l)%nat /\ known (nth (g - k) l (None, None, None)) /\
  forall j, (g < j)%nat -> (j < k + List.length l)%nat -> ~ known (nth (j - k) l (None, None, None)).
Proof.
  revert k g. induction l as [|t l IH]; intros k g H; cbn [last_valid] in H; [discriminate|]. cbn [List.length].
  destruct (last_valid l (S k)) as [j|] eqn:E.
  - injection H as ->. destruct (IH _ _ E) as (A & B & C). split; [lia|]. split.
    + replace (g - k)%nat with (S (g - S k)) by lia. exact B.
    + intros j' Hj Hl. replace (j' - k)%nat with (S (j' - S k)) by lia. apply C; lia.
  - destruct (all_valid t) eqn:V; [|discriminate]. injection H as ->. split; [lia|]. split.
    + rewrite Nat.sub_diag. cbn [nth]. destruct t as [[[h|] [p|]] [r|]]; try discriminate. exists h, p, r. reflexivity.
    + intros j Hj Hl (h & p & r & K).
      assert (NN : forall l' k', last_valid l' k' = None -> forall i, (i < List.length l')%nat -> ~ known (nth i l' (None, None, None))).
      { clear. induction l' as [|t' l' IH']; intros k' H i Hi; cbn [List.length] in Hi; [lia|]. cbn [last_valid] in H.
        destruct (last_valid l' (S k')) eqn:E'; [discriminate|]. destruct (all_valid t') eqn:V'; [discriminate|].
        destruct i as [|i]; cbn [nth].
        - intros (h & p & r & ->). discriminate.
        - apply (IH' _ E'). lia. }
      apply (NN l (S g) E (j - S g)%nat); [lia|]. replace (j - g)%nat with (S (j - S g)) in K by lia. cbn [nth] in K.
      exists h, p, r. exact K.
Qed.

Lemma last_valid_none (l : list triple) k : last_valid l k = None -> Forall (fun t => ~ known t) l.
Proof.
  revert k. induction l as [|t l IH]; intros k H; constructor; cbn [last_valid] in H;
  destruct (last_valid l (S k)) eqn:E; try discriminate; destruct (all_valid t) eqn:V; try discriminate.
  - intros (h & p & r & ->). discriminate.
  - apply (IH _ E).
Qed.

Lemma fill_tail_kept (l : list triple) t (l' : list triple) : rev l = t :: l' -> ~ unknown t -> fill_tail l = Some l.
Proof.
  intros E U. unfold fill_tail. rewrite E. destruct (all_nan t) eqn:A; [|reflexivity].
  exfalso. apply U. destruct t as [[[h|] [p|]] [r|]]; try discriminate. reflexivity.
Qed.

Lemma fill_tail_filled (l : list triple) t (l' : list triple) : rev l = t :: l' -> unknown t -> Exists known l ->
  exists out g, fill_tail l = Some out /\ List.length out = List.length l /\
    known (nth g l (None, None, None)) /\ (g < List.length l)%nat /\
    (forall j, (g < j < List.length l)%nat -> ~ known (nth j l (None, None, None))) /\
    (forall j, (j <= g)%nat -> nth j out (None, None, None) = nth j l (None, None, None)) /\
    (forall j, (g <= j < List.length l)%nat -> nth j out (None, None, None) = nth g l (None, None, None)).
Proof.
  intros E U Ex. unfold fill_tail. rewrite E, U. cbn [all_nan].
  destruct (last_valid l 0) as [g|] eqn:G.
  - destruct (last_valid_spec _ _ _ G) as (A & B & C). rewrite Nat.sub_0_r in B.
    exists (firstn g l ++ repeat (nth g l (None, None, None)) (List.length l - g)), g.
    assert (Lf : List.length (firstn g l) = g) by (rewrite firstn_length; lia).
    split; [reflexivity|]. split; [rewrite app_length, repeat_length, Lf; lia|]. split; [exact B|]. split; [lia|].
    split; [intros j Hj; specialize (C j); rewrite Nat.sub_0_r in C; apply C; lia|].
    assert (Q : forall j, (g <= j < List.length l)%nat ->
      nth j (firstn g l ++ repeat (nth g l (None, None, None)) (List.length l - g)) (None, None, None) = nth g l (None, None, None)).
    { intros j Hj. rewrite app_nth2 by lia. rewrite Lf. rewrite (nth_indep _ _ (nth g l (None, None, None))) by (rewrite repeat_length; lia).
      apply nth_repeat. }
    split; [|exact Q]. intros j Hj. destruct (Nat.eq_dec j g) as [->|]; [apply Q; lia|].
    rewrite app_nth1 by lia. rewrite <- (firstn_skipn g l) at 2. rewrite app_nth1 by lia. reflexivity.
  - exfalso. pose proof (last_valid_none _ _ G) as F. apply Exists_exists in Ex. destruct Ex as (x & I & K).
    rewrite Forall_forall in F. exact (F x I K).
Qed.
