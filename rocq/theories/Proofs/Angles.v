From Coq Require Import Reals List Ratan Lra Lia ZArith.
From Verif.Model Require Import Linalg Angles.
From Verif.Spec Require Import Linalg Euler.
Import ListNotations.
Open Scope R_scope.

(** ** floor, modulo, rounding *)
Lemma rfloor_spec x : IZR (rfloor x) <= x < IZR (rfloor x) + 1.
Proof. unfold rfloor. destruct (base_Int_part x). lra. Qed.

Lemma rfloor_unique x k : IZR k <= x < IZR k + 1 -> rfloor x = k.
Proof.
  intros H. destruct (rfloor_spec x).
  assert (A : (rfloor x < k + 1)%Z) by (apply lt_IZR; rewrite plus_IZR; lra).
  assert (B : (k < rfloor x + 1)%Z) by (apply lt_IZR; rewrite plus_IZR; lra). lia.
Qed.

Lemma rmod_range x m : 0 < m -> 0 <= rmod x m < m.
Proof.
  intros Hm. unfold rmod. destruct (rfloor_spec (x / m)) as [A B].
  assert (E : m * (x / m) = x) by (field; lra).
  pose proof (Rmult_le_compat_l m _ _ (Rlt_le _ _ Hm) A).
  pose proof (Rmult_lt_compat_l m _ _ Hm B). lra.
Qed.

Lemma rmod_cong x m : cong m (rmod x m) x.
Proof.
  exists (- rfloor (x / m))%Z. unfold rmod. rewrite opp_IZR. ring.
Qed.

Lemma cong_refl m x : cong m x x.
Proof. exists 0%Z. ring. Qed.
Lemma cong_sym m x y : cong m x y -> cong m y x.
Proof. intros [k ->]. exists (- k)%Z. rewrite opp_IZR. ring. Qed.
Lemma cong_trans m x y z : cong m x y -> cong m y z -> cong m x z.
Proof. intros [k ->] [j ->]. exists (k + j)%Z. rewrite plus_IZR. ring. Qed.
Lemma cong_sub m x y c : cong m x y -> cong m (c - x) (c - y).
Proof. intros [k ->]. exists (- k)%Z. rewrite opp_IZR. ring. Qed.
Lemma cong_add m x y c : cong m x y -> cong m (x + c) (y + c).
Proof. intros [k ->]. exists k. ring. Qed.

Lemma rmod_unique x y m : 0 < m -> 0 <= y < m -> cong m y x -> rmod x m = y.
Proof.
  intros Hm Hy [k E]. unfold rmod. rewrite (rfloor_unique (x / m) (- k)).
  - rewrite opp_IZR. lra.
  - rewrite opp_IZR. assert (Q : x / m = y / m - IZR k) by (rewrite E; field; lra).
    rewrite Q. assert (0 <= y / m) by (apply Rmult_le_pos; [lra|left; apply Rinv_0_lt_compat; lra]).
    assert (y / m < 1) by (apply (Rmult_lt_reg_l m); [lra|]; replace (m * (y / m)) with y by (field; lra); lra).
    lra.
Qed.

Lemma cong_range m x y : 0 < m -> cong m x y -> Rabs (x - y) < m -> x = y.
Proof.
  intros Hm [k E] H. assert (Q : x - y = m * IZR k) by lra. rewrite Q in H.
  rewrite Rabs_mult, (Rabs_pos_eq m) in H by lra.
  assert (L : Rabs (IZR k) < 1). { apply (Rmult_lt_reg_l m); [exact Hm|]. lra. }
  rewrite <- abs_IZR in L. apply lt_IZR in L. assert (k = 0%Z) by lia. subst. lra.
Qed.

Lemma rint_err x : Rabs (IZR (rint x) - x) <= 1 / 2.
Proof.
  unfold rint. destruct (rfloor_spec x). set (f := rfloor x) in *. cbv zeta.
  destruct (Rlt_dec _ _); [|destruct (Rlt_dec _ _); [|destruct (Z.even f)]];
  rewrite ?plus_IZR; unfold Rabs; destruct (Rcase_abs _); lra.
Qed.

Lemma round4_err x : Rabs (round4 x - x) <= 5 / 100000.
Proof.
  unfold round4. pose proof (rint_err (x * 10000)) as H.
  replace (IZR (rint (x * 10000)) / 10000 - x) with ((IZR (rint (x * 10000)) - x * 10000) * / 10000) by field.
  rewrite Rabs_mult, (Rabs_pos_eq (/ 10000)) by lra. lra.
Qed.

(** ** degrees *)
Lemma PI_nz : PI <> 0. Proof. pose proof PI_RGT_0. lra. Qed.
Lemma rad2deg2rad x : deg2rad (rad2deg x) = x.
Proof. unfold deg2rad, rad2deg. field. exact PI_nz. Qed.
Lemma deg2rad2deg x : rad2deg (deg2rad x) = x.
Proof. unfold deg2rad, rad2deg. field. exact PI_nz. Qed.
Lemma deg2rad_lt x y : x < y -> deg2rad x < deg2rad y.
Proof. intros. unfold deg2rad. pose proof PI_RGT_0. assert (x * PI < y * PI) by (apply Rmult_lt_compat_r; lra). lra. Qed.
Lemma deg2rad_le x y : x <= y -> deg2rad x <= deg2rad y.
Proof. intros [H| ->]; [left; apply deg2rad_lt, H|right; reflexivity]. Qed.
Lemma rad2deg_lt x y : x < y -> rad2deg x < rad2deg y.
Proof.
  intros H. destruct (Rlt_le_dec (rad2deg x) (rad2deg y)) as [A|A]; [exact A|].
  apply deg2rad_le in A. rewrite !rad2deg2rad in A. lra.
Qed.
Lemma rad2deg_le x y : x <= y -> rad2deg x <= rad2deg y.
Proof. intros [H| ->]; [left; apply rad2deg_lt, H|right; reflexivity]. Qed.
Lemma d180 : deg2rad 180 = PI. Proof. unfold deg2rad. field. Qed.
Lemma d90 : deg2rad 90 = PI / 2. Proof. unfold deg2rad. field. Qed.
Lemma r180 : rad2deg PI = 180. Proof. unfold rad2deg. field. exact PI_nz. Qed.
Lemma r90 : rad2deg (PI / 2) = 90. Proof. unfold rad2deg. field. exact PI_nz. Qed.
Lemma r0 : rad2deg 0 = 0. Proof. unfold rad2deg. field. exact PI_nz. Qed.
Lemma d0 : deg2rad 0 = 0. Proof. unfold deg2rad. field. Qed.
Lemma rad2deg_neg x : rad2deg (- x) = - rad2deg x. Proof. unfold rad2deg. field. exact PI_nz. Qed.
Lemma deg2rad_neg x : deg2rad (- x) = - deg2rad x. Proof. unfold deg2rad. field. Qed.
Lemma deg2rad_add x y : deg2rad (x + y) = deg2rad x + deg2rad y. Proof. unfold deg2rad. field. Qed.
Lemma rad2deg_add x y : rad2deg (x + y) = rad2deg x + rad2deg y. Proof. unfold rad2deg. field. exact PI_nz. Qed.

Lemma cos_2PI_Z x k : cos (x + 2 * PI * IZR k) = cos x.
Proof.
  destruct (Z_lt_le_dec k 0) as [L|L].
  - pose proof (cos_period (x + 2 * PI * IZR k) (Z.to_nat (- k))) as E.
    rewrite INR_IZR_INZ, Z2Nat.id, opp_IZR in E by lia. rewrite <- E. f_equal. ring.
  - pose proof (cos_period x (Z.to_nat k)) as E.
    rewrite INR_IZR_INZ, Z2Nat.id in E by lia. rewrite <- E. f_equal. ring.
Qed.
Lemma sin_2PI_Z x k : sin (x + 2 * PI * IZR k) = sin x.
Proof.
  destruct (Z_lt_le_dec k 0) as [L|L].
  - pose proof (sin_period (x + 2 * PI * IZR k) (Z.to_nat (- k))) as E.
    rewrite INR_IZR_INZ, Z2Nat.id, opp_IZR in E by lia. rewrite <- E. f_equal. ring.
  - pose proof (sin_period x (Z.to_nat k)) as E.
    rewrite INR_IZR_INZ, Z2Nat.id in E by lia. rewrite <- E. f_equal. ring.
Qed.

Lemma cong_trig x y : cong 360 x y -> cos (deg2rad x) = cos (deg2rad y) /\ sin (deg2rad x) = sin (deg2rad y).
Proof.
  intros [k ->]. replace (deg2rad (y + 360 * IZR k)) with (deg2rad y + 2 * PI * IZR k) by (unfold deg2rad; field).
  split; [apply cos_2PI_Z|apply sin_2PI_Z].
Qed.

(** ** uniqueness of an angle *)
Lemma cos_eq_1 t : -2 * PI < t < 2 * PI -> cos t = 1 -> t = 0.
Proof.
  intros H C. replace t with (2 * (t / 2)) in C by field. rewrite cos_2a_sin in C.
  assert (S : sin (t / 2) = 0). { destruct (Rmult_integral (sin (t/2)) (sin (t/2))); lra. }
  destruct (Rtotal_order (t / 2) 0) as [L|[E|L]]; [|lra|].
  - pose proof (sin_lt_0_var (t / 2)). lra.
  - pose proof (sin_gt_0 (t / 2)). lra.
Qed.

Lemma angle_unique a b : Rabs (a - b) < 2 * PI -> cos a = cos b -> sin a = sin b -> a = b.
Proof.
  intros H C Sn. assert (E : cos (a - b) = 1).
  { rewrite cos_minus, C, Sn. pose proof (sin2_cos2 b) as Q. unfold Rsqr in Q. lra. }
  apply Rabs_def2 in H. apply cos_eq_1 in E; lra.
Qed.

(** ** arctan2 *)
Lemma atan_cos_sin x : cos (atan x) = / sqrt (1 + x * x) /\ sin (atan x) = x / sqrt (1 + x * x).
Proof.
  split; [rewrite cos_atan|rewrite sin_atan]; unfold Rsqr; [|reflexivity]. unfold Rdiv. ring.
Qed.

Lemma sqrt_div_pos y x : 0 < x -> sqrt (1 + (y / x) * (y / x)) = sqrt (x * x + y * y) / x.
Proof.
  intros H. apply sqrt_lem_1.
  - pose proof (Rle_0_sqr (y / x)). unfold Rsqr in *. lra.
  - apply Rmult_le_pos; [apply sqrt_pos|left; apply Rinv_0_lt_compat, H].
  - unfold Rdiv. replace (sqrt (x * x + y * y) * / x * (sqrt (x * x + y * y) * / x))
      with ((sqrt (x * x + y * y) * sqrt (x * x + y * y)) * (/ x * / x)) by ring.
    rewrite sqrt_def. field. lra.
    pose proof (Rle_0_sqr x); pose proof (Rle_0_sqr y); unfold Rsqr in *; lra.
Qed.

Lemma sum_sq_pos x y : x <> 0 \/ y <> 0 -> 0 < x * x + y * y.
Proof.
  intros [H|H]; [pose proof (Rsqr_pos_lt x H); pose proof (Rle_0_sqr y)|
                 pose proof (Rsqr_pos_lt y H); pose proof (Rle_0_sqr x)]; unfold Rsqr in *; lra.
Qed.

Lemma atan2_polar y x : let r := sqrt (x * x + y * y) in
  r * cos (atan2 y x) = x /\ r * sin (atan2 y x) = y.
Proof.
  cbv zeta. unfold atan2. destruct (Rlt_dec 0 x) as [P|P].
  - assert (Hr : sqrt (x * x + y * y) > 0) by (apply sqrt_lt_R0, sum_sq_pos; left; lra).
    destruct (atan_cos_sin (y / x)) as [-> ->]. rewrite sqrt_div_pos by exact P. split; field; lra.
  - destruct (Rlt_dec x 0) as [N|N].
    + assert (Hr : sqrt (x * x + y * y) > 0) by (apply sqrt_lt_R0, sum_sq_pos; left; lra).
      destruct (atan_cos_sin (y / x)) as [C Sn].
      replace (y / x) with ((- y) / (- x)) in C, Sn at 2 by (field; lra).
      replace (y / x) with ((- y) / (- x)) in C, Sn at 2 by (field; lra).
      assert (E : sqrt (1 + - y / - x * (- y / - x)) = sqrt (x * x + y * y) / - x).
      { rewrite sqrt_div_pos by lra. f_equal. f_equal. ring. }
      assert (E' : sqrt (1 + y / x * (y / x)) = sqrt (x * x + y * y) / - x).
      { rewrite <- E. f_equal. field. lra. }
      destruct (atan_cos_sin (y / x)) as [C' S']. rewrite E' in C', S'.
      destruct (Rle_dec 0 y).
      * rewrite neg_cos, neg_sin, C', S'. split; field; lra.
      * replace (atan (y / x) - PI) with (- (- atan (y / x) + PI)) by ring.
        rewrite cos_neg, sin_neg, neg_cos, neg_sin, cos_neg, sin_neg, C', S'. split; field; lra.
    + assert (x = 0) by lra. subst x. replace (0 * 0 + y * y) with (y * y) by ring.
      destruct (Rlt_dec 0 y).
      * rewrite cos_PI2, sin_PI2, sqrt_square by lra. lra.
      * destruct (Rlt_dec y 0).
        -- rewrite cos_neg, sin_neg, cos_PI2, sin_PI2. replace (y * y) with (- y * - y) by ring.
           rewrite sqrt_square by lra. lra.
        -- assert (y = 0) by lra. subst. rewrite Rmult_0_l, sqrt_0. lra.
Qed.

Lemma atan2_range y x : - PI < atan2 y x <= PI.
Proof.
  unfold atan2. pose proof PI_RGT_0. destruct (atan_bound (y / x)) as [A B].
  destruct (Rlt_dec 0 x); [lra|]. destruct (Rlt_dec x 0).
  - assert (Nx : / x < 0) by (apply Rinv_lt_0_compat; lra).
    destruct (Rle_dec 0 y) as [Y|Y].
    + split; [lra|]. assert (y / x <= 0). { unfold Rdiv. pose proof (Rmult_le_compat_l y (/ x) 0 Y). lra. }
      assert (atan (y / x) <= 0). { destruct H0 as [H0|H0]; [left; rewrite <- atan_0; apply atan_increasing, H0|rewrite H0, atan_0; lra]. }
      lra.
    + split; [|lra]. assert (0 < y / x). { unfold Rdiv. pose proof (Rmult_lt_compat_l (- y) (/ x) 0). lra. }
      assert (0 < atan (y / x)) by (rewrite <- atan_0; apply atan_increasing; assumption). lra.
  - destruct (Rlt_dec 0 y); [lra|]. destruct (Rlt_dec y 0); lra.
Qed.

(** [r*sin t, r*cos t] with [r > 0] and [-PI < t <= PI] *)
Lemma atan2_of_polar r t : 0 < r -> - PI < t <= PI -> atan2 (r * sin t) (r * cos t) = t.
Proof.
  intros Hr Ht. destruct (atan2_range (r * sin t) (r * cos t)) as [A B].
  destruct (atan2_polar (r * sin t) (r * cos t)) as [C D].
  assert (E : sqrt (r * cos t * (r * cos t) + r * sin t * (r * sin t)) = r).
  { apply sqrt_lem_1; [|lra|].
    - pose proof (Rle_0_sqr (r * cos t)); pose proof (Rle_0_sqr (r * sin t)); unfold Rsqr in *; lra.
    - pose proof (sin2_cos2 t) as Q; unfold Rsqr in Q.
      replace (r * cos t * (r * cos t) + r * sin t * (r * sin t)) with (r * r * (sin t * sin t + cos t * cos t)) by ring.
      rewrite Q. ring. }
  rewrite E in C, D. apply Rmult_eq_reg_l in C; [|lra]. apply Rmult_eq_reg_l in D; [|lra].
  apply angle_unique; [apply Rabs_def1; lra|exact C|exact D].
Qed.

Lemma angle_mod a b : cos a = cos b -> sin a = sin b -> exists k : Z, a = b + 2 * PI * IZR k.
Proof.
  intros C S'. pose proof PI_RGT_0 as P.
  destruct (rmod_cong (a - b) (2 * PI)) as [k E]. destruct (rmod_range (a - b) (2 * PI)) as [L U]; [lra|].
  set (t := rmod (a - b) (2 * PI)) in *.
  assert (T : cos t = 1).
  { rewrite E, cos_2PI_Z, cos_minus, C, S'. pose proof (sin2_cos2 b) as Q. unfold Rsqr in Q. lra. }
  apply cos_eq_1 in T; [|lra]. exists (- k)%Z. rewrite opp_IZR. lra.
Qed.

(** ** C17 *)
Lemma conv_cong deg tm : cong 360 (convert_degrees deg tm) (90 - deg).
Proof.
  unfold convert_degrees. assert (H : cong 360 (rmod (- (deg - 90)) 360) (90 - deg)).
  { replace (90 - deg) with (- (deg - 90)) by ring. apply rmod_cong. }
  destruct tm; [|exact H]. destruct (Rlt_dec _ _); [|exact H].
  eapply cong_trans; [|exact H]. exists (-1)%Z. ring.
Qed.

Lemma conv_involution deg tm tm' : cong 360 (convert_degrees (convert_degrees deg tm) tm') deg.
Proof.
  eapply cong_trans; [apply conv_cong|]. replace deg with (90 - (90 - deg)) at 2 by ring.
  apply cong_sub, conv_cong.
Qed.

Lemma conv_range_plain deg : 0 <= convert_degrees deg false < 360.
Proof. unfold convert_degrees. apply rmod_range. lra. Qed.
Lemma conv_range_tidal deg : -180 < convert_degrees deg true <= 180.
Proof.
  unfold convert_degrees. pose proof (rmod_range (- (deg - 90)) 360).
  destruct (Rlt_dec _ _); lra.
Qed.

Lemma conv_exact_plain deg : 0 <= deg < 360 -> convert_degrees (convert_degrees deg false) false = deg.
Proof.
  intros H. pose proof (conv_range_plain (convert_degrees deg false)).
  apply (cong_range 360); [lra|apply conv_involution|]. apply Rabs_def1; lra.
Qed.
Lemma conv_exact_tidal deg : -180 < deg <= 180 -> convert_degrees (convert_degrees deg true) true = deg.
Proof.
  intros H. pose proof (conv_range_tidal (convert_degrees deg true)).
  apply (cong_range 360); [lra|apply conv_involution|]. apply Rabs_def1; lra.
Qed.

Lemma conv_direction deg tm :
  dir_cw_north (convert_degrees deg tm) = dir_ccw_east deg /\
  dir_ccw_east (convert_degrees deg tm) = dir_cw_north deg.
Proof.
  destruct (cong_trig _ _ (conv_cong deg tm)) as [C S']. unfold dir_cw_north, dir_ccw_east. rewrite C, S'.
  replace (deg2rad (90 - deg)) with (PI / 2 - deg2rad deg) by (unfold deg2rad; field).
  rewrite cos_shift, sin_shift. split; reflexivity.
Qed.
