From Coq Require Import ZArith Reals List Lra Lia.
From Verif.Model Require Import Linalg Angles Stats Reduce.
From Verif.Spec Require Import Euler.
From Verif.Proofs Require Import Angles.
Import ListNotations.
Open Scope R_scope.

Lemma halfway a b d : - 180 < d < 180 -> cong 360 b (a + d) -> cong 360 (angle_mean a b) (a + d / 2).
Proof.
  intros Hd C. destruct (cong_trig _ _ C) as [Eb Es]. unfold angle_mean. rewrite Eb, Es. rewrite deg2rad_add.
  set (A := deg2rad a). set (D := deg2rad d).
  assert (HD : - PI < D < PI). { unfold D. rewrite <- d180, <- deg2rad_neg. split; apply deg2rad_lt; lra. }
  assert (R : 0 < 2 * cos (D / 2)) by (assert (0 < cos (D / 2)) by (apply cos_gt_0; lra); lra).
  assert (Sy : sin A + sin (A + D) = 2 * cos (D / 2) * sin (A + D / 2)).
  { rewrite form3. replace ((A - (A + D)) / 2) with (- (D / 2)) by field. rewrite cos_neg. replace ((A + (A + D)) / 2) with (A + D / 2) by field. ring. }
  assert (Sx : cos A + cos (A + D) = 2 * cos (D / 2) * cos (A + D / 2)).
  { rewrite form1. replace ((A - (A + D)) / 2) with (- (D / 2)) by field. rewrite cos_neg. replace ((A + (A + D)) / 2) with (A + D / 2) by field. ring. }
  rewrite Sx, Sy. set (r := 2 * cos (D / 2)) in *. set (m := A + D / 2) in *.
  destruct (atan2_polar (r * sin m) (r * cos m)) as [Pc Ps].
  assert (Q : sqrt (r * cos m * (r * cos m) + r * sin m * (r * sin m)) = r).
  { replace (_ + _) with (r * r * (Rsqr (sin m) + Rsqr (cos m))) by (unfold Rsqr; ring). rewrite sin2_cos2, Rmult_1_r. apply sqrt_square. lra. }
  rewrite Q in Pc, Ps. set (t := atan2 _ _) in *.
  destruct (angle_mod t m) as [k E]; [apply (Rmult_eq_reg_l r); lra|apply (Rmult_eq_reg_l r); lra|].
  exists k. rewrite E. unfold m, A, D, rad2deg, deg2rad. field. apply PI_nz.
Qed.
Lemma mean_range a b : - 180 < angle_mean a b <= 180.
Proof.
  unfold angle_mean. destruct (atan2_range (sin (deg2rad a) + sin (deg2rad b)) (cos (deg2rad a) + cos (deg2rad b))) as [A B].
  split; [replace (-180) with (rad2deg (- PI)) by (rewrite rad2deg_neg, r180; lra); now apply rad2deg_lt|rewrite <- r180; now apply rad2deg_le].
Qed.
Lemma mean_exact a b d : - 180 < d < 180 -> cong 360 b (a + d) -> - 180 < a + d / 2 <= 180 -> angle_mean a b = a + d / 2.
Proof.
  intros Hd C H. pose proof (mean_range a b). apply (cong_range 360); [lra|now apply halfway|]. apply Rabs_def1; lra.
Qed.

Lemma linear_range n f c0 cs : (forall k, f k = c0 + INR k * cs) ->
  let r := map f (seq 0 n) in length r = n /\
  (forall k, (k < n)%nat -> nth k r 0 = c0 + INR k * cs) /\ (forall k, (S k < n)%nat -> nth (S k) r 0 - nth k r 0 = cs) /\
  (0 < cs -> forall j k, (j < k < n)%nat -> nth j r 0 < nth k r 0).
Proof.
  intros F r. assert (V : forall k, (k < n)%nat -> nth k r 0 = c0 + INR k * cs).
  { intros k Hk. unfold r. rewrite (nth_indep _ 0 (f 0%nat)) by now rewrite map_length, seq_length. now rewrite map_nth, seq_nth. }
  split; [unfold r; now rewrite map_length, seq_length|]. split; [exact V|]. split.
  - intros k Hk. rewrite !V by lia. rewrite S_INR. ring.
  - intros P j k H. rewrite !V by lia. assert (INR j < INR k) by (apply lt_INR; lia). nra.
Qed.
Lemma round2_err x : Rabs (round2 x - x) <= 1 / 200.
Proof.
  unfold round2. pose proof (rint_err (x * 100)) as H.
  replace (IZR (rint (x * 100)) / 100 - x) with ((IZR (rint (x * 100)) - x * 100) * / 100) by field.
  rewrite Rabs_mult, (Rabs_right (/ 100)) by lra. lra.
Qed.
Lemma awac_ok khz k n bin_length blank : awac_coef khz = Some k ->
  exists cs bd, awac_cells khz n bin_length blank = Some (nortek_range n cs bd, cs, bd) /\
    Rabs (cs - INR bin_length / 256 * k * cos (deg2rad 25)) <= 1 / 200 /\
    Rabs (bd - (INR blank * (229 / 10000) * cos (deg2rad 25) - cs)) <= 1 / 200.
Proof.
  intros H. unfold awac_cells. rewrite H. do 2 eexists. split; [reflexivity|]. replace (deg2rad 25) with (25 * (PI / 180)) by (unfold deg2rad; field). split; apply round2_err.
Qed.
Lemma average l0 l1 k : length l1 = length l0 -> (k < length l0)%nat ->
  exists l, reduce_by_average (Some l0) (Some l1) = Some l /\ length l = length l0 /\ nth k l 0 = (nth k l0 0 + nth k l1 0) / 2.
Proof.
  intros L Hk. eexists. split; [reflexivity|]. revert l1 k L Hk. induction l0 as [|a l0 IH]; intros [|b l1] [|k] L Hk; try (cbn in *; lia).
  - cbn. split; [|reflexivity]. f_equal. destruct l0 as [|a' l0]; [now destruct l1|]. apply (IH l1 0%nat); cbn in *; lia.
  - cbn in L, Hk. destruct (IH l1 k) as [V E]; [lia|lia|]. cbn. split; [f_equal; exact V|exact E].
Qed.
