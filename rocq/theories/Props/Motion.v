(** Properties C54-C56, C99-C101: motion correction of an ADV with an IMU. *)
From Coq Require Import String.
From Coq Require Import Reals List Bool ZArith Lia Lra.
From Verif.Model Require Import Linalg Rotate Motion.
From Verif.Spec Require Import Linalg Rotate Motion.
From Verif.Proofs Require Motion MotionMore.
Import ListNotations.
Open Scope R_scope.

(** ** C54: the velocity of a point fixed to the rotating instrument is omega x r *)
Theorem C54_cross_product : forall om angrt pos v, is_vec 3 pos ->
  calc_velrot "nortek vector" om angrt pos false = inr v ->
  List.length v = List.length angrt /\
  forall k w, nth_error angrt k = Some w -> nth_error v k = Some (cross w (minus3 pos imu_position)).
Proof. exact Motion.velrot_cross. Qed.
Theorem C54_in_earth_axes : forall om angrt pos v, is_vec 3 pos -> Forall orthonormal om ->
  List.length om = List.length angrt ->
  calc_velrot "nortek vector" om angrt pos true = inr v ->
  List.length v = List.length angrt /\
  forall k O w, nth_error om k = Some O -> nth_error angrt k = Some w ->
    nth_error v k = Some (in_earth O (cross w (minus3 pos imu_position))).
Proof. exact Motion.velrot_earth. Qed.
(** in earth axes it is the cross product of the vectors in earth axes *)
Theorem C54_same_in_earth : forall O w r, proper_rotation O ->
  in_earth O (cross w r) = cross (in_earth O w) (in_earth O r).
Proof. exact Motion.in_earth_cross. Qed.
Theorem C54_perpendicular : forall om angrt pos v k w u, is_vec 3 pos ->
  calc_velrot "nortek vector" om angrt pos false = inr v ->
  nth_error angrt k = Some w -> nth_error v k = Some u ->
  dot3 u w = 0 /\ dot3 u (minus3 pos imu_position) = 0.
Proof.
  intros om angrt pos v k w u Hp E Hw Hu. destruct (Motion.velrot_cross _ _ _ _ Hp E) as [_ H].
  assert (Eu : u = cross w (minus3 pos imu_position)) by (specialize (H _ _ Hw); congruence).
  rewrite Eu. split; [apply Motion.cross_perp_l|apply Motion.cross_perp_r].
Qed.
Theorem C54_zero_at_imu : forall om angrt v k u,
  calc_velrot "nortek vector" om angrt imu_position false = inr v -> nth_error v k = Some u -> u = zero3.
Proof.
  intros om angrt v k u E Hu. destruct (Motion.velrot_cross om angrt imu_position v eq_refl E) as [L H].
  assert (Hk : (k < List.length angrt)%nat) by (rewrite <- L; apply nth_error_Some; congruence).
  destruct (nth_error angrt k) as [w|] eqn:Ew; [|apply nth_error_None in Ew; lia].
  specialize (H k w Ew). assert (Eu : u = cross w (minus3 imu_position imu_position)) by congruence.
  rewrite Eu. unfold cross, minus3, zero3, comp. cbn [nth].
  repeat match goal with |- (_ :: _) = (_ :: _) => apply (f_equal2 cons) | |- @nil _ = nil => reflexivity end; ring.
Qed.
Theorem C54_bilinear : forall k a a' b b',
  cross (plus3 (times3 k a) a') b = plus3 (times3 k (cross a b)) (cross a' b) /\
  cross a (plus3 (times3 k b) b') = plus3 (times3 k (cross a b)) (cross a b').
Proof. intros. split; [apply Motion.cross_lin_l|apply Motion.cross_lin_r]. Qed.
Example C54_ex : exists v, calc_velrot "nortek vector" [] [[0; 0; 2]; [1; 0; 0]] [1; 1; 1] false = inr v.
Proof. eexists. reflexivity. Qed.

(** ** a dataset for the examples: three samples of a Vector mounted obliquely *)
Definition O1 : mat := [[3/5; 4/5; 0]; [-4/5; 3/5; 0]; [0; 0; 1]].
Definition adv_ex : ds :=
  Ds "nortek vector" "vector" "inst" ["X"; "Y"; "Z"]%string (Some ["X"; "Y"; "Z"]%string) ["1"; "2"; "3"]%string "up"
     [[1; 0; 0]; [0; 1; 0]; [0; 0; 1]] [O1; O1; O1] None None false None None
     ["vel"; "accel"; "angrt"]%string
     [("vel"%string, of_vecs [[1; 2; 3]; [4; 5; 6]; [7; 8; 10]]);
      ("accel"%string, of_vecs [[0; 1; -10]; [1; 0; -9]; [0; 2; -8]]);
      ("angrt"%string, of_vecs [[0; 1; 0]; [1; 0; 2]; [0; 0; 3]])].
Definition motion_ex : mds :=
  Mds adv_ex true false (Some [0; 0; 1]) None None None None [0; 1000000000; 2000000000]%Z 1 false false.
Definition no_filter : nat -> R -> R -> list R -> option (list R) := fun _ _ _ x => Some x.

Lemma O1_proper : proper_rotation O1.
Proof.
  split; [split; [split; [reflexivity|repeat constructor]|]|unfold det3, entry, O1; cbn; field].
  intros i j Hi Hj. destruct i as [|[|[|i]]], j as [|[|[|j]]]; try lia;
    unfold dot3, column, kron, entry, O1; cbn; split; field.
Qed.
Lemma adv_ex_admissible : admissible Vector adv_ex.
Proof.
  constructor; try reflexivity.
  - repeat split.
  - simpl; tauto.
  - right; reflexivity.
  - exists 3%nat. split; [tauto|]. split; [split; [reflexivity|repeat constructor]|]. cbn. lra.
  - repeat (apply Forall_cons; [apply O1_proper|]); apply Forall_nil.
  - discriminate.
  - repeat constructor; simpl; intuition discriminate.
  - intros nm [<-|[<-|[<-|[]]]]; eexists; (split; [reflexivity|]); (split; [|reflexivity]); (split; [reflexivity|]);
      repeat constructor.
  - discriminate.
Qed.
Lemma adv_ex_plain : plain_adv adv_ex.
Proof.
  constructor.
  - repeat constructor; simpl; intuition discriminate.
  - intros nm H. split; [exact H|]. destruct H as [<-|[<-|[<-|[]]]]; intros v E; cbn in E;
      injection E as <-; repeat constructor.
  - intros nm [<-|[<-|[<-|[<-|[]]]]]; reflexivity.
Qed.
Lemma no_filter_keeps : keeps_length no_filter.
Proof. intros o f s x y E. unfold no_filter in E. congruence. Qed.
Example motion_ex_corrected : forall aa av te, exists m', correct_motion no_filter aa av te false motion_ex = inr m'.
Proof.
  intros aa av te. eapply Motion.succeeds; try reflexivity.
  - intros. eexists. reflexivity.
  - exact no_filter_keeps.
  - exact adv_ex_admissible.
  - exact adv_ex_plain.
  - discriminate.
Qed.

(** ** C55 *)
Theorem C55_adds_head_motion : forall lp aa av te sp m m', keeps_length lp -> admissible Vector (base m) -> plain_adv (base m) ->
  correct_motion lp aa av te sp m = inr m' ->
  orientmat (base m') = orientmat (base m) /\
  forall k, (k < List.length (orientmat (base m)))%nat ->
  exists x r a, value (base m') "vel_raw" k 0 = Some x /\ value (base m') "velrot" k 0 = Some r /\
    value (base m') "velacc" k 0 = Some a /\ value (base m') "vel" k 0 = Some (plus3 x (plus3 r a)).
Proof. exact Motion.sum_rule. Qed.
(** the result is in the frame asked for, marked as corrected, and 'vel_raw' is the velocity that was
    measured, in that frame *)
Theorem C55_raw_velocity_kept : forall lp aa av te sp m m', keeps_length lp -> admissible Vector (base m) -> plain_adv (base m) ->
  correct_motion lp aa av te sp m = inr m' ->
  coord_sys (base m') = frame_name te /\ corrected m' = true /\ admissible Vector (base m') /\
  exists d', rotate2 (base m) (frame_name te) = Ok d' /\
    lookup "vel_raw" (data (base m')) = lookup "vel" (data d').
Proof. exact Motion.raw_rule. Qed.
(** asking for instrument axes and rotating to the earth afterwards gives the same dataset as
    asking for earth axes *)
Theorem C55_both_settings_agree : forall lp aa av sp m m1 m2, keeps_length lp -> admissible Vector (base m) -> plain_adv (base m) ->
  correct_motion lp aa av true sp m = inr m1 -> correct_motion lp aa av false sp m = inr m2 ->
  rotate2 (base m2) "earth" = Ok (base m1).
Proof. exact Motion.same_earth_both. Qed.
Theorem C55_only_once : forall lp aa av te sp m m' lp' aa' av' te' sp', keeps_length lp -> admissible Vector (base m) -> plain_adv (base m) ->
  correct_motion lp aa av te sp m = inr m' -> correct_motion lp' aa' av' te' sp' m' = inl AlreadyCorrected.
Proof. exact Motion.once. Qed.
Theorem C55_rejects : forall lp aa av te sp m,
  corrected m = true \/ has "velrot" (base m) = true \/ accel_nan m = true \/ angrt_nan m = true \/
  has_imu m = false \/ has "accel" (base m) = false ->
  exists e, correct_motion lp aa av te sp m = inl e.
Proof. exact Motion.rejects. Qed.
(** the rotational part is that of the declared head position *)
Theorem C55_head_rotation : forall lp aa av m m', keeps_length lp -> admissible Vector (base m) -> plain_adv (base m) ->
  correct_motion lp aa av false false m = inr m' ->
  exists d hv, rotate2 (base m) "inst" = Ok d /\ head_vec m = Some hv /\
    forall k w, is_vec 3 hv -> value d "angrt" k 0 = Some w ->
      value (base m') "velrot" k 0 = Some (cross w (minus3 hv imu_position)).
Proof. exact Motion.velrot_rule. Qed.
Example C55_ex : keeps_length no_filter /\ admissible Vector (base motion_ex) /\ plain_adv (base motion_ex) /\
  (exists m1, correct_motion no_filter None None true false motion_ex = inr m1) /\
  (exists m2, correct_motion no_filter None None false false motion_ex = inr m2).
Proof.
  split; [exact no_filter_keeps|]. split; [exact adv_ex_admissible|]. split; [exact adv_ex_plain|].
  split; apply motion_ex_corrected.
Qed.

(** ** C56: duty cycles. Missing: the declared interval is never compared, and intervals that vary
    by more than two but less than three seconds are accepted. *)
Theorem C56_irregular_rejected_partial : forall n iv t k k' g g', (0 < n)%nat -> gap_ns n t k = Some g -> gap_ns n t k' = Some g' ->
  (0 <= g)%Z -> (seconds 3 <= g' - g)%Z -> check_duty_cycle (Some n) iv t = inl BadDutyCycle.
Proof. exact MotionMore.three_seconds. Qed.
Theorem C56_regular_accepted : forall n i t g0, (0 < n)%nat -> gap_ns n t 0 = Some g0 ->
  (forall k k' g g', gap_ns n t k = Some g -> gap_ns n t k' = Some g' -> (0 <= g)%Z /\ (g' - g <= seconds 2)%Z) ->
  check_duty_cycle (Some n) (Some i) t = inr (Some n).
Proof. exact MotionMore.steady_accepted. Qed.
Theorem C56_declared_interval_ignored : forall n i j t,
  check_duty_cycle n (Some i) t = check_duty_cycle n (Some j) t.
Proof. exact MotionMore.interval_ignored. Qed.
(** bursts 100 s apart are accepted as bursts 10 s apart *)
Theorem C56_wrong_interval_refuted : exists n i t, (0 < n)%nat /\
  (exists k g, gap_ns n t k = Some g) /\
  (forall k g, gap_ns n t k = Some g -> (seconds (i + 1) < g)%Z) /\
  check_duty_cycle (Some n) (Some i) t = inr (Some n).
Proof.
  exists 2%nat, 10%Z, [0; seconds 1; seconds 100; seconds 101]%Z. split; [lia|].
  split; [exists 0%nat; eexists; reflexivity|]. split; [|reflexivity].
  intros k g. destruct k as [|[|[|[|k]]]]; try (destruct k; discriminate); try discriminate; intros E;
    assert (H : g = 100000000000%Z) by (vm_compute in E; congruence); rewrite H; reflexivity.
Qed.
(** bursts at intervals of 10 s and of 12.9 s are accepted *)
Theorem C56_irregular_refuted : exists n i t k k' g g', (0 < n)%nat /\ gap_ns n t k = Some g /\ gap_ns n t k' = Some g' /\
  (0 <= g)%Z /\ (seconds 2 < g' - g)%Z /\ check_duty_cycle (Some n) (Some i) t = inr (Some n).
Proof.
  exists 1%nat, 10%Z, [0; 10000000000; 22900000000]%Z, 0%nat, 1%nat. eexists. eexists.
  split; [lia|]. split; [reflexivity|]. split; [reflexivity|]. split; [discriminate|]. split; reflexivity.
Qed.
Example C56_ex : check_duty_cycle (Some 2%nat) (Some 10%Z) [0; seconds 1; seconds 10; seconds 11; seconds 23; seconds 24]%Z = inl BadDutyCycle
  /\ gap_ns 2 [0; seconds 1; seconds 10; seconds 11; seconds 23; seconds 24]%Z 0 = Some (seconds 10)
  /\ gap_ns 2 [0; seconds 1; seconds 10; seconds 11; seconds 23; seconds 24]%Z 2 = Some (seconds 13).
Proof. repeat split; reflexivity. Qed.

(** ** C99: separate probes. A pure rotation about the vertical moves no receiver vertically, and
    still the correction has a vertical component. *)
Theorem C99_separate_probes_refuted : exists d rot hv w, inst2head d = Some rot /\ proper_rotation rot /\ is_vec 3 hv /\
  det 3 (beam2inst d) <> 0 /\ vecs (of_vecs [w]) = get "angrt" d /\
  exists u, head_velocity true d (Some hv) = inr [u] /\
    comp u 2 <> 0 /\
    comp (along_own_beam (beam2inst d) rot (fun j => cross w (minus3 (receiver rot hv j) imu_position))) 2 = 0.
Proof. exact MotionMore.separate_wrong. Qed.

(** ** C100: without filters, 'velacc' is the integral of the acceleration in earth axes less its mean *)
Theorem C100_integral : forall lp sp m m' i k, keeps_length lp -> admissible Vector (base m) -> plain_adv (base m) ->
  n_burst m = None -> fs m <> 0 -> correct_motion lp (Some 0) (Some 0) true sp m = inr m' ->
  (i < 3)%nat -> (k < List.length (orientmat (base m)))%nat ->
  let x := history (base m') "accel" i in
  nth k (history (base m') "velacc" i) 0 =
    trapezoids (1 / fs m) k x - INR k * (1 / fs m) * (total x / INR (List.length x)).
Proof. exact MotionMore.integral_rule. Qed.
(** a constant acceleration, such as gravity on a steady instrument, gives no velocity *)
Theorem C100_gravity_removed : forall lp sp m m' i k a, keeps_length lp -> admissible Vector (base m) -> plain_adv (base m) ->
  n_burst m = None -> fs m <> 0 -> correct_motion lp (Some 0) (Some 0) true sp m = inr m' ->
  (i < 3)%nat -> (k < List.length (orientmat (base m)))%nat ->
  history (base m') "accel" i = repeat a (List.length (orientmat (base m))) ->
  nth k (history (base m') "velacc" i) 0 = 0.
Proof. exact MotionMore.gravity_rule. Qed.
Example C100_ex : n_burst motion_ex = None /\ fs motion_ex <> 0 /\
  exists m', correct_motion no_filter (Some 0) (Some 0) true false motion_ex = inr m'.
Proof. split; [reflexivity|]. split; [cbn; lra|]. apply motion_ex_corrected. Qed.

(** ** C101: duty-cycled data are corrected only when they are made of whole bursts *)
Theorem C101_whole_bursts : forall lp aa av te sp m m' n, keeps_length lp -> admissible Vector (base m) -> plain_adv (base m) ->
  check_duty_cycle (n_burst m) (interval m) (times m) = inr (Some n) ->
  correct_motion lp aa av te sp m = inr m' ->
  exists q, List.length (orientmat (base m)) = (q * n)%nat.
Proof. exact MotionMore.whole_bursts. Qed.
(** an argument takes precedence over the attribute, the attribute over the default of 0.03 Hz;
    the velocity filter defaults to a third of the acceleration filter *)
Theorem C101_filter_precedence : forall attr_a attr_v a v,
  filt_freqs attr_a attr_v (Some a) (Some v) = (a, v) /\
  filt_freqs (Some a) (Some v) None None = (a, v) /\
  filt_freqs None None None None = (3/100, 1/100) /\
  filt_freqs attr_a None (Some a) None = (a, a / 3).
Proof.
  intros. repeat split; try (destruct attr_a; reflexivity). unfold filt_freqs. f_equal. field.
Qed.

(** All the theorems of this file, for one listing of axioms. *)
Definition all_theorems :=
  (@C54_cross_product,
   @C54_in_earth_axes,
   @C54_same_in_earth,
   @C54_perpendicular,
   @C54_zero_at_imu,
   @C54_bilinear,
   @C55_adds_head_motion,
   @C55_raw_velocity_kept,
   @C55_both_settings_agree,
   @C55_only_once,
   @C55_rejects,
   @C55_head_rotation,
   @C56_irregular_rejected_partial,
   @C56_regular_accepted,
   @C56_declared_interval_ignored,
   @C56_wrong_interval_refuted,
   @C56_irregular_refuted,
   @C99_separate_probes_refuted,
   @C100_integral,
   @C100_gravity_removed,
   @C101_whole_bursts,
   @C101_filter_precedence).
Print Assumptions all_theorems.
