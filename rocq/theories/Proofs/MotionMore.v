From Coq Require Import String Reals List Bool ZArith Lra Lia.
From Verif.Model Require Import Linalg Rotate Motion.
From Verif.Spec Require Import Linalg Rotate Motion.
From Verif.Proofs Require Import Linalg Rotate RotateProps Motion.
Import ListNotations.

(** * C56 *)
Open Scope Z_scope.

Lemma maxZ_spec x l : (forall y, In y (x :: l) -> y <= maxZ x l) /\ In (maxZ x l) (x :: l).
Proof.
  unfold maxZ. revert x. induction l as [|z l IH]; intros x; simpl.
  - split; [intros y [->|[]]; lia|left; reflexivity].
  - destruct (IH (Z.max x z)) as [A B]. split.
    + intros y [->|[->|H]].
      * specialize (A (Z.max y z) (or_introl eq_refl)). lia.
      * specialize (A (Z.max x y) (or_introl eq_refl)). lia.
      * apply A. right; exact H.
    + destruct B as [B|B]; [|tauto]. rewrite <- B. destruct (Z.max_spec x z) as [[_ ->]|[_ ->]]; tauto.
Qed.
Lemma minZ_spec x l : (forall y, In y (x :: l) -> minZ x l <= y) /\ In (minZ x l) (x :: l).
Proof.
  unfold minZ. revert x. induction l as [|z l IH]; intros x; simpl.
  - split; [intros y [->|[]]; lia|left; reflexivity].
  - destruct (IH (Z.min x z)) as [A B]. split.
    + intros y [->|[->|H]].
      * specialize (A (Z.min y z) (or_introl eq_refl)). lia.
      * specialize (A (Z.min x y) (or_introl eq_refl)). lia.
      * apply A. right; exact H.
    + destruct B as [B|B]; [|tauto]. rewrite <- B. destruct (Z.min_spec x z) as [[_ ->]|[_ ->]]; tauto.
Qed.

Lemma sub_lists_nth a b k : nth_error (sub_lists a b) k =
  match nth_error a k, nth_error b k with Some x, Some y => Some (x - y) | _, _ => None end.
Proof.
  revert b k. induction a as [|x a IH]; intros b k.
  - destruct k; reflexivity.
  - destruct b as [|y b]; [destruct k; [reflexivity|]; simpl; destruct (nth_error a k); reflexivity|].
    destruct k; [reflexivity|]. simpl. apply IH.
Qed.

Lemma nth_error_skipn' {A} n (l : list A) k : nth_error (skipn n l) k = nth_error l (k + n).
Proof.
  revert l; induction n as [|n IH]; intros l; [rewrite Nat.add_0_r; reflexivity|].
  destruct l as [|x l]; [destruct k; rewrite ?Nat.add_succ_r; try reflexivity; destruct (k + n)%nat; reflexivity|].
  rewrite Nat.add_succ_r. simpl. apply IH.
Qed.
Lemma nth_error_firstn' {A} n (l : list A) k : (k < n)%nat -> nth_error (firstn n l) k = nth_error l k.
Proof.
  revert l k; induction n as [|n IH]; intros l k H; [lia|]. destruct l as [|x l]; [destruct k; reflexivity|].
  destruct k; [reflexivity|]. simpl. apply IH. lia.
Qed.

Lemma intervals_nth n t k : nth_error (burst_intervals n t) k =
  option_map (fun g => Z.quot g 1000000000) (gap_ns n t k).
Proof.
  unfold burst_intervals. rewrite nth_error_map, sub_lists_nth, nth_error_skipn'. unfold gap_ns.
  destruct (nth_error t (k + n)) as [b|] eqn:Eb.
  - assert (Hk : (k < List.length t - n)%nat).
    { assert (k + n < List.length t)%nat by (apply nth_error_Some; congruence). lia. }
    rewrite nth_error_firstn' by exact Hk. destruct (nth_error t k); reflexivity.
  - destruct (nth_error t k); reflexivity.
Qed.

Lemma in_intervals n t k g : gap_ns n t k = Some g -> In (Z.quot g 1000000000) (burst_intervals n t).
Proof. intros H. eapply nth_error_In. rewrite intervals_nth, H. reflexivity. Qed.

Lemma check_pos n iv t : (0 < n)%nat -> check_duty_cycle (Some n) iv t =
    match burst_intervals n t with
    | [] => inl BadDutyCycle
    | x :: l => if 2 <? maxZ x l - minZ x l then inl BadDutyCycle
                else match iv with None => inl NoInterval | Some _ => inr (Some n) end
    end.
Proof.
  intros Hn. destruct n as [|n]; [lia|]. unfold check_duty_cycle. destruct (burst_intervals (S n) t) as [|x l]; [reflexivity|].
  cbv zeta. destruct (2 <? maxZ x l - minZ x l); [reflexivity|]. destruct iv as [i|]; [|reflexivity].
  destruct (Z.ltb_spec (i + 1) (Z.quot (fold_right Z.add 0 (x :: l)) (Z.of_nat (List.length (x :: l))))); [|reflexivity].
  destruct (Z.ltb_spec (Z.quot (fold_right Z.add 0 (x :: l)) (Z.of_nat (List.length (x :: l)))) (i - 1)); [lia|reflexivity].
Qed.

Lemma quot_mono a b : a <= b -> Z.quot a 1000000000 <= Z.quot b 1000000000.
Proof. intros. apply Z.quot_le_mono; lia. Qed.

Lemma quot_add k a : 0 <= a -> 0 <= k -> Z.quot (a + seconds k) 1000000000 = Z.quot a 1000000000 + k.
Proof. intros Ha Hk. unfold seconds. rewrite Z.quot_add; [reflexivity| |]; lia. Qed.

Lemma three_seconds n iv t k k' g g' : (0 < n)%nat -> gap_ns n t k = Some g -> gap_ns n t k' = Some g' ->
  0 <= g -> seconds 3 <= g' - g -> check_duty_cycle (Some n) iv t = inl BadDutyCycle.
Proof.
  intros Hn H H' G D. rewrite check_pos by exact Hn.
  pose proof (in_intervals _ _ _ _ H) as I1. pose proof (in_intervals _ _ _ _ H') as I2.
  destruct (burst_intervals n t) as [|x l]; [reflexivity|].
  destruct (maxZ_spec x l) as [MX _]. destruct (minZ_spec x l) as [MN _].
  specialize (MN _ I1). specialize (MX _ I2).
  assert (Z.quot g 1000000000 + 3 <= Z.quot g' 1000000000).
  { rewrite <- quot_add by lia. apply quot_mono. lia. }
  destruct (Z.ltb_spec 2 (maxZ x l - minZ x l)); [reflexivity|lia].
Qed.

Lemma intervals_in n t y : In y (burst_intervals n t) -> exists k g, gap_ns n t k = Some g /\ y = Z.quot g 1000000000.
Proof.
  intros H. apply In_nth_error in H. destruct H as (k & H). rewrite intervals_nth in H.
  destruct (gap_ns n t k) as [g|] eqn:E; [|discriminate]. exists k, g. split; [exact E|]. simpl in H. congruence.
Qed.

Lemma steady_accepted n i t g0 : (0 < n)%nat -> gap_ns n t 0 = Some g0 ->
  (forall k k' g g', gap_ns n t k = Some g -> gap_ns n t k' = Some g' -> 0 <= g /\ g' - g <= seconds 2) ->
  check_duty_cycle (Some n) (Some i) t = inr (Some n).
Proof.
  intros Hn H0 H. rewrite check_pos by exact Hn.
  destruct (burst_intervals n t) as [|x l] eqn:E.
  { apply in_intervals in H0. rewrite E in H0. destruct H0. }
  destruct (maxZ_spec x l) as [_ MX]. destruct (minZ_spec x l) as [_ MN]. rewrite <- E in MX, MN.
  apply intervals_in in MX. apply intervals_in in MN. destruct MX as (k & g & Hk & EM). destruct MN as (k' & g' & Hk' & Em).
  rewrite EM, Em. destruct (H k' k g' g Hk' Hk) as [P Q].
  assert (Z.quot g 1000000000 <= Z.quot g' 1000000000 + 2).
  { rewrite <- quot_add by lia. apply quot_mono. lia. }
  destruct (Z.ltb_spec 2 (Z.quot g 1000000000 - Z.quot g' 1000000000)); [lia|reflexivity].
Qed.

Lemma interval_ignored n i j t : check_duty_cycle n (Some i) t = check_duty_cycle n (Some j) t.
Proof.
  destruct n as [[|n]|]; try reflexivity. rewrite !check_pos by lia.
  destruct (burst_intervals (S n) t); [reflexivity|]. destruct (_ <? _); reflexivity.
Qed.

(** * C100, C101: the integrated acceleration *)
Open Scope R_scope.

Lemma cumtrapz_from_nth dx acc x0 x k : (k <= List.length x)%nat ->
  nth k (cumtrapz_from dx acc x0 x) 0 = acc + trapezoids dx k (x0 :: x).
Proof.
  revert acc x0 k. induction x as [|x1 x IH]; intros acc x0 k H.
  - simpl in H. destruct k; [simpl; ring|lia].
  - destruct k as [|k]; [simpl; ring|]. cbn [cumtrapz_from nth]. rewrite IH by (simpl in H; lia).
    assert (E : forall k y z w, trapezoids dx (S k) (z :: y :: w) = dx * (z + y) / 2 + trapezoids dx k (y :: w)).
    { clear. induction k as [|k IHk]; intros y z w; [simpl; field|].
      change (trapezoids dx (S (S k)) (z :: y :: w)) with
        (trapezoids dx (S k) (z :: y :: w) + dx * (nth (S k) (z :: y :: w) 0 + nth (S (S k)) (z :: y :: w) 0) / 2).
      rewrite IHk. cbn [trapezoids nth]. ring. }
    rewrite E. ring.
Qed.

Lemma cumtrapz_nth dx x k : (k < List.length x)%nat -> nth k (cumtrapz dx x) 0 = trapezoids dx k x.
Proof.
  destruct x as [|x0 x]; intros H; [simpl in H; lia|]. cbn [cumtrapz]. rewrite cumtrapz_from_nth by (simpl in H; lia). ring.
Qed.

Lemma trapezoids_shift dx c k x : (k < List.length x)%nat ->
  trapezoids dx k (map (fun y => y - c) x) = trapezoids dx k x - INR k * dx * c.
Proof.
  induction k as [|k IH]; intros H; [cbn [trapezoids INR]; ring|].
  cbn [trapezoids]. rewrite IH by lia. rewrite S_INR.
  assert (N : forall j, (j < List.length x)%nat -> nth j (map (fun y => y - c) x) 0 = nth j x 0 - c).
  { intros j Hj. rewrite (nth_indep _ 0 (0 - c)) by (rewrite map_length; exact Hj).
    apply (map_nth (fun y => y - c)). }
  rewrite !N by lia. field.
Qed.

Lemma sub_const x c : sub_series x (map (fun _ => c) x) = map (fun y => y - c) x.
Proof. induction x as [|y x IH]; [reflexivity|]. simpl. rewrite IH. reflexivity. Qed.

(** no filter at all: integral of the acceleration minus its mean *)
Definition plain_integral (s : R) (x : list R) : list R := cumtrapz (1 / s) (map (fun y => y - mean x) x).

Lemma unfiltered lp s x : 
  exists low, low_accel lp 0 s x = Some low /\ integrate lp 0 s x low = Some (plain_integral s x).
Proof.
  unfold low_accel. destruct (Req_EM_T 0 0); [|congruence]. eexists; split; [reflexivity|].
  unfold integrate. destruct (Rlt_dec 0 0); [lra|]. rewrite sub_const. reflexivity.
Qed.

Lemma component_unfiltered lp n s x c : component_motion lp n 0 0 s x = inr c ->
  snd c = concat (map (plain_integral s) (bursts n x)) /\ List.length (snd c) = List.length x.
Proof.
  unfold component_motion.
  assert (E : exists lows, map_opt (low_accel lp 0 s) (bursts n x) = Some lows /\
     map_opt (fun p => integrate lp 0 s (fst p) (snd p)) (combine (bursts n x) lows) = Some (map (plain_integral s) (bursts n x))).
  { induction (bursts n x) as [|b bs (lows & E1 & E2)]; [exists []; split; reflexivity|].
    destruct (unfiltered lp s b) as (low & F1 & F2). exists (low :: lows). cbn [map_opt combine fst snd map].
    rewrite F1, E1, F2, E2. split; reflexivity. }
  destruct E as (lows & -> & ->).
  destruct (Nat.eqb_spec (List.length (concat (map (plain_integral s) (bursts n x)))) (List.length x)) as [L|]; [|discriminate].
  intros H. assert (Hc : c = (concat lows, concat (map (plain_integral s) (bursts n x)))) by congruence.
  subst c. cbn [snd]. split; [reflexivity|exact L].
Qed.

Lemma plain_integral_nth s x k : (k < List.length x)%nat -> s <> 0 ->
  nth k (plain_integral s x) 0 = trapezoids (1 / s) k x - INR k * (1 / s) * (total x / INR (List.length x)).
Proof.
  intros H Hs. unfold plain_integral. rewrite cumtrapz_nth by (rewrite map_length; exact H).
  rewrite trapezoids_shift by exact H. reflexivity.
Qed.

Lemma series_zip3 a b c : List.length a = List.length b -> List.length a = List.length c ->
  series 0 (zip3 a b c) = a /\ series 1 (zip3 a b c) = b /\ series 2 (zip3 a b c) = c.
Proof.
  revert b c. induction a as [|x a IH]; intros [|y b] [|z c] H1 H2; simpl in *; try lia; [auto|].
  destruct (IH b c) as (A & B & C); [lia|lia|]. unfold series in *. rewrite A, B, C. auto.
Qed.

Lemma history_of_vecs d nm l i : lookup nm (data d) = Some (of_vecs l) -> history d nm i = series i l.
Proof.
  intros H. unfold history. rewrite H. unfold of_vecs, series. cbn [cells]. rewrite map_map. reflexivity.
Qed.

(** one case analysis on the component instead of three *)
Lemma velacc_history lp aa av sp m m' : keeps_length lp -> admissible Vector (base m) -> plain_adv (base m) ->
  correct_motion lp aa av true sp m = inr m' ->
  exists n, check_duty_cycle (n_burst m) (interval m) (times m) = inr n /\
  List.length (history (base m') "accel" 0) = List.length (orientmat (base m)) /\
  forall i, (i < 3)%nat -> exists c,
    List.length (history (base m') "accel" i) = List.length (orientmat (base m)) /\
    component_motion lp n (fst (filt_freqs (accel_freq m) (vel_freq m) aa av))
      (snd (filt_freqs (accel_freq m) (vel_freq m) aa av)) (fs m) (history (base m') "accel" i) = inr c /\
    history (base m') "velacc" i = snd c /\ history (base m') "acclow" i = fst c.
Proof.
  intros K A P H.
  destruct (correct_stage _ _ _ _ _ _ _ K A P H) as (d & n & c0 & c1 & c2 & VR & a1 & a2 & a3 & a4 & a5 & a6 & S & ->).
  exists n. split; [exact a2|].
  assert (OM : orientmat (base m) = orientmat d).
  { destruct (adm_index _ _ A) as (i & Hi & C).
    destruct (rotate2_inv Vector (base m) i "inst" d A C Hi a1) as (j & Hj & Ho & HC & ->). reflexivity. }
  pose proof (sg_acc _ _ _ _ _ S) as Va.
  unfold after. cbn [base].
  pose proof (lookup_out "accel" true _ d VR _ _ S) as L1.
  pose proof (lookup_out "velacc" true _ d VR _ _ S) as L2.
  pose proof (lookup_out "acclow" true _ d VR _ _ S) as L3.
  rewrite (lookup_turned_true _ _ _ _ _ _ S) in L1. rewrite (lookup_turned_true _ _ _ _ _ _ S) in L2.
  rewrite (lookup_turned_true _ _ _ _ _ _ S) in L3.
  cbn [String.eqb Ascii.eqb Bool.eqb] in L1, L2, L3.
  split; [rewrite (history_of_vecs _ _ _ _ L1), series_length, (proj1 Va); congruence|].
  pose proof (duty_pos _ _ _ _ a2) as Np.
  assert (LL : forall i c, component_motion lp n (fst (filt_freqs (accel_freq m) (vel_freq m) aa av))
      (snd (filt_freqs (accel_freq m) (vel_freq m) aa av)) (fs m) (series i (turn (orientmat d) (get "accel" d))) = inr c ->
     List.length (fst c) = List.length (orientmat d) /\ List.length (snd c) = List.length (orientmat d)).
  { intros i [lo ve] E. destruct (component_lengths lp n _ _ _ _ lo ve K E) as [M1 M2].
    rewrite series_length, (proj1 Va) in M1, M2. cbn [fst snd]. auto. }
  destruct (LL _ _ a3) as [p0 q0], (LL _ _ a4) as [p1 q1], (LL _ _ a5) as [p2 q2].
  destruct (series_zip3 (fst c0) (fst c1) (fst c2)) as (u0 & u1 & u2); try congruence.
  destruct (series_zip3 (snd c0) (snd c1) (snd c2)) as (v0 & v1 & v2); try congruence.
  intros i Hi. rewrite (history_of_vecs _ _ _ i L1), (history_of_vecs _ _ _ i L2), (history_of_vecs _ _ _ i L3).
  rewrite series_length, (proj1 Va), OM.
  destruct i as [|[|[|i]]]; [exists c0|exists c1|exists c2|lia]; (split; [reflexivity|]); (split; [assumption|]); (split; [assumption|assumption]).
Qed.

Lemma integral_rule lp sp m m' i k : keeps_length lp -> admissible Vector (base m) -> plain_adv (base m) ->
  n_burst m = None -> fs m <> 0 -> correct_motion lp (Some 0) (Some 0) true sp m = inr m' ->
  (i < 3)%nat -> (k < List.length (orientmat (base m)))%nat ->
  let x := history (base m') "accel" i in
  nth k (history (base m') "velacc" i) 0 =
    trapezoids (1 / fs m) k x - INR k * (1 / fs m) * (total x / INR (List.length x)).
Proof.
  intros K A P NB F H Hi Hk x.
  destruct (velacc_history _ _ _ _ _ _ K A P H) as (n & Hn & _ & Hc). rewrite NB in Hn. cbn in Hn. injection Hn as <-.
  destruct (Hc i Hi) as (c & Lx & Ec & -> & _).
  assert (Ff : filt_freqs (accel_freq m) (vel_freq m) (Some 0) (Some 0) = (0, 0)).
  { unfold filt_freqs. destruct (accel_freq m); reflexivity. }
  rewrite Ff in Ec. cbn [fst snd] in Ec. destruct (component_unfiltered _ _ _ _ _ Ec) as [-> _].
  cbn [bursts map concat]. rewrite app_nil_r. apply plain_integral_nth; [|exact F]. fold x in Lx |- *. rewrite Lx. exact Hk.
Qed.

Lemma constant_trapezoids dx a k T : (k < T)%nat -> trapezoids dx k (repeat a T) = INR k * dx * a.
Proof.
  induction k as [|k IH]; intros H; [cbn [trapezoids INR]; ring|]. cbn [trapezoids]. rewrite IH by lia.
  rewrite (S_INR k).
  assert (N : forall j, (j < T)%nat -> nth j (repeat a T) 0 = a).
  { intros j Hj. rewrite nth_repeat_lt || idtac. clear -Hj. revert j Hj. induction T; intros j Hj; [lia|]. destruct j; [reflexivity|]. simpl. apply IHT. lia. }
  rewrite !N by lia. field.
Qed.
Lemma total_repeat a T : total (repeat a T) = INR T * a.
Proof. induction T as [|T IH]; [simpl; ring|]. rewrite S_INR. cbn [repeat]. unfold total in *. simpl. rewrite IH. ring. Qed.

Lemma gravity_rule lp sp m m' i k a : keeps_length lp -> admissible Vector (base m) -> plain_adv (base m) ->
  n_burst m = None -> fs m <> 0 -> correct_motion lp (Some 0) (Some 0) true sp m = inr m' ->
  (i < 3)%nat -> (k < List.length (orientmat (base m)))%nat ->
  history (base m') "accel" i = repeat a (List.length (orientmat (base m))) ->
  nth k (history (base m') "velacc" i) 0 = 0.
Proof.
  intros K A P NB F H Hi Hk E. pose proof (integral_rule lp sp m m' i k K A P NB F H Hi Hk) as R. cbv zeta in R.
  rewrite R, E, constant_trapezoids by exact Hk. rewrite total_repeat, repeat_length.
  assert (INR (List.length (orientmat (base m))) <> 0) by (apply not_0_INR; lia). field. split; assumption.
Qed.

(** bursts *)
Lemma whole_bursts lp aa av te sp m m' n : keeps_length lp -> admissible Vector (base m) -> plain_adv (base m) ->
  check_duty_cycle (n_burst m) (interval m) (times m) = inr (Some n) ->
  correct_motion lp aa av te sp m = inr m' ->
  exists q, List.length (orientmat (base m)) = (q * n)%nat.
Proof.
  intros K A P Hn H.
  destruct (correct_stage _ _ _ _ _ _ _ K A P H) as (d & n' & c0 & c1 & c2 & VR & a1 & a2 & a3 & _ & _ & _ & S & _).
  assert (n' = Some n) by congruence. subst n'.
  assert (OM : orientmat (base m) = orientmat d).
  { destruct (adm_index _ _ A) as (i & Hi & C).
    destruct (rotate2_inv Vector (base m) i "inst" d A C Hi a1) as (j & Hj & Ho & HC & ->). reflexivity. }
  pose proof (sg_acc _ _ _ _ _ S) as Va.
  assert (n0 : n <> 0%nat) by (pose proof (duty_pos _ _ _ _ Hn); congruence).
  exists (List.length (orientmat d) / n)%nat. rewrite OM.
  unfold component_motion in a3. cbn [bursts] in a3.
  set (x := series 0 _) in *.
  assert (Lx : List.length x = List.length (orientmat d)) by (unfold x; rewrite series_length; apply Va).
  destruct (map_opt _ (reshape_bursts n x)) as [lows|] eqn:E1; [|discriminate].
  destruct (map_opt _ (combine _ _)) as [vs|] eqn:E2; [|discriminate].
  destruct (Nat.eqb_spec (List.length (concat vs)) (List.length x)) as [E|]; [|discriminate].
  unfold reshape_bursts in *.
  destruct (take_bursts_total (List.length x / n) n x) as (B1 & B2 & B3).
  { rewrite Nat.mul_comm. apply Nat.mul_div_le. exact n0. }
  rewrite <- Lx. rewrite <- E at 1. rewrite <- B2. symmetry. apply concat_length2.
  apply map_opt_Forall2 in E1. apply map_opt_Forall2 in E2. clear - E1 E2 K B1 n0.
  revert lows vs E1 E2 B1. generalize (take_bursts (List.length x / n) n x). intros bs.
  induction bs as [|b bs IH]; intros lows vs E1 E2 A; inversion E1; subst; simpl in E2; inversion E2; subst; constructor.
  - inversion A; subst. symmetry. eapply integrate_length; [exact K| | |eassumption].
    + cbn [fst snd]. eapply low_length; eassumption.
    + cbn [fst]. intros ->. simpl in n0. congruence.
  - inversion A; subst. eapply IH; eassumption.
Qed.

(** * C99: separate probes *)
Lemma cos240 : cos (deg2rad 240) = -1/2 /\ sin (deg2rad 240) = - (sqrt 3 / 2).
Proof.
  unfold deg2rad. replace (240 * PI / 180) with (PI / 3 + PI) by field.
  rewrite neg_cos, neg_sin, cos_PI3, sin_PI3. split; field.
Qed.
Lemma cos120 : cos (deg2rad 120) = -1/2 /\ sin (deg2rad 120) = sqrt 3 / 2.
Proof.
  unfold deg2rad. replace (120 * PI / 180) with (2 * (PI / 3)) by field.
  rewrite cos_2PI3, sin_2PI3. split; field.
Qed.
Lemma cos000 : cos (deg2rad 0) = 1 /\ sin (deg2rad 0) = 0.
Proof. unfold deg2rad. replace (0 * PI / 180) with 0 by field. split; [apply cos_0|apply sin_0]. Qed.

Definition T_w : mat := [[2; -1; -1]; [0; -2; 2]; [1/3; 1/3; 1/3]].
Definition id3 : mat := [[1; 0; 0]; [0; 1; 0]; [0; 0; 1]].

Lemma T_w_inv : inv 3 T_w = [[1/3; 0; 1]; [-1/6; -1/4; 1]; [-1/6; 1/4; 1]].
Proof. 
  unfold inv, T_w. cbn.
  repeat match goal with |- (_ :: _) = (_ :: _) => apply (f_equal2 cons) | |- @nil _ = nil => reflexivity end; field.
Qed.
Lemma T_w_det : det 3 T_w <> 0.
Proof. unfold T_w. cbn. lra. Qed.

Definition spin_ds (a : vec) : ds :=
  Ds "nortek vector" "vector" "inst" ["X";"Y";"Z"]%string (Some ["X";"Y";"Z"]%string) ["1";"2";"3"]%string "up" T_w [id3] None (Some id3) true None None
     ["vel"; "accel"; "angrt"]%string [("vel"%string, of_vecs [[0;0;0]]); ("accel"%string, of_vecs [[0;0;0]]); ("angrt"%string, of_vecs [a])].

Lemma separate_wrong : exists d rot hv w, inst2head d = Some rot /\ proper_rotation rot /\ is_vec 3 hv /\
  det 3 (beam2inst d) <> 0 /\ vecs (of_vecs [w]) = get "angrt" d /\
  exists u, head_velocity true d (Some hv) = inr [u] /\
    comp u 2 <> 0 /\
    comp (along_own_beam (beam2inst d) rot (fun j => cross w (minus3 (receiver rot hv j) imu_position))) 2 = 0.
Proof.
  exists (spin_ds [0;0;1]), id3, [635/100000; 635/100000; 14986/100000], [0;0;1].
  split; [reflexivity|]. split.
  { split; [split; [split; [reflexivity|repeat constructor]|]|unfold det3, entry, id3; cbn; ring].
    intros i j Hi Hj. destruct i as [|[|[|i]]], j as [|[|[|j]]]; try lia; unfold dot3, column, kron, entry, id3; cbn; split; ring. }
  split; [reflexivity|]. split; [exact T_w_det|]. split; [reflexivity|].
  unfold head_velocity, spin_ds. cbn [make_model inst2head beam2inst body2imu].
  assert (S : singular 3 T_w = false).
  { unfold singular. destruct (Req_EM_T (det 3 T_w) 0) as [E|]; [destruct (T_w_det E)|reflexivity]. }
  change (body2imu "nortek vector") with (@inr merr vec [635/100000; 635/100000; 14986/100000]). cbv iota beta. rewrite S.
  eexists. split; [reflexivity|].
  destruct cos240 as [c2 s2], cos120 as [c1 s1], cos000 as [c0 s0].
  split.
  - unfold separate1. rewrite T_w_inv. unfold probe_pos. cbn [map]. rewrite c0, s0, c1, s1, c2, s2.
    set (u := tan _). unfold velrot1, id3, T_w, comp. cbn. 
    match goal with |- ?t <> 0 => replace t with (76/1000 * (sqrt 3 / 2 - 13/24) / 3) by field end.
    assert (1.5 < sqrt 3). { replace 1.5 with (sqrt (1.5 * 1.5)) by (apply sqrt_square; lra). apply sqrt_lt_1; lra. }
    lra.
  - unfold along_own_beam. rewrite T_w_inv. unfold receiver. cbn [map seq].
    replace (120 * INR 0) with 0 by (simpl; ring). replace (120 * INR 1) with 120 by (simpl; ring).
    replace (120 * INR 2) with 240 by (simpl; ring). rewrite c0, s0, c1, s1, c2, s2.
    set (u := tan _). unfold cross, minus3, plus3, in_earth, id3, T_w, imu_position, comp, entry. cbn. field.
Qed.
