From Coq Require Import QArith Qround Reals Qreals List ZArith Bool Lra Lia.
From Verif.Model Require Import Stats Dissipation.
From Verif.Spec Require Import Stats Dissipation.
From Verif.Proofs Require Import Stats.
From Verif.Proofs Require Vel Psd PsdProps.
Import ListNotations.
Open Scope R_scope.

(** ** powers and means *)
Lemma rpow_pos x y : 0 < x -> rpow x y = Rpower x y.
Proof. intros H. unfold rpow. destruct (Req_EM_T x 0); [lra|easy]. Qed.
Lemma rpow_nonneg x y : 0 <= rpow x y.
Proof. unfold rpow. destruct (Req_EM_T x 0); [lra|]. unfold Rpower. left. apply exp_pos. Qed.
Lemma Rpower_pos x y : 0 < Rpower x y.
Proof. apply exp_pos. Qed.
Lemma rpow_0 y : rpow 0 y = 0.
Proof. unfold rpow. destruct (Req_EM_T 0 0); [easy|lra]. Qed.
Lemma rpow_scale c x y : 0 < c -> 0 <= x -> rpow (c * x) y = Rpower c y * rpow x y.
Proof.
  intros C X. destruct (Req_EM_T x 0) as [->|N]; [rewrite Rmult_0_r, rpow_0; ring|].
  rewrite !rpow_pos by (try apply Rmult_lt_0_compat; lra). symmetry. apply Rpower_mult_distr; lra.
Qed.
Lemma two_thirds x : 0 < x -> Rpower (Rpower x (2/3)) (3/2) = x.
Proof. intros H. rewrite Rpower_mult. replace (2/3 * (3/2)) with 1 by field. now apply Rpower_1. Qed.
Lemma mean_const l c : l <> [] -> (forall x, In x l -> x = c) -> mean l = c.
Proof.
  intros N H. pose proof (INR_len_pos l N) as P. unfold mean. assert (E : rsum l = INR (length l) * c); [|rewrite E; field; lra].
  clear N P. induction l as [|a l IH]; [cbn; ring|]. cbn [rsum fold_right]. fold (rsum l). rewrite IH by (intros; apply H; now right).
  rewrite (H a) by now left. cbn [length]. rewrite S_INR. ring.
Qed.
Lemma mean_nonneg l : l <> [] -> (forall x, In x l -> 0 <= x) -> 0 <= mean l.
Proof.
  intros N H. pose proof (INR_len_pos l N) as P. unfold mean. apply Rmult_le_pos; [|now apply Rlt_le, Rinv_0_lt_compat].
  now apply Psd.rsum_nonneg.
Qed.
Lemma mean_scale c l : mean (map (Rmult c) l) = c * mean l.
Proof. unfold mean. rewrite PsdProps.rsum_scale, map_length. unfold Rdiv. ring. Qed.
Lemma in_combine_nth (f p : list R) x : length p = length f -> In x (combine f p) <-> exists j, (j < length f)%nat /\ x = (nth j f 0, nth j p 0).
Proof.
  intros L. split.
  - intros H. apply (In_nth _ _ (0, 0)) in H as (j & Hj & E). rewrite combine_length, L, Nat.min_id in Hj. exists j. split; [easy|].
    now rewrite combine_nth in E.
  - intros (j & Hj & ->). rewrite <- combine_nth by easy. apply nth_In. now rewrite combine_length, L, Nat.min_id.
Qed.
Lemma inside_iff lo hi fp : inside lo hi fp = true <-> lo < fst fp < hi.
Proof.
  unfold inside. destruct (Rlt_dec lo (fst fp)), (Rlt_dec (fst fp) hi); cbn; split; try easy; lra.
Qed.

(** ** LT83 *)
Lemma sub_len fs noise psd : match noise with Some s => length s = length psd | None => True end -> length (sub_noise fs noise psd) = length psd.
Proof. destruct noise as [s|]; cbn; intros H; [rewrite map2_len; lia|now rewrite map_length]. Qed.
Definition noise_at (noise : option (list R)) (i : nat) : R := match noise with Some s => nth i s 0 | None => 0 end.
Lemma sub_nth fs noise psd i row : match noise with Some s => length s = length psd | None => True end -> nth_error psd i = Some row ->
  nth_error (sub_noise fs noise psd) i = Some (map (fun p => p - noise_at noise i * noise_at noise i / (fs / 2)) row).
Proof.
  intros H E. destruct noise as [s|]; cbn [sub_noise noise_at]; [|now rewrite nth_error_map, E].
  rewrite Vel.map2_nth_error, E. assert (Hi : (i < length s)%nat) by (rewrite H; apply nth_error_Some; congruence).
  now rewrite (nth_error_nth' s 0 Hi).
Qed.
Definition floor1 (m p : R) : R := if Rlt_dec 0 p then p else m.
Lemma lt83_nth fs hz lo hi freq noise psd U i row u : match noise with Some s => length s = length psd | None => True end ->
  nth_error psd i = Some row -> nth_error U i = Some u ->
  exists m, 0 <= m /\ nth_error (lt83 fs hz lo hi freq noise psd U) i =
    Some (lt83_row hz lo hi freq (map (fun p => floor1 m (p - noise_at noise i * noise_at noise i / (fs / 2))) row) u).
Proof.
  intros H E Eu. unfold lt83, floor_psd. set (l := concat _). exists (min_abs l / 100). split.
  - assert (0 <= min_abs l); [|lra]. unfold min_abs. destruct (map Rabs l) as [|x t] eqn:M; [lra|].
    assert (A : forall y, In y (x :: t) -> 0 <= y) by (rewrite <- M; intros y Hy; apply in_map_iff in Hy as (z & <- & _); apply Rabs_pos).
    clear M. revert x A. induction t as [|y t IH]; intros x A; cbn; [apply A; now left|]. apply IH. intros z [<-|Hz]; [|apply A; now right; right].
    apply Rmin_case; apply A; [now left|right; now left].
  - rewrite Vel.map2_nth_error, nth_error_map, (sub_nth _ _ _ _ _ H E). cbn [option_map]. rewrite Eu, map_map. reflexivity.
Qed.
Lemma sel_nonempty hz lo hi freq row u : length row = length freq -> (exists j, (j < length freq)%nat /\ lo < nth j freq 0 < hi) ->
  exists sel, sel <> [] /\ (forall x, In x sel -> exists j, (j < length freq)%nat /\ lo < nth j freq 0 < hi /\ x = (nth j freq 0, nth j row 0)) /\
   lt83_row hz lo hi freq row u = Some (rpow (mean (map (fun fp => snd fp * rpow (fst fp) (5/3) / (1/2)) sel)) (3/2) / (if hz then u / (2 * PI) else u)).
Proof.
  intros L (j & Hj & B). unfold lt83_row. set (sel := filter _ _).
  assert (I : In (nth j freq 0, nth j row 0) sel). { apply filter_In. split; [apply in_combine_nth; [easy|now exists j]|now apply inside_iff]. }
  exists sel. assert (N : sel <> []) by (intros Z; rewrite Z in I; destruct I). split; [easy|]. split.
  - intros x Hx. apply filter_In in Hx as [Hx Hb]. apply in_combine_nth in Hx as (k & Hk & ->); [|easy]. exists k. split; [easy|]. split; [|easy].
    now apply inside_iff in Hb.
  - destruct sel; easy.
Qed.
Lemma inertial_pos hz eps U f : 0 < inertial hz eps U f.
Proof.
  pose proof PI_RGT_0. assert (P : forall w, 0 < inertial_omega eps U w) by (intros; unfold inertial_omega; repeat apply Rmult_lt_0_compat; try apply Rpower_pos; lra).
  destruct hz; cbn; [unfold inertial_hz; apply Rmult_lt_0_compat; [lra|apply P]|apply P].
Qed.
Lemma cancel53 w : 0 < w -> Rpower w (- (5/3)) * Rpower w (5/3) = 1.
Proof. intros H. rewrite <- Rpower_plus. replace (- (5/3) + 5/3) with 0 by field. now apply Rpower_O. Qed.
Lemma inertial_comp hz eps U f : 0 < U -> 0 < f ->
  inertial hz eps U f * rpow f (5/3) / (1/2) = Rpower eps (2/3) * Rpower (if hz then U / (2 * PI) else U) (2/3).
Proof.
  intros HU Hf. pose proof PI_RGT_0 as HP. rewrite rpow_pos by easy. pose proof (cancel53 f Hf) as C. destruct hz; cbn [inertial].
  - unfold inertial_hz, inertial_omega. rewrite <- (Rpower_mult_distr (2 * PI) f) by lra.
    assert (D : Rpower (U / (2 * PI)) (2/3) = Rpower U (2/3) * (2 * PI * Rpower (2 * PI) (- (5/3)))).
    { unfold Rdiv. rewrite <- Rpower_mult_distr; [|lra|apply Rinv_0_lt_compat; lra]. f_equal.
      rewrite <- (Rpower_1 (2 * PI)) at 2 by lra. rewrite <- Rpower_plus. rewrite <- (Rpower_1 (2 * PI)) at 1 by lra.
      rewrite <- Rpower_Ropp, Rpower_mult. f_equal. field. }
    rewrite D. transitivity (Rpower eps (2/3) * (Rpower U (2/3) * (2 * PI * Rpower (2 * PI) (- (5/3)))) * (Rpower f (- (5/3)) * Rpower f (5/3))); [field|rewrite C; ring].
  - unfold inertial_omega. transitivity (Rpower eps (2/3) * Rpower U (2/3) * (Rpower f (- (5/3)) * Rpower f (5/3))); [field|rewrite C; ring].
Qed.
Lemma scaled_pos (hz : bool) U : 0 < U -> 0 < (if hz then U / (2 * PI) else U).
Proof. intros H. pose proof PI_RGT_0. destruct hz; [|easy]. apply Rdiv_lt_0_compat; lra. Qed.
Lemma lt83_recovers fs hz lo hi freq noise psd U i row u eps :
  0 < eps -> 0 < u -> 0 <= lo -> match noise with Some s => length s = length psd | None => True end ->
  nth_error psd i = Some row -> nth_error U i = Some u -> length row = length freq ->
  (exists j, (j < length freq)%nat /\ lo < nth j freq 0 < hi) ->
  (forall j, (j < length freq)%nat -> lo < nth j freq 0 < hi ->
     nth j row 0 = inertial hz eps u (nth j freq 0) + noise_at noise i * noise_at noise i / (fs / 2)) ->
  nth_error (lt83 fs hz lo hi freq noise psd U) i = Some (Some eps).
Proof.
  intros He Hu Hlo Hn Er Eu L X V. destruct (lt83_nth fs hz lo hi freq noise psd U i row u Hn Er Eu) as (m & _ & ->). f_equal.
  set (row' := map _ row). assert (L' : length row' = length freq) by (unfold row'; now rewrite map_length).
  destruct (sel_nonempty hz lo hi freq row' u L' X) as (sel & N & I & ->). f_equal. pose proof (scaled_pos hz u Hu) as P.
  set (U' := if hz then u / (2 * PI) else u) in *.
  rewrite (mean_const _ (Rpower eps (2/3) * Rpower U' (2/3))).
  - rewrite rpow_pos by (apply Rmult_lt_0_compat; apply Rpower_pos). rewrite <- Rpower_mult_distr by apply Rpower_pos.
    rewrite !two_thirds by easy. field. lra.
  - destruct sel; easy.
  - intros x Hx. apply in_map_iff in Hx as (y & <- & Hy). destruct (I y Hy) as (j & Hj & B & ->). cbn [fst snd].
    assert (R' : nth j row' 0 = inertial hz eps u (nth j freq 0)).
    { unfold row'. rewrite (nth_indep _ 0 (floor1 m (0 - noise_at noise i * noise_at noise i / (fs / 2)))) by (rewrite map_length; lia).
      rewrite (map_nth (fun p => floor1 m (p - noise_at noise i * noise_at noise i / (fs / 2)))), V by easy.
      replace (inertial hz eps u (nth j freq 0) + _ - _) with (inertial hz eps u (nth j freq 0)) by ring.
      unfold floor1. destruct (Rlt_dec 0 _) as [|G]; [easy|]. destruct G. apply inertial_pos. }
    rewrite R'. apply inertial_comp; lra.
Qed.
Lemma lt83_nonneg fs hz lo hi freq noise psd U i row u : 0 < u -> 0 <= lo -> match noise with Some s => length s = length psd | None => True end ->
  nth_error psd i = Some row -> nth_error U i = Some u -> length row = length freq ->
  (exists j, (j < length freq)%nat /\ lo < nth j freq 0 < hi) ->
  exists e, nth_error (lt83 fs hz lo hi freq noise psd U) i = Some (Some e) /\ 0 <= e.
Proof.
  intros Hu Hlo Hn Er Eu L X. destruct (lt83_nth fs hz lo hi freq noise psd U i row u Hn Er Eu) as (m & _ & ->).
  set (row' := map _ row). assert (L' : length row' = length freq) by (unfold row'; now rewrite map_length).
  destruct (sel_nonempty hz lo hi freq row' u L' X) as (sel & N & I & ->). eexists. split; [reflexivity|].
  pose proof (scaled_pos hz u Hu) as P. apply Rmult_le_pos; [apply rpow_nonneg|]. now apply Rlt_le, Rinv_0_lt_compat.
Qed.
Lemma lt83_empty hz lo hi freq row u : (forall j, (j < length freq)%nat -> ~ lo < nth j freq 0 < hi) -> length row = length freq ->
  lt83_row hz lo hi freq row u = None.
Proof.
  intros H L. unfold lt83_row. destruct (filter _ _) as [|x sel] eqn:E; [easy|].
  assert (I : In x (filter (inside lo hi) (combine freq row))) by (rewrite E; now left). apply filter_In in I as [I B].
  apply in_combine_nth in I as (j & Hj & ->); [|easy]. apply inside_iff in B. destruct (H j Hj B).
Qed.
Lemma lt83_empty_all fs hz lo hi freq noise psd U i e : (forall j, (j < length freq)%nat -> ~ lo < nth j freq 0 < hi) ->
  nth_error (lt83 fs hz lo hi freq noise psd U) i = Some e -> e = None.
Proof.
  intros H E. unfold lt83 in E. revert i E. generalize (floor_psd (sub_noise fs noise psd)). intros rows. revert U. induction rows as [|r rows IH]; intros [|u U] [|i] E; try discriminate E.
  - cbn [map2 nth_error] in E. injection E as <-. unfold lt83_row. destruct (filter _ _) as [|x sel] eqn:F; [reflexivity|].
    assert (I : In x (filter (inside lo hi) (combine freq r))) by (rewrite F; now left). apply filter_In in I as [I B]. destruct x as [x y].
    apply in_combine_l in I as C. apply (In_nth _ _ 0) in C as (j & Hj & Ej). apply inside_iff in B. cbn [fst] in B. rewrite <- Ej in B. destruct (H j Hj B).
  - exact (IH U i E).
Qed.

(** scaling *)
Lemma Rmin_scale c x y : 0 < c -> Rmin (c * x) (c * y) = c * Rmin x y.
Proof.
  intros C. destruct (Rle_dec x y) as [H|H].
  - rewrite !Rmin_left; [easy|easy|]. apply Rmult_le_compat_l; lra.
  - rewrite !Rmin_right; [easy|lra|]. apply Rmult_le_compat_l; lra.
Qed.
Lemma min_abs_scale c l : 0 < c -> min_abs (map (Rmult c) l) = c * min_abs l.
Proof.
  intros C. unfold min_abs. rewrite map_map. destruct l as [|x l]; cbn [map]; [ring|]. rewrite Rabs_mult, (Rabs_right c) by lra.
  generalize (Rabs x). clear x. induction l as [|y l IH]; intros x; cbn [map fold_left]; [easy|]. rewrite <- IH. f_equal.
  rewrite Rabs_mult, (Rabs_right c), Rmin_scale by lra. reflexivity.
Qed.
Lemma min_abs_nonneg l : 0 <= min_abs l.
Proof.
  unfold min_abs. destruct (map Rabs l) as [|x t] eqn:M; [lra|].
  assert (A : forall y, In y (x :: t) -> 0 <= y) by (rewrite <- M; intros y Hy; apply in_map_iff in Hy as (z & <- & _); apply Rabs_pos).
  clear M. revert x A. induction t as [|y t IH]; intros x A; cbn; [apply A; now left|]. apply IH. intros z [<-|Hz]; [|apply A; now right; right].
  apply Rmin_case; apply A; [now left|right; now left].
Qed.
Lemma concat_scale c psd : concat (map (map (Rmult c)) psd) = map (Rmult c) (concat psd).
Proof. symmetry. apply concat_map. Qed.
Lemma floor_scale c psd : 0 < c -> floor_psd (map (map (Rmult c)) psd) = map (map (Rmult c)) (floor_psd psd).
Proof.
  intros C. unfold floor_psd. rewrite concat_scale, min_abs_scale by easy. rewrite !map_map. apply map_ext. intros row. rewrite !map_map. apply map_ext.
  intros p. assert (0 < p <-> 0 < c * p). { split; intros H; [apply Rmult_lt_0_compat; easy|]. apply (Rmult_lt_reg_l c); lra. }
  destruct (Rlt_dec 0 p), (Rlt_dec 0 (c * p)); try tauto. unfold Rdiv. ring.
Qed.
Lemma sub_none fs psd : sub_noise fs None psd = psd.
Proof.
  cbn. rewrite <- (map_id psd) at 2. apply map_ext. intros r. rewrite <- (map_id r) at 2. apply map_ext. intros. unfold Rdiv. ring.
Qed.
Lemma combine_scale c (f : list R) : forall row, combine f (map (Rmult c) row) = map (fun fp => (fst fp, c * snd fp)) (combine f row).
Proof. induction f as [|a f IH]; intros [|r row]; cbn; try easy. now rewrite IH. Qed.
Lemma filter_scale c lo hi l : filter (inside lo hi) (map (fun fp => (fst fp, c * snd fp)) l) = map (fun fp => (fst fp, c * snd fp)) (filter (inside lo hi) l).
Proof.
  induction l as [|x l IH]; [easy|]. cbn [map filter]. change (inside lo hi (fst x, c * snd x)) with (inside lo hi x). rewrite IH.
  now destruct (inside lo hi x).
Qed.
Lemma row_scale c hz lo hi freq row u : 0 < c -> (forall p, In p row -> 0 <= p) ->
  lt83_row hz lo hi freq (map (Rmult c) row) u = option_map (Rmult (Rpower c (3/2))) (lt83_row hz lo hi freq row u).
Proof.
  intros C N. unfold lt83_row. rewrite combine_scale, filter_scale.
  assert (B : forall x, In x (filter (inside lo hi) (combine freq row)) -> 0 <= snd x).
  { intros [f p] H. apply filter_In in H as [H _]. now apply N, (in_combine_r freq row f p). }
  destruct (filter _ _) as [|x l]; [easy|]. cbn [map option_map]. f_equal. set (sel := x :: l) in *.
  transitivity (rpow (mean (map (fun fp : R * R => snd fp * rpow (fst fp) (5/3) / (1/2)) (map (fun fp => (fst fp, c * snd fp)) sel))) (3/2) / (if hz then u / (2 * PI) else u)); [reflexivity|].
  symmetry. transitivity (Rpower c (3/2) * (rpow (mean (map (fun fp : R * R => snd fp * rpow (fst fp) (5/3) / (1/2)) sel)) (3/2) / (if hz then u / (2 * PI) else u))); [reflexivity|]. symmetry.
  rewrite map_map. cbn [fst snd].
  replace (map (fun x => c * snd x * rpow (fst x) (5/3) / (1/2)) sel) with (map (Rmult c) (map (fun x => snd x * rpow (fst x) (5/3) / (1/2)) sel))
    by (rewrite map_map; apply map_ext; intros; unfold Rdiv; ring).
  rewrite mean_scale, rpow_scale; [unfold Rdiv; ring|easy|]. apply mean_nonneg; [easy|]. intros y Hy. apply in_map_iff in Hy as (z & <- & Hz).
  pose proof (rpow_nonneg (fst z) (5/3)). pose proof (B z Hz). assert (0 <= snd z * rpow (fst z) (5/3)) by now apply Rmult_le_pos. lra.
Qed.
Lemma floor_nonneg psd row p : In row (floor_psd psd) -> In p row -> 0 <= p.
Proof.
  intros H Hp. apply in_map_iff in H as (r & <- & _). apply in_map_iff in Hp as (q & <- & _). destruct (Rlt_dec 0 q); [lra|].
  pose proof (min_abs_nonneg (concat psd)). lra.
Qed.
Lemma lt83_scale fs hz lo hi freq psd U c : 0 < c ->
  lt83 fs hz lo hi freq None (map (map (Rmult c)) psd) U = map (option_map (Rmult (Rpower c (3/2)))) (lt83 fs hz lo hi freq None psd U).
Proof.
  intros C. unfold lt83. rewrite !sub_none, floor_scale by easy. pose proof (floor_nonneg psd) as F. revert F. generalize (floor_psd psd). clear psd.
  intros psd. revert U. induction psd as [|r psd IH]; intros [|u U] F; cbn [map map2]; try easy. rewrite IH by (intros; eapply F; [right|]; eassumption).
  rewrite row_scale; [easy|easy|]. intros p. apply F. now left.
Qed.

(** noise given in rad/s *)
Lemma Rpower_1_l y : Rpower 1 y = 1.
Proof. unfold Rpower. rewrite ln_1, Rmult_0_r. apply exp_0. Qed.
Lemma lt83_rad_noise_wrong :
  let psd := [[inertial_omega 1 1 1 + white false 1 (1/2)]] in
  exists e, lt83 1 false 0 2 [1] (Some [1/2]) psd [1] = [Some e] /\ e < 1.
Proof.
  cbv zeta. unfold inertial_omega, white. rewrite !Rpower_1_l. pose proof PI_RGT_0 as P0. assert (P3 : 3 < PI) by (pose proof PI2_3_2; lra).
  set (x := 1/2 * 1 * 1 * 1 + 1/2 * (1/2) / (2 * PI * (1/2))).
  assert (X : x - 1/2 * (1/2) / (1/2) = 1/4 * / PI) by (unfold x; field; lra).
  unfold lt83, sub_noise, floor_psd. cbn [map2 map concat app]. rewrite X.
  assert (B : 0 < / PI < 1/3). { split; [now apply Rinv_0_lt_compat|]. apply (Rmult_lt_reg_l PI); [easy|]. rewrite Rinv_r; lra. }
  destruct (Rlt_dec 0 (1/4 * / PI)); [|lra]. unfold lt83_row, inside. cbn [combine filter fst snd].
  destruct (Rlt_dec 0 1); [|lra]. destruct (Rlt_dec 1 2); [|lra]. cbn [andb map fst snd].
  eexists. split; [reflexivity|]. unfold mean. cbn [rsum fold_right length INR]. rewrite (rpow_pos 1), Rpower_1_l by lra.
  replace ((1/4 * / PI * 1 / (1/2) + 0) / 1) with (1/2 * / PI) by (field; lra).
  rewrite rpow_pos by lra. unfold Rdiv at 1. rewrite Rinv_1, Rmult_1_r. apply (Rlt_le_trans _ (Rpower 1 (3/2))); [apply Rlt_Rpower_l; lra|rewrite Rpower_1_l; lra].
Qed.
