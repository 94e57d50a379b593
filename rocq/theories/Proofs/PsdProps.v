From Coq Require Import Reals List ZArith Lra Lia.
From Verif.Model Require Import Stats Psd.
From Verif.Spec Require Import Stats Psd.
From Verif.Proofs Require Import Stats Psd.
Import ListNotations.
Open Scope R_scope.

(** ** C33 *)
Lemma calc_freq_is n fs u : 0 < fs -> calc_freq n fs u =
  map (fun k => INR k * (match u with Hz => fs | RadPerS => 2 * PI * fs end) / INR n) (seq 1 (n / 2)).
Proof.
  intros F. destruct u; cbn; [now apply psd_freq_is|]. apply psd_freq_is.
  apply Rmult_lt_0_compat; [|easy]. pose proof PI_RGT_0. lra.
Qed.
Lemma psd_length a nfft fs win step p : (nfft <= length a)%nat -> psd (map Some a) nfft fs win step = inr p ->
  forall fs' u, 0 < fs' -> length (calc_freq nfft fs' u) = length p.
Proof.
  intros L E fs' u F. destruct (psd_inv _ _ _ _ _ _ E) as (st & ne & n & w & starts & E1 & E2 & E3).
  rewrite (psd_form a nfft fs win step st ne n w starts E1 E2 E3) in E. injection E as <-.
  rewrite calc_freq_is by easy. rewrite !map_length, !seq_length. enough (nfft = n) by now subst.
  revert E1. clear - L. unfold stepsize. destruct (Nat.ltb_spec (length a) nfft); [lia|]. cbv zeta.
  destruct step as [[|s]|]; [discriminate|congruence|]. destruct (Nat.eqb_spec (length a) nfft); [congruence|].
  destruct nfft; [discriminate|congruence].
Qed.

(** ** C34 *)
Lemma one_start l n : welch_starts l n (l - n + 1) [0%nat] \/ (l < n)%nat.
Proof.
  destruct (le_lt_dec n l); [left|now right]. unfold welch_starts. cbn [length]. repeat split.
  - intros [|m] Hm; [reflexivity|lia].
  - intros [|m] Hm; lia.
  - lia.
Qed.

Lemma psd_value a nfft fs win step nens n w starts p st :
  stepsize (length a) nfft None st = inr (step, nens, n) ->
  getwindow win n = inr w -> segments (length a) step nens n = inr starts ->
  psd (map Some a) nfft fs win st = inr p -> 0 < sum_squares w -> 0 < fs -> (1 <= nens)%nat ->
  length p = (n / 2)%nat /\
  forall k, (1 <= k <= n / 2)%nat -> exists s, power_sum a w n k starts s /\
    nth_error p (k - 1) = Some (Some (2 * s / (sum_squares w * INR nens * fs))).
Proof.
  intros E1 E2 E3 E W F N. rewrite (psd_form a nfft fs win st step nens n w starts E1 E2 E3) in E. injection E as <-.
  split; [now rewrite map_length, seq_length|]. intros k Hk. exists (psum a w n k starts).
  destruct (stepsize_le _ _ _ _ _ _ _ E1) as [Hn _].
  split.
  - apply psum_spec; [|now apply (window_len win)|].
    + destruct (le_lt_dec 2 n); [easy|]. assert (n / 2 = 0)%nat by (apply Nat.div_small; lia). lia.
    + intros i Hi. now apply (starts_in (length a) step nens n starts).
  - assert (P : 0 < sum_squares w * INR nens * fs).
    { apply Rmult_lt_0_compat; [|easy]. apply Rmult_lt_0_compat; [easy|]. apply lt_0_INR. lia. }
    rewrite nth_error_map. rewrite (nth_error_nth' (seq 1 (n / 2)) 0%nat) by (rewrite seq_length; lia).
    rewrite seq_nth by lia. cbn [option_map]. rewrite weight_some by lra. cbn [option_map]. do 2 f_equal.
    replace (1 + (k - 1))%nat with k by lia. rewrite Rabs_pos_eq by (apply Rlt_le, Rdiv_lt_0_compat; lra).
    unfold Rdiv. ring.
Qed.

Lemma default_plan a nfft fs win p : (1 <= nfft)%nat -> (1 <= length a)%nat -> 0 < fs ->
  psd (map Some a) nfft fs win None = inr p ->
  exists n step nens w starts,
    n = Nat.min (length a) nfft /\ (2 * step < n)%nat /\ (0 < length starts)%nat /\ (1 <= nens <= length starts)%nat /\
    getwindow win n = inr w /\
    (forall m, (m < length starts)%nat -> nth m starts 0%nat = (m * step)%nat) /\
    (forall i, In i starts -> (i + n <= length a)%nat) /\
    (length starts = nens <-> (length a - n < nens * step \/ length a <= nfft)%nat) /\
    (0 < sum_squares w -> length p = (n / 2)%nat /\
     forall k, (1 <= k <= n / 2)%nat -> exists s, power_sum a w n k starts s /\
       nth_error p (k - 1) = Some (Some (2 * s / (sum_squares w * INR nens * fs)))).
Proof.
  intros H1 H2 F E. destruct (psd_inv _ _ _ _ _ _ E) as (step & nens & n & w & starts & E1 & E2 & E3).
  destruct (stepsize_default _ _ _ _ _ H1 H2 E1) as (Hn & N1 & Small & Big).
  assert (Ln : (n <= length a)%nat) by lia.
  destruct (le_lt_dec (length a) nfft) as [L|L].
  - destruct (Small L) as [-> ->]. destruct (segments_spec _ _ _ _ _ Ln E3) as [[_ ->]|(C & _)]; [|lia].
    exists n, 0%nat, 1%nat, w, [0%nat]. split; [easy|]. split; [lia|]. split; [cbn; lia|]. split; [cbn; lia|]. split; [easy|].
    split; [intros [|m] Hm; cbn in *; [easy|lia]|]. split; [intros i [<-|[]]; lia|].
    split; [split; [intros _; right; lia|reflexivity]|].
    intros W. apply (psd_value a nfft fs win 0%nat 1%nat n w [0%nat] p None); auto.
  - destruct (Big L) as (Q & Q2 & Hs & Ov). destruct (segments_spec _ _ _ _ _ Ln E3) as [[C _]|(_ & S0 & Ws)]; [lia|].
    assert (Nf : n = nfft) by lia. clear Hn. subst n. assert (Hn : nfft = Nat.min (length a) nfft) by lia. pose proof (welch_count _ _ _ _ Ln S0 Ws) as Cn. destruct Ws as (W1 & W2 & W3).
    assert (Bd : ((nens - 1) * step <= length a - nfft)%nat).
    { rewrite Hs. apply Nat.mul_div_le. lia. }
    assert (Nb : (nens - 1 <= (length a - nfft) / step)%nat) by (apply div_le_lower'; [easy|]; rewrite Nat.mul_comm; exact Bd).
    exists nfft, step, nens, w, starts. rewrite <- Hn. split; [easy|]. split; [easy|]. split; [lia|]. split; [lia|]. split; [easy|].
    split; [easy|]. split; [intros i Hi; now apply (starts_in (length a) step nens nfft starts)|].
    split.
    + rewrite Cn. split.
      * intros Eq. left. pose proof (Nat.div_mod (length a - nfft) step S0). pose proof (Nat.mod_upper_bound (length a - nfft) step S0).
        replace ((length a - nfft) / step)%nat with (nens - 1)%nat in H by lia.
        assert (nens * step = step * (nens - 1) + step)%nat by (destruct nens; [lia|]; cbn; rewrite Nat.sub_0_r, Nat.mul_comm; lia). lia.
      * intros [Lt|C]; [|lia]. assert ((length a - nfft) / step < nens)%nat by (apply Nat.div_lt_upper_bound; lia). lia.
    + intros W. apply (psd_value a nfft fs win step nens nfft w starts p None); auto. lia.
Qed.

Lemma explicit_step a nfft fs win s p : (1 <= s)%nat -> 0 < fs -> (1 <= nfft)%nat -> (1 <= length a)%nat ->
  psd (map Some a) nfft fs win (Some s) = inr p ->
  exists n w starts, n = Nat.min (length a) nfft /\ getwindow win n = inr w /\ welch_starts (length a) n s starts /\
    (0 < sum_squares w -> length p = (n / 2)%nat /\
     forall k, (1 <= k <= n / 2)%nat -> exists t, power_sum a w n k starts t /\
       nth_error p (k - 1) = Some (Some (2 * t / (sum_squares w * INR (length starts) * fs)))).
Proof.
  intros H1 F H2 H3 E. destruct (psd_inv _ _ _ _ _ _ E) as (step & nens & n & w & starts & E1 & E2 & E3).
  destruct (stepsize_step _ _ _ _ _ _ H1 E1) as (-> & Hn & Ne). assert (Ln : (n <= length a)%nat) by lia.
  assert (K : welch_starts (length a) n s starts /\ length starts = nens).
  { destruct (segments_spec _ _ _ _ _ Ln E3) as [[C ->]|(_ & S0 & Ws)].
    - split; [|easy]. assert ((length a - n) / s = 0)%nat by lia. apply Nat.div_small_iff in H; [|lia].
      unfold welch_starts. cbn [length]. repeat split.
      + intros [|m] Hm; [reflexivity|lia].
      + intros [|m] Hm; lia.
      + lia.
    - split; [easy|]. now rewrite (welch_count _ _ _ _ Ln S0 Ws). }
  destruct K as [K1 K2]. exists n, w, starts. split; [easy|]. split; [easy|]. split; [easy|]. intros W. rewrite K2.
  apply (psd_value a nfft fs win s nens n w starts p (Some s)); auto. lia.
Qed.

(** ** C35: linearity *)
Lemma vals_map f l : vals (map (option_map f) l) = map f (vals l).
Proof. induction l as [|[x|] l IH]; cbn; congruence. Qed.
Lemma rsum_scale c l : rsum (map (Rmult c) l) = c * rsum l.
Proof. induction l as [|x l IH]; cbn; [ring|]. unfold rsum in IH. rewrite IH. ring. Qed.
Lemma nanmean_scale c l : nanmean (map (option_map (Rmult c)) l) = option_map (Rmult c) (nanmean l).
Proof.
  unfold nanmean. rewrite vals_map. destruct (vals l) as [|x v]; [reflexivity|].
  transitivity (Some (rsum (map (Rmult c) (x :: v)) / INR (length (map (Rmult c) (x :: v))))); [reflexivity|].
  rewrite rsum_scale, map_length. unfold option_map. f_equal. unfold Rdiv. ring.
Qed.
Lemma osub_scale c a b : osub (option_map (Rmult c) a) (option_map (Rmult c) b) = option_map (Rmult c) (osub a b).
Proof. destruct a, b; cbn; try reflexivity. f_equal. ring. Qed.
Lemma omul_scale_r c a b : omul a (option_map (Rmult c) b) = option_map (Rmult c) (omul a b).
Proof. destruct a, b; cbn; try reflexivity. f_equal. ring. Qed.
Lemma omul_scale_l c a b : omul (option_map (Rmult c) a) b = option_map (Rmult c) (omul a b).
Proof. destruct a, b; cbn; try reflexivity. f_equal. ring. Qed.
Lemma odiv_scale c a b : odiv (option_map (Rmult c) a) b = option_map (Rmult c) (odiv a b).
Proof. destruct a, b; cbn; try reflexivity. destruct (Req_EM_T _ 0); cbn; [reflexivity|]. f_equal. unfold Rdiv. ring. Qed.
Lemma map2_scale_r {A B D} (f : A -> B -> D) (g : B -> B) (h : D -> D) l : (forall a b, f a (g b) = h (f a b)) -> forall m,
  map2 f l (map g m) = map h (map2 f l m).
Proof. intros H. induction l; intros [|b m]; cbn; [easy|easy|easy|]. now rewrite H, IHl. Qed.
Lemma map2_scale_l {A B D} (f : A -> B -> D) (g : A -> A) (h : D -> D) l : (forall a b, f (g a) b = h (f a b)) -> forall m,
  map2 f (map g l) m = map h (map2 f l m).
Proof. intros H. induction l; intros [|b m]; cbn; [easy|easy|easy|]. now rewrite H, IHl. Qed.
Lemma detrend_scale c a : detrend (map (option_map (Rmult c)) a) = map (option_map (Rmult c)) (detrend a).
Proof.
  unfold detrend. cbv zeta. rewrite map_length, nanmean_scale.
  set (x := map (fun v => osub v _) (map (fun k => Some (INR k)) (seq 0 (length a)))). clearbody x.
  assert (E : map (fun v => osub v (option_map (Rmult c) (nanmean a))) (map (option_map (Rmult c)) a) =
              map (option_map (Rmult c)) (map (fun v => osub v (nanmean a)) a)).
  { rewrite !map_map. apply map_ext. intros v. apply osub_scale. }
  rewrite E. set (y := map (fun v => osub v (nanmean a)) a). clearbody y.
  rewrite (map2_scale_r omul _ (option_map (Rmult c))) by (intros; apply omul_scale_r).
  rewrite nanmean_scale, odiv_scale. set (b := odiv _ _). clearbody b.
  revert y E. clear. intros y _. revert y. induction x as [|u x IH]; intros [|v y]; cbn [map map2]; try reflexivity.
  rewrite IH, omul_scale_l, osub_scale. reflexivity.
Qed.
Lemma all_some_scale c l : all_some (map (option_map (Rmult c)) l) = option_map (map (Rmult c)) (all_some l).
Proof. induction l as [|[x|] l IH]; cbn; [easy| |easy]. rewrite IH. now destruct (all_some l). Qed.
Lemma dft_scale c x k : dft (map (Rmult c) x) k = cscale c (dft x k).
Proof.
  unfold dft, cscale. cbv zeta. rewrite map_length. cbn [fst snd].
  rewrite (map2_scale_l (fun xj j => xj * cos (2 * PI * INR (j * k) / INR (length x))) (Rmult c) (Rmult c)) by (intros; ring).
  rewrite (map2_scale_l (fun xj j => - (xj * sin (2 * PI * INR (j * k) / INR (length x)))) (Rmult c) (Rmult c)) by (intros; ring).
  now rewrite !rsum_scale.
Qed.
Lemma segment_scale c a w n i : segment_fft (map (option_map (Rmult c)) a) w n i = map (option_map (cscale c)) (segment_fft a w n i).
Proof.
  unfold segment_fft. rewrite skipn_map', firstn_map', detrend_scale.
  rewrite (map2_scale_l omul (option_map (Rmult c)) (option_map (Rmult c))) by (intros; apply omul_scale_l).
  rewrite all_some_scale, map_map. apply map_ext. intros k. destruct (all_some _); cbn; [|reflexivity]. now rewrite dft_scale.
Qed.
Lemma cabs2_scale c z : cabs2 (cscale c z) = c * c * cabs2 z.
Proof. unfold cabs2, cscale. cbn. ring. Qed.
Lemma fold_scale d l : forall g, fold_left (map2 (olift2 cadd)) (map (map (option_map (cscale d))) l) (map (option_map (cscale d)) g) =
  map (option_map (cscale d)) (fold_left (map2 (olift2 cadd)) l g).
Proof.
  induction l as [|s l IH]; intros g; [reflexivity|]. cbn [map fold_left]. rewrite <- IH. f_equal.
  revert s. induction g as [|u g IHg]; intros [|v s]; cbn [map map2]; try reflexivity. rewrite IHg. f_equal.
  destruct u, v; cbn; try reflexivity. f_equal. unfold cadd, cscale. cbn. f_equal; ring.
Qed.
Lemma sum_spectra_scale d nf l : sum_spectra nf (map (map (option_map (cscale d))) l) = map (option_map (cscale d)) (sum_spectra nf l).
Proof.
  unfold sum_spectra. rewrite <- fold_scale. f_equal. induction nf as [|nf IH]; [reflexivity|].
  cbn [repeat map]. rewrite <- IH. f_equal. cbn. unfold cscale. cbn. do 2 f_equal; ring.
Qed.
Lemma psd_scale c a nfft fs win step p : psd a nfft fs win step = inr p ->
  psd (map (option_map (Rmult c)) a) nfft fs win step = inr (map (option_map (Rmult (c * c))) p).
Proof.
  unfold psd, cpsd. rewrite map_length. destruct (stepsize _ _ _ _) as [e|[[st nens] n]]; [discriminate|].
  destruct (getwindow win n) as [e|w]; [discriminate|]. destruct (segments _ _ _ _) as [e|starts]; [discriminate|].
  cbv zeta. intros E. injection E as <-. f_equal.
  assert (E : map (fun i => map (option_map (fun s => (cabs2 s, 0))) (segment_fft (map (option_map (Rmult c)) a) w n i)) starts =
    map (map (option_map (cscale (c * c)))) (map (fun i => map (option_map (fun s => (cabs2 s, 0))) (segment_fft a w n i)) starts)).
  { rewrite map_map. apply map_ext. intros i. rewrite segment_scale, !map_map. apply map_ext. intros [z|]; [|reflexivity].
    cbn. f_equal. rewrite cabs2_scale. unfold cscale. cbn. f_equal. ring. }
  rewrite E, sum_spectra_scale, !map_map. apply map_ext. intros [z|]; [|now destruct (weight w nens fs)].
  destruct (weight w nens fs) as [d|]; [|reflexivity]. cbn. f_equal.
  assert (S2 : cabs (cscale d (cscale (c * c) z)) = c * c * cabs (cscale d z)); [|exact S2].
  unfold cabs. replace (cabs2 (cscale d (cscale (c * c) z))) with ((c * c) * (c * c) * cabs2 (cscale d z)) by (rewrite !cabs2_scale; ring).
  rewrite sqrt_mult_alt by (apply Rle_0_sqr). rewrite sqrt_square by apply Rle_0_sqr. reflexivity.
Qed.
Lemma psd_scale_err c a nfft fs win step e : psd a nfft fs win step = inl e -> psd (map (option_map (Rmult c)) a) nfft fs win step = inl e.
Proof.
  unfold psd, cpsd. rewrite map_length. destruct (stepsize _ _ _ _) as [e'|[[st nens] n]]; [easy|].
  destruct (getwindow win n) as [e'|w]; [easy|]. destruct (segments _ _ _ _) as [e'|starts]; [easy|discriminate].
Qed.

(** ** C35: trends *)
Lemma nth_samples {A} (l : list A) i n j d : (j < n)%nat -> nth j (samples l i n) d = nth (i + j) l d.
Proof.
  unfold samples. revert l j n. induction i as [|i IH]; intros l j n Hj; cbn [skipn Nat.add].
  - revert l j Hj. induction n as [|n IHn]; intros l j Hj; [lia|]. destruct l as [|x l]; cbn; [easy|]. destruct j; [easy|]. apply IHn. lia.
  - destruct l as [|x l]; [rewrite firstn_nil; now destruct j|]. cbn [nth]. now apply IH.
Qed.
Lemma res_trend a b alpha beta : (2 <= length a)%nat -> length b = length a ->
  (forall k, (k < length a)%nat -> nth k b 0 = nth k a 0 + alpha + beta * INR k) -> res b = res a.
Proof.
  intros H L E. destruct (res_ok a H) as [_ Ra]. destruct (res_ok b ltac:(lia)) as [_ Rb].
  apply (residual_unique b); [easy|]. destruct Ra as (L1 & T1 & T2 & al & be & Af). split; [lia|]. split; [easy|]. split; [easy|].
  exists (al + alpha), (be + beta). intros k Hk. rewrite E by lia. rewrite Af by lia. ring.
Qed.
Lemma seg_trend a b w n i k alpha beta : (2 <= n)%nat -> (i + n <= length a)%nat -> length b = length a ->
  (forall k, (k < length a)%nat -> nth k b 0 = nth k a 0 + alpha + beta * INR k) -> seg b w n i k = seg a w n i k.
Proof.
  intros N H L E. unfold seg. rewrite (res_trend (samples a i n) (samples b i n) (alpha + beta * INR i) beta); [reflexivity| | |].
  - now rewrite samples_len.
  - now rewrite !samples_len by lia.
  - rewrite samples_len by lia. intros j Hj. rewrite !nth_samples by lia. rewrite E by lia. rewrite plus_INR. ring.
Qed.
Lemma psd_trend a b nfft fs win step alpha beta : length b = length a ->
  (forall k, (k < length a)%nat -> nth k b 0 = nth k a 0 + alpha + beta * INR k) ->
  psd (map Some b) nfft fs win step = psd (map Some a) nfft fs win step.
Proof.
  intros L E. destruct (psd (map Some a) nfft fs win step) as [e|p] eqn:P.
  - revert P. unfold psd, cpsd. rewrite !map_length, L. destruct (stepsize _ _ _ _) as [e'|[[st nens] n]]; [congruence|].
    destruct (getwindow win n) as [e'|w]; [congruence|]. destruct (segments _ _ _ _) as [e'|starts]; [congruence|discriminate].
  - destruct (psd_inv _ _ _ _ _ _ P) as (st & nens & n & w & starts & E1 & E2 & E3).
    rewrite (psd_form a nfft fs win step st nens n w starts) in P by easy. rewrite <- P.
    rewrite (psd_form b nfft fs win step st nens n w starts); [|now rewrite L|easy|now rewrite L].
    destruct (stepsize_le _ _ _ _ _ _ _ E1) as [Hn _].
    f_equal. apply map_ext_in. intros k Hk. apply in_seq in Hk. destruct (weight w nens fs); [|reflexivity]. cbn. do 2 f_equal.
    unfold psum. f_equal. apply map_ext_in. intros i Hi. f_equal. apply (seg_trend a b w n i k alpha beta); auto.
    + destruct (le_lt_dec 2 n); [easy|]. assert (n / 2 = 0)%nat by (apply Nat.div_small; lia). lia.
    + now apply (starts_in (length a) st nens n starts).
Qed.
Lemma dft_zero m w k : dft (map2 Rmult (repeat 0 m) w) k = (0, 0).
Proof.
  assert (E : map2 Rmult (repeat 0 m) w = map (Rmult 0) (map2 Rmult (repeat 0 m) w)).
  { revert w. induction m as [|m IH]; intros [|y w]; cbn; try reflexivity. rewrite <- IH. f_equal. ring. }
  rewrite E, dft_scale. unfold cscale. f_equal; ring.
Qed.
Lemma psd_affine a nfft fs win step p alpha beta : (forall k, (k < length a)%nat -> nth k a 0 = alpha + beta * INR k) ->
  psd (map Some a) nfft fs win step = inr p -> forall j x, nth_error p j = Some (Some x) -> x = 0.
Proof.
  intros E P j x. destruct (psd_inv _ _ _ _ _ _ P) as (st & nens & n & w & starts & E1 & E2 & E3).
  rewrite (psd_form a nfft fs win step st nens n w starts) in P by easy. injection P as <-.
  destruct (stepsize_le _ _ _ _ _ _ _ E1) as [Hn _].
  change (fst (Nat.divmod n 1 0 1)) with (n / 2)%nat in *.
  intros Hj. apply nth_error_In, in_map_iff in Hj as (k & Hx & Hk). apply in_seq in Hk.
  destruct (weight w nens fs) as [c|]; [|discriminate]. cbn in Hx. injection Hx as <-.
  assert (Z : psum a w n k starts = 0); [|rewrite Z; ring].
  assert (N : (2 <= n)%nat) by (destruct (le_lt_dec 2 n); [easy|]; assert (n / 2 = 0)%nat by (apply Nat.div_small; lia); lia).
  unfold psum. assert (All : forall i, In i starts -> cabs2 (seg a w n i k) = 0).
  { intros i Hi. assert (B := starts_in (length a) st nens n starts i Hn E3 Hi). unfold seg.
    assert (Rz : res (samples a i n) = repeat 0 n).
    { unfold res. rewrite (detrend_affine _ (alpha + beta * INR i) beta).
      - rewrite samples_len by easy. clear. induction n; cbn; congruence.
      - now rewrite samples_len.
      - rewrite samples_len by easy. intros q Hq. rewrite nth_samples by easy. rewrite E by lia. rewrite plus_INR. ring. }
    rewrite Rz, dft_zero. unfold cabs2. cbn. ring. }
  revert All. clear. induction starts as [|i starts IH]; intros All; [reflexivity|]. cbn [map rsum fold_right].
  fold (rsum (map (fun i => cabs2 (seg a w n i k)) starts)). rewrite IH by (intros; apply All; now right).
  rewrite All by now left. ring.
Qed.
Lemma psd_nonneg a nfft fs win step p : psd a nfft fs win step = inr p -> forall j x, nth_error p j = Some (Some x) -> 0 <= x.
Proof.
  unfold psd. destruct (cpsd _ _ _ _ _ _ _) as [e|c]; [discriminate|]. intros E. injection E as <-.
  intros j x H. rewrite nth_error_map in H. destruct (nth_error c j) as [[z|]|]; cbn in H; [|discriminate|discriminate].
  injection H as <-. apply sqrt_pos.
Qed.

(** ** C36 *)
Lemma noise_zero out fs : noise_correct out 0 fs = out.
Proof. unfold noise_correct. destruct (Req_EM_T 0 0); [reflexivity|lra]. Qed.
Lemma fold_Rmin_nonneg l : forall x, 0 <= x -> (forall y, In y l -> 0 <= y) -> 0 <= fold_left Rmin l x.
Proof.
  induction l as [|y l IH]; intros x Hx H; cbn; [easy|]. apply IH; [|intros; apply H; now right].
  apply Rmin_glb; [easy|]. apply H. now left.
Qed.
Lemma all_some_abs l m : all_some (map (option_map Rabs) l) = Some m -> forall y, In y m -> 0 <= y.
Proof.
  revert m. induction l as [|[x|] l IH]; intros m E y Hy; cbn in E; [injection E as <-; easy| |discriminate].
  destruct (all_some _) as [m'|]; [|discriminate]. injection E as <-. destruct Hy as [<-|Hy]; [apply Rabs_pos|]. now apply (IH m').
Qed.
Lemma noise_nonneg out noise fs : noise <> 0 -> forall j x, nth_error (noise_correct out noise fs) j = Some (Some x) -> 0 <= x.
Proof.
  intros N j x. unfold noise_correct. destruct (Req_EM_T noise 0); [easy|]. cbv zeta. rewrite nth_error_map.
  set (o := map (fun p => osub p (Some (noise * noise / (fs / 2)))) out). destruct (nth_error o j) as [[y|]|]; cbn; [|discriminate|discriminate].
  destruct (Rlt_dec y 0) as [L|L]; [|intros E; injection E as <-; lra].
  destruct (all_some (map (option_map Rabs) o)) as [m|] eqn:A; [|discriminate].
  destruct m as [|z m]; cbn; [discriminate|]. intros E. injection E as <-.
  assert (0 <= fold_left Rmin m z) by (apply fold_Rmin_nonneg; [|intros]; apply (all_some_abs _ _ A); [now left|now right]). lra.
Qed.
Lemma noise_above out noise fs j x : noise <> 0 -> nth_error out j = Some (Some x) -> noise * noise / (fs / 2) <= x ->
  nth_error (noise_correct out noise fs) j = Some (Some (x - noise * noise / (fs / 2))).
Proof.
  intros N H B. unfold noise_correct. destruct (Req_EM_T noise 0); [easy|]. cbv zeta. rewrite !nth_error_map, H. cbn.
  destruct (Rlt_dec _ 0); [lra|reflexivity].
Qed.
Lemma noise_raises : noise_correct [Some (1/1000)] 1 2 = [Some (999/100000)].
Proof.
  unfold noise_correct. destruct (Req_EM_T 1 0); [lra|]. cbn. destruct (Rlt_dec _ 0); [|lra]. f_equal. f_equal.
  rewrite Rabs_left by lra. lra.
Qed.
(** below the noise level: a hundredth of the smallest distance to the noise level *)
Lemma fold_Rmin_le l : forall x, fold_left Rmin l x <= x /\ (forall y, In y l -> fold_left Rmin l x <= y) /\ (fold_left Rmin l x = x \/ In (fold_left Rmin l x) l).
Proof.
  induction l as [|y l IH]; intros x; cbn; [split; [lra|split; [easy|now left]]|].
  destruct (IH (Rmin x y)) as (H1 & H2 & H3). pose proof (Rmin_l x y). pose proof (Rmin_r x y). split; [lra|]. split.
  - intros z [<-|Hz]; [lra|now apply H2].
  - destruct H3 as [H3|H3]; [|right; now right]. rewrite H3. unfold Rmin. destruct (Rle_dec x y); [now left|right; now left].
Qed.
Lemma noise_below ps noise fs j x : noise <> 0 -> nth_error ps j = Some x -> x < noise * noise / (fs / 2) ->
  exists m, nth_error (noise_correct (map Some ps) noise fs) j = Some (Some (m / 100)) /\
    (forall y, In y ps -> m <= Rabs (y - noise * noise / (fs / 2))) /\ exists y, In y ps /\ m = Rabs (y - noise * noise / (fs / 2)).
Proof.
  intros N H B. unfold noise_correct. destruct (Req_EM_T noise 0); [easy|]. cbv zeta. rewrite !nth_error_map, H. cbn [option_map osub].
  destruct (Rlt_dec _ 0); [|lra]. set (f := noise * noise / (fs / 2)) in *.
  assert (E : map (option_map Rabs) (map (fun p => osub p (Some f)) (map Some ps)) = map Some (map (fun y => Rabs (y - f)) ps)) by (rewrite !map_map; reflexivity).
  rewrite E, all_some_map. destruct ps as [|z ps]; [now destruct j|]. cbn [map rmin option_map].
  destruct (fold_Rmin_le (map (fun y => Rabs (y - f)) ps) (Rabs (z - f))) as (H1 & H2 & H3).
  eexists. split; [reflexivity|]. split.
  - intros y [<-|Hy]; [easy|]. apply H2. apply in_map_iff. now exists y.
  - destruct H3 as [H3|H3]; [exists z; split; [now left|easy]|]. apply in_map_iff in H3 as (y & H3 & Hy). exists y. split; [now right|easy].
Qed.
