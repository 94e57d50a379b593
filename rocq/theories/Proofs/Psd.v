From Coq Require Import Reals List ZArith Lra Lia.
From Verif.Model Require Import Stats Psd.
From Verif.Spec Require Import Stats Psd.
From Verif.Proofs Require Import Stats.
Import ListNotations.
Open Scope R_scope.

(** ** frequencies *)
Lemma firstn_map' {A B} (f : A -> B) n l : firstn n (map f l) = map f (firstn n l).
Proof. revert n. induction l; intros [|n]; cbn; congruence. Qed.
Lemma skipn_map' {A B} (f : A -> B) n l : skipn n (map f l) = map f (skipn n l).
Proof. revert n. induction l; intros [|n]; cbn; congruence. Qed.

Lemma firstn_seq' m : forall s n, firstn m (seq s n) = seq s (Nat.min m n).
Proof. induction m as [|m IH]; intros s [|n]; cbn; [easy|easy|easy|]. now rewrite IH. Qed.

Lemma psd_freq_is n fs : 0 < fs -> psd_freq n fs = map (fun k => INR k * fs / INR n) (seq 1 (n / 2)).
Proof.
  intros F. unfold psd_freq, fftfreq. rewrite skipn_map', firstn_map', map_map.
  destruct (Nat.eq_dec n 0) as [->|Hn]; [reflexivity|].
  assert (Pn : 0 < INR n) by (apply lt_0_INR; lia).
  pose proof (Nat.div_mod n 2 ltac:(lia)) as D. pose proof (Nat.mod_upper_bound n 2 ltac:(lia)) as M.
  set (h := (n / 2)%nat) in *.
  assert (Ab : forall k : nat, Rabs (IZR (Z.of_nat k) * (fs / INR n)) = INR k * fs / INR n).
  { intros k. rewrite <- INR_IZR_INZ. rewrite Rabs_pos_eq; [field; lra|].
    apply Rmult_le_pos; [apply pos_INR|]. apply Rlt_le, Rdiv_lt_0_compat; lra. }
  assert (HN : ((n - 1) / 2 = h - (1 - n mod 2))%nat).
  { assert (n mod 2 = 0 \/ n mod 2 = 1)%nat as [E|E] by lia; rewrite E in *.
    - replace (n - 1)%nat with (1 + (h - 1) * 2)%nat by lia. rewrite Nat.div_add by lia. cbn. lia.
    - replace (n - 1)%nat with (0 + h * 2)%nat by lia. rewrite Nat.div_add by lia. cbn. lia. }
  rewrite HN. replace (h - (1 - n mod 2) + 1)%nat with (S (h - (1 - n mod 2))) by lia.
  cbn [seq map app skipn].
  assert (n mod 2 = 0 \/ n mod 2 = 1)%nat as [E|E] by lia; rewrite E.
  - (* even *)
    replace (h - (1 - 0))%nat with (h - 1)%nat by lia.
    rewrite firstn_app, map_length, seq_length. replace (h - (h - 1))%nat with 1%nat by lia.
    rewrite firstn_all2 by (rewrite map_length, seq_length; lia).
    destruct h as [|h']; [lia|]. cbn [Nat.sub]. rewrite Nat.sub_0_r.
    rewrite (seq_S h' 1). cbn [seq map firstn Nat.add]. rewrite map_app, !map_map. cbn [map].
    rewrite map_app. f_equal; [apply map_ext; intros k; apply Ab|]. cbn [map]. f_equal.
    replace (Z.of_nat 0 - Z.of_nat (S h'))%Z with (- Z.of_nat (S h'))%Z by lia.
    rewrite opp_IZR, Ropp_mult_distr_l_reverse, Rabs_Ropp. apply Ab.
  - replace (h - (1 - 1))%nat with h by lia. rewrite firstn_app, map_length, seq_length, Nat.sub_diag.
    rewrite firstn_all2 by (rewrite map_length, seq_length; lia).
    cbn [firstn]. rewrite app_nil_r, map_map. apply map_ext. intros k; apply Ab.
Qed.

(** ** segments *)
Lemma div_le_lower' a b c : b <> 0%nat -> (b * c <= a)%nat -> (c <= a / b)%nat.
Proof. intros. apply Nat.div_le_lower_bound; lia. Qed.

Lemma segments_spec l step nens n starts : (n <= l)%nat ->
  segments l step nens n = inr starts ->
  (nens = 1%nat /\ starts = [0%nat]) \/ (nens <> 1%nat /\ step <> 0%nat /\ welch_starts l n step starts).
Proof.
  intros Hn H. unfold segments in H. destruct (Nat.eq_dec nens 1) as [->|N1].
  - left. split; [easy|]. congruence.
  - right. split; [easy|].
    assert (H' : match step with O => inl StepZero | _ => inr (0%nat :: range step (l - n + 1) step) end = (inr starts : psd_err + list nat)).
    { destruct nens as [|[|nens]]; [exact H|lia|exact H]. }
    clear H. destruct step as [|s]; [discriminate|]. split; [lia|]. injection H' as <-.
    set (t := S s) in *. assert (Ht : t <> 0%nat) by (subst t; lia).
    set (q := ((l - n + 1 - t + (t - 1)) / t)%nat).
    assert (Q : q = ((l - n) / t)%nat).
    { unfold q. destruct (le_lt_dec t (l - n + 1)).
      - f_equal. lia.
      - replace (l - n + 1 - t)%nat with 0%nat by lia. rewrite !Nat.div_small; lia. }
    assert (E : (0%nat :: range t (l - n + 1) t) = map (fun m => m * t)%nat (seq 0 (S q))).
    { unfold range. fold q. cbn [seq map]. f_equal. rewrite <- seq_shift, map_map. apply map_ext. intros; cbn; lia. }
    rewrite E. unfold welch_starts. rewrite map_length, seq_length.
    pose proof (Nat.div_mod (l - n) t Ht) as D. pose proof (Nat.mod_upper_bound (l - n) t Ht) as M. rewrite <- Q in D.
    split; [|split].
    + intros m Hm. rewrite (nth_indep _ 0%nat (0 * t)%nat) by now rewrite map_length, seq_length.
      rewrite (map_nth (fun m => m * t)%nat). now rewrite seq_nth.
    + intros m Hm. assert (m * t <= q * t)%nat by (apply Nat.mul_le_mono_r; lia). lia.
    + cbn [Nat.mul]. lia.
Qed.

Lemma welch_count l n step starts : (n <= l)%nat -> step <> 0%nat -> welch_starts l n step starts ->
  length starts = ((l - n) / step + 1)%nat.
Proof.
  intros Hn Hs (_ & B & C). destruct (length starts) as [|q] eqn:E; [cbn in C; lia|].
  specialize (B q ltac:(lia)). rewrite <- (Nat.div_unique (l - n) step q (l - n - q * step)); lia.
Qed.

Lemma stepsize_default l nfft step nens n : (1 <= nfft)%nat -> (1 <= l)%nat ->
  stepsize l nfft None None = inr (step, nens, n) ->
  n = Nat.min l nfft /\ (1 <= n)%nat /\ ((l <= nfft)%nat -> step = 0%nat /\ nens = 1%nat) /\
  ((nfft < l)%nat -> nens = (2 * l / nfft)%nat /\ (2 <= nens)%nat /\ step = ((l - nfft) / (nens - 1))%nat /\ (2 * step < nfft)%nat).
Proof.
  intros H1 H2. unfold stepsize. destruct (Nat.ltb_spec l nfft).
  - rewrite Nat.eqb_refl. intros E. assert (step = 0 /\ nens = 1 /\ n = l)%nat as (-> & -> & ->) by (injection E; lia).
    repeat split; lia.
  - destruct (Nat.eqb_spec l nfft).
    + intros E. assert (step = 0 /\ nens = 1 /\ n = nfft)%nat as (-> & -> & ->) by (injection E; lia). repeat split; lia.
    + destruct nfft as [|m]; [lia|]. set (f := S m) in *. intros E.
      assert (n = f) by (cbv zeta in E; congruence). assert (nens = (2 * l / f)%nat) by (cbv zeta in E; congruence).
      assert (step = ((l - f) / (2 * l / f - 1))%nat) by (cbv zeta in E; congruence). subst n step nens. clear E.
      pose proof (Nat.div_mod (2 * l) f ltac:(lia)) as D. pose proof (Nat.mod_upper_bound (2 * l) f ltac:(lia)) as M.
      set (q := (2 * l / f)%nat) in *. assert (2 <= q)%nat by (apply div_le_lower'; lia).
      split; [lia|]. split; [lia|]. split; [lia|]. intros _. split; [easy|]. split; [easy|]. split; [easy|].
      pose proof (Nat.mul_div_le (l - f) (q - 1) ltac:(lia)) as B. set (s := ((l - f) / (q - 1))%nat) in *.
      destruct (le_lt_dec f (2 * s)) as [C|]; [|lia]. exfalso.
      assert ((q - 1) * f <= (q - 1) * (2 * s))%nat by (apply Nat.mul_le_mono_l; lia).
      assert ((q - 1) * f = q * f - f)%nat by (rewrite Nat.mul_sub_distr_r; lia).
      assert (2 * f <= q * f)%nat by (apply Nat.mul_le_mono_r; lia).
      lia.
Qed.

Lemma stepsize_step l nfft s step nens n : (1 <= s)%nat ->
  stepsize l nfft None (Some s) = inr (step, nens, n) ->
  step = s /\ n = Nat.min l nfft /\ nens = ((l - n) / s + 1)%nat.
Proof.
  intros Hs. unfold stepsize. destruct s as [|s']; [lia|]. intros E. cbv zeta in E.
  destruct (Nat.ltb_spec l nfft); [assert (n = l) by congruence|assert (n = nfft) by congruence]; subst n;
    (split; [congruence|]; split; [lia|]; injection E; intros; subst; reflexivity).
Qed.

(** ** complex sums *)
Definition csum (l : list C) : C := fold_right cadd (0, 0) l.
Lemma cadd_assoc a b c : cadd (cadd a b) c = cadd a (cadd b c).
Proof. unfold cadd. cbn. f_equal; ring. Qed.
Lemma cadd_0 a : cadd (0, 0) a = a.
Proof. destruct a. unfold cadd. cbn. f_equal; ring. Qed.
Lemma cadd_0r a : cadd a (0, 0) = a.
Proof. destruct a. unfold cadd. cbn. f_equal; ring. Qed.

Lemma fold_spectra {A} (f : A -> nat -> C) ks l : forall g,
  fold_left (map2 (olift2 cadd)) (map (fun i => map (fun k => Some (f i k)) ks) l) (map (fun k => Some (g k)) ks) =
  map (fun k => Some (cadd (g k) (csum (map (fun i => f i k) l)))) ks.
Proof.
  induction l as [|i l IH]; intros g; cbn [map fold_left].
  - apply map_ext. intros k. cbn. now rewrite cadd_0r.
  - rewrite map2_map. cbn [olift2]. rewrite (IH (fun k => cadd (g k) (f i k))). apply map_ext. intros k.
    cbn. now rewrite cadd_assoc.
Qed.
Lemma repeat_map {A B} (x : B) (l : list A) : repeat x (length l) = map (fun _ => x) l.
Proof. induction l; cbn; congruence. Qed.
Lemma sum_spectra_form {A} (f : A -> nat -> C) s nf l :
  sum_spectra nf (map (fun i => map (fun k => Some (f i k)) (seq s nf)) l) =
  map (fun k => Some (csum (map (fun i => f i k) l))) (seq s nf).
Proof.
  unfold sum_spectra. assert (E : repeat (Some (0, 0)) nf = map (fun _ => Some (0, 0)) (seq s nf)) by (rewrite <- repeat_map, seq_length; reflexivity).
  rewrite E.
  rewrite (fold_spectra f (seq s nf) l (fun _ => (0, 0))). apply map_ext. intros k. now rewrite cadd_0.
Qed.

(** ** one segment *)
Definition res (a : list R) : list R := vals (detrend (map Some a)).
Definition seg (a w : list R) (n i k : nat) : C := dft (map2 Rmult (res (samples a i n)) w) k.

Lemma res_ok a : (2 <= length a)%nat -> detrend (map Some a) = map Some (res a) /\ residual a (res a).
Proof. intros H. destruct (detrend_residual a H) as (r & E & Rs). unfold res. rewrite E, vals_some. easy. Qed.
Lemma all_some_map l : all_some (map Some l) = Some l.
Proof. induction l; cbn; [easy|]. now rewrite IHl. Qed.
Lemma map2_omul r : forall w, map2 omul (map Some r) (map Some w) = map Some (map2 Rmult r w).
Proof. induction r; intros [|y w]; cbn; [easy|easy|easy|]. now rewrite IHr. Qed.

Lemma slice_map (a : list R) n i : firstn n (skipn i (map Some a)) = map Some (samples a i n).
Proof. unfold samples. now rewrite skipn_map', firstn_map'. Qed.
Lemma samples_len {A} (a : list A) n i : (i + n <= length a)%nat -> length (samples a i n) = n.
Proof. intros H. unfold samples. rewrite firstn_length, skipn_length. lia. Qed.

Lemma segment_form a w n i : (i + n <= length a)%nat ->
  segment_fft (map Some a) w n i = map (fun k => Some (seg a w n i k)) (seq 1 (n / 2)).
Proof.
  intros H. unfold segment_fft. rewrite slice_map. destruct (le_lt_dec 2 n) as [N|N].
  - destruct (res_ok (samples a i n)) as [E _]; [now rewrite samples_len|]. rewrite E, map2_omul, all_some_map. reflexivity.
  - replace (n / 2)%nat with 0%nat; [reflexivity|]. symmetry. apply Nat.div_small. lia.
Qed.

Lemma starts_in l step nens n starts i : (n <= l)%nat -> segments l step nens n = inr starts -> In i starts -> (i + n <= l)%nat.
Proof.
  intros Hn H Hi. destruct (segments_spec _ _ _ _ _ Hn H) as [[_ ->]|(_ & _ & B1 & B2 & _)].
  - destruct Hi as [<-|[]]. lia.
  - apply (In_nth _ _ 0%nat) in Hi as (m & Hm & <-). rewrite B1 by easy. now apply B2.
Qed.

(** ** the form of cpsd for data without gaps *)
Lemma cpsd_form a b nfft fs win ostep step nens n w starts : length b = length a ->
  stepsize (length a) nfft None ostep = inr (step, nens, n) -> (n <= length a)%nat ->
  getwindow win n = inr w -> segments (length a) step nens n = inr starts ->
  cpsd false (map Some a) (map Some b) nfft fs win ostep =
  inr (map (fun k => olift2 cscale (weight w nens fs)
         (Some (csum (map (fun i => cmul (seg a w n i k) (cconj (seg b w n i k))) starts)))) (seq 1 (n / 2))).
Proof.
  intros L E1 Hn E2 E3. unfold cpsd. rewrite map_length, E1, E2, E3. cbv zeta. f_equal.
  rewrite <- (map_map (fun k => Some (csum (map (fun i => cmul (seg a w n i k) (cconj (seg b w n i k))) starts))) (olift2 cscale (weight w nens fs))).
  f_equal. rewrite <- (sum_spectra_form (fun i k => cmul (seg a w n i k) (cconj (seg b w n i k)))). f_equal.
  apply map_ext_in. intros i Hi. assert (B := starts_in _ _ _ _ _ _ Hn E3 Hi).
  rewrite !segment_form by lia. now rewrite map2_map.
Qed.
Lemma cpsd_auto_form a nfft fs win ostep step nens n w starts :
  stepsize (length a) nfft None ostep = inr (step, nens, n) -> (n <= length a)%nat ->
  getwindow win n = inr w -> segments (length a) step nens n = inr starts ->
  cpsd true (map Some a) (map Some a) nfft fs win ostep =
  inr (map (fun k => olift2 cscale (weight w nens fs)
         (Some (csum (map (fun i => (cabs2 (seg a w n i k), 0)) starts)))) (seq 1 (n / 2))).
Proof.
  intros E1 Hn E2 E3. unfold cpsd. rewrite map_length, E1, E2, E3. cbv zeta. f_equal.
  rewrite <- (map_map (fun k => Some (csum (map (fun i => (cabs2 (seg a w n i k), 0)) starts))) (olift2 cscale (weight w nens fs))).
  f_equal. rewrite <- (sum_spectra_form (fun i k => (cabs2 (seg a w n i k), 0))). f_equal.
  apply map_ext_in. intros i Hi. assert (B := starts_in _ _ _ _ _ _ Hn E3 Hi).
  rewrite !segment_form by lia. now rewrite map_map.
Qed.

Lemma stepsize_le l nfft nens step s ne n : stepsize l nfft nens step = inr (s, ne, n) -> (n <= l)%nat /\ (n <= nfft)%nat.
Proof.
  unfold stepsize. destruct (Nat.ltb_spec l nfft) as [L|L]; cbv zeta.
  all: destruct nens as [[|[|ne']]|]; [..|destruct step as [[|s']|]].
  all: try (intros E; try discriminate E; injection E; intros; subst; lia).
  all: try (destruct (Nat.eqb_spec l l); [intros E; injection E; intros; subst; lia|lia]).
  destruct (Nat.eqb_spec l nfft); [intros E; injection E; intros; subst; lia|].
  destruct nfft; [discriminate|]. intros E. injection E; intros; subst. lia.
Qed.

Lemma csum_real l : csum (map (fun x => (x, 0)) l) = (rsum l, 0).
Proof. induction l as [|x l IH]; [reflexivity|]. cbn [map csum fold_right]. fold (csum (map (fun x => (x, 0)) l)). rewrite IH. unfold cadd. cbn. f_equal; ring. Qed.
Lemma cabs_real x : cabs (x, 0) = Rabs x.
Proof. unfold cabs, cabs2. cbn. rewrite <- sqrt_Rsqr_abs. f_equal. unfold Rsqr. ring. Qed.
Lemma cabs2_nonneg a : 0 <= cabs2 a.
Proof. unfold cabs2. pose proof (Rle_0_sqr (fst a)). pose proof (Rle_0_sqr (snd a)). unfold Rsqr in *. lra. Qed.

Definition psum (a w : list R) (n k : nat) (starts : list nat) : R := rsum (map (fun i => cabs2 (seg a w n i k)) starts).
Lemma rsum_nonneg l : (forall x, In x l -> 0 <= x) -> 0 <= rsum l.
Proof. induction l as [|x l IH]; intros H; cbn; [lra|]. assert (0 <= x) by (apply H; now left). assert (0 <= rsum l) by (apply IH; intros; apply H; now right). unfold rsum in *. lra. Qed.
Lemma psum_nonneg a w n k starts : 0 <= psum a w n k starts.
Proof. apply rsum_nonneg. intros x Hx. apply in_map_iff in Hx as (i & <- & _). apply cabs2_nonneg. Qed.

Lemma psd_form a nfft fs win ostep step nens n w starts :
  stepsize (length a) nfft None ostep = inr (step, nens, n) ->
  getwindow win n = inr w -> segments (length a) step nens n = inr starts ->
  psd (map Some a) nfft fs win ostep =
  inr (map (fun k => option_map (fun c => Rabs c * psum a w n k starts) (weight w nens fs)) (seq 1 (n / 2))).
Proof.
  intros E1 E2 E3. unfold psd. rewrite (cpsd_auto_form a nfft fs win ostep step nens n w starts); auto;
    [|now apply (stepsize_le _ _ _ _ _ _ _ E1)].
  rewrite map_map. f_equal. apply map_ext. intros k. destruct (weight w nens fs) as [c|]; [|reflexivity]. cbn [olift2 option_map]. f_equal.
  rewrite <- (map_map (fun i => cabs2 (seg a w n i k)) (fun x => (x, 0))), csum_real. fold (psum a w n k starts).
  unfold cscale. cbn [fst snd]. rewrite Rmult_0_r, cabs_real, Rabs_mult. f_equal. apply Rabs_pos_eq, psum_nonneg.
Qed.

(** inversion of a successful call *)
Lemma psd_inv a nfft fs win ostep p : psd (map Some a) nfft fs win ostep = inr p ->
  exists step nens n w starts, stepsize (length a) nfft None ostep = inr (step, nens, n) /\
    getwindow win n = inr w /\ segments (length a) step nens n = inr starts.
Proof.
  unfold psd, cpsd. rewrite map_length. destruct (stepsize _ _ _ _) as [e|[[step nens] n]]; [discriminate|].
  destruct (getwindow win n) as [e|w] eqn:W; [discriminate|].
  destruct (segments _ _ _ _) as [e|starts] eqn:S'; [discriminate|]. intros _. now exists step, nens, n, w, starts.
Qed.
Lemma cpsd_inv auto a b nfft fs win ostep p : cpsd auto (map Some a) (map Some b) nfft fs win ostep = inr p ->
  exists step nens n w starts, stepsize (length a) nfft None ostep = inr (step, nens, n) /\
    getwindow win n = inr w /\ segments (length a) step nens n = inr starts.
Proof.
  unfold cpsd. rewrite map_length. destruct (stepsize _ _ _ _) as [e|[[step nens] n]]; [discriminate|].
  destruct (getwindow win n) as [e|w] eqn:W; [discriminate|].
  destruct (segments _ _ _ _) as [e|starts] eqn:S'; [discriminate|]. intros _. now exists step, nens, n, w, starts.
Qed.

(** ** agreement with the elementary specification *)
Lemma window_len win n w : getwindow win n = inr w -> length w = n.
Proof.
  destruct win as [| | |u]; cbn; intros H.
  - injection H as <-. apply repeat_length.
  - destruct n as [|[|n]]; injection H as <-; [reflexivity|reflexivity|]. cbn. now rewrite map_length, seq_length.
  - destruct n as [|[|n]]; injection H as <-; [reflexivity|reflexivity|]. cbn. now rewrite map_length, seq_length.
  - destruct (Nat.eqb_spec (length u) n); congruence.
Qed.
Lemma map2_seq (f : R -> nat -> R) x : forall s, map2 f x (seq s (length x)) = map (fun j => f (nth j x 0) (s + j)%nat) (seq 0 (length x)).
Proof.
  induction x as [|y x IH]; intros s; [reflexivity|]. cbn [length seq map2 map nth]. f_equal; [f_equal; lia|].
  rewrite IH, <- seq_shift, map_map. apply map_ext. intros j. cbn [nth]. f_equal. lia.
Qed.
Lemma dft_fourier x k : dft x k = (fourier_re x k, - fourier_im x k).
Proof.
  unfold dft, fourier_re, fourier_im. cbv zeta. f_equal.
  - rewrite map2_seq, rsum_seq. apply total_ext. intros j Hj. cbn [Nat.add]. f_equal. f_equal. rewrite mult_INR. unfold Rdiv. ring.
  - rewrite map2_seq, rsum_seq. replace (- total _ _) with (-1 * total (length x) (fun j => nth j x 0 * sin (2 * PI * (INR j * INR k / INR (length x))))) by ring.
    rewrite <- total_scal. apply total_ext. intros j Hj. cbn [Nat.add]. rewrite mult_INR.
    replace (2 * PI * (INR j * INR k) / INR (length x)) with (2 * PI * (INR j * INR k / INR (length x))) by (unfold Rdiv; ring). ring.
Qed.
Lemma map2_mult_nth r : forall w j, length r = length w -> nth j (map2 Rmult r w) 0 = nth j r 0 * nth j w 0.
Proof.
  induction r as [|x r IH]; intros [|y w] j L; cbn in L; try discriminate.
  - cbn. destruct j; ring.
  - destruct j; cbn; [easy|]. apply IH. lia.
Qed.
Lemma seg_tapered a w n i : (2 <= n)%nat -> (i + n <= length a)%nat -> length w = n ->
  tapered a w n i (map2 Rmult (res (samples a i n)) w).
Proof.
  intros N H W. destruct (res_ok (samples a i n)) as [_ Rs]; [now rewrite samples_len|].
  assert (L : length (res (samples a i n)) = n) by (destruct Rs as [-> _]; now apply samples_len).
  exists (res (samples a i n)). split; [easy|]. split; [rewrite map2_len; congruence|]. intros j Hj. apply map2_mult_nth. congruence.
Qed.
Lemma psum_spec a w n k starts : (2 <= n)%nat -> length w = n -> (forall i, In i starts -> (i + n <= length a)%nat) ->
  power_sum a w n k starts (psum a w n k starts).
Proof.
  intros N W. induction starts as [|i starts IH]; intros H; [constructor|].
  unfold psum. cbn [map rsum fold_right]. fold (rsum (map (fun i => cabs2 (seg a w n i k)) starts)). fold (psum a w n k starts).
  replace (cabs2 (seg a w n i k)) with (let x := map2 Rmult (res (samples a i n)) w in fourier_re x k * fourier_re x k + fourier_im x k * fourier_im x k).
  - cbv zeta. constructor; [apply seg_tapered; auto; apply H; now left|]. apply IH. intros; apply H; now right.
  - unfold seg. rewrite dft_fourier. unfold cabs2. cbn. ring.
Qed.
Lemma crsum_spec a b w n k starts : (2 <= n)%nat -> length w = n -> length b = length a -> (forall i, In i starts -> (i + n <= length a)%nat) ->
  cross_sum a b w n k starts (csum (map (fun i => cmul (seg a w n i k) (cconj (seg b w n i k))) starts)).
Proof.
  intros N W L. induction starts as [|i starts IH]; intros H; [constructor|]. cbn [map csum fold_right].
  fold (csum (map (fun i => cmul (seg a w n i k) (cconj (seg b w n i k))) starts)).
  specialize (IH ltac:(intros; apply H; now right)). destruct (csum _) as [re im] eqn:E.
  assert (Hi : (i + n <= length a)%nat) by (apply H; now left).
  pose proof (cross_cons a b w n k i starts _ _ re im (seg_tapered a w n i N Hi W) (seg_tapered b w n i N ltac:(lia) W) IH) as K.
  unfold seg. rewrite !dft_fourier. unfold cmul, cconj, cadd. cbn [fst snd].
  match goal with |- cross_sum _ _ _ _ _ _ ?p => match type of K with cross_sum _ _ _ _ _ _ ?q => replace p with q; [exact K|f_equal; ring] end end.
Qed.

Lemma weight_val w nens fs c : weight w nens fs = Some c -> c * (sum_squares w * INR nens * fs) = 2 /\ sum_squares w * INR nens * fs <> 0.
Proof.
  unfold weight, odiv. destruct (Req_EM_T _ 0) as [|N]; [discriminate|]. intros E. injection E as <-.
  assert (Q : rsum (map (fun x => x * x) w) = sum_squares w) by (unfold sum_squares; now rewrite (rsum_map _ _ 0)).
  rewrite Q in *. split; [field; repeat split; intros Z; apply N; rewrite Z; ring|easy].
Qed.
Lemma weight_some w nens fs : sum_squares w * INR nens * fs <> 0 -> weight w nens fs = Some (2 / (sum_squares w * INR nens * fs)).
Proof.
  intros N. unfold weight, odiv. assert (Q : rsum (map (fun x => x * x) w) = sum_squares w) by (unfold sum_squares; now rewrite (rsum_map _ _ 0)).
  rewrite Q. destruct (Req_EM_T _ 0); [easy|reflexivity].
Qed.
Lemma sum_squares_nonneg w : 0 <= sum_squares w.
Proof. apply total_nonneg. intros. apply Rle_0_sqr. Qed.
