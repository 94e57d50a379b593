From Coq Require Import Reals List ZArith Lra Lia.
From Verif.Model Require Import Stats Psd.
From Verif.Spec Require Import Stats Psd.
From Verif.Proofs Require Import Stats Psd PsdProps Coherence.
Import ListNotations.
Open Scope R_scope.

(** ** phasors *)
Lemma cabs2_pos z : cabs2 z <> 0 -> 0 < cabs2 z.
Proof. pose proof (cabs2_nonneg z). lra. Qed.
Lemma cabs_pos z : cabs2 z <> 0 -> 0 < cabs z.
Proof. intros H. apply sqrt_lt_R0, cabs2_pos, H. Qed.
Lemma cunit_abs z u : cunit z = Some u -> cabs2 z <> 0 /\ cabs2 u = 1 /\ u = cscale (/ cabs z) z.
Proof.
  unfold cunit. destruct (Req_EM_T (cabs2 z) 0) as [|N]; [discriminate|]. intros E. injection E as <-. split; [easy|]. split; [|easy].
  rewrite cabs2_scale, <- (cabs_sq z). pose proof (cabs_pos z N). field. lra.
Qed.
Lemma phasor_form x y z : phasor (Some y) (Some x) = Some z ->
  cabs2 x <> 0 /\ cabs2 y <> 0 /\ z = cscale (/ (cabs x * cabs y)) (cmul y (cconj x)).
Proof.
  unfold phasor. destruct (cunit x) as [u|] eqn:U; [|discriminate]. destruct (cunit y) as [v|] eqn:V; [|discriminate].
  destruct (cunit_abs _ _ U) as (Nx & Ux & ->). destruct (cunit_abs _ _ V) as (Ny & Uy & ->). unfold cdiv.
  destruct (Req_EM_T _ 0); [discriminate|]. intros E. injection E as <-. split; [easy|]. split; [easy|]. rewrite Ux.
  pose proof (cabs_pos _ Nx). pose proof (cabs_pos _ Ny). unfold cscale, cmul, cconj. cbn. f_equal; field; lra.
Qed.
Lemma phasor_some x y : cabs2 x <> 0 -> cabs2 y <> 0 -> phasor (Some y) (Some x) = Some (cscale (/ (cabs x * cabs y)) (cmul y (cconj x))).
Proof.
  intros Nx Ny. destruct (phasor (Some y) (Some x)) as [z|] eqn:E; [now destruct (phasor_form _ _ _ E) as (_ & _ & ->)|].
  exfalso. unfold phasor, cunit in E. destruct (Req_EM_T (cabs2 x) 0); [easy|]. destruct (Req_EM_T (cabs2 y) 0); [easy|].
  unfold cdiv in E. destruct (Req_EM_T _ 0) as [Z|]; [|discriminate]. rewrite cabs2_scale, <- (cabs_sq x) in Z.
  pose proof (cabs_pos _ Nx). replace (/ cabs x * / cabs x * (cabs x * cabs x)) with 1 in Z by (field; lra). lra.
Qed.
Lemma phasor_self x : cabs2 x <> 0 -> phasor (Some x) (Some x) = Some (1, 0).
Proof.
  intros N. rewrite phasor_some by easy. rewrite cabs_sq. unfold cscale, cmul, cconj. cbn. do 2 f_equal; unfold cabs2 in *; field; easy.
Qed.
Lemma phasor_self_inv x z : phasor (Some x) (Some x) = Some z -> z = (1, 0) /\ cabs2 x <> 0.
Proof. intros E. destruct (phasor_form _ _ _ E) as (N & _ & _). rewrite phasor_self in E by easy. split; [congruence|easy]. Qed.
Lemma phasor_swap x y z : phasor (Some y) (Some x) = Some z -> phasor (Some x) (Some y) = Some (cconj z).
Proof.
  intros E. destruct (phasor_form _ _ _ E) as (Nx & Ny & ->). rewrite phasor_some by easy. f_equal.
  rewrite (Rmult_comm (cabs y)). unfold cscale, cmul, cconj. cbn. f_equal; ring.
Qed.
Lemma phasor_unit x y z : phasor (Some y) (Some x) = Some z -> cabs2 z = 1.
Proof.
  intros E. destruct (phasor_form _ _ _ E) as (Nx & Ny & ->). rewrite cabs2_scale.
  assert (M : cabs2 (cmul y (cconj x)) = (cabs x * cabs x) * (cabs y * cabs y)) by (rewrite !cabs_sq; unfold cabs2, cmul, cconj; cbn; ring).
  rewrite M. pose proof (cabs_pos _ Nx). pose proof (cabs_pos _ Ny). field. lra.
Qed.

(** ** form of phase_angle *)
Lemma fold_entry (G : nat -> nat -> option (R * R)) ks l : forall F,
  fold_left (map2 (olift2 cadd)) (map (fun i => map (G i) ks) l) (map F ks) =
  map (fun k => fold_left (olift2 cadd) (map (fun i => G i k) l) (F k)) ks.
Proof.
  induction l as [|i l IH]; intros F; cbn [map fold_left]; [reflexivity|]. rewrite map2_map.
  rewrite (IH (fun k => olift2 cadd (F k) (G i k))). reflexivity.
Qed.
Lemma fold_none l : fold_left (olift2 cadd) l None = None.
Proof. induction l; cbn; auto. Qed.
Lemma fold_ones (l : list (option (R * R))) : forall s z, fold_left (olift2 cadd) l s = Some z -> (forall o, In o l -> o = Some (1, 0) \/ o = None) ->
  exists z0, s = Some z0 /\ z = cadd z0 (INR (length l), 0) /\ forall o, In o l -> o = Some (1, 0).
Proof.
  induction l as [|o l IH]; intros s z E H; cbn [fold_left] in E.
  - exists z. split; [easy|]. split; [|easy]. unfold cadd. destruct z. cbn. f_equal; ring.
  - destruct s as [z0|]; [|cbn in E; rewrite fold_none in E; discriminate].
    destruct (H o (or_introl eq_refl)) as [-> | ->]; [|cbn in E; rewrite fold_none in E; discriminate].
    cbn [olift2] in E. destruct (IH _ _ E) as (z1 & E1 & E2 & E3); [intros; apply H; now right|].
    exists z0. split; [easy|]. injection E1 as <-. split.
    + rewrite E2. cbn [length]. rewrite S_INR. unfold cadd. cbn. f_equal; ring.
    + intros o [<-|Ho]; [easy|now apply E3].
Qed.

Lemma phase_inv a b nfft win st out : (nfft <= length a)%nat -> length b = length a ->
  phase_angle (map Some a) (map Some b) nfft win st = inr out ->
  exists step nens w starts, stepsize (length a) nfft None st = inr (step, nens, nfft) /\ getwindow win nfft = inr w /\
    segments (length a) step nens nfft = inr starts /\ length out = (nfft / 2)%nat /\
    forall k z, (1 <= k <= nfft / 2)%nat -> nth_error out (k - 1) = Some (Some z) ->
      exists z0, phasor (Some (seg b w nfft 0 k)) (Some (seg a w nfft 0 k)) = Some z0 /\
        z = cscale (/ INR nens) (cadd z0 (INR (length starts - 1), 0)).
Proof.
  intros Ln L. unfold phase_angle. rewrite map_length. destruct (getwindow win nfft) as [e|w] eqn:W; [discriminate|].
  destruct (stepsize (length a) nfft None st) as [e|[[step nens] n]] eqn:E1; [discriminate|].
  assert (n = nfft).
  { revert E1. clear - Ln. unfold stepsize. destruct (Nat.ltb_spec (length a) nfft); [lia|]. cbv zeta.
    destruct st as [[|s]|]; [discriminate|congruence|]. destruct (Nat.eqb_spec (length a) nfft); [congruence|]. destruct nfft; [discriminate|congruence]. }
  subst n. destruct (segments (length a) step nens nfft) as [e|starts] eqn:E3; [discriminate|]. cbv zeta.
  rewrite !segment_form by lia. rewrite map2_map.
  assert (M : map (fun i => map2 phasor (segment_fft (map Some a) w nfft i) (segment_fft (map Some a) w nfft i)) (tl starts) =
     map (fun i => map (fun k => phasor (Some (seg a w nfft i k)) (Some (seg a w nfft i k))) (seq 1 (nfft / 2))) (tl starts)).
  { apply map_ext_in. intros i Hi. assert (In i starts) by (destruct starts; [easy|now right]).
    assert (B := starts_in _ _ _ _ _ _ Ln E3 H). rewrite segment_form by lia. now rewrite map2_map. }
  rewrite M. rewrite (fold_entry (fun i k => phasor (Some (seg a w nfft i k)) (Some (seg a w nfft i k)))). rewrite map_map. intros E.
  assert (Eo : out = map (fun x => option_map (cscale (/ INR nens)) (fold_left (olift2 cadd) (map (fun i => phasor (Some (seg a w nfft i x)) (Some (seg a w nfft i x))) (tl starts)) (phasor (Some (seg b w nfft 0 x)) (Some (seg a w nfft 0 x))))) (seq 1 (nfft / 2))) by congruence.
  clear E. subst out. exists step, nens, w, starts. split; [easy|]. split; [easy|]. split; [easy|]. split; [now rewrite map_length, seq_length|].
  intros k z Hk Hz. rewrite nth_error_map, (nth_error_nth' (seq 1 (nfft / 2)) 0%nat) in Hz by (rewrite seq_length; lia). rewrite seq_nth in Hz by lia.
  replace (1 + (k - 1))%nat with k in Hz by lia. cbn [option_map] in Hz.
  destruct (fold_left (olift2 cadd) _ _) as [y|] eqn:F; [|discriminate]. cbn in Hz. injection Hz as <-.
  destruct (fold_ones _ _ _ F) as (z0 & Z0 & Zy & _).
  - intros o Ho. apply in_map_iff in Ho as (i & <- & _). cbv beta; destruct (phasor (Some (seg a w nfft i k)) (Some (seg a w nfft i k))) as [q|] eqn:P; [left|right; reflexivity].
    destruct (phasor_self_inv _ _ P) as [-> _]. reflexivity.
  - exists z0. split; [exact Z0|]. f_equal. rewrite Zy, map_length. do 3 f_equal. destruct starts; cbn; lia.
Qed.

Lemma phase_self a nfft win st out : (nfft <= length a)%nat -> phase_angle (map Some a) (map Some a) nfft win st = inr out ->
  exists nens starts, (exists step, stepsize (length a) nfft None st = inr (step, nens, nfft) /\ segments (length a) step nens nfft = inr starts) /\
  forall j z, nth_error out j = Some (Some z) -> z = (INR (length starts) / INR nens, 0).
Proof.
  intros Ln E. destruct (phase_inv _ _ _ _ _ _ Ln eq_refl E) as (step & nens & w & starts & E1 & E2 & E3 & Lo & V).
  exists nens, starts. split; [now exists step|]. intros j z Hz.
  assert (Hj : (j < nfft / 2)%nat) by (rewrite <- Lo; apply nth_error_Some; congruence).
  destruct (V (S j) z ltac:(lia)) as (z0 & P & ->); [now replace (S j - 1)%nat with j by lia|].
  destruct (phasor_self_inv _ _ P) as [-> _].
  assert (Ls : (1 <= length starts)%nat).
  { destruct (segments_spec _ _ _ _ _ Ln E3) as [[_ ->]|(_ & S0 & Ws)]; [cbn; lia|]. rewrite (welch_count _ _ _ _ Ln S0 Ws). lia. }
  unfold cscale, cadd. cbn. rewrite minus_INR by easy. cbn. f_equal; unfold Rdiv; ring.
Qed.
Lemma phase_swap a b nfft win st out out' : (nfft <= length a)%nat -> length b = length a ->
  phase_angle (map Some a) (map Some b) nfft win st = inr out -> phase_angle (map Some b) (map Some a) nfft win st = inr out' ->
  forall j z z', nth_error out j = Some (Some z) -> nth_error out' j = Some (Some z') -> z' = cconj z.
Proof.
  intros Ln L E E' j z z' Hz Hz'.
  destruct (phase_inv _ _ _ _ _ _ Ln L E) as (step & nens & w & starts & E1 & E2 & E3 & Lo & V).
  destruct (phase_inv b a nfft win st out' ltac:(lia) ltac:(lia) E') as (step' & nens' & w' & starts' & E1' & E2' & E3' & Lo' & V').
  rewrite L in *. assert (step' = step) by congruence. assert (nens' = nens) by congruence. subst. assert (w' = w) by congruence. assert (starts' = starts) by congruence. subst.
  assert (Hj : (j < nfft / 2)%nat) by (rewrite <- Lo; apply nth_error_Some; congruence).
  destruct (V (S j) z ltac:(lia)) as (z0 & P & ->); [now replace (S j - 1)%nat with j by lia|].
  destruct (V' (S j) z' ltac:(lia)) as (z0' & P' & ->); [now replace (S j - 1)%nat with j by lia|].
  rewrite (phasor_swap _ _ _ P) in P'. injection P' as <-. unfold cscale, cadd, cconj. cbn. f_equal; ring.
Qed.
(** only the first segment of [b] is looked at *)
Lemma phase_first_only a b b' nfft win st : firstn nfft b = firstn nfft b' ->
  phase_angle a b nfft win st = phase_angle a b' nfft win st.
Proof.
  intros H. unfold phase_angle. destruct (getwindow win nfft) as [e|w]; [reflexivity|].
  assert (E : segment_fft b w nfft 0 = segment_fft b' w nfft 0) by (unfold segment_fft; cbn [skipn]; now rewrite H). now rewrite E.
Qed.

(** ** swapping the signals of a cross spectrum *)
Lemma map2_swap {A B D} (f : A -> B -> D) (g : B -> A -> D) (h : D -> D) l : (forall a b, g b a = h (f a b)) -> forall m, map2 g m l = map h (map2 f l m).
Proof. intros H. induction l as [|x l IH]; intros [|y m]; cbn; [easy|easy|easy|]. now rewrite H, IH. Qed.
Lemma fold_conj l : forall g, fold_left (map2 (olift2 cadd)) (map (map (option_map cconj)) l) (map (option_map cconj) g) =
  map (option_map cconj) (fold_left (map2 (olift2 cadd)) l g).
Proof.
  induction l as [|s l IH]; intros g; [reflexivity|]. cbn [map fold_left]. rewrite <- IH. f_equal.
  revert s. induction g as [|u g IHg]; intros [|v s]; cbn [map map2]; try reflexivity. rewrite IHg. f_equal.
  destruct u, v; cbn; try reflexivity. f_equal. unfold cadd, cconj. cbn. f_equal; ring.
Qed.
Lemma sum_spectra_conj nf l : sum_spectra nf (map (map (option_map cconj)) l) = map (option_map cconj) (sum_spectra nf l).
Proof.
  unfold sum_spectra. rewrite <- fold_conj. f_equal. induction nf as [|nf IH]; [reflexivity|].
  cbn [repeat map]. rewrite <- IH. f_equal. cbn. unfold cconj. cbn. do 2 f_equal; ring.
Qed.
Lemma cpsd_swap a b nfft fs win st p : length b = length a -> cpsd false a b nfft fs win st = inr p ->
  cpsd false b a nfft fs win st = inr (map (option_map cconj) p).
Proof.
  intros L. unfold cpsd. rewrite L. destruct (stepsize _ _ _ _) as [e|[[step nens] n]]; [discriminate|].
  destruct (getwindow win n) as [e|w]; [discriminate|]. destruct (segments _ _ _ _) as [e|starts]; [discriminate|]. cbv zeta. intros E.
  assert (Ep : p = map (olift2 cscale (weight w nens fs)) (sum_spectra (n / 2) (map (fun i => map2 (olift2 (fun s1 s2 => cmul s1 (cconj s2))) (segment_fft a w n i) (segment_fft b w n i)) starts))) by congruence.
  clear E. subst p. f_equal.
  assert (M : map (fun i => map2 (olift2 (fun s1 s2 => cmul s1 (cconj s2))) (segment_fft b w n i) (segment_fft a w n i)) starts =
    map (map (option_map cconj)) (map (fun i => map2 (olift2 (fun s1 s2 => cmul s1 (cconj s2))) (segment_fft a w n i) (segment_fft b w n i)) starts)).
  { rewrite map_map. apply map_ext. intros i. apply map2_swap. intros [x|] [y|]; cbn; try reflexivity. f_equal. unfold cmul, cconj. cbn. f_equal; ring. }
  rewrite M, sum_spectra_conj, !map_map. apply map_ext. intros [z|]; [|now destruct (weight w nens fs)].
  destruct (weight w nens fs) as [d|]; [|reflexivity]. cbn. f_equal. unfold cscale, cconj. cbn. f_equal. ring.
Qed.
Lemma quasi_swap_same a b nfft fs win : length a <> length b -> cpsd_quasisync a b nfft fs win = cpsd_quasisync b a nfft fs win.
Proof.
  intros N. unfold cpsd_quasisync. destruct (Nat.eqb_spec (length a) (length b)); [easy|]. destruct (Nat.eqb_spec (length b) (length a)); [congruence|].
  destruct (Nat.ltb_spec (length b) (length a)); destruct (Nat.ltb_spec (length a) (length b)); try lia; reflexivity.
Qed.

(** the cross spectrum, in elementary terms *)
Lemma cpsd_value a b nfft fs win st p : length b = length a -> 0 < fs -> (1 <= nfft)%nat ->
  cpsd false (map Some a) (map Some b) nfft fs win st = inr p ->
  exists step nens n w starts, stepsize (length a) nfft None st = inr (step, nens, n) /\ getwindow win n = inr w /\
    segments (length a) step nens n = inr starts /\ length p = (n / 2)%nat /\
    (0 < sum_squares w -> (1 <= nens)%nat -> forall k, (1 <= k <= n / 2)%nat -> exists re im, cross_sum a b w n k starts (re, im) /\
       nth_error p (k - 1) = Some (Some (2 * re / (sum_squares w * INR nens * fs), 2 * im / (sum_squares w * INR nens * fs)))).
Proof.
  intros L F H1 E. destruct (cpsd_inv _ _ _ _ _ _ _ _ E) as (step & nens & n & w & starts & E1 & E2 & E3).
  destruct (stepsize_le _ _ _ _ _ _ _ E1) as [Hn _].
  rewrite (cpsd_form a b nfft fs win st step nens n w starts L E1 Hn E2 E3) in E.
  assert (Ep : p = map (fun k => olift2 cscale (weight w nens fs) (Some (csum (map (fun i => cmul (seg a w n i k) (cconj (seg b w n i k))) starts)))) (seq 1 (n / 2))) by congruence.
  clear E. subst p. exists step, nens, n, w, starts. split; [easy|]. split; [easy|]. split; [easy|]. split; [now rewrite map_length, seq_length|].
  intros Ws Ne k Hk. pose proof (crsum_spec a b w n k starts (half_ge2 _ _ Hk) (window_len _ _ _ E2) L (fun i Hi => starts_in _ _ _ _ _ i Hn E3 Hi)) as C.
  rewrite nth_error_map, (nth_error_nth' (seq 1 (n / 2)) 0%nat) by (rewrite seq_length; lia). rewrite seq_nth by lia.
  replace (1 + (k - 1))%nat with k by lia. cbn [option_map]. destruct (csum _) as [re im]. exists re, im. split; [exact C|].
  assert (P : 0 < sum_squares w * INR nens * fs).
  { apply Rmult_lt_0_compat; [|easy]. apply Rmult_lt_0_compat; [easy|]. apply lt_0_INR. lia. }
  rewrite weight_some by lra. cbn. unfold cscale. cbn. do 3 f_equal; unfold Rdiv; ring.
Qed.

(** ** concrete witnesses: quarter-wave signals *)
Lemma cos_3PI2' : cos (3 * (PI / 2)) = 0.
Proof. replace (3 * (PI / 2)) with (PI / 2 + PI) by field. rewrite neg_cos, cos_PI2. ring. Qed.
Lemma sin_3PI2' : sin (3 * (PI / 2)) = -1.
Proof. replace (3 * (PI / 2)) with (PI / 2 + PI) by field. rewrite neg_sin, sin_PI2. ring. Qed.

Lemma quarter a b c d : dft [a; b; c; d] 1 = (a - c, d - b).
Proof.
  rewrite dft_fourier. unfold fourier_re, fourier_im. cbn [length total nth INR].
  replace (2 * PI * (0 * 1 / (1 + 1 + 1 + 1))) with 0 by field.
  replace (2 * PI * (1 * 1 / (1 + 1 + 1 + 1))) with (PI / 2) by field.
  replace (2 * PI * ((1 + 1) * 1 / (1 + 1 + 1 + 1))) with PI by field.
  replace (2 * PI * ((1 + 1 + 1) * 1 / (1 + 1 + 1 + 1))) with (3 * (PI / 2)) by field.
  rewrite cos_0, sin_0, cos_PI2, sin_PI2, cos_PI, sin_PI, cos_3PI2', sin_3PI2'. f_equal; ring.
Qed.
Lemma res_even p q : res [p + q; -p - 3 * q; -p + 3 * q; p - q] = [p + q; -p - 3 * q; -p + 3 * q; p - q].
Proof.
  unfold res. rewrite (detrend_is _ [p + q; -p - 3 * q; -p + 3 * q; p - q]); [apply vals_some|cbn; lia|].
  split; [reflexivity|]. split; [cbn; ring|]. split; [cbn; ring|]. exists 0, 0. intros k Hk. ring.
Qed.
Lemma sum_sq_ones n : sum_squares (repeat 1 n) = INR n.
Proof.
  unfold sum_squares. rewrite repeat_length. rewrite (total_ext n _ (fun _ => 1)); [rewrite total_const; ring|].
  intros k Hk. rewrite (nth_indep _ 0 1) by (rewrite repeat_length; easy). rewrite nth_repeat. ring.
Qed.
