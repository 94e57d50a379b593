(** Properties C33-C38 and C85-C88: spectra, cross spectra, coherence and phase. *)
From Coq Require Import QArith Reals List ZArith Lra Lia.
From Verif.Model Require Import Reshape Stats Psd.
From Verif.Spec Require Import Reshape Stats Psd.
From Verif.Proofs Require Psd PsdProps Coherence Phase Parseval SpectraWitness.
Import ListNotations.
Open Scope R_scope.

(** ** C33 *)
Theorem C33_frequencies : forall nfft fs u, 0 < fs -> length (calc_freq nfft fs u) = (nfft / 2)%nat /\
  forall k, (1 <= k <= nfft / 2)%nat ->
    nth_error (calc_freq nfft fs u) (k - 1) = Some (INR k * (match u with Hz => fs | RadPerS => 2 * PI * fs end) / INR nfft).
Proof. exact SpectraWitness.freq_nth. Qed.
Theorem C33_positive_and_increasing : forall nfft fs u j f, 0 < fs -> nth_error (calc_freq nfft fs u) j = Some f ->
  0 < f /\ forall i g, (i < j)%nat -> nth_error (calc_freq nfft fs u) i = Some g -> g < f.
Proof. exact SpectraWitness.freq_increasing. Qed.
Theorem C33_ends_at_nyquist : forall h fs, (1 <= h)%nat -> 0 < fs ->
  length (calc_freq (2 * h) fs Hz) = h /\ nth_error (calc_freq (2 * h) fs Hz) (h - 1) = Some (fs / 2).
Proof. exact SpectraWitness.freq_nyquist. Qed.
Theorem C33_one_frequency_per_estimate : forall a nfft fs win step p, (nfft <= length a)%nat ->
  psd (map Some a) nfft fs win step = inr p ->
  forall fs' u, 0 < fs' -> length (calc_freq nfft fs' u) = length p.
Proof. exact PsdProps.psd_length. Qed.
Example C33_hyp : (exists p, psd (map Some [1; 2; 4; 8; 16]) 4 2 Hann None = inr p) /\
  nth_error (calc_freq 4 2 Hz) 1 = Some (2 / 2) /\ nth_error (calc_freq 4 2 Hz) 0 = Some (INR 1 * 2 / INR 4).
Proof.
  split; [eexists; reflexivity|]. split.
  - exact (proj2 (SpectraWitness.freq_nyquist 2 2 ltac:(lia) ltac:(lra))).
  - exact (proj2 (SpectraWitness.freq_nth 4 2 Hz ltac:(lra)) 1%nat ltac:(cbn; lia)).
Qed.

(** ** C34: without an explicit step. Missing: the divisor is the number of segments only under the
    stated condition. *)
Theorem C34_default_step_partial : forall a nfft fs win p, (1 <= nfft)%nat -> (1 <= length a)%nat -> 0 < fs ->
  psd (map Some a) nfft fs win None = inr p ->
  exists n step nens w starts,
    n = Nat.min (length a) nfft /\ (2 * step < n)%nat /\ (0 < length starts)%nat /\ (1 <= nens <= length starts)%nat /\
    getwindow win n = inr w /\
    (forall m, (m < length starts)%nat -> nth m starts 0%nat = (m * step)%nat) /\
    (forall i, In i starts -> (i + n <= length a)%nat) /\
    (length starts = nens <-> (length a - n < nens * step \/ length a <= nfft)%nat) /\
    (0 < sum_squares w -> length p = (n / 2)%nat /\
     forall k, (1 <= k <= n / 2)%nat -> exists s, power_sum a w n k starts s /\
       nth_error p (k - 1) = Some (Some (2 * s / (sum_squares w * INR nens * fs)))).
Proof. exact PsdProps.default_plan. Qed.
(** with an explicit step, all segments that fit are averaged *)
Theorem C34_explicit_step : forall a nfft fs win s p, (1 <= s)%nat -> 0 < fs -> (1 <= nfft)%nat -> (1 <= length a)%nat ->
  psd (map Some a) nfft fs win (Some s) = inr p ->
  exists n w starts, n = Nat.min (length a) nfft /\ getwindow win n = inr w /\ welch_starts (length a) n s starts /\
    (0 < sum_squares w -> length p = (n / 2)%nat /\
     forall k, (1 <= k <= n / 2)%nat -> exists t, power_sum a w n k starts t /\
       nth_error p (k - 1) = Some (Some (2 * t / (sum_squares w * INR (length starts) * fs)))).
Proof. exact PsdProps.explicit_step. Qed.
(** the error this makes, for every series: a factor *)
Theorem C34_default_step_bias : forall a nfft fs win p q, (1 <= nfft < length a)%nat -> 0 < fs ->
  psd (map Some a) nfft fs win None = inr p ->
  psd (map Some a) nfft fs win (Some ((length a - nfft) / (n_ensembles (length a) nfft - 1))%nat) = inr q ->
  forall j x y, nth_error p j = Some (Some x) -> nth_error q j = Some (Some y) ->
    x = INR (n_segments (length a) nfft) / INR (n_ensembles (length a) nfft) * y.
Proof. exact SpectraWitness.default_vs_step. Qed.
(** nine samples in segments of four: six segments are summed, and divided by four *)
Theorem C34_divisor_refuted : exists a p q x y, length a = 9%nat /\
  psd (map Some a) 4 1 Ones None = inr p /\
  psd (map Some a) 4 1 Ones (Some ((9 - 4) / (n_ensembles 9 4 - 1))%nat) = inr q /\
  nth_error p 0 = Some (Some x) /\ nth_error q 0 = Some (Some y) /\ 0 < y /\ x = 3 / 2 * y.
Proof.
  destruct SpectraWitness.nine_bias as (p & q & x & y & H). exists SpectraWitness.nine, p, q, x, y. split; [reflexivity|exact H].
Qed.
(** two-sample segments never work *)
Theorem C34_nfft_2_raises : forall a fs win, (3 <= length a)%nat -> match win with Custom w => length w = 2%nat | _ => True end ->
  psd (map Some a) 2 fs win None = inl StepZero.
Proof. exact SpectraWitness.psd_nfft2. Qed.
Example C34_hyp : (exists p, psd (map Some [1; 2; 4; 8; 16]) 4 2 Hann None = inr p) /\
  (exists p, psd (map Some [1; 2; 4; 8; 16]) 4 2 Hann (Some 1%nat) = inr p) /\ (0 < sum_squares (repeat 1 4))%R /\
  n_segments 9 4 = 6%nat /\ n_ensembles 9 4 = 4%nat.
Proof. repeat split; try (eexists; reflexivity). cbn. lra. Qed.

(** ** C35 *)
Theorem C35_nonnegative : forall a nfft fs win step p, psd a nfft fs win step = inr p ->
  forall j x, nth_error p j = Some (Some x) -> 0 <= x.
Proof. exact PsdProps.psd_nonneg. Qed.
Theorem C35_quadratic : forall c a nfft fs win step p, psd a nfft fs win step = inr p ->
  psd (map (option_map (Rmult c)) a) nfft fs win step = inr (map (option_map (Rmult (c * c))) p).
Proof. exact PsdProps.psd_scale. Qed.
Theorem C35_trend_ignored : forall a b nfft fs win step alpha beta, length b = length a ->
  (forall k, (k < length a)%nat -> nth k b 0 = nth k a 0 + alpha + beta * INR k) ->
  psd (map Some b) nfft fs win step = psd (map Some a) nfft fs win step.
Proof. exact PsdProps.psd_trend. Qed.
Theorem C35_affine_is_zero : forall a nfft fs win step p alpha beta,
  (forall k, (k < length a)%nat -> nth k a 0 = alpha + beta * INR k) ->
  psd (map Some a) nfft fs win step = inr p -> forall j x, nth_error p j = Some (Some x) -> x = 0.
Proof. exact PsdProps.psd_affine. Qed.
Example C35_hyp : (exists p, psd [Some 1; Some 2; None; Some 8; Some 16] 4 2 Hamm None = inr p) /\
  (forall k, (k < 3)%nat -> nth k [2; 4; 6] 0 = 2 + 2 * INR k) /\ (exists p, psd (map Some [2; 4; 6]) 3 2 Hamm None = inr p).
Proof. split; [eexists; reflexivity|]. split; [|eexists; reflexivity]. intros [|[|[|k]]] H; cbn; lra || lia. Qed.

(** ** C36 *)
Theorem C36_nonnegative : forall out noise fs, noise <> 0 ->
  forall j x, nth_error (noise_correct out noise fs) j = Some (Some x) -> 0 <= x.
Proof. exact PsdProps.noise_nonneg. Qed.
Theorem C36_zero_noise : forall out fs, noise_correct out 0 fs = out.
Proof. exact PsdProps.noise_zero. Qed.
Theorem C36_lowered_by_noise_level : forall out noise fs j x, noise <> 0 ->
  nth_error out j = Some (Some x) -> noise * noise / (fs / 2) <= x ->
  nth_error (noise_correct out noise fs) j = Some (Some (x - noise * noise / (fs / 2))).
Proof. exact PsdProps.noise_above. Qed.
(** values below the noise level become a hundredth of the smallest distance from it *)
Theorem C36_below_noise_level : forall ps noise fs j x, noise <> 0 -> nth_error ps j = Some x ->
  x < noise * noise / (fs / 2) ->
  exists m, nth_error (noise_correct (map Some ps) noise fs) j = Some (Some (m / 100)) /\
    (forall y, In y ps -> m <= Rabs (y - noise * noise / (fs / 2))) /\
    exists y, In y ps /\ m = Rabs (y - noise * noise / (fs / 2)).
Proof. exact PsdProps.noise_below. Qed.
(** which can raise the spectrum *)
Theorem C36_only_lowers_refuted : exists out noise fs x y, 0 < fs /\ noise <> 0 /\ nth_error out 0 = Some (Some x) /\ 0 <= x /\
  nth_error (noise_correct out noise fs) 0 = Some (Some y) /\ x < y.
Proof.
  exists [Some (1/1000)], 1, 2, (1/1000), (999/100000). rewrite PsdProps.noise_raises.
  split; [lra|]. split; [lra|]. split; [reflexivity|]. split; [lra|]. split; [reflexivity|]. lra.
Qed.
Example C36_hyp : 1 * 1 / (2 / 2) <= 3 /\ 1/2 < 1 * 1 / (2 / 2).
Proof. lra. Qed.

(** ** C37. Missing: 1 as a bound when the number of segments differs from the number of ensembles *)
Theorem C37_between_0_and_1_partial : forall same a b nfft win out, length b = length a -> (1 <= nfft)%nat -> (1 <= length a)%nat ->
  (same = true -> b = a) -> n_segments (length a) nfft = n_ensembles (length a) nfft ->
  coherence same (map Some a) (map Some b) nfft win false (0, 0) = inr out ->
  forall j x, nth_error out j = Some (Some x) -> 0 <= x <= 1 /\ (forall c, b = map (Rmult c) a -> x = 1).
Proof. exact SpectraWitness.coh_unit. Qed.
Theorem C37_bounds : forall same a b nfft win out, length b = length a -> (1 <= nfft)%nat -> (1 <= length a)%nat ->
  (same = true -> b = a) -> coherence same (map Some a) (map Some b) nfft win false (0, 0) = inr out ->
  forall j x, nth_error out j = Some (Some x) ->
    0 <= x <= (INR (n_segments (length a) nfft) / INR (n_ensembles (length a) nfft)) * (INR (n_segments (length a) nfft) / INR (n_ensembles (length a) nfft)).
Proof. exact Coherence.coh_bounds. Qed.
Theorem C37_proportional : forall same a c nfft win out, (1 <= nfft)%nat -> (1 <= length a)%nat ->
  (same = true -> map (Rmult c) a = a) ->
  coherence same (map Some a) (map Some (map (Rmult c) a)) nfft win false (0, 0) = inr out ->
  forall j x, nth_error out j = Some (Some x) ->
    x = (INR (n_segments (length a) nfft) / INR (n_ensembles (length a) nfft)) * (INR (n_segments (length a) nfft) / INR (n_ensembles (length a) nfft)).
Proof. exact Coherence.coh_proportional. Qed.
Theorem C37_rescaling : forall a b c d nfft win, length b = length a -> (1 <= nfft)%nat -> (1 <= length a)%nat -> c <> 0 -> d <> 0 ->
  coherence false (map Some (map (Rmult c) a)) (map Some (map (Rmult d) b)) nfft win false (0, 0) =
  coherence false (map Some a) (map Some b) nfft win false (0, 0).
Proof. exact Coherence.coh_rescale. Qed.
(** the coherence of a signal with itself is 2.25 *)
Theorem C37_at_most_1_refuted : exists a out x, coherence true (map Some a) (map Some a) 4 Ones false (0, 0) = inr out /\
  nth_error out 0 = Some (Some x) /\ x = 9 / 4.
Proof. exists SpectraWitness.nine. exact SpectraWitness.nine_coherence. Qed.
Example C37_hyp : n_segments 12 8 = n_ensembles 12 8 /\ n_segments 9 4 <> n_ensembles 9 4 /\
  exists out, coherence false (map Some [1; 2; 4; 8; 16; 1; 2; 1; 0; 1; 3; 5]) (map Some [1; 2; 4; 8; 16; 32; 1; 1; 1; 5; 3; 4]) 8 Hann false (0, 0) = inr out.
Proof. split; [reflexivity|]. split; [discriminate|]. eexists. reflexivity. Qed.

(** ** C38. Missing: for other pairs only the first segment of the second signal is looked at *)
Theorem C38_with_itself : forall a nfft win s out, (1 <= s)%nat -> (nfft <= length a)%nat ->
  phase_angle (map Some a) (map Some a) nfft win (Some s) = inr out ->
  forall j z, nth_error out j = Some (Some z) -> z = (1, 0).
Proof. exact SpectraWitness.phase_self_step. Qed.
Theorem C38_with_itself_default_step : forall a nfft win out, (1 <= nfft < length a)%nat ->
  phase_angle (map Some a) (map Some a) nfft win None = inr out ->
  forall j z, nth_error out j = Some (Some z) -> z = (INR (n_segments (length a) nfft) / INR (n_ensembles (length a) nfft), 0).
Proof. exact SpectraWitness.phase_self_default. Qed.
Theorem C38_swap_conjugates : forall a b nfft win st out out', (nfft <= length a)%nat -> length b = length a ->
  phase_angle (map Some a) (map Some b) nfft win st = inr out -> phase_angle (map Some b) (map Some a) nfft win st = inr out' ->
  forall j z z', nth_error out j = Some (Some z) -> nth_error out' j = Some (Some z') -> fst z' = fst z /\ snd z' = - snd z.
Proof. intros * H1 H2 H3 H4 j z z' H5 H6. rewrite (Phase.phase_swap _ _ _ _ _ _ _ H1 H2 H3 H4 j z z' H5 H6). now split. Qed.
Theorem C38_depends_on_first_segment_only : forall a b b' nfft win st, firstn nfft b = firstn nfft b' ->
  phase_angle a b nfft win st = phase_angle a b' nfft win st.
Proof. exact Phase.phase_first_only. Qed.
(** a signal and its negative are in phase opposition; two segments give 0 instead of -1 *)
Theorem C38_opposite_refuted : exists a out, phase_angle (map Some a) (map Some (map Ropp a)) 4 Ones (Some 4%nat) = inr out /\
  nth_error out 0 = Some (Some (0, 0)).
Proof. exists SpectraWitness.two_waves. exact SpectraWitness.two_waves_phase. Qed.
Example C38_hyp : (exists out, phase_angle (map Some [1; 2; 4; 8; 16]) (map Some [1; 2; 4; 8; 16]) 4 Hann (Some 1%nat) = inr out) /\
  (exists out, phase_angle (map Some [1; 2; 4; 8; 16]) (map Some [5; 2; 4; 8; 16]) 4 Hann None = inr out).
Proof. split; eexists; reflexivity. Qed.

(** ** C85: bins as long as the segments *)
Theorem C85_rows_are_spectra_of_the_bins_partial : forall nbin fs dat win step out, (1 <= nbin <= length dat)%nat ->
  calc_psd_base nbin nbin fs dat win None None None step = inr out ->
  length out = (length dat / nbin)%nat /\
  forall i, (i < length dat / nbin)%nat -> exists p, psd (samples dat (i * nbin) nbin) nbin fs win step = inr p /\ nth_error out i = Some (Some p).
Proof. exact SpectraWitness.psd_base_rows. Qed.
(** a constant series has power in its first bin: a zero is put in front of the data *)
Theorem C85_padding_refuted : exists dat p r x, (forall v, In v dat -> v = Some 5) /\
  calc_psd_base 6 4 1 dat Ones None None None None = inr (Some r :: p) /\ nth_error r 0 = Some (Some x) /\ 0 < x.
Proof.
  destruct SpectraWitness.pad_witness as (rows & p & x & _ & E & (r & Hr & Hx) & P). destruct p as [|r' p]; [discriminate|].
  injection Hr as ->. exists (repeat (Some 5) 12), (map Some p), r, x. split; [intros v Hv; now apply repeat_spec in Hv|]. split; [exact E|]. now split.
Qed.
Example C85_hyp : exists out, calc_psd_base 4 4 1 (map Some [1; 2; 4; 8; 16; 3; 4; 5; 1]) Hann None None None None = inr out.
Proof. eexists. reflexivity. Qed.

(** ** C86: odd length; missing: even length *)
Theorem C86_integral_is_variance_partial : forall a h fs p, length a = (2 * h + 1)%nat -> (1 <= h)%nat -> 0 < fs ->
  psd (map Some a) (length a) fs Ones None = inr p ->
  exists r, residual a r /\ sum_list (present p) * (fs / INR (length a)) = total (length a) (fun j => nth j r 0 * nth j r 0) / INR (length a).
Proof. exact Parseval.variance_odd. Qed.
(** for even lengths the Nyquist component counts twice *)
Theorem C86_even_length : forall a h fs p, length a = (2 * h)%nat -> (1 <= h)%nat -> 0 < fs ->
  psd (map Some a) (length a) fs Ones None = inr p ->
  exists r, residual a r /\ sum_list (present p) * (fs / INR (length a)) =
    total (length a) (fun j => nth j r 0 * nth j r 0) / INR (length a) +
    (fourier_re r h / INR (length a)) * (fourier_re r h / INR (length a)).
Proof. exact Parseval.variance_even. Qed.
Theorem C86_even_length_refuted : exists a p, length a = 4%nat /\ psd (map Some a) 4 1 Ones None = inr p /\ residual a a /\
  total 4 (fun j => nth j a 0 * nth j a 0) / 4 = 5 /\ sum_list (present p) * (1 / 4) = 9.
Proof. destruct SpectraWitness.even_excess as (p & H). exists SpectraWitness.shorter, p. split; [reflexivity|exact H]. Qed.
Example C86_hyp : exists p, psd (map Some [1; 5; 3]) 3 2 Ones None = inr p.
Proof. eexists. reflexivity. Qed.

(** ** C87 *)
Theorem C87_cross_spectrum : forall a b nfft fs win st p, length b = length a -> 0 < fs -> (1 <= nfft)%nat ->
  cpsd false (map Some a) (map Some b) nfft fs win st = inr p ->
  exists step nens n w starts, stepsize (length a) nfft None st = inr (step, nens, n) /\ getwindow win n = inr w /\
    segments (length a) step nens n = inr starts /\ length p = (n / 2)%nat /\
    (0 < sum_squares w -> (1 <= nens)%nat -> forall k, (1 <= k <= n / 2)%nat -> exists re im, cross_sum a b w n k starts (re, im) /\
       nth_error p (k - 1) = Some (Some (2 * re / (sum_squares w * INR nens * fs), 2 * im / (sum_squares w * INR nens * fs)))).
Proof. exact Phase.cpsd_value. Qed.
Theorem C87_swap_conjugates : forall a b nfft fs win st p, length b = length a -> cpsd false a b nfft fs win st = inr p ->
  cpsd false b a nfft fs win st = inr (map (option_map (fun z => (fst z, - snd z))) p).
Proof. exact Phase.cpsd_swap. Qed.
(** series of different lengths: the shorter one comes first, whatever the order of the arguments *)
Theorem C87_quasisync_order_ignored : forall a b nfft fs win, length a <> length b ->
  cpsd_quasisync a b nfft fs win = cpsd_quasisync b a nfft fs win.
Proof. exact Phase.quasi_swap_same. Qed.
Theorem C87_quasisync_swap_refuted : exists a b p, length a <> length b /\
  cpsd_quasisync (map Some a) (map Some b) 4 1 Ones = inr p /\ cpsd_quasisync (map Some b) (map Some a) 4 1 Ones = inr p /\
  nth_error p 0 = Some (Some (0, 4)).
Proof.
  destruct SpectraWitness.quasi_witness as (p & H). exists SpectraWitness.longer, SpectraWitness.shorter, p. split; [cbn; lia|exact H].
Qed.
Example C87_hyp : exists p, cpsd false (map Some [1; 2; 4; 8; 16]) (map Some [5; 2; 4; 8; 16]) 4 2 Hann None = inr p.
Proof. eexists. reflexivity. Qed.

(** ** C88: bins of 2 samples asked for, 8 samples: rows 2 and 3 are never filled *)
Theorem C88_bin_size_override_refuted : exists dat p, length dat = 8%nat /\
  calc_psd_base 4 4 1 dat Ones (Some 2%nat) None (Some 0%nat) None = inr p /\ nth_error p 3 = Some None.
Proof. destruct SpectraWitness.override_witness as (p & H). exists (repeat (Some 5) 8), p. split; [reflexivity|exact H]. Qed.

(** All the theorems of this file, for one listing of axioms. *)
Definition all_theorems :=
  (@C33_frequencies,
   @C33_positive_and_increasing,
   @C33_ends_at_nyquist,
   @C33_one_frequency_per_estimate,
   @C34_default_step_partial,
   @C34_explicit_step,
   @C34_default_step_bias,
   @C34_divisor_refuted,
   @C34_nfft_2_raises,
   @C35_nonnegative,
   @C35_quadratic,
   @C35_trend_ignored,
   @C35_affine_is_zero,
   @C36_nonnegative,
   @C36_zero_noise,
   @C36_lowered_by_noise_level,
   @C36_below_noise_level,
   @C36_only_lowers_refuted,
   @C37_between_0_and_1_partial,
   @C37_bounds,
   @C37_proportional,
   @C37_rescaling,
   @C37_at_most_1_refuted,
   @C38_with_itself,
   @C38_with_itself_default_step,
   @C38_swap_conjugates,
   @C38_depends_on_first_segment_only,
   @C38_opposite_refuted,
   @C85_rows_are_spectra_of_the_bins_partial,
   @C85_padding_refuted,
   @C86_integral_is_variance_partial,
   @C86_even_length,
   @C86_even_length_refuted,
   @C87_cross_spectrum,
   @C87_swap_conjugates,
   @C87_quasisync_order_ignored,
   @C87_quasisync_swap_refuted,
   @C88_bin_size_override_refuted).
Print Assumptions all_theorems.
