(** Properties C46-C53, C98: cleaning of time series and profiles. *)
From Coq Require Import String.
From Coq Require Import ZArith QArith Qabs Reals List Bool Lia Lra.
From Verif.Model Require Import Gaps Reshape Stats Rotate CleanAdv CleanAdp.
From Verif.Spec Require Import Gaps Stats CleanAdv CleanAdp.
From Verif.Proofs Require Gaps CleanAdv EnsembleMean CleanAdp Stats.
Import ListNotations.
Close Scope R_scope.
Open Scope nat_scope.

(** ** C46 *)
Theorem C46_range_limit : forall lo hi u, length (range_limit lo hi u) = length u /\
  forall k, k < length u -> (flagged (range_limit lo hi u) k <-> ~ inside lo hi u k).
Proof. intros lo hi u. split; [apply CleanAdv.range_limit_length|]. exact (CleanAdv.range_limit_spec lo hi u). Qed.
Theorem C46_spike_thresh : forall t u, length (spike_thresh t u) = length u /\
  forall k, k < length u -> (flagged (spike_thresh t u) k <-> exists d, jump u k d /\ (t < Qabs d)%Q).
Proof. intros t u. split; [apply CleanAdv.spike_length|]. exact (CleanAdv.spike_spec t u). Qed.
Theorem C46_val_exceeds_thresh : forall t val u, length (val_exceeds_thresh t val u) = length u /\
  forall k, k < length u -> nth_error (val_exceeds_thresh t val u) k = Some val /\ (exists v, valid u k v /\ (t < Qabs v)%Q)
    \/ nth_error (val_exceeds_thresh t val u) k = nth_error u k /\ ~ exists v, valid u k v /\ (t < Qabs v)%Q.
Proof. exact CleanAdv.exceeds_spec. Qed.
Example C46_ex : range_limit (-5) 5 [Some 1; None; Some 5; Some (-7)]%Q = [false; true; true; true]
  /\ spike_thresh 10 [Some 11; Some 12; None; Some 30; Some 1]%Q = [true; false; false; false; true].
Proof. split; reflexivity. Qed.

(** ** C47: any interpolator keeps the good samples *)
Theorem C47_unmasked_kept : forall f npt mask u, interpolator f -> length (clean_fill f npt mask u) = length u /\
  forall k v, valid u k v -> ~ flagged mask k -> valid (clean_fill f npt mask u) k v.
Proof. exact CleanAdv.clean_keeps. Qed.
(** every masked or missing sample but the last is interpolated, from a window with [npt] samples on
    either side of it. Missing: the last sample, see below. *)
Theorem C47_masked_filled_partial : forall f npt mask u a k, interpolator f -> fills f npt (length u) -> masked mask u a ->
  missing a k -> S k < length u -> exists v, valid (clean_fill f npt mask u) k v.
Proof.
  intros f npt mask u a k F FF Ma M K. unfold clean_fill. rewrite (CleanAdv.masked_eq _ _ _ Ma). destruct Ma as [L _].
  apply CleanAdv.interp_nan_fills; [exact F|rewrite L; exact FF|exact M|lia].
Qed.
(** the last sample is interpolated when one of the [npt] samples before it is missing too *)
Theorem C47_last_filled_partial : forall f npt mask u a k p, interpolator f -> (forall s w k, missing w k -> exists v, valid (f s w) k v) -> masked mask u a ->
  missing a k -> S k = length u -> missing a p -> p < k <= p + npt -> exists v, valid (clean_fill f npt mask u) k v.
Proof.
  intros f npt mask u a k p F FF Ma M K P R. unfold clean_fill. rewrite (CleanAdv.masked_eq _ _ _ Ma). destruct Ma as [L _].
  apply (CleanAdv.interp_nan_fills_last f npt a k p F FF M); [lia|exact P|exact R].
Qed.
(** and not examined otherwise *)
Definition fill_zero (s : nat) (w : list (option Q)) : list (option Q) := map (fun x => match x with None => Some 0%Q | Some _ => x end) w.
Lemma fill_zero_ok : interpolator fill_zero /\ (forall s w k, missing w k -> exists v, valid (fill_zero s w) k v).
Proof.
  split.
  - intros s w. split; [apply map_length|]. intros k v V. unfold valid, fill_zero in *. now rewrite nth_error_map, V.
  - intros s w k M. exists 0%Q. unfold valid, missing, fill_zero in *. now rewrite nth_error_map, M.
Qed.
Theorem C47_last_refuted : exists f npt mask u k, interpolator f /\ (forall s w k, missing w k -> exists v, valid (f s w) k v) /\
  flagged mask k /\ k < length u /\ missing (clean_fill f npt mask u) k.
Proof.
  destruct fill_zero_ok as [A B]. exists fill_zero, 12, [false; false; true], [Some 1; Some 2; Some 3]%Q, 2.
  split; [exact A|]. split; [exact B|]. split; [reflexivity|]. split; [cbn; lia|reflexivity].
Qed.
(** linear interpolation gives the line between the nearest good samples of the whole series, however
    the series is cut into windows; up to [maxgap] samples of a gap are filled *)
Theorem C47_linear : forall t maxgap npt mask u a, 1 <= npt -> masked mask u a -> forall k, missing a k ->
  (forall i j x y, left_nb a k i x -> right_nb a k j y -> fits (run_to a k) maxgap ->
     ~ (nth j t 0 == nth i t 0)%Q ->
     exists v, valid (clean_fill (xr_linear t maxgap) npt mask u) k v /\ on_line_t (nth i t 0%Q) (nth j t 0%Q) (nth k t 0%Q) x y v) /\
  (none_before a k \/ none_after a k \/ ~ fits (run_to a k) maxgap -> missing (clean_fill (xr_linear t maxgap) npt mask u) k).
Proof.
  intros t maxgap npt mask u a N Ma k M. destruct (CleanAdv.clean_linear t maxgap npt mask u a N Ma k M) as [A B]. split; [|exact B].
  intros i j x y L R F D. exists (line_time t i j k x y). split; [now apply A|]. now apply Gaps.line_time_on_line.
Qed.
Example C47_hyp : masked [false; true; false; false] [Some 0; Some 9; Some 2; Some 3]%Q [Some 0; None; Some 2; Some 3]%Q
  /\ clean_fill (xr_linear [0; 1; 2; 3]%Q (Some 6)) 12 [false; true; false; false] [Some 0; Some 9; Some 2; Some 3]%Q = [Some 0; Some ((2 - 0) * ((1 - 0) / (2 - 0)) + 0); Some 2; Some 3]%Q
  /\ left_nb [Some 0; None; Some 2; Some 3]%Q 1 0 0 /\ right_nb [Some 0; None; Some 2; Some 3]%Q 1 2 2.
Proof.
  split; [exact (CleanAdv.mask_masked [false; true; false; false] [Some 0; Some 9; Some 2; Some 3]%Q)|]. split; [reflexivity|].
  split; (split; [lia|split; [reflexivity|intros m H; lia]]).
Qed.

(** ** C98: False: a gap longer than maxgap is filled in part *)
Theorem C98_long_gap_refuted : exists t maxgap npt mask u a i j k x y v, masked mask u a /\ left_nb a k i x /\ right_nb a k j y /\
  maxgap < j - i - 1 /\ valid (clean_fill (xr_linear t (Some maxgap)) npt mask u) k v.
Proof.
  exists [0; 1; 2; 3]%Q, 1, 12, [false; true; true; false], [Some 0; Some 9; Some 9; Some 3]%Q, [Some 0; None; None; Some 3]%Q, 0, 3, 1, 0%Q, 3%Q, ((3 - 0) * ((1 - 0) / (3 - 0)) + 0)%Q.
  split; [exact (CleanAdv.mask_masked [false; true; true; false] [Some 0; Some 9; Some 9; Some 3]%Q)|].
  split; [split; [lia|split; [reflexivity|intros m H; lia]]|].
  split; [split; [lia|split; [reflexivity|intros m H; assert (m = 2) by lia; now subst]]|]. split; [lia|reflexivity].
Qed.
(** a gap of at most maxgap samples is filled completely *)
Theorem C98_short_gap_partial : forall t maxgap npt mask u a i j k x y, 1 <= npt -> masked mask u a -> missing a k -> left_nb a k i x -> right_nb a k j y ->
  j - i - 1 <= maxgap -> exists v, valid (clean_fill (xr_linear t (Some maxgap)) npt mask u) k v.
Proof.
  intros t maxgap npt mask u a i j k x y N Ma M L R G. destruct (CleanAdv.clean_linear t (Some maxgap) npt mask u a N Ma k M) as [A _].
  exists (line_time t i j k x y). apply (A i j x y L R). cbn [fits]. destruct (le_lt_dec (run_to a k) maxgap) as [H|H]; [exact H|].
  apply CleanAdv.run_spec in H as (H1 & H2 & H3). destruct L as (L1 & L2 & _). destruct R as (R1 & _).
  exfalso. specialize (H3 i ltac:(lia)). apply Gaps.valid_nthq in L2. destruct L2. congruence.
Qed.

(** ** C48 *)
Theorem C48_ensemble_mean : forall mask n u a, 1 <= n <= length u -> masked mask u a ->
  exists out, fill_nan_ensemble_mean mask n u = inr out /\ length out = length u /\
    forall k, k < length u -> match nth k a None with
      | Some x => nth k out None = Some x
      | None => is_mean (samples a (k / n * n) n) (nth k out None) end.
Proof.
  intros mask n u a N Ma. destruct (EnsembleMean.ensemble_mean mask n u a N Ma) as (out & E & L & H). exists out. split; [exact E|]. split; [exact L|].
  intros k K. specialize (H k K). destruct (nth k a None); [exact H|]. rewrite H. apply Stats.nanmean_is.
Qed.
Theorem C48_window_too_long : forall mask n u, length u < n -> fill_nan_ensemble_mean mask n u = inl BinTooLong.
Proof. exact EnsembleMean.ensemble_mean_raises. Qed.
Example C48_hyp : masked [false; true; false; true; false] [Some 1; Some 7; Some 3; Some 8; Some 5]%R [Some 1; None; Some 3; None; Some 5]%R.
Proof. exact (EnsembleMean.where_masked [false; true; false; true; false] [Some 1; Some 7; Some 3; Some 8; Some 5]%R). Qed.

Open Scope R_scope.
(** ** C49: data in beam coordinates *)
Theorem C49_beam_frame : forall t vel corr amp, length vel = length corr -> length amp = length corr ->
  let '(v, c, a) := correlation_filter None t vel corr amp in
  changed_where (low_corr t corr) (fun _ => None) vel v /\ changed_where (low_corr t corr) erased corr c /\ changed_where (low_corr t corr) erased amp a.
Proof.
  intros t vel corr amp L1 L2. pose proof (CleanAdp.filter_beam t vel corr amp L1) as A. pose proof (CleanAdp.filter_corr None t vel corr amp L2) as B.
  destruct (correlation_filter None t vel corr amp) as [[v c] a]. split; [exact A|exact B].
Qed.
(** another frame: correlation and amplitude the same; a velocity without low correlation is
    returned unchanged, any low beam removes the whole velocity *)
Theorem C49_other_frame_partial : forall to_beam back t v corr amp, length v = length corr -> length amp = length corr ->
  length (to_beam v) = length v -> back (to_beam v) = v ->
  let '(vel, c, a) := correlation_filter (Some (to_beam, back)) t (map Some v) corr amp in
  changed_where (low_corr t corr) erased corr c /\ changed_where (low_corr t corr) erased amp a /\
  ((forall k, ~ low_corr t corr k) -> vel = map Some v) /\ ((exists k, low_corr t corr k) -> vel = repeat None (length v)).
Proof.
  intros to_beam back t v corr amp L1 L2 L3 B. pose proof (CleanAdp.filter_frame to_beam back t v corr amp L1 L3 B) as A.
  pose proof (CleanAdp.filter_corr (Some (to_beam, back)) t (map Some v) corr amp L2) as C.
  destruct (correlation_filter (Some (to_beam, back)) t (map Some v) corr amp) as [[vel c] a]. cbn [fst] in A. tauto.
Qed.
(** False: in another frame the beams of good correlation are lost as well *)
Theorem C49_good_beams_refuted : exists to_beam back t v corr amp k, length v = length corr /\ length amp = length corr /\
  (forall w, length (to_beam w) = length w /\ back (to_beam w) = w) /\ (k < length corr)%nat /\ ~ low_corr t corr k /\
  nth_error (lift to_beam (fst (fst (correlation_filter (Some (to_beam, back)) t (map Some v) corr amp)))) k = Some None.
Proof.
  exists (fun w => w), (fun w => w), 50, [1; 2; 3], [It 90; It 40; It 90], [It 80; It 80; It 80], 0%nat.
  assert (L : low_corr 50 [It 90; It 40; It 90] 1) by (exists (IZR 40); split; [lra|right; exists 40%Z; auto]).
  destruct (CleanAdp.filter_frame (fun w => w) (fun w => w) 50 [1; 2; 3] [It 90; It 40; It 90] [It 80; It 80; It 80] eq_refl eq_refl eq_refl) as [_ B].
  repeat split; [cbn; lia| |rewrite B by (now exists 1%nat); reflexivity].
  intros (x & X & [E|(z & Z & E)]); [discriminate|]. injection E as <-. subst. lra.
Qed.

(** ** C50: with the angle of the dataset *)
Theorem C50_beyond_surface : forall angle val h depth cs range col, length col = length range ->
  exists out, nan_beyond_surface (Some angle) None val h (Some depth) cs range col = inr out /\
    changed_where (fun k => exists r, nth_error range k = Some r /\ clear_range angle cs (match h with Some x => x | None => 0 end) depth < r) (blank val) col out.
Proof. exact CleanAdp.beyond_spec. Qed.
Theorem C50_echo : forall val depth range col, length col = length range ->
  changed_where (fun k => exists r, nth_error range k = Some r /\ depth < r) (blank val) col (nan_beyond_echo val (Some depth) range col).
Proof. exact CleanAdp.echo_spec. Qed.
Theorem C50_unknown_depth : forall attr arg val h cs range col out, nan_beyond_surface attr arg val h None cs range col = inr out -> out = col.
Proof. exact CleanAdp.beyond_missing_depth. Qed.
Example C50_hyp : length [Fl (Some 1); It 3] = length [1; 2] /\ (exists out, nan_beyond_surface None (Some 1) None None None 1 [1; 2] [Fl (Some 1); It 3] = inr out).
Proof. split; [reflexivity|]. eexists. reflexivity. Qed.
(** False: the same angle given in degrees by the caller *)
Theorem C50_user_angle_refuted : exists angle depth cs range col, nan_beyond_surface None (Some angle) None None (Some depth) cs range col
  <> nan_beyond_surface (Some angle) None None None (Some depth) cs range col.
Proof.
  exists 30, 10, 1, [4], [It 7]. unfold nan_beyond_surface, blank_where. cbn [surface_angle length Nat.eqb surface_limit map map2 beyond].
  pose proof CleanAdp.cos_30_rad as A. pose proof CleanAdp.cos_30_deg as B.
  replace (30 * PI / 180) with (30 * (PI / 180)) in B by field.
  assert (X : Rltb (10 * cos 30 - 1) 4 = true) by (apply CleanAdp.Rltb_true; lra).
  assert (Y : Rltb (10 * cos (30 * (PI / 180)) - 1) 4 = false).
  { destruct (Rltb (10 * cos (30 * (PI / 180)) - 1) 4) eqn:E; [|reflexivity]. apply CleanAdp.Rltb_true in E. lra. }
  rewrite X, Y. cbn. congruence.
Qed.
(** False: a variable on a range coordinate of another size (a fifth beam, say) *)
Theorem C50_other_range_refuted : exists angle depth cs range col, nan_beyond_surface (Some angle) None None None (Some depth) cs range col = inl BadIndex.
Proof. exists 25, 10, 1, [1; 2], [Fl (Some 1)]. reflexivity. Qed.

(** ** C51 *)
Theorem C51_additive : forall a b d, set_range_offset b (set_range_offset a d) = set_range_offset (a + b) d.
Proof. exact CleanAdp.offset_add. Qed.
Theorem C51_moves_ranges_only : forall h d, length (dims (set_range_offset h d)) = length (dims d) /\
  h_deploy (set_range_offset h d) = Some (match h_deploy d with Some x => x + h | None => h end) /\
  forall k n v, nth_error (dims d) k = Some (n, v) ->
    nth_error (dims (set_range_offset h d)) k = Some (n, if contains "range" n then map (fun x => x + h) v else v).
Proof. intros h d. split; [apply CleanAdp.offset_number|]. split; [reflexivity|]. exact (CleanAdp.offset_dims h d). Qed.
Example C51_ex : contains "range" "range_b5" = true /\ contains "range" "time" = false.
Proof. split; reflexivity. Qed.

(** ** C52: the second estimate, up to 256 cells *)
Theorem C52_second_estimate_partial : forall amp nc b p j, (nc <= 256)%nat ->
  last_with (nc - 1) (fun c => (amp b (S c) p < amp b c p)%Z) j -> inds2 amp nc b p = Z.of_nat (S j).
Proof. exact CleanAdp.inds2_spec. Qed.
Example C52_hyp : last_with 3 (fun c => (nth (S c) [5; 3; 4; 9] 0 < nth c [5; 3; 4; 9] 0)%Z) 0.
Proof. split; [lia|]. split; [cbn; lia|]. intros i H. assert (i = 1 \/ i = 2)%nat as [->| ->] by lia; cbn; lia. Qed.
(** False with more cells: the only decrease after cell 256 gives cell 1 *)
Theorem C52_wraparound_refuted : exists amp nc b p j, last_with (nc - 1) (fun c => (amp b (S c) p < amp b c p)%Z) j /\ inds2 amp nc b p <> Z.of_nat (S j).
Proof.
  exists (fun _ c _ => if Nat.eqb c (255 + 2) then -1 else 0)%Z, (255 + 5)%nat, O, O, (255 + 1)%nat. split.
  - split; [lia|]. split; [reflexivity|]. intros i H. destruct (Nat.eqb_spec (S i) (255 + 2)); [lia|]. destruct (Nat.eqb_spec i (255 + 2)); lia.
  - assert (E : inds2 (fun _ c _ => if Nat.eqb c (255 + 2) then -1 else 0)%Z (255 + 5) 0 0 = 1%Z) by (vm_compute; reflexivity). rewrite E. lia.
Qed.
(** False: with fewer pings than cells it raises *)
Theorem C52_few_pings_refuted : forall thresh range amp nb nc np, (np < nc)%nat -> find_surface thresh range amp nb nc np = None.
Proof. intros thresh range amp nb nc np H. unfold find_surface. apply Nat.ltb_lt in H. now rewrite H. Qed.
(** False: pings after the first [nc] are not examined *)
Theorem C52_later_pings_refuted : forall thresh range amp nb nc np p, (nc <= p < np)%nat ->
  exists out d, find_surface thresh range amp nb nc np = Some out /\ nth p out None = Some d.
Proof.
  intros thresh range amp nb nc np p H. destruct (CleanAdp.surface_ok thresh range amp nb nc np ltac:(lia)) as (out & E & _ & A).
  exists out, (surface_estimate range amp nb nc p). split; [exact E|]. rewrite A by lia. destruct (Nat.ltb_spec p nc); [lia|reflexivity].
Qed.
(** False: an echo however strong is discarded when it peaks at cell [nb] (the number of beams) or later *)
Theorem C52_strong_echo_refuted : forall thresh range amp nb nc np p m, (1 <= nb)%nat -> (nc <= np)%nat -> (p < nc)%nat -> (nb <= m < nc)%nat ->
  (forall b i, (b < nb)%nat -> (i < m)%nat -> (amp b i p < amp b m p)%Z) ->
  exists out, find_surface thresh range amp nb nc np = Some out /\ nth p out None = None.
Proof.
  intros thresh range amp nb nc np p m NB NP P M H. destruct (CleanAdp.surface_ok thresh range amp nb nc np NP) as (out & E & _ & A).
  exists out. split; [exact E|]. rewrite A by lia. rewrite CleanAdp.weak_far.
  - destruct (Nat.ltb_spec p nc); [reflexivity|lia].
  - exact NB.
  - intros b B. destruct (CleanAdp.argmax_ge nc (fun c => amp b c p) m) as [G _]; [intros i I; now apply H|lia|lia].
Qed.
Example C52_strong_hyp : forall b i, (b < 1)%nat -> (i < 2)%nat -> ((fun _ c _ => if Nat.eqb c 2 then 200 else 10)%Z b i O < (fun _ c _ => if Nat.eqb c 2 then 200 else 10)%Z b 2%nat O)%Z.
Proof. intros b i B I. cbn [Nat.eqb]. destruct (Nat.eqb_spec i 2); lia. Qed.

(** ** C53 *)
Theorem C53_increasing : forall h p q t s, 0 <= p -> p < q -> t <= 60 -> 0 <= s -> depth_from_P h p t s < depth_from_P h q t s.
Proof. exact CleanAdp.depth_inc. Qed.
Theorem C53_zero_and_offset : forall t s, depth_from_P None 0 t s = 0 /\ forall x p, depth_from_P (Some x) p t s = depth_from_P None p t s + x.
Proof. intros t s. split; [apply CleanAdp.depth_zero|]. intros. apply CleanAdp.depth_offset. Qed.

(** All the theorems of this file, for one listing of axioms. *)
Definition all_theorems :=
  (@C46_range_limit,
   @C46_spike_thresh,
   @C46_val_exceeds_thresh,
   @C47_unmasked_kept,
   @C47_masked_filled_partial,
   @C47_last_filled_partial,
   @C47_last_refuted,
   @C47_linear,
   @C98_long_gap_refuted,
   @C98_short_gap_partial,
   @C48_ensemble_mean,
   @C48_window_too_long,
   @C49_beam_frame,
   @C49_other_frame_partial,
   @C49_good_beams_refuted,
   @C50_beyond_surface,
   @C50_echo,
   @C50_unknown_depth,
   @C50_user_angle_refuted,
   @C50_other_range_refuted,
   @C51_additive,
   @C51_moves_ranges_only,
   @C52_second_estimate_partial,
   @C52_wraparound_refuted,
   @C52_few_pings_refuted,
   @C52_later_pings_refuted,
   @C52_strong_echo_refuted,
   @C53_increasing,
   @C53_zero_and_offset).
Print Assumptions all_theorems.
