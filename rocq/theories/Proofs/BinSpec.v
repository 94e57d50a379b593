(** Spectra, cross spectra and coherences of bins. *)
From Coq Require Import String.
From Coq Require Import Reals List QArith Qround ZArith Bool Lia Lra.
From Verif.Model Require Import Reshape Stats Psd SigData BinSpec.
From Verif.Spec Require Import Reshape Stats Psd BinSpec.
From Verif.Proofs Require Import Reshape Binary64.
From Verif.Proofs Require Stats Psd PsdProps Coherence SpectraWitness Phase.
Import ListNotations.
Open Scope nat_scope.

Notation qn n := (inject_Z (Z.of_nat n)).

(** ** Rows *)
Lemma reshape_windows arr pad n rows : 1 <= n <= length arr -> pad <= 2 * n -> reshape (Some 0%R) arr pad (qn n) = inr rows ->
  length rows = length arr / n /\ forall k, k < length arr / n -> exists w, nth_error rows k = Some w /\ bin_window arr n pad k w.
Proof.
  intros H P E. destruct (reshape_padded_whole (Some 0%R) arr pad n H P) as (out & Eo & [T1 T2] & C).
  cbv zeta in *. assert (out = rows) by congruence. subst out. split; [exact T1|]. intros k Hk.
  destruct (nth_error rows k) as [w|] eqn:W; [|apply nth_error_None in W; lia]. exists w. split; [reflexivity|]. split.
  - apply T2. now apply nth_error_In in W.
  - intros c Hc. specialize (C k c Hk Hc). unfold cell in C. rewrite W in C. exact C.
Qed.
Lemma collect_nth {A B} (f : A -> psd_err + B) l : forall out, collect f l = inr out ->
  length out = length l /\ forall k x, nth_error l k = Some x -> exists y, nth_error out k = Some y /\ f x = inr y.
Proof.
  induction l as [|a l IH]; intros out E; cbn in E.
  - injection E as <-. split; [easy|]. intros [|k] x H; discriminate.
  - destruct (f a) as [e|y] eqn:F; [discriminate|]. destruct (collect f l) as [e|m] eqn:M; [discriminate|]. injection E as <-.
    destruct (IH m eq_refl) as [L N]. split; [cbn; lia|]. intros [|k] x H; cbn in H.
    + injection H as <-. exists y. split; [reflexivity|exact F].
    + apply N in H. exact H.
Qed.
Lemma times_ok b t l : 1 <= bin_len b <= length t -> bin_times b t = inr l -> mean_instants t (bin_len b) (length t / bin_len b) l.
Proof.
  intros H E. destruct (Stats.bin_mean_ok t (bin_len b) H) as (out & Eo & L & M). unfold bin_times in E.
  assert (out = l) by congruence. subst. split; assumption.
Qed.
Lemma freqs_ok n fs u : (0 < fs)%R -> fft_frequencies n (unit_rate fs u) (calc_freq n fs u).
Proof.
  intros H. destruct (SpectraWitness.freq_nth n fs u H) as [L F]. split; [exact L|]. intros k Hk. rewrite (F k Hk). unfold unit_rate. destruct u; reflexivity.
Qed.
Lemma with_coords_inv {A} sh (out : list (list A)) t f r : with_coords sh out t f = inr r ->
  exists l, t = inr l /\ r = Labelled out l f /\ fst sh = length l /\ snd sh = length f.
Proof.
  unfold with_coords. destruct t as [e|l]; [discriminate|]. destruct ((fst sh =? length l) && (snd sh =? length f))%bool eqn:E; [|discriminate].
  intros H. injection H as <-. apply andb_true_iff in E as [E1 E2]. apply Nat.eqb_eq in E1, E2. exists l. repeat split; assumption.
Qed.

(** ** Spectra *)
Lemma written_some {A} (l : list A) : written (map Some l) = l.
Proof. induction l as [|a l IH]; cbn; congruence. Qed.
Lemma written_none {A} (l : list A) n : written (map Some l ++ repeat None n) = l.
Proof. induction l as [|a l IH]; cbn; [|congruence]. induction n; cbn; auto. Qed.
Lemma noise_length out noise fs : length (noise_correct out noise fs) = length out.
Proof. unfold noise_correct. destruct (Req_EM_T noise 0); [reflexivity|]. now rewrite !map_length. Qed.
Lemma chunks_of_concat {A} m (rows : list (list A)) : (forall r, In r rows -> length r = m) -> chunks m (length rows) (concat rows) = rows.
Proof.
  induction rows as [|r rows IH]; intros H; [reflexivity|]. cbn [length chunks concat].
  assert (L : length r = m) by (apply H; left; reflexivity). rewrite <- L at 1.
  rewrite firstn_app, firstn_all, Nat.sub_diag. cbn [firstn]. rewrite app_nil_r. f_equal.
  rewrite <- L at 2. rewrite skipn_app, skipn_all, Nat.sub_diag. cbn [skipn app]. apply IH. intros x Hx. apply H. now right.
Qed.
Lemma psd_len a nfft fs win step p : nfft <= length a -> psd a nfft fs win step = inr p -> length p = nfft / 2.
Proof.
  intros L. unfold psd, cpsd, stepsize. replace (length a <? nfft) with false by (symmetry; apply Nat.ltb_ge; lia).
  assert (G : forall (st : list nat) w (f : option (R * R) -> option (R * R)),
     length (map f (sum_spectra (nfft / 2) (map (fun i => map (option_map (fun s => (cabs2 s, 0%R))) (segment_fft a w nfft i)) st))) = nfft / 2).
  { intros st w f. rewrite map_length. unfold sum_spectra.
    assert (F : forall l g, length g = nfft / 2 -> (forall x, In x l -> length x = nfft / 2) -> length (fold_left (map2 (olift2 cadd)) l g) = nfft / 2).
    { induction l as [|x l IH]; intros g Lg Hx; [exact Lg|]. cbn [fold_left]. apply IH; [|intros; apply Hx; now right].
      assert (M : forall (c d : list (option (R * R))), length c = length d -> length (map2 (olift2 cadd) c d) = length c).
      { induction c as [|a0 c IHc]; intros [|b0 d] E; cbn in *; try lia. rewrite IHc; lia. }
      rewrite M; [exact Lg|]. rewrite Lg. symmetry. apply Hx. now left. }
    apply F; [apply repeat_length|]. intros x Hx. apply in_map_iff in Hx as (i & <- & _). rewrite map_length. unfold segment_fft. now rewrite map_length, seq_length. }
  destruct step as [[|s]|]; [discriminate| |].
  - destruct (getwindow win nfft) as [e|w]; [discriminate|]. destruct (segments _ _ _ _) as [e|st] eqn:S; [discriminate|].
    intros E. injection E as <-. rewrite map_length. apply G.
  - destruct (length a =? nfft) eqn:Eq.
    + destruct (getwindow win nfft) as [e|w]; [discriminate|]. destruct (segments _ _ _ _) as [e|st] eqn:S; [discriminate|].
      intros E. injection E as <-. rewrite map_length. apply G.
    + destruct nfft as [|n']; [discriminate|]. set (nfft := S n') in *. destruct (getwindow win nfft) as [e|w]; [discriminate|]. destruct (segments _ _ _ _) as [e|st] eqn:S; [discriminate|].
      intros E. injection E as <-. rewrite map_length. apply G.
Qed.

Section Spectrum.
Context (b : binner) (u : units) (t dat : list (option R)) (win : window).
Context (Hb : 1 <= bin_len b <= length dat) (Hf : fft_len b <= bin_len b) (Ht : length t = length dat) (Hr : (0 < rate b)%R).
Let n := bin_len b. Let nf := fft_len b. Let nb := length dat / n. Let pad := Nat.min (n - nf) nf.
Let fs := unit_rate (rate b) u.

Lemma parse_self : parse_nfft b (Some nf) = nf.
Proof. unfold parse_nfft. replace (bin_len b <? nf) with false; [reflexivity|]. symmetry. apply Nat.ltb_ge. exact Hf. Qed.

Lemma psd_lines_ok noise sh rows : psd_lines b fs dat win noise None (Some nf) None None = inr (sh, rows) ->
  sh = nb /\ exists raw, calc_psd_base n (fft_len b) fs dat win None (Some nf) None None = inr (map Some raw) /\ rows = chunks (nf / 2) nb (noise_correct (concat raw) noise fs) /\ length raw = nb /\ (forall r, In r raw -> length r = nf / 2) /\
    forall k, k < nb -> exists w p, bin_window dat n pad k w /\ psd w nf fs win None = inr p /\ nth_error raw k = Some p.
Proof.
  unfold psd_lines, calc_psd_base. fold n. replace (n <? nf) with false by (symmetry; apply Nat.ltb_ge; exact Hf).
  fold nf. fold pad. destruct (reshape (Some 0%R) dat pad (qn n)) as [e|rs] eqn:E; [discriminate|].
  destruct (reshape_windows dat pad n rs Hb ltac:(unfold pad; lia) E) as [L W].
  destruct (collect _ rs) as [e|sp] eqn:Cs; [discriminate|]. destruct (collect_nth _ _ _ Cs) as [Ls Ns].
  fold nb in L, W |- *. rewrite Ls, L, Nat.ltb_irrefl, Nat.sub_diag. cbn [repeat]. rewrite app_nil_r, written_some, map_length, parse_self.
  intros H. assert (E1 : length sp = sh) by congruence. assert (E2 : chunks (nf / 2) (length sp) (noise_correct (concat sp) noise fs) = rows) by congruence.
  clear H. subst sh rows. split; [lia|]. exists sp. split; [reflexivity|]. rewrite Ls, L. split; [reflexivity|]. split; [lia|]. split.
  - intros r Hin. apply In_nth_error in Hin as [k Hk]. assert (k < length sp) by (apply nth_error_Some; congruence).
    destruct (W k ltac:(lia)) as (w & Hw & [Lw _]). destruct (Ns k w Hw) as (y & Hy & P). assert (y = r) by congruence. subst y.
    apply (psd_len w nf fs win None); [unfold n in Lw; lia|exact P].
  - intros k Hk. destruct (W k Hk) as (w & Hw & B). destruct (Ns k w Hw) as (y & Hy & P). exists w, y. split; [exact B|]. split; assumption.
Qed.

Theorem psd_ok noise r : calc_psd b u None t dat win noise None None None None = inr r ->
  length (estimates r) = nb /\ mean_instants t n nb (instants r) /\ fft_frequencies nf fs (freqs r).
Proof.
  unfold calc_psd. change (parse_nfft b None) with nf. fold fs. destruct (psd_lines _ _ _ _ _ _ _ _ _) as [e|[sh rows]] eqn:E; [discriminate|].
  destruct (psd_lines_ok _ _ _ E) as [-> (raw & Rb & -> & Lr & _)]. intros H. apply with_coords_inv in H as (l & T & -> & E1 & E2).
  cbn [estimates instants freqs fst snd] in *. split; [apply chunks_len|]. split.
  - unfold nb. rewrite <- Ht. apply times_ok; [rewrite Ht; exact Hb|exact T].
  - apply freqs_ok. exact Hr.
Qed.
Theorem psd_plain noise r : (noise = None \/ noise = Some 0%R) -> calc_psd b u None t dat win noise None None None None = inr r ->
  forall k, k < nb -> exists w p, bin_window dat n pad k w /\ psd w nf fs win None = inr p /\ nth_error (estimates r) k = Some p.
Proof.
  intros Hn. unfold calc_psd. change (parse_nfft b None) with nf. fold fs. destruct (psd_lines _ _ _ _ _ _ _ _ _) as [e|[sh rows]] eqn:E; [discriminate|].
  destruct (psd_lines_ok _ _ _ E) as [-> (raw & Rb & -> & Lr & Rl & V)]. intros H. apply with_coords_inv in H as (l & T & -> & E1 & E2).
  cbn [estimates]. replace (match noise with None => 0%R | Some x => x end) with 0%R by (destruct Hn; subst; reflexivity).
  rewrite PsdProps.noise_zero, <- Lr, chunks_of_concat by exact Rl. rewrite Lr. exact V.
Qed.

Lemma some_inj {A} (x y : list A) : map Some x = map Some y -> x = y.
Proof. revert y. induction x as [|a x IH]; intros [|c y] H; cbn in H; try congruence. injection H as -> H. f_equal. auto. Qed.
Lemma estimate_chunks (m k j : nat) (l : list (option R)) : k < nb -> j < m -> estimate (chunks m nb l) k j = nth_error l (k * m + j).
Proof. intros Hk Hj. exact (chunk_cell m nb l k j Hk Hj). Qed.
Lemma estimate_lt m k j (l : list (option R)) x : estimate (chunks m nb l) k j = Some x -> k < nb /\ j < m.
Proof.
  unfold estimate. destruct (nth_error (chunks m nb l) k) as [r|] eqn:E; [|discriminate]. intros H.
  assert (K : k < nb). { rewrite <- (chunks_len m nb l). apply nth_error_Some. congruence. }
  split; [exact K|]. rewrite (chunk_nth m nb l k K) in E. injection E as <-.
  assert (j < length (firstn m (skipn (k * m) l))) by (apply nth_error_Some; congruence). rewrite firstn_length in H0. lia.
Qed.
(** the estimates with noise are the corrected ones *)
Lemma psd_noise noise r r0 : calc_psd b u None t dat win (Some noise) None None None None = inr r ->
  calc_psd b u None t dat win None None None None None = inr r0 ->
  exists out, estimates r0 = chunks (nf / 2) nb out /\ estimates r = chunks (nf / 2) nb (noise_correct out noise fs).
Proof.
  unfold calc_psd. change (parse_nfft b None) with nf. fold fs. destruct (psd_lines b fs dat win noise _ _ _ _) as [e|[sh rows]] eqn:E; [discriminate|].
  destruct (psd_lines_ok _ _ _ E) as [-> (raw & Rb & -> & Lr & Rl & V)]. intros H. apply with_coords_inv in H as (l & T & -> & E1 & E2).
  destruct (psd_lines b fs dat win 0 _ _ _ _) as [e|[sh rows]] eqn:E'; [discriminate|].
  destruct (psd_lines_ok _ _ _ E') as [-> (raw' & Rb' & -> & Lr' & Rl' & V')]. intros H. apply with_coords_inv in H as (l' & T' & -> & E1' & E2').
  assert (raw' = raw) by (apply some_inj; congruence). subst raw'. exists (concat raw). cbn [estimates].
  rewrite PsdProps.noise_zero. split; reflexivity.
Qed.
Theorem psd_noise_above noise r r0 k j x : noise <> 0%R -> calc_psd b u None t dat win (Some noise) None None None None = inr r ->
  calc_psd b u None t dat win None None None None None = inr r0 -> estimate (estimates r0) k j = Some (Some x) ->
  (noise * noise / (fs / 2) <= x)%R -> estimate (estimates r) k j = Some (Some (x - noise * noise / (fs / 2))%R).
Proof.
  intros N E E0 X L. destruct (psd_noise _ _ _ E E0) as (out & G0 & G). rewrite G0 in X. rewrite G. destruct (estimate_lt _ _ _ _ _ X) as [Hk Hj].
  rewrite estimate_chunks in X |- * by assumption. now apply PsdProps.noise_above.
Qed.
Theorem psd_noise_nonneg noise r k j x : noise <> 0%R -> calc_psd b u None t dat win (Some noise) None None None None = inr r ->
  estimate (estimates r) k j = Some (Some x) -> (0 <= x)%R.
Proof.
  intros N. unfold calc_psd. change (parse_nfft b None) with nf. fold fs. destruct (psd_lines _ _ _ _ _ _ _ _ _) as [e|[sh rows]] eqn:E; [discriminate|].
  destruct (psd_lines_ok _ _ _ E) as [-> (raw & Rb & -> & Lr & Rl & V)]. intros H. apply with_coords_inv in H as (l & T & -> & E1 & E2).
  cbn [estimates]. intros X. destruct (estimate_lt _ _ _ _ _ X) as [Hk Hj]. rewrite estimate_chunks in X by assumption.
  now apply PsdProps.noise_nonneg in X.
Qed.
End Spectrum.

(** ** Units *)
Section Units.
Context (c : R) (Hc : (0 < c)%R).
Notation sc := (option_map (Rmult (/ c))).

Lemma weight_unit w nens fs : (0 < fs)%R -> weight w nens (c * fs) = sc (weight w nens fs).
Proof.
  intros Hf. unfold weight, odiv. set (W := (rsum (map (fun x => x * x)%R w) * INR nens)%R).
  destruct (Req_EM_T (W * fs) 0) as [Z|Z]; destruct (Req_EM_T (W * (c * fs)) 0) as [Z'|Z']; cbn [option_map].
  - reflexivity.
  - exfalso. apply Z'. replace (W * (c * fs))%R with (c * (W * fs))%R by ring. rewrite Z. ring.
  - exfalso. apply Z. apply Rmult_integral in Z' as [-> | Z']; [ring|]. apply Rmult_integral in Z' as [H|H]; lra.
  - f_equal. field. assert (W <> 0)%R by (intros H; apply Z; rewrite H; ring). lra.
Qed.
Lemma cabs_unit w z : cabs (cscale (/ c * w) z) = (/ c * cabs (cscale w z))%R.
Proof.
  unfold cabs. replace (cabs2 (cscale (/ c * w) z)) with ((/ c) * (/ c) * cabs2 (cscale w z))%R by (unfold cabs2, cscale; cbn; ring).
  assert (0 < / c)%R by now apply Rinv_0_lt_compat. rewrite sqrt_mult; [|nra|unfold cabs2; nra]. rewrite sqrt_square by lra. reflexivity.
Qed.
Lemma psd_unit a nfft fs win step : (0 < fs)%R -> psd a nfft (c * fs) win step =
  match psd a nfft fs win step with inl e => inl e | inr p => inr (map sc p) end.
Proof.
  intros Hf. unfold psd, cpsd. destruct (stepsize (length a) nfft None step) as [e|[[s n] f]]; [reflexivity|].
  destruct (getwindow win f) as [e|w]; [reflexivity|]. destruct (segments (length a) s n f) as [e|st]; [reflexivity|].
  rewrite weight_unit by exact Hf. f_equal. rewrite !map_map. apply map_ext. intros z.
  destruct (weight w n fs) as [v|], z as [z|]; cbn [option_map olift2]; try reflexivity. f_equal. apply cabs_unit.
Qed.
Lemma collect_unit nfft fs win step (rows : list (list (option R))) : (0 < fs)%R -> collect (fun r => psd r nfft (c * fs) win step) rows =
  match collect (fun r => psd r nfft fs win step) rows with inl e => inl e | inr o => inr (map (map sc) o) end.
Proof.
  intros Hf. induction rows as [|r rows IH]; [reflexivity|]. cbn [collect]. rewrite psd_unit by exact Hf.
  destruct (psd r nfft fs win step) as [e|p]; [reflexivity|]. rewrite IH. destruct (collect (fun r => psd r nfft fs win step) rows) as [e|o]; reflexivity.
Qed.
Lemma base_unit nb nf fs dat win n_bin n_fft n_pad step : (0 < fs)%R -> calc_psd_base nb nf (c * fs) dat win n_bin n_fft n_pad step =
  match calc_psd_base nb nf fs dat win n_bin n_fft n_pad step with inl e => inl e | inr o => inr (map (option_map (map sc)) o) end.
Proof.
  intros Hf. unfold calc_psd_base. destruct (reshape _ _ _ _) as [e|rows]; [reflexivity|].
  rewrite collect_unit by exact Hf. destruct (collect _ rows) as [e|o]; [reflexivity|]. rewrite map_length.
  destruct (_ <? length o); [reflexivity|]. f_equal. rewrite map_app. f_equal.
  - rewrite !map_map. reflexivity.
  - clear. induction (_ - length o); cbn; congruence.
Qed.
Lemma rmin_unit l : rmin (map (Rmult (/ c)) l) = sc (rmin l).
Proof.
  destruct l as [|x l]; [reflexivity|]. cbn [map rmin option_map]. f_equal. revert x.
  assert (P : (0 < / c)%R) by now apply Rinv_0_lt_compat.
  induction l as [|y l IH]; intros x; [reflexivity|]. cbn [map fold_left]. rewrite <- IH. f_equal.
  unfold Rmin. destruct (Rle_dec (/ c * x) (/ c * y)), (Rle_dec x y); try reflexivity.
  - apply Rmult_le_reg_l in r; [|exact P]. contradiction.
  - exfalso. apply n. apply Rmult_le_compat_l; lra.
Qed.
Lemma all_some_unit l : all_some (map sc l) = option_map (map (Rmult (/ c))) (all_some l).
Proof. induction l as [|[x|] l IH]; cbn; [reflexivity| |reflexivity]. rewrite IH. destruct (all_some l); reflexivity. Qed.
Lemma noise_unit out noise fs : (0 < fs)%R -> noise_correct (map sc out) noise (c * fs) = map sc (noise_correct out noise fs).
Proof.
  intros Hf. assert (P : (0 < / c)%R) by now apply Rinv_0_lt_compat.
  unfold noise_correct. destruct (Req_EM_T noise 0) as [|_]; [reflexivity|].
  assert (E : map (fun p => osub p (Some (noise * noise / (c * fs / 2))%R)) (map sc out) =
              map sc (map (fun p => osub p (Some (noise * noise / (fs / 2))%R)) out)).
  { rewrite !map_map. apply map_ext. intros [x|]; [|reflexivity]. cbn. f_equal. field. lra. }
  rewrite E. set (o := map (fun p => osub p (Some (noise * noise / (fs / 2))%R)) out).
  assert (A : map (option_map Rabs) (map sc o) = map sc (map (option_map Rabs) o)).
  { rewrite !map_map. apply map_ext. intros [x|]; [|reflexivity]. cbn. f_equal. rewrite Rabs_mult, (Rabs_right (/ c)) by lra. reflexivity. }
  rewrite A, all_some_unit.
  set (fl := match all_some (map (option_map Rabs) o) with Some l => option_map (fun m => (m / 100)%R) (rmin l) | None => None end).
  assert (F : match option_map (map (Rmult (/ c))) (all_some (map (option_map Rabs) o)) with
              | Some l => option_map (fun m => (m / 100)%R) (rmin l) | None => None end = sc fl).
  { unfold fl. destruct (all_some _) as [l|]; [|reflexivity]. cbn [option_map]. rewrite rmin_unit. destruct (rmin l); [|reflexivity]. cbn. f_equal. field. lra. }
  rewrite F. rewrite !map_map. apply map_ext. intros [x|]; [|reflexivity]. cbn [option_map].
  destruct (Rlt_dec (/ c * x) 0), (Rlt_dec x 0); try reflexivity; exfalso; nra.
Qed.
Lemma chunks_map {A B} (f : A -> B) m nb : forall l, chunks m nb (map f l) = map (map f) (chunks m nb l).
Proof. induction nb as [|nb IH]; intros l; [reflexivity|]. cbn [chunks map]. now rewrite firstn_map, skipn_map, IH. Qed.
Lemma written_map {A B} (f : A -> B) l : written (map (option_map f) l) = map f (written l).
Proof. induction l as [|[a|] l IH]; cbn; congruence. Qed.
Lemma lines_unit b fs dat win noise n_bin n_fft n_pad step : (0 < fs)%R ->
  psd_lines b (c * fs) dat win noise n_bin n_fft n_pad step =
  match psd_lines b fs dat win noise n_bin n_fft n_pad step with inl e => inl e | inr (n, rows) => inr (n, map (map sc) rows) end.
Proof.
  intros Hf. unfold psd_lines. rewrite base_unit by exact Hf. destruct (calc_psd_base _ _ _ _ _ _ _ _ _) as [e|o]; [reflexivity|].
  rewrite map_length, written_map, map_length.
  replace (concat (map (map sc) (written o))) with (map sc (concat (written o))) by (now rewrite concat_map).
  rewrite noise_unit by exact Hf. now rewrite chunks_map.
Qed.
End Units.

Lemma freq_unit n fs : (0 < fs)%R -> calc_freq n fs RadPerS = map (Rmult (2 * PI)) (calc_freq n fs Hz).
Proof.
  intros H. pose proof PI_RGT_0. rewrite !PsdProps.calc_freq_is by assumption. rewrite map_map. apply map_ext. intros k. unfold Rdiv. ring.
Qed.
Theorem psd_units b fs t dat win noise n_bin n_fft n_pad step r :
  (0 < match fs with None => rate b | Some f => f end)%R ->
  calc_psd b Hz fs t dat win noise n_bin n_fft n_pad step = inr r ->
  calc_psd b RadPerS fs t dat win noise n_bin n_fft n_pad step =
  inr (Labelled (map (map (option_map (fun x => x / (2 * PI))%R)) (estimates r)) (instants r) (map (Rmult (2 * PI)) (freqs r))).
Proof.
  intros Hf. unfold calc_psd. set (f := match fs with None => rate b | Some f => f end) in *. cbn [unit_rate].
  pose proof PI_RGT_0. rewrite lines_unit by lra. destruct (psd_lines b f dat _ _ _ _ _ _) as [e|[n rows]]; [discriminate|].
  intros E. apply with_coords_inv in E as (l & T & -> & E1 & E2). cbn [estimates instants freqs fst snd] in *.
  unfold with_coords. rewrite T. rewrite freq_unit by exact Hf. rewrite map_length. cbn [fst snd]. rewrite <- E1, <- E2, !Nat.eqb_refl. cbn [andb].
  do 2 f_equal. apply map_ext. intros row. apply map_ext. intros [x|]; [|reflexivity]. cbn. f_equal. unfold Rdiv. ring.
Qed.

(** ** Another bin size *)
Lemma base_length nb nf fs dat win n_bin n_fft n_pad step o : calc_psd_base nb nf fs dat win n_bin n_fft n_pad step = inr o ->
  length o = length dat / match n_bin with Some n => n | None => nb end.
Proof.
  unfold calc_psd_base. destruct (reshape _ _ _ _) as [e|rows]; [discriminate|]. destruct (collect _ rows) as [e|sp]; [discriminate|].
  destruct (_ <? length sp) eqn:L; [discriminate|]. apply Nat.ltb_ge in L. intros E. injection E as <-.
  rewrite app_length, map_length, repeat_length. lia.
Qed.
Lemma times_length b t l : 1 <= bin_len b <= length t -> bin_times b t = inr l -> length l = length t / bin_len b.
Proof. intros H E. now apply times_ok in E as [L _]. Qed.
Theorem psd_nbin_count b u fs t dat win noise n' n_fft n_pad step r : 1 <= bin_len b <= length t ->
  calc_psd b u fs t dat win noise (Some n') n_fft n_pad step = inr r -> length dat / n' = length t / bin_len b.
Proof.
  intros H. unfold calc_psd, psd_lines. destruct (calc_psd_base _ _ _ _ _ _ _ _ _) as [e|o] eqn:E; [discriminate|].
  apply base_length in E. intros W. apply with_coords_inv in W as (l & T & _ & E1 & _). apply times_length in T; [|exact H].
  cbn [fst] in E1. lia.
Qed.
Theorem psd_nbin_ignored b u fs t dat win noise n' n_fft p step r : 1 <= bin_len b <= length t -> length t = length dat ->
  calc_psd b u fs t dat win noise (Some n') n_fft (Some p) step = inr r ->
  calc_psd b u fs t dat win noise None n_fft (Some p) step = inr r.
Proof.
  intros H Ht W. pose proof (psd_nbin_count _ _ _ _ _ _ _ _ _ _ _ _ H W) as C. rewrite <- W.
  unfold calc_psd, psd_lines, calc_psd_base. rewrite C, Ht. reflexivity.
Qed.

Lemma gather_nth {A E} (l : list (E + A)) : forall r, gather l = inr r -> length r = length l /\ forall k x, nth_error r k = Some x -> nth_error l k = Some (inr x).
Proof.
  induction l as [|[e|x] l IH]; intros r H; cbn in H.
  - injection H as <-. split; [easy|]. intros [|k] x; discriminate.
  - discriminate.
  - destruct (gather l) as [e|r']; [discriminate|]. injection H as <-. destruct (IH r' eq_refl) as [L N]. split; [cbn; lia|].
    intros [|k] y Hy; cbn in Hy |- *; [congruence|auto].
Qed.
Lemma gather_all {A E} (l : list (E + A)) : forall r, gather l = inr r -> forall k x, nth_error l k = Some x -> exists y, x = inr y /\ nth_error r k = Some y.
Proof.
  induction l as [|[e|x] l IH]; intros r H k z Hz; cbn in H.
  - destruct k; discriminate.
  - discriminate.
  - destruct (gather l) as [e|r']; [discriminate|]. injection H as <-. destruct k as [|k]; cbn in Hz |- *.
    + injection Hz as <-. exists x. auto.
    + eapply IH; [reflexivity|exact Hz].
Qed.
Theorem psd_vel_ok b u fs t vel win noise n_bin n_fft n_pad step rs : calc_psd_vel b u fs t vel win noise n_bin n_fft n_pad step = inr rs ->
  length vel = 3 /\ length rs = 3 /\ forall i v nz, nth_error vel i = Some v ->
    nth_error (match noise with None => [0; 0; 0]%R | Some l => l end) i = Some nz ->
    exists r, nth_error rs i = Some r /\ calc_psd b u fs t v win (Some nz) n_bin n_fft n_pad step = inr r.
Proof.
  unfold calc_psd_vel. destruct (Nat.eqb_spec (length vel) 3) as [L|]; [|discriminate].
  set (nz := match noise with None => [0; 0; 0]%R | Some l => l end). destruct (Nat.eqb_spec (length nz) 3) as [Ln|]; [|discriminate].
  intros G. split; [exact L|].
  destruct vel as [|v1 [|v2 [|v3 [|]]]]; try discriminate L. clearbody nz. destruct nz as [|n1 [|n2 [|n3 [|]]]]; try discriminate Ln.
  split; [exact (proj1 (gather_nth _ _ G))|].
  intros i v z Hv Hz. pose proof (gather_all _ _ G) as A. cbn [map2] in A.
  destruct i as [|[|[|i]]]; cbn in Hv, Hz; try (destruct i; discriminate); injection Hv as ->; injection Hz as ->.
  - destruct (A 0 _ eq_refl) as (y & Ey & Ny). exists y. auto.
  - destruct (A 1 _ eq_refl) as (y & Ey & Ny). exists y. auto.
  - destruct (A 2 _ eq_refl) as (y & Ey & Ny). exists y. auto.
Qed.

(** ** Two lines *)
Lemma fill_nth {A} nf (f : list (option R) * list (option R) -> psd_err + list A) l out : fill nf f l = inr out ->
  length out = length l /\ forall k p, nth_error l k = Some p -> exists r, nth_error out k = Some r /\ f p = inr r.
Proof.
  unfold fill. destruct (collect f l) as [e|o] eqn:E; [discriminate|]. destruct (forallb _ o); [|discriminate]. intros H. injection H as <-.
  exact (collect_nth _ _ _ E).
Qed.
Lemma paired_nth {A} rows (r1 r2 : list A) k x y : k < rows -> nth_error r1 k = Some x -> nth_error r2 k = Some y -> nth_error (paired rows r1 r2) k = Some (x, y).
Proof.
  intros H A1 A2. unfold paired. rewrite firstn_nth by exact H. revert r2 k H A1 A2.
  induction r1 as [|a r1 IH]; intros r2 k H A1 A2; [destruct k; discriminate|]. destruct r2 as [|c r2]; [destruct k; discriminate|].
  destruct k as [|k]; cbn in *; [congruence|]. apply (IH r2 k); [lia|exact A1|exact A2].
Qed.
Lemma paired_len {A} rows (r1 r2 : list A) : length (paired rows r1 r2) = Nat.min rows (Nat.min (length r1) (length r2)).
Proof. unfold paired. rewrite firstn_length, combine_length. reflexivity. Qed.


Lemma reshape_fits (arr : list (option R)) pad n rows : reshape (Some 0%R) arr pad (qn n) = inr rows -> n <= length arr.
Proof.
  intros E. destruct (Nat.le_gt_cases n (length arr)) as [|H]; [easy|exfalso].
  rewrite reshape_too_short in E; [discriminate|]. rewrite <- Zlt_Qlt. lia.
Qed.

Theorem paired_bins_ok {A} (f : list (option R) -> list (option R) -> nat -> psd_err + list A) b d1 d2 t2 n_fft n_bin r :
  let n2 := or_bin b n_bin in let nf := match n_fft with None => coh_len b | Some n => n end in
  let n1 := first_bin (length d1) (length d2) n2 in
  let nb := Nat.min (length d1 / n1) (length d2 / n2) in
  1 <= bin_len b <= length t2 -> nf <= 2 * n1 -> nf <= 2 * n2 -> (0 < rate b)%R ->
  paired_bins f b d1 d2 t2 n_fft n_bin = inr r ->
  length d2 <= length d1 /\ 1 <= n1 /\ 1 <= n2 /\ length (estimates r) = nb /\ nb = length t2 / bin_len b /\
  mean_instants t2 (bin_len b) nb (instants r) /\ fft_frequencies (coh_len b) (rate b) (freqs r) /\
  forall k, k < nb -> exists w1 w2 row, bin_window d1 n1 nf k w1 /\ bin_window d2 n2 nf k w2 /\
    f w1 w2 nf = inr row /\ nth_error (estimates r) k = Some row.
Proof.
  intros n2 nf n1 nb Ht P1 P2 Hr. unfold paired_bins. fold n2 nf n1 nb.
  destruct (Nat.ltb_spec (length d1) (length d2)) as [|Hl]; [discriminate|].
  destruct (Nat.eqb_spec (length d2) 0) as [|Z0]; [discriminate|]. destruct (Nat.eqb_spec n2 0) as [|Z2]; [discriminate|]. cbn [orb].
  destruct (Nat.eqb_spec n1 0) as [|Z1]; [discriminate|].
  destruct (reshape _ d1 nf (qn n1)) as [e|r1] eqn:E1; [discriminate|]. destruct (reshape _ d2 nf (qn n2)) as [e|r2] eqn:E2; [discriminate|].
  pose proof (reshape_fits _ _ _ _ E1) as L1. pose proof (reshape_fits _ _ _ _ E2) as L2.
  destruct (reshape_windows d1 nf n1 r1 ltac:(lia) P1 E1) as [R1 W1]. destruct (reshape_windows d2 nf n2 r2 ltac:(lia) P2 E2) as [R2 W2].
  destruct (fill _ _ _) as [e|out] eqn:F; [discriminate|]. apply fill_nth in F as [Lo No]. rewrite paired_len, R1, R2 in Lo. fold nb in Lo.
  intros H. apply with_coords_inv in H as (l & T & -> & S1 & S2). cbn [estimates instants freqs fst snd] in *.
  pose proof (times_ok b t2 l Ht T) as MT. assert (Nb : nb = length t2 / bin_len b) by (destruct MT as [ML _]; lia).
  split; [exact Hl|]. split; [lia|]. split; [lia|]. split; [lia|]. split; [exact Nb|]. split; [rewrite Nb; exact MT|]. split; [apply (freqs_ok _ _ Hz); exact Hr|].
  intros k Hk. destruct (W1 k ltac:(lia)) as (w1 & N1 & B1). destruct (W2 k ltac:(lia)) as (w2 & N2 & B2).
  destruct (No k (w1, w2) (paired_nth nb r1 r2 k w1 w2 Hk N1 N2)) as (row & Nr & Fr). exists w1, w2, row. repeat split; try assumption; apply B1 || apply B2.
Qed.

Theorem paired_fft_count {A} (f : list (option R) -> list (option R) -> nat -> psd_err + list A) b d1 d2 t2 c n_bin r :
  (0 < rate b)%R -> c <= bin_len b -> paired_bins f b d1 d2 t2 (Some c) n_bin = inr r -> c / 2 = coh_len b / 2.
Proof.
  intros Hr Hc. unfold paired_bins. destruct (_ <? _); [discriminate|]. destruct (_ || _)%bool; [discriminate|]. destruct (_ =? 0); [discriminate|].
  destruct (reshape _ d1 _ _); [discriminate|]. destruct (reshape _ d2 _ _); [discriminate|]. destruct (fill _ _ _); [discriminate|].
  intros H. apply with_coords_inv in H as (l' & _ & _ & _ & S2). cbn [snd] in S2.
  destruct (freqs_ok (coh_len b) (rate b) Hz Hr) as [L _]. rewrite L in S2. unfold parse_nfft in S2.
  destruct (Nat.ltb_spec (bin_len b) c); [lia|exact S2].
Qed.
Theorem paired_shorter {A} (f : list (option R) -> list (option R) -> nat -> psd_err + list A) b d1 d2 t2 c n_bin :
  length d1 < length d2 -> paired_bins f b d1 d2 t2 c n_bin = inl FirstShorter.
Proof. intros H. unfold paired_bins. now rewrite (proj2 (Nat.ltb_lt _ _) H). Qed.

(** ** Cross spectra *)
Lemma quasi_cpsd w1 w2 n fs win : length w1 = length w2 -> cpsd_quasisync w1 w2 n fs win = cpsd false w1 w2 n fs win None.
Proof. intros H. unfold cpsd_quasisync. now rewrite H, Nat.eqb_refl. Qed.
Theorem csd_ok b u fs t vel win n_bin n_coh rs : let n := bin_len b in let nf := parse_nfft_coh b n_coh in
  let f0 := match fs with None => rate b | Some f => f end in
  let nb := length t / n in
  1 <= n <= length t -> (forall v, In v vel -> length v = length t) -> (0 < f0)%R -> coh_len b <= bin_len b ->
  calc_csd b u fs t vel win n_bin n_coh = inr rs ->
  3 <= length vel /\ length rs = 3 /\
  forall i p v1 v2, nth_error cross_pairs i = Some p -> nth_error vel (fst p) = Some v1 -> nth_error vel (snd p) = Some v2 ->
    exists r, nth_error rs i = Some r /\ length (estimates r) = nb /\ nb = length t / or_bin b n_bin /\
      mean_instants t n nb (instants r) /\ fft_frequencies nf (unit_rate f0 u) (freqs r) /\
      forall k, k < nb -> exists w1 w2 row, bin_window v1 n nf k w1 /\ bin_window v2 n nf k w2 /\
        cpsd false w1 w2 nf (unit_rate f0 u) win None = inr row /\ nth_error (estimates r) k = Some row.
Proof.
  intros n nf f0 nb Ht Lv Hf Hc. unfold calc_csd. fold f0 nf. destruct (Nat.ltb_spec (length vel) 3) as [|H3]; [discriminate|].
  intros G. split; [exact H3|]. destruct (gather_nth _ _ G) as [Lr Nr]. split; [exact Lr|].
  assert (Hnf : nf <= n). { unfold nf, parse_nfft_coh. destruct n_coh as [c|]; [|exact Hc]. destruct (Nat.ltb_spec (bin_len b) c); unfold n; lia. }
  intros i p v1 v2 Hp Hv1 Hv2. destruct (gather_all _ _ G i _ (map_nth_error _ _ _ Hp)) as (r & Er & Hr). exists r. split; [exact Hr|].
  rewrite (nth_error_nth vel _ _ Hv1), (nth_error_nth vel _ _ Hv2) in Er.
  pose proof (Lv v1 (nth_error_In _ _ Hv1)) as L1. pose proof (Lv v2 (nth_error_In _ _ Hv2)) as L2.
  destruct (calc_csd_base b v1 v2 (unit_rate f0 u) win (Some nf) n_bin) as [e|[[rows m] out]] eqn:E; [discriminate|].
  destruct ((rows =? length v1 / or_bin b n_bin) && _)%bool eqn:Sh; [|discriminate]. apply andb_true_iff in Sh as [Sh _]. apply Nat.eqb_eq in Sh.
  apply with_coords_inv in Er as (l & T & -> & S1 & S2). cbn [estimates instants freqs fst snd] in *.
  pose proof (times_ok b t l Ht T) as MT. assert (Nb : rows = nb) by (destruct MT as [ML _]; unfold nb, n; lia).
  unfold calc_csd_base in E. destruct (_ || _)%bool; [discriminate|]. destruct (_ =? 0); [discriminate|]. fold n in E.
  destruct (reshape _ v1 nf (qn n)) as [e|r1] eqn:E1; [discriminate|]. destruct (reshape _ v2 nf (qn n)) as [e|r2] eqn:E2; [discriminate|].
  destruct (reshape_windows v1 nf n r1 ltac:(lia) ltac:(lia) E1) as [R1 W1]. destruct (reshape_windows v2 nf n r2 ltac:(lia) ltac:(lia) E2) as [R2 W2].
  rewrite L1 in R1, W1. rewrite L2 in R2, W2. fold nb in R1, W1, R2, W2.
  set (rw := Nat.min _ _) in E. destruct (_ <? rw); [discriminate|]. destruct (fill _ _ _) as [e|o] eqn:F; [discriminate|].
  assert (rw = rows) by congruence. assert (o = out) by congruence. clear E. subst o. rewrite H in F. clear rw H. rewrite Nb in F.
  apply fill_nth in F as [Lo No]. rewrite paired_len, R1, R2, !Nat.min_id in Lo.
  split; [exact Lo|]. split; [rewrite <- Nb, Sh, L1; reflexivity|]. split; [exact MT|]. split; [apply freqs_ok; exact Hf|].
  intros k Hk. destruct (W1 k Hk) as (w1 & N1 & B1). destruct (W2 k Hk) as (w2 & N2 & B2).
  destruct (No k (w1, w2) (paired_nth nb r1 r2 k w1 w2 Hk N1 N2)) as (row & Nrow & Fr). cbn [fst snd] in Fr.
  rewrite quasi_cpsd in Fr by (destruct B1, B2; congruence). exists w1, w2, row. repeat split; try assumption; apply B1 || apply B2.
Qed.

(** ** Noise levels of a coherence *)
Lemma step_same l nfft s n f s2 n2 f2 : stepsize l nfft None None = inr (s, n, f) -> stepsize l f (Some n) None = inr (s2, n2, f2) ->
  s2 = s /\ n2 = n /\ f2 = f.
Proof.
  unfold stepsize. set (g := if l <? nfft then l else nfft).
  assert (G : g <= l) by (unfold g; destruct (Nat.ltb_spec l nfft); lia).
  destruct (Nat.eqb_spec l g) as [E|E].
  - intros H H2. injection H as <- <- <-. rewrite <- E in H2. rewrite Nat.ltb_irrefl in H2. injection H2 as <- <- <-. rewrite <- E. auto.
  - destruct g as [|g'] eqn:Eg; [discriminate|]. rewrite <- Eg in *. intros H.
    assert (E1 : (l - g) / (2 * l / g - 1) = s) by congruence. assert (E2 : 2 * l / g = n) by congruence. assert (E3 : g = f) by congruence. clear H.
    subst f. rewrite E2 in E1. replace (l <? g) with false by (symmetry; apply Nat.ltb_ge; lia).
    destruct n as [|[|n']].
    + intros H. assert ((l - g) / (0 - 1) = s2) by congruence. assert (0 = n2) by congruence. assert (g = f2) by congruence. subst. auto.
    + intros H. assert (0 = s2) by congruence. assert (1 = n2) by congruence. assert (g = f2) by congruence. subst. auto.
    + intros H. assert ((l - g) / (S (S n') - 1) = s2) by congruence. assert (S (S n') = n2) by congruence. assert (g = f2) by congruence. subst. auto.
Qed.
Lemma map2_omul_comm (x y : list (option R)) : map2 omul x y = map2 omul y x.
Proof. revert y. induction x as [|a x IH]; intros [|c y]; cbn; try reflexivity. rewrite IH. f_equal. destruct a, c; cbn; try reflexivity. f_equal. ring. Qed.
Theorem coherence_sym a b nfft win debias n0 n1 out : length b = length a ->
  coherence_any a b nfft win debias (n0, n1) = inr out -> coherence_any b a nfft win debias (n1, n0) = inr out.
Proof.
  intros L. unfold coherence_any. rewrite L, Nat.eqb_refl. unfold coherence. rewrite L.
  destruct (stepsize (length a) nfft None None) as [e|[[s n] f]] eqn:S1; [discriminate|].
  destruct (stepsize (length a) f (Some n) None) as [e|[[s2 n2] f2]] eqn:S2; [discriminate|].
  destruct (step_same _ _ _ _ _ _ _ _ S1 S2) as (-> & -> & ->). clear S1 S2.
  destruct (n <=? 2); [discriminate|]. destruct (cpsd false a b f 1 win None) as [e|c] eqn:C; [discriminate|].
  apply Phase.cpsd_swap in C; [|exact L]. rewrite C.
  destruct (psd a f 1 win (Some s)) as [e|pa]; [discriminate|]. destruct (psd b f 1 win (Some s)) as [e|pb]; [discriminate|].
  intros H. rewrite <- H. clear H. cbn [fst snd]. f_equal.
  assert (A : map (option_map (fun z => (cabs z * cabs z)%R)) (map (option_map cconj) c) = map (option_map (fun z => (cabs z * cabs z)%R)) c).
  { rewrite map_map. apply map_ext. intros [z|]; [|reflexivity]. cbn. f_equal. unfold cabs, cabs2, cconj. cbn.
    replace (fst z * fst z + - snd z * - snd z)%R with (fst z * fst z + snd z * snd z)%R by ring. reflexivity. }
  rewrite A. destruct debias; [do 2 f_equal|f_equal]; apply map2_omul_comm.
Qed.
Theorem coherence_order a b nfft win debias noise : length a <> length b ->
  coherence_any a b nfft win debias noise = coherence_any b a nfft win debias noise.
Proof.
  intros N. unfold coherence_any. destruct (Nat.eqb_spec (length a) (length b)); [easy|]. destruct (Nat.eqb_spec (length b) (length a)); [congruence|].
  destruct (Nat.ltb_spec (length b) (length a)); destruct (Nat.ltb_spec (length a) (length b)); try lia; reflexivity.
Qed.

Lemma zeros_psd step p : psd (map Some (repeat 0%R 10)) 4 1 Ones step = inr p -> forall j x, nth_error p j = Some (Some x) -> x = 0%R.
Proof.
  intros E. apply (PsdProps.psd_affine (repeat 0%R 10) 4 1 Ones step p 0 0); [|exact E].
  intros k _. assert (Z : nth k (repeat 0%R 10) 0%R = 0%R) by (do 10 (destruct k as [|k]; [reflexivity|]); destruct k; reflexivity). rewrite Z. ring.
Qed.
(** the longer signal is zero and has no noise, the shorter has noise: the quotient is 0/0; with the arguments (and the
    noise levels) in the other order it is a number *)
Theorem noise_witness : exists o o' x, coherence_any (map Some (repeat 0%R 10)) (map Some SpectraWitness.nine) 4 Ones false (1, 0)%R = inr o /\
  coherence_any (map Some SpectraWitness.nine) (map Some (repeat 0%R 10)) 4 Ones false (0, 1)%R = inr o' /\
  nth_error o 0 = Some None /\ nth_error o' 0 = Some (Some x).
Proof.
  set (z := map Some (repeat 0%R 10)). set (a := map Some SpectraWitness.nine).
  rewrite (coherence_order z a) by discriminate. unfold coherence_any.
  change (length a =? length z) with false. change (length z <? length a) with false. cbv iota beta.
  change (stepsize (length a) 4 None None) with (inr (1, 4, 4) : psd_err + (nat * nat * nat)). cbv iota beta.
  change (stepsize (length z) 4 (Some 4) None) with (inr (2, 4, 4) : psd_err + (nat * nat * nat)). cbv iota beta.
  change (4 <=? 2) with false. cbv iota.
  destruct SpectraWitness.nine_bias as (_ & q & _ & y & _ & Q & _ & Hy & Y & _). fold a in Q. rewrite Q.
  destruct (psd z 4 1 Ones (Some 2)) as [e|pz] eqn:P; [discriminate P|].
  assert (Lz : length pz = 2) by (apply (psd_len z 4 1%R Ones (Some 2)); [cbn; lia|exact P]).
  destruct (cpsd_quasisync a z 4 1 Ones) as [e|c] eqn:C; [discriminate C|].
  assert (Hc : exists v, nth_error c 0 = Some (Some v)).
  { unfold cpsd_quasisync in C. change (length a =? length z) with false in C. change (length z <? length a) with false in C. cbv iota beta in C.
    change (stepsize (length a) 4 None None) with (inr (1, 4, 4) : psd_err + (nat * nat * nat)) in C. cbv iota beta in C.
    change (stepsize (length z) 4 (Some 4) None) with (inr (2, 4, 4) : psd_err + (nat * nat * nat)) in C. cbv iota beta in C.
    change (segments (length a) 1 4 4) with (inr [0; 1; 2; 3; 4; 5] : psd_err + list nat) in C.
    change (segments (length z) 2 4 4) with (inr [0; 2; 4; 6] : psd_err + list nat) in C. cbn [getwindow combine] in C.
    match type of C with inr ?e = inr ?c' => assert (Ec : e = c') by congruence end. clear C. rewrite <- Ec. cbn [map].
    unfold a, z. rewrite !Psd.segment_form by (cbn; lia). change (seq 1 (4 / 2)) with [1; 2]. unfold sum_spectra. change (repeat (Some (0%R, 0%R)) (4 / 2)) with [Some (0%R, 0%R); Some (0%R, 0%R)]. cbn [map map2 fold_left].
    rewrite Psd.weight_some by (rewrite Phase.sum_sq_ones; cbn; lra). cbn [olift2 map nth_error]. eexists. reflexivity. }
  destruct Hc as [v Hv]. destruct c as [|c0 c]; [discriminate Hv|]. cbn in Hv. injection Hv as ->.
  destruct q as [|q0 q]; [discriminate Hy|]. cbn in Hy. injection Hy as ->.
  destruct pz as [|p0 pz]; [discriminate Lz|].
  assert (Sz : exists x, p0 = Some x).
  { pose proof (Psd.psd_form (repeat 0%R 10) 4 1 Ones (Some 2) 2 4 4 (repeat 1%R 4) [0; 2; 4; 6] eq_refl eq_refl eq_refl) as F. fold z in F. rewrite P in F.
    rewrite Psd.weight_some in F by (rewrite Phase.sum_sq_ones; cbn; lra). change (seq 1 (4 / 2)) with [1; 2] in F. cbn [map option_map] in F.
    match type of F with inr ?e = inr ?c' => assert (Ec : e = c') by congruence end. injection Ec as E0 _. eexists. exact E0. }
  destruct Sz as [x0 ->]. assert (x0 = 0%R) by (apply (zeros_psd _ _ P 0); reflexivity). subst x0.
  do 3 eexists. split; [reflexivity|]. split; [reflexivity|]. cbn [map map2 option_map nth_error fst snd osub omul odiv].
  pose proof PI_RGT_0 as Pi. split.
  - destruct (Req_EM_T ((y - 1 * 1 / PI) * (0 - 0 * 0 / PI)) 0) as [|N]; [reflexivity|]. exfalso. apply N. field. lra.
  - destruct (Req_EM_T ((y - 0 * 0 / PI) * (0 - 1 * 1 / PI)) 0) as [N|]; [|reflexivity]. exfalso.
    assert (0 < 1 * 1 / PI)%R by (apply Rdiv_lt_0_compat; lra). replace (0 * 0 / PI)%R with 0%R in N by (field; lra). nra.
Qed.

(** ** Attributes *)
Lemma get_set {A} (d : dict A) k v k' : get (set d k v) k' = if String.eqb k k' then Some v else get d k'.
Proof.
  induction d as [|[a x] d IH]; cbn [set get]; [reflexivity|]. destruct (String.eqb_spec a k) as [->|N]; cbn [get].
  - destruct (String.eqb k k'); reflexivity.
  - rewrite IH. destruct (String.eqb_spec a k') as [->|]; [|reflexivity]. destruct (String.eqb_spec k k'); [congruence|reflexivity].
Qed.
Lemma get_filter {A} (p : string -> bool) (d : dict A) k : get (filter (fun kv => p (fst kv)) d) k = if p k then get d k else None.
Proof.
  induction d as [|[a x] d IH]; [now destruct (p k)|]. cbn [filter fst]. destruct (p a) eqn:Pa; cbn [get]; rewrite IH.
  - destruct (String.eqb_spec a k) as [->|]; [now rewrite Pa|reflexivity].
  - destruct (String.eqb_spec a k) as [->|]; [now rewrite Pa|reflexivity].
Qed.
Lemma filter_all {A} (p : A -> bool) l : (forall x, In x l -> p x = true) -> filter p l = l.
Proof. induction l as [|a l IH]; intros H; [reflexivity|]. cbn. rewrite (H a) by now left. f_equal. apply IH. intros x Hx. apply H. now right. Qed.

(** ** Records of a whole number of bins, and records of the same length *)
Theorem whole_bins {A} (f : list (option R) -> list (option R) -> nat -> psd_err + list A) b d1 d2 t2 q m r :
  0 < m -> 0 < q -> length d2 = q * bin_len b -> length d1 = q * m -> length t2 = length d2 ->
  1 <= bin_len b -> (0 < rate b)%R -> (Z.of_nat (length d1) < 2 ^ 52)%Z -> coh_len b <= 2 * bin_len b -> coh_len b <= 2 * m ->
  paired_bins f b d1 d2 t2 None None = inr r ->
  length (estimates r) = q /\ mean_instants t2 (bin_len b) q (instants r) /\ fft_frequencies (coh_len b) (rate b) (freqs r) /\
  forall k, k < q -> exists w1 w2 row, bin_window d1 m (coh_len b) k w1 /\ bin_window d2 (bin_len b) (coh_len b) k w2 /\
    f w1 w2 (coh_len b) = inr row /\ nth_error (estimates r) k = Some row.
Proof.
  intros Hm Hq L2 L1 Lt Hb Hr B C2 C1 E. set (n := bin_len b) in *.
  assert (Hl : length d2 <= length d1).
  { unfold paired_bins in E. destruct (Nat.ltb_spec (length d1) (length d2)); [discriminate|assumption]. }
  assert (N1 : first_bin (length d1) (length d2) (or_bin b None) = m).
  { cbn [or_bin]. fold n. rewrite L2, first_bin_whole; [|lia|lia|lia|lia|rewrite L1; nia]. rewrite L1, Nat.mul_comm, Nat.div_mul by lia. reflexivity. }
  assert (Lq : length t2 / n = q) by (rewrite Lt, L2; apply Nat.div_mul; lia).
  pose proof (paired_bins_ok f b d1 d2 t2 None None r) as P. cbv zeta in P. rewrite N1 in P. cbn [or_bin] in P. fold n in P.
  assert (Nb : Nat.min (length d1 / m) (length d2 / n) = q).
  { rewrite L1, L2, Nat.div_mul by lia. rewrite Nat.div_mul by lia. apply Nat.min_id. }
  rewrite Nb in P. destruct P as (_ & _ & _ & P1 & _ & P2 & P3 & P4); try assumption.
  { rewrite Lt, L2. nia. }
  split; [exact P1|]. split; [exact P2|]. split; assumption.
Qed.
Theorem equal_bins {A} (f : list (option R) -> list (option R) -> nat -> psd_err + list A) b d1 d2 t2 r : length d1 = length d2 -> length t2 = length d2 ->
  1 <= bin_len b <= length d2 -> (0 < rate b)%R -> (Z.of_nat (length d1) < 2 ^ 50)%Z -> coh_len b <= bin_len b ->
  paired_bins f b d1 d2 t2 None None = inr r ->
  exists n1, (n1 = bin_len b \/ S n1 = bin_len b) /\ length (estimates r) = length d2 / bin_len b /\
    forall k, k < length d2 / bin_len b -> exists w1 w2 row, bin_window d1 n1 (coh_len b) k w1 /\ bin_window d2 (bin_len b) (coh_len b) k w2 /\
      f w1 w2 (coh_len b) = inr row /\ nth_error (estimates r) k = Some row.
Proof.
  intros L Lt Hb Hr B Hc E. pose proof (first_bin_equal (length d2) (bin_len b) ltac:(lia) ltac:(lia)) as F.
  assert (Z1 : first_bin (length d1) (length d2) (or_bin b None) <> 0).
  { unfold paired_bins in E. destruct (_ <? _); [discriminate|]. destruct (_ || _)%bool; [discriminate|].
    destruct (Nat.eqb_spec (first_bin (length d1) (length d2) (or_bin b None)) 0); [discriminate|assumption]. }
  pose proof (paired_bins_ok f b d1 d2 t2 None None r) as P. cbv zeta in P. cbn [or_bin] in *. rewrite L in *.
  set (n1 := first_bin (length d2) (length d2) (bin_len b)) in *.
  assert (G : n1 = bin_len b \/ S n1 = bin_len b) by lia. exists n1. split; [exact G|].
  assert (Nb : Nat.min (length d2 / n1) (length d2 / bin_len b) = length d2 / bin_len b).
  { apply Nat.min_r. apply Nat.div_le_compat_l. lia. }
  rewrite Nb in P. destruct P as (_ & _ & _ & P1 & _ & P2 & P3 & P4); try assumption; try lia.
  split; [exact P1|exact P4].
Qed.
(** bins of [n1] samples of the first record put beside those of the second *)
Lemma window_at x n pad k w c : bin_window x n pad k w -> pad / 2 <= c < n + pad -> k * n + c - pad / 2 < length x / n * n -> n <> 0 ->
  nth_error w c = Some (nth (k * n + c - pad / 2) x (Some 0%R)).
Proof.
  intros [_ W] Hc Hl Hn. rewrite W by lia. f_equal. unfold at_or.
  replace (Z.of_nat (k * n) + Z.of_nat c - Z.of_nat (pad / 2))%Z with (Z.of_nat (k * n + c - pad / 2)) by lia.
  destruct (Z.ltb_spec (Z.of_nat (k * n + c - pad / 2)) 0); [lia|]. rewrite Nat2Z.id.
  assert (L : length x / n * n <= length x) by (rewrite Nat.mul_comm; now apply Nat.mul_div_le).
  assert (E : nth_error (firstn (length x / n * n) x) (k * n + c - pad / 2) = nth_error x (k * n + c - pad / 2)) by (now apply firstn_nth).
  rewrite (nth_error_nth' x (Some 0%R)) in E by lia. apply nth_error_nth with (d := Some 0%R) in E. exact E.
Qed.
Lemma drift win (b : binner) d1 d2 n1 k r : first_bin (length d1) (length d2) (bin_len b) = n1 ->
  1 <= bin_len b <= length d2 -> coh_len b = 4 -> 4 <= 2 * n1 -> 4 <= 2 * bin_len b -> rate b = 1%R ->
  k < length d1 / n1 -> k < length d2 / bin_len b ->
  calc_coh b d1 d2 d2 win false (0, 0)%R None None = inr r ->
  exists w1 w2 row, bin_window d1 n1 4 k w1 /\ bin_window d2 (bin_len b) 4 k w2 /\
    coherence_any w1 w2 4 win false (0, 0)%R = inr row /\ nth_error (estimates r) k = Some row /\
    nth_error w1 2 = nth_error d1 (k * n1) /\ nth_error w2 2 = nth_error d2 (k * bin_len b).
Proof.
  intros N1 Hb C4 G1 G2 R1 K1 K2 E. unfold calc_coh in E.
  pose proof (paired_bins_ok (fun x y n => coherence_any x y n win false (0, 0)%R) b d1 d2 d2 None None r) as P.
  cbv zeta in P. cbn [or_bin] in P. rewrite N1, C4 in P.
  destruct P as (_ & P1 & _ & _ & _ & _ & _ & F); [exact Hb|exact G1|exact G2|lra|exact E|].
  destruct (F k ltac:(lia)) as (w1 & w2 & row & W1 & W2 & C & N). exists w1, w2, row.
  split; [exact W1|]. split; [exact W2|]. split; [exact C|]. split; [exact N|].
  assert (A : forall x n w, n <> 0 -> 4 <= 2 * n -> k < length x / n -> bin_window x n 4 k w -> nth_error w 2 = nth_error x (k * n)).
  { intros x n w Hn H4 Hk W. rewrite (window_at x n 4 k w 2 W); [| change (4 / 2) with 2; lia | change (4 / 2) with 2; nia | exact Hn].
    change (4 / 2) with 2. replace (k * n + 2 - 2) with (k * n) by lia. symmetry. apply nth_error_nth'.
    assert (length x / n * n <= length x) by (rewrite Nat.mul_comm; now apply Nat.mul_div_le). nia. }
  split; apply A; try assumption; lia.
Qed.
