From Coq Require Import QArith Reals List ZArith Lra Lia.
From Verif.Model Require Import Reshape Stats Psd.
From Verif.Spec Require Import Reshape Stats Psd.
From Verif.Proofs Require Reshape.
From Verif.Proofs Require Import Stats Psd PsdProps Coherence Phase Parseval.
Import ListNotations.
Open Scope R_scope.

(** ** counting segments *)
Lemma psd_nfft2 a fs win : (3 <= length a)%nat -> match win with Custom w => length w = 2%nat | _ => True end ->
  psd (map Some a) 2 fs win None = inl StepZero.
Proof.
  intros H W. unfold psd, cpsd. rewrite map_length. unfold stepsize. destruct (Nat.ltb_spec (length a) 2); [lia|]. cbv zeta.
  destruct (Nat.eqb_spec (length a) 2); [lia|].
  assert (D : (2 * length a / 2 = length a)%nat) by (rewrite Nat.mul_comm; apply Nat.div_mul; lia). rewrite D.
  assert (Z : ((length a - 2) / (length a - 1) = 0)%nat) by (apply Nat.div_small; lia). rewrite Z.
  assert (G : exists w, getwindow win 2 = inr w) by (destruct win as [| | |w]; cbn; eauto; rewrite W; cbn; eauto).
  destruct G as (w & ->). unfold segments. destruct (length a) as [|[|m]]; [lia|lia|]. reflexivity.
Qed.

Lemma default_vs_step a nfft fs win p q : (1 <= nfft < length a)%nat -> 0 < fs ->
  psd (map Some a) nfft fs win None = inr p ->
  psd (map Some a) nfft fs win (Some ((length a - nfft) / (2 * length a / nfft - 1))%nat) = inr q ->
  forall j x y, nth_error p j = Some (Some x) -> nth_error q j = Some (Some y) ->
    x = INR (n_segments (length a) nfft) / INR (n_ensembles (length a) nfft) * y.
Proof.
  intros H F P Q j x y Hx Hy.
  destruct (psd_inv _ _ _ _ _ _ P) as (st & ne & n & w & starts & E1 & E2 & E3).
  assert (La : (1 <= length a)%nat) by lia. destruct (stepsize_default _ _ _ _ _ (proj1 H) La E1) as (Hn & N1 & _ & Big). destruct (Big (proj2 H)) as (Qn & Q2 & Hs & Ov).
  assert (n = nfft) by lia. clear Hn. subst n. assert (Ln : (nfft <= length a)%nat) by lia.
  destruct (segments_spec _ _ _ _ _ Ln E3) as [[C _]|(_ & S0 & Ws)]; [lia|]. pose proof (welch_count _ _ _ _ Ln S0 Ws) as Cn.
  rewrite <- Qn in Q. rewrite <- Hs in Q.
  assert (G1 : stepsize (length a) nfft None (Some st) = inr (st, length starts, nfft)).
  { unfold stepsize. destruct (Nat.ltb_spec (length a) nfft); [lia|]. cbv zeta. rewrite Cn. destruct st; [lia|reflexivity]. }
  assert (Nb : (ne <= length starts)%nat).
  { rewrite Cn. assert (ne - 1 <= (length a - nfft) / st)%nat; [|lia]. apply div_le_lower'; [easy|]. rewrite Nat.mul_comm, Hs. apply Nat.mul_div_le. lia. }
  assert (G3 : segments (length a) st (length starts) nfft = inr starts).
  { unfold segments in *. destruct ne as [|[|m]]; [lia|lia|]. destruct (length starts) as [|[|m']]; [lia|lia|]. exact E3. }
  rewrite (psd_form a nfft fs win None st ne nfft w starts E1 E2 E3) in P.
  rewrite (psd_form a nfft fs win (Some st) st (length starts) nfft w starts G1 E2 G3) in Q.
  assert (Ep : p = map (fun k => option_map (fun c => Rabs c * psum a w nfft k starts) (weight w ne fs)) (seq 1 (nfft / 2))) by congruence.
  assert (Eq : q = map (fun k => option_map (fun c => Rabs c * psum a w nfft k starts) (weight w (length starts) fs)) (seq 1 (nfft / 2))) by congruence.
  rewrite Ep, nth_error_map in Hx. rewrite Eq, nth_error_map in Hy. destruct (nth_error (seq 1 (nfft / 2)) j) as [k|]; [|discriminate Hx].
  cbn [option_map] in Hx, Hy. destruct (weight w ne fs) as [c1|] eqn:W1; [|discriminate Hx]. destruct (weight w (length starts) fs) as [c2|] eqn:W2; [|discriminate Hy].
  cbn [option_map] in Hx, Hy. injection Hx as <-. injection Hy as <-. apply weight_val in W1 as [W1 N1']. apply weight_val in W2 as [W2 N2'].
  assert (Pn : 0 < INR ne) by (apply lt_0_INR; lia). assert (Pl : 0 < INR (length starts)) by (apply lt_0_INR; lia).
  assert (R1 : INR (n_segments (length a) nfft) = INR (length starts)) by (unfold n_segments; now rewrite Cn, Hs, Qn).
  assert (R2 : INR (n_ensembles (length a) nfft) = INR ne) by (unfold n_ensembles; now rewrite Qn).
  rewrite R1, R2.
  assert (D : c1 = INR (length starts) / INR ne * c2).
  { apply (Rmult_eq_reg_r (sum_squares w * INR ne * fs)); [|easy]. rewrite W1.
    replace (INR (length starts) / INR ne * c2 * (sum_squares w * INR ne * fs)) with (c2 * (sum_squares w * INR (length starts) * fs)) by (field; lra). lra. }
  rewrite D, Rabs_mult, (Rabs_pos_eq (_ / _)) by (apply Rlt_le, Rdiv_lt_0_compat; lra). ring.
Qed.

(** ** a signal with power at the first frequency *)
Definition wave := [1; -1; -1; 1].
Lemma wave_res : res wave = wave.
Proof.
  assert (E : wave = [1 + 0; -(1) - 3 * 0; -(1) + 3 * 0; 1 - 0]) by (unfold wave; do 4 (apply (f_equal2 cons); [ring|]); reflexivity).
  rewrite E. apply res_even.
Qed.
Lemma ones_id (x : list R) : map2 Rmult x (repeat 1 (length x)) = x.
Proof. induction x; cbn; [easy|]. rewrite IHx. f_equal. ring. Qed.
Lemma wave_seg a i : samples a i 4 = wave -> seg a (repeat 1 4) 4 i 1 = (2, 2).
Proof.
  intros H. unfold seg. rewrite H, wave_res. change 4%nat with (length wave). rewrite ones_id. unfold wave. rewrite quarter. f_equal; ring.
Qed.

Definition nine := [1; -1; -1; 1; 0; 0; 0; 0; 0].
Lemma nine_coherence : exists out x, coherence true (map Some nine) (map Some nine) 4 Ones false (0, 0) = inr out /\
  nth_error out 0 = Some (Some x) /\ x = 9 / 4.
Proof.
  destruct (coherence true (map Some nine) (map Some nine) 4 Ones false (0, 0)) as [e|out] eqn:E; [discriminate E|].
  destruct (coh_value true nine nine 4 Ones out eq_refl ltac:(lia) ltac:(cbn; lia) ltac:(reflexivity) E) as (nens & w & starts & Q & Q3 & W & Cn & Ws & Lo & V).
  destruct (V 1%nat ltac:(cbn; lia)) as [_ H]. cbn [getwindow] in W.
  assert (w = repeat 1 4) by congruence. subst w. cbn [Nat.sub] in H.
  assert (Ln : length starts = 6%nat) by (rewrite Cn, Q; reflexivity).
  assert (S0 : In 0%nat starts). { destruct Ws as (B & _). specialize (B 0%nat ltac:(lia)). cbn in B. rewrite <- B. apply nth_In. lia. }
  assert (A0 : 0 < psum nine (repeat 1 4) 4 1 starts).
  { unfold psum. clear - S0. assert (G : cabs2 (seg nine (repeat 1 4) 4 0 1) = 8) by (rewrite wave_seg by reflexivity; unfold cabs2; cbn; ring).
    revert S0. induction starts as [|i l IH]; [easy|]. cbn [map rsum fold_right]. fold (rsum (map (fun i => cabs2 (seg nine (repeat 1 4) 4 i 1)) l)).
    assert (0 <= rsum (map (fun i => cabs2 (seg nine (repeat 1 4) 4 i 1)) l)) by (apply rsum_nonneg; intros x Hx; apply in_map_iff in Hx as (? & <- & _); apply cabs2_nonneg).
    intros [->|Hi]; [rewrite G; lra|]. specialize (IH Hi). pose proof (cabs2_nonneg (seg nine (repeat 1 4) 4 i 1)). lra. }
  set (A := psum nine (repeat 1 4) 4 1 starts) in *. rewrite Sx_self in H. fold A in H.
  assert (P : 0 < A * A) by now apply Rmult_lt_0_compat.
  destruct (Req_EM_T (sum_squares (repeat 1 4) * (A * A)) 0) as [Z|N].
  - exfalso. rewrite sum_sq_ones in Z. apply Rmult_integral in Z as [Z|Z]; [cbn in Z|]; lra.
  - exists out. eexists. split; [reflexivity|]. split; [exact H|]. unfold ratio. rewrite Ln, Q. change (2 * length nine / 4)%nat with 4%nat.
    unfold cabs2. cbn [fst snd]. cbn [INR]. field. lra.
Qed.

(** ** phase of a signal and its negative *)
Definition two_waves := wave ++ wave.
Lemma two_waves_phase : exists out, phase_angle (map Some two_waves) (map Some (map Ropp two_waves)) 4 Ones (Some 4%nat) = inr out /\
  nth_error out 0 = Some (Some (0, 0)).
Proof.
  unfold phase_angle. cbn [getwindow]. change (stepsize (length (map Some two_waves)) 4 None (Some 4%nat)) with (inr (4, 2, 4)%nat : psd_err + (nat * nat * nat)).
  cbv iota beta. change (segments (length (map Some two_waves)) 4 2 4) with (inr [0; 4]%nat : psd_err + list nat). cbv iota beta zeta.
  eexists. split; [reflexivity|]. cbn [tl map fold_left].
  assert (La : length two_waves = 8%nat) by reflexivity.
  assert (Lb : length (map Ropp two_waves) = 8%nat) by reflexivity.
  rewrite !segment_form by lia. change (seq 1 (4 / 2)) with [1; 2]%nat. cbn [map map2 nth_error].
  assert (E0 : seg two_waves (repeat 1 4) 4 0 1 = (2, 2)) by now apply wave_seg.
  assert (E4 : seg two_waves (repeat 1 4) 4 4 1 = (2, 2)) by now apply wave_seg.
  assert (Nb : map Ropp two_waves = map (Rmult (-1)) two_waves) by (apply map_ext; intros; ring).
  assert (Eb : seg (map Ropp two_waves) (repeat 1 4) 4 0 1 = (-2, -2)).
  { rewrite Nb, seg_scale, E0 by (cbn; lia). unfold cscale. cbn. f_equal; ring. }
  assert (N8 : cabs2 (2, 2) <> 0) by (unfold cabs2; cbn; lra). assert (N8' : cabs2 (-2, -2) <> 0) by (unfold cabs2; cbn; lra).
  rewrite E0, E4, Eb. rewrite (phasor_self (2, 2) N8). rewrite (phasor_some (2, 2) (-2, -2) N8 N8').
  assert (C : cabs (-2, -2) = cabs (2, 2)) by (unfold cabs, cabs2; cbn; f_equal; ring). rewrite C, cabs_sq.
  cbn [olift2 option_map]. do 2 f_equal. unfold cscale, cadd, cmul, cconj, cabs2. cbn. f_equal; field.
Qed.

(** ** cross spectrum of series of different lengths *)
Definition shorter := [1; -3; 3; -1].
Definition longer := [1; -1; -1; 1; 0].
Lemma quasi_witness : exists p, cpsd_quasisync (map Some longer) (map Some shorter) 4 1 Ones = inr p /\
  cpsd_quasisync (map Some shorter) (map Some longer) 4 1 Ones = inr p /\ nth_error p 0 = Some (Some (0, 4)).
Proof.
  assert (S' : cpsd_quasisync (map Some longer) (map Some shorter) 4 1 Ones = cpsd_quasisync (map Some shorter) (map Some longer) 4 1 Ones) by (apply quasi_swap_same; cbn; lia).
  rewrite S'. unfold cpsd_quasisync. change (length (map Some shorter) =? length (map Some longer))%nat with false.
  change (length (map Some longer) <? length (map Some shorter))%nat with false. cbv iota beta.
  change (stepsize (length (map Some shorter)) 4 None None) with (inr (0, 1, 4)%nat : psd_err + (nat * nat * nat)). cbv iota beta.
  change (stepsize (length (map Some longer)) 4 (Some 1%nat) None) with (inr (0, 1, 4)%nat : psd_err + (nat * nat * nat)). cbv iota beta.
  cbn [getwindow segments combine]. eexists. split; [reflexivity|]. split; [reflexivity|]. cbn [map].
  rewrite !segment_form by (cbn; lia). change (seq 1 (4 / 2)) with [1; 2]%nat. unfold sum_spectra. change (repeat (Some (0, 0)) (4 / 2)) with [Some (0, 0); Some (0, 0)]. cbn [map map2 fold_left].
  assert (E1 : seg longer (repeat 1 4) 4 0 1 = (2, 2)) by now apply wave_seg.
  assert (E2 : seg shorter (repeat 1 4) 4 0 1 = (-2, 2)).
  { unfold seg. change (samples shorter 0 4) with shorter.
    assert (Rs : res shorter = shorter).
    { assert (E : shorter = [0 + 1; - 0 - 3 * 1; - 0 + 3 * 1; 0 - 1]) by (unfold shorter; do 4 (apply (f_equal2 cons); [ring|]); reflexivity). rewrite E. apply res_even. }
    rewrite Rs. change 4%nat with (length shorter). rewrite ones_id. unfold shorter. rewrite quarter. f_equal; ring. }
  rewrite E1, E2. cbn [olift2 nth_error map]. rewrite weight_some by (rewrite sum_sq_ones; cbn; lra). rewrite sum_sq_ones. cbn [olift2].
  do 2 f_equal. unfold cscale, cadd, cmul, cconj. cbn. f_equal; field.
Qed.

(** ** a constant series has a spectrum when the bin is padded with zeros *)
Lemma pad_witness : exists rows p x, reshape (Some 0) (repeat (Some 5) 12) 2 (inject_Z (Z.of_nat 6)) = inr rows /\
  calc_psd_base 6 4 1 (repeat (Some 5) 12) Ones None None None None = inr (map Some p) /\
  (exists r, nth_error p 0 = Some r /\ nth_error r 0 = Some (Some x)) /\ 0 < x.
Proof.
  set (row := [0; 5; 5; 5; 5; 5; 5; 5]).
  assert (Rsh : reshape (Some 0) (repeat (Some 5) 12) 2 (inject_Z (Z.of_nat 6)) = inr [map Some row; map Some [5; 5; 5; 5; 5; 5; 5; 0]]) by reflexivity.
  destruct (psd (map Some row) 4 1 Ones None) as [e|p1] eqn:P1; [discriminate P1|].
  destruct (psd (map Some [5; 5; 5; 5; 5; 5; 5; 0]) 4 1 Ones None) as [e|p2] eqn:P2; [discriminate P2|].
  assert (E1 : stepsize (length row) 4 None None = inr (1, 4, 4)%nat) by reflexivity.
  assert (E3 : segments (length row) 1 4 4 = inr [0; 1; 2; 3; 4]%nat) by reflexivity.
  pose proof (psd_form row 4 1 Ones None 1%nat 4%nat 4%nat (repeat 1 4) [0; 1; 2; 3; 4]%nat E1 eq_refl E3) as Fm. rewrite P1 in Fm.
  assert (Ep : p1 = map (fun k => option_map (fun c => Rabs c * psum row (repeat 1 4) 4 k [0; 1; 2; 3; 4]%nat) (weight (repeat 1 4) 4 1)) (seq 1 (4 / 2))) by congruence.
  set (A := psum row (repeat 1 4) 4 1 [0; 1; 2; 3; 4]%nat) in *.
  assert (A0 : 0 < A).
  { unfold A, psum. cbn [map rsum fold_right].
    assert (G : cabs2 (seg row (repeat 1 4) 4 0 1) = 13).
    { unfold seg. change (samples row 0 4) with [0; 5; 5; 5].
      assert (Rs : res [0; 5; 5; 5] = [-3/2; 2; 1/2; -1]).
      { unfold res. rewrite (detrend_is _ [-3/2; 2; 1/2; -1]); [apply vals_some|cbn; lia|]. split; [reflexivity|]. split; [cbn; field|]. split; [cbn; field|].
        exists (3/2), (3/2). intros [|[|[|[|k]]]] Hk; [cbn [nth INR]; lra..|cbn [length] in Hk; lia]. }
      rewrite Rs. change 4%nat with (length [-3/2; 2; 1/2; -1]). rewrite ones_id, quarter. unfold cabs2. cbn. field. }
    rewrite G. pose proof (cabs2_nonneg (seg row (repeat 1 4) 4 1 1)). pose proof (cabs2_nonneg (seg row (repeat 1 4) 4 2 1)).
    pose proof (cabs2_nonneg (seg row (repeat 1 4) 4 3 1)). pose proof (cabs2_nonneg (seg row (repeat 1 4) 4 4 1)). lra. }
  rewrite weight_some in Ep by (rewrite sum_sq_ones; cbn; lra). set (c := 2 / (sum_squares (repeat 1 4) * INR 4 * 1)) in *.
  assert (Pc : 0 < c) by (unfold c; rewrite sum_sq_ones; cbn; lra).
  exists [map Some row; map Some [5; 5; 5; 5; 5; 5; 5; 0]], [p1; p2], (Rabs c * A). split; [exact Rsh|]. split.
  - unfold calc_psd_base. cbv zeta. change (Nat.min (6 - 4) 4) with 2%nat. rewrite Rsh. cbn [collect]. rewrite P1, P2. reflexivity.
  - split; [|apply Rmult_lt_0_compat; [rewrite Rabs_pos_eq; lra|easy]]. exists p1. split; [reflexivity|]. rewrite Ep. reflexivity.
Qed.

(** ** bins not padded *)
Lemma collect_ok {A B} (f : A -> psd_err + B) l m : collect f l = inr m -> length m = length l /\ forall i x, nth_error l i = Some x -> exists y, f x = inr y /\ nth_error m i = Some y.
Proof.
  revert m. induction l as [|x l IH]; intros m E; cbn in E; [injection E as <-; split; [easy|]; now intros [|]|].
  destruct (f x) as [e|y] eqn:F; [discriminate|]. destruct (collect f l) as [e|m'] eqn:C; [discriminate|]. injection E as <-.
  destruct (IH m' eq_refl) as [L V]. split; [cbn; congruence|]. intros [|i] z Hz; cbn in Hz; [injection Hz as <-; exists y; easy|now apply V].
Qed.
Lemma rows_at {A} (rows : list (list A)) nb n i (arr : list A) : table rows nb n -> (i < nb)%nat ->
  (forall j, (j < n)%nat -> cell rows i j = nth_error arr (i * n + j)) -> (i * n + n <= length arr)%nat -> nth_error rows i = Some (samples arr (i * n) n).
Proof.
  intros [L T] Hi C B. destruct (nth_error rows i) as [r|] eqn:E; [|apply nth_error_None in E; lia]. f_equal.
  assert (Lr : length r = n) by (apply T; now apply nth_error_In in E).
  apply nth_error_ext'; [rewrite samples_len; lia|]. intros j Hj. rewrite Lr in Hj. specialize (C j Hj). unfold cell in C. rewrite E in C. rewrite C.
  unfold samples. clear - Hj. revert arr. generalize (i * n)%nat. intros s. induction s as [|s IH]; intros arr.
  - cbn. revert arr n Hj. induction j as [|j IHj]; intros [|x arr] [|n] Hj; try lia; cbn; try easy. apply IHj. lia.
  - destruct arr as [|x arr]; [cbn; rewrite firstn_nil; now destruct j|]. cbn. apply IH.
Qed.
Lemma psd_base_rows nbin fs dat win step out : (1 <= nbin <= length dat)%nat ->
  calc_psd_base nbin nbin fs dat win None None None step = inr out ->
  length out = (length dat / nbin)%nat /\
  forall i, (i < length dat / nbin)%nat -> exists p, psd (samples dat (i * nbin) nbin) nbin fs win step = inr p /\ nth_error out i = Some (Some p).
Proof.
  intros H. unfold calc_psd_base. cbv zeta. rewrite Nat.sub_diag. cbn [Nat.min].
  destruct (Reshape.reshape_whole (Some 0) dat nbin H) as (rows & E & T & C & _). rewrite E.
  destruct (collect _ rows) as [e|sp] eqn:Cl; [discriminate|]. destruct (collect_ok _ _ _ Cl) as [Ls V].
  pose proof T as [Lr _]. rewrite Ls, Lr. rewrite Nat.ltb_irrefl, Nat.sub_diag. cbn [repeat]. rewrite app_nil_r. intros X. injection X as <-.
  split; [now rewrite map_length, Ls|]. intros i Hi. 
  assert (B : (i * nbin + nbin <= length dat)%nat).
  { pose proof (Nat.mul_div_le (length dat) nbin ltac:(lia)). assert (S i * nbin <= length dat / nbin * nbin)%nat by (apply Nat.mul_le_mono_r; lia). cbn in H1. lia. }
  destruct (V i _ (rows_at rows _ nbin i dat T Hi (fun j Hj => C i j Hi Hj) B)) as (p & Ep & Np). exists p. split; [exact Ep|]. now rewrite nth_error_map, Np.
Qed.
Lemma override_witness : exists p, calc_psd_base 4 4 1 (repeat (Some 5) 8) Ones (Some 2%nat) None (Some 0%nat) None = inr p /\ nth_error p 3 = Some None.
Proof.
  destruct (calc_psd_base 4 4 1 (repeat (Some 5) 8) Ones (Some 2%nat) None (Some 0%nat) None) as [e|p] eqn:E; [discriminate E|].
  exists p. split; [reflexivity|]. revert E. unfold calc_psd_base. cbv zeta.
  assert (Rsh : reshape (Some 0) (repeat (Some 5) 8) 0 (inject_Z (Z.of_nat 4)) = inr [map Some [5; 5; 5; 5]; map Some [5; 5; 5; 5]]) by reflexivity.
  rewrite Rsh. cbn [collect]. destruct (psd (map Some [5; 5; 5; 5]) 4 1 Ones None) as [e|q]; [discriminate|]. cbn. intros E. injection E as <-. reflexivity.
Qed.

(** ** frequencies *)
Lemma freq_nth n fs u : 0 < fs -> length (calc_freq n fs u) = (n / 2)%nat /\
  forall k, (1 <= k <= n / 2)%nat -> nth_error (calc_freq n fs u) (k - 1) = Some (INR k * (match u with Hz => fs | RadPerS => 2 * PI * fs end) / INR n).
Proof.
  intros F. rewrite calc_freq_is by easy. split; [now rewrite map_length, seq_length|]. intros k Hk.
  rewrite nth_error_map. rewrite (nth_error_nth' _ 0%nat) by (rewrite seq_length; lia). rewrite seq_nth by lia. cbn [option_map].
  now replace (1 + (k - 1))%nat with k by lia.
Qed.
Lemma freq_increasing n fs u j f : 0 < fs -> nth_error (calc_freq n fs u) j = Some f -> 0 < f /\
  forall i g, (i < j)%nat -> nth_error (calc_freq n fs u) i = Some g -> g < f.
Proof.
  intros F H. destruct (freq_nth n fs u F) as [L V].
  assert (B : forall j f, nth_error (calc_freq n fs u) j = Some f -> f = INR (S j) * (match u with Hz => fs | RadPerS => 2 * PI * fs end) / INR n /\ (j < n / 2)%nat).
  { intros j' f' H'. assert (j' < n / 2)%nat by (rewrite <- L; apply nth_error_Some; congruence). split; [|easy].
    specialize (V (S j') ltac:(lia)). replace (S j' - 1)%nat with j' in V by lia. congruence. }
  set (G := match u with Hz => fs | RadPerS => 2 * PI * fs end) in *.
  assert (PG : 0 < G) by (unfold G; destruct u; [easy|]; pose proof PI_RGT_0; apply Rmult_lt_0_compat; [lra|easy]).
  destruct (B _ _ H) as [-> Hj]. assert (Pn : 0 < INR n) by (apply lt_0_INR; destruct n; [cbn in Hj|]; lia).
  split; [apply Rdiv_lt_0_compat; [apply Rmult_lt_0_compat; [apply lt_0_INR; lia|easy]|easy]|].
  intros i g Hi Hg. destruct (B _ _ Hg) as [-> _]. unfold Rdiv. apply Rmult_lt_compat_r; [now apply Rinv_0_lt_compat|].
  apply Rmult_lt_compat_r; [easy|]. apply lt_INR. lia.
Qed.
Lemma freq_nyquist h fs : (1 <= h)%nat -> 0 < fs -> length (calc_freq (2 * h) fs Hz) = h /\ nth_error (calc_freq (2 * h) fs Hz) (h - 1) = Some (fs / 2).
Proof.
  intros H F. assert (E : (2 * h / 2 = h)%nat) by (rewrite Nat.mul_comm; apply Nat.div_mul; lia).
  destruct (freq_nth (2 * h) fs Hz F) as [L V]. rewrite E in *. split; [easy|]. rewrite V by lia. f_equal. rewrite mult_INR. cbn [INR]. field. apply not_0_INR. lia.
Qed.

(** ** phase of a signal with itself *)
Lemma phase_self_step a nfft win s out : (1 <= s)%nat -> (nfft <= length a)%nat -> phase_angle (map Some a) (map Some a) nfft win (Some s) = inr out ->
  forall j z, nth_error out j = Some (Some z) -> z = (1, 0).
Proof.
  intros Hs H E j z Hz. destruct (phase_self _ _ _ _ _ H E) as (nens & starts & (st & E1 & E3) & V).
  destruct (stepsize_step _ _ _ _ _ _ Hs E1) as (-> & _ & Hn). rewrite (V j z Hz).
  assert (Q : length starts = nens).
  { destruct (segments_spec _ _ _ _ _ H E3) as [[-> ->]|(_ & S0 & Ws)]; [easy|]. rewrite (welch_count _ _ _ _ H S0 Ws). lia. }
  rewrite Q. f_equal. field. apply not_0_INR. lia.
Qed.
Lemma phase_self_default a nfft win out : (1 <= nfft < length a)%nat -> phase_angle (map Some a) (map Some a) nfft win None = inr out ->
  forall j z, nth_error out j = Some (Some z) -> z = (INR (n_segments (length a) nfft) / INR (n_ensembles (length a) nfft), 0).
Proof.
  intros H E j z Hz. assert (H' : (nfft <= length a)%nat) by lia. assert (La : (1 <= length a)%nat) by lia. destruct (phase_self _ _ _ _ _ H' E) as (nens & starts & (st & E1 & E3) & V).
  destruct (stepsize_default _ _ _ _ _ (proj1 H) La E1) as (_ & _ & _ & Big). destruct (Big (proj2 H)) as (Qn & Q2 & Hs & _). rewrite (V j z Hz).
  destruct (segments_spec _ _ _ _ _ H' E3) as [[C _]|(_ & S0 & Ws)]; [lia|]. rewrite (welch_count _ _ _ _ H' S0 Ws). unfold n_segments, n_ensembles. rewrite Hs, Qn. reflexivity.
Qed.
Lemma coh_unit same a b nfft win out : length b = length a -> (1 <= nfft)%nat -> (1 <= length a)%nat -> (same = true -> b = a) ->
  n_segments (length a) nfft = n_ensembles (length a) nfft ->
  coherence same (map Some a) (map Some b) nfft win false (0, 0) = inr out ->
  forall j x, nth_error out j = Some (Some x) -> 0 <= x <= 1 /\ (forall c, b = map (Rmult c) a -> x = 1).
Proof.
  intros L H1 H2 Same Q E j x Hx. pose proof (coh_bounds _ _ _ _ _ _ L H1 H2 Same E j x Hx) as B. rewrite Q in B.
  assert (N : (3 <= n_ensembles (length a) nfft)%nat) by (destruct (coh_value _ _ _ _ _ _ L H1 H2 Same E) as (nens & w & starts & Qn & Q3 & _); unfold n_ensembles; lia).
  assert (P : 0 < INR (n_ensembles (length a) nfft)) by (apply lt_0_INR; lia).
  assert (O : INR (n_ensembles (length a) nfft) / INR (n_ensembles (length a) nfft) = 1) by (field; lra). rewrite O in B. split; [lra|].
  intros c ->. rewrite (coh_proportional _ _ _ _ _ _ H1 H2 Same E j x Hx), Q, O. ring.
Qed.

Lemma nine_bias : exists p q x y, psd (map Some nine) 4 1 Ones None = inr p /\ psd (map Some nine) 4 1 Ones (Some 1%nat) = inr q /\
  nth_error p 0 = Some (Some x) /\ nth_error q 0 = Some (Some y) /\ 0 < y /\ x = 3 / 2 * y.
Proof.
  destruct (psd (map Some nine) 4 1 Ones None) as [e|p] eqn:P; [discriminate P|].
  destruct (psd (map Some nine) 4 1 Ones (Some 1%nat)) as [e|q] eqn:Q; [discriminate Q|].
  pose proof (psd_form nine 4 1 Ones None 1%nat 4%nat 4%nat (repeat 1 4) [0; 1; 2; 3; 4; 5]%nat eq_refl eq_refl eq_refl) as Fp.
  pose proof (psd_form nine 4 1 Ones (Some 1%nat) 1%nat 6%nat 4%nat (repeat 1 4) [0; 1; 2; 3; 4; 5]%nat eq_refl eq_refl eq_refl) as Fq.
  rewrite P in Fp. rewrite Q in Fq.
  assert (Ep : p = map (fun k => option_map (fun c => Rabs c * psum nine (repeat 1 4) 4 k [0; 1; 2; 3; 4; 5]%nat) (weight (repeat 1 4) 4 1)) (seq 1 (4 / 2))) by congruence.
  assert (Eq : q = map (fun k => option_map (fun c => Rabs c * psum nine (repeat 1 4) 4 k [0; 1; 2; 3; 4; 5]%nat) (weight (repeat 1 4) 6 1)) (seq 1 (4 / 2))) by congruence.
  rewrite weight_some in Ep by (rewrite sum_sq_ones; cbn; lra). rewrite weight_some in Eq by (rewrite sum_sq_ones; cbn; lra).
  set (A := psum nine (repeat 1 4) 4 1 [0; 1; 2; 3; 4; 5]%nat) in *.
  assert (A0 : 0 < A).
  { unfold A, psum. cbn [map rsum fold_right].
    assert (G : cabs2 (seg nine (repeat 1 4) 4 0 1) = 8) by (rewrite wave_seg by reflexivity; unfold cabs2; cbn; ring). rewrite G.
    pose proof (fun i => cabs2_nonneg (seg nine (repeat 1 4) 4 i 1)) as N. pose proof (N 1%nat). pose proof (N 2%nat). pose proof (N 3%nat). pose proof (N 4%nat). pose proof (N 5%nat). lra. }
  do 2 eexists. exists (Rabs (2 / (sum_squares (repeat 1 4) * INR 4 * 1)) * A), (Rabs (2 / (sum_squares (repeat 1 4) * INR 6 * 1)) * A).
  split; [reflexivity|]. split; [reflexivity|]. split; [now rewrite Ep|]. split; [now rewrite Eq|]. rewrite sum_sq_ones.
  replace (2 / (INR 4 * INR 6 * 1)) with (1 / 12) by (cbn; field). replace (2 / (INR 4 * INR 4 * 1)) with (1 / 8) by (cbn; field).
  rewrite !Rabs_pos_eq by lra. split; [lra|]. lra.
Qed.
Lemma residual_shorter : residual shorter shorter.
Proof.
  split; [reflexivity|]. split; [cbn; lra|]. split; [cbn; lra|]. exists 0, 0. intros [|[|[|[|k]]]] Hk; [cbn [nth INR shorter]; lra..|cbn [length shorter] in Hk; lia].
Qed.
Lemma nyquist_shorter : fourier_re shorter 2 = 8.
Proof.
  unfold fourier_re, shorter. cbn [length total nth]. 
  replace (2 * PI * (INR 0 * INR 2 / INR 4)) with 0 by (cbn; field). replace (2 * PI * (INR 1 * INR 2 / INR 4)) with PI by (cbn; field).
  replace (2 * PI * (INR 2 * INR 2 / INR 4)) with (0 + 2 * INR 1 * PI) by (cbn; field). replace (2 * PI * (INR 3 * INR 2 / INR 4)) with (PI + 2 * INR 1 * PI) by (cbn; field).
  rewrite !cos_period', cos_0, cos_PI. lra.
Qed.
Lemma even_excess : exists p, psd (map Some shorter) 4 1 Ones None = inr p /\ residual shorter shorter /\
  total 4 (fun j => nth j shorter 0 * nth j shorter 0) / 4 = 5 /\ sum_list (present p) * (1 / 4) = 9.
Proof.
  destruct (psd (map Some shorter) 4 1 Ones None) as [e|p] eqn:P; [discriminate P|]. exists p. split; [reflexivity|]. split; [apply residual_shorter|].
  split; [cbn; field|]. destruct (variance_even shorter 2 1 p eq_refl ltac:(lia) ltac:(lra) P) as (r & Rr & V).
  assert (r = shorter) by (eapply residual_unique; [exact Rr|apply residual_shorter]). subst r. rewrite nyquist_shorter in V.
  change (length shorter) with 4%nat in V. replace (INR 4) with 4 in V by (cbn; ring). rewrite V. cbn. field.
Qed.
