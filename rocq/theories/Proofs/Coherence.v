From Coq Require Import Reals List ZArith Lra Lia.
From Verif.Model Require Import Stats Psd.
From Verif.Spec Require Import Stats Psd.
From Verif.Proofs Require Import Stats Psd PsdProps.
Import ListNotations.
Open Scope R_scope.

(** ** Cauchy-Schwarz for complex lists *)
Section CS.
Context {A : Type} (f g : A -> R * R).
Definition S2 (h : A -> R * R) (l : list A) : R := rsum (map (fun i => cabs2 (h i)) l).
Definition Sx (l : list A) : R * R := csum (map (fun i => cmul (f i) (cconj (g i))) l).

Lemma S2_nonneg h l : 0 <= S2 h l.
Proof. apply rsum_nonneg. intros x Hx. apply in_map_iff in Hx as (i & <- & _). apply cabs2_nonneg. Qed.
Lemma S2_cons h i l : S2 h (i :: l) = cabs2 (h i) + S2 h l.
Proof. reflexivity. Qed.
Lemma Sx_cons i l : Sx (i :: l) = cadd (cmul (f i) (cconj (g i))) (Sx l).
Proof. reflexivity. Qed.

Lemma expand u v l : S2 (fun i => cadd (f i) (cscale (-1) (cmul (u, v) (g i)))) l =
  S2 f l - 2 * (u * fst (Sx l) + v * snd (Sx l)) + (u * u + v * v) * S2 g l.
Proof.
  induction l as [|i l IH]; [cbn; ring|]. rewrite !S2_cons, Sx_cons, IH.
  destruct (f i) as [a b]. destruct (g i) as [c d]. destruct (Sx l) as [p q].
  unfold cadd, cscale, cmul, cconj, cabs2. cbn [fst snd]. ring.
Qed.
Lemma cauchy l : cabs2 (Sx l) <= S2 f l * S2 g l.
Proof.
  pose proof (S2_nonneg f l) as Pf. pose proof (S2_nonneg g l) as Pg.
  destruct (Req_EM_T (S2 g l) 0) as [Z|N].
  - assert (E : Sx l = (0, 0)).
    { revert Z. clear. induction l as [|i l IH]; intros Z; [reflexivity|]. rewrite S2_cons in Z.
      pose proof (cabs2_nonneg (g i)). pose proof (S2_nonneg g l). rewrite Sx_cons, IH by lra.
      assert (H1 : cabs2 (g i) = 0) by lra. unfold cabs2 in H1. destruct (g i) as [c d]. cbn [fst snd] in H1.
      pose proof (Rle_0_sqr c). pose proof (Rle_0_sqr d). unfold Rsqr in *.
      assert (c = 0) by (apply Rsqr_0_uniq; unfold Rsqr; lra). assert (d = 0) by (apply Rsqr_0_uniq; unfold Rsqr; lra). subst.
      unfold cadd, cmul, cconj. cbn. f_equal; ring. }
    rewrite E, Z. unfold cabs2. cbn. lra.
  - pose proof (S2_nonneg (fun i => cadd (f i) (cscale (-1) (cmul (fst (Sx l) / S2 g l, snd (Sx l) / S2 g l) (g i)))) l) as H.
    rewrite expand in H. unfold cabs2. set (p := fst (Sx l)) in *. set (q := snd (Sx l)) in *. set (B := S2 g l) in *.
    assert (Q : S2 f l - 2 * (p / B * p + q / B * q) + (p / B * (p / B) + q / B * (q / B)) * B = S2 f l - (p * p + q * q) / B) by (field; lra).
    rewrite Q in H. assert (K : (p * p + q * q) / B <= S2 f l) by lra.
    apply (Rmult_le_compat_r B) in K; [|lra]. replace ((p * p + q * q) / B * B) with (p * p + q * q) in K by (field; lra). lra.
Qed.
End CS.

Lemma cabs_sq z : cabs z * cabs z = cabs2 z.
Proof. unfold cabs. apply sqrt_def, cabs2_nonneg. Qed.

(** ** form of the coherence *)
Lemma coh_inv same a b nfft win debias noise out : length b = length a -> (1 <= nfft)%nat -> (1 <= length a)%nat ->
  coherence same (map Some a) (map Some b) nfft win debias noise = inr out ->
  exists step nens w starts, (nfft < length a)%nat /\ nens = (2 * length a / nfft)%nat /\ (3 <= nens)%nat /\
    step = ((length a - nfft) / (nens - 1))%nat /\ (1 <= step)%nat /\
    getwindow win nfft = inr w /\ welch_starts (length a) nfft step starts /\
    length starts = ((length a - nfft) / step + 1)%nat /\ (nens <= length starts)%nat /\
    stepsize (length a) nfft None None = inr (step, nens, nfft) /\
    segments (length a) step nens nfft = inr starts /\
    psd (map Some a) nfft 1 win (Some step) = inr (map (fun k => option_map (fun c => Rabs c * psum a w nfft k starts) (weight w (length starts) 1)) (seq 1 (nfft / 2))) /\
    psd (map Some b) nfft 1 win (Some step) = inr (map (fun k => option_map (fun c => Rabs c * psum b w nfft k starts) (weight w (length starts) 1)) (seq 1 (nfft / 2))) /\
    stepsize (length b) nfft (Some nens) None = inr (step, nens, nfft).
Proof.
  intros L H1 H2. unfold coherence. rewrite !map_length. destruct (stepsize (length a) nfft None None) as [e|[[st1 ne1] n1]] eqn:E1; [discriminate|].
  destruct (stepsize_default _ _ _ _ _ H1 H2 E1) as (Hn & N1 & Small & Big).
  destruct (stepsize (length b) n1 (Some ne1) None) as [e|[[st2 ne2] n2]] eqn:E2; [discriminate|].
  destruct (Nat.leb_spec ne2 2) as [|G]; [discriminate|].
  destruct (le_lt_dec (length a) nfft) as [La|La].
  { destruct (Small La) as [-> ->]. exfalso. revert E2. unfold stepsize. destruct (_ <? _)%nat; cbv zeta; intros Q; injection Q; intros; subst; lia. }
  destruct (Big La) as (Q & Q2 & Hs & Ov). assert (Nf : n1 = nfft) by lia. clear Hn. subst n1. rewrite L in E2.
  assert (X : ne2 = ne1 /\ st2 = st1 /\ n2 = nfft).
  { revert E2. unfold stepsize. destruct (Nat.ltb_spec (length a) nfft); [lia|]. cbv zeta.
    destruct ne1 as [|[|m]]; [lia|lia|]. intros E. injection E. intros. subst n2. split; [easy|]. split; [|easy]. rewrite Hs. now symmetry. }
  destruct X as (-> & -> & ->).
  destruct (cpsd _ _ _ _ _ _ _) as [e|c] eqn:C; [discriminate|]. intros _.
  destruct (cpsd_inv _ _ _ _ _ _ _ _ C) as (st & ne & n & w & starts & F1 & F2 & F3).
  rewrite E1 in F1. assert (st = st1 /\ ne = ne1 /\ n = nfft) as (-> & -> & ->) by (injection F1; intros; subst; easy). clear F1.
  assert (Ln : (nfft <= length a)%nat) by lia.
  destruct (segments_spec _ _ _ _ _ Ln F3) as [[Bad _]|(_ & S0 & Ws)]; [lia|].
  pose proof (welch_count _ _ _ _ Ln S0 Ws) as Cn.
  assert (Nb : (ne1 <= length starts)%nat).
  { rewrite Cn. assert (ne1 - 1 <= (length a - nfft) / st1)%nat; [|lia]. apply div_le_lower'; [easy|]. rewrite Nat.mul_comm, Hs. apply Nat.mul_div_le. lia. }
  assert (P : forall d, length d = length a -> psd (map Some d) nfft 1 win (Some st1) = inr (map (fun k => option_map (fun c => Rabs c * psum d w nfft k starts) (weight w (length starts) 1)) (seq 1 (nfft / 2)))).
  { intros d Ld. apply (psd_form d nfft 1 win (Some st1) st1 (length starts) nfft w starts); [|easy|].
    - rewrite Ld. unfold stepsize. destruct (Nat.ltb_spec (length a) nfft); [lia|]. cbv zeta. rewrite Cn. destruct st1; [lia|reflexivity].
    - rewrite Ld. unfold segments in *. destruct ne1 as [|[|m]]; [lia|lia|]. destruct (length starts) as [|[|m']]; [lia|lia|]. exact F3. }
  exists st1, ne1, w, starts. repeat (split; [assumption || lia || auto|]).
  now rewrite L.
Qed.

Definition ratio (starts : list nat) (nens : nat) : R := INR (length starts) / INR nens.

Lemma div_some x y z : odiv (Some x) (Some y) = Some z -> y <> 0 /\ z = x / y.
Proof. cbn. destruct (Req_EM_T y 0); [discriminate|]. intros E. injection E as <-. easy. Qed.

Lemma map3_out ks (c : nat -> option (R * R)) (pa pb : nat -> option R) :
  map2 odiv (map (option_map (fun z => cabs z * cabs z)) (map c ks))
    (map2 omul (map (fun p => osub p (Some (0 * 0 / PI))) (map pa ks)) (map (fun p => osub p (Some (0 * 0 / PI))) (map pb ks))) =
  map (fun k => odiv (option_map (fun z => cabs z * cabs z) (c k)) (omul (pa k) (pb k))) ks.
Proof.
  rewrite !map_map, map2_map, map2_map. apply map_ext. intros k.
  assert (Z : forall o, osub o (Some (0 * 0 / PI)) = o) by (intros [x|]; [cbn; f_equal; unfold Rdiv; ring|reflexivity]).
  now rewrite !Z.
Qed.

Lemma csum_auto a w n k starts : csum (map (fun i => (cabs2 (seg a w n i k), 0)) starts) =
  csum (map (fun i => cmul (seg a w n i k) (cconj (seg a w n i k))) starts).
Proof.
  f_equal. apply map_ext. intros i. unfold cabs2, cmul, cconj. cbn. f_equal; ring.
Qed.

(** The coherence at every frequency, in terms of the segment spectra. *)
Lemma coh_value same a b nfft win out : length b = length a -> (1 <= nfft)%nat -> (1 <= length a)%nat -> (same = true -> b = a) ->
  coherence same (map Some a) (map Some b) nfft win false (0, 0) = inr out ->
  exists nens w starts, nens = (2 * length a / nfft)%nat /\ (3 <= nens <= length starts)%nat /\
    getwindow win nfft = inr w /\ length starts = ((length a - nfft) / ((length a - nfft) / (nens - 1)) + 1)%nat /\
    welch_starts (length a) nfft ((length a - nfft) / (nens - 1)) starts /\
    length out = (nfft / 2)%nat /\
    forall k, (1 <= k <= nfft / 2)%nat ->
      let X := cabs2 (Sx (fun i => seg a w nfft i k) (fun i => seg b w nfft i k) starts) in
      let A := psum a w nfft k starts in let B := psum b w nfft k starts in
      X <= A * B /\
      nth_error out (k - 1) = Some (if Req_EM_T (sum_squares w * (A * B)) 0 then None
        else Some (ratio starts nens * ratio starts nens * (X / (A * B)))).
Proof.
  intros L H1 H2 Same E. destruct (coh_inv _ _ _ _ _ _ _ _ L H1 H2 E) as (step & nens & w & starts & La & Q & Q3 & Hs & S1 & W & Ws & Cn & Nb & E1 & E2 & Pa & Pb & E3).
  exists nens, w, starts. split; [easy|]. split; [lia|]. split; [easy|]. split; [now rewrite Cn, Hs|]. split; [now rewrite <- Hs|].
  assert (Ln : (nfft <= length a)%nat) by lia.
  assert (Cx : cpsd same (map Some a) (map Some b) nfft 1 win None =
    inr (map (fun k => olift2 cscale (weight w nens 1) (Some (Sx (fun i => seg a w nfft i k) (fun i => seg b w nfft i k) starts))) (seq 1 (nfft / 2)))).
  { destruct same.
    - rewrite (Same eq_refl). rewrite (cpsd_auto_form a nfft 1 win None step nens nfft w starts) by easy. f_equal. apply map_ext. intros k. now rewrite csum_auto.
    - now rewrite (cpsd_form a b nfft 1 win None step nens nfft w starts). }
  unfold coherence in E. rewrite !map_length, E1, E3 in E. destruct (Nat.leb_spec nens 2); [lia|]. rewrite Cx, Pa, Pb in E.
  cbn [fst snd] in E. rewrite map3_out in E. injection E as <-. split; [now rewrite map_length, seq_length|].
  intros k Hk. cbv zeta. split; [apply (cauchy (fun i => seg a w nfft i k) (fun i => seg b w nfft i k))|].
  rewrite nth_error_map, (nth_error_nth' (seq 1 (nfft / 2)) 0%nat) by (rewrite seq_length; lia). rewrite seq_nth by lia.
  replace (1 + (k - 1))%nat with k by lia. cbn [option_map]. f_equal.
  set (X := Sx _ _ starts). set (A := psum a w nfft k starts). set (B := psum b w nfft k starts).
  assert (Pn : 0 < INR nens) by (apply lt_0_INR; lia). assert (Pl : 0 < INR (length starts)) by (apply lt_0_INR; lia).
  destruct (Req_EM_T (sum_squares w) 0) as [Z|NZ].
  - rewrite Z, Rmult_0_l. destruct (Req_EM_T 0 0); [|lra]. unfold weight. 
    assert (Z' : rsum (map (fun x => x * x) w) = 0) by (unfold sum_squares in Z; now rewrite (rsum_map _ _ 0)).
    rewrite Z'. cbn. rewrite !Rmult_0_l. destruct (Req_EM_T 0 0); [|lra]. reflexivity.
  - pose proof (sum_squares_nonneg w) as Wn. assert (Wp : 0 < sum_squares w) by lra.
    assert (D1 : 0 < sum_squares w * INR nens * 1) by (rewrite Rmult_1_r; now apply Rmult_lt_0_compat).
    assert (D2 : 0 < sum_squares w * INR (length starts) * 1) by (rewrite Rmult_1_r; now apply Rmult_lt_0_compat).
    rewrite !weight_some by lra. cbn [olift2 option_map omul].
    set (c1 := 2 / (sum_squares w * INR nens * 1)). set (c2 := 2 / (sum_squares w * INR (length starts) * 1)).
    assert (C1 : 0 < c1) by (apply Rdiv_lt_0_compat; lra). assert (C2 : 0 < c2) by (apply Rdiv_lt_0_compat; lra).
    rewrite cabs_sq, cabs2_scale, (Rabs_pos_eq c2) by lra. unfold odiv.
    assert (RR : ratio starts nens = c1 / c2) by (unfold ratio, c1, c2; field; lra).
    replace (c2 * A * (c2 * B)) with (c2 * c2 * (A * B)) by ring.
    destruct (Req_EM_T (c2 * c2 * (A * B)) 0) as [Z1|N1]; destruct (Req_EM_T (sum_squares w * (A * B)) 0) as [Z2|N2]; [reflexivity| | |].
    + exfalso. apply N2. apply Rmult_integral in Z1 as [Z1|Z1]; [|rewrite Z1; ring]. assert (0 < c2 * c2) by now apply Rmult_lt_0_compat. lra.
    + exfalso. apply N1. apply Rmult_integral in Z2 as [Z2|Z2]; [lra|]. rewrite Z2. ring.
    + f_equal. rewrite RR. assert (A * B <> 0) by (intros Z; apply N2; rewrite Z; ring).
      assert (A <> 0) by (intros Z; apply H0; rewrite Z; ring). assert (B <> 0) by (intros Z; apply H0; rewrite Z; ring).
      assert (c2 <> 0) by lra. clearbody c1 c2. field. auto.
Qed.

Lemma ratio_ge starts nens : (3 <= nens <= length starts)%nat -> 1 <= ratio starts nens.
Proof.
  intros H. unfold ratio. assert (0 < INR nens) by (apply lt_0_INR; lia). assert (INR nens <= INR (length starts)) by (apply le_INR; lia).
  apply (Rmult_le_reg_r (INR nens)); [lra|]. unfold Rdiv. rewrite Rmult_assoc, Rinv_l by lra. lra.
Qed.

(** number of segments the code sums, and the number it divides the cross spectrum by *)
Lemma coh_bounds same a b nfft win out : length b = length a -> (1 <= nfft)%nat -> (1 <= length a)%nat -> (same = true -> b = a) ->
  coherence same (map Some a) (map Some b) nfft win false (0, 0) = inr out ->
  forall j x, nth_error out j = Some (Some x) ->
    0 <= x <= (INR (n_segments (length a) nfft) / INR (n_ensembles (length a) nfft)) * (INR (n_segments (length a) nfft) / INR (n_ensembles (length a) nfft)).
Proof.
  intros L H1 H2 Same E j x Hx. destruct (coh_value _ _ _ _ _ _ L H1 H2 Same E) as (nens & w & starts & Q & Q3 & W & Cn & _ & Lo & V).
  assert (Hj : (j < nfft / 2)%nat) by (rewrite <- Lo; apply nth_error_Some; congruence).
  destruct (V (S j) ltac:(lia)) as [CS Hj']. replace (S j - 1)%nat with j in Hj' by lia. rewrite Hx in Hj'.
  assert (Rr : INR (n_segments (length a) nfft) / INR (n_ensembles (length a) nfft) = ratio starts nens).
  { unfold ratio, n_segments, n_ensembles. rewrite Cn, Q. reflexivity. }
  rewrite Rr. pose proof (ratio_ge starts nens Q3) as Rg. set (r := ratio starts nens) in *.
  set (X := cabs2 (Sx _ _ _)) in *. set (AB := psum a w nfft (S j) starts * psum b w nfft (S j) starts) in *.
  assert (P : 0 <= X) by apply cabs2_nonneg.
  assert (PA : 0 <= AB) by (apply Rmult_le_pos; apply psum_nonneg).
  destruct (Req_EM_T _ 0) as [|N]; [discriminate|]. injection Hj' as ->.
  assert (PA' : 0 < AB). { destruct (Req_EM_T AB 0) as [Z|]; [exfalso; apply N; rewrite Z; ring|lra]. }
  assert (B : 0 <= X / AB <= 1).
  { split; [apply Rmult_le_pos; [lra|]; apply Rlt_le, Rinv_0_lt_compat; lra|].
    apply (Rmult_le_reg_r AB); [lra|]. unfold Rdiv. rewrite Rmult_assoc, Rinv_l by lra. lra. }
  assert (0 <= r * r) by apply Rle_0_sqr. split; [apply Rmult_le_pos; lra|]. rewrite <- (Rmult_1_r (r * r)) at 2. apply Rmult_le_compat_l; lra.
Qed.

(** proportional signals *)
Lemma map_scale_some c a : map Some (map (Rmult c) a) = map (option_map (Rmult c)) (map Some a).
Proof. now rewrite !map_map. Qed.
Lemma seg_scale c a w n i k : (2 <= n)%nat -> (i + n <= length a)%nat -> seg (map (Rmult c) a) w n i k = cscale c (seg a w n i k).
Proof.
  intros N H. unfold seg, res. unfold samples. rewrite skipn_map', firstn_map', map_scale_some, detrend_scale, vals_map.
  rewrite (map2_scale_l Rmult (Rmult c) (Rmult c)) by (intros; ring). apply dft_scale.
Qed.
Lemma psum_scale c a w n k starts : (2 <= n)%nat -> (forall i, In i starts -> (i + n <= length a)%nat) ->
  psum (map (Rmult c) a) w n k starts = c * c * psum a w n k starts.
Proof.
  intros N H. unfold psum. rewrite <- rsum_scale, map_map. f_equal. apply map_ext_in. intros i Hi.
  rewrite seg_scale by auto. apply cabs2_scale.
Qed.
Lemma csum_scale c l : csum (map (cscale c) l) = cscale c (csum l).
Proof.
  induction l as [|z l IH]; [unfold cscale; cbn; f_equal; ring|]. cbn [map csum fold_right]. fold (csum (map (cscale c) l)). fold (csum l).
  rewrite IH. unfold cadd, cscale. cbn. f_equal; ring.
Qed.
Lemma Sx_scale_l c a b w n k starts : (2 <= n)%nat -> (forall i, In i starts -> (i + n <= length a)%nat) ->
  Sx (fun i => seg (map (Rmult c) a) w n i k) (fun i => seg b w n i k) starts = cscale c (Sx (fun i => seg a w n i k) (fun i => seg b w n i k) starts).
Proof.
  intros N H. unfold Sx. rewrite <- csum_scale, map_map. f_equal. apply map_ext_in. intros i Hi. rewrite seg_scale by auto.
  unfold cmul, cscale, cconj. cbn. f_equal; ring.
Qed.
Lemma Sx_scale_r c a b w n k starts : (2 <= n)%nat -> (forall i, In i starts -> (i + n <= length b)%nat) ->
  Sx (fun i => seg a w n i k) (fun i => seg (map (Rmult c) b) w n i k) starts = cscale c (Sx (fun i => seg a w n i k) (fun i => seg b w n i k) starts).
Proof.
  intros N H. unfold Sx. rewrite <- csum_scale, map_map. f_equal. apply map_ext_in. intros i Hi. rewrite seg_scale by auto.
  unfold cmul, cscale, cconj. cbn. f_equal; ring.
Qed.
Lemma Sx_self a w n k starts : Sx (fun i => seg a w n i k) (fun i => seg a w n i k) starts = (psum a w n k starts, 0).
Proof.
  unfold Sx. rewrite <- csum_auto. rewrite <- (map_map (fun i => cabs2 (seg a w n i k)) (fun x => (x, 0))), csum_real. reflexivity.
Qed.
Lemma welch_in l n step starts i : welch_starts l n step starts -> In i starts -> (i + n <= l)%nat.
Proof. intros (B1 & B2 & _) Hi. apply (In_nth _ _ 0%nat) in Hi as (m & Hm & <-). rewrite B1 by easy. now apply B2. Qed.
Lemma half_ge2 n k : (1 <= k <= n / 2)%nat -> (2 <= n)%nat.
Proof. intros H. destruct (le_lt_dec 2 n); [easy|]. assert (n / 2 = 0)%nat by (apply Nat.div_small; lia). lia. Qed.

Lemma coh_proportional same a c nfft win out : (1 <= nfft)%nat -> (1 <= length a)%nat -> (same = true -> map (Rmult c) a = a) ->
  coherence same (map Some a) (map Some (map (Rmult c) a)) nfft win false (0, 0) = inr out ->
  forall j x, nth_error out j = Some (Some x) ->
    x = (INR (n_segments (length a) nfft) / INR (n_ensembles (length a) nfft)) * (INR (n_segments (length a) nfft) / INR (n_ensembles (length a) nfft)).
Proof.
  intros H1 H2 Same E j x Hx. assert (L : length (map (Rmult c) a) = length a) by apply map_length.
  destruct (coh_value _ _ _ _ _ _ L H1 H2 Same E) as (nens & w & starts & Q & Q3 & W & Cn & Ws & Lo & V).
  assert (Hj : (j < nfft / 2)%nat) by (rewrite <- Lo; apply nth_error_Some; congruence).
  destruct (V (S j) ltac:(lia)) as [_ Hj']. replace (S j - 1)%nat with j in Hj' by lia. rewrite Hx in Hj'.
  assert (Rr : INR (n_segments (length a) nfft) / INR (n_ensembles (length a) nfft) = ratio starts nens).
  { unfold ratio, n_segments, n_ensembles. rewrite Cn, Q. reflexivity. }
  rewrite Rr. destruct (Req_EM_T _ 0) as [|N]; [discriminate|]. injection Hj' as ->.
  assert (N2 : (2 <= nfft)%nat) by (apply (half_ge2 _ (S j)); lia).
  assert (In' : forall i, In i starts -> (i + nfft <= length a)%nat) by (intros i Hi; now apply (welch_in _ _ _ _ _ Ws)).
  rewrite Sx_scale_r, Sx_self, cabs2_scale, psum_scale in * by auto. set (A := psum a w nfft (S j) starts) in *.
  replace (cabs2 (A, 0)) with (A * A) by (unfold cabs2; cbn; ring).
  assert (c * A <> 0). { intros Z. apply N. replace (A * (c * c * A)) with ((c * A) * (c * A)) by ring. rewrite Z. ring. }
  field. split; intros Z; apply H; rewrite Z; ring.
Qed.

(** rescaling either signal *)
Lemma coh_err_len a b a' b' nfft win e : length a' = length a -> length b' = length b ->
  coherence false (map Some a) (map Some b) nfft win false (0, 0) = inl e -> length b = length a -> (1 <= nfft)%nat -> (1 <= length a)%nat ->
  coherence false (map Some a') (map Some b') nfft win false (0, 0) = inl e.
Proof.
  intros La Lb. unfold coherence, psd, cpsd. rewrite !map_length, La, Lb. intros E L H1 H2. rewrite L in *.
  destruct (stepsize (length a) nfft None None) as [e1|[[s1 n1] f1]]; [congruence|].
  destruct (stepsize (length a) f1 (Some n1) None) as [e1|[[s2 n2] f2]]; [congruence|].
  destruct (n2 <=? 2)%nat; [congruence|].
  destruct (stepsize (length a) f2 None None) as [e1|[[s3 n3] f3]]; [congruence|].
  destruct (getwindow win f3) as [e1|w3]; [congruence|]. destruct (segments (length a) s3 n3 f3) as [e1|st3]; [congruence|].
  destruct (stepsize (length a) f2 None (Some s1)) as [e1|[[s4 n4] f4]]; [congruence|].
  destruct (getwindow win f4) as [e1|w4]; [congruence|]. destruct (segments (length a) s4 n4 f4) as [e1|st4]; [congruence|].
  destruct (stepsize (length a) f2 None (Some s2)) as [e1|[[s5 n5] f5]]; [congruence|].
  destruct (getwindow win f5) as [e1|w5]; [congruence|]. destruct (segments (length a) s5 n5 f5) as [e1|st5]; [congruence|discriminate].
Qed.
Lemma nth_error_ext' {A} (l m : list A) : length l = length m -> (forall j, (j < length l)%nat -> nth_error l j = nth_error m j) -> l = m.
Proof.
  revert m. induction l as [|x l IH]; intros [|y m] L H; cbn in L; try discriminate; [reflexivity|].
  pose proof (H 0%nat ltac:(cbn; lia)) as H0. cbn in H0. injection H0 as ->. f_equal. apply IH; [lia|].
  intros j Hj. apply (H (S j)). cbn. lia.
Qed.
Lemma welch_unique l n step s s' : welch_starts l n step s -> welch_starts l n step s' -> length s = length s' -> s = s'.
Proof.
  intros (A1 & _) (B1 & _) L. apply nth_ext with (d := 0%nat) (d' := 0%nat); [easy|]. intros m Hm. rewrite A1 by easy. rewrite B1 by lia. reflexivity.
Qed.
Lemma coh_rescale a b c d nfft win : length b = length a -> (1 <= nfft)%nat -> (1 <= length a)%nat -> c <> 0 -> d <> 0 ->
  coherence false (map Some (map (Rmult c) a)) (map Some (map (Rmult d) b)) nfft win false (0, 0) =
  coherence false (map Some a) (map Some b) nfft win false (0, 0).
Proof.
  intros L H1 H2 Hc Hd. destruct (coherence false (map Some a) (map Some b) nfft win false (0, 0)) as [e|out] eqn:E.
  { apply (coh_err_len a b); auto using map_length. }
  destruct (coherence false (map Some (map (Rmult c) a)) (map Some (map (Rmult d) b)) nfft win false (0, 0)) as [e|out'] eqn:E'.
  { apply (coh_err_len _ _ a b) in E'; rewrite ?map_length; auto. congruence. }
  destruct (coh_value false a b nfft win out L H1 H2 ltac:(discriminate) E) as (nens & w & starts & Q & Q3 & W & Cn & Ws & Lo & V).
  destruct (coh_value false (map (Rmult c) a) (map (Rmult d) b) nfft win out' ltac:(now rewrite !map_length) H1 ltac:(now rewrite map_length) ltac:(discriminate) E') as (nens' & w' & starts' & Q' & Q3' & W' & Cn' & Ws' & Lo' & V').
  rewrite map_length in *. assert (nens' = nens) by congruence. clear Q'. subst nens'. assert (w' = w) by congruence. subst w'.
  assert (starts' = starts) by (eapply welch_unique; [exact Ws'|exact Ws|congruence]). subst starts'.
  f_equal. apply nth_error_ext'; [congruence|]. intros j Hj. rewrite Lo' in Hj.
  destruct (V (S j) ltac:(lia)) as [_ Hv]. destruct (V' (S j) ltac:(lia)) as [_ Hv']. replace (S j - 1)%nat with j in * by lia.
  rewrite Hv, Hv'. clear Hv Hv'. assert (N2 : (2 <= nfft)%nat) by (apply (half_ge2 _ (S j)); lia).
  assert (In1 : forall i, In i starts -> (i + nfft <= length a)%nat) by (intros i Hi; now apply (welch_in _ _ _ _ _ Ws)).
  assert (In2 : forall i, In i starts -> (i + nfft <= length b)%nat) by (rewrite L; exact In1).
  rewrite Sx_scale_l, Sx_scale_r, !cabs2_scale, !psum_scale by auto. set (A := psum a _ _ _ _). set (B := psum b _ _ _ _). set (X := cabs2 _).
  assert (NZ : c * c * (d * d) <> 0) by (repeat apply Rmult_integral_contrapositive_currified; auto).
  f_equal. destruct (Req_EM_T (sum_squares w * (c * c * A * (d * d * B))) 0) as [Z1|N1]; destruct (Req_EM_T (sum_squares w * (A * B)) 0) as [Z2|N2'].
  - reflexivity.
  - exfalso. apply N2'. replace (sum_squares w * (c * c * A * (d * d * B))) with (c * c * (d * d) * (sum_squares w * (A * B))) in Z1 by ring.
    apply Rmult_integral in Z1 as [Z|Z]; [easy|exact Z].
  - exfalso. apply N1. replace (sum_squares w * (c * c * A * (d * d * B))) with (c * c * (d * d) * (sum_squares w * (A * B))) by ring. rewrite Z2. ring.
  - f_equal. assert (A * B <> 0) by (intros Z; apply N2'; rewrite Z; ring). 
    assert (A <> 0) by (intros Z; apply H; rewrite Z; ring). assert (B <> 0) by (intros Z; apply H; rewrite Z; ring). field. auto.
Qed.
