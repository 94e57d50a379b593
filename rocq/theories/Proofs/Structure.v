From Coq Require Import QArith Qround Reals Qreals List ZArith Bool Lra Lia.
From Verif.Model Require Import Stats Dissipation.
From Verif.Spec Require Import Stats Dissipation.
From Verif.Proofs Require Import Stats Dissipation.
From Verif.Proofs Require Vel PsdProps.
Import ListNotations.
Open Scope R_scope.

(** ** straight lines *)
Lemma mean_line m b l : l <> [] -> mean (map (fun x => m * x + b) l) = m * mean l + b.
Proof.
  intros N. pose proof (INR_len_pos l N) as P. unfold mean. rewrite map_length.
  assert (E : rsum (map (fun x => m * x + b) l) = m * rsum l + INR (length l) * b); [|rewrite E; field; lra].
  clear N P. induction l as [|a l IH]; [cbn; ring|]. cbn [map rsum fold_right length]. fold (rsum (map (fun x => m * x + b) l)) (rsum l).
  rewrite IH, S_INR. ring.
Qed.
Lemma map2_map_r {A B C} (f : A -> B -> C) (g : A -> B) l : map2 f l (map g l) = map (fun x => f x (g x)) l.
Proof. induction l; cbn; congruence. Qed.
Lemma polyfit_line x m b u v : In u x -> In v x -> u <> v -> polyfit1 x (map (fun x => m * x + b) x) = Some (m, b).
Proof.
  intros Hu Hv D. assert (N : x <> []) by (intros ->; destruct Hu). unfold polyfit1. rewrite mean_line by easy.
  destruct (Req_EM_T _ 0) as [Z|NZ].
  - exfalso. apply D. rewrite (rsum_sq_zero _ _ Z u Hu), (rsum_sq_zero _ _ Z v Hv). reflexivity.
  - rewrite map2_map_r. replace (map _ x) with (map (Rmult m) (map (fun v => (v - mean x) * (v - mean x)) x))
      by (rewrite map_map; apply map_ext; intros; ring).
    rewrite PsdProps.rsum_scale. do 2 f_equal; field; easy.
Qed.
Lemma all_some_map v : all_some (map Some v) = Some v.
Proof. induction v as [|x v IH]; cbn; [easy|]. now rewrite IH. Qed.

(** ** ADCP structure function *)
Lemma skipn_seq k : forall a n, skipn k (seq a n) = seq (a + k) (n - k).
Proof. induction k as [|k IH]; intros a [|n]; cbn [skipn seq Nat.sub]; try (now rewrite ?Nat.add_0_r). rewrite IH. f_equal. lia. Qed.
Definition seps (b r0 r1 : Q) : list nat := seq (1 + sf_R b r0) (Z.to_nat (Qceiling (r1 / b)) - sf_R b r0).
Lemma sf_r_used b r0 r1 : skipn (sf_R b r0) (sf_r b r1) = map (fun k => INR k * Q2R b) (seps b r0 r1).
Proof. unfold sf_r, seps. now rewrite skipn_map, skipn_seq. Qed.
Lemma sf_fit_line b r0 r1 bm z (m c : R) : (0 < b)%Q -> (2 <= length (seps b r0 r1))%nat -> (length (sf_r b r1) <= z)%nat ->
  (forall k, In k (seps b r0 r1) -> sf_D bm k z = Some (m * (INR k * Q2R b * (INR k * Q2R b) / 3) + c)) ->
  sf_fit b r0 r1 bm z = Some (m, c).
Proof.
  intros Hb H2 Hz V. unfold sf_fit. destruct (Nat.ltb_spec z (length (sf_r b r1))); [lia|]. rewrite sf_r_used.
  replace (skipn (sf_R b r0) (map (fun k => sf_D bm k z) (seq 1 (length (sf_r b r1))))) with
    (map Some (map (fun x => m * x + c) (map (fun x => x * x / 3) (map (fun k => INR k * Q2R b) (seps b r0 r1))))).
  - rewrite all_some_map. unfold seps in *. set (R0 := sf_R b r0) in *. set (n := (Z.to_nat _ - R0)%nat) in *. rewrite seq_length in H2.
    apply (polyfit_line _ m c (INR (1 + R0) * Q2R b * (INR (1 + R0) * Q2R b) / 3) (INR (2 + R0) * Q2R b * (INR (2 + R0) * Q2R b) / 3)).
    + rewrite map_map. apply (in_map (fun k => INR k * Q2R b * (INR k * Q2R b) / 3)). apply in_seq. lia.
    + rewrite map_map. apply (in_map (fun k => INR k * Q2R b * (INR k * Q2R b) / 3)). apply in_seq. lia.
    + assert (B : 0 < Q2R b) by (rewrite <- RMicromega.Q2R_0; now apply Qlt_Rlt).
      change (2 + R0)%nat with (S (1 + R0)). rewrite (S_INR (1 + R0)). pose proof (pos_INR (1 + R0)) as Pk. set (k := INR (1 + R0)) in *. set (q := Q2R b) in *.
      assert (k * q * (k * q) < (k + 1) * q * ((k + 1) * q)); [|lra]. assert (0 <= k * q) by nra. nra.
  - unfold sf_r. rewrite map_length, seq_length, skipn_map, skipn_seq. fold (seps b r0 r1). rewrite !map_map. apply map_ext_in. intros k Hk. symmetry. now apply V.
Qed.
Lemma sf_recovers b r0 r1 bm z eps N : (0 < b)%Q -> (2 <= length (seps b r0 r1))%nat -> (length (sf_r b r1) <= z)%nat -> 0 < eps -> 0 <= N ->
  (forall k, In k (seps b r0 r1) -> sf_D bm k z = Some ((21/10) * Rpower eps (2/3) * (INR k * Q2R b * (INR k * Q2R b) / 3) + N)) ->
  sf_epsilon b r0 r1 bm z = Some eps /\ sf_noise b r0 r1 bm z = Some (sqrt (N / 2)).
Proof.
  intros Hb H2 Hz He HN V. unfold sf_epsilon, sf_noise. rewrite (sf_fit_line b r0 r1 bm z _ _ Hb H2 Hz V). pose proof (Rpower_pos eps (2/3)).
  destruct (Rlt_dec _ 0); [lra|]. destruct (Rlt_dec N 0); [lra|]. split; [|easy]. f_equal.
  replace ((21/10) * Rpower eps (2/3) / (21/10)) with (Rpower eps (2/3)) by field. rewrite rpow_pos by easy. now apply two_thirds.
Qed.
(** the law itself is not recovered *)
Definition wit_bm : list (list (option R)) :=
  let c1 := sqrt (21/10) in let c0 := sqrt ((21/10) * Rpower 2 (2/3)) in
  [[Some c0; Some (- c0)]; [Some c1; Some (- c1)]; [Some 0; Some 0]].
Lemma wit_D1 : sf_D wit_bm 1 2 = Some (structure 1 0 1).
Proof.
  unfold sf_D, wit_bm, structure. cbn [Nat.ltb Nat.leb Nat.sub nth map2 osub omul]. unfold nanmean. cbn [vals rsum fold_right length INR]. f_equal.
  rewrite !Rpower_1_l. assert (E : sqrt (21/10) * sqrt (21/10) = 21/10) by (apply sqrt_sqrt; lra). field_simplify. rewrite <- Rsqr_pow2. unfold Rsqr. rewrite E. field.
Qed.
Lemma wit_D2 : sf_D wit_bm 2 2 = Some (structure 1 0 2).
Proof.
  unfold sf_D, wit_bm, structure. cbn [Nat.ltb Nat.leb Nat.sub nth map2 osub omul]. unfold nanmean. cbn [vals rsum fold_right length INR]. f_equal.
  rewrite !Rpower_1_l. pose proof (Rpower_pos 2 (2/3)) as P. assert (E : sqrt ((21/10) * Rpower 2 (2/3)) * sqrt ((21/10) * Rpower 2 (2/3)) = (21/10) * Rpower 2 (2/3)) by (apply sqrt_sqrt; lra).
  set (s := sqrt ((21/10) * _)) in *. replace (_ / (1 + 1)) with (s * s) by field. rewrite E. ring.
Qed.
Lemma sf_law_refuted : (forall k, In k (seps 1 (1#2) 2) -> sf_D wit_bm k 2 = Some (structure 1 0 (INR k * Q2R 1))) /\
  exists e, sf_epsilon 1 (1#2) 2 wit_bm 2 = Some e /\ e < 1.
Proof.
  assert (S2 : seps 1 (1#2) 2 = [1; 2]%nat) by reflexivity. assert (Q1 : Q2R 1 = 1) by (unfold Q2R; cbn; field). split.
  - rewrite S2, Q1. intros k [<-|[<-|[]]]; [rewrite wit_D1|rewrite wit_D2]; do 2 f_equal; cbn; ring.
  - assert (F : sf_fit 1 (1#2) 2 wit_bm 2 = Some ((21/10) * (Rpower 2 (2/3) - 1), 21/10 - (21/10) * (Rpower 2 (2/3) - 1) / 3)).
    { apply sf_fit_line; [reflexivity|rewrite S2; cbn; lia|unfold sf_r; rewrite map_length, seq_length; change (Z.to_nat (Qceiling (2 / 1))) with 2%nat; lia|]. rewrite S2, Q1. intros k [<-|[<-|[]]]; [rewrite wit_D1|rewrite wit_D2]; f_equal; unfold structure;
        rewrite ?Rpower_1_l; cbn [INR]; field. }
    unfold sf_epsilon. rewrite F. assert (A : 1 < Rpower 2 (2/3) < 2).
    { split; [apply (Rle_lt_trans _ (Rpower 2 0)); [rewrite Rpower_O; lra|apply Rpower_lt; lra]|].
      apply (Rlt_le_trans _ (Rpower 2 1)); [apply Rpower_lt; lra|rewrite Rpower_1; lra]. }
    destruct (Rlt_dec _ 0); [lra|]. eexists. split; [reflexivity|]. replace ((21/10) * (Rpower 2 (2/3) - 1) / (21/10)) with (Rpower 2 (2/3) - 1) by field.
    rewrite rpow_pos by lra. apply (Rlt_le_trans _ (Rpower 1 (3/2))); [apply Rlt_Rpower_l; lra|rewrite Rpower_1_l; lra].
Qed.
(** separations used *)
Lemma seps_spec b r0 r1 k : (0 < b)%Q -> (0 <= r0)%Q -> (In k (seps b r0 r1) <-> (Z.of_nat k > Qfloor (r0 / b) /\ Z.of_nat k <= Qceiling (r1 / b))%Z).
Proof.
  intros Hb Hr. unfold seps, sf_R. rewrite in_seq.
  assert (0 <= Qfloor (r0 / b))%Z. { rewrite <- (Qfloor_Z 0). apply Qfloor_resp_le. apply Qle_shift_div_l; [easy|]. now rewrite Qmult_0_l. }
  lia.
Qed.
Lemma seps_range b r0 r1 k : (0 < b)%Q -> (0 <= r0)%Q -> In k (seps b r0 r1) -> (r0 < inject_Z (Z.of_nat k) * b /\ inject_Z (Z.of_nat k) * b < r1 + b)%Q.
Proof.
  intros Hb Hr H. apply seps_spec in H as [H1 H2]; [|easy|easy]. split.
  - assert (A : (r0 / b < inject_Z (Z.of_nat k))%Q). { eapply Qlt_le_trans; [apply Qlt_floor|]. rewrite <- Zle_Qle. lia. }
    apply (Qmult_lt_r _ _ (/ b)); [now apply Qinv_lt_0_compat|]. rewrite <- Qmult_assoc, Qmult_inv_r, Qmult_1_r by (intros E; rewrite E in Hb; inversion Hb). exact A.
  - assert (A : (inject_Z (Z.of_nat k) < r1 / b + 1)%Q). { eapply Qle_lt_trans; [rewrite Zle_Qle in H2; exact H2|]. pose proof (Qceiling_lt (r1 / b)) as C.
      unfold Z.sub in C. rewrite inject_Z_plus in C. apply (Qplus_lt_l _ _ (inject_Z (-1))). eapply Qlt_le_trans; [exact C|].
      rewrite <- Qplus_assoc. setoid_replace (1 + inject_Z (-1))%Q with 0%Q by reflexivity. rewrite Qplus_0_r. apply Qle_refl. }
    apply (Qmult_lt_r _ _ b Hb) in A. eapply Qlt_le_trans; [exact A|]. rewrite Qmult_plus_distr_l, Qmult_1_l. unfold Qdiv. rewrite <- Qmult_assoc, (Qmult_comm (/ b)), Qmult_inv_r, Qmult_1_r by (intros E; rewrite E in Hb; inversion Hb).
    apply Qle_refl.
Qed.
Lemma seps_complete b r0 r1 k : (0 < b)%Q -> (0 <= r0)%Q -> (r0 < inject_Z (Z.of_nat k) * b)%Q -> (inject_Z (Z.of_nat k) * b <= r1)%Q -> In k (seps b r0 r1).
Proof.
  intros Hb Hr H1 H2. apply seps_spec; [easy|easy|]. split.
  - apply Z.lt_gt. rewrite Zlt_Qlt. eapply Qle_lt_trans; [apply Qfloor_le|]. apply Qlt_shift_div_r; [easy|exact H1].
  - rewrite Zle_Qle. eapply Qle_trans; [|apply Qle_ceiling]. apply Qle_shift_div_l; [easy|exact H2].
Qed.

(** ** ADV structure function *)
Lemma insert_const c l : Forall (eq c) l -> Forall (eq c) (insert c l).
Proof. induction l as [|y l IH]; intros H; cbn; [now constructor|]. destruct (Rle_dec c y); [now constructor|]. inversion H; subst. constructor; auto. Qed.
Lemma sort_const c l : Forall (eq c) l -> Forall (eq c) (sort l).
Proof. induction 1 as [|x l <- H IH]; cbn; [constructor|]. now apply insert_const. Qed.
Lemma insert_len x l : length (insert x l) = S (length l).
Proof. induction l as [|y l IH]; cbn; [easy|]. destruct (Rle_dec x y); cbn; congruence. Qed.
Lemma sort_len l : length (sort l) = length l.
Proof. induction l; cbn; [easy|]. now rewrite insert_len, <- IHl. Qed.
Lemma median_const c l : l <> [] -> Forall (eq c) l -> median l = Some c.
Proof.
  intros N H. unfold median. apply sort_const in H. pose proof (sort_len l) as L. set (s := sort l) in *. destruct (length s) as [|n] eqn:E.
  - destruct l; [easy|discriminate].
  - f_equal. rewrite Forall_forall in H. rewrite <- (H (nth ((S n - 1) / 2) s 0)), <- (H (nth (S n / 2) s 0)); [field| |]; apply nth_In; rewrite E.
    + apply Nat.div_lt; lia.
    + apply Nat.div_lt_upper_bound; lia.
Qed.
Lemma nth_error_ext' {A} (l m : list A) : (forall i, nth_error l i = nth_error m i) -> l = m.
Proof.
  revert m. induction l as [|a l IH]; intros [|b m] H; [easy|specialize (H 0%nat); discriminate|specialize (H 0%nat); discriminate|].
  pose proof (H 0%nat) as E. injection E as ->. f_equal. apply IH. intros i. exact (H (S i)).
Qed.
Lemma nth_skipn' {A} (d : A) n : forall l i, nth i (skipn n l) d = nth (n + i) l d.
Proof. induction n as [|n IH]; intros [|a l] i; cbn; try easy; first [now destruct i|apply IH]. Qed.
Lemma nth_firstn' {A} (d : A) n : forall l i, (i < n)%nat -> nth i (firstn n l) d = nth i l d.
Proof. induction n as [|n IH]; intros [|a l] [|i] H; cbn; try easy; try lia. apply IH. lia. Qed.
Lemma map_repeat {A B} (f : A -> B) c l : (forall x, In x l -> f x = c) -> map f l = repeat c (length l).
Proof. induction l as [|a l IH]; intros H; cbn; [easy|]. rewrite H by now left. f_equal. apply IH. intros. apply H. now right. Qed.
Lemma adv_sf_recovers U fs lo hi up eps : 0 < U -> 0 < fs -> 0 < eps -> (1 <= lo < hi)%nat -> (hi <= length up)%nat ->
  (forall L, (lo <= L < hi)%nat -> sf_lag up L = Some (structure eps 0 (U / fs * INR L))) ->
  adv_sf U fs lo hi up = inr (Some eps).
Proof.
  intros HU Hf He Hl Hh V. unfold adv_sf. destruct (Nat.ltb_spec lo hi); [|lia]. destruct (Nat.eqb_spec lo 0); [lia|]. destruct (Nat.ltb_spec (length up) hi); [lia|].
  cbn [andb orb]. set (l := map _ _).
  assert (E : l = map Some (repeat ((21/10) * Rpower eps (2/3)) (hi - lo))).
  { unfold l. rewrite (map_repeat _ (Some ((21/10) * Rpower eps (2/3)))); [rewrite seq_length; generalize (hi - lo)%nat; intros q; induction q; cbn; congruence|]. intros L HL. apply in_seq in HL.
    rewrite V by lia. f_equal. unfold structure. assert (0 < U / fs * INR L). { apply Rmult_lt_0_compat; [now apply Rdiv_lt_0_compat|]. apply lt_0_INR. lia. }
    rewrite rpow_pos by easy. pose proof (Rpower_pos (U / fs * INR L) (2/3)). field. lra. }
  rewrite E, vals_some, (median_const ((21/10) * Rpower eps (2/3))).
  - do 2 f_equal. replace ((21/10) * Rpower eps (2/3) / (21/10)) with (Rpower eps (2/3)) by field. rewrite rpow_pos by apply Rpower_pos. now apply two_thirds.
  - destruct (hi - lo)%nat eqn:Z; [lia|easy].
  - apply Forall_forall. intros x Hx. apply repeat_spec in Hx. easy.
Qed.
Lemma sf_lag_complete a L : (L < length a)%nat -> sf_lag (map Some a) L = Some (mean_square_increment a L).
Proof.
  intros H. unfold sf_lag, mean_square_increment. rewrite map_length. rewrite <- mean_seq by lia. f_equal.
  apply nth_error_ext'. intros i. rewrite Vel.map2_nth_error, nth_error_map.
  destruct (Nat.lt_ge_cases i (length a - L)).
  - rewrite (nth_error_nth' _ None (n:=i)) by (rewrite skipn_length, map_length; lia).
    rewrite (nth_error_nth' (firstn _ _) None (n:=i)) by (rewrite firstn_length, map_length; lia).
    rewrite (nth_error_nth' (seq _ _) 0%nat (n:=i)) by (rewrite seq_length; lia). rewrite seq_nth by lia. cbn [option_map Nat.add].
    rewrite nth_skipn', nth_firstn' by lia. rewrite !(nth_indep (map Some a) None (Some 0)) by (rewrite map_length; lia). rewrite !map_nth.
    cbn [osub omul]. now rewrite (Nat.add_comm L).
  - rewrite (proj2 (nth_error_None (skipn _ _) i)) by (rewrite skipn_length, map_length; lia).
    now rewrite (proj2 (nth_error_None (seq _ _) i)) by (rewrite seq_length; lia).
Qed.
Lemma adv_sf_recovers_complete U fs lo hi up eps : 0 < U -> 0 < fs -> 0 < eps -> (1 <= lo < hi)%nat -> (hi <= length up)%nat ->
  (forall L, (lo <= L < hi)%nat -> mean_square_increment up L = structure eps 0 (U / fs * INR L)) ->
  adv_sf U fs lo hi (map Some up) = inr (Some eps).
Proof.
  intros HU Hf He Hl Hh V. apply adv_sf_recovers; try easy; [now rewrite map_length|]. intros L HL. rewrite sf_lag_complete by lia. f_equal. now apply V.
Qed.
Lemma adv_sf_raises U fs lo hi up : adv_sf U fs lo hi up = inl tt <-> (lo < hi)%nat /\ (lo = 0%nat \/ (length up < hi)%nat).
Proof.
  unfold adv_sf. destruct (Nat.ltb_spec lo hi), (Nat.eqb_spec lo 0), (Nat.ltb_spec (length up) hi); cbn [andb orb]; split; try easy; try lia; intuition lia.
Qed.

(** ** noise level *)
Lemma doppler_white fs pct freq row N (hz : bool) : let lo := (if hz then 1 else 2 * PI) * (pct * (fs / 2)) in let hi := (if hz then 1 else 2 * PI) * (fs / 2) in
  0 <= N -> 0 <= pct -> 0 < fs -> length row = length freq -> (exists j, (j < length freq)%nat /\ lo <= nth j freq 0 <= hi) ->
  (forall j, (j < length freq)%nat -> lo <= nth j freq 0 <= hi -> nth j row 0 = N) ->
  exists s, doppler_noise fs pct hz freq row = Some s /\ 0 <= s /\ N * lo <= s * s <= N * hi.
Proof.
  intros lo hi HN Hp Hf L (j & Hj & B) V. unfold doppler_noise. pose proof PI_RGT_0 as P0.
  replace (if hz then (pct * (fs / 2), fs / 2) else (2 * PI * (pct * (fs / 2)), 2 * PI * (fs / 2))) with (lo, hi) by (unfold lo, hi; destruct hz; f_equal; ring).
  set (sel := filter _ _).
  assert (C : forall fp : R * R, (if Rle_dec lo (fst fp) then true else false) && (if Rle_dec (fst fp) hi then true else false) = true <-> lo <= fst fp <= hi)
    by (intros fp; destruct (Rle_dec lo (fst fp)), (Rle_dec (fst fp) hi); cbn; split; try easy; lra).
  assert (I : In (nth j freq 0, nth j row 0) sel). { apply filter_In. split; [apply in_combine_nth; [easy|now exists j]|now apply C]. }
  assert (A : forall x, In x sel -> lo <= fst x <= hi /\ snd x = N).
  { intros x Hx. apply filter_In in Hx as [Hx Hb]. apply C in Hb. apply in_combine_nth in Hx as (k & Hk & ->); [|easy]. cbn [fst snd] in *. split; [easy|]. now apply V. }
  assert (Ne : sel <> []) by (intros Z; rewrite Z in I; destruct I).
  assert (L0 : 0 <= lo) by (unfold lo; assert (0 <= pct * (fs / 2)) by (apply Rmult_le_pos; lra); destruct hz; apply Rmult_le_pos; lra).
  assert (M : N * lo <= mean (map (fun fp => snd fp * fst fp) sel) <= N * hi).
  { assert (Nm : map (fun fp : R * R => snd fp * fst fp) sel <> []) by (destruct sel; easy). pose proof (INR_len_pos _ Nm) as P.
    pose proof (rsum_bounds (map (fun fp => snd fp * fst fp) sel) (N * lo) (N * hi)) as Bd. destruct Bd as [B1 B2].
    - intros y Hy. apply in_map_iff in Hy as (z & <- & Hz). destruct (A z Hz) as [[A1 A2] ->]. split; apply Rmult_le_compat_l; lra.
    - unfold mean. set (n := INR _) in *. split; apply (Rmult_le_reg_r n); try easy; unfold Rdiv; rewrite ?Rmult_assoc, ?Rinv_l, ?Rmult_1_r by lra; lra. }
  exists (sqrt (mean (map (fun fp => snd fp * fst fp) sel))). assert (0 <= mean (map (fun fp => snd fp * fst fp) sel)) by (apply (Rle_trans _ (N * lo)); [now apply Rmult_le_pos|apply M]).
  split; [destruct sel; easy|]. split; [apply sqrt_pos|]. now rewrite sqrt_sqrt by easy.
Qed.
(** the same level whichever the frequency unit *)
Lemma combine_map2 {A B C D} (f : A -> C) (g : B -> D) l : forall m, combine (map f l) (map g m) = map (fun p => (f (fst p), g (snd p))) (combine l m).
Proof. induction l as [|a l IH]; intros [|b m]; cbn; try easy. now rewrite IH. Qed.
Lemma filter_map {A B} (f : A -> B) p l : filter p (map f l) = map f (filter (fun x => p (f x)) l).
Proof. induction l as [|a l IH]; cbn; [easy|]. destruct (p (f a)); cbn; congruence. Qed.
Lemma doppler_units fs pct freq row :
  doppler_noise fs pct false (map (Rmult (2 * PI)) freq) (map (fun p => p / (2 * PI)) row) = doppler_noise fs pct true freq row.
Proof.
  unfold doppler_noise. pose proof PI_RGT_0 as P0. rewrite combine_map2, filter_map. cbn [fst snd].
  assert (E : forall a b, (if Rle_dec (2 * PI * a) (2 * PI * b) then true else false) = (if Rle_dec a b then true else false)).
  { intros a b. destruct (Rle_dec (2 * PI * a) (2 * PI * b)) as [H|H], (Rle_dec a b) as [G|G]; try easy.
    - destruct G. apply (Rmult_le_reg_l (2 * PI)); lra.
    - destruct H. apply Rmult_le_compat_l; lra. }
  rewrite (filter_ext _ (fun fp : R * R => (if Rle_dec (pct * (fs / 2)) (fst fp) then true else false) && (if Rle_dec (fst fp) (fs / 2) then true else false)))
    by (intros x; rewrite (E (pct * (fs / 2)) (fst x)), (E (fst x) (fs / 2)); reflexivity). destruct (filter _ _) as [|x l]; [easy|]. cbn [map]. do 2 f_equal.
  set (sel := x :: l). transitivity (mean (map (fun fp : R * R => snd fp * fst fp) (map (fun p => (2 * PI * fst p, snd p / (2 * PI))) sel))); [reflexivity|].
  symmetry. transitivity (mean (map (fun fp : R * R => snd fp * fst fp) sel)); [reflexivity|]. rewrite map_map. f_equal. apply map_ext. intros [f p]. cbn. field. lra.
Qed.

(** ** cascade slope *)
Lemma log10_power m b x : 0 < x -> log10 (Rpower 10 b * Rpower x m) = m * log10 x + b.
Proof.
  intros H. unfold log10. rewrite ln_mult by apply Rpower_pos. unfold Rpower. rewrite !ln_exp. field.
  assert (0 < ln 10); [|lra]. rewrite <- ln_1. apply ln_increasing; lra.
Qed.
Lemma log10_inj x y : 0 < x -> 0 < y -> log10 x = log10 y -> x = y.
Proof.
  intros Hx Hy H. unfold log10 in H. assert (0 < ln 10) by (rewrite <- ln_1; apply ln_increasing; lra).
  apply ln_inv; [easy|easy|]. apply (Rmult_eq_reg_r (/ ln 10)); [exact H|]. apply Rinv_neq_0_compat. lra.
Qed.
Lemma cascade_exact lo hi freq row m b i j : 0 <= lo -> length row = length freq -> (i < length freq)%nat -> (j < length freq)%nat ->
  lo < nth i freq 0 < hi -> lo < nth j freq 0 < hi -> nth i freq 0 <> nth j freq 0 ->
  (forall k, (k < length freq)%nat -> lo < nth k freq 0 < hi -> nth k row 0 = Rpower 10 b * Rpower (nth k freq 0) m) ->
  cascade_slope lo hi freq row = Some (m, b).
Proof.
  intros Hlo L Hi Hj Bi Bj D V. unfold cascade_slope. set (sel := filter _ _).
  assert (A : forall x, In x sel -> 0 < fst x /\ snd x = Rpower 10 b * Rpower (fst x) m).
  { intros x Hx. apply filter_In in Hx as [Hx Hb]. apply inside_iff in Hb. apply in_combine_nth in Hx as (k & Hk & ->); [|easy]. cbn [fst snd] in *. split; [lra|now apply V]. }
  assert (I : forall k, (k < length freq)%nat -> lo < nth k freq 0 < hi -> In (log10 (nth k freq 0)) (map (fun fp => log10 (fst fp)) sel)).
  { intros k Hk Bk. apply (in_map (fun fp => log10 (fst fp)) sel (nth k freq 0, nth k row 0)). apply filter_In. split; [apply in_combine_nth; [easy|now exists k]|now apply inside_iff]. }
  replace (map (fun fp => log10 (snd fp)) sel) with (map (fun x => m * x + b) (map (fun fp => log10 (fst fp)) sel)).
  - apply (polyfit_line _ m b (log10 (nth i freq 0)) (log10 (nth j freq 0))); [now apply I|now apply I|]. intros E. apply D. apply log10_inj; [lra|lra|exact E].
  - rewrite map_map. apply map_ext_in. intros x Hx. destruct (A x Hx) as [P ->]. now rewrite log10_power.
Qed.

(** ** length scale *)
Lemma first_false_some l : forall i k, first_false l i = Some k <-> (i <= k)%nat /\ nth_error l (k - i) = Some false /\ forall j, (j < k - i)%nat -> nth_error l j = Some true.
Proof.
  induction l as [|a l IH]; intros i k; cbn [first_false].
  - split; [easy|]. intros (_ & H & _). destruct (k - i)%nat; discriminate.
  - destruct a.
    + rewrite IH. split.
      * intros (H & E & F). assert (E1 : (k - i = S (k - S i))%nat) by lia. rewrite E1. split; [lia|]. split; [easy|]. intros [|j] Hj; [easy|]. cbn. apply F. lia.
      * intros (H & E & F). destruct (k - i)%nat as [|d] eqn:Ed; [discriminate|]. assert (k - S i = d)%nat as -> by lia. split; [lia|]. split; [easy|].
        intros j Hj. apply (F (S j)). lia.
    + split.
      * intros [= <-]. rewrite Nat.sub_diag. split; [lia|]. split; [easy|]. intros; lia.
      * intros (H & E & F). destruct (k - i)%nat as [|d] eqn:Ed; [f_equal; lia|]. specialize (F 0%nat ltac:(lia)). discriminate.
Qed.
Lemma first_false_none l : forall i, first_false l i = None <-> forall j, (j < length l)%nat -> nth_error l j = Some true.
Proof.
  induction l as [|[|] l IH]; intros i; cbn [first_false].
  - split; [intros _ j Hj; cbn in Hj; lia|easy].
  - rewrite IH. split; [intros H [|j] Hj; [easy|apply H; cbn in Hj; lia]|]. intros H j Hj. apply (H (S j)). cbn. lia.
  - split; [easy|]. intros H. specialize (H 0%nat). cbn in H. specialize (H ltac:(lia)). discriminate.
Qed.
Lemma l_int_first acov U fs k : 0 < nth 0 acov 0 -> (k < length acov)%nat ->
  nth k acov 0 <= nth 0 acov 0 * exp (-1) -> (forall j, (j < k)%nat -> nth j acov 0 > nth 0 acov 0 * exp (-1)) ->
  l_int acov U fs = U * (INR k / fs).
Proof.
  intros A Hk H F. unfold l_int. set (a0 := nth 0 acov 0) in *. destruct (Req_EM_T a0 0); [lra|].
  assert (C : forall x, (if Rlt_dec (exp (-1)) (x / a0) then true else false) = true <-> x > a0 * exp (-1)).
  { intros x. destruct (Rlt_dec (exp (-1)) (x / a0)) as [G|G]; split; try easy.
    - intros _. apply (Rmult_lt_compat_l a0) in G; [|easy]. replace (a0 * (x / a0)) with x in G by (field; lra). lra.
    - intros G'. destruct G. apply (Rmult_lt_reg_l a0); [easy|]. replace (a0 * (x / a0)) with x by (field; lra). lra. }
  replace (argmin _) with k; [unfold Rdiv; ring|]. unfold argmin. set (l := map _ acov). assert (E : first_false l 0 = Some k); [|now rewrite E].
  apply first_false_some. rewrite Nat.sub_0_r. split; [lia|]. unfold l. split.
  - rewrite nth_error_map, (nth_error_nth' acov 0 Hk). cbn [option_map]. f_equal. destruct (Rlt_dec _ _) as [G|G] eqn:Ed; [|easy]. exfalso.
    assert (true = true) as T by easy. specialize (C (nth k acov 0)). rewrite Ed in C. apply C in T. lra.
  - intros j Hj. rewrite nth_error_map, (nth_error_nth' acov 0) by lia. cbn [option_map]. f_equal. apply C. now apply F.
Qed.
Lemma l_int_never acov U fs : 0 < nth 0 acov 0 -> (forall j, (j < length acov)%nat -> nth j acov 0 > nth 0 acov 0 * exp (-1)) -> l_int acov U fs = 0.
Proof.
  intros A F. unfold l_int. set (a0 := nth 0 acov 0) in *. destruct (Req_EM_T a0 0); [lra|]. set (l := map _ acov).
  assert (E : first_false l 0 = None); [|unfold argmin; rewrite E; cbn [INR]; ring]. apply first_false_none. intros j Hj. unfold l in *. rewrite map_length in Hj.
  rewrite nth_error_map, (nth_error_nth' acov 0) by easy. cbn [option_map]. f_equal. specialize (F j Hj). destruct (Rlt_dec _ _) as [G|G]; [easy|]. destruct G.
  apply (Rmult_lt_reg_l a0); [easy|]. replace (a0 * (nth j acov 0 / a0)) with (nth j acov 0) by (field; lra). lra.
Qed.

(** ** friction velocity *)
Lemma ustar_exact H z us (neg : bool) : z <> [] -> 0 < us -> 0 < H -> (forall d, In d z -> d < H) ->
  ustar H z (map (fun d => (if neg then -1 else 1) * (us * us) * (1 - d / H)) z) = Some us.
Proof.
  intros N Hu HH B. unfold ustar. set (sg := if neg then -1 else 1). assert (S1 : sg * sg = 1) by (unfold sg; destruct neg; ring).
  assert (D : forall d, In d z -> 0 < 1 - d / H). { intros d Hd. specialize (B d Hd). apply (Rmult_lt_reg_r H); [easy|]. replace ((1 - d / H) * H) with (H - d) by (field; lra). lra. }
  rewrite (mean_const (map sign _) sg).
  - set (m := mean _). assert (E : m = us * us).
    { unfold m. apply mean_const; [destruct z; easy|]. intros x Hx. clear m.
      assert (G : forall l, incl l z -> In x (map2 (fun u d => sg * u / (1 - d / H)) (map (fun d => sg * (us * us) * (1 - d / H)) l) l) -> x = us * us).
      { induction l as [|d l IH]; cbn [map map2]; [easy|]. intros I [<-|Hin].
        - specialize (D d (I d (or_introl eq_refl))). set (q := 1 - d / H) in *. replace (sg * (sg * (us * us) * q) / q) with (sg * sg * (us * us)) by (field; lra). rewrite S1. ring.
        - apply IH; [|easy]. intros y Hy. apply I. now right. }
      apply (G z); [apply incl_refl|exact Hx]. }
    rewrite E. destruct (Rlt_dec _ 0); [nra|]. f_equal. apply sqrt_square. lra.
  - destruct z; easy.
  - intros x Hx. apply in_map_iff in Hx as (y & <- & Hy). apply in_map_iff in Hy as (d & <- & Hd). specialize (D d Hd). assert (0 < us * us) by nra.
    set (q := 1 - d / H) in *. assert (0 < us * us * q) by now apply Rmult_lt_0_compat. unfold sign, sg. destruct neg.
    + destruct (Rlt_dec 0 _); [lra|]. destruct (Rlt_dec _ 0); lra.
    + destruct (Rlt_dec 0 _); [lra|]. destruct (Rlt_dec _ 0); lra.
Qed.

(** ** TE01 *)
Lemma map2_plus_nth pu : forall pv j, length pv = length pu -> (j < length pu)%nat -> nth j (map2 Rplus pu pv) 0 = nth j pu 0 + nth j pv 0.
Proof. induction pu as [|a pu IH]; intros [|b pv] [|j] L H; cbn in *; try lia; try discriminate; [easy|]. apply IH; lia. Qed.
Lemma weighted_const lo hi freq p c : 0 <= lo -> length p = length freq -> (exists j, (j < length freq)%nat /\ lo < nth j freq 0 < hi) ->
  (forall j, (j < length freq)%nat -> lo < nth j freq 0 < hi -> nth j p 0 = c * Rpower (nth j freq 0) (- (5/3))) ->
  map (fun fp => snd fp * rpow (fst fp) (5/3)) (filter (inside lo hi) (combine freq p)) <> [] /\
  mean (map (fun fp => snd fp * rpow (fst fp) (5/3)) (filter (inside lo hi) (combine freq p))) = c.
Proof.
  intros Hlo L (j & Hj & B) V. set (sel := filter _ _).
  assert (I : In (nth j freq 0, nth j p 0) sel). { apply filter_In. split; [apply in_combine_nth; [easy|now exists j]|now apply inside_iff]. }
  assert (N : map (fun fp => snd fp * rpow (fst fp) (5/3)) sel <> []) by (destruct sel; [destruct I|easy]). split; [exact N|].
  apply mean_const; [exact N|]. intros x Hx. apply in_map_iff in Hx as (y & <- & Hy). apply filter_In in Hy as [Hy Hb]. apply inside_iff in Hb.
  apply in_combine_nth in Hy as (k & Hk & ->); [|easy]. cbn [fst snd] in *. rewrite V by easy. rewrite rpow_pos by lra.
  rewrite Rmult_assoc, cancel53 by lra. ring.
Qed.
Lemma te01_general lo hi freq pu pv pw I U c : 0 <= lo -> 0 < I -> 0 < U -> 0 < c -> length pu = length freq -> length pv = length freq -> length pw = length freq ->
  (exists j, (j < length freq)%nat /\ lo < nth j freq 0 < hi) ->
  (forall j, (j < length freq)%nat -> lo < nth j freq 0 < hi -> nth j pu 0 + nth j pv 0 = 21/55 * (3/2) * I * c * Rpower (nth j freq 0) (- (5/3))) ->
  (forall j, (j < length freq)%nat -> lo < nth j freq 0 < hi -> nth j pw 0 = 12/55 * (3/2) * I * c * Rpower (nth j freq 0) (- (5/3))) ->
  te01 lo hi freq pu pv pw I U = Some (Rpower c (3/2) / U).
Proof.
  intros Hlo HI HU Hc Lu Lv Lw X Vh Vv. unfold te01.
  destruct (weighted_const lo hi freq pw _ Hlo Lw X Vv) as [_ ->].
  destruct (weighted_const lo hi freq (map2 Rplus pu pv) (21/55 * (3/2) * I * c)) as [_ ->]; [easy|rewrite map2_len; lia|easy| |].
  { intros j Hj B. rewrite map2_plus_nth by lia. now apply Vh. }
  set (w := map _ (filter _ (combine freq pu))). assert (N : w <> []).
  { destruct X as (j & Hj & B). unfold w. assert (J : In (nth j freq 0, nth j pu 0) (filter (inside lo hi) (combine freq pu)))
      by (apply filter_In; split; [apply in_combine_nth; [easy|now exists j]|now apply inside_iff]). destruct (filter _ _); [destruct J|easy]. }
  destruct w; [easy|]. f_equal. replace (21/55 * (3/2) * I * c / (21/55 * (3/2) * I)) with c by (field; lra).
  replace (12/55 * (3/2) * I * c / (12/55 * (3/2) * I)) with c by (field; lra). rewrite rpow_pos by easy. field. lra.
Qed.
Lemma te01_rad lo hi freq pu pv pw I U eps : 0 <= lo -> 0 < I -> 0 < U -> 0 < eps -> length pu = length freq -> length pv = length freq -> length pw = length freq ->
  (exists j, (j < length freq)%nat /\ lo < nth j freq 0 < hi) ->
  (forall j, (j < length freq)%nat -> lo < nth j freq 0 < hi -> nth j pu 0 + nth j pv 0 = te01_h I eps U (nth j freq 0) /\ nth j pw 0 = te01_v I eps U (nth j freq 0)) ->
  te01 lo hi freq pu pv pw I U = Some eps.
Proof.
  intros Hlo HI HU He Lu Lv Lw X V. pose proof (Rpower_pos eps (2/3)) as P1. pose proof (Rpower_pos U (2/3)) as P2.
  rewrite (te01_general lo hi freq pu pv pw I U (Rpower eps (2/3) * Rpower U (2/3))); try easy; [|now apply Rmult_lt_0_compat| |].
  - f_equal. rewrite <- Rpower_mult_distr by easy. rewrite !two_thirds by easy. field. lra.
  - intros j Hj B. destruct (V j Hj B) as [-> _]. unfold te01_h. ring.
  - intros j Hj B. destruct (V j Hj B) as [_ ->]. unfold te01_v. ring.
Qed.
Lemma te01_hz lo hi freq pu pv pw I U eps : 0 <= lo -> 0 < I -> 0 < U -> 0 < eps -> length pu = length freq -> length pv = length freq -> length pw = length freq ->
  (exists j, (j < length freq)%nat /\ lo < nth j freq 0 < hi) ->
  (forall j, (j < length freq)%nat -> lo < nth j freq 0 < hi ->
     nth j pu 0 + nth j pv 0 = 2 * PI * te01_h I eps U (2 * PI * nth j freq 0) /\ nth j pw 0 = 2 * PI * te01_v I eps U (2 * PI * nth j freq 0)) ->
  te01 lo hi freq pu pv pw I U = Some (eps / (2 * PI)).
Proof.
  intros Hlo HI HU He Lu Lv Lw X V. pose proof (Rpower_pos eps (2/3)) as P1. pose proof (Rpower_pos U (2/3)) as P2. pose proof PI_RGT_0 as P0.
  assert (D : 0 < / (2 * PI)) by (apply Rinv_0_lt_compat; lra).
  assert (E : 2 * PI * Rpower (2 * PI) (- (5/3)) = Rpower (/ (2 * PI)) (2/3)).
  { rewrite <- (Rpower_1 (2 * PI)) at 1 by lra. rewrite <- Rpower_plus. rewrite <- (Rpower_1 (2 * PI)) at 2 by lra. rewrite <- Rpower_Ropp, Rpower_mult. f_equal. field. }
  rewrite (te01_general lo hi freq pu pv pw I U (Rpower eps (2/3) * Rpower U (2/3) * Rpower (/ (2 * PI)) (2/3))); try easy.
  - f_equal. rewrite <- !Rpower_mult_distr; try apply Rpower_pos; try (now apply Rmult_lt_0_compat). rewrite !two_thirds by easy. field. lra.
  - apply Rmult_lt_0_compat; [now apply Rmult_lt_0_compat|apply Rpower_pos].
  - intros j Hj B. destruct (V j Hj B) as [-> _]. unfold te01_h. rewrite <- Rpower_mult_distr by lra. rewrite <- E. ring.
  - intros j Hj B. destruct (V j Hj B) as [_ ->]. unfold te01_v. rewrite <- Rpower_mult_distr by lra. rewrite <- E. ring.
Qed.

(** ** in terms of [used_separation] *)
Lemma used_seps b r0 r1 k : (0 < b)%Q -> (0 <= r0)%Q -> (used_separation b r0 r1 k <-> In k (seps b r0 r1)).
Proof. intros Hb Hr. unfold used_separation. rewrite seps_spec by easy. lia. Qed.
Lemma floor_nonneg b r0 : (0 < b)%Q -> (0 <= r0)%Q -> (0 <= Qfloor (r0 / b))%Z.
Proof. intros Hb Hr. rewrite <- (Qfloor_Z 0). apply Qfloor_resp_le. apply Qle_shift_div_l; [easy|]. now rewrite Qmult_0_l. Qed.
Lemma sf_recovers' b r0 r1 bm z eps N : (0 < b)%Q -> (0 <= r0)%Q -> (Qfloor (r0 / b) + 2 <= Qceiling (r1 / b) <= Z.of_nat z)%Z -> 0 < eps -> 0 <= N ->
  (forall k, used_separation b r0 r1 k -> sf_D bm k z = Some ((21/10) * Rpower eps (2/3) * (INR k * Q2R b * (INR k * Q2R b) / 3) + N)) ->
  sf_epsilon b r0 r1 bm z = Some eps /\ sf_noise b r0 r1 bm z = Some (sqrt (N / 2)).
Proof.
  intros Hb Hr H He HN V. pose proof (floor_nonneg b r0 Hb Hr). apply sf_recovers; try easy.
  - unfold seps, sf_R. rewrite seq_length. lia.
  - unfold sf_r. rewrite map_length, seq_length. lia.
  - intros k Hk. apply V. now apply used_seps.
Qed.

(** ** in terms of the samples *)
Lemma both_vals a : forall b, vals (map2 (fun x y => omul (osub x y) (osub x y)) a b) = map (fun p => (fst p - snd p) * (fst p - snd p)) (both a b).
Proof. induction a as [|x a IH]; intros [|y b]; [reflexivity|reflexivity|destruct x; reflexivity|]. destruct x, y; cbn [map2 osub omul vals both map fst snd]; rewrite IH; reflexivity. Qed.
Lemma D_difference bm z k D : difference_is bm z k D -> sf_D bm k z = Some D.
Proof.
  intros (K & N & E). unfold sf_D. destruct (Nat.ltb_spec z k); [lia|]. unfold nanmean. rewrite both_vals. set (l := both _ _) in *.
  destruct (map _ l) eqn:M; [destruct l; [contradiction|discriminate M]|]. rewrite <- M, map_length, <- E. reflexivity.
Qed.
Lemma difference_D bm z k D : sf_D bm k z = Some D -> difference_is bm z k D.
Proof.
  unfold sf_D, difference_is. destruct (Nat.ltb_spec z k); [discriminate|]. unfold nanmean. rewrite both_vals. set (l := both _ _) in *. intros H0. split; [lia|].
  destruct (map _ l) eqn:M; [discriminate|]. rewrite <- M, map_length in H0. split; [intros ->; discriminate M|]. injection H0 as <-. reflexivity.
Qed.
Lemma D_none bm z k : both (nth (z - k) bm []) (nth z bm []) = [] -> sf_D bm k z = None.
Proof. intros E. unfold sf_D. destruct (Nat.ltb z k); [reflexivity|]. unfold nanmean. rewrite both_vals, E. reflexivity. Qed.
Lemma fit_D b r0 r1 bm z : sf_fit b r0 r1 bm z = if Nat.ltb z (length (sf_r b r1)) then None
  else match all_some (map (fun k => sf_D bm k z) (seps b r0 r1)) with None => None | Some d => polyfit1 (map (fun x => x * x / 3) (skipn (sf_R b r0) (sf_r b r1))) d end.
Proof. unfold sf_fit. cbv zeta. rewrite skipn_map, skipn_seq. unfold sf_r at 2. rewrite map_length, seq_length. reflexivity. Qed.
Lemma fit_same b r0 r1 bm bm' z : (0 < b)%Q -> (0 <= r0)%Q -> (forall k, used_separation b r0 r1 k -> nth (z - k) bm [] = nth (z - k) bm' []) -> nth z bm [] = nth z bm' [] ->
  sf_epsilon b r0 r1 bm z = sf_epsilon b r0 r1 bm' z /\ sf_noise b r0 r1 bm z = sf_noise b r0 r1 bm' z.
Proof.
  intros Hb Hr H Hz. assert (E : sf_fit b r0 r1 bm z = sf_fit b r0 r1 bm' z); [|unfold sf_epsilon, sf_noise; rewrite E; split; reflexivity].
  rewrite !fit_D. rewrite (map_ext_in (fun k => sf_D bm k z) (fun k => sf_D bm' k z)); [reflexivity|]. intros k Ik. unfold sf_D. rewrite (H k) by (apply used_seps; assumption). rewrite Hz. reflexivity.
Qed.
Lemma all_some_none {A} (f : A -> option R) l k : In k l -> f k = None -> all_some (map f l) = None.
Proof. intros I N. induction l as [|x l IH]; [destruct I|]. cbn [map all_some]. destruct I as [->|I]; [rewrite N; reflexivity|]. destruct (f x); [rewrite (IH I)|]; reflexivity. Qed.
Lemma fit_needs b r0 r1 bm z k : (0 < b)%Q -> (0 <= r0)%Q -> used_separation b r0 r1 k -> both (nth (z - k) bm []) (nth z bm []) = [] ->
  sf_epsilon b r0 r1 bm z = None /\ sf_noise b r0 r1 bm z = None.
Proof.
  intros Hb Hr U E. assert (F : sf_fit b r0 r1 bm z = None); [|unfold sf_epsilon, sf_noise; rewrite F; split; reflexivity].
  rewrite fit_D. destruct (Nat.ltb z _); [reflexivity|]. rewrite (all_some_none _ _ k); [reflexivity|apply used_seps; assumption|]. apply D_none, E.
Qed.
