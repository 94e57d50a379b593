From Coq Require Import Reals List QArith ZArith Arith Lra Lia.
From Verif.Model Require Import Reshape Stats Despike Covariance.
From Verif.Spec Require Import Reshape Stats Covariance.
From Verif.Proofs Require Import Stats Reshape Despike.
Import ListNotations.
Open Scope R_scope.

Lemma tab_eq n f (l : list (option R)) : length l = n -> (forall c, (c < n)%nat -> nth_error l c = Some (Some (f c))) -> l = tab n f.
Proof.
  intros L H. apply nth_ext with (d := None) (d' := None); [now rewrite tab_length|]. intros c Hc. rewrite L in Hc.
  rewrite tab_nth by exact Hc. now apply nth_error_nth, H.
Qed.
Lemma tab_nth_error n f c : (c < n)%nat -> nth_error (tab n f) c = Some (Some (f c)).
Proof. intros H. rewrite (nth_error_nth' _ None) by (rewrite tab_length; exact H). now rewrite tab_nth. Qed.
Lemma tab_firstn a n f : (a <= n)%nat -> firstn a (tab n f) = tab a f.
Proof.
  intros H. apply tab_eq; [rewrite firstn_length, tab_length; lia|]. intros c Hc. rewrite firstn_nth by exact Hc. apply tab_nth_error. lia.
Qed.
Lemma tab_skipn a n f : (a <= n)%nat -> skipn a (tab n f) = tab (n - a) (fun c => f (a + c)%nat).
Proof.
  intros H. apply tab_eq; [now rewrite skipn_length, tab_length|]. intros c Hc. rewrite skipn_nth. apply tab_nth_error. lia.
Qed.
Lemma tab_rev n f : rev (tab n f) = tab n (fun c => f (n - 1 - c)%nat).
Proof.
  apply tab_eq; [now rewrite rev_length, tab_length|]. intros c Hc.
  rewrite (nth_error_nth' _ None) by (rewrite rev_length, tab_length; exact Hc). rewrite rev_nth by (rewrite tab_length; exact Hc). rewrite tab_length, tab_nth by lia.
  do 2 f_equal. f_equal. lia.
Qed.
Lemma tab_map2 (F : option R -> option R -> option R) h n f g : (forall x y, F (Some x) (Some y) = Some (h x y)) -> map2 F (tab n f) (tab n g) = tab n (fun i => h (f i) (g i)).
Proof. intros H. unfold tab. rewrite map2_map. apply map_ext. intros i. apply H. Qed.
Lemma map2_seq (F G : nat -> option R) n : forall m k s, (n <= m)%nat -> map2 omul (map F (seq k m)) (map G (seq s n)) = map (fun j => omul (F (k + j)%nat) (G (s + j)%nat)) (seq 0 n).
Proof.
  induction n as [|n IH]; intros m k s H; [now destruct m|]. destruct m as [|m]; [lia|]. cbn [seq map map2]. rewrite !Nat.add_0_r. f_equal.
  rewrite IH by lia. rewrite <- seq_shift, map_map. apply map_ext. intros j. now rewrite !Nat.add_succ_r.
Qed.
Lemma corr_tab n p f g : correlate (tab (n + p) f) (tab n g) = tab (p + 1) (fun k => total n (fun j => f (k + j)%nat * g j)).
Proof.
  unfold correlate. rewrite !tab_length. replace (n + p - n + 1)%nat with (p + 1)%nat by lia. unfold tab at 3. apply map_ext_in. intros k Hk. apply in_seq in Hk.
  rewrite tab_skipn by lia. unfold tab at 1 2. rewrite map2_seq by lia. change (map _ _) with (tab n (fun j => f (k + j)%nat * g j)). now rewrite osum_tab.
Qed.
Lemma less_mid_tab lo hi w f : (lo + hi < w)%nat -> exists c, less_mid lo hi (tab w f) = tab w (fun i => f i - c).
Proof.
  intros H. unfold less_mid. rewrite tab_length, tab_skipn, tab_firstn by lia. destruct (w - hi - lo)%nat as [|a] eqn:E; [lia|].
  exists (total (S a) (fun c => f (lo + c)%nat) / INR (S a)). rewrite <- tab_sub. apply map_ext. intros v. rewrite <- omean_tab. reflexivity.
Qed.

Lemma nth_prefix (l : list R) m k : (k < m)%nat -> (m <= length l)%nat -> nth k (firstn m l) 0 = nth k l 0.
Proof. intros K M. rewrite <- (firstn_skipn m l) at 2. rewrite app_nth1; [reflexivity|]. rewrite firstn_length. lia. Qed.

Section Rows.
Variables (xs : list R) (n : nat).
Hypothesis (N1 : (1 <= n)%nat) (NL : (n <= length xs)%nat).
Notation nb := (length xs / n)%nat.
Notation arr := (map Some xs).
Notation whole := (firstn (nb * n) xs).
Notation nq := (inject_Z (Z.of_nat n)).
Lemma nb_le : (nb * n <= length xs)%nat. Proof. rewrite Nat.mul_comm. apply Nat.mul_div_le. lia. Qed.
Lemma whole_length : length whole = (nb * n)%nat. Proof. rewrite firstn_length. pose proof nb_le. lia. Qed.
Lemma nb_pos : (1 <= nb)%nat. Proof. apply Nat.div_le_lower_bound; lia. Qed.
Lemma in_bin i j : (i < nb)%nat -> (j < n)%nat -> (i * n + j < nb * n)%nat. Proof. intros I J. nia. Qed.
Lemma binned_rows : exists rows, binned arr nq = inr rows /\ table rows nb n /\ concat rows = map Some whole /\
  forall i, (i < nb)%nat -> nth_error rows i = Some (tab n (fun j => nth (i * n + j) xs 0)).
Proof.
  exists (chunks n nb (firstn (nb * n) arr)). pose proof (binned_whole arr n ltac:(rewrite map_length; lia)) as E. rewrite map_length in E. split; [exact E|].
  assert (L : length (firstn (nb * n) arr) = (nb * n)%nat) by (rewrite firstn_map, map_length; apply whole_length).
  split; [now apply chunks_table|]. split; [rewrite chunks_concat by exact L; apply firstn_map|].
  intros i I. rewrite chunk_nth by exact I. f_equal. apply tab_eq; [rewrite firstn_length, skipn_length, L; nia|].
  intros c Hc. rewrite firstn_nth, skipn_nth, firstn_nth by (try exact Hc; now apply in_bin). rewrite nth_error_map.
  rewrite (nth_error_nth' xs 0); [reflexivity|]. pose proof nb_le. pose proof (in_bin i c I Hc). lia.
Qed.
Lemma avg_tab f : nanmean (tab n f) = Some (total n f / INR n).
Proof.
  unfold tab. rewrite <- (map_map f Some), nanmean_some; rewrite vals_some; [|destruct n; [lia|discriminate]]. rewrite rsum_seq. now rewrite map_length, seq_length.
Qed.
Lemma demean_rows : exists rows, bin_demean arr 0 nq = inr rows /\ length rows = nb /\
  forall i, (i < nb)%nat -> nth_error rows i = Some (tab n (fun j => nth (i * n + j) xs 0 - bin_avg xs n i)).
Proof.
  destruct binned_rows as (rows & E & (T1 & T2) & C & H). unfold bin_demean, over_bins, reshape. rewrite E.
  rewrite place_nil. exists (map demean_row rows). split; [reflexivity|]. split; [now rewrite map_length|].
  intros i I. rewrite nth_error_map, H by exact I. cbn [option_map]. f_equal. unfold demean_row. rewrite avg_tab. apply tab_sub.
Qed.
Lemma std_rows : exists rows, bin_std arr nq = inr rows /\ length rows = nb /\
  forall i, (i < nb)%nat -> nth_error rows i = Some (Some (sqrt (bin_variance xs n i))).
Proof.
  destruct binned_rows as (rows & E & (T1 & T2) & C & H). unfold bin_std, over_bins, reshape. rewrite E.
  rewrite place_nil. exists (map (fun r => osqrt (nanvar r)) rows). split; [reflexivity|]. split; [now rewrite map_length|].
  intros i I. rewrite nth_error_map, H by exact I. cbn [option_map]. f_equal. unfold nanvar. rewrite avg_tab.
  rewrite (tab_map n _ _ (fun j => (nth (i * n + j) xs 0 - bin_avg xs n i) * (nth (i * n + j) xs 0 - bin_avg xs n i))) by reflexivity. now rewrite avg_tab.
Qed.
Lemma at_or_some (l : list R) z : at_or (Some 0) (map Some l) z = Some (at_or 0 l z).
Proof. unfold at_or. destruct (z <? 0)%Z; [reflexivity|]. now rewrite (map_nth Some l 0). Qed.
Lemma table_tab rows w (f : nat -> nat -> R) : table rows nb w -> (forall i c, (i < nb)%nat -> (c < w)%nat -> cell rows i c = Some (Some (f i c))) ->
  forall i, (i < nb)%nat -> nth_error rows i = Some (tab w (f i)).
Proof.
  intros [T1 T2] H i I. destruct (nth_error rows i) as [r|] eqn:E; [|apply nth_error_None in E; lia]. f_equal. apply tab_eq; [apply T2; now apply nth_error_In in E|].
  intros c Hc. specialize (H i c I Hc). unfold cell in H. now rewrite E in H.
Qed.
Definition padrow (p0 w i : nat) : list (option R) := tab w (fun c => at_or 0 whole (Z.of_nat (i * n) + Z.of_nat c - Z.of_nat p0)).
Lemma padded_rows rows p0 p1 : table rows nb n -> concat rows = map Some whole -> (p0 <= n)%nat -> (p1 <= n)%nat ->
  let out := pad_right p0 p1 n (pad_left p0 n (map (place (Some 0) p0 p1) rows)) in
  length out = nb /\ forall i, (i < nb)%nat -> nth_error out i = Some (padrow p0 (n + p0 + p1) i).
Proof.
  intros T C P0 P1 out. destruct (padded (Some 0) p0 p1 n rows nb T P0 P1) as [T' H]. fold out in T', H. split; [apply T'|].
  apply (table_tab out (n + p0 + p1) (fun i c => at_or 0 whole (Z.of_nat (i * n) + Z.of_nat c - Z.of_nat p0)) T'). intros i c I Hc. rewrite H by assumption. now rewrite C, at_or_some.
Qed.
Lemma unpadded i : (i < nb)%nat -> tab n (fun j => nth (i * n + j) xs 0) = padrow 0 n i.
Proof.
  intros I. unfold padrow. apply tab_ext. intros j J. unfold at_or. pose proof (in_bin i j I J).
  destruct (Z.ltb_spec (Z.of_nat (i * n) + Z.of_nat j - Z.of_nat 0) 0); [lia|]. replace (Z.to_nat _) with (i * n + j)%nat by lia.
  rewrite <- (firstn_skipn (nb * n) xs) at 1. rewrite app_nth1; [reflexivity|]. rewrite whole_length. exact H.
Qed.
Lemma half_rows h : h <> 1%nat -> ((h + 2) / 4 <= n)%nat -> exists out, reshape_half arr h n = inr out /\ length out = nb /\
  forall i, (i < nb)%nat -> nth_error out i = Some (padrow (h / 4) (n + h / 4 + (h + 2) / 4) i).
Proof.
  intros H1 Hn. destruct binned_rows as (rows & E & T & C & H). unfold reshape_half. rewrite E. destruct h as [|h].
  - rewrite (place_nil (Some 0)). exists rows. split; [reflexivity|]. split; [apply T|]. intros i I. rewrite H by exact I. rewrite unpadded by exact I. f_equal. f_equal. change (n = n + 0 + 0)%nat. lia.
  - destruct ((S h + 2) / 4)%nat as [|p] eqn:Ep; [destruct h as [|h]; [lia|]; replace (S (S h) + 2)%nat with (h + 1 * 4)%nat in Ep by lia; rewrite Nat.div_add in Ep by lia; lia|].
    eexists. split; [reflexivity|]. apply padded_rows; [exact T|exact C| |exact Hn]. apply Nat.le_trans with (2 := Hn). rewrite <- Ep. apply Nat.div_le_mono; lia.
Qed.
Lemma pad_rows p : (p <= 2 * n)%nat -> exists out, reshape (Some 0) arr p nq = inr out /\ length out = nb /\
  forall i, (i < nb)%nat -> nth_error out i = Some (padrow (p / 2) (n + p) i).
Proof.
  intros Hp. destruct (reshape_padded_whole (Some 0) arr p n ltac:(rewrite map_length; lia) Hp) as (out & E & T & H). rewrite map_length in T, H.
  exists out. split; [exact E|]. split; [apply T|]. apply (table_tab out (n + p) (fun i c => at_or 0 whole (Z.of_nat (i * n) + Z.of_nat c - Z.of_nat (p / 2))) T).
  intros i c I Hc. rewrite H by assumption. now rewrite firstn_map, at_or_some.
Qed.
Lemma half_raises h : h = 1%nat -> reshape_half arr h n = inl Broadcast.
Proof. intros ->. destruct binned_rows as (rows & E & _). unfold reshape_half. now rewrite E. Qed.
End Rows.

(** deviations sum to zero, so a constant taken from the other factor does not matter *)
Lemma dev_zero y n i : (1 <= n)%nat -> total n (fun j => nth (i * n + j) y 0 - bin_avg y n i) = 0.
Proof. intros N. rewrite total_sub, total_const. unfold bin_avg. field. apply not_0_INR. lia. Qed.
Lemma const_out y n i (f : nat -> R) c : (1 <= n)%nat ->
  total n (fun j => (f j - c) * (nth (i * n + j) y 0 - bin_avg y n i)) = total n (fun j => f j * (nth (i * n + j) y 0 - bin_avg y n i)).
Proof.
  intros N. rewrite (total_ext n _ (fun j => f j * (nth (i * n + j) y 0 - bin_avg y n i) - c * (nth (i * n + j) y 0 - bin_avg y n i))) by (intros; ring).
  rewrite total_sub, total_scal, dev_zero by exact N. ring.
Qed.
(** the correlation of a padded row of [xs] with the deviations of [ys] *)
Definition xc (xs ys : list R) (n i : nat) (d : Z) : R :=
  total n (fun j => at_or 0 (firstn (length xs / n * n) xs) (Z.of_nat (i * n + j) + d) * (nth (i * n + j) ys 0 - bin_avg ys n i)).
Lemma row_corr xs ys n p0 p lo hi i : (1 <= n)%nat -> (p0 <= p)%nat -> (lo + hi < n + p)%nat ->
  correlate (less_mid lo hi (padrow xs n p0 (n + p) i)) (tab n (fun j => nth (i * n + j) ys 0 - bin_avg ys n i)) = tab (p + 1) (fun k => xc xs ys n i (Z.of_nat k - Z.of_nat p0)).
Proof.
  intros N P H. unfold padrow. destruct (less_mid_tab lo hi (n + p) (fun c => at_or 0 (firstn (length xs / n * n) xs) (Z.of_nat (i * n) + Z.of_nat c - Z.of_nat p0)) H) as [c ->].
  rewrite corr_tab. apply tab_ext. intros k K. cbv beta. rewrite const_out by exact N. unfold xc. apply total_ext. intros j J. f_equal. f_equal. lia.
Qed.
(** inside the record it is the covariance *)
Lemma xc_cov xs ys n i d : (1 <= n)%nat -> inside xs n i d -> xc xs ys n i d = cov xs ys n i d.
Proof.
  intros N [I1 I2]. unfold xc, cov. rewrite const_out by exact N. apply total_ext. intros j J. f_equal. unfold at_or.
  destruct (Z.ltb_spec (Z.of_nat (i * n + j) + d) 0); [reflexivity|]. assert (B : (length xs / n * n <= length xs)%nat) by (rewrite Nat.mul_comm; apply Nat.mul_div_le; lia).
  apply nth_prefix; lia.
Qed.
Lemma cov_at_zero x y n i : (1 <= n)%nat ->
  cov x y n i 0 = total n (fun j => (nth (i * n + j) x 0 - bin_avg x n i) * (nth (i * n + j) y 0 - bin_avg y n i)).
Proof.
  intros N. unfold cov. apply total_ext. intros j J. unfold at_or. rewrite Z.add_0_r. destruct (Z.ltb_spec (Z.of_nat (i * n + j)) 0); [lia|]. now rewrite Nat2Z.id.
Qed.
Lemma cov_zero x n i : (1 <= n)%nat -> cov x x n i 0 = INR n * bin_variance x n i.
Proof. intros N. rewrite cov_at_zero by exact N. unfold bin_variance. field. apply not_0_INR. lia. Qed.
Lemma nth_affine k m l j : (j < length l)%nat -> nth j (map (fun v => k * v + m) l) 0 = k * nth j l 0 + m.
Proof. intros H. rewrite (nth_indep _ 0 (k * 0 + m)) by (rewrite map_length; exact H). now rewrite (map_nth (fun v => k * v + m)). Qed.
Lemma avg_affine k m l n i : (1 <= n)%nat -> (i * n + n <= length l)%nat -> bin_avg (map (fun v => k * v + m) l) n i = k * bin_avg l n i + m.
Proof.
  intros N H. unfold bin_avg. rewrite (total_ext n _ (fun j => k * nth (i * n + j) l 0 + m)) by (intros j J; apply nth_affine; lia).
  rewrite total_add, total_scal, total_const. field. apply not_0_INR. lia.
Qed.
Lemma cov_affine k m k' m' x y n i d : (1 <= n)%nat -> length x = length y -> (i < length x / n)%nat -> inside x n i d ->
  cov (map (fun v => k * v + m) x) (map (fun v => k' * v + m') y) n i d = k * k' * cov x y n i d.
Proof.
  intros N L I [I1 I2]. assert (B : (length x / n * n <= length x)%nat) by (rewrite Nat.mul_comm; apply Nat.mul_div_le; lia).
  assert (E : (i * n + n <= length x)%nat) by nia. unfold cov. rewrite !avg_affine by lia. rewrite <- total_scal. apply total_ext. intros j J. rewrite nth_affine by lia.
  unfold at_or. destruct (Z.ltb_spec (Z.of_nat (i * n + j) + d) 0); [lia|]. rewrite nth_affine by lia. ring.
Qed.

(** ** auto-covariance *)
Lemma all_rows_ok {A B} (f : nat -> A -> cov_err + B) : forall l i0, (forall j x, nth_error l j = Some x -> exists y, f (i0 + j)%nat x = inr y) ->
  exists ys, all_rows f i0 l = inr ys /\ length ys = length l /\ forall j x, nth_error l j = Some x -> exists y, nth_error ys j = Some y /\ f (i0 + j)%nat x = inr y.
Proof.
  induction l as [|x l IH]; intros i0 H; [exists []; split; [reflexivity|split; [reflexivity|intros [|j] x E; discriminate]]|].
  destruct (H 0%nat x eq_refl) as [y Hy]. rewrite Nat.add_0_r in Hy. destruct (IH (S i0)) as (ys & E & L & Hys).
  { intros j x' E. destruct (H (S j) x' E) as [y' Hy']. exists y'. now rewrite Nat.add_succ_r in Hy'. }
  exists (y :: ys). cbn [all_rows]. rewrite Hy, E. split; [reflexivity|]. split; [cbn; now rewrite L|]. intros [|j] x' E'.
  - injection E' as <-. exists y. rewrite Nat.add_0_r. now split.
  - destruct (Hys j x' E') as (y' & E1 & E2). exists y'. now rewrite Nat.add_succ_r.
Qed.
Lemma combine_nth_error {A B} (l : list A) : forall (m : list B) i a b, nth_error l i = Some a -> nth_error m i = Some b -> nth_error (combine l m) i = Some (a, b).
Proof. induction l as [|x l IH]; intros [|y m] [|i] a b E F; try discriminate; cbn in *; [congruence|]. now apply IH. Qed.
Lemma mod4 n : (n = 4 * (n / 4) + n mod 4)%nat /\ (n mod 4 < 4)%nat. Proof. split; [apply Nat.div_mod; lia|apply Nat.mod_upper_bound; lia]. Qed.
Lemma quarter a r : (r < 4)%nat -> ((4 * a + r) / 4 = a)%nat.
Proof. intros H. rewrite Nat.mul_comm, Nat.add_comm, Nat.div_add by lia. now rewrite Nat.div_small. Qed.
Definition sidex (x : list R) (n i d : nat) : R :=
  if (i =? 0)%nat then xc x x n i (Z.of_nat d)
  else if (i =? length x / n - 1)%nat then xc x x n i (- Z.of_nat d)
  else (xc x x n i (Z.of_nat d) + xc x x n i (- Z.of_nat d)) / 2.

Section Acov.
Variables (xs : list R) (n : nat).
Hypothesis (N4 : (4 <= n)%nat) (NL : (n <= length xs)%nat).
Notation nb := (length xs / n)%nat.
Notation q := (n / 4)%nat.
(** the values before they are put into the result *)
Lemma acov_corr : n <> 5%nat -> exists dt1 dt2, reshape_half (map Some xs) (n - 4) n = inr dt1 /\ bin_demean (map Some xs) 0 (inject_Z (Z.of_nat n)) = inr dt2 /\
  length dt1 = nb /\ length dt2 = nb /\
  forall i, (i < nb)%nat -> exists a v, nth_error (combine (map (less_mid q ((n + 3) / 4)) dt1) dt2) i = Some (a, v) /\
    correlate a v = tab (q - 1 + (n - 2) / 4 + 1) (fun k => xc xs xs n i (Z.of_nat k - Z.of_nat (q - 1))).
Proof.
  intros N5. destruct (mod4 n) as [M1 M2].
  assert (Q0 : ((n - 4) / 4 = q - 1)%nat) by (replace (n - 4)%nat with (4 * (q - 1) + n mod 4)%nat by lia; now rewrite quarter).
  assert (Q1 : ((n - 4 + 2) / 4 = (n - 2) / 4)%nat) by (f_equal; lia).
  assert (U : ((n - 2) / 4 <= q)%nat) by (apply Nat.div_le_mono; lia).
  assert (Q3 : ((n + 3) / 4 <= q + 1)%nat) by (apply Nat.lt_succ_r, Nat.div_lt_upper_bound; lia).
  destruct (half_rows xs n ltac:(lia) NL (n - 4) ltac:(lia) ltac:(rewrite Q1; lia)) as (dt1 & E1 & L1 & H1). rewrite Q0, Q1 in H1.
  destruct (demean_rows xs n ltac:(lia) NL) as (dt2 & E2 & L2 & H2).
  exists dt1, dt2. split; [exact E1|]. split; [exact E2|]. split; [exact L1|]. split; [exact L2|]. intros i I. eexists _, _. split.
  - apply combine_nth_error; [rewrite nth_error_map, H1 by exact I; reflexivity|apply H2; exact I].
  - rewrite <- (row_corr xs xs n (q - 1) (q - 1 + (n - 2) / 4) q ((n + 3) / 4) i) by lia. now rewrite Nat.add_assoc.
Qed.
Lemma acov_rows : (n mod 4 <= 1)%nat -> n <> 5%nat -> exists out, calc_acov n None (map Some xs) = inr out /\ length out = nb /\
  forall i, (i < nb)%nat -> nth_error out i = Some (tab q (sidex xs n i)).
Proof.
  intros M N5. destruct (acov_corr N5) as (dt1 & dt2 & E1 & E2 & Ld1 & Ld2 & H). destruct (mod4 n) as [M1 M2].
  assert (Q1 : ((n - 2) / 4 = q - 1)%nat). { replace (n - 2)%nat with (4 * (q - 1) + (n mod 4 + 2))%nat by lia. apply quarter. lia. }
  set (C := combine (map (less_mid q ((n + 3) / 4)) dt1) dt2) in *.
  assert (LC : length C = nb) by (unfold C; rewrite combine_length, map_length; lia).
  set (f := fun i '(a, v) => if (i <? nb)%nat then acov_row q nb i (correlate a v) else inl OutIndex).
  assert (V : forall i, (i < nb)%nat -> exists a v, nth_error C i = Some (a, v) /\ f i (a, v) = inr (tab q (sidex xs n i))).
  { intros i I. destruct (H i I) as (a & v & E & Ec). exists a, v. split; [exact E|]. unfold f. destruct (Nat.ltb_spec i nb); [|lia]. rewrite Ec, Q1. unfold acov_row.
    replace (q - 1 + (q - 1) + 1)%nat with (2 * q - 1)%nat by lia. rewrite tab_skipn by lia. rewrite tab_firstn, tab_rev by lia. replace (2 * q - 1 - (q - 1))%nat with q by lia.
    assert (A : forall d, (Z.of_nat (q - 1 + d) - Z.of_nat (q - 1))%Z = Z.of_nat d) by lia.
    assert (A' : forall d, (d < q)%nat -> (Z.of_nat (q - 1 - d) - Z.of_nat (q - 1))%Z = (- Z.of_nat d)%Z) by lia.
    unfold fits, sidex. destruct (Nat.eqb_spec i 0) as [E0|E0]; [|destruct (Nat.eqb_spec i (nb - 1)) as [En|En]].
    - rewrite tab_length, Nat.eqb_refl. f_equal. apply tab_ext. intros d D. now rewrite A.
    - rewrite tab_length, Nat.eqb_refl. f_equal. apply tab_ext. intros d D. now rewrite A'.
    - rewrite !tab_length, Nat.eqb_refl. rewrite (tab_map2 _ (fun x y => (x + y) / 2)) by (intros; reflexivity). rewrite tab_length, Nat.eqb_refl. f_equal. apply tab_ext. intros d D.
      now rewrite A, A'. }
  destruct (all_rows_ok f C 0) as (out & Eo & Lo & Ho).
  { intros j x E. assert (J : (j < nb)%nat) by (rewrite <- LC; apply nth_error_Some; congruence). destruct (V j J) as (a & v & E' & F). rewrite E in E'. injection E' as ->. eauto. }
  exists out. unfold calc_acov. destruct (Nat.ltb_spec n 4) as [?|_]; [lia|]. rewrite E1, E2. rewrite map_length, Ld2. fold C. fold f. rewrite Eo, Nat.eqb_refl. split; [reflexivity|]. split; [now rewrite Lo|].
  intros i I. destruct (V i I) as (a & v & E & F). destruct (Ho i _ E) as (y & Ey & Fy). cbn [Nat.add] in Fy. rewrite F in Fy. injection Fy as <-. exact Ey.
Qed.
Lemma acov_values : (n mod 4 <= 1)%nat -> n <> 5%nat -> (2 * n <= length xs)%nat -> exists out, calc_acov n None (map Some xs) = inr out /\ length out = nb /\
  forall i d, (i < nb)%nat -> (d < q)%nat -> cell out i d = Some (Some (one_sided xs n i d)).
Proof.
  intros M N5 L2. destruct (acov_rows M N5) as (out & E & L & H). exists out. split; [exact E|]. split; [exact L|]. intros i d I D. unfold cell. rewrite H by exact I.
  rewrite tab_nth_error by exact D. do 2 f_equal. unfold sidex, one_sided. pose proof (nb_le xs n ltac:(lia)) as B. destruct (mod4 n) as [M1 M2].
  assert (NB : (2 <= nb)%nat) by (apply Nat.div_le_lower_bound; lia).
  assert (A : (i = 0 \/ i <> nb - 1)%nat -> xc xs xs n i (Z.of_nat d) = cov xs xs n i (Z.of_nat d)).
  { intros O. apply xc_cov; [lia|]. split; [lia|]. enough (i * n + n + d <= nb * n)%nat by lia. assert (S i < nb)%nat by lia. nia. }
  assert (A' : (0 < i)%nat -> xc xs xs n i (- Z.of_nat d) = cov xs xs n i (- Z.of_nat d)).
  { intros O. apply xc_cov; [lia|]. split; [nia|nia]. }
  destruct (Nat.eqb_spec i 0) as [E0|E0]; [|destruct (Nat.eqb_spec i (nb - 1)) as [En|En]]; rewrite ?A, ?A' by lia; reflexivity.
Qed.
Lemma acov_raises : (2 <= n mod 4)%nat \/ n = 5%nat -> calc_acov n None (map Some xs) = inl Broadcast.
Proof.
  intros M. destruct (mod4 n) as [M1 M2]. unfold calc_acov. destruct (Nat.ltb_spec n 4) as [?|_]; [lia|]. destruct (Nat.eq_dec n 5) as [E5|N5].
  - rewrite (half_raises xs n ltac:(lia) NL (n - 4)) by lia. reflexivity.
  - destruct M as [M|M]; [|contradiction]. destruct (acov_corr N5) as (dt1 & dt2 & E1 & E2 & Ld1 & Ld2 & H). rewrite E1, E2.
    assert (Q1 : ((n - 2) / 4 = q)%nat). { replace (n - 2)%nat with (4 * q + (n mod 4 - 2))%nat by lia. apply quarter. lia. }
    pose proof (nb_pos xs n ltac:(lia) NL) as NB. destruct (H 0%nat ltac:(lia)) as (a & v & E & Ec). destruct (combine _ dt2) as [|p C]; [discriminate|]. injection E as ->.
    cbn [all_rows]. rewrite map_length. destruct (Nat.ltb_spec 0 nb); [|lia]. unfold acov_row. cbn [Nat.eqb]. rewrite Ec, Q1. rewrite tab_skipn by lia. unfold fits. rewrite tab_length.
    destruct (Nat.eqb_spec (q - 1 + q + 1 - (q - 1)) q); [lia|]. reflexivity.
Qed.
Lemma acov_lag0 out i : calc_acov n None (map Some xs) = inr out -> (i < nb)%nat -> cell out i 0 = Some (Some (INR n * bin_variance xs n i)).
Proof.
  intros E I. assert (NE : n <> 5%nat /\ (n mod 4 <= 1)%nat). { split; [intros C|destruct (le_lt_dec (n mod 4) 1); [assumption|]]; rewrite acov_raises in E by (auto; left; lia); discriminate. }
  destruct NE as [N5 M]. destruct (acov_rows M N5) as (out' & E' & L & H). rewrite E in E'. injection E' as <-. unfold cell. rewrite H by exact I. destruct (mod4 n) as [M1 M2].
  rewrite tab_nth_error by lia. do 2 f_equal. pose proof (nb_le xs n ltac:(lia)) as B.
  assert (ZL : xc xs xs n i (Z.of_nat 0) = INR n * bin_variance xs n i). { rewrite <- cov_zero by lia. apply xc_cov; [lia|]. split; [lia|nia]. }
  unfold sidex. change (- Z.of_nat 0)%Z with (Z.of_nat 0). rewrite ZL. destruct (i =? 0)%nat; [reflexivity|]. destruct (i =? nb - 1)%nat; [reflexivity|field].
Qed.
End Acov.

(** the bin size given as an argument *)
Lemma acov_argument xs n m : (1 <= n <= length xs)%nat -> (length xs / m <> length xs / n)%nat -> exists e, calc_acov n (Some m) (map Some xs) = inl e.
Proof.
  intros [N L] D. unfold calc_acov. destruct (m <? 4)%nat; [now exists Small|]. destruct (demean_rows xs n N L) as (dt2 & E2 & L2 & _). rewrite E2.
  destruct (reshape_half (map Some xs) (m - 4) n) as [e|dt1]; [now exists e|]. destruct (all_rows _ _ _) as [e|out]; [now exists e|]. rewrite map_length, L2.
  destruct (Nat.eqb_spec (length xs / m) (length xs / n)); [contradiction|now exists Conflict].
Qed.
Lemma one_sided_affine k m xs n i d : (1 <= n)%nat -> (2 <= length xs / n)%nat -> (i < length xs / n)%nat -> (d <= n)%nat -> one_sided (map (fun v => k * v + m) xs) n i d = k * k * one_sided xs n i d.
Proof.
  intros N B I D. unfold one_sided. rewrite map_length. destruct (Nat.eqb_spec i 0) as [E0|E0]; [|destruct (Nat.eqb_spec i (length xs / n - 1)) as [En|En]].
  - apply cov_affine; try assumption; try reflexivity. split; [lia|]. enough (i * n + n + d <= length xs / n * n)%nat by lia. nia.
  - apply cov_affine; try assumption; try reflexivity. split; nia.
  - rewrite !cov_affine; try assumption; try reflexivity; [field| |]; (split; [nia|]); enough (i * n + n + d <= length xs / n * n)%nat by lia; assert (S i < length xs / n)%nat by lia; nia.
Qed.

(** ** cross-covariance *)
Lemma map2_nth_error {A B C} (f : A -> B -> C) (l : list A) : forall (m : list B) i a b, nth_error l i = Some a -> nth_error m i = Some b -> nth_error (map2 f l m) i = Some (f a b).
Proof. induction l as [|x l IH]; intros [|y m] [|i] a b E F; try discriminate; cbn in *; [congruence|]. now apply IH. Qed.
Lemma map2_len {A B C} (f : A -> B -> C) (l : list A) : forall m : list B, length m = length l -> length (map2 f l m) = length l.
Proof. induction l as [|x l IH]; intros [|y m] E; try discriminate; cbn in *; [reflexivity|]. now rewrite IH by lia. Qed.
Section Xcov.
Variables (xs ys : list R) (n npt : nat).
Hypothesis (N2 : (2 <= n)%nat) (NL : (n <= length xs)%nat) (LL : length ys = length xs) (NP : (1 <= npt <= 2 * n + 1)%nat).
Notation nb := (length xs / n)%nat.
Lemma xcov_rows normed : exists out, calc_xcov n None npt normed (map Some xs) (map Some ys) = inr out /\ length out = nb /\
  forall i, (i < nb)%nat -> nth_error out i = Some (
    let row := tab npt (fun k => xc xs ys n i (Z.of_nat k - Z.of_nat ((npt - 1) / 2))) in
    if normed then map (fun v => odiv v (Some (sqrt (bin_variance xs n i) * sqrt (bin_variance ys n i) * INR n))) row else row).
Proof.
  destruct (pad_rows xs n ltac:(lia) NL (npt - 1) ltac:(lia)) as (dt1 & E1 & L1 & H1).
  destruct (demean_rows ys n ltac:(lia) ltac:(lia)) as (dt2 & E2 & L2 & H2).
  destruct (std_rows xs n ltac:(lia) NL) as (s1 & E3 & L3 & H3). destruct (std_rows ys n ltac:(lia) ltac:(lia)) as (s2 & E4 & L4 & H4). rewrite LL in *.
  unfold calc_xcov. destruct npt as [|p] eqn:Ep; [lia|]. replace (S p - 1)%nat with p in * by lia. rewrite E1, E2, E3, E4.
  set (o := map2 correlate (map (less_mid (S p / 2) ((S p + 1) / 2)) dt1) dt2).
  assert (Lo : length o = nb) by (unfold o; rewrite map2_len; rewrite map_length; lia).
  assert (Ho : forall i, (i < nb)%nat -> nth_error o i = Some (tab (S p) (fun k => xc xs ys n i (Z.of_nat k - Z.of_nat (p / 2))))).
  { intros i I. unfold o. erewrite map2_nth_error; [|rewrite nth_error_map, H1 by exact I; reflexivity|apply H2; exact I]. f_equal.
    replace (S p) with (p + 1)%nat at 3 by lia. apply row_corr; [lia|apply Nat.div_le_upper_bound; lia|].
    assert (S p / 2 + (S p + 1) / 2 <= S p)%nat; [|lia]. destruct (Nat.Even_or_Odd (S p)) as [[t ->]|[t ->]].
    - rewrite Nat.mul_comm, Nat.div_mul by lia. rewrite (Nat.add_comm (t * 2)), Nat.div_add by lia. change (1 / 2)%nat with 0%nat. lia.
    - replace (2 * t + 1 + 1)%nat with ((t + 1) * 2)%nat by lia. rewrite Nat.div_mul by lia. rewrite (Nat.mul_comm 2), (Nat.add_comm (t * 2)), Nat.div_add by lia. change (1 / 2)%nat with 0%nat. lia. }
  rewrite map_length. destruct normed.
  - eexists. set (o' := map2 _ o _). assert (L' : length o' = nb) by (unfold o'; rewrite map2_len; [exact Lo|rewrite Lo; rewrite map2_len; lia]). rewrite L', Nat.eqb_refl. split; [reflexivity|]. split; [exact L'|].
    intros i I. unfold o'. erewrite map2_nth_error; [|apply Ho; exact I|apply map2_nth_error; [apply H3; exact I|apply H4; exact I]]. reflexivity.
  - exists o. rewrite Lo, Nat.eqb_refl. split; [reflexivity|]. split; [reflexivity|]. intros i I. now apply Ho.
Qed.
End Xcov.
Lemma variance_nonneg x n i : 0 <= bin_variance x n i.
Proof.
  unfold bin_variance. destruct n as [|n]; [cbn; lra|]. apply Rmult_le_pos; [apply total_sq_pos|]. apply Rlt_le, Rinv_0_lt_compat, lt_0_INR. lia.
Qed.
Lemma cov_bound x y n i : (1 <= n)%nat -> cov x y n i 0 * cov x y n i 0 <= (INR n * bin_variance x n i) * (INR n * bin_variance y n i).
Proof.
  intros N. rewrite cov_at_zero by exact N. rewrite <- !cov_zero by exact N. rewrite !cov_at_zero by exact N.
  set (f := fun j => nth (i * n + j) x 0 - bin_avg x n i). set (g := fun j => nth (i * n + j) y 0 - bin_avg y n i).
  change (total n (fun j => f j * g j) * total n (fun j => f j * g j) <= total n (fun j => f j * f j) * total n (fun j => g j * g j)).
  set (a := total n (fun j => f j * f j)). set (b := total n (fun j => f j * g j)). set (c := total n (fun j => g j * g j)).
  assert (P : forall s t, 0 <= s * s * a + 2 * s * t * b + t * t * c).
  { intros s t. replace (s * s * a + 2 * s * t * b + t * t * c) with (total n (fun j => (s * f j + t * g j) * (s * f j + t * g j))); [apply total_sq_pos|].
    rewrite (total_ext n _ (fun j => s * s * (f j * f j) + (2 * s * t * (f j * g j) + t * t * (g j * g j)))) by (intros; ring). rewrite !total_add, !total_scal. unfold a, b, c. ring. }
  assert (A : 0 <= a) by apply total_sq_pos. destruct (Req_dec a 0) as [E|E].
  - assert (Z : forall j, (j < n)%nat -> f j = 0) by (apply total_sq_zero; exact E). replace b with 0; [rewrite E; lra|]. unfold b.
    rewrite (total_ext n _ (fun _ => 0)) by (intros j J; rewrite Z by exact J; ring). rewrite total_const. ring.
  - specialize (P (- b) a). assert (0 < a) by lra. nra.
Qed.
