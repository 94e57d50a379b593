From Coq Require Import Reals List QArith Lra Lia.
From Verif.Model Require Import Reshape Stats.
From Verif.Spec Require Import Reshape Stats.
From Verif.Proofs Require Reshape.
Import ListNotations.
Open Scope R_scope.

(** ** sums *)
Lemma total_ext n f g : (forall k, (k < n)%nat -> f k = g k) -> total n f = total n g.
Proof. induction n as [|n IH]; intros H; cbn; [easy|]. rewrite IH, H; auto. Qed.
Lemma total_add n f g : total n (fun k => f k + g k) = total n f + total n g.
Proof. induction n; cbn; [ring|]. rewrite IHn. ring. Qed.
Lemma total_sub n f g : total n (fun k => f k - g k) = total n f - total n g.
Proof. induction n; cbn; [ring|]. rewrite IHn. ring. Qed.
Lemma total_scal n c f : total n (fun k => c * f k) = c * total n f.
Proof. induction n; cbn; [ring|]. rewrite IHn. ring. Qed.
Lemma total_const n c : total n (fun _ => c) = INR n * c.
Proof. induction n; cbn [total]; [cbn; ring|]. rewrite IHn, S_INR. ring. Qed.
Lemma total_nonneg n f : (forall k, (k < n)%nat -> 0 <= f k) -> 0 <= total n f.
Proof. induction n as [|n IH]; intros H; cbn; [lra|]. assert (0 <= total n f) by (apply IH; auto). specialize (H n ltac:(lia)). lra. Qed.
Lemma total_le n f g : (forall k, (k < n)%nat -> f k <= g k) -> total n f <= total n g.
Proof. intros H. pose proof (total_nonneg n (fun k => g k - f k)). rewrite total_sub in H0. assert (forall k, (k < n)%nat -> 0 <= g k - f k) by (intros k Hk; specialize (H k Hk); lra). specialize (H0 H1). lra. Qed.
Lemma total_zero n f : (forall k, (k < n)%nat -> 0 <= f k) -> total n f = 0 -> forall k, (k < n)%nat -> f k = 0.
Proof.
  induction n as [|n IH]; intros H E k Hk; [lia|]. cbn in E.
  assert (0 <= total n f) by (apply total_nonneg; auto). pose proof (H n ltac:(lia)).
  destruct (Nat.eq_dec k n); [subst; lra|]. apply IH; auto; [lra|lia].
Qed.
Lemma total_S n f : total (S n) f = f 0%nat + total n (fun k => f (S k)).
Proof. induction n; cbn in *; [ring|]. rewrite IHn. ring. Qed.

Lemma rsum_total l : rsum l = total (length l) (fun k => nth k l 0).
Proof. induction l as [|a l IH]; [reflexivity|]. cbn [length]. rewrite total_S. cbn [rsum fold_right]. fold (rsum l). now rewrite IH. Qed.
Lemma rsum_map {A} (f : A -> R) l d : rsum (map f l) = total (length l) (fun k => f (nth k l d)).
Proof. rewrite rsum_total, map_length. apply total_ext. intros k Hk. rewrite (nth_indep _ 0 (f d)) by now rewrite map_length. apply map_nth. Qed.
Lemma rsum_seq (f : nat -> R) n : rsum (map f (seq 0 n)) = total n f.
Proof. rewrite (rsum_map _ _ 0%nat), seq_length. apply total_ext. intros k Hk. now rewrite seq_nth. Qed.

Lemma vals_present l : vals l = present l.
Proof. induction l as [|[x|] l IH]; cbn; [easy| |]; unfold present in IH |- *; now rewrite IH. Qed.
Lemma vals_some l : vals (map Some l) = l.
Proof. induction l; cbn; congruence. Qed.

(** ** mean, variance *)
Lemma INR_len_pos {A} (l : list A) : l <> [] -> 0 < INR (length l).
Proof. destruct l; [easy|]. intros _. apply lt_0_INR. cbn. lia. Qed.
Lemma nanmean_is l : is_mean l (nanmean l).
Proof.
  unfold is_mean, nanmean. rewrite vals_present. destruct (present l) as [|x v] eqn:E; [easy|].
  split; [easy|]. unfold sum_list. rewrite <- rsum_total. set (v' := x :: v).
  field. apply Rgt_not_eq, INR_len_pos. discriminate.
Qed.
Lemma nanmean_none l : nanmean l = None <-> vals l = [].
Proof. unfold nanmean. destruct (vals l); split; congruence. Qed.
Lemma nanmean_val l m : nanmean l = Some m -> vals l <> [] /\ m * INR (length (vals l)) = rsum (vals l).
Proof.
  unfold nanmean. intros H. destruct (vals l) as [|x v]; [discriminate|]. split; [easy|].
  assert (Em : m = rsum (x :: v) / INR (length (x :: v))) by congruence. rewrite Em.
  pose proof (INR_len_pos (x :: v) ltac:(discriminate)) as P. revert P.
  generalize (INR (length (x :: v))) (rsum (x :: v)). intros a b P. field. lra.
Qed.
Lemma mean_unique l m m' : is_mean l m -> is_mean l m' -> m = m'.
Proof.
  unfold is_mean. destruct m as [m|], m' as [m'|]; [|intros [? _]; congruence|intros ? [? _]; congruence|easy].
  intros [N H] [_ H']. f_equal. apply (Rmult_eq_reg_r (INR (length (present l)))); [congruence|].
  apply Rgt_not_eq. now apply INR_len_pos.
Qed.

Lemma vals_map_sub l m : vals (map (fun v => osub v (Some m)) l) = map (fun x => x - m) (vals l).
Proof. induction l as [|[x|] l IH]; cbn; congruence. Qed.
Lemma vals_map_none l : vals (map (fun v => osub v None) l) = [].
Proof. induction l as [|[x|] l IH]; cbn; auto. Qed.
Lemma vals_in l x : In (Some x) l <-> In x (vals l).
Proof.
  induction l as [|[y|] l IH]; cbn; [easy| |].
  - rewrite IH. split; intros [H|H]; auto; left; congruence.
  - rewrite IH. split; [intros [H|H]; [discriminate|easy]|auto].
Qed.

Lemma rsum_shift l m : rsum (map (fun x => x - m) l) = rsum l - INR (length l) * m.
Proof. induction l; cbn [map rsum fold_right length]; [cbn; ring|]. fold (rsum l) (rsum (map (fun x => x - m) l)). rewrite IHl, S_INR. ring. Qed.

Lemma demean_sum row : rsum (vals (demean_row row)) = 0.
Proof.
  unfold demean_row. destruct (nanmean row) as [m|] eqn:E.
  - rewrite vals_map_sub, rsum_shift. destruct (nanmean_val _ _ E) as [_ H]. rewrite <- H. ring.
  - now rewrite vals_map_none.
Qed.
Lemma demean_back row k x : nth_error row k = Some (Some x) ->
  exists m, nanmean row = Some m /\ nth_error (demean_row row) k = Some (Some (x - m)).
Proof.
  intros H. destruct (nanmean row) as [m|] eqn:E.
  - exists m. split; [easy|]. unfold demean_row. rewrite nth_error_map, H, E. reflexivity.
  - exfalso. apply nanmean_none in E. apply nth_error_In in H. apply vals_in in H. now rewrite E in H.
Qed.
Lemma demean_missing row k : nth_error row k = Some None -> nth_error (demean_row row) k = Some None.
Proof. intros H. unfold demean_row. now rewrite nth_error_map, H. Qed.

Lemma rsum_bounds l lo hi : (forall x, In x l -> lo <= x <= hi) -> INR (length l) * lo <= rsum l <= INR (length l) * hi.
Proof.
  induction l as [|a l IH]; intros H; [cbn; lra|]. cbn [length rsum fold_right]. fold (rsum l). rewrite S_INR.
  assert (I := IH (fun x Hx => H x (or_intror Hx))). pose proof (H a (or_introl eq_refl)). lra.
Qed.
Lemma mean_bounds l m lo hi : nanmean l = Some m -> (forall x, In (Some x) l -> lo <= x <= hi) -> lo <= m <= hi.
Proof.
  intros E H. destruct (nanmean_val _ _ E) as [N V]. apply INR_len_pos in N.
  assert (B := rsum_bounds (vals l) lo hi (fun x Hx => H x (proj2 (vals_in l x) Hx))). rewrite <- V in B.
  split; nra.
Qed.

Lemma var_vals l m : nanmean l = Some m ->
  vals (map (fun v => let d := osub v (nanmean l) in omul d d) l) = map (fun x => (x - m) * (x - m)) (vals l).
Proof. intros ->. induction l as [|[x|] l IH]; cbn in *; congruence. Qed.
Lemma nanmean_some l : vals l <> [] -> nanmean l = Some (rsum (vals l) / INR (length (vals l))).
Proof. unfold nanmean. now destruct (vals l). Qed.
Lemma nanvar_def l m : nanmean l = Some m ->
  nanvar l = Some (rsum (map (fun x => (x - m) * (x - m)) (vals l)) / INR (length (vals l))).
Proof.
  intros E. destruct (nanmean_val _ _ E) as [N _]. unfold nanvar. set (L := map _ l).
  assert (X : vals L = map (fun x => (x - m) * (x - m)) (vals l)) by exact (var_vals l m E).
  clearbody L. rewrite nanmean_some; rewrite X.
  - now rewrite map_length.
  - destruct (vals l); easy.
Qed.
Lemma nanvar_none l : nanmean l = None -> nanvar l = None.
Proof.
  intros E. unfold nanvar. rewrite E. apply nanmean_none. clear. induction l as [|[x|] l IH]; cbn; auto.
Qed.
Lemma rsum_sq_nonneg m l : 0 <= rsum (map (fun x => (x - m) * (x - m)) l).
Proof. induction l; cbn [map rsum fold_right]; [lra|]. fold (rsum (map (fun x => (x - m) * (x - m)) l)). pose proof (Rle_0_sqr (a - m)) as Q. unfold Rsqr in Q. lra. Qed.
Lemma rsum_sq_zero m l : rsum (map (fun x => (x - m) * (x - m)) l) = 0 -> forall x, In x l -> x = m.
Proof.
  induction l as [|a l IH]; intros H x Hx; [easy|]. cbn [map rsum fold_right] in H. fold (rsum (map (fun x => (x - m) * (x - m)) l)) in H.
  pose proof (rsum_sq_nonneg m l). pose proof (Rle_0_sqr (a - m)) as Q. unfold Rsqr in Q.
  destruct Hx as [<-|Hx]; [|apply IH; [lra|easy]]. assert ((a - m) * (a - m) = 0) by lra.
  apply Rmult_integral in H1. lra.
Qed.
Lemma nanvar_nonneg l v : nanvar l = Some v -> 0 <= v.
Proof.
  intros H. destruct (nanmean l) as [m|] eqn:E; [|rewrite nanvar_none in H; easy].
  rewrite (nanvar_def l m E) in H. injection H as <-. destruct (nanmean_val _ _ E) as [N _].
  apply Rmult_le_pos; [apply rsum_sq_nonneg|]. apply Rlt_le, Rinv_0_lt_compat. now apply INR_len_pos.
Qed.
Lemma nanvar_zero l : nanvar l = Some 0 <-> exists c, In (Some c) l /\ forall x, In (Some x) l -> x = c.
Proof.
  split.
  - intros H. destruct (nanmean l) as [m|] eqn:E; [|rewrite nanvar_none in H; easy].
    rewrite (nanvar_def l m E) in H. injection H as H. destruct (nanmean_val _ _ E) as [N _].
    assert (Z : rsum (map (fun x => (x - m) * (x - m)) (vals l)) = 0).
    { pose proof (INR_len_pos _ N). apply (Rmult_eq_reg_r (/ INR (length (vals l)))); [|apply Rinv_neq_0_compat; lra].
      unfold Rdiv in H. rewrite H. ring. }
    pose proof (rsum_sq_zero m _ Z) as A. exists m. split; [|intros x Hx; apply A; now apply vals_in].
    destruct (vals l) as [|x v] eqn:V; [easy|]. apply vals_in. rewrite V. left. apply A. now left.
  - intros (c & Hc & A).
    assert (M : nanmean l = Some c).
    { destruct (nanmean l) as [m|] eqn:E.
      - pose proof (mean_bounds l m c c E (fun x Hx => ltac:(rewrite (A x Hx); lra))). f_equal. lra.
      - apply nanmean_none in E. apply vals_in in Hc. now rewrite E in Hc. }
    rewrite (nanvar_def l c M). f_equal.
    replace (rsum (map (fun x => (x - c) * (x - c)) (vals l))) with 0; [unfold Rdiv; ring|].
    symmetry. assert (A' : forall x, In x (vals l) -> x = c) by (intros x Hx; apply A; now apply vals_in).
    induction (vals l) as [|a v IH]; [easy|]. cbn [map rsum fold_right]. fold (rsum (map (fun x => (x - c) * (x - c)) v)).
    rewrite IH by (intros; apply A'; now right). rewrite (A' a (or_introl eq_refl)). ring.
Qed.
(** the variance is the mean square minus the squared mean *)
Lemma nanvar_shortcut l m v : nanmean l = Some m -> nanvar l = Some v ->
  v * INR (length (present l)) = sum_list (map (fun x => x * x) (present l)) - m * m * INR (length (present l)).
Proof.
  intros E H. rewrite (nanvar_def l m E) in H. injection H as <-. destruct (nanmean_val _ _ E) as [N V].
  rewrite <- vals_present. unfold sum_list. rewrite <- rsum_total. pose proof (INR_len_pos _ N) as P.
  replace (rsum (map (fun x => (x - m) * (x - m)) (vals l))) with (rsum (map (fun x => x * x) (vals l)) - 2 * m * rsum (vals l) + INR (length (vals l)) * (m * m)).
  - rewrite <- V. field. lra.
  - clear. induction (vals l) as [|a v IH]; [cbn; ring|]. cbn [map rsum fold_right length]. rewrite S_INR.
    fold (rsum (map (fun x => (x - m) * (x - m)) v)) (rsum (map (fun x => x * x) v)) (rsum v). rewrite <- IH. ring.
Qed.

(** ** over bins *)
Lemma over_bins_whole {B} (f : list (option R) -> B) arr n : (1 <= n <= length arr)%nat ->
  exists out, over_bins f arr 0 (inject_Z (Z.of_nat n)) = inr out /\ length out = (length arr / n)%nat /\
    forall i, (i < length arr / n)%nat -> nth_error out i = Some (f (samples arr (i * n) n)).
Proof.
  intros H. unfold over_bins, reshape. rewrite Reshape.binned_whole by easy.
  change (0 / 2)%nat with 0%nat. change ((0 + 1) / 2)%nat with 0%nat. rewrite Reshape.place_nil.
  eexists. split; [reflexivity|]. split; [now rewrite map_length, Reshape.chunks_len|].
  intros i Hi. rewrite nth_error_map, Reshape.chunk_nth by easy. cbn [option_map]. do 2 f_equal. unfold samples.
  set (nb := (length arr / n)%nat) in *.
  assert (L : (S i * n <= nb * n)%nat) by (apply Nat.mul_le_mono_r; lia).
  rewrite skipn_firstn_comm, firstn_firstn. f_equal. cbn in L. lia.
Qed.

(** ** detrend *)
Lemma map2_map {A B C D} (h : B -> C -> D) (f : A -> B) (g : A -> C) s :
  map2 h (map f s) (map g s) = map (fun k => h (f k) (g k)) s.
Proof. induction s; cbn; congruence. Qed.
Lemma list_seq {A} (l : list A) d : l = map (fun k => nth k l d) (seq 0 (length l)).
Proof.
  induction l as [|a l IH]; [reflexivity|]. cbn [length seq map nth]. f_equal.
  rewrite <- seq_shift, map_map. exact IH.
Qed.
Lemma mean_seq n f : (1 <= n)%nat -> nanmean (map (fun k => Some (f k)) (seq 0 n)) = Some (total n f / INR n).
Proof.
  intros H. rewrite <- map_map. rewrite nanmean_some; rewrite vals_some.
  - now rewrite rsum_seq, map_length, seq_length.
  - destruct n; [lia|]. discriminate.
Qed.

Definition centre (n : nat) : R := total n INR / INR n.
Definition Sxx (n : nat) : R := total n (fun k => (INR k - centre n) * (INR k - centre n)).
Definition amean (a : list R) : R := total (length a) (fun k => nth k a 0) / INR (length a).
Definition slope (a : list R) : R :=
  (total (length a) (fun k => (INR k - centre (length a)) * (nth k a 0 - amean a)) / INR (length a))
  / (Sxx (length a) / INR (length a)).

Lemma Sxx_pos n : (2 <= n)%nat -> 0 < Sxx n.
Proof.
  intros H. unfold Sxx. set (f := fun k => _). assert (N : forall k, (k < n)%nat -> 0 <= f k) by (intros; apply Rle_0_sqr).
  destruct (total_nonneg n f N) as [G|G]; [easy|]. exfalso.
  pose proof (total_zero n f N (eq_sym G) 0%nat ltac:(lia)) as Z0. pose proof (total_zero n f N (eq_sym G) 1%nat ltac:(lia)) as Z1.
  unfold f in Z0, Z1. cbn in Z0, Z1. apply Rmult_integral in Z0. apply Rmult_integral in Z1. lra.
Qed.

Lemma detrend_form a : (2 <= length a)%nat ->
  detrend (map Some a) =
    map Some (map (fun k => (nth k a 0 - amean a) - slope a * (INR k - centre (length a))) (seq 0 (length a))).
Proof.
  intros H. set (n := length a) in *. assert (N0 : 0 < INR n) by (apply lt_0_INR; lia).
  unfold detrend. cbv zeta. rewrite map_length. fold n.
  rewrite (mean_seq n INR) by lia. rewrite map_map.
  assert (EA : map Some a = map (fun k => Some (nth k a 0)) (seq 0 n)).
  { rewrite (list_seq a 0) at 1. now rewrite map_map. }
  assert (MA : nanmean (map Some a) = Some (amean a)) by (rewrite EA; now apply mean_seq; lia).
  rewrite MA. rewrite EA. rewrite map_map.
  change (map (fun x => osub (Some (INR x)) (Some (total n INR / INR n))) (seq 0 n))
    with (map (fun k => Some (INR k - centre n)) (seq 0 n)).
  change (map (fun x => osub (Some (nth x a 0)) (Some (amean a))) (seq 0 n))
    with (map (fun k => Some (nth k a 0 - amean a)) (seq 0 n)).
  rewrite !map2_map, map_map.
  change (map (fun k => omul (Some (INR k - centre n)) (Some (nth k a 0 - amean a))) (seq 0 n))
    with (map (fun k => Some ((INR k - centre n) * (nth k a 0 - amean a))) (seq 0 n)).
  change (map (fun x => omul (Some (INR x - centre n)) (Some (INR x - centre n))) (seq 0 n))
    with (map (fun k => Some ((INR k - centre n) * (INR k - centre n))) (seq 0 n)).
  rewrite !mean_seq by lia. fold (Sxx n). unfold odiv. pose proof (Sxx_pos n H) as SP.
  destruct (Req_EM_T (Sxx n / INR n) 0) as [Z|_].
  { exfalso. assert (0 < Sxx n / INR n) by now apply Rdiv_lt_0_compat. lra. }
  fold (slope a). rewrite map_map. reflexivity.
Qed.

Lemma nth_map_seq f n k : (k < n)%nat -> nth k (map f (seq 0 n)) 0 = f k.
Proof. intros H. rewrite (nth_indep _ 0 (f 0%nat)) by now rewrite map_length, seq_length. rewrite map_nth, seq_nth; auto. Qed.

Lemma detrend_residual a : (2 <= length a)%nat -> exists r, detrend (map Some a) = map Some r /\ residual a r.
Proof.
  intros H. eexists. split; [now apply detrend_form|]. set (n := length a) in *.
  assert (N0 : 0 < INR n) by (apply lt_0_INR; lia). pose proof (Sxx_pos n H) as SP.
  set (f := fun k => (nth k a 0 - amean a) - slope a * (INR k - centre n)).
  assert (L : length (map f (seq 0 n)) = n) by now rewrite map_length, seq_length.
  assert (TX : total n (fun k => INR k - centre n) = 0).
  { rewrite total_sub, total_const. unfold centre. field. lra. }
  assert (TA : total n (fun k => nth k a 0 - amean a) = 0).
  { rewrite total_sub, total_const. unfold amean. fold n. field. lra. }
  assert (TF : total n f = 0).
  { unfold f. rewrite total_sub, total_scal, TX, TA. ring. }
  split; [exact L|]. rewrite L. split; [|split].
  - rewrite (total_ext _ _ f); [exact TF|]. intros k Hk. now apply nth_map_seq.
  - rewrite (total_ext _ _ (fun k => ((INR k - centre n) * (nth k a 0 - amean a) - slope a * ((INR k - centre n) * (INR k - centre n))) + centre n * f k)).
    2:{ intros k Hk. rewrite nth_map_seq by easy. unfold f. ring. }
    rewrite total_add, total_sub, !total_scal, TF. fold (Sxx n). unfold slope. fold n. field. lra.
  - exists (amean a - slope a * centre n), (slope a). intros k Hk. rewrite nth_map_seq by easy. unfold f. ring.
Qed.

Lemma residual_orth a r : residual a r -> forall u v, total (length r) (fun k => nth k r 0 * (u + v * INR k)) = 0.
Proof.
  intros (L & S0 & S1 & _) u v.
  rewrite (total_ext _ _ (fun k => u * nth k r 0 + v * (INR k * nth k r 0))) by (intros; ring).
  rewrite total_add, !total_scal, S0, S1. ring.
Qed.
Lemma residual_unique a r r' : residual a r -> residual a r' -> r = r'.
Proof.
  intros H H'. pose proof (residual_orth a r H) as O. pose proof (residual_orth a r' H') as O'.
  destruct H as (L & _ & _ & al & be & E). destruct H' as (L' & _ & _ & al' & be' & E').
  rewrite L in O. rewrite L' in O'. set (n := length a) in *.
  assert (D : forall k, (k < n)%nat -> nth k r 0 - nth k r' 0 = (al' - al) + (be' - be) * INR k).
  { intros k Hk. specialize (E k Hk). specialize (E' k Hk). lra. }
  assert (Z : total n (fun k => (nth k r 0 - nth k r' 0) * (nth k r 0 - nth k r' 0)) = 0).
  { rewrite (total_ext _ _ (fun k => nth k r 0 * ((al' - al) + (be' - be) * INR k) - nth k r' 0 * ((al' - al) + (be' - be) * INR k))).
    2:{ intros k Hk. rewrite <- (D k Hk). ring. }
    rewrite total_sub, O, O'. ring. }
  apply (nth_ext _ _ 0 0); [congruence|]. intros k Hk. rewrite L in Hk.
  pose proof (total_zero n _ (fun k _ => Rle_0_sqr (nth k r 0 - nth k r' 0)) Z k Hk) as Q.
  apply Rmult_integral in Q. lra.
Qed.

Lemma detrend_is a r : (2 <= length a)%nat -> residual a r -> detrend (map Some a) = map Some r.
Proof.
  intros H R. destruct (detrend_residual a H) as (r' & E & R'). now rewrite E, (residual_unique a r r' R R').
Qed.

Lemma residual_affine a alpha beta : (forall k, (k < length a)%nat -> nth k a 0 = alpha + beta * INR k) ->
  residual a (repeat 0 (length a)).
Proof.
  intros E. assert (Z : forall k, nth k (repeat 0 (length a)) 0 = 0) by (intros; apply nth_repeat).
  split; [apply repeat_length|]. rewrite repeat_length.
  split; [|split; [|exists alpha, beta; intros k Hk; rewrite Z, (E k Hk); ring]].
  - rewrite (total_ext _ _ (fun _ => 0)) by (intros; apply Z). rewrite total_const. ring.
  - rewrite (total_ext _ _ (fun _ => 0)) by (intros; rewrite Z; ring). rewrite total_const. ring.
Qed.

Lemma residual_self a r : residual a r -> residual r r.
Proof. intros (L & S0 & S1 & _). repeat split; auto. exists 0, 0. intros. ring. Qed.

(** residuals of linear combinations *)
Definition lincomb (c d : R) (a b : list R) : list R :=
  map (fun k => c * nth k a 0 + d * nth k b 0) (seq 0 (length a)).
Lemma residual_linear c d a b ra rb : length b = length a -> residual a ra -> residual b rb ->
  residual (lincomb c d a b) (lincomb c d ra rb).
Proof.
  intros LB (L & S0 & S1 & al & be & E) (L' & S0' & S1' & al' & be' & E').
  unfold residual, lincomb. rewrite !map_length, !seq_length. rewrite L', LB in S0', S1'. rewrite L in S0, S1. rewrite L, LB in *.
  split; [reflexivity|]. split; [|split].
  - rewrite (total_ext _ _ (fun k => c * nth k ra 0 + d * nth k rb 0)) by (intros; now apply nth_map_seq).
    rewrite total_add, !total_scal, S0, S0'. ring.
  - rewrite (total_ext _ _ (fun k => c * (INR k * nth k ra 0) + d * (INR k * nth k rb 0))).
    2:{ intros k Hk. rewrite nth_map_seq by easy. ring. }
    rewrite total_add, !total_scal, S1, S1'. ring.
  - exists (c * al + d * al'), (c * be + d * be'). intros k Hk. rewrite !nth_map_seq by easy.
    rewrite (E k Hk), (E' k Hk). ring.
Qed.

Lemma residual_least a r : residual a r -> forall alpha beta,
  total (length a) (fun k => nth k r 0 * nth k r 0) <=
  total (length a) (fun k => (nth k a 0 - (alpha + beta * INR k)) * (nth k a 0 - (alpha + beta * INR k))).
Proof.
  intros H u v. pose proof (residual_orth a r H) as O. destruct H as (L & _ & _ & al & be & E). rewrite L in O.
  rewrite (total_ext (length a) (fun k => (nth k a 0 - _) * _)
    (fun k => nth k r 0 * nth k r 0 + (nth k r 0 * (2 * (al - u) + 2 * (be - v) * INR k) + ((al - u) + (be - v) * INR k) * ((al - u) + (be - v) * INR k)))).
  2:{ intros k Hk. rewrite (E k Hk). ring. }
  rewrite total_add, total_add, O.
  assert (0 <= total (length a) (fun k => ((al - u) + (be - v) * INR k) * ((al - u) + (be - v) * INR k))) by (apply total_nonneg; intros; apply Rle_0_sqr).
  lra.
Qed.

(** with a missing sample the trend is not removed: an affine series does not become zero *)
Lemma detrend_nan : detrend [Some 0; Some 1; None] = [Some (-1/8); Some (1/2); None].
Proof.
  unfold detrend. cbn [length seq map nanmean vals rsum fold_right INR osub omul map2].
  unfold nanmean. cbn [vals length rsum fold_right INR osub omul map map2].
  unfold odiv. destruct (Req_EM_T _ 0) as [Z|_]; [exfalso; revert Z; intros; lra|].
  cbn [osub omul]. f_equal; [f_equal; lra|f_equal; f_equal; lra].
Qed.

Lemma map_repeat {A B} (f : A -> B) x n : map f (repeat x n) = repeat (f x) n.
Proof. induction n; cbn; congruence. Qed.
Lemma map_Some_inj {A} (l m : list A) : map Some l = map Some m -> l = m.
Proof. revert m. induction l as [|a l IH]; intros [|b m] H; cbn in *; try discriminate; [easy|]. injection H as -> H. now rewrite (IH m H). Qed.

Lemma detrend_idem a : (2 <= length a)%nat -> detrend (detrend (map Some a)) = detrend (map Some a).
Proof.
  intros H. destruct (detrend_residual a H) as (r & -> & R). apply detrend_is; [now destruct R as [-> _]|].
  now apply (residual_self a).
Qed.

Lemma map2_lincomb c d a : forall b, length b = length a -> map2 (fun x y => c * x + d * y) a b = lincomb c d a b.
Proof.
  unfold lincomb. induction a as [|x a IH]; intros [|y b] L; cbn in L; try discriminate; [reflexivity|].
  cbn [length seq map map2 nth]. f_equal. rewrite IH by lia. rewrite <- seq_shift, map_map. reflexivity.
Qed.
Lemma detrend_linear c d a b ra rb : (2 <= length a)%nat -> length b = length a ->
  detrend (map Some a) = map Some ra -> detrend (map Some b) = map Some rb ->
  detrend (map Some (map2 (fun x y => c * x + d * y) a b)) = map Some (map2 (fun x y => c * x + d * y) ra rb).
Proof.
  intros H LB Ea Eb. destruct (detrend_residual a H) as (r & Er & R). destruct (detrend_residual b) as (s & Es & S'); [lia|].
  assert (ra = r) by (apply map_Some_inj; congruence). assert (rb = s) by (apply map_Some_inj; congruence). subst ra rb.
  assert (L1 : length r = length a) by apply R. assert (L2 : length s = length b) by apply S'.
  rewrite !map2_lincomb by lia. apply detrend_is; [unfold lincomb; now rewrite map_length, seq_length|].
  now apply residual_linear.
Qed.

Lemma map2_len {A B C} (f : A -> B -> C) l : forall m, length l = length m -> length (map2 f l m) = length l.
Proof. induction l as [|a l IH]; intros [|b m] H; cbn in *; try lia. now rewrite IH by lia. Qed.
Lemma map2_nth {A B C} (f : A -> B -> C) l : forall m k x y, nth_error l k = Some x -> nth_error m k = Some y ->
  nth_error (map2 f l m) k = Some (f x y).
Proof.
  induction l as [|a l IH]; intros [|b m] [|k] x y Hx Hy; cbn in *; try discriminate.
  - congruence.
  - now apply IH.
Qed.
Lemma detrend_missing a k : nth_error a k = Some None -> nth_error (detrend a) k = Some None.
Proof.
  intros H. unfold detrend. cbv zeta. set (n := length a). set (x := map (fun v => osub v _) _).
  assert (Lx : length x = n) by (unfold x; now rewrite !map_length, seq_length).
  assert (Hk : (k < n)%nat) by (apply nth_error_Some; congruence).
  set (b := odiv _ _). destruct (nth_error x k) as [y|] eqn:E; [|apply nth_error_None in E; lia].
  rewrite (map2_nth _ _ _ k y None E); [reflexivity|]. now rewrite nth_error_map, H.
Qed.

Lemma bin_mean_ok arr n : (1 <= n <= length arr)%nat ->
  exists out, bin_mean arr (inject_Z (Z.of_nat n)) = inr out /\ length out = (length arr / n)%nat /\
    forall i, (i < length arr / n)%nat -> exists m, nth_error out i = Some m /\ is_mean (samples arr (i * n) n) m.
Proof.
  intros H. destruct (over_bins_whole nanmean arr n H) as (out & E & L & N). exists out. split; [exact E|].
  split; [exact L|]. intros i Hi. eexists. split; [now apply N|apply nanmean_is].
Qed.
Lemma is_mean_bounds l m lo hi : is_mean l (Some m) -> (forall x, In (Some x) l -> lo <= x <= hi) -> lo <= m <= hi.
Proof. intros H. apply mean_bounds. apply (mean_unique l); [apply nanmean_is|easy]. Qed.

Lemma bin_len (arr : list (option R)) n i : (1 <= n)%nat -> (i < length arr / n)%nat -> length (samples arr (i * n) n) = n.
Proof.
  intros H Hi. unfold samples. rewrite firstn_length, skipn_length. pose proof (Nat.div_mod (length arr) n ltac:(lia)).
  assert (S i * n <= length arr / n * n)%nat by (apply Nat.mul_le_mono_r; lia). cbn in H1. lia.
Qed.

Lemma bin_demean_ok arr n : (1 <= n <= length arr)%nat ->
  exists out, bin_demean arr 0 (inject_Z (Z.of_nat n)) = inr out /\ length out = (length arr / n)%nat /\
    forall i, (i < length arr / n)%nat -> exists row, nth_error out i = Some row /\
      let bin := samples arr (i * n) n in
      length row = n /\ sum_list (present row) = 0 /\
      (forall j, nth_error bin j = Some None -> nth_error row j = Some None) /\
      (forall j x, nth_error bin j = Some (Some x) ->
         exists m, is_mean bin (Some m) /\ nth_error row j = Some (Some (x - m))).
Proof.
  intros H. destruct (over_bins_whole demean_row arr n H) as (out & E & L & N). exists out. split; [exact E|].
  split; [exact L|]. intros i Hi. eexists. split; [now apply N|]. cbv zeta.
  split; [unfold demean_row; rewrite map_length; now apply bin_len|].
  split; [unfold sum_list; rewrite <- rsum_total, <- vals_present; apply demean_sum|].
  split; [intros; now apply demean_missing|].
  intros j x Hx. destruct (demean_back _ _ _ Hx) as (m & Em & Ej). exists m. split; [|exact Ej].
  rewrite <- Em. apply nanmean_is.
Qed.

Lemma bin_var_ok arr n : (1 <= n <= length arr)%nat ->
  exists out, bin_var arr (inject_Z (Z.of_nat n)) = inr out /\ length out = (length arr / n)%nat /\
    forall i, (i < length arr / n)%nat -> exists v, nth_error out i = Some v /\
      let bin := samples arr (i * n) n in
      (v = None <-> present bin = []) /\
      forall m x, is_mean bin (Some m) -> v = Some x ->
        0 <= x /\ x * INR (length (present bin)) = sum_list (map (fun y => (y - m) * (y - m)) (present bin)) /\
        (x = 0 <-> exists c, In (Some c) bin /\ forall y, In (Some y) bin -> y = c).
Proof.
  intros H. destruct (over_bins_whole nanvar arr n H) as (out & E & L & N). exists out. split; [exact E|].
  split; [exact L|]. intros i Hi. eexists. split; [now apply N|]. cbv zeta. set (bin := samples arr (i * n) n).
  split.
  - rewrite <- vals_present, <- nanmean_none. split; [|apply nanvar_none]. intros V.
    destruct (nanmean bin) as [m|] eqn:M; [|easy]. rewrite (nanvar_def bin m M) in V. discriminate.
  - intros m x M V. assert (M' : nanmean bin = Some m) by (apply (mean_unique bin); [apply nanmean_is|easy]).
    split; [now apply (nanvar_nonneg bin)|]. split.
    + pose proof V as V'. rewrite (nanvar_def bin m M') in V'. injection V' as <-. unfold sum_list.
      rewrite <- rsum_total, <- vals_present. destruct (nanmean_val _ _ M') as [NE _]. pose proof (INR_len_pos _ NE).
      field. lra.
    + rewrite <- (nanvar_zero bin), V. split; congruence.
Qed.

Lemma bin_std_ok arr n vs ss : (1 <= n <= length arr)%nat ->
  bin_var arr (inject_Z (Z.of_nat n)) = inr vs -> bin_std arr (inject_Z (Z.of_nat n)) = inr ss ->
  length ss = length vs /\ forall i v s, nth_error vs i = Some (Some v) -> nth_error ss i = Some (Some s) ->
    0 <= s /\ s * s = v.
Proof.
  intros H Ev Es. unfold bin_var, bin_std, over_bins in *. destruct (reshape _ _ _ _) as [e|rows]; [discriminate|].
  assert (vs = map nanvar rows) by congruence. assert (ss = map (fun r => osqrt (nanvar r)) rows) by congruence. subst.
  split; [now rewrite !map_length|]. intros i v s. rewrite !nth_error_map. destruct (nth_error rows i) as [r|]; [|discriminate].
  cbn. destruct (nanvar r) as [x|] eqn:X; [|discriminate]. cbn. intros E1 E2. injection E1 as <-. injection E2 as <-.
  split; [apply sqrt_pos|]. apply sqrt_def. now apply (nanvar_nonneg r).
Qed.

Lemma detrend_least a r : (2 <= length a)%nat -> detrend (map Some a) = map Some r -> forall alpha beta,
  total (length a) (fun k => nth k r 0 * nth k r 0) <=
  total (length a) (fun k => (nth k a 0 - (alpha + beta * INR k)) * (nth k a 0 - (alpha + beta * INR k))).
Proof.
  intros H E. destruct (detrend_residual a H) as (r' & E' & R). assert (r = r') by (apply map_Some_inj; congruence).
  subst r'. now apply residual_least.
Qed.
Lemma detrend_affine a alpha beta : (2 <= length a)%nat ->
  (forall k, (k < length a)%nat -> nth k a 0 = alpha + beta * INR k) -> detrend (map Some a) = repeat (Some 0) (length a).
Proof. intros H E. rewrite (detrend_is a _ H (residual_affine a alpha beta E)). apply map_repeat. Qed.
