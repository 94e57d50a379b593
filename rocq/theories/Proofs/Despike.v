From Coq Require Import Reals List Bool Arith ZArith Lra Lia Sorting.Sorted.
From Verif.Model Require Import Angles Group Stats Despike.
From Verif.Spec Require Import Group Stats Despike.
From Verif.Proofs Require Import Stats.
From Verif.Proofs Require Angles Principal Group.
Import ListNotations.
Open Scope R_scope.

(** ** tables *)
Definition tab (n : nat) (f : nat -> R) : list (option R) := map (fun i => Some (f i)) (seq 0 n).
Lemma tab_length n f : length (tab n f) = n. Proof. unfold tab. now rewrite map_length, seq_length. Qed.
Lemma tab_some l : map Some l = tab (length l) (fun i => nth i l 0).
Proof. unfold tab. rewrite (list_seq l 0) at 1. now rewrite map_map. Qed.
Lemma tab_ext n f g : (forall i, (i < n)%nat -> f i = g i) -> tab n f = tab n g.
Proof. intros H. unfold tab. apply map_ext_in. intros i Hi. apply in_seq in Hi. now rewrite H by lia. Qed.
Lemma tab_nth n f i : (i < n)%nat -> nth i (tab n f) None = Some (f i).
Proof. intros H. unfold tab. rewrite (nth_indep _ None (Some (f 0%nat))) by (rewrite map_length, seq_length; exact H).
  change (Some (f 0%nat)) with ((fun k => Some (f k)) 0%nat). rewrite map_nth, seq_nth by exact H. reflexivity. Qed.
Lemma tab_S n f : tab (S n) f = Some (f 0%nat) :: tab n (fun i => f (S i)).
Proof. unfold tab. cbn [seq map]. now rewrite <- seq_shift, map_map. Qed.
Lemma osum_tab n : forall f, osum (tab n f) = Some (total n f).
Proof. induction n as [|n IH]; intros f; [reflexivity|]. rewrite tab_S, total_S. cbn [osum fold_right]. fold (osum (tab n (fun i => f (S i)))). now rewrite IH. Qed.
Lemma omean_tab n f : omean (tab n f) = Some (total n f / INR n).
Proof. unfold omean. now rewrite osum_tab, tab_length. Qed.
Lemma tab_map n f (g : option R -> option R) h : (forall i, g (Some (f i)) = Some (h i)) -> map g (tab n f) = tab n h.
Proof. intros H. unfold tab. rewrite map_map. apply map_ext. exact H. Qed.
Lemma tab_sub n f m : map (fun v => osub v (Some m)) (tab n f) = tab n (fun i => f i - m).
Proof. now apply tab_map. Qed.
Lemma tab_sq n f : map osq (tab n f) = tab n (fun i => f i * f i). Proof. now apply tab_map. Qed.
Lemma tab_mul n f g : map2 omul (tab n f) (tab n g) = tab n (fun i => f i * g i).
Proof. unfold tab. now rewrite map2_map. Qed.
Definition var n f : R := total n (fun k => (f k - total n f / INR n) * (f k - total n f / INR n)) / INR n.
Lemma ostd_tab n f : ostd (tab n f) = Some (sqrt (var n f)).
Proof. unfold ostd. rewrite omean_tab. rewrite (tab_map n f _ (fun k => (f k - total n f / INR n) * (f k - total n f / INR n))) by reflexivity. now rewrite omean_tab. Qed.
Definition cen (m n : nat) (f : nat -> R) (i : nat) : R := if (m <=? i)%nat && (i + m <? n)%nat then (f (i + 1)%nat - f (i - 1)%nat) / 2 else 0.
Lemma centred_tab m n f : (1 <= m)%nat -> centred m (tab n f) = tab n (cen m n f).
Proof.
  intros M. unfold centred. rewrite tab_length. unfold tab at 3. apply map_ext_in. intros i Hi. apply in_seq in Hi. unfold cen.
  destruct (Nat.leb_spec m i); cbn [andb]; [|reflexivity]. destruct (Nat.ltb_spec (i + m) n); [|reflexivity].
  rewrite !tab_nth by lia. reflexivity.
Qed.

(** ** the columns, in functions *)
Definition centre n f i : R := f i - total n f / INR n.
Definition reals (n : nat) (x y z : nat -> R) (i : nat) (al a b w : R) : bool :=
  let pe i := limit (Some al) (Some a) (Some b) (Some w) (Some (x i)) (Some (y i)) (Some (z i)) in
  above (Some (x i * x i + y i * y i + z i * z i)) (if is_nan (pe 0%nat) then Fin 0 else pe i).
Definition pst (n : nat) (f : nat -> R) : option (list bool) :=
  let x := centre n f in let y := cen 1 n x in let z := cen 2 n y in
  let lu := sqrt (2 * ln (INR n)) in
  let al := atan2 (total n (fun i => x i * z i)) (total n (fun i => x i * x i)) in
  let su := lu * sqrt (var n x) in let sd := lu * sqrt (var n z) in
  let c := cos al * cos al in let s := sin al * sin al in
  let w := lu * sqrt (var n y) * (lu * sqrt (var n y)) in
  if Req_EM_T (c * c - s * s) 0 then None
  else Some (map (fun i => reals n x y z i al ((su * su * c - sd * sd * s) / (c * c - s * s)) ((sd * sd * c - su * su * s) / (c * c - s * s)) w) (seq 0 n)).
Lemma pst_eq n f : phase_space_thresh (tab n f) = pst n f.
Proof.
  unfold phase_space_thresh, pst. rewrite omean_tab, tab_length, tab_sub. fold (centre n f).
  set (x := centre n f). rewrite (centred_tab 1) by lia. set (y := cen 1 n x). rewrite (centred_tab 2) by lia. set (z := cen 2 n y).
  rewrite tab_mul, tab_sq, !osum_tab, !ostd_tab. cbn [oatan2 omul calcab osq]. cbv zeta.
  destruct (Req_EM_T _ 0); [reflexivity|]. f_equal. apply map_ext_in. intros i Hi. apply in_seq in Hi.
  unfold reals. rewrite !tab_nth by lia. reflexivity.
Qed.

(** ** the second difference is smaller than the deviation *)
Section Sizes.
Context (n : nat) (x : nat -> R).
Let y := cen 1 n x.
Let z := cen 2 n y.
Definition inner (i : nat) : bool := (2 <=? i)%nat && (i + 2 <? n)%nat.
Lemma z_inner i : inner i = true -> z i = (x (i + 2)%nat - 2 * x i + x (i - 2)%nat) / 4.
Proof.
  unfold inner, z, y, cen. intros H. rewrite H. apply andb_true_iff in H. destruct H as [A B]. apply Nat.leb_le in A. apply Nat.ltb_lt in B.
  replace (1 <=? i + 1)%nat with true by (symmetry; apply Nat.leb_le; lia). replace (i + 1 + 1 <? n)%nat with true by (symmetry; apply Nat.ltb_lt; lia).
  replace (1 <=? i - 1)%nat with true by (symmetry; apply Nat.leb_le; lia). replace (i - 1 + 1 <? n)%nat with true by (symmetry; apply Nat.ltb_lt; lia). cbn [andb].
  replace (i + 1 + 1)%nat with (i + 2)%nat by lia. replace (i + 1 - 1)%nat with i by lia. replace (i - 1 + 1)%nat with i by lia. replace (i - 1 - 1)%nat with (i - 2)%nat by lia. field.
Qed.
Lemma z_edge i : inner i = false -> z i = 0.
Proof. unfold inner, z, cen. now intros ->. Qed.
Lemma total_if_shift g : total n (fun i => if inner i then g (i + 2)%nat else 0) = total n (fun k => if (4 <=? k)%nat then g k else 0).
Proof.
  unfold inner. destruct n as [|[|m]]; [reflexivity|reflexivity|]. rewrite (total_S (S m) (fun k => if (4 <=? k)%nat then g k else 0)), (total_S m).
  match goal with |- ?L = _ => change (L = 0 + (0 + total m (fun k => if (2 <=? k)%nat then g (S (S k)) else 0))) end.
  cbn [total]. replace (m + 2 <? S (S m))%nat with false by (symmetry; apply Nat.ltb_ge; lia).
  replace (S m + 2 <? S (S m))%nat with false by (symmetry; apply Nat.ltb_ge; lia). rewrite !andb_false_r.
  rewrite (total_ext m _ (fun k => if (2 <=? k)%nat then g (S (S k)) else 0)); [lra|].
  intros k Hk. replace (k + 2 <? S (S m))%nat with true by (symmetry; apply Nat.ltb_lt; lia). rewrite andb_true_r. replace (k + 2)%nat with (S (S k)) by lia. reflexivity.
Qed.
Lemma total_if_back g : (forall k, 0 <= g k) -> total n (fun i => if inner i then g (i - 2)%nat else 0) <= total n g.
Proof.
  intros P. unfold inner. destruct n as [|[|m]]; [cbn; lra|cbn; specialize (P 0%nat); lra|]. rewrite (total_S (S m) (fun i => if (2 <=? i)%nat && (i + 2 <? S (S m))%nat then g (i - 2)%nat else 0)), (total_S m).
  change (0 + (0 + total m (fun k => if (S (S k) + 2 <? S (S m))%nat then g (S (S k) - 2)%nat else 0)) <= total (S (S m)) g). cbn [total]. pose proof (P m). pose proof (P (S m)).
  enough (total m (fun k => if (S (S k) + 2 <? S (S m))%nat then g (S (S k) - 2)%nat else 0) <= total m g) by lra.
  apply total_le. intros k Hk. replace (S (S k) - 2)%nat with k by lia. destruct (_ <? _)%nat; [lra|apply P].
Qed.
Lemma total_if_here g : (forall k, 0 <= g k) -> total n (fun i => if inner i then g i else 0) <= total n g.
Proof. intros P. apply total_le. intros k Hk. destruct (inner k); [lra|apply P]. Qed.
Let sq (i : nat) : R := x i * x i.
Lemma sq_pos i : 0 <= sq i. Proof. unfold sq. apply Rle_0_sqr. Qed.
(** the defect of convexity at one sample *)
Let gap (i : nat) : R := if inner i then ((x (i + 2)%nat - x (i - 2)%nat) * (x (i + 2)%nat - x (i - 2)%nat)
  + 2 * ((x (i + 2)%nat + x i) * (x (i + 2)%nat + x i)) + 2 * ((x i + x (i - 2)%nat) * (x i + x (i - 2)%nat))) / 16 else 0.
Lemma gap_pos i : 0 <= gap i.
Proof. unfold gap. destruct (inner i); [|lra]. pose proof (Rle_0_sqr (x (i + 2)%nat - x (i - 2)%nat)). pose proof (Rle_0_sqr (x (i + 2)%nat + x i)). pose proof (Rle_0_sqr (x i + x (i - 2)%nat)). unfold Rsqr in *. lra. Qed.
Lemma sizes_eq : total n (fun i => z i * z i) + total n gap =
  (total n (fun i => if inner i then sq (i + 2)%nat else 0) + 2 * total n (fun i => if inner i then sq i else 0) + total n (fun i => if inner i then sq (i - 2)%nat else 0)) / 4.
Proof.
  rewrite <- total_scal, <- !total_add. unfold Rdiv. rewrite Rmult_comm, <- total_scal. apply total_ext. intros i Hi. unfold gap, sq.
  destruct (inner i) eqn:E; [rewrite (z_inner i E)|rewrite (z_edge i E)]; field.
Qed.
Lemma head_split : total n (fun k => if (4 <=? k)%nat then sq k else 0) + total n (fun k => if (4 <=? k)%nat then 0 else sq k) = total n sq.
Proof. rewrite <- total_add. apply total_ext. intros k Hk. destruct (4 <=? k)%nat; ring. Qed.
Lemma head_pos : 0 <= total n (fun k => if (4 <=? k)%nat then 0 else sq k).
Proof. apply total_nonneg. intros k Hk. destruct (4 <=? k)%nat; [lra|apply sq_pos]. Qed.
Lemma smaller : 0 < total n sq -> total n (fun i => z i * z i) < total n sq.
Proof.
  intros P. pose proof sizes_eq as E. rewrite (total_if_shift sq) in E. pose proof head_split as Hs. pose proof head_pos as Hp.
  pose proof (total_if_back sq sq_pos) as B. pose proof (total_if_here sq sq_pos) as H. pose proof (total_nonneg n gap (fun k _ => gap_pos k)) as G.
  apply Rnot_le_lt. intros L.
  assert (Gz : total n gap = 0) by lra. assert (Hz : total n (fun k => if (4 <=? k)%nat then 0 else sq k) = 0) by lra.
  assert (Z : forall k, (k < n)%nat -> x k = 0).
  { intros k. induction k as [k IH] using lt_wf_ind. intros Hk. destruct (Nat.leb_spec 4 k) as [K|K].
    - pose proof (total_zero n gap (fun k _ => gap_pos k) Gz (k - 2) ltac:(lia)) as Q. unfold gap in Q.
      assert (I : inner (k - 2) = true) by (unfold inner; apply andb_true_iff; split; [apply Nat.leb_le|apply Nat.ltb_lt]; lia). rewrite I in Q.
      replace (k - 2 + 2)%nat with k in Q by lia. rewrite (IH (k - 2)%nat), (IH (k - 2 - 2)%nat) in Q by lia.
      assert (S0 : Rsqr (x k) = 0) by (unfold Rsqr; lra). now apply Rsqr_0_uniq.
    - pose proof (total_zero n _ (fun k _ => ltac:(cbv beta; destruct (4 <=? k)%nat; [lra|apply sq_pos]) : 0 <= (fun k => if (4 <=? k)%nat then 0 else sq k) k) Hz k Hk) as Q.
      cbv beta in Q. replace (4 <=? k)%nat with false in Q by (symmetry; apply Nat.leb_gt; lia). now apply Rsqr_0_uniq. }
  rewrite (total_ext n sq (fun _ => 0)), total_const in P by (intros k Hk; unfold sq; rewrite (Z k Hk); ring). lra.
Qed.
End Sizes.

(** ** the ellipse *)
Lemma total_centre n f : total n (centre n f) = 0.
Proof.
  unfold centre. destruct n as [|n]; [reflexivity|]. rewrite total_sub, total_const. assert (INR (S n) <> 0) by (apply not_0_INR; lia). field. assumption.
Qed.
Lemma total_sq_pos n g : 0 <= total n (fun i => g i * g i).
Proof. apply total_nonneg. intros k _. apply Rle_0_sqr. Qed.
Lemma total_sq_zero n g : total n (fun i => g i * g i) = 0 -> forall k, (k < n)%nat -> g k = 0.
Proof. intros E k Hk. apply Rsqr_0_uniq. exact (total_zero n _ (fun k _ => Rle_0_sqr (g k)) E k Hk). Qed.
Section Ellipse.
Context (n : nat) (f : nat -> R).
Let x := centre n f.
Let y := cen 1 n x.
Let z := cen 2 n y.
Definition sA := total n (fun i => x i * x i).
Definition sS := total n (fun i => x i * z i).
Definition sD := total n (fun i => (z i - total n z / INR n) * (z i - total n z / INR n)).
Lemma var_x : var n x = sA / INR n.
Proof. unfold var, sA. unfold x at 2 4. rewrite total_centre. f_equal. apply total_ext. intros k _. unfold Rdiv. rewrite Rmult_0_l. ring. Qed.
Lemma sS_centred : sS = total n (fun i => x i * (z i - total n z / INR n)).
Proof.
  rewrite (total_ext n (fun i => x i * (z i - total n z / INR n)) (fun i => x i * z i - total n z / INR n * x i)) by (intros; ring).
  rewrite total_sub, total_scal. unfold x at 2. rewrite total_centre. unfold sS. ring.
Qed.
Lemma cauchy : total n (fun i => (sA * (z i - total n z / INR n) - sS * x i) * (sA * (z i - total n z / INR n) - sS * x i)) = sA * (sA * sD - sS * sS).
Proof.
  rewrite (total_ext n _ (fun i => sA * sA * ((z i - total n z / INR n) * (z i - total n z / INR n)) - (2 * sA * sS) * (x i * (z i - total n z / INR n)) + sS * sS * (x i * x i))) by (intros; ring).
  rewrite total_add, total_sub, !total_scal, <- sS_centred. fold sD sA. ring.
Qed.
Lemma cauchy_le : 0 < sA -> sS * sS <= sA * sD.
Proof.
  intros P. pose proof (total_sq_pos n (fun i => sA * (z i - total n z / INR n) - sS * x i)) as H. cbv beta in H. rewrite cauchy in H.
  apply Rnot_lt_le. intros L. assert (sA * (sA * sD - sS * sS) < sA * 0) by (apply Rmult_lt_compat_l; lra). lra.
Qed.
Lemma sD_le : sD <= total n (fun i => z i * z i).
Proof.
  unfold sD. set (m := total n z / INR n). rewrite (total_ext n (fun i => (z i - m) * (z i - m)) (fun i => z i * z i - (2 * m) * z i + m * m)) by (intros; ring).
  rewrite total_add, total_sub, total_scal, total_const. destruct n as [|k] eqn:E; [cbn; lra|].
  assert (N : 0 < INR (S k)) by (apply lt_0_INR; lia). assert (Em : total (S k) z = INR (S k) * m) by (unfold m; field; lra). rewrite Em.
  pose proof (Rmult_le_pos _ _ (Rlt_le _ _ N) (Rle_0_sqr m)). unfold Rsqr in H. lra.
Qed.
Lemma sD_pos : 0 <= sD. Proof. exact (total_sq_pos n (fun i => z i - total n z / INR n)). Qed.
Lemma sD_lt : 0 < sA -> sD < sA.
Proof. intros P. eapply Rle_lt_trans; [apply sD_le|]. exact (smaller n x P). Qed.
Lemma sS_lt : 0 < sA -> sS * sS < sA * sA.
Proof. intros P. eapply Rle_lt_trans; [apply (cauchy_le P)|]. apply Rmult_lt_compat_l; [exact P|apply (sD_lt P)]. Qed.
Lemma sS_zero : sA = 0 -> sS = 0.
Proof. intros E. unfold sS. rewrite (total_ext n _ (fun _ => 0)); [rewrite total_const; ring|]. intros k Hk. rewrite (total_sq_zero n x E k Hk). ring. Qed.
Lemma sA_pos : 0 <= sA. Proof. apply total_sq_pos. Qed.

Definition al := atan2 sS sA.
Definition rad := sqrt (sA * sA + sS * sS).
Lemma polar : rad * cos al = sA /\ rad * sin al = sS. Proof. exact (Angles.atan2_polar sS sA). Qed.
Lemma rad_sq : rad * rad = sA * sA + sS * sS.
Proof. apply sqrt_sqrt. pose proof (Rle_0_sqr sA). pose proof (Rle_0_sqr sS). unfold Rsqr in *. lra. Qed.
Lemma rad_pos : 0 < sA -> 0 < rad.
Proof. intros P. apply sqrt_lt_R0. pose proof (Rmult_lt_0_compat _ _ P P). pose proof (Rle_0_sqr sS). unfold Rsqr in *. lra. Qed.
Lemma axis_dir : 0 < sA -> cos al = sA / rad /\ sin al = sS / rad.
Proof. intros P. pose proof (rad_pos P) as Hr. destruct polar as [C S']. split; [rewrite <- C|rewrite <- S']; field; lra. Qed.
Lemma det_eq : 0 < sA -> cos al * cos al * (cos al * cos al) - sin al * sin al * (sin al * sin al) = (sA * sA - sS * sS) / (rad * rad).
Proof.
  intros P. pose proof (rad_pos P). destruct (axis_dir P) as [-> ->].
  replace (sA / rad * (sA / rad) * (sA / rad * (sA / rad)) - sS / rad * (sS / rad) * (sS / rad * (sS / rad)))
    with ((sA * sA - sS * sS) * (sA * sA + sS * sS) / (rad * rad) / (rad * rad)) by (field; lra). rewrite <- rad_sq. field. lra.
Qed.
Lemma det_nz : cos al * cos al * (cos al * cos al) - sin al * sin al * (sin al * sin al) <> 0.
Proof.
  destruct (Rle_lt_or_eq_dec _ _ sA_pos) as [P|P].
  - rewrite (det_eq P). pose proof (sS_lt P). pose proof (Rmult_lt_0_compat _ _ (rad_pos P) (rad_pos P)).
    apply Rgt_not_eq. apply Rdiv_lt_0_compat; lra.
  - unfold al. rewrite (sS_zero (eq_sym P)), <- P. unfold atan2. destruct (Rlt_dec 0 0); [lra|]. rewrite cos_0, sin_0. lra.
Qed.
Definition lu2 := 2 * ln (INR n).
Lemma ln_pos : (1 <= n)%nat -> 0 <= ln (INR n).
Proof.
  intros N. destruct (Nat.eq_dec n 1) as [->|]; [cbn; rewrite ln_1; lra|]. left. rewrite <- ln_1. apply ln_increasing; [lra|].
  replace 1 with (INR 1) by reflexivity. apply lt_INR. lia.
Qed.
Lemma scaled_sq g : (1 <= n)%nat -> sqrt (2 * ln (INR n)) * sqrt (var n g) * (sqrt (2 * ln (INR n)) * sqrt (var n g)) = lu2 * var n g.
Proof.
  intros N. pose proof (ln_pos N). assert (0 <= var n g).
  { unfold var. apply Rmult_le_pos; [apply (total_sq_pos n (fun k => g k - total n g / INR n))|]. left. apply Rinv_0_lt_compat, lt_0_INR. lia. }
  replace (_ * _) with (sqrt (2 * ln (INR n)) * sqrt (2 * ln (INR n)) * (sqrt (var n g) * sqrt (var n g))) by ring.
  rewrite !sqrt_sqrt by lra. reflexivity.
Qed.
Definition ax_a := (lu2 * var n x * (cos al * cos al) - lu2 * var n z * (sin al * sin al)) / (cos al * cos al * (cos al * cos al) - sin al * sin al * (sin al * sin al)).
Definition ax_b := (lu2 * var n z * (cos al * cos al) - lu2 * var n x * (sin al * sin al)) / (cos al * cos al * (cos al * cos al) - sin al * sin al * (sin al * sin al)).
Definition ax_w := lu2 * var n y.
Lemma pst_form : (1 <= n)%nat -> pst n f = Some (map (fun i => reals n x y z i al ax_a ax_b ax_w) (seq 0 n)).
Proof.
  intros N. unfold pst. fold x. fold y. fold z. fold sA sS. fold al. rewrite !(scaled_sq _ N).
  destruct (Req_EM_T _ 0) as [E|_]; [destruct (det_nz E)|reflexivity].
Qed.
Lemma ax_a_eq : (1 <= n)%nat -> 0 < sA -> ax_a = lu2 / INR n * ((sA * sA * sA - sD * (sS * sS)) / (sA * sA - sS * sS)).
Proof.
  intros N P. unfold ax_a. rewrite (det_eq P), var_x. destruct (axis_dir P) as [-> ->]. pose proof (rad_pos P). pose proof (sS_lt P).
  assert (0 < INR n) by (apply lt_0_INR; lia). change (var n z) with (sD / INR n). field. repeat split; lra.
Qed.
Lemma ax_b_eq : (1 <= n)%nat -> 0 < sA -> ax_b = lu2 / INR n * (sA * (sA * sD - sS * sS) / (sA * sA - sS * sS)).
Proof.
  intros N P. unfold ax_b. rewrite (det_eq P), var_x. destruct (axis_dir P) as [-> ->]. pose proof (rad_pos P). pose proof (sS_lt P).
  assert (0 < INR n) by (apply lt_0_INR; lia). change (var n z) with (sD / INR n). field. repeat split; lra.
Qed.
Lemma ax_sums : ax_a * (cos al * cos al) + ax_b * (sin al * sin al) = lu2 * var n x /\ ax_a * (sin al * sin al) + ax_b * (cos al * cos al) = lu2 * var n z.
Proof. pose proof det_nz. unfold ax_a, ax_b. split; field; assumption. Qed.
Lemma sum_lt : 0 < sA -> 0 < sA * sA * sA - sD * (sS * sS).
Proof.
  intros P. pose proof (sD_lt P) as L. pose proof sD_pos as D0. pose proof (cauchy_le P) as C. pose proof (sS_lt P) as Sl. pose proof (Rle_0_sqr sS) as Sp. unfold Rsqr in Sp.
  assert (sD * (sS * sS) <= sA * (sS * sS)) by (apply Rmult_le_compat_r; lra).
  assert (sA * (sS * sS) < sA * (sA * sA)) by (apply Rmult_lt_compat_l; lra). lra.
Qed.
End Ellipse.

(** ** one sample *)
Section Sample.
Context (x y z : R).
Let p := x * x + y * y + z * z.
Let th := atan2 y x.
Let ph := atan2 (sqrt (y * y + x * x)) z.
Lemma p_pos : 0 <= p. Proof. unfold p. pose proof (Rle_0_sqr x). pose proof (Rle_0_sqr y). pose proof (Rle_0_sqr z). unfold Rsqr in *. lra. Qed.
Lemma direction : sqrt p * (sin ph * cos th) = x /\ sqrt p * (sin ph * sin th) = y /\ sqrt p * cos ph = z.
Proof.
  assert (H : 0 <= y * y + x * x) by (pose proof (Rle_0_sqr x); pose proof (Rle_0_sqr y); unfold Rsqr in *; lra).
  pose proof (Angles.atan2_polar y x) as [C S']. pose proof (Angles.atan2_polar (sqrt (y * y + x * x)) z) as [C2 S2].
  fold th in C, S'. fold ph in C2, S2. rewrite (sqrt_sqrt _ H) in C2, S2.
  replace (z * z + (y * y + x * x)) with p in C2, S2 by (unfold p; ring). replace (x * x + y * y) with (y * y + x * x) in C, S' by ring.
  repeat split; [rewrite <- Rmult_assoc, S2; exact C|rewrite <- Rmult_assoc, S2; exact S'|exact C2].
Qed.
Lemma zero_dir : p = 0 -> x = 0 /\ y = 0 /\ z = 0.
Proof.
  unfold p. intros E. pose proof (Rle_0_sqr x) as A. pose proof (Rle_0_sqr y) as B. pose proof (Rle_0_sqr z) as C. unfold Rsqr in *.
  repeat split; apply Rsqr_0_uniq; unfold Rsqr; lra.
Qed.
Lemma zero_angles : p = 0 -> sin ph * cos th = 0 /\ cos ph = 1 /\ sin ph * sin th = 0.
Proof.
  intros E. destruct (zero_dir E) as (X & Y & Z). unfold ph, th. rewrite X, Y, Z, Rmult_0_l, Rplus_0_r, sqrt_0.
  unfold atan2. destruct (Rlt_dec 0 0); [lra|]. rewrite sin_0, cos_0. lra.
Qed.
End Sample.

(** the three quotients *)
Definition q1 (al x y z : R) := sin (atan2 (sqrt (y * y + x * x)) z) * cos (atan2 y x) * cos al + cos (atan2 (sqrt (y * y + x * x)) z) * sin al.
Definition q2 (al x y z : R) := sin (atan2 (sqrt (y * y + x * x)) z) * cos (atan2 y x) * sin al - cos (atan2 (sqrt (y * y + x * x)) z) * cos al.
Definition q3 (x y z : R) := sin (atan2 (sqrt (y * y + x * x)) z) * sin (atan2 y x).
Lemma limit_eq al a b w x y z : limit (Some al) (Some a) (Some b) (Some w) (Some x) (Some y) (Some z) =
  xinv (xadd (xadd (xdiv (q1 al x y z * q1 al x y z) (Some a)) (xdiv (q2 al x y z * q2 al x y z) (Some b))) (xdiv (q3 x y z * q3 x y z) (Some w))).
Proof. reflexivity. Qed.
Lemma q_scaled al x y z : let p := x * x + y * y + z * z in
  p * (q1 al x y z * q1 al x y z) = (x * cos al + z * sin al) * (x * cos al + z * sin al) /\
  p * (q2 al x y z * q2 al x y z) = (x * sin al - z * cos al) * (x * sin al - z * cos al) /\
  p * (q3 x y z * q3 x y z) = y * y.
Proof.
  cbv zeta. destruct (direction x y z) as (X & Y & Z). pose proof (p_pos x y z) as P. cbv zeta in P.
  set (p := x * x + y * y + z * z) in *. unfold q1, q2, q3. set (sp := sin _) in *. set (cp := cos (atan2 (sqrt _) z)) in *. set (ct := cos (atan2 y x)) in *. set (st := sin (atan2 y x)) in *.
  rewrite <- (sqrt_sqrt p P). set (r := sqrt p) in *.
  repeat split.
  - replace (x * cos al + z * sin al) with (r * (sp * ct * cos al + cp * sin al)) by (rewrite <- X, <- Z; ring). ring.
  - replace (x * sin al - z * cos al) with (r * (sp * ct * sin al - cp * cos al)) by (rewrite <- X, <- Z; ring). ring.
  - replace (y * y) with (r * (sp * st) * (r * (sp * st))) by (now rewrite Y). ring.
Qed.
Lemma limit_pos al a b w x y z : 0 < a -> 0 < b -> 0 < w -> let p := x * x + y * y + z * z in
  exists q, limit (Some al) (Some a) (Some b) (Some w) (Some x) (Some y) (Some z) = Fin q /\ 0 < q /\
  (q < p <-> 1 < (x * cos al + z * sin al) * (x * cos al + z * sin al) / a + (x * sin al - z * cos al) * (x * sin al - z * cos al) / b + y * y / w).
Proof.
  intros A B W p. rewrite limit_eq. destruct (q_scaled al x y z) as (Q1 & Q2 & Q3). fold p in Q1, Q2, Q3.
  set (t1 := q1 al x y z * q1 al x y z) in *. set (t2 := q2 al x y z * q2 al x y z) in *. set (t3 := q3 x y z * q3 x y z) in *.
  assert (T1 : 0 <= t1) by apply Rle_0_sqr. assert (T2 : 0 <= t2) by apply Rle_0_sqr. assert (T3 : 0 <= t3) by apply Rle_0_sqr.
  unfold xdiv. destruct (Req_EM_T a 0); [lra|]. destruct (Req_EM_T b 0); [lra|]. destruct (Req_EM_T w 0); [lra|]. cbn [xadd].
  set (br := t1 / a + t2 / b + t3 / w).
  assert (U1 : 0 <= t1 / a) by (apply Rmult_le_pos; [lra|left; now apply Rinv_0_lt_compat]).
  assert (U2 : 0 <= t2 / b) by (apply Rmult_le_pos; [lra|left; now apply Rinv_0_lt_compat]).
  assert (U3 : 0 <= t3 / w) by (apply Rmult_le_pos; [lra|left; now apply Rinv_0_lt_compat]).
  assert (Pp : 0 <= p) by (apply (p_pos x y z)).
  assert (Q : p * br = (x * cos al + z * sin al) * (x * cos al + z * sin al) / a + (x * sin al - z * cos al) * (x * sin al - z * cos al) / b + y * y / w).
  { unfold br. rewrite <- Q1, <- Q2, <- Q3. field. lra. }
  rewrite <- Q.
  assert (Bp : 0 < br).
  { destruct (Rle_lt_or_eq_dec _ _ Pp) as [P|P].
    - apply Rnot_le_lt. intros L. assert (Z1 : t1 / a = 0) by (unfold br in *; lra). assert (Z2 : t2 / b = 0) by (unfold br in *; lra). assert (Z3 : t3 / w = 0) by (unfold br in *; lra).
      assert (E1 : t1 = 0) by (replace t1 with (t1 / a * a) by (field; lra); rewrite Z1; ring).
      assert (E2 : t2 = 0) by (replace t2 with (t2 / b * b) by (field; lra); rewrite Z2; ring).
      assert (E3 : t3 = 0) by (replace t3 with (t3 / w * w) by (field; lra); rewrite Z3; ring).
      rewrite E1 in Q1. rewrite E2 in Q2. rewrite E3 in Q3. rewrite Rmult_0_r in Q1, Q2, Q3.
      assert (p = (x * cos al + z * sin al) * (x * cos al + z * sin al) + (x * sin al - z * cos al) * (x * sin al - z * cos al) + y * y).
      { pose proof (sin2_cos2 al) as Sc. unfold Rsqr in Sc. transitivity (x * x * (sin al * sin al + cos al * cos al) + z * z * (sin al * sin al + cos al * cos al) + y * y); [rewrite Sc; unfold p; ring|ring]. }
      lra.
    - destruct (zero_angles x y z (eq_sym P)) as (Za & Zb & Zc).
      assert (E1 : t1 = sin al * sin al) by (unfold t1, q1; rewrite Za, Zb; ring). assert (E2 : t2 = cos al * cos al) by (unfold t2, q2; rewrite Za, Zb; ring).
      pose proof (sin2_cos2 al) as Sc. unfold Rsqr in Sc. apply Rnot_le_lt. intros L.
      assert (Z1 : t1 / a = 0) by (unfold br in *; lra). assert (Z2 : t2 / b = 0) by (unfold br in *; lra).
      assert (F1 : t1 = 0) by (replace t1 with (t1 / a * a) by (field; lra); rewrite Z1; ring).
      assert (F2 : t2 = 0) by (replace t2 with (t2 / b * b) by (field; lra); rewrite Z2; ring). lra. }
  unfold xinv. destruct (Req_EM_T br 0); [lra|]. exists (/ br). split; [reflexivity|]. split; [now apply Rinv_0_lt_compat|].
  split; intros H.
  - apply (Rmult_lt_compat_r br) in H; [|exact Bp]. rewrite Rinv_l in H by lra. exact H.
  - apply (Rmult_lt_reg_r br); [exact Bp|]. rewrite Rinv_l by lra. exact H.
Qed.

(** ** flagged samples lie outside *)
Lemma dev_centre l : forall i, dev l i = centre (length l) (fun k => nth k l 0) i. Proof. reflexivity. Qed.
Lemma flagged_iff l : regular l -> exists mask, phase_space_thresh (map Some l) = Some mask /\ length mask = length l /\
  (forall i, (i < length l)%nat -> (nth i mask false = true <-> outside l i)) /\
  exists c s a b, ellipse l c s a b /\ 0 < a /\ 0 < b /\ 0 < 2 * ln (INR (length l)) * spread l (diff1 l).
Proof.
  intros ((i0 & I0 & D0) & Na). set (n := length l) in *. set (f := fun k => nth k l 0).
  assert (N : (1 <= n)%nat) by lia.
  set (x := centre n f). set (y := cen 1 n x). set (z := cen 2 n y).
  assert (Ex : forall i, dev l i = x i) by reflexivity. assert (Ey : forall i, diff1 l i = y i) by reflexivity. assert (Ez : forall i, diff2 l i = z i) by reflexivity.
  assert (N3 : (3 <= n)%nat).
  { unfold diff1 in D0. destruct ((1 <=? i0)%nat && (i0 + 1 <? length l)%nat) eqn:E; [|lra]. apply andb_true_iff in E. destruct E as [E1 E2]. apply Nat.leb_le in E1. apply Nat.ltb_lt in E2. unfold n. lia. }
  assert (In : 0 < INR n) by (apply lt_0_INR; lia).
  assert (Lu : 0 < lu2 n).
  { unfold lu2. assert (0 < ln (INR n)); [|lra]. rewrite <- ln_1. apply ln_increasing; [lra|]. replace 1 with (INR 1) by reflexivity. apply lt_INR. lia. }
  assert (Ap : 0 < sA n f).
  { destruct (Rle_lt_or_eq_dec _ _ (sA_pos n f)) as [P|P]; [exact P|]. exfalso. apply D0. rewrite Ey. unfold y, cen.
    destruct ((1 <=? i0)%nat && (i0 + 1 <? n)%nat) eqn:E; [|reflexivity]. apply andb_true_iff in E. destruct E as [E1 E2]. apply Nat.leb_le in E1. apply Nat.ltb_lt in E2.
    rewrite (total_sq_zero n x (eq_sym P) (i0 + 1)), (total_sq_zero n x (eq_sym P) (i0 - 1)) by lia. field. }
  assert (Bs : 0 < sA n f * sD n f - sS n f * sS n f).
  { pose proof (cauchy_le n f Ap) as C. apply Rnot_le_lt. intros L. apply Na.
    assert (Z : total n (fun i => (sA n f * (z i - total n z / INR n) - sS n f * x i) * (sA n f * (z i - total n z / INR n) - sS n f * x i)) = 0).
    { transitivity (sA n f * (sA n f * sD n f - sS n f * sS n f)); [exact (cauchy n f)|]. replace (sA n f * sD n f - sS n f * sS n f) with 0 by lra. ring. }
    exists (sS n f / sA n f), (total n z / INR n). intros i Hi. rewrite Ez, Ex. pose proof (total_sq_zero n _ Z i Hi) as E. cbv beta in E.
    replace (z i) with ((sA n f * (z i - total n z / INR n) - sS n f * x i) / sA n f + sS n f / sA n f * x i + total n z / INR n) by (field; lra). rewrite E. field. lra. }
  pose proof (sS_lt n f Ap) as Sl. pose proof (sum_lt n f Ap) as Sm.
  assert (Apos : 0 < ax_a n f).
  { rewrite (ax_a_eq n f N Ap). apply Rmult_lt_0_compat; apply Rdiv_lt_0_compat; lra. }
  assert (Bpos : 0 < ax_b n f).
  { rewrite (ax_b_eq n f N Ap). apply Rmult_lt_0_compat; apply Rdiv_lt_0_compat; try lra. apply Rmult_lt_0_compat; lra. }
  assert (Wpos : 0 < ax_w n f).
  { unfold ax_w. apply Rmult_lt_0_compat; [exact Lu|]. fold x. fold y. unfold var. apply Rdiv_lt_0_compat; [|exact In].
    destruct (Rle_lt_or_eq_dec _ _ (total_sq_pos n (fun k => y k - total n y / INR n))) as [P|P]; [exact P|]. exfalso. symmetry in P.
    pose proof (total_sq_zero n _ P 0 ltac:(lia)) as Z0. pose proof (total_sq_zero n _ P i0 I0) as Zi. cbv beta in Z0, Zi.
    assert (Y0 : y 0%nat = 0) by reflexivity. rewrite Ey in D0. lra. }
  exists (map (fun i => reals n x y z i (al n f) (ax_a n f) (ax_b n f) (ax_w n f)) (seq 0 n)). split.
  { rewrite tab_some, pst_eq. apply (pst_form n f N). }
  split; [rewrite map_length, seq_length; reflexivity|].
  destruct (axis_dir n f Ap) as [Ca Sa]. pose proof (rad_pos n f Ap) as Rp. destruct (ax_sums n f) as [S1 S2].
  assert (El : ellipse l (cos (al n f)) (sin (al n f)) (ax_a n f) (ax_b n f)).
  { unfold ellipse. fold n. split; [rewrite Ca; apply Rdiv_lt_0_compat; assumption|]. split; [pose proof (sin2_cos2 (al n f)) as H; unfold Rsqr in H; lra|].
    split; [|split; [exact S1|exact S2]]. change (total n (fun k => dev l k * dev l k)) with (sA n f). change (total n (fun k => dev l k * diff2 l k)) with (sS n f). rewrite Ca, Sa. field. lra. }
  assert (Un : forall c s a b, ellipse l c s a b -> c = cos (al n f) /\ s = sin (al n f) /\ a = ax_a n f /\ b = ax_b n f).
  { intros c s a b (C & U & D & A1 & A2). fold n in D, A1, A2. change (s * sA n f = c * sS n f) in D.
    assert (Es : s = c * (sS n f / sA n f)) by (apply (Rmult_eq_reg_r (sA n f)); [rewrite D; field; lra|lra]).
    assert (Rr : rad n f * rad n f = sA n f * sA n f + sS n f * sS n f) by apply rad_sq.
    assert (Cc : c * c = sA n f / rad n f * (sA n f / rad n f)).
    { rewrite Es in U. assert (c * c * (rad n f * rad n f) = sA n f * sA n f).
      { rewrite Rr. replace (c * c * (sA n f * sA n f + sS n f * sS n f)) with ((c * c + c * (sS n f / sA n f) * (c * (sS n f / sA n f))) * (sA n f * sA n f)) by (field; lra). rewrite U. ring. }
      replace (c * c) with (c * c * (rad n f * rad n f) / (rad n f * rad n f)) by (field; lra). rewrite H. field. lra. }
    assert (Ec : c = cos (al n f)).
    { rewrite Ca. apply Rsqr_inj; [lra|left; apply Rdiv_lt_0_compat; assumption|exact Cc]. }
    assert (Es' : s = sin (al n f)) by (rewrite Es, Ec, Ca, Sa; field; lra). clear Es. subst c s. split; [reflexivity|]. split; [reflexivity|].
    change (a * (cos (al n f) * cos (al n f)) + b * (sin (al n f) * sin (al n f)) = lu2 n * var n x) in A1.
    change (a * (sin (al n f) * sin (al n f)) + b * (cos (al n f) * cos (al n f)) = lu2 n * var n z) in A2.
    fold x in S1. fold x y z in S2. pose proof (det_nz n f) as Dn. set (c := cos (al n f) * cos (al n f)) in *. set (s := sin (al n f) * sin (al n f)) in *.
    split; apply (Rmult_eq_reg_r (c * c - s * s)); try exact Dn.
    - transitivity ((a * c + b * s) * c - (a * s + b * c) * s); [ring|]. rewrite A1, A2, <- S1, <- S2. ring.
    - transitivity ((a * s + b * c) * c - (a * c + b * s) * s); [ring|]. rewrite A1, A2, <- S1, <- S2. ring. }
  split; [|exists (cos (al n f)), (sin (al n f)), (ax_a n f), (ax_b n f); repeat split; try apply El; try assumption; exact Wpos].
  intros i Hi. rewrite (nth_indep _ false (reals n x y z 0 (al n f) (ax_a n f) (ax_b n f) (ax_w n f))) by (rewrite map_length, seq_length; exact Hi).
  rewrite (map_nth (fun i => reals n x y z i (al n f) (ax_a n f) (ax_b n f) (ax_w n f))), seq_nth by exact Hi. cbn [Nat.add].
  unfold reals. destruct (limit_pos (al n f) _ _ _ (x 0%nat) (y 0%nat) (z 0%nat) Apos Bpos Wpos) as (q0 & E0 & _). rewrite E0. cbn [is_nan].
  destruct (limit_pos (al n f) _ _ _ (x i) (y i) (z i) Apos Bpos Wpos) as (q & E & Qp & Qi). rewrite E. cbn [above]. cbv zeta in Qi.
  split.
  - intros H. destruct (Rlt_dec q _) as [L|]; [|discriminate]. exists (cos (al n f)), (sin (al n f)), (ax_a n f), (ax_b n f). split; [exact El|].
    apply Qi in L. exact L.
  - intros (c & s & a & b & He & L). destruct (Un _ _ _ _ He) as (-> & -> & -> & ->). destruct (Rlt_dec q _) as [|Nl]; [reflexivity|]. exfalso. apply Nl, Qi. exact L.
Qed.

(** ** a missing sample *)
Lemma osum_none l : In None l -> osum l = None.
Proof. induction l as [|v l IH]; intros H; [destruct H|]. cbn [osum fold_right]. fold (osum l). destruct H as [->|H]; [reflexivity|]. rewrite (IH H). now destruct v. Qed.
Lemma map_all_none (u : list (option R)) : map (fun v => osub v None) u = map (fun _ => None) u.
Proof. apply map_ext. now intros [|]. Qed.
Lemma nth_none {A} (u : list A) i : nth i (map (fun _ => @None R) u) None = None.
Proof. revert i. induction u as [|a u IH]; intros [|i]; try reflexivity. apply IH. Qed.
Lemma map_const_seq {A} (u : list A) : map (fun _ => false) (seq 0 (length u)) = map (fun _ => false) u.
Proof. induction u as [|a u IH]; [reflexivity|]. cbn [length seq map]. now rewrite <- seq_shift, map_map, IH. Qed.
Lemma nan_window u : In None u -> phase_space_thresh u = Some (map (fun _ => false) u).
Proof.
  intros H. unfold phase_space_thresh. assert (M : omean u = None) by (unfold omean; now rewrite (osum_none _ H)). rewrite M, map_all_none.
  assert (O : osum (map osq (map (fun _ : option R => None) u)) = None).
  { apply osum_none. rewrite map_map. destruct u; [destruct H|]. now left. }
  rewrite O. assert (At : forall v, oatan2 v None = None) by (now intros [|]). rewrite At. cbn [calcab]. f_equal. rewrite <- map_const_seq. apply map_ext. intros i. now rewrite nth_none.
Qed.
Lemma complete_or (u : list (option R)) : In None u \/ exists l, u = map Some l.
Proof.
  induction u as [|[v|] u [H|[l ->]]]; [right; now exists []|left; now right|right; now exists (v :: l)|left; now left|left; now left].
Qed.
Lemma pst_total u : exists m, phase_space_thresh u = Some m /\ length m = length u.
Proof.
  destruct (complete_or u) as [H|[l ->]].
  - rewrite (nan_window _ H). eexists. split; [reflexivity|]. apply map_length.
  - rewrite tab_some, pst_eq, tab_length. destruct l as [|v l]; [|rewrite pst_form by (cbn; lia); eexists; split; [reflexivity|]; now rewrite map_length, seq_length].
    cbn [length]. unfold pst. change (total 0 _) with 0. unfold total. unfold atan2. destruct (Rlt_dec 0 0); [lra|]. rewrite cos_0, sin_0. destruct (Req_EM_T _ 0); [lra|]. now eexists.
Qed.

(** ** change of units *)
Definition xscale (c : R) (v : xnum) : xnum := match v with Fin q => Fin (c * q) | v => v end.
Lemma q_scale k al x y z : k <> 0 ->
  q1 al (k * x) (k * y) (k * z) * q1 al (k * x) (k * y) (k * z) = q1 al x y z * q1 al x y z /\
  q2 al (k * x) (k * y) (k * z) * q2 al (k * x) (k * y) (k * z) = q2 al x y z * q2 al x y z /\
  q3 (k * x) (k * y) (k * z) * q3 (k * x) (k * y) (k * z) = q3 x y z * q3 x y z.
Proof.
  intros K. destruct (q_scaled al x y z) as (A & B & C). destruct (q_scaled al (k * x) (k * y) (k * z)) as (A' & B' & C').
  pose proof (p_pos x y z) as P. cbv zeta in P. destruct (Rle_lt_or_eq_dec _ _ P) as [L|E].
  - set (p := x * x + y * y + z * z) in *. replace (k * x * (k * x) + k * y * (k * y) + k * z * (k * z)) with (k * k * p) in A', B', C' by (unfold p; ring).
    assert (KK : k * k <> 0) by (apply Rmult_integral_contrapositive_currified; assumption).
    assert (KP : k * k * p <> 0) by (apply Rmult_integral_contrapositive_currified; lra).
    repeat split; apply (Rmult_eq_reg_l (k * k * p)); try exact KP;
      [rewrite A'; transitivity (k * k * (p * (q1 al x y z * q1 al x y z))); [rewrite A|]|rewrite B'; transitivity (k * k * (p * (q2 al x y z * q2 al x y z))); [rewrite B|]|rewrite C'; transitivity (k * k * (p * (q3 x y z * q3 x y z))); [rewrite C|]]; ring.
  - destruct (zero_dir x y z (eq_sym E)) as (-> & -> & ->). rewrite Rmult_0_r. auto.
Qed.
Lemma xdiv_scale c t a : 0 < c -> xdiv t (Some (c * a)) = xscale (/ c) (xdiv t (Some a)).
Proof.
  intros C. unfold xdiv. destruct (Req_EM_T a 0) as [->|A].
  - rewrite Rmult_0_r. destruct (Req_EM_T 0 0); [|lra]. now destruct (Req_EM_T t 0).
  - destruct (Req_EM_T (c * a) 0) as [E|]; [destruct (Rmult_integral _ _ E); lra|]. cbn [xscale]. f_equal. field. lra.
Qed.
Lemma xadd_scale c u v : xadd (xscale c u) (xscale c v) = xscale c (xadd u v).
Proof. destruct u, v; try reflexivity. cbn. f_equal. ring. Qed.
Lemma xinv_scale c v : 0 < c -> xinv (xscale (/ c) v) = xscale c (xinv v).
Proof.
  intros C. destruct v as [q| |]; cbn [xscale xinv]; [|f_equal; ring|reflexivity]. pose proof (Rinv_0_lt_compat c C).
  destruct (Req_EM_T q 0) as [->|Q]; [rewrite Rmult_0_r; destruct (Req_EM_T 0 0); [reflexivity|lra]|].
  destruct (Req_EM_T (/ c * q) 0) as [E|]; [destruct (Rmult_integral _ _ E); lra|]. cbn [xscale]. f_equal. field. lra.
Qed.
Lemma limit_scale k al a b w x y z : k <> 0 ->
  limit (Some al) (Some (k * k * a)) (Some (k * k * b)) (Some (k * k * w)) (Some (k * x)) (Some (k * y)) (Some (k * z)) =
  xscale (k * k) (limit (Some al) (Some a) (Some b) (Some w) (Some x) (Some y) (Some z)).
Proof.
  intros K. rewrite !limit_eq. destruct (q_scale k al x y z K) as (-> & -> & ->). assert (C : 0 < k * k) by (apply Rsqr_pos_lt; exact K).
  rewrite !(xdiv_scale _ _ _ C), !xadd_scale. now apply xinv_scale.
Qed.
Lemma above_scale c p v : 0 < c -> above (Some (c * p)) (xscale c v) = above (Some p) v.
Proof.
  intros C. destruct v as [q| |]; try reflexivity. cbn [xscale above]. destruct (Rlt_dec (c * q) (c * p)) as [L|L], (Rlt_dec q p) as [M|M]; try reflexivity.
  - apply Rmult_lt_reg_l in L; [contradiction|exact C].
  - destruct L. now apply Rmult_lt_compat_l.
Qed.
Lemma reals_scale k n x y z x' y' z' i al a b w : k <> 0 -> (forall j, x' j = k * x j) -> (forall j, y' j = k * y j) -> (forall j, z' j = k * z j) ->
  reals n x' y' z' i al (k * k * a) (k * k * b) (k * k * w) = reals n x y z i al a b w.
Proof.
  intros K X Y Z. unfold reals. cbv beta zeta. rewrite !X, !Y, !Z, !limit_scale by exact K. assert (C : 0 < k * k) by (apply Rsqr_pos_lt; exact K).
  replace (k * x i * (k * x i) + k * y i * (k * y i) + k * z i * (k * z i)) with (k * k * (x i * x i + y i * y i + z i * z i)) by ring.
  assert (N : forall v, is_nan (xscale (k * k) v) = is_nan v) by (now intros [| |]). rewrite N. destruct (is_nan _); [|now apply above_scale].
  rewrite <- (above_scale (k * k) (x i * x i + y i * y i + z i * z i) (Fin 0) C). cbn [xscale]. now rewrite Rmult_0_r.
Qed.
Lemma centre_affine n k m f i : (1 <= n)%nat -> centre n (fun j => k * f j + m) i = k * centre n f i.
Proof. intros N. unfold centre. rewrite total_add, total_scal, total_const. field. apply not_0_INR. lia. Qed.
Lemma cen_scale n m k g h : (forall j, h j = k * g j) -> forall i, cen m n h i = k * cen m n g i.
Proof. intros H i. unfold cen. destruct (_ && _); [rewrite !H; field|ring]. Qed.
Lemma var_scale n k g h : (forall j, h j = k * g j) -> var n h = k * k * var n g.
Proof.
  intros H. unfold var. rewrite (total_ext n h (fun j => k * g j)) by auto. rewrite total_scal.
  rewrite (total_ext n (fun j => (h j - k * total n g / INR n) * (h j - k * total n g / INR n)) (fun j => k * k * ((g j - total n g / INR n) * (g j - total n g / INR n)))).
  - rewrite total_scal. unfold Rdiv. ring.
  - intros j _. rewrite H. unfold Rdiv. ring.
Qed.
Lemma pst_affine n f k m : k <> 0 -> pst n (fun i => k * f i + m) = pst n f.
Proof.
  intros K. destruct n as [|n0]; [reflexivity|]. set (n := S n0). assert (N : (1 <= n)%nat) by (unfold n; lia).
  assert (C : 0 < k * k) by (apply Rsqr_pos_lt; exact K).
  set (f' := fun i => k * f i + m). rewrite !pst_form by exact N. f_equal.
  set (x := centre n f). set (x' := centre n f'). assert (X : forall j, x' j = k * x j) by (intros j; now apply centre_affine).
  set (y := cen 1 n x). set (y' := cen 1 n x'). assert (Y : forall j, y' j = k * y j) by now apply cen_scale.
  set (z := cen 2 n y). set (z' := cen 2 n y'). assert (Z : forall j, z' j = k * z j) by now apply cen_scale.
  assert (Al : al n f' = al n f).
  { unfold al. assert (Es : sS n f' = k * k * sS n f).
    { unfold sS. rewrite <- total_scal. apply total_ext. intros j _. fold x' y' z'. fold x y z. rewrite X, Z. ring. }
    assert (Ea : sA n f' = k * k * sA n f).
    { unfold sA. rewrite <- total_scal. apply total_ext. intros j _. fold x'. fold x. rewrite X. ring. }
    rewrite Es, Ea. now apply Principal.atan2_scale. }
  assert (Aa : ax_a n f' = k * k * ax_a n f).
  { unfold ax_a. fold x' y' z' x y z. rewrite Al, (var_scale n k x x' X), (var_scale n k z z' Z). unfold Rdiv. ring. }
  assert (Ab : ax_b n f' = k * k * ax_b n f).
  { unfold ax_b. fold x' y' z' x y z. rewrite Al, (var_scale n k x x' X), (var_scale n k z z' Z). unfold Rdiv. ring. }
  assert (Aw : ax_w n f' = k * k * ax_w n f).
  { unfold ax_w. fold x' y' x y. rewrite (var_scale n k y y' Y). ring. }
  apply map_ext. intros i. rewrite Al, Aa, Ab, Aw. now apply reals_scale.
Qed.
Definition affine (k m : R) : option R -> option R := option_map (fun v => k * v + m).
Lemma thresh_affine k m u : k <> 0 -> phase_space_thresh (map (affine k m) u) = phase_space_thresh u.
Proof.
  intros K. destruct (complete_or u) as [H|[l ->]].
  - rewrite (nan_window u H), nan_window; [now rewrite map_map|]. apply in_map_iff. now exists None.
  - rewrite map_map. change (fun x => affine k m (Some x)) with (fun x => Some (k * x + m)). rewrite <- (map_map (fun x => k * x + m) Some).
    rewrite !tab_some, map_length, !pst_eq, <- (pst_affine _ (fun i => nth i l 0) k m K). unfold tab. rewrite <- !pst_eq. f_equal. apply tab_ext. intros i Hi.
    rewrite (nth_indep _ 0 (k * 0 + m)) by (rewrite map_length; exact Hi). now rewrite (map_nth (fun x => k * x + m)).
Qed.

(** ** constant data *)
Lemma constant_window n v : phase_space_thresh (repeat (Some v) n) = Some (repeat false n).
Proof.
  destruct n as [|n0]; [cbn [repeat]; destruct (pst_total []) as (m & E & L); rewrite E; destruct m; [reflexivity|discriminate]|]. set (n := S n0). assert (N : (1 <= n)%nat) by (unfold n; lia).
  assert (Er : repeat (Some v) n = tab n (fun _ => v)).
  { unfold tab. clear. rewrite <- (map_repeat Some). generalize 0%nat. induction n as [|n IH]; intros k; [reflexivity|]. cbn [repeat map seq]. now rewrite <- IH. }
  rewrite Er, pst_eq, (pst_form n _ N). f_equal.
  set (x := centre n (fun _ : nat => v)). assert (X : forall j, x j = 0).
  { intros j. unfold x, centre. rewrite total_const. field. apply not_0_INR. lia. }
  set (y := cen 1 n x). assert (Y : forall j, y j = 0) by (intros j; unfold y, cen; destruct (_ && _); rewrite ?X; field).
  set (z := cen 2 n y). assert (Z : forall j, z j = 0) by (intros j; unfold z, cen; destruct (_ && _); rewrite ?Y; field).
  assert (Vx : var n x = 0) by (rewrite (var_scale n 0 x x) by (intros j; rewrite X; ring); ring).
  assert (Vz : var n z = 0) by (rewrite (var_scale n 0 z z) by (intros j; rewrite Z; ring); ring).
  assert (Aa : ax_a n (fun _ => v) = 0) by (unfold ax_a; fold x y z; rewrite Vx, Vz; unfold Rdiv; ring).
  assert (Sz : al n (fun _ => v) = 0).
  { assert (A0 : sA n (fun _ => v) = 0).
    { unfold sA. fold x. rewrite (total_ext n _ (fun _ => 0)) by (intros j _; rewrite X; ring). rewrite total_const. ring. }
    unfold al. rewrite (sS_zero n _ A0), A0. unfold atan2. destruct (Rlt_dec 0 0); [lra|reflexivity]. }
  transitivity (map (fun _ => false) (seq 0 n)).
  2: { generalize 0%nat. clear. induction n as [|n IH]; intros k; [reflexivity|]. cbn [seq map repeat]. now rewrite IH. }
  apply map_ext. intros i. unfold reals. cbv zeta. rewrite !X, !Y, !Z, limit_eq, Aa, Sz.
  destruct (zero_angles 0 0 0 ltac:(ring)) as (Za & Zb & _). unfold q1 at 1 2. rewrite Za, Zb, sin_0. unfold xdiv at 1. destruct (Req_EM_T 0 0); [|lra].
  destruct (Req_EM_T _ 0) as [|Ne]; [|destruct Ne; ring]. cbn [xadd xinv is_nan above]. destruct (Rlt_dec 0 _) as [L|]; [lra|reflexivity].
Qed.

(** ** deviations beyond the universal threshold *)
Lemma threshold_outside c s a b x z V : 0 < a -> 0 < b -> c * c + s * s = 1 -> a * (c * c) + b * (s * s) = V -> V < x * x ->
  1 < (x * c + z * s) * (x * c + z * s) / a + (x * s - z * c) * (x * s - z * c) / b.
Proof.
  intros A B U E H. set (p := x * c + z * s). set (q := x * s - z * c).
  assert (Ex : x = p * c + q * s) by (transitivity (x * (c * c + s * s)); [rewrite U; ring|unfold p, q; ring]).
  set (W := p * p / a + q * q / b).
  assert (Cs : x * x <= W * V).
  { assert (I : W * V - x * x = (p * s * b - q * c * a) * (p * s * b - q * c * a) / (a * b)).
    { rewrite <- E, Ex. unfold W. field. lra. }
    assert (0 <= (p * s * b - q * c * a) * (p * s * b - q * c * a) / (a * b)).
    { apply Rmult_le_pos; [apply Rle_0_sqr|]. left. apply Rinv_0_lt_compat, Rmult_lt_0_compat; assumption. }
    lra. }
  assert (Vp : 0 < V).
  { rewrite <- E. pose proof (Rle_0_sqr c) as Hc. pose proof (Rle_0_sqr s) as Hs. unfold Rsqr in *. pose proof (Rmult_le_pos a (c * c) (Rlt_le _ _ A) Hc) as Ha. pose proof (Rmult_le_pos b (s * s) (Rlt_le _ _ B) Hs) as Hb.
    apply Rnot_le_lt. intros L. assert (Ea : a * (c * c) = 0) by lra. assert (Eb : b * (s * s) = 0) by lra.
    apply Rmult_integral in Ea. apply Rmult_integral in Eb. lra. }
  apply (Rmult_lt_reg_r V); [exact Vp|]. rewrite Rmult_1_l. eapply Rlt_le_trans; [exact H|exact Cs].
Qed.

(** ** the loop *)
Definition flags (u : list (option R)) : list bool := match phase_space_thresh u with Some m => m | None => [] end.
Lemma flags_eq u : phase_space_thresh u = Some (flags u) /\ length (flags u) = length u.
Proof. unfold flags. destruct (pst_total u) as (m & -> & L). now split. Qed.
Lemma each_flags l : each phase_space_thresh l = Some (map flags l).
Proof. induction l as [|u l IH]; [reflexivity|]. cbn [each map]. now rewrite (proj1 (flags_eq u)), IH. Qed.
Lemma concat_nth {A} (h : nat -> list A) p q : (forall j, (j < q)%nat -> length (h j) = p) ->
  length (concat (map h (seq 0 q))) = (q * p)%nat /\
  forall j r, (j < q)%nat -> (r < p)%nat -> nth_error (concat (map h (seq 0 q))) (j * p + r) = nth_error (h j) r.
Proof.
  induction q as [|q IH]; intros H; [split; [reflexivity|lia]|]. destruct IH as [IL IN]; [intros j Hj; apply H; lia|].
  rewrite seq_S, map_app, concat_app. cbn [map concat Nat.add]. rewrite app_nil_r. split; [rewrite app_length, IL, H by lia; lia|].
  intros j r Hj Hr. destruct (Nat.eq_dec j q) as [->|Ne].
  - rewrite nth_error_app2 by lia. f_equal. lia.
  - rewrite nth_error_app1; [apply IN; lia|]. rewrite IL. assert ((j + 1) * p <= q * p)%nat by (apply Nat.mul_le_mono_r; lia). lia.
Qed.
Lemma nth_error_firstn {A} (l : list A) : forall n i, (i < n)%nat -> nth_error (firstn n l) i = nth_error l i.
Proof. induction l as [|a l IH]; intros [|n] [|i] H; try lia; try reflexivity. cbn. apply IH. lia. Qed.
(** one turn *)
Definition turned (u : list (option R)) (npt : nat) : list bool :=
  firstn (length u - npt) (concat (map flags (blocks u npt))) ++ flags (skipn (length u - npt) u).
Lemma blocks_length u npt : (0 < npt)%nat -> length (concat (map flags (blocks u npt))) = (length u / npt * npt)%nat /\
  forall j r, (j < length u / npt)%nat -> (r < npt)%nat -> nth_error (concat (map flags (blocks u npt))) (j * npt + r) = nth_error (flags (samples u (j * npt) npt)) r.
Proof.
  intros P. unfold blocks. rewrite map_map. apply concat_nth. intros j Hj. cbv beta. rewrite (proj2 (flags_eq _)). unfold samples. rewrite firstn_length, skipn_length.
  assert ((j + 1) * npt <= length u / npt * npt)%nat by (apply Nat.mul_le_mono_r; lia). pose proof (Nat.mul_div_le (length u) npt ltac:(lia)). lia.
Qed.
Lemma turn_eq u npt mask : (0 < npt)%nat -> gn_turn u npt mask = Some (turned u npt).
Proof.
  intros P. unfold gn_turn, turned. rewrite each_flags, (proj1 (flags_eq _)). do 2 f_equal.
  destruct (blocks_length u npt P) as [L _]. rewrite firstn_app, L.
  assert (H : (length u - npt <= length u / npt * npt)%nat).
  { pose proof (Nat.div_mod (length u) npt ltac:(lia)). pose proof (Nat.mod_upper_bound (length u) npt ltac:(lia)). lia. }
  replace (length u - npt - length u / npt * npt)%nat with 0%nat by lia. cbn [firstn]. apply app_nil_r.
Qed.
Lemma loop_eq u npt mask : (0 < npt)%nat -> existsb (fun b => b) mask = true -> gn_loop 100 0 u npt mask None = inr (turned u npt).
Proof.
  intros P A. change 100%nat with (S (S 98)). cbn [gn_loop]. rewrite A. cbn [negb]. rewrite (turn_eq _ _ _ P). cbn [Nat.leb].
  destruct (existsb (fun b => b) (turned u npt)); [|reflexivity]. cbn [negb]. rewrite (turn_eq _ _ _ P). now rewrite Nat.leb_refl.
Qed.
Lemma turned_length u npt : (0 < npt)%nat -> length (turned u npt) = length u.
Proof.
  intros P. unfold turned. rewrite app_length, firstn_length, (proj2 (flags_eq _)), skipn_length, (proj1 (blocks_length u npt P)).
  assert (H : (length u - npt <= length u / npt * npt)%nat).
  { pose proof (Nat.div_mod (length u) npt ltac:(lia)). pose proof (Nat.mod_upper_bound (length u) npt ltac:(lia)). lia. }
  lia.
Qed.
Lemma turned_nth u npt i : (0 < npt)%nat -> (i < length u)%nat -> let (s, k) := window (length u) npt i in
  (s <= i < s + k)%nat /\ (s + k <= length u)%nat /\ nth_error (turned u npt) i = nth_error (flags (samples u s k)) (i - s).
Proof.
  intros P I. unfold window, turned. destruct (Nat.leb_spec (length u) npt) as [H|H].
  - split; [lia|]. split; [lia|]. replace (length u - npt)%nat with 0%nat by lia. cbn [firstn skipn app]. unfold samples. cbn [skipn]. rewrite firstn_all, Nat.sub_0_r. reflexivity.
  - assert (Hd : (length u - npt <= length u / npt * npt)%nat).
    { pose proof (Nat.div_mod (length u) npt ltac:(lia)). pose proof (Nat.mod_upper_bound (length u) npt ltac:(lia)). lia. }
    destruct (blocks_length u npt P) as [Lb Nb].
    destruct (Nat.leb_spec (length u - npt) i) as [J|J].
    + split; [lia|]. split; [lia|]. assert (Lf : length (firstn (length u - npt) (concat (map flags (blocks u npt)))) = (length u - npt)%nat) by (rewrite firstn_length, Lb; lia).
      rewrite nth_error_app2 by lia. rewrite Lf.
      unfold samples. rewrite (firstn_all2 (n := npt)); [reflexivity|]. rewrite skipn_length. lia.
    + pose proof (Nat.div_mod i npt ltac:(lia)) as Di. pose proof (Nat.mod_upper_bound i npt ltac:(lia)) as Dm.
      assert (Q : (i / npt < length u / npt)%nat) by (apply Nat.div_lt_upper_bound; lia).
      split; [lia|]. split; [assert ((i / npt + 1) * npt <= length u / npt * npt)%nat by (apply Nat.mul_le_mono_r; lia); pose proof (Nat.mul_div_le (length u) npt ltac:(lia)); lia|].
      rewrite nth_error_app1 by (rewrite firstn_length, Lb; lia). rewrite nth_error_firstn by lia.
      replace i with (i / npt * npt + (i - i / npt * npt))%nat at 1 by lia. apply Nb; lia.
Qed.

(** ** cutting at the gaps *)
Lemma many_segs bl m : (2 < length (group bl m))%nat -> hd false bl = false.
Proof.
  intros L. destruct (hd false bl) eqn:H; [|reflexivity]. exfalso. revert L. unfold group. destruct (negb _); [cbn; lia|].
  pose proof (Group.filter_le (fun p : nat * nat => (m <=? Z.of_nat (snd p) - Z.of_nat (fst p))%Z) (combine (ups bl) (dns bl))) as F.
  rewrite combine_length in F. assert (length (ups bl) <= 2)%nat by (unfold ups; rewrite H; destruct (ups0 bl); cbn; lia). lia.
Qed.
Section Cut.
Context (u : list (option R)) (npt : nat).
Let bl := map isnan u.
Let m := Z.of_nat (npt / 10).
Let segs := group bl m.
Lemma bl_missing : missing_at u = bl. Proof. reflexivity. Qed.
Lemma bl_length : length bl = length u. Proof. apply map_length. Qed.
Lemma gap_in : hd false bl = false -> forall g, In g segs <-> gap u npt g.
Proof.
  intros H [a b]. pose proof (Group.group_ok bl m (or_introl H)) as [_ L]. unfold segs. rewrite (L a b). unfold gap. cbn [fst snd]. rewrite bl_missing.
  split; intros [M G]; (split; [exact M|]); destruct M as [M _]; unfold m in *; lia.
Qed.
Lemma segs_sorted : hd false bl = false -> StronglySorted (fun p q => snd p < fst q)%nat segs.
Proof. intros H. now destruct (Group.group_ok bl m (or_introl H)) as [S' _]. Qed.
Lemma gap_range g : gap u npt g -> (fst g < snd g <= length u)%nat.
Proof. intros [[M _] _]. rewrite bl_missing, bl_length in M. exact M. Qed.
Lemma sorted_nodup (l : list (nat * nat)) : (forall g, In g l -> fst g < snd g)%nat -> StronglySorted (fun p q => snd p < fst q)%nat l -> NoDup l.
Proof.
  induction l as [|g l IH]; intros P S'; [constructor|]. inversion S' as [|? ? S1 F]; subst. constructor.
  - intros I. rewrite Forall_forall in F. specialize (F g I). specialize (P g (or_introl eq_refl)). lia.
  - apply IH; [intros h Hh; apply P; now right|exact S1].
Qed.
Lemma cut_iff : cut u npt <-> (2 < length segs)%nat.
Proof.
  split.
  - intros [[v V] (g1 & g2 & g3 & N & F)]. assert (H : hd false bl = false) by (unfold bl; destruct u as [|w u']; [discriminate|]; cbn in V; subst w; reflexivity).
    pose proof (NoDup_incl_length N (l' := segs)) as L. cbn [length] in L. enough (incl [g1; g2; g3] segs) by (specialize (L H0); lia).
    intros g Hg. apply (gap_in H). rewrite Forall_forall in F. now apply F.
  - intros L. pose proof (many_segs bl m L) as H. split.
    + unfold bl in H. destruct u as [|[v|] u'] eqn:E; [unfold segs, bl in L; cbn in L; lia|now exists v|discriminate].
    + pose proof (sorted_nodup segs (fun g I => proj1 (gap_range g (proj1 (gap_in H g) I))) (segs_sorted H)) as N.
      pose proof (fun g => proj1 (gap_in H g)) as G. destruct segs as [|g1 [|g2 [|g3 r]]]; [cbn in L; lia|cbn in L; lia|cbn in L; lia|].
      exists g1, g2, g3. split.
      * apply NoDup_cons_iff in N. destruct N as [A N]. apply NoDup_cons_iff in N. destruct N as [B N].
        constructor; [intros [<-|[<-|[]]]; apply A; cbn; auto|]. constructor; [intros [<-|[]]; apply B; cbn; auto|]. constructor; [intros []|constructor].
      * repeat constructor; apply G; cbn; auto.
Qed.
End Cut.

Lemma regions_spec : forall segs sp ep, (forall g, In g segs -> fst g < snd g)%nat -> StronglySorted (fun p q => snd p < fst q)%nat segs ->
  (forall g, In g segs -> sp < fst g)%nat -> (forall g, In g segs -> snd g < ep)%nat -> (sp < ep)%nat ->
  forall r, In r (regions sp ep segs) -> (sp <= fst r /\ fst r < snd r <= ep)%nat /\
   (fst r = sp \/ exists a, In (a, fst r) segs) /\ (snd r = ep \/ exists b, In (snd r, b) segs) /\
   forall g, In g segs -> (snd g <= fst r \/ snd r <= fst g)%nat.
Proof.
  induction segs as [|[a b] segs IH]; intros sp ep P S' A B L r I.
  - destruct I as [<-|[]]. cbn [fst snd]. repeat split; auto; try lia. intros g [].
  - inversion S' as [|? ? S1 F]; subst. rewrite Forall_forall in F. cbn [fst snd] in F. pose proof (P (a, b) (or_introl eq_refl)) as Pa. pose proof (A (a, b) (or_introl eq_refl)) as Aa. pose proof (B (a, b) (or_introl eq_refl)) as Ba. cbn [fst snd] in *.
    cbn [regions] in I. destruct I as [<-|I].
    + cbn [fst snd]. split; [lia|]. split; [now left|]. split; [right; exists b; now left|]. intros g [<-|Hg]; [right; cbn; lia|]. right. specialize (F g Hg). lia.
    + destruct (IH b ep) with (r := r) as (R1 & R2 & R3 & R4); auto.
      * intros g Hg. apply P. now right.
      * intros g Hg. apply B. now right.
      * split; [lia|]. split; [right; destruct R2 as [R2|[a' R2]]; [exists a; left; now rewrite R2|exists a'; now right]|].
        split; [destruct R3 as [R3|[b' R3]]; [now left|right; exists b'; now right]|]. intros g [<-|Hg]; [left; cbn [fst snd]; lia|now apply R4].
Qed.
Lemma regions_sorted : forall segs sp ep, (forall g, In g segs -> fst g < snd g)%nat -> StronglySorted (fun p q => snd p < fst q)%nat segs ->
  (forall g, In g segs -> sp < fst g)%nat -> (forall g, In g segs -> snd g < ep)%nat -> (sp < ep)%nat ->
  StronglySorted (fun p q => snd p < fst q)%nat (regions sp ep segs).
Proof.
  induction segs as [|[a b] segs IH]; intros sp ep P S' A B L; [repeat constructor|].
  inversion S' as [|? ? S1 F]; subst. rewrite Forall_forall in F. cbn [fst snd] in F. pose proof (P (a, b) (or_introl eq_refl)) as Pa. pose proof (B (a, b) (or_introl eq_refl)) as Ba. cbn [fst snd] in *.
  cbn [regions]. constructor.
  - apply IH; auto; intros g Hg; [apply P|apply B]; now right.
  - apply Forall_forall. intros r Hr. cbn [snd].
    destruct (regions_spec segs b ep (fun g Hg => P g (or_intror Hg)) S1 F (fun g Hg => B g (or_intror Hg)) Ba r Hr) as (R1 & _).
    lia.
Qed.
Lemma regions_cover : forall segs sp ep i, (sp <= i < ep)%nat -> (exists g, In g segs /\ fst g <= i < snd g)%nat \/ exists r, In r (regions sp ep segs) /\ (fst r <= i < snd r)%nat.
Proof.
  induction segs as [|[a b] segs IH]; intros sp ep i I; [right; exists (sp, ep); split; [now left|exact I]|].
  destruct (Nat.lt_ge_cases i a); [right; exists (sp, a); split; [now left|cbn; lia]|].
  destruct (Nat.lt_ge_cases i b); [left; exists (a, b); split; [now left|cbn; lia]|].
  destruct (IH b ep i ltac:(lia)) as [(g & G & H1)|(r & Hr & H1)]; [left; exists g; split; [now right|exact H1]|right; exists r; split; [now right|exact H1]].
Qed.

(** ** assignment to slices *)
Lemma assign_nth s e mm mask i : (s <= e <= length mask)%nat -> length mm = (e - s)%nat ->
  nth_error (assign s e mm mask) i = if ((s <=? i) && (i <? e))%nat then nth_error mm (i - s) else nth_error mask i.
Proof.
  intros H L. unfold assign. destruct (Nat.leb_spec s i) as [A|A]; cbn [andb].
  - rewrite nth_error_app2; rewrite firstn_length, Nat.min_l by lia; [|lia]. destruct (Nat.ltb_spec i e) as [B|B].
    + apply nth_error_app1. lia.
    + rewrite nth_error_app2 by lia. rewrite L. transitivity (nth_error mask (e + (i - s - (e - s)))); [|f_equal; lia].
      generalize (i - s - (e - s))%nat. clear. revert mask. induction e as [|e IH]; intros mask j; [reflexivity|]. destruct mask; [now destruct j|]. cbn [skipn Nat.add nth_error]. apply IH.
  - rewrite nth_error_app1 by (rewrite firstn_length; lia). apply nth_error_firstn. exact A.
Qed.
Lemma assign_length s e mm mask : (s <= e <= length mask)%nat -> length mm = (e - s)%nat -> length (assign s e mm mask) = length mask.
Proof. intros H L. unfold assign. rewrite !app_length, firstn_length, skipn_length, L. lia. Qed.
Lemma fold_assign (g : nat * nat -> list bool) : forall rs mask, StronglySorted (fun p q => snd p < fst q)%nat rs ->
  (forall r, In r rs -> fst r < snd r <= length mask /\ length (g r) = snd r - fst r)%nat ->
  let out := fold_left (fun mask r => assign (fst r) (snd r) (g r) mask) rs mask in
  length out = length mask /\ (forall i, (forall r, In r rs -> ~ (fst r <= i < snd r)%nat) -> nth_error out i = nth_error mask i) /\
  forall r i, In r rs -> (fst r <= i < snd r)%nat -> nth_error out i = nth_error (g r) (i - fst r).
Proof.
  induction rs as [|r rs IH]; intros mask S' H; [split; [reflexivity|split; [intros; reflexivity|intros r i []]]|]. cbn [fold_left]. cbv zeta. destruct (H r (or_introl eq_refl)) as [H1 H2].
  apply StronglySorted_inv in S'. destruct S' as [S1 F]. rewrite Forall_forall in F. destruct (IH (assign (fst r) (snd r) (g r) mask) S1) as (I1 & I2 & I3).
  { intros q Hq. rewrite assign_length by lia. apply H. now right. }
  rewrite assign_length in I1 by lia. split; [exact I1|]. split.
  - intros i Hi. rewrite I2 by (intros q Hq; apply Hi; now right). rewrite assign_nth by lia. specialize (Hi r (or_introl eq_refl)).
    destruct (Nat.leb_spec (fst r) i); cbn [andb]; [|reflexivity]. destruct (Nat.ltb_spec i (snd r)); [lia|reflexivity].
  - intros q i [<-|Hq] Hi; [|now apply I3]. rewrite I2.
    + rewrite assign_nth by lia. replace (fst r <=? i)%nat with true by (symmetry; apply Nat.leb_le; lia). now replace (i <? snd r)%nat with true by (symmetry; apply Nat.ltb_lt; lia).
    + intros p Hp. specialize (F p Hp). lia.
Qed.

(** ** the whole record *)
Lemma slice_length {A} s e (l : list A) : (s <= e <= length l)%nat -> length (slice s e l) = (e - s)%nat.
Proof. intros H. unfold slice. rewrite firstn_length, skipn_length. lia. Qed.
Lemma nth_error_skip {A} (l : list A) : forall s k, nth_error (skipn s l) k = nth_error l (s + k).
Proof. induction l as [|a l IH]; intros [|s] k; try reflexivity; [now destruct k|]. apply IH. Qed.
Lemma slice_nth {A} s e (l : list A) k : (k < e - s)%nat -> nth_error (slice s e l) k = nth_error l (s + k).
Proof. intros H. unfold slice. rewrite nth_error_firstn by exact H. apply nth_error_skip. Qed.
Lemma slice_map {A B} (f : A -> B) s e l : map f (slice s e l) = slice s e (map f l).
Proof. unfold slice. now rewrite skipn_map, firstn_map. Qed.
Lemma hd_first bl : hd false bl = false -> ~ is_true_at bl 0.
Proof. unfold is_true_at. destruct bl as [|[|] bl]; cbn; [discriminate|discriminate|discriminate]. Qed.
Lemma gap_start u npt g : hd false (map isnan u) = false -> gap u npt g -> (0 < fst g)%nat.
Proof.
  intros H [(R1 & T & _) _]. destruct g as [[|a] b]; cbn [fst snd] in *; [|lia]. destruct (hd_first _ H). apply (T 0%nat). lia.
Qed.
Lemma region_nogap u npt s e : hd false (map isnan u) = false -> region u npt s e -> group (map isnan (slice s e u)) (Z.of_nat (npt / 10)) = [].
Proof.
  intros H (I & Sb & Se & G). rewrite slice_map. set (bl := map isnan u) in *. assert (Lb : length bl = length u) by apply map_length.
  assert (Ls : length (slice s e bl) = (e - s)%nat) by (apply slice_length; lia).
  assert (N0 : ~ is_true_at bl s).
  { destruct Sb as [->|[a [(_ & _ & _ & D) _]]]; [now apply hd_first|exact D]. }
  assert (Hs : hd false (slice s e bl) = false).
  { destruct (slice s e bl) as [|[|] r] eqn:E; try reflexivity. exfalso. apply N0. unfold is_true_at.
    replace s with (s + 0)%nat by lia. rewrite <- (slice_nth s e bl 0) by lia. now rewrite E. }
  destruct (Group.group_ok _ (Z.of_nat (npt / 10)) (or_introl Hs)) as [_ L].
  destruct (group (slice s e bl) _) as [|[a b] r] eqn:E; [reflexivity|]. exfalso.
  destruct (proj1 (L a b) (or_introl eq_refl)) as [(R1 & T & Lf & Rt) Ln]. rewrite Ls in R1.
  assert (At : forall k, (k < e - s)%nat -> (is_true_at (slice s e bl) k <-> is_true_at bl (s + k))) by (intros k Hk; unfold is_true_at; now rewrite slice_nth).
  assert (Gp : gap u npt (s + a, s + b)%nat).
  { split; [|cbn [fst snd]; lia]. cbn [fst snd]. change (missing_at u) with bl. split; [lia|]. split; [|split].
    - intros k Hk. replace k with (s + (k - s))%nat by lia. apply At; [lia|]. apply T. lia.
    - intros k Hk K. destruct a as [|a].
      + apply N0. replace s with (s + 0)%nat by lia. apply At; [lia|]. apply T. lia.
      + apply (Lf a eq_refl). apply At; [lia|]. now replace (s + a)%nat with k by lia.
    - intros K. destruct (Nat.eq_dec b (e - s)) as [Eb|Nb]; [|apply Rt, At; [lia|exact K]].
      replace (s + b)%nat with e in K by lia. destruct Se as [->|[b' [(_ & _ & D & _) _]]].
      + unfold is_true_at in K. assert (nth_error bl (length u) = None) by (apply nth_error_None; lia). congruence.
      + cbn [fst snd] in D. apply (D (e - 1)%nat ltac:(lia)). change (missing_at u) with bl. replace (e - 1)%nat with (s + (b - 1))%nat by lia. apply At; [lia|]. apply T. lia. }
  destruct (G _ Gp); cbn [fst snd] in *; lia.
Qed.
Lemma gn_plain d u npt : u <> [] -> (0 < npt)%nat -> (length (group (map isnan u) (Z.of_nat (npt / 10))) <= 2)%nat -> gn2002 (S d) u npt = inr (turned u npt).
Proof.
  intros Ne P L. cbn [gn2002]. replace (2 <? _)%nat with false by (symmetry; apply Nat.ltb_ge; exact L). destruct u as [|v u]; [congruence|]. now apply loop_eq.
Qed.
Lemma region_gn d u npt s e : (0 < npt)%nat -> hd false (map isnan u) = false -> region u npt s e -> gn2002 (S d) (slice s e u) npt = inr (turned (slice s e u) npt).
Proof.
  intros P H Rg. apply gn_plain; [|exact P|rewrite (region_nogap u npt s e H Rg); cbn; lia].
  destruct Rg as (I & _). intros E. apply (f_equal (@length _)) in E. rewrite slice_length in E by lia. cbn in E. lia.
Qed.
Lemma fold_gn d u npt (g : nat * nat -> list bool) : forall rs mask, (forall r, In r rs -> gn2002 d (slice (fst r) (snd r) u) npt = inr (g r)) ->
  fold_left (fun acc r => match acc with
     | inl e => inl e
     | inr mask => match gn2002 d (slice (fst r) (snd r) u) npt with inl e => inl e | inr m => inr (assign (fst r) (snd r) m mask) end
     end) rs (inr mask) = inr (fold_left (fun mask r => assign (fst r) (snd r) (g r) mask) rs mask) :> gn_err + list bool.
Proof.
  induction rs as [|r rs IH]; intros mask H; [reflexivity|]. cbn [fold_left]. rewrite (H r (or_introl eq_refl)). apply IH. intros q Hq. apply H. now right.
Qed.
Lemma last_in {A} (l : list A) d : l <> [] -> In (List.last l d) l.
Proof. intros H. rewrite (app_removelast_last d H) at 2. apply in_or_app. right. now left. Qed.
Lemma removelast_in {A} (l : list A) x : In x (removelast l) -> In x l.
Proof. destruct l as [|a l]; [intros []|]. intros H. rewrite (app_removelast_last a (l := a :: l)) by discriminate. apply in_or_app. now left. Qed.
Lemma sorted_snoc (l : list (nat * nat)) x : StronglySorted (fun p q => snd p < fst q)%nat (l ++ [x]) ->
  StronglySorted (fun p q => snd p < fst q)%nat l /\ forall g, In g l -> (snd g < fst x)%nat.
Proof.
  induction l as [|a l IH]; intros S'; [split; [constructor|intros g []]|]. cbn [app] in S'. apply StronglySorted_inv in S'. destruct S' as [S1 F]. rewrite Forall_forall in F.
  destruct (IH S1) as [I1 I2]. split.
  - constructor; [exact I1|]. apply Forall_forall. intros g Hg. apply F. apply in_or_app. now left.
  - intros g [<-|Hg]; [apply F; apply in_or_app; right; now left|now apply I2].
Qed.
(** the regions of a record that is cut *)
Lemma cut_regions u npt : (2 < length (group (map isnan u) (Z.of_nat (npt / 10))))%nat -> (0 < npt)%nat ->
  exists rs, StronglySorted (fun p q => snd p < fst q)%nat rs /\ (forall r, In r rs -> region u npt (fst r) (snd r)) /\
   (forall i, (i < length u)%nat -> (exists g, gap u npt g /\ fst g <= i < snd g)%nat \/ exists r, In r rs /\ (fst r <= i < snd r)%nat) /\
   gn2002 2 u npt = inr (fold_left (fun mask r => assign (fst r) (snd r) (turned (slice (fst r) (snd r) u) npt) mask) rs (map (fun _ => false) u)).
Proof.
  intros L P. pose proof (many_segs _ _ L) as H. pose proof (gap_in u npt H) as Gi. pose proof (segs_sorted u npt H) as So.
  set (segs := group (map isnan u) (Z.of_nat (npt / 10))) in *.
  assert (Ne : segs <> []) by (intros E; rewrite E in L; cbn in L; lia).
  assert (F0 : forall g, In g segs -> (0 < fst g /\ fst g < snd g <= length u)%nat).
  { intros g Hg. apply Gi in Hg. split; [now apply (gap_start u npt)|now apply (gap_range u npt)]. }
  set (la := List.last segs (0, 0)%nat). assert (Hla : In la segs) by now apply last_in.
  assert (Es : segs = removelast segs ++ [la]) by now apply app_removelast_last. rewrite Es in So. destruct (sorted_snoc _ _ So) as [S1 S2]. rewrite <- Es in So.
  set (b := (snd la =? length u)%nat). set (ep := if b then fst la else length u). set (s1 := if b then removelast segs else segs).
  assert (Hi : forall g, In g s1 -> In g segs) by (intros g; unfold s1; destruct b; [apply removelast_in|auto]).
  assert (So1 : StronglySorted (fun p q => snd p < fst q)%nat s1) by (unfold s1; destruct b; assumption).
  assert (Pos : forall g, In g s1 -> (fst g < snd g)%nat) by (intros g Hg; destruct (F0 g (Hi g Hg)); lia).
  assert (Fst : forall g, In g s1 -> (0 < fst g)%nat) by (intros g Hg; destruct (F0 g (Hi g Hg)); lia).
  assert (Lst : forall g, In g s1 -> (snd g < ep)%nat).
  { unfold s1, ep, b. destruct (Nat.eqb_spec (snd la) (length u)) as [E|E]; intros g Hg; [now apply S2|].
    rewrite Es in Hg. apply in_app_or in Hg. destruct (F0 la Hla). destruct Hg as [Hg|[<-|[]]]; [specialize (S2 g Hg); lia|lia]. }
  assert (Ep : (0 < ep)%nat) by (unfold ep; destruct (F0 la Hla); destruct b; lia).
  assert (Epn : (ep <= length u)%nat) by (unfold ep; destruct (F0 la Hla); destruct b; lia).
  pose proof (regions_spec s1 0 ep Pos So1 Fst Lst Ep) as Rs.
  assert (Rg : forall r, In r (regions 0 ep s1) -> region u npt (fst r) (snd r)).
  { intros r Hr. destruct (Rs r Hr) as (R1 & R2 & R3 & R4). split; [lia|]. split; [|split].
    - destruct R2 as [R2|[a R2]]; [now left|right; exists a; apply Gi, Hi, R2].
    - destruct R3 as [R3|[b' R3]]; [|right; exists b'; apply Gi, Hi, R3]. unfold ep, b in R3. destruct (snd la =? length u)%nat; [right|now left]. exists (snd la). rewrite R3. apply Gi. now rewrite <- surjective_pairing.
    - intros g Hg. apply Gi in Hg. clear -Es Hg R1 R4. unfold s1 in R4. unfold ep in R1. destruct b; [|now apply R4].
      rewrite Es in Hg. apply in_app_or in Hg. destruct Hg as [Hg|[<-|[]]]; [now apply R4|]. right. lia. }
  exists (regions 0 ep s1). split; [now apply regions_sorted|]. split; [exact Rg|]. split.
  - intros i Ii. destruct (Nat.lt_ge_cases i ep) as [Lt|Ge].
    + destruct (regions_cover s1 0 ep i ltac:(lia)) as [(g & Hg & G1)|Hr]; [left; exists g; split; [apply Gi, Hi, Hg|exact G1]|now right].
    + left. exists la. split; [now apply Gi|]. unfold ep, b in Ge. destruct (Nat.eqb_spec (snd la) (length u)); lia.
  - change (gn2002 2 u npt) with (if (2 <? length segs)%nat then
      let sp := if (fst (hd (0, 0)%nat segs) =? 0)%nat then snd (hd (0, 0)%nat segs) else 0%nat in
      let segs := if (fst (hd (0, 0)%nat segs) =? 0)%nat then tl segs else segs in
      let ep := if (snd (List.last segs (0, 0)%nat) =? length u)%nat then fst (List.last segs (0, 0)%nat) else length u in
      let segs := if (snd (List.last segs (0, 0)%nat) =? length u)%nat then removelast segs else segs in
      fold_left (fun acc r => match acc with
        | inl e => inl e
        | inr mask => match gn2002 1 (slice (fst r) (snd r) u) npt with inl e => inl e | inr m => inr (assign (fst r) (snd r) m mask) end
        end) (regions sp ep segs) (inr (map (fun _ => false) u))
      else match u with [] => inl IndexError | _ :: _ => gn_loop 100 0 u npt (true :: tl (map (fun _ => false) u)) None end).
    replace (2 <? length segs)%nat with true by (symmetry; apply Nat.ltb_lt; exact L).
    assert (Hf : (fst (hd (0, 0)%nat segs) =? 0)%nat = false).
    { destruct segs as [|g r] eqn:E; [congruence|]. cbn [hd]. destruct (F0 g (or_introl eq_refl)). apply Nat.eqb_neq. lia. }
    cbv zeta. rewrite Hf. fold la. fold b. fold ep. fold s1. apply fold_gn. intros r Hr. apply region_gn; [exact P|exact H|now apply Rg].
Qed.
Lemma turned_judged u npt s e i : (0 < npt)%nat -> stretch u npt s e -> (s <= i < e)%nat -> (e <= length u)%nat ->
  exists first k, judged u npt i first k /\ (first <= i < first + k)%nat /\ (first + k <= length u)%nat /\
    nth_error (turned (slice s e u) npt) (i - s) = nth_error (flags (samples u first k)) (i - first).
Proof.
  intros P St I E. pose proof (turned_nth (slice s e u) npt (i - s) P) as T. rewrite slice_length in T by lia. specialize (T ltac:(lia)).
  destruct (window (e - s) npt (i - s)) as [w k] eqn:W. destruct T as (T1 & T2 & T3). exists (s + w)%nat, k. split; [|split; [lia|split; [lia|]]].
  - exists s, e. split; [exact St|]. split; [lia|]. now rewrite W.
  - rewrite T3. f_equal; [|lia]. f_equal. unfold samples, slice. rewrite skipn_firstn_comm, firstn_firstn, Nat.min_l by lia. f_equal.
    clear. revert s. induction u as [|a u IH]; intros [|s]; try reflexivity; [now rewrite !skipn_nil|]. apply IH.
Qed.
Lemma gn_spec u npt : u <> [] -> (0 < npt)%nat -> exists mask, gn2002 2 u npt = inr mask /\ length mask = length u /\
  forall i, (i < length u)%nat ->
   (exists first k, judged u npt i first k /\ (first <= i < first + k)%nat /\ (first + k <= length u)%nat /\ nth_error mask i = nth_error (flags (samples u first k)) (i - first)) \/
   (cut u npt /\ (exists g, gap u npt g /\ fst g <= i < snd g)%nat /\ nth_error mask i = Some false).
Proof.
  intros Ne P. destruct (Nat.lt_ge_cases 2 (length (group (map isnan u) (Z.of_nat (npt / 10))))) as [L|L].
  - destruct (cut_regions u npt L P) as (rs & So & Rg & Cov & ->). pose proof (proj2 (cut_iff u npt) L) as Cu.
    destruct (fold_assign (fun r => turned (slice (fst r) (snd r) u) npt) rs (map (fun _ => false) u) So) as (F1 & F2 & F3).
    { intros r Hr. destruct (Rg r Hr) as (I & _). rewrite map_length, (turned_length _ _ P), slice_length by lia. lia. }
    eexists. split; [reflexivity|]. split; [rewrite F1; apply map_length|]. intros i Hi.
    assert (D : (exists r, In r rs /\ fst r <= i < snd r)%nat \/ (forall r, In r rs -> ~ (fst r <= i < snd r)%nat)).
    { clear -rs. induction rs as [|r rs IH]; [right; intros r []|]. destruct (le_lt_dec (fst r) i) as [A|A]; [destruct (le_lt_dec (snd r) i) as [B|B]|].
      2: { left. exists r. split; [now left|lia]. }
      all: destruct IH as [(q & Hq & Q)|IH]; [left; exists q; split; [now right|exact Q]|right; intros q [<-|Hq]; [lia|now apply IH]]. }
    destruct D as [(r & Hr & Ir)|D].
    + left. rewrite (F3 r i Hr Ir). apply turned_judged; [exact P|left; split; [exact Cu|now apply Rg]|exact Ir|destruct (Rg r Hr); lia].
    + right. destruct (Cov i Hi) as [G|(r & Hr & Ir)]; [|destruct (D r Hr Ir)]. split; [exact Cu|]. split; [exact G|]. rewrite (F2 i D).
      rewrite nth_error_map. destruct (nth_error u i) eqn:E; [reflexivity|]. apply nth_error_None in E. lia.
  - rewrite (gn_plain 1 u npt Ne P L). exists (turned u npt). split; [reflexivity|]. split; [now apply turned_length|]. intros i Hi. left.
    assert (Sl : slice 0 (length u) u = u) by (unfold slice; cbn [skipn]; rewrite Nat.sub_0_r; apply firstn_all).
    assert (St : stretch u npt 0 (length u)) by (right; split; [rewrite cut_iff; lia|now split]).
    pose proof (turned_judged u npt 0 (length u) i P St ltac:(lia) ltac:(lia)) as T. now rewrite Sl, Nat.sub_0_r in T.
Qed.
Lemma region_unique u npt i s e s' e' : region u npt s e -> region u npt s' e' -> (s <= i < e)%nat -> (s' <= i < e')%nat -> s = s' /\ e = e'.
Proof.
  intros (A1 & A2 & A3 & A4) (B1 & B2 & B3 & B4) I I'. split.
  - destruct (lt_eq_lt_dec s s') as [[L|E]|L]; [|exact E|].
    + destruct B2 as [->|[a G]]; [lia|]. pose proof (gap_range _ _ _ G) as Gr. destruct (A4 _ G); cbn [fst snd] in *; lia.
    + destruct A2 as [->|[a G]]; [lia|]. pose proof (gap_range _ _ _ G) as Gr. destruct (B4 _ G); cbn [fst snd] in *; lia.
  - destruct (lt_eq_lt_dec e e') as [[L|E]|L]; [|exact E|].
    + destruct A3 as [->|[b G]]; [lia|]. pose proof (gap_range _ _ _ G) as Gr. destruct (B4 _ G); cbn [fst snd] in *; lia.
    + destruct B3 as [->|[b G]]; [lia|]. pose proof (gap_range _ _ _ G) as Gr. destruct (A4 _ G); cbn [fst snd] in *; lia.
Qed.
Lemma judged_unique u npt i f k f' k' : judged u npt i f k -> judged u npt i f' k' -> f = f' /\ k = k'.
Proof.
  intros (s & e & St & I & W) (s' & e' & St' & I' & W'). assert (E : s = s' /\ e = e').
  { destruct St as [[C Rg]|(C & -> & ->)], St' as [[C' Rg']|(C' & -> & ->)]; try contradiction; [|now split]. now apply (region_unique u npt i). }
  destruct E as [<- <-]. destruct (window _ _ _). lia.
Qed.
Lemma judged_flag u npt mask i first k : (0 < npt)%nat -> gn2002 2 u npt = inr mask -> judged u npt i first k ->
  (i < length u)%nat /\ (first <= i < first + k)%nat /\ (first + k <= length u)%nat /\ nth_error mask i = nth_error (flags (samples u first k)) (i - first).
Proof.
  intros P E J. assert (Hi : (i < length u)%nat).
  { destruct J as (s & e & [[_ [Rg _]]|(_ & -> & ->)] & I & _); lia. }
  assert (Ne : u <> []) by (intros ->; cbn in Hi; lia).
  destruct (gn_spec u npt Ne P) as (mask' & E' & _ & S'). rewrite E in E'. injection E' as <-. split; [exact Hi|].
  destruct (S' i Hi) as [(f & k' & J' & R1)|(C & (g & G & Ig) & _)].
  - destruct (judged_unique _ _ _ _ _ _ _ J J') as [-> ->]. exact R1.
  - exfalso. destruct J as (s & e & [[_ (_ & _ & _ & Rg)]|(C' & _)] & I & _); [|contradiction]. destruct (Rg g G); lia.
Qed.

(** ** beyond the threshold, whole records *)
Lemma beyond l i : regular l -> (i < length l)%nat ->
  2 * ln (INR (length l)) * spread l (dev l) < dev l i * dev l i \/ 2 * ln (INR (length l)) * spread l (diff1 l) < diff1 l i * diff1 l i \/
  2 * ln (INR (length l)) * spread l (diff2 l) < diff2 l i * diff2 l i -> outside l i.
Proof.
  intros Rg I H. destruct (flagged_iff l Rg) as (_ & _ & _ & _ & c & s & a & b & El & A & B & W). exists c, s, a, b. split; [exact El|].
  destruct El as (_ & U & _ & E1 & E2). set (V := 2 * ln (INR (length l)) * spread l (diff1 l)) in *.
  assert (P3 : 0 <= diff1 l i * diff1 l i / V) by (apply Rmult_le_pos; [apply Rle_0_sqr|left; now apply Rinv_0_lt_compat]).
  assert (P1 : 0 <= (dev l i * c + diff2 l i * s) * (dev l i * c + diff2 l i * s) / a) by (apply Rmult_le_pos; [apply Rle_0_sqr|left; now apply Rinv_0_lt_compat]).
  assert (P2 : 0 <= (dev l i * s - diff2 l i * c) * (dev l i * s - diff2 l i * c) / b) by (apply Rmult_le_pos; [apply Rle_0_sqr|left; now apply Rinv_0_lt_compat]).
  destruct H as [H|[H|H]].
  - pose proof (threshold_outside c s a b (dev l i) (diff2 l i) _ A B U E1 H). lra.
  - assert (1 < diff1 l i * diff1 l i / V); [|lra]. apply (Rmult_lt_reg_r V); [exact W|]. unfold Rdiv. rewrite Rmult_assoc, Rinv_l by lra. lra.
  - assert (U' : s * s + c * c = 1) by lra. pose proof (threshold_outside s c a b (diff2 l i) (dev l i) _ A B U' E2 H) as T.
    replace (diff2 l i * s + dev l i * c) with (dev l i * c + diff2 l i * s) in T by ring.
    replace ((diff2 l i * c - dev l i * s) * (diff2 l i * c - dev l i * s)) with ((dev l i * s - diff2 l i * c) * (dev l i * s - diff2 l i * c)) in T by ring. lra.
Qed.
Lemma flags_affine k m u : k <> 0 -> flags (map (affine k m) u) = flags u.
Proof. intros K. unfold flags. now rewrite thresh_affine. Qed.
Lemma turned_affine k m u npt : k <> 0 -> turned (map (affine k m) u) npt = turned u npt.
Proof.
  intros K. unfold turned, blocks. rewrite map_length, !map_map. f_equal.
  - do 2 f_equal. apply map_ext. intros j. now rewrite skipn_map, firstn_map, flags_affine.
  - now rewrite skipn_map, flags_affine.
Qed.
Lemma isnan_affine k m u : map isnan (map (affine k m) u) = map isnan u.
Proof. rewrite map_map. apply map_ext. now intros [v|]. Qed.
Lemma gn_affine k m npt : k <> 0 -> (0 < npt)%nat -> forall d u, gn2002 d (map (affine k m) u) npt = gn2002 d u npt.
Proof.
  intros K P. induction d as [|d IH]; intros u; [reflexivity|]. cbn [gn2002]. rewrite isnan_affine, map_length, map_map. cbv zeta.
  destruct (2 <? _)%nat.
  - generalize (inr (map (fun _ : option R => false) u) : gn_err + list bool). generalize (regions (if (fst (hd (0, 0)%nat (group (map isnan u) (Z.of_nat (npt / 10)))) =? 0)%nat then snd (hd (0, 0)%nat (group (map isnan u) (Z.of_nat (npt / 10)))) else 0%nat)).
    intros rg. generalize (rg (if (snd (List.last (if (fst (hd (0, 0)%nat (group (map isnan u) (Z.of_nat (npt / 10)))) =? 0)%nat then tl (group (map isnan u) (Z.of_nat (npt / 10))) else group (map isnan u) (Z.of_nat (npt / 10))) (0, 0)%nat) =? length u)%nat then fst (List.last (if (fst (hd (0, 0)%nat (group (map isnan u) (Z.of_nat (npt / 10)))) =? 0)%nat then tl (group (map isnan u) (Z.of_nat (npt / 10))) else group (map isnan u) (Z.of_nat (npt / 10))) (0, 0)%nat) else length u)
      (if (snd (List.last (if (fst (hd (0, 0)%nat (group (map isnan u) (Z.of_nat (npt / 10)))) =? 0)%nat then tl (group (map isnan u) (Z.of_nat (npt / 10))) else group (map isnan u) (Z.of_nat (npt / 10))) (0, 0)%nat) =? length u)%nat then removelast (if (fst (hd (0, 0)%nat (group (map isnan u) (Z.of_nat (npt / 10)))) =? 0)%nat then tl (group (map isnan u) (Z.of_nat (npt / 10))) else group (map isnan u) (Z.of_nat (npt / 10))) else (if (fst (hd (0, 0)%nat (group (map isnan u) (Z.of_nat (npt / 10)))) =? 0)%nat then tl (group (map isnan u) (Z.of_nat (npt / 10))) else group (map isnan u) (Z.of_nat (npt / 10))))).
    induction l as [|r rs IHr]; intros acc; [reflexivity|]. cbn [fold_left]. rewrite IHr. f_equal. destruct acc as [e|mask]; [reflexivity|].
    rewrite <- (slice_map (affine k m)), IH. reflexivity.
  - destruct u as [|v u]; [reflexivity|]. rewrite !loop_eq; [|exact P|reflexivity|exact P|reflexivity]. now rewrite (turned_affine k m (v :: u)).
Qed.
