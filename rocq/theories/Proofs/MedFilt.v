(** Proofs about median filters. *)
From Coq Require Import Reals List Bool Arith Lia Lra Permutation Sorted.
From Verif.Model Require Import Linalg Euler CleanAdp MedFilt.
From Verif.Spec Require Import Linalg MedFilt.
From Verif.Proofs Require Import CleanAdp.
From Verif.Proofs Require Euler.
Import ListNotations.
Open Scope R_scope.

(** ** sorting *)
Lemma insert_perm x l : Permutation (insert x l) (x :: l).
Proof.
  induction l as [|y l IH]; cbn; [reflexivity|]. destruct (Rle_dec x y); [reflexivity|].
  rewrite IH. apply perm_swap.
Qed.
Lemma sort_perm l : Permutation (sort l) l.
Proof. induction l as [|x l IH]; [constructor|]. change (sort (x :: l)) with (insert x (sort l)). now rewrite insert_perm, IH. Qed.
Lemma insert_sorted x l : StronglySorted Rle l -> StronglySorted Rle (insert x l).
Proof.
  induction 1 as [|y l S IH F]; cbn; [repeat constructor|]. destruct (Rle_dec x y) as [L|L].
  - constructor; [constructor; assumption|]. constructor; [exact L|]. eapply Forall_impl; [|exact F]. cbn. intros. lra.
  - constructor; [exact IH|]. apply Forall_forall. intros z I. apply insert_in in I. destruct I as [->|I]; [lra|].
    rewrite Forall_forall in F. now apply F.
Qed.
Lemma sort_sorted l : StronglySorted Rle (sort l).
Proof. induction l as [|x l IH]; [constructor|]. change (sort (x :: l)) with (insert x (sort l)). now apply insert_sorted. Qed.

Lemma filter_perm {A} (f : A -> bool) l l' : Permutation l l' -> length (filter f l) = length (filter f l').
Proof.
  induction 1 as [|x l l' P IH|x y l|l l' l'' P1 IH1 P2 IH2]; cbn; try congruence.
  - destruct (f x); cbn; congruence.
  - destruct (f x), (f y); reflexivity.
Qed.
Lemma filter_le {A} (f : A -> bool) l : (length (filter f l) <= length l)%nat.
Proof. induction l as [|x l IH]; cbn; [lia|]. destruct (f x); cbn; lia. Qed.
Lemma filter_firstn {A} (f : A -> bool) k l : (forall x, In x (firstn k l) -> f x = true) -> (k <= length l)%nat -> (k <= length (filter f l))%nat.
Proof.
  revert l. induction k as [|k IH]; intros l H L; [lia|]. destruct l as [|x l]; [cbn in L; lia|]. cbn.
  rewrite (H x) by (left; reflexivity). cbn. apply le_n_S. apply IH; [|cbn in L; lia]. intros y I. apply H. right. exact I.
Qed.
Lemma filter_skipn {A} (f : A -> bool) k l : (forall x, In x (skipn k l) -> f x = true) -> (length l - k <= length (filter f l))%nat.
Proof.
  revert l. induction k as [|k IH]; intros l H.
  - cbn [skipn] in H. enough (E : filter f l = l) by (rewrite E; lia). induction l as [|x l IH]; [reflexivity|]. cbn.
    rewrite (H x) by (left; reflexivity). f_equal. apply IH. intros y I. apply H. right. exact I.
  - destruct l as [|x l]; [cbn; lia|]. cbn [skipn length] in *. specialize (IH l H). cbn. destruct (f x); cbn; lia.
Qed.
Lemma sorted_split s k d : StronglySorted Rle s -> (k < length s)%nat ->
  (forall x, In x (firstn (S k) s) -> x <= nth k s d) /\ (forall x, In x (skipn k s) -> nth k s d <= x).
Proof.
  intros S. revert k. induction S as [|y s S IH F]; intros k L; [cbn in L; lia|]. rewrite Forall_forall in F. destruct k as [|k].
  - cbn. split; [intros x [<-|[]]; lra|intros x [<-|I]; [lra|now apply F]].
  - cbn in L. destruct (IH k ltac:(lia)) as [A B]. cbn [nth skipn]. split; [|exact B].
    intros x I. cbn [firstn] in I. destruct I as [<-|I]; [|now apply A]. apply F. apply nth_In. lia.
Qed.
Lemma odd_half n : Nat.even n = false -> (n = 2 * (n / 2) + 1)%nat.
Proof.
  intros O. assert (O' : Nat.odd n = true) by (unfold Nat.odd; now rewrite O). apply Nat.odd_spec in O'. destruct O' as (m & ->).
  f_equal. f_equal. rewrite Nat.mul_comm, Nat.div_add_l by lia. cbn. lia.
Qed.
Theorem middle_median l : l <> [] -> Nat.even (length l) = false -> is_median l (middle l).
Proof.
  intros N O. unfold middle. set (k := (length l / 2)%nat). assert (Ek : (length l = 2 * k + 1)%nat).
  { unfold k. now apply odd_half. }
  pose proof (sort_len l) as Ls. destruct (sorted_split (sort l) k 0 (sort_sorted l) ltac:(lia)) as [A B].
  pose proof (sort_perm l) as P. set (x := nth k (sort l) 0) in *. split; [|split].
  - apply sort_in. apply nth_In. lia.
  - unfold at_most. rewrite <- (filter_perm _ _ _ P).
    enough (S k <= length (filter (fun y => if Rle_dec y x then true else false) (sort l)))%nat by lia.
    apply filter_firstn; [|lia]. intros y I. destruct (Rle_dec y x); [reflexivity|]. exfalso. auto.
  - unfold at_least. rewrite <- (filter_perm _ _ _ P).
    pose proof (filter_skipn (fun y => if Rle_dec x y then true else false) k (sort l)) as H.
    enough (length (sort l) - k <= length (filter (fun y => if Rle_dec x y then true else false) (sort l)))%nat by lia.
    apply H. intros y I. destruct (Rle_dec x y); [reflexivity|]. exfalso. auto.
Qed.

(** two kinds of elements that exclude each other *)
Lemma disjoint_count {A} (f g : A -> bool) l : (forall x, f x = true -> g x = false) -> (length (filter f l) + length (filter g l) <= length l)%nat.
Proof.
  intros H. induction l as [|x l IH]; cbn; [lia|]. specialize (H x). destruct (f x); [rewrite H by reflexivity; cbn; lia|]. destruct (g x); cbn; lia.
Qed.
Theorem median_between l x lo hi : is_median l x -> (length l < 2 * between lo hi l)%nat -> lo <= x <= hi.
Proof.
  intros (_ & A & B) C. unfold at_most, at_least, between in *. split.
  - destruct (Rle_dec lo x) as [|N]; [assumption|]. exfalso.
    assert (D := disjoint_count (fun y => if Rle_dec y x then true else false)
      (fun y => if Rle_dec lo y then (if Rle_dec y hi then true else false) else false) l).
    cbn beta in D. specialize (D ltac:(intros y; destruct (Rle_dec y x), (Rle_dec lo y); try discriminate; try reflexivity; lra)). lia.
  - destruct (Rle_dec x hi) as [|N]; [assumption|]. exfalso.
    assert (D := disjoint_count (fun y => if Rle_dec x y then true else false)
      (fun y => if Rle_dec lo y then (if Rle_dec y hi then true else false) else false) l).
    cbn beta in D. specialize (D ltac:(intros y; destruct (Rle_dec x y), (Rle_dec lo y), (Rle_dec y hi); try discriminate; try reflexivity; lra)). lia.
Qed.

(** ** windows *)
Lemma skipn_repeat {A} (c : A) i k : skipn i (repeat c k) = repeat c (k - i).
Proof. revert i. induction k as [|k IH]; intros [|i]; try reflexivity. cbn. apply IH. Qed.
Lemma firstn_repeat {A} (c : A) i k : firstn i (repeat c k) = repeat c (Nat.min i k).
Proof. revert i. induction k as [|k IH]; intros [|i]; try reflexivity. cbn. now rewrite IH. Qed.
Lemma around_inside {A} (z : A) n l i : (n / 2 <= i)%nat -> (i + n / 2 < length l)%nat -> Nat.even n = false -> around z n l i = firstn n (skipn (i - n / 2) l).
Proof.
  intros H1 H2 O. unfold around. set (k := (n / 2)%nat) in *.
  assert (En : (n = 2 * k + 1)%nat).
  { unfold k. now apply odd_half. }
  rewrite skipn_app, skipn_repeat, repeat_length. replace (k - i)%nat with 0%nat by lia. cbn [repeat app].
  rewrite skipn_app. rewrite firstn_app, skipn_length. replace (n - (length l - (i - k)))%nat with 0%nat by lia. cbn [firstn]. now rewrite app_nil_r.
Qed.
Lemma around_length {A} (z : A) n l i : (i < length l)%nat -> Nat.even n = false -> length (around z n l i) = n.
Proof.
  intros L O. apply odd_half in O. unfold around. rewrite firstn_length, skipn_length, !app_length, !repeat_length. lia.
Qed.
Lemma nth_map_seq {B} (f : nat -> B) n i d : (i < n)%nat -> nth i (map f (seq 0 n)) d = f i.
Proof. intros L. rewrite (nth_indep _ d (f 0%nat)) by (rewrite map_length, seq_length; exact L). rewrite map_nth. now rewrite seq_nth. Qed.

Theorem medfilt_length l n out : medfilt l n = Some out -> length out = length l.
Proof. unfold medfilt. destruct (Nat.even n); [discriminate|]. intros [= <-]. now rewrite map_length, seq_length. Qed.
Theorem medfilt_even l n : medfilt l n = None <-> Nat.even n = true.
Proof. unfold medfilt. destruct (Nat.even n); split; congruence. Qed.
Lemma medfilt_at l n out i : medfilt l n = Some out -> (i < length l)%nat -> nth i out 0 = middle (around 0 n l i) /\ Nat.even n = false.
Proof. unfold medfilt. destruct (Nat.even n); [discriminate|]. intros [= <-] L. split; [|reflexivity]. now apply (nth_map_seq (fun i => middle (around 0 n l i))). Qed.
Lemma around_median l n i : (i < length l)%nat -> Nat.even n = false -> is_median (around 0 n l i) (middle (around 0 n l i)).
Proof.
  intros L O. pose proof (around_length 0 n l i L O) as La. apply middle_median; [|now rewrite La].
  intros E. rewrite E in La. cbn in La. subst n. discriminate.
Qed.
Theorem medfilt_inside l n out i : medfilt l n = Some out -> inside n l i -> is_median (centred n l i) (nth i out 0).
Proof.
  intros H (I1 & I2). destruct (medfilt_at _ _ _ i H ltac:(lia)) as [-> O]. unfold centred. rewrite <- (around_inside 0) by assumption.
  apply around_median; [lia|exact O].
Qed.
Theorem medfilt_outliers l n out i lo hi : medfilt l n = Some out -> inside n l i -> (n < 2 * between lo hi (centred n l i))%nat -> lo <= nth i out 0 <= hi.
Proof.
  intros H I C. apply (median_between (centred n l i)); [eapply medfilt_inside; eassumption|].
  destruct (medfilt_at _ _ _ i H ltac:(unfold inside in I; lia)) as [_ O]. destruct I as (I1 & I2).
  unfold centred in *. rewrite <- (around_inside 0) in * by assumption. rewrite around_length by (assumption || lia). exact C.
Qed.

(** ** the ends *)
Lemma around_first {A} (z : A) n l : Nat.even n = false -> (n / 2 < length l)%nat -> around z n l 0 = repeat z (n / 2) ++ firstn (n / 2 + 1) l.
Proof.
  intros O L. pose proof (odd_half n O) as E. unfold around. cbn [skipn]. set (k := (n / 2)%nat) in *.
  rewrite firstn_app, repeat_length, firstn_all2 by (rewrite repeat_length; lia). f_equal.
  rewrite firstn_app. replace (n - k - length l)%nat with 0%nat by lia. cbn [firstn]. rewrite app_nil_r. f_equal. lia.
Qed.
Lemma filter_none {A} (f : A -> bool) l : (forall x, In x l -> f x = false) -> filter f l = [].
Proof. induction l as [|x l IH]; intros H; [reflexivity|]. cbn. rewrite (H x) by (left; reflexivity). apply IH. intros y I. apply H. right. exact I. Qed.
Lemma filter_missing {A} (f : A -> bool) l y : In y l -> f y = false -> (length (filter f l) < length l)%nat.
Proof.
  intros I F. induction l as [|x l IH]; [destruct I|]. cbn. destruct I as [->|I]; [rewrite F; pose proof (filter_le f l); lia|].
  specialize (IH I). destruct (f x); cbn; lia.
Qed.
Lemma least_of_padded k l x : Forall (fun y => 0 < y) l -> length l = (k + 1)%nat -> is_median (repeat 0 k ++ l) x -> is_least l x.
Proof.
  intros P L (I & A & B). rewrite Forall_forall in P. rewrite app_length, repeat_length in A, B. unfold at_most, at_least in *. rewrite filter_app, app_length in A, B.
  assert (X : 0 < x).
  { destruct (Rlt_dec 0 x) as [|N]; [assumption|]. exfalso.
    rewrite (filter_none _ l) in A; [|intros y Iy; specialize (P y Iy); destruct (Rle_dec y x); [lra|reflexivity]].
    pose proof (filter_le (fun y => if Rle_dec y x then true else false) (repeat 0 k)) as F. rewrite repeat_length in F. cbn in A. lia. }
  split.
  - apply in_app_or in I. destruct I as [I|I]; [|exact I]. apply repeat_spec in I. lra.
  - intros y Iy. destruct (Rle_dec x y) as [|N]; [assumption|]. exfalso.
    rewrite (filter_none _ (repeat 0 k)) in B; [|intros z Iz; apply repeat_spec in Iz; subst z; destruct (Rle_dec x 0); [lra|reflexivity]].
    pose proof (filter_missing (fun y => if Rle_dec x y then true else false) l y Iy) as F. cbn beta in F.
    destruct (Rle_dec x y); [lra|]. specialize (F eq_refl). cbn in B. lia.
Qed.
Theorem medfilt_first l n out : medfilt l n = Some out -> Forall (fun y => 0 < y) l -> (n / 2 < length l)%nat -> is_least (firstn (n / 2 + 1) l) (nth 0 out 0).
Proof.
  intros H P L. destruct (medfilt_at _ _ _ 0%nat H ltac:(lia)) as [-> O]. apply (least_of_padded (n / 2)).
  - apply Forall_forall. intros y I. rewrite Forall_forall in P. apply P. rewrite <- (firstn_skipn (n / 2 + 1) l). apply in_or_app. left. exact I.
  - rewrite firstn_length. lia.
  - rewrite <- around_first by assumption. apply around_median; [lia|exact O].
Qed.
Lemma between_app lo hi a b : between lo hi (a ++ b) = (between lo hi a + between lo hi b)%nat.
Proof. unfold between. now rewrite filter_app, app_length. Qed.
Lemma between_same c k : between c c (repeat c k) = k.
Proof.
  unfold between. induction k as [|k IH]; [reflexivity|]. cbn. destruct (Rle_dec c c) as [|N]; [|exfalso; lra]. cbn. now rewrite IH.
Qed.
(** a constant record is not changed, ends included, when it is longer than half the kernel *)
Theorem medfilt_constant c m n : Nat.even n = false -> (n / 2 < m)%nat -> medfilt (repeat c m) n = Some (repeat c m).
Proof.
  intros O L. unfold medfilt. rewrite O, repeat_length. f_equal.
  transitivity (map (fun _ : nat => c) (seq 0 m)).
  2:{ clear. generalize 0%nat. induction m as [|m IH]; intros s; [reflexivity|]. cbn. now rewrite IH. }
  apply map_ext_in. intros i I. apply in_seq in I.
  pose proof (around_median (repeat c m) n i ltac:(rewrite repeat_length; lia) O) as M.
  enough (c <= middle (around 0 n (repeat c m) i) <= c) by lra. apply (median_between (around 0 n (repeat c m) i)); [exact M|].
  rewrite around_length by (rewrite ?repeat_length; assumption || lia). pose proof (odd_half n O) as E. unfold around. set (k := (n / 2)%nat) in *.
  rewrite skipn_app, skipn_repeat, repeat_length, skipn_app, skipn_repeat, repeat_length.
  replace (i - k - m)%nat with 0%nat by lia. cbn [skipn].
  rewrite firstn_app, repeat_length, firstn_app, repeat_length, firstn_repeat, !between_app, firstn_repeat, between_same. lia.
Qed.
(** a value that was never recorded *)
Theorem medfilt_invented : medfilt [5; -3] 3 = Some [0; 0].
Proof.
  unfold medfilt, around, middle. cbn. repeat f_equal.
  all: repeat (match goal with |- context [Rle_dec ?a ?b] => destruct (Rle_dec a b); [try (exfalso; lra)|try (exfalso; lra)]; cbn end); reflexivity.
Qed.

(** ** orientations *)
Lemma all_some_spec {A} (l : list (option A)) r : all_some l = Some r -> l = map Some r.
Proof.
  revert r. induction l as [|[x|] l IH]; intros r; cbn; [intros [= <-]; reflexivity| |discriminate].
  destruct (all_some l) as [r'|]; [|discriminate]. intros [= <-]. cbn. f_equal. now apply IH.
Qed.
Lemma all_some_in {A} (l : list (option A)) : In None l -> all_some l = None.
Proof. induction l as [|[x|] l IH]; cbn; [easy| |reflexivity]. intros [|H]; [discriminate|]. now rewrite IH. Qed.
Theorem imu_result d w x y z n d' : has_imu d = Some true -> quaternions d = Some (w, x, y, z) -> medfilt_orient d n = inr d' ->
  exists w' x' y' z' m, medfilt w n = Some w' /\ medfilt x n = Some x' /\ medfilt y n = Some y' /\ medfilt z n = Some z' /\
    quaternions d' = Some (w', x', y', z') /\ orientmat d' = Some m /\ angles d' = angles d /\ length m = length w /\
    forall i, (i < length w)%nat -> quaternion2orient (nth i w' 0) (nth i x' 0) (nth i y' 0) (nth i z' 0) = Some (nth i m []) /\ proper_rotation (nth i m []).
Proof.
  intros Hi Q. unfold medfilt_orient. rewrite Hi, Q.
  destruct (medfilt w n) as [w'|] eqn:Ew; [|discriminate]. destruct (medfilt x n) as [x'|] eqn:Ex; [|discriminate].
  destruct (medfilt y n) as [y'|] eqn:Ey; [|discriminate]. destruct (medfilt z n) as [z'|] eqn:Ez; [|discriminate].
  destruct (matrices w' x' y' z') as [m|] eqn:M; [|discriminate]. intros [= <-]. cbn. exists w', x', y', z', m.
  unfold matrices in M. apply all_some_spec in M. pose proof (medfilt_length _ _ _ Ew) as L.
  assert (Lm : length m = length w).
  { apply (f_equal (@length _)) in M. rewrite !map_length, seq_length in M. lia. }
  do 7 (split; [reflexivity|]). split; [exact Lm|]. intros i Li.
  assert (E : quaternion2orient (nth i w' 0) (nth i x' 0) (nth i y' 0) (nth i z' 0) = Some (nth i m [])).
  { apply (f_equal (fun l => nth i l None)) in M. cbv beta in M.
    rewrite (nth_map_seq (fun i => quaternion2orient (nth i w' 0) (nth i x' 0) (nth i y' 0) (nth i z' 0))) in M by lia.
    rewrite M. etransitivity; [apply (nth_indep (map Some m) None (Some [])); rewrite map_length; lia|]. now rewrite map_nth. }
  split; [exact E|]. exact (Proofs.Euler.quat_proper _ _ _ _ _ E).
Qed.
Theorem angles_result d p r h n d' : has_imu d = Some false -> angles d = Some (p, r, h) -> medfilt_orient d n = inr d' ->
  exists p' r' h', medfilt p n = Some p' /\ medfilt r n = Some r' /\ medfilt h n = Some h' /\ angles d' = Some (p', r', h') /\ orientmat d' = None
    /\ quaternions d' = quaternions d.
Proof.
  intros Hi Q. unfold medfilt_orient. rewrite Hi, Q.
  destruct (medfilt p n) as [p'|]; [|discriminate]. destruct (medfilt r n) as [r'|]; [|discriminate]. destruct (medfilt h n) as [h'|]; [|discriminate].
  destruct (orientmat d); [|discriminate]. intros [= <-]. exists p', r', h'. repeat split.
Qed.
Theorem imu_ok d w x y z n : has_imu d = Some true -> quaternions d = Some (w, x, y, z) -> Nat.even n = false ->
  (forall w' x' y' z' i, medfilt w n = Some w' -> medfilt x n = Some x' -> medfilt y n = Some y' -> medfilt z n = Some z' -> (i < length w)%nat ->
     ~ (nth i w' 0 = 0 /\ nth i x' 0 = 0 /\ nth i y' 0 = 0 /\ nth i z' 0 = 0)) ->
  exists d', medfilt_orient d n = inr d'.
Proof.
  intros Hi Q O H. unfold medfilt_orient. rewrite Hi, Q.
  destruct (medfilt w n) as [w'|] eqn:Ew; [|apply medfilt_even in Ew; congruence]. destruct (medfilt x n) as [x'|] eqn:Ex; [|apply medfilt_even in Ex; congruence].
  destruct (medfilt y n) as [y'|] eqn:Ey; [|apply medfilt_even in Ey; congruence]. destruct (medfilt z n) as [z'|] eqn:Ez; [|apply medfilt_even in Ez; congruence].
  destruct (matrices w' x' y' z') as [m|] eqn:M; [eexists; reflexivity|]. exfalso.
  unfold matrices in M. assert (A : forall l : list (option mat), all_some l = None -> In None l).
  { clear. induction l as [|[a|] l IH]; cbn; [discriminate| |intros _; now left]. destruct (all_some l); [discriminate|]. intros _. right. now apply IH. }
  apply A in M. apply in_map_iff in M. destruct M as (i & E & I). apply in_seq in I. apply Proofs.Euler.quat_total in E.
  rewrite (medfilt_length _ _ _ Ew) in I. eapply (H w' x' y' z' i); eauto. lia.
Qed.
Lemma cancel a rest : nth 0 (match medfilt (a :: - a :: rest) 3 with Some l => l | None => [] end) 0 = 0.
Proof.
  destruct (medfilt (a :: - a :: rest) 3) as [out|] eqn:E; [|reflexivity].
  destruct (medfilt_at _ _ _ 0%nat E ltac:(cbn; lia)) as [-> O].
  pose proof (around_median (a :: - a :: rest) 3 0 ltac:(cbn; lia) O) as M.
  rewrite around_first in M |- * by (reflexivity || (cbn; lia)). cbn [Nat.div Nat.divmod fst repeat app firstn Nat.add] in M |- *.
  destruct M as (I & A & B). set (x := middle [0; a; - a]) in *. unfold at_most, at_least in *. cbn [filter length] in A, B. cbn [In] in I.
  destruct (Rle_dec 0 x), (Rle_dec x 0); try lra.
  all: repeat (match goal with H : context [if Rle_dec ?a ?b then _ else _] |- _ => destruct (Rle_dec a b); cbn [length] in H end); try lia; exfalso; lra.
Qed.
Theorem opposite_quaternions d w x y z ws xs ys zs : has_imu d = Some true ->
  quaternions d = Some (w :: - w :: ws, x :: - x :: xs, y :: - y :: ys, z :: - z :: zs) -> medfilt_orient d 3 = inl Zero_quaternion.
Proof.
  intros Hi Q. unfold medfilt_orient. rewrite Hi, Q.
  pose proof (cancel w ws) as Cw. pose proof (cancel x xs) as Cx. pose proof (cancel y ys) as Cy. pose proof (cancel z zs) as Cz.
  destruct (medfilt (w :: - w :: ws) 3) as [w'|] eqn:Ew; [|apply medfilt_even in Ew; discriminate]. destruct (medfilt (x :: - x :: xs) 3) as [x'|] eqn:Ex; [|apply medfilt_even in Ex; discriminate].
  destruct (medfilt (y :: - y :: ys) 3) as [y'|] eqn:Ey; [|apply medfilt_even in Ey; discriminate]. destruct (medfilt (z :: - z :: zs) 3) as [z'|] eqn:Ez; [|apply medfilt_even in Ez; discriminate].
  unfold matrices. rewrite all_some_in; [reflexivity|]. apply in_map_iff. exists 0%nat. split.
  - rewrite Cw, Cx, Cy, Cz. apply Proofs.Euler.quat_total. repeat split.
  - apply in_seq. rewrite (medfilt_length _ _ _ Ew). cbn. lia.
Qed.
Theorem twice d n d' : has_imu d = Some false -> medfilt_orient d n = inr d' -> medfilt_orient d' n = inl Nothing_to_drop.
Proof.
  intros Hi. unfold medfilt_orient at 1. rewrite Hi. destruct (angles d) as [[[p r] h]|]; [|discriminate].
  destruct (medfilt p n) as [p'|] eqn:Ep; [|discriminate]. destruct (medfilt r n) as [r'|] eqn:Er; [|discriminate].
  destruct (medfilt h n) as [h'|] eqn:Eh; [|discriminate]. destruct (orientmat d); [|discriminate]. intros [= <-].
  unfold medfilt_orient. cbn. assert (O : Nat.even n = false) by (unfold medfilt in Ep; destruct (Nat.even n); [discriminate|reflexivity]).
  unfold medfilt. now rewrite O.
Qed.

(** ** the surface *)
Lemma values_some l : values (map Some l) = l.
Proof. induction l as [|x l IH]; [reflexivity|]. cbn. now rewrite IH. Qed.
Lemma missing_some l : missing (map Some l) = 0%nat.
Proof. unfold missing. induction l as [|x l IH]; [reflexivity|]. exact IH. Qed.
Lemma missing_le l : (missing l <= length l)%nat.
Proof. apply filter_le. Qed.
Lemma around_some n l i : around (Some 0) n (map Some l) i = map Some (around 0 n l i).
Proof. unfold around. rewrite <- firstn_map, <- skipn_map, !map_app. f_equal. f_equal. f_equal; [|f_equal]; clear; induction (n / 2)%nat as [|k IH]; cbn; congruence. Qed.
Lemma mask_off n l i thresh : Nat.even n = false -> (i < length l)%nat -> 1 <= thresh -> ~ thresh < INR (missing (around (Some 0) n l i)) / INR n.
Proof.
  intros O L T H. pose proof (missing_le (around (Some 0) n l i)) as M. rewrite around_length in M by assumption. apply le_INR in M.
  assert (N : 0 < INR n) by (apply lt_0_INR; apply odd_half in O; lia).
  assert (INR (missing (around (Some 0) n l i)) / INR n <= 1); [|lra]. apply Rmult_le_reg_r with (INR n); [exact N|]. unfold Rdiv. rewrite Rmult_assoc, Rinv_l by lra. lra.
Qed.
Theorem no_effect other l n thresh : 1 <= thresh -> medfiltnan other l n thresh = medfiltnan other l n 0.
Proof.
  intros T. unfold medfiltnan. destruct (Nat.even n) eqn:O; [reflexivity|]. f_equal. apply map_ext_in. intros i I. apply in_seq in I. cbv zeta.
  destruct (Rlt_dec 0 0) as [Z|_]; [lra|]. destruct (Rlt_dec 0 thresh) as [_|N]; [|reflexivity].
  destruct (Rlt_dec thresh _) as [H|_]; [|reflexivity]. exfalso. apply (mask_off n l i thresh); [exact O|lia|exact T|exact H].
Qed.
Lemma missing_app a b : missing (a ++ b) = (missing a + missing b)%nat.
Proof. unfold missing. rewrite filter_app, app_length. reflexivity. Qed.
Lemma missing_zeros k : missing (repeat (Some 0) k) = 0%nat.
Proof. induction k as [|k IH]; [reflexivity|exact IH]. Qed.
Lemma missing_window n l i : Nat.even n = false -> (i < length l)%nat -> missing (around (Some 0) n l i) = missing (skipn (i - n / 2) (firstn (i + n / 2 + 1) l)).
Proof.
  intros O L. pose proof (odd_half n O) as E. unfold around. set (k := (n / 2)%nat) in *.
  rewrite !skipn_app, !firstn_app, !missing_app, !repeat_length, !skipn_repeat, !firstn_repeat, !missing_zeros, !repeat_length, Nat.add_0_r. cbn [Nat.add].
  f_equal. rewrite firstn_skipn_comm. f_equal. f_equal. lia.
Qed.
Lemma missing_indices l : forall s a b, length (filter (fun j => match nth_error l (j - s) with Some None => (s + a <=? j)%nat && (j <? s + b)%nat | _ => false end) (seq s (length l))) = missing (skipn a (firstn b l)).
Proof.
  induction l as [|x l IH]; intros s a b; [rewrite firstn_nil, skipn_nil; reflexivity|].
  cbn [length seq filter]. rewrite Nat.sub_diag. cbn [nth_error].
  assert (R : forall a b, filter (fun j => match nth_error (x :: l) (j - s) with Some None => (s + S a <=? j)%nat && (j <? s + S b)%nat | _ => false end) (seq (S s) (length l))
    = filter (fun j => match nth_error l (j - S s) with Some None => (S s + a <=? j)%nat && (j <? S s + b)%nat | _ => false end) (seq (S s) (length l))).
  { intros a' b'. apply filter_ext_in. intros j J. apply in_seq in J. replace (j - s)%nat with (S (j - S s)) by lia. cbn [nth_error]. rewrite !Nat.add_succ_r. reflexivity. }
  assert (R0 : forall b, filter (fun j => match nth_error (x :: l) (j - s) with Some None => (s + 0 <=? j)%nat && (j <? s + S b)%nat | _ => false end) (seq (S s) (length l))
    = filter (fun j => match nth_error l (j - S s) with Some None => (S s + 0 <=? j)%nat && (j <? S s + b)%nat | _ => false end) (seq (S s) (length l))).
  { intros b'. apply filter_ext_in. intros j J. apply in_seq in J. replace (j - s)%nat with (S (j - S s)) by lia. cbn [nth_error]. rewrite !Nat.add_0_r, Nat.add_succ_r.
    destruct (Nat.leb_spec s j); [|lia]. destruct (Nat.leb_spec (S s) j); [|lia]. reflexivity. }
  destruct b as [|b].
  - rewrite skipn_nil. transitivity 0%nat; [|reflexivity].
    replace (match x with Some _ => false | None => (s + a <=? s)%nat && (s <? s + 0)%nat end) with false by (destruct x; [reflexivity|]; destruct (Nat.ltb_spec s (s + 0)); [lia|]; rewrite andb_false_r; reflexivity).
    match goal with |- length (filter ?f ?m) = _ => replace (filter f m) with (@nil nat); [reflexivity|] end. symmetry.
    assert (Z : forall f (m : list nat), (forall j, In j m -> f j = false) -> filter f m = []) by (intros f m H; induction m as [|y m IHm]; [reflexivity|]; cbn; rewrite (H y (or_introl eq_refl)); apply IHm; intros j J; apply H; right; exact J).
    apply Z. intros j J. apply in_seq in J. destruct (nth_error (x :: l) (j - s)) as [[v|]|]; [reflexivity| |reflexivity]. destruct (Nat.ltb_spec j (s + 0)); [lia|]. apply andb_false_r.
  - destruct a as [|a].
    + rewrite R0. cbn [firstn skipn]. specialize (IH (S s) 0%nat b). cbn [skipn] in IH. change (x :: firstn b l) with ([x] ++ firstn b l). rewrite missing_app, <- IH.
      destruct x as [v|]; [reflexivity|]. destruct (Nat.leb_spec (s + 0) s); [|lia]. destruct (Nat.ltb_spec s (s + S b)); [|lia]. reflexivity.
    + rewrite R. cbn [firstn skipn]. rewrite <- (IH (S s) a b). destruct x as [v|]; [reflexivity|]. destruct (Nat.leb_spec (s + S a) s); [lia|]. reflexivity.
Qed.
Lemma missing_near_ok n l i : Nat.even n = false -> (i < length l)%nat -> missing (around (Some 0) n l i) = missing_near n l i.
Proof.
  intros O L. rewrite missing_window by assumption. rewrite <- (missing_indices l 0). unfold missing_near. f_equal. apply filter_ext_in. intros j J. rewrite Nat.sub_0_r. cbn [Nat.add].
  destruct (nth_error l j) as [[v|]|]; [reflexivity| |reflexivity]. f_equal.
  - destruct (Nat.leb_spec (i - n / 2) j), (Nat.leb_spec i (j + n / 2)); (reflexivity || lia).
  - destruct (Nat.ltb_spec j (i + n / 2 + 1)), (Nat.leb_spec j (i + n / 2)); (reflexivity || lia).
Qed.
Theorem masked other l n thresh out i : 0 < thresh -> medfiltnan other l n thresh = Some out -> (i < length l)%nat ->
  thresh * INR n < INR (missing_near n l i) -> nth_error out i = Some None.
Proof.
  intros T. unfold medfiltnan. destruct (Nat.even n) eqn:O; [discriminate|]. intros [= <-] L H. rewrite <- missing_near_ok in H by assumption.
  assert (E := nth_map_seq (fun i => let w := around (Some 0) n l i in
    let out := if Nat.eqb (missing w) 0 then Some (middle (values w)) else other w in
    if Rlt_dec 0 thresh then (if Rlt_dec thresh (INR (missing w) / INR n) then None else out) else out) (length l) i (Some 0) L).
  rewrite (nth_error_nth' _ (Some 0)) by (rewrite map_length, seq_length; exact L). f_equal. etransitivity; [exact E|]. cbv zeta.
  destruct (Rlt_dec 0 thresh) as [_|N]; [|contradiction]. destruct (Rlt_dec thresh _) as [_|N]; [reflexivity|]. exfalso. apply N.
  assert (P : 0 < INR n) by (apply lt_0_INR; apply odd_half in O; lia).
  apply Rmult_lt_reg_r with (INR n); [exact P|]. unfold Rdiv. rewrite Rmult_assoc, Rinv_l by lra. lra.
Qed.
Lemma surface_complete other l n : Nat.even n = false -> medfiltnan other (map Some l) n 4 = option_map (map Some) (medfilt l n).
Proof.
  intros O. rewrite no_effect by lra. unfold medfiltnan, medfilt. rewrite O, map_length. cbn [option_map]. f_equal. rewrite map_map. apply map_ext. intros i. cbv zeta.
  rewrite around_some, missing_some, values_some. cbn. destruct (Rlt_dec 0 0) as [Z|_]; [lra|reflexivity].
Qed.
Lemma surface_positive other l n : Nat.even n = false -> filter_surface other (map Some l) (Some n) =
  option_map (map (fun v => if Req_EM_T v 0 then None else Some v)) (medfilt l n).
Proof.
  intros O. unfold filter_surface. destruct n as [|n]; [discriminate|]. rewrite surface_complete by exact O. destruct (medfilt l (S n)) as [out|]; [|reflexivity].
  cbn [option_map]. rewrite map_map. reflexivity.
Qed.
Theorem surface_inside other l n out i : filter_surface other (map Some l) (Some n) = Some out -> Nat.even n = false -> inside n l i -> Forall (fun y => 0 < y) l ->
  exists x, nth_error out i = Some (Some x) /\ is_median (centred n l i) x.
Proof.
  intros H O I P. rewrite surface_positive in H by exact O. destruct (medfilt l n) as [m|] eqn:M; [|discriminate]. cbn in H. injection H as <-.
  pose proof (medfilt_inside _ _ _ _ M I) as X. exists (nth i m 0). split; [|exact X].
  assert (Li : (i < length m)%nat) by (rewrite (medfilt_length _ _ _ M); unfold inside in I; lia).
  rewrite nth_error_map, (nth_error_nth' _ 0) by exact Li. cbn. destruct (Req_EM_T (nth i m 0) 0) as [Z|]; [|reflexivity]. exfalso.
  destruct X as (X & _). rewrite Forall_forall in P. assert (0 < nth i m 0); [|lra]. apply P. unfold centred in X.
  rewrite <- (firstn_skipn (i - n / 2) l). apply in_or_app. right. rewrite <- (firstn_skipn n (skipn _ l)). apply in_or_app. now left.
Qed.
Theorem surface_first other l n out : filter_surface other (map Some l) (Some n) = Some out -> Nat.even n = false -> (n / 2 < length l)%nat -> Forall (fun y => 0 < y) l ->
  exists x, nth_error out 0 = Some (Some x) /\ is_least (firstn (n / 2 + 1) l) x.
Proof.
  intros H O L P. rewrite surface_positive in H by exact O. destruct (medfilt l n) as [m|] eqn:M; [|discriminate]. cbn in H. injection H as <-.
  pose proof (medfilt_first _ _ _ M P L) as X. exists (nth 0 m 0). split; [|exact X].
  rewrite nth_error_map, (nth_error_nth' _ 0) by (rewrite (medfilt_length _ _ _ M); lia). cbn. destruct (Req_EM_T (nth 0 m 0) 0) as [Z|]; [|reflexivity]. exfalso.
  destruct X as (X & _). rewrite Forall_forall in P. assert (0 < nth 0 m 0); [|lra]. apply P. rewrite <- (firstn_skipn (n / 2 + 1) l). apply in_or_app. now left.
Qed.
