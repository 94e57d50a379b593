From Coq Require Import ZArith QArith List Lia Lqa Bool Sorted ZifyBool ZifyNat.
From Verif.Model Require Import Gaps.
From Verif.Spec Require Import Gaps.
Import ListNotations.
Open Scope nat_scope.

(** ** lists *)
Lemma set_range_length a lo vals : lo + length vals <= length a ->
  length (set_range a lo vals) = length a.
Proof.
  intros H. unfold set_range. rewrite !app_length, firstn_length, skipn_length. lia.
Qed.

Lemma nth_firstn_lt {A} (l : list A) n k d : k < n -> nth k (firstn n l) d = nth k l d.
Proof.
  revert n k. induction l as [|x l IH]; intros [|n] [|k] H; simpl; try lia; try reflexivity.
  apply IH; lia.
Qed.

Lemma nth_skipn_add {A} (l : list A) n k d : nth k (skipn n l) d = nth (n + k) l d.
Proof.
  revert n. induction l as [|x l IH]; intros [|n]; simpl; try reflexivity.
  - destruct k; reflexivity.
  - apply IH.
Qed.

Lemma set_range_nth a lo vals k : lo + length vals <= length a ->
  nthq (set_range a lo vals) k =
  if (lo <=? k) && (k <? lo + length vals) then nthq vals (k - lo) else nthq a k.
Proof.
  intros H. unfold nthq, set_range.
  destruct (Nat.leb_spec lo k); destruct (Nat.ltb_spec k (lo + length vals)); simpl.
  - rewrite app_nth2; rewrite firstn_length; [|lia].
    rewrite Nat.min_l by lia. rewrite app_nth1 by lia. reflexivity.
  - rewrite app_nth2; rewrite firstn_length; [|lia].
    rewrite Nat.min_l by lia. rewrite app_nth2 by lia. rewrite nth_skipn_add. f_equal; lia.
  - rewrite app_nth1 by (rewrite firstn_length; lia). apply nth_firstn_lt; lia.
  - lia.
Qed.

Lemma nthq_over a k : length a <= k -> nthq a k = None.
Proof. intros H. unfold nthq. apply nth_overflow. exact H. Qed.

Lemma valid_nthq a k v : valid a k v <-> k < length a /\ nthq a k = Some v.
Proof.
  unfold valid, nthq. split.
  - intros H. split; [apply nth_error_Some; congruence|].
    apply nth_error_nth with (d := None) in H. exact H.
  - intros [H E]. rewrite (nth_error_nth' a None H). congruence.
Qed.

Lemma missing_nthq a k : missing a k <-> k < length a /\ nthq a k = None.
Proof.
  unfold missing, nthq. split.
  - intros H. split; [apply nth_error_Some; congruence|].
    apply nth_error_nth with (d := None) in H. exact H.
  - intros [H E]. rewrite (nth_error_nth' a None H). congruence.
Qed.

(** ** valid indices *)
Inductive adj {A} : list A -> A -> A -> Prop :=
| adj_hd i j l : adj (i :: j :: l) i j
| adj_tl x l i j : adj l i j -> adj (x :: l) i j.

Lemma good_from_in off a k :
  In k (good_from off a) <-> off <= k /\ exists v, nthq a (k - off) = Some v.
Proof.
  revert off. induction a as [|x a IH]; intros off; simpl.
  - split; [tauto|]. intros [_ [v Hv]]. unfold nthq in Hv. destruct (k - off); discriminate.
  - destruct x as [q|]; simpl.
    + split.
      * intros [<-|H]; [split; [lia|]; exists q; rewrite Nat.sub_diag; reflexivity|].
        apply IH in H. destruct H as [H1 [v Hv]]. split; [lia|]. exists v.
        replace (k - off) with (S (k - S off)) by lia. exact Hv.
      * intros [H [v Hv]]. destruct (Nat.eq_dec off k) as [|N]; [left; assumption|right].
        apply IH. split; [lia|]. exists v.
        replace (k - off) with (S (k - S off)) in Hv by lia. exact Hv.
    + split.
      * intros H. apply IH in H. destruct H as [H1 [v Hv]]. split; [lia|]. exists v.
        replace (k - off) with (S (k - S off)) by lia. exact Hv.
      * intros [H [v Hv]]. apply IH.
        destruct (Nat.eq_dec off k) as [E|N].
        { subst. rewrite Nat.sub_diag in Hv. discriminate. }
        split; [lia|]. exists v.
        replace (k - off) with (S (k - S off)) in Hv by lia. exact Hv.
Qed.

Lemma good_idx_in a k : In k (good_idx a) <-> exists v, nthq a k = Some v.
Proof. unfold good_idx. rewrite good_from_in, Nat.sub_0_r. split; [tauto|]. split; [lia|assumption]. Qed.

Lemma good_idx_lt a k : In k (good_idx a) -> k < length a.
Proof.
  intros H. apply good_idx_in in H. destruct H as [v Hv].
  destruct (Nat.lt_ge_cases k (length a)); [assumption|]. rewrite nthq_over in Hv; [discriminate|assumption].
Qed.

Lemma good_from_sorted off a : StronglySorted lt (good_from off a).
Proof.
  revert off. induction a as [|x a IH]; intros off; simpl; [constructor|].
  destruct (is_some x); [|apply IH]. constructor; [apply IH|].
  apply Forall_forall. intros k Hk. apply good_from_in in Hk. lia.
Qed.

Lemma good_idx_sorted a : StronglySorted lt (good_idx a).
Proof. apply good_from_sorted. Qed.

Lemma sorted_adj gd i j : StronglySorted lt gd -> adj gd i j ->
  i < j /\ In i gd /\ In j gd /\ forall m, In m gd -> m <= i \/ j <= m.
Proof.
  intros S A. induction A as [i j l|x l i j A IH].
  - inversion S as [|? ? S1 F1]; subst. inversion S1 as [|? ? S2 F2]; subst.
    rewrite Forall_forall in F1, F2. repeat split; simpl; auto.
    + apply F1; left; reflexivity.
    + intros m [<-|[<-|H]]; [left; lia|right; lia|right]. apply F2 in H. lia.
  - inversion S as [|? ? S1 F1]; subst. destruct (IH S1) as (H1 & H2 & H3 & H4).
    rewrite Forall_forall in F1. repeat split; simpl; auto.
    intros m [<-|H]; [left|auto]. apply F1 in H2. lia.
Qed.

(** Between two valid indices of a sorted list there is an adjacent pair around any [k]
    that is not itself in the list. *)
Lemma adj_around gd k i j : StronglySorted lt gd -> In i gd -> In j gd -> i < k < j ->
  ~ In k gd -> exists i' j', adj gd i' j' /\ i' < k < j'.
Proof.
  revert i. induction gd as [|x gd IH]; intros i S Hi Hj Hk Hn; [destruct Hi|].
  inversion S as [|? ? S1 F1]; subst. rewrite Forall_forall in F1.
  destruct gd as [|y gd].
  - destruct Hi as [<-|[]], Hj as [<-|[]]. lia.
  - assert (Hx : x <= i). { destruct Hi as [<-|Hi]; [lia|]. apply F1 in Hi; lia. }
    destruct (Nat.lt_ge_cases k y) as [L|G].
    + exists x, y. split; [constructor|]. lia.
    + assert (k <> y) by (intros ->; apply Hn; simpl; auto).
      assert (Hj' : In j (y :: gd)).
      { destruct Hj as [<-|Hj]; [|exact Hj].
        exfalso. assert (x < y) by (apply F1; left; reflexivity). lia. }
      destruct (IH y S1) as (i' & j' & A & B).
      * left; reflexivity.
      * exact Hj'.
      * lia.
      * intros C. apply Hn. right. exact C.
      * exists i', j'. split; [constructor; exact A|exact B].
Qed.

(** ** the main loop *)
Section Loop.
Variable line : nat -> nat -> nat -> Q -> Q -> Q.
Variable maxgap : option nat.

Definition cond (i j : nat) : bool := (1 <? j - i) && le_max (j - i - 1) maxgap.

Lemma fill_one_length a i j : j < length a -> length (fill_one line maxgap a i j) = length a.
Proof.
  intros H. unfold fill_one. destruct ((1 <? j - i) && _) eqn:E; [|reflexivity].
  apply set_range_length. rewrite map_length, seq_length. lia.
Qed.

Lemma fill_one_nth a i j k : j < length a ->
  nthq (fill_one line maxgap a i j) k =
  if (i <? k) && (k <? j) && cond i j
  then Some (line i j k (val_or0 (nthq a i)) (val_or0 (nthq a j))) else nthq a k.
Proof.
  intros H. unfold fill_one, cond. destruct ((1 <? j - i) && le_max (j - i - 1) maxgap) eqn:E.
  - rewrite set_range_nth by (rewrite map_length, seq_length; lia).
    rewrite map_length, seq_length.
    destruct ((i + 1 <=? k) && (k <? i + 1 + (j - i - 1))) eqn:B.
    + replace ((i <? k) && (k <? j)) with true by lia. simpl.
      unfold nthq at 1.
      set (f := fun k0 => Some (line i j k0 (val_or0 (nthq a i)) (val_or0 (nthq a j)))).
      rewrite (nth_indep _ None (f 0)) by (rewrite map_length, seq_length; lia).
      rewrite map_nth. rewrite seq_nth by lia.
      replace (i + 1 + (k - (i + 1))) with k by lia. reflexivity.
    + replace ((i <? k) && (k <? j)) with false by lia. reflexivity.
  - rewrite andb_false_r. reflexivity.
Qed.

Lemma fill_loop_length gd : forall a, Forall (fun g => g < length a) gd ->
  length (fill_loop line maxgap a gd) = length a.
Proof.
  induction gd as [|i gd IH]; intros a F; [reflexivity|].
  destruct gd as [|j gd]; [reflexivity|].
  inversion F as [|? ? F1 F2]; subst. inversion F2 as [|? ? F3 F4]; subst.
  change (fill_loop line maxgap a (i :: j :: gd))
    with (fill_loop line maxgap (fill_one line maxgap a i j) (j :: gd)).
  rewrite IH; rewrite fill_one_length by assumption; [reflexivity|exact F2].
Qed.

Lemma fill_loop_below gd : forall a k, Forall (fun g => g < length a) gd -> StronglySorted lt gd ->
  (forall g, In g gd -> k <= g) -> nthq (fill_loop line maxgap a gd) k = nthq a k.
Proof.
  induction gd as [|i gd IH]; intros a k F S H; [reflexivity|].
  destruct gd as [|j gd]; [reflexivity|].
  inversion F as [|? ? F1 F2]; subst. inversion F2 as [|? ? F3 F4]; subst.
  inversion S as [|? ? S1 S2]; subst.
  change (fill_loop line maxgap a (i :: j :: gd))
    with (fill_loop line maxgap (fill_one line maxgap a i j) (j :: gd)).
  rewrite IH.
  - rewrite fill_one_nth by assumption.
    assert (k <= i) by (apply H; left; reflexivity).
    replace (i <? k) with false by lia. reflexivity.
  - rewrite fill_one_length by assumption. exact F2.
  - exact S1.
  - intros g Hg. apply H. right; exact Hg.
Qed.

Lemma fill_loop_hit gd i j k : adj gd i j -> forall a, Forall (fun g => g < length a) gd ->
  StronglySorted lt gd -> i < k < j -> cond i j = true ->
  nthq (fill_loop line maxgap a gd) k
  = Some (line i j k (val_or0 (nthq a i)) (val_or0 (nthq a j))).
Proof.
  intros A. induction A as [i j l|x l i j A IH]; intros a F S Hk C.
  - inversion F as [|? ? F1 F2]; subst. inversion F2 as [|? ? F3 F4]; subst.
    inversion S as [|? ? S1 S2]; subst.
    change (fill_loop line maxgap a (i :: j :: l))
      with (fill_loop line maxgap (fill_one line maxgap a i j) (j :: l)).
    rewrite fill_loop_below.
    + rewrite fill_one_nth by assumption. rewrite C.
      replace ((i <? k) && (k <? j)) with true by lia. reflexivity.
    + rewrite fill_one_length by assumption. exact F2.
    + exact S1.
    + inversion S1 as [|? ? S3 S4]; subst. rewrite Forall_forall in S4.
      intros g [<-|Hg]; [lia|]. apply S4 in Hg. lia.
  - destruct l as [|y l]; [inversion A|].
    inversion F as [|? ? F1 F2]; subst. inversion F2 as [|? ? F3 F4]; subst.
    inversion S as [|? ? S1 S2]; subst.
    change (fill_loop line maxgap a (x :: y :: l))
      with (fill_loop line maxgap (fill_one line maxgap a x y) (y :: l)).
    assert (Hi : y <= i /\ y <= j).
    { destruct (sorted_adj _ _ _ S1 A) as (L & Hi & _ & _).
      inversion S1 as [|? ? S3 S4]; subst. rewrite Forall_forall in S4.
      destruct Hi as [<-|Hi]; [lia|]. apply S4 in Hi. lia. }
    rewrite IH; try assumption.
    + rewrite !fill_one_nth by assumption.
      replace (i <? y) with false by lia. replace (j <? y) with false by lia.
      rewrite !andb_false_r, !andb_false_l. reflexivity.
    + rewrite fill_one_length by assumption. exact F2.
Qed.

Lemma fill_loop_miss gd k : forall a, Forall (fun g => g < length a) gd -> StronglySorted lt gd ->
  (forall i j, adj gd i j -> i < k < j -> cond i j = false) ->
  nthq (fill_loop line maxgap a gd) k = nthq a k.
Proof.
  induction gd as [|i gd IH]; intros a F S H; [reflexivity|].
  destruct gd as [|j gd]; [reflexivity|].
  inversion F as [|? ? F1 F2]; subst. inversion F2 as [|? ? F3 F4]; subst.
  inversion S as [|? ? S1 S2]; subst.
  change (fill_loop line maxgap a (i :: j :: gd))
    with (fill_loop line maxgap (fill_one line maxgap a i j) (j :: gd)).
  rewrite IH.
  - rewrite fill_one_nth by assumption.
    destruct ((i <? k) && (k <? j)) eqn:E; [|reflexivity].
    rewrite (H i j); [reflexivity|constructor|lia].
  - rewrite fill_one_length by assumption. exact F2.
  - exact S1.
  - intros i' j' A. apply H. constructor. exact A.
Qed.
End Loop.

(** ** extrapolation *)
Lemma le_max_fits n m : le_max n m = true <-> fits n m.
Proof. destruct m; simpl; [apply Nat.leb_le|tauto]. Qed.
Lemma le_max_fits_false n m : le_max n m = false <-> ~ fits n m.
Proof. rewrite <- le_max_fits. destruct (le_max n m); intuition congruence. Qed.

Lemma last_in {A} (l : list A) d : l <> [] -> In (last l d) l.
Proof.
  induction l as [|x l IH]; [congruence|]. intros _. destruct l; [left; reflexivity|].
  right. apply IH. discriminate.
Qed.

Lemma sorted_last l d x : StronglySorted lt l -> In x l -> x <= last l d.
Proof.
  induction l as [|y l IH]; intros S H; [destruct H|].
  inversion S as [|? ? S1 S2]; subst. rewrite Forall_forall in S2.
  destruct l as [|z l]; [destruct H as [<-|[]]; simpl; lia|].
  change (last (y :: z :: l) d) with (last (z :: l) d).
  destruct H as [<-|H]; [|apply IH; assumption].
  assert (L : In (last (z :: l) d) (z :: l)) by (apply last_in; discriminate).
  apply S2 in L. lia.
Qed.

Lemma nth_repeat_lt {A} (x : A) n k d : k < n -> nth k (repeat x n) d = x.
Proof. revert k; induction n as [|n IH]; intros [|k] H; simpl; try lia; [reflexivity|apply IH; lia]. Qed.

Section Extrap.
Variables (a : series) (maxgap : option nat) (g0 : nat) (gs : list nat).
Let gd := g0 :: gs.
Hypothesis Hgd : good_idx a = gd.

Lemma g0_good : exists v, nthq a g0 = Some v.
Proof. apply good_idx_in. rewrite Hgd. left; reflexivity. Qed.

Lemma gd_lt g : In g gd -> g < length a.
Proof. rewrite <- Hgd. apply good_idx_lt. Qed.

Definition gl := last gd 0.
Lemma gl_in : In gl gd. Proof. apply last_in. discriminate. Qed.

Lemma g0_le_gl : g0 <= gl.
Proof. apply sorted_last; [rewrite <- Hgd; apply good_idx_sorted|left; reflexivity]. Qed.

Definition ext1 :=
  if negb (g0 =? 0) && le_max g0 maxgap then set_range a 0 (repeat (nthq a g0) g0) else a.

Lemma ext1_length : length ext1 = length a.
Proof.
  unfold ext1. destruct (_ && _); [|reflexivity]. apply set_range_length.
  rewrite repeat_length. pose proof (gd_lt g0 (or_introl eq_refl)). lia.
Qed.

Lemma ext1_nth k : nthq ext1 k = if (k <? g0) && le_max g0 maxgap then nthq a g0 else nthq a k.
Proof.
  pose proof (gd_lt g0 (or_introl eq_refl)) as L. unfold ext1.
  destruct (negb (g0 =? 0) && le_max g0 maxgap) eqn:E.
  - rewrite set_range_nth by (rewrite repeat_length; lia). rewrite repeat_length.
    replace (le_max g0 maxgap) with true by (destruct (le_max g0 maxgap); lia).
    rewrite andb_true_r. destruct (Nat.ltb_spec k g0) as [H|H].
    + replace ((0 <=? k) && (k <? 0 + g0)) with true by lia.
      unfold nthq at 1. rewrite nth_repeat_lt by lia. reflexivity.
    + replace ((0 <=? k) && (k <? 0 + g0)) with false by lia. reflexivity.
  - destruct ((k <? g0) && le_max g0 maxgap) eqn:E2; [|reflexivity].
    destruct (le_max g0 maxgap); [|lia]. lia.
Qed.

Definition ext2 :=
  if le_max (length ext1 - (gl + 1)) maxgap
  then set_range ext1 gl (repeat (nthq ext1 gl) (length ext1 - gl)) else ext1.

Lemma extrap_ext2 : extrap_ends a gd maxgap = ext2.
Proof. reflexivity. Qed.

Lemma ext2_length : length ext2 = length a.
Proof.
  pose proof (gd_lt gl gl_in) as L.
  unfold ext2. destruct (le_max _ _); [|apply ext1_length].
  rewrite set_range_length; [apply ext1_length|]. rewrite repeat_length, ext1_length. lia.
Qed.

Lemma ext1_gl : nthq ext1 gl = nthq a gl.
Proof. rewrite ext1_nth. pose proof g0_le_gl. replace (gl <? g0) with false by lia. reflexivity. Qed.

Lemma ext2_nth k : nthq ext2 k =
  if (k <? g0) && le_max g0 maxgap then nthq a g0
  else if (gl <? k) && (k <? length a) && le_max (length a - (gl + 1)) maxgap then nthq a gl
  else nthq a k.
Proof.
  pose proof (gd_lt gl gl_in) as L. pose proof g0_le_gl as G.
  unfold ext2. rewrite ext1_length. destruct (le_max (length a - (gl + 1)) maxgap) eqn:E.
  - rewrite set_range_nth by (rewrite repeat_length, ext1_length; lia).
    rewrite repeat_length. destruct (Nat.ltb_spec k g0) as [H|H].
    + replace (gl <=? k) with false by lia. replace (gl <? k) with false by lia. simpl.
      rewrite ext1_nth. replace (k <? g0) with true by lia. reflexivity.
    + rewrite andb_false_l, andb_true_r.
      destruct (Nat.leb_spec gl k) as [H1|H1]; destruct (Nat.ltb_spec k (length a)) as [H2|H2].
      * replace (k <? gl + (length a - gl)) with true by lia. simpl.
        unfold nthq at 1. rewrite nth_repeat_lt by lia. rewrite ext1_gl.
        destruct (Nat.ltb_spec gl k); simpl; [reflexivity|]. replace k with gl by lia. reflexivity.
      * replace (k <? gl + (length a - gl)) with false by lia. rewrite !andb_false_r.
        rewrite ext1_nth. replace (k <? g0) with false by lia. reflexivity.
      * simpl. replace (gl <? k) with false by lia. simpl.
        rewrite ext1_nth. replace (k <? g0) with false by lia. reflexivity.
      * lia.
  - rewrite !andb_false_r. rewrite ext1_nth. reflexivity.
Qed.
End Extrap.

Lemma neighbours_adj a k i j x y : nthq a k = None -> left_nb a k i x -> right_nb a k j y ->
  adj (good_idx a) i j /\ i < k < j /\ nthq a i = Some x /\ nthq a j = Some y.
Proof.
  intros Hk (L1 & L2 & L3) (R1 & R2 & R3).
  apply valid_nthq in L2, R2. destruct L2 as [L2 L4], R2 as [R2 R4].
  repeat split; try assumption.
  assert (Ii : In i (good_idx a)) by (apply good_idx_in; eauto).
  assert (Ij : In j (good_idx a)) by (apply good_idx_in; eauto).
  destruct (adj_around _ k i j (good_idx_sorted a) Ii Ij (conj L1 R1)) as (i' & j' & A & B).
  - intros C. apply good_idx_in in C. destruct C as [v Hv]. congruence.
  - destruct (sorted_adj _ _ _ (good_idx_sorted a) A) as (H1 & H2 & H3 & H4).
    apply good_idx_in in H2, H3. destruct H2 as [vi Hi], H3 as [vj Hj].
    assert (i = i').
    { destruct (Nat.lt_trichotomy i i') as [C|[C|C]]; [|exact C|].
      - specialize (L3 i' ltac:(lia)). apply missing_nthq in L3. destruct L3; congruence.
      - apply H4 in Ii. lia. }
    assert (j = j').
    { destruct (Nat.lt_trichotomy j j') as [C|[C|C]]; [|exact C|].
      - apply H4 in Ij. lia.
      - specialize (R3 j' ltac:(lia)). apply missing_nthq in R3. destruct R3; congruence. }
    subst. exact A.
Qed.

(** ** the whole function, for any interpolation formula *)
Section Whole.
Variable line : nat -> nat -> nat -> Q -> Q -> Q.
Variable maxgap : option nat.
Variable extrap : bool.
Definition fillw (a : series) : series :=
  let gd := good_idx a in
  fill_loop line maxgap (if extrap then extrap_ends a gd maxgap else a) gd.

Let a1 a := if extrap then extrap_ends a (good_idx a) maxgap else a.

Lemma extrap_ends_nil a : extrap_ends a [] maxgap = a. Proof. reflexivity. Qed.

Lemma a1_length a : length (a1 a) = length a.
Proof.
  unfold a1. destruct extrap; [|reflexivity].
  destruct (good_idx a) as [|g0 gs] eqn:E; [reflexivity|].
  rewrite extrap_ext2. apply ext2_length. exact E.
Qed.

Lemma a1_good a g : In g (good_idx a) -> nthq (a1 a) g = nthq a g.
Proof.
  intros H. unfold a1. destruct extrap; [|reflexivity].
  pose proof (good_idx_sorted a) as S.
  destruct (good_idx a) as [|g0 gs] eqn:E; [reflexivity|].
  rewrite extrap_ext2, (ext2_nth _ _ _ _ E).
  assert (g <= gl g0 gs) by (apply sorted_last; assumption).
  inversion S as [|? ? S1 S2]; subst. rewrite Forall_forall in S2.
  assert (g0 <= g) by (destruct H as [<-|H]; [lia|apply S2 in H; lia]).
  replace (g <? g0) with false by lia.
  replace (gl g0 gs <? g) with false by lia. reflexivity.
Qed.

Lemma a1_inner a k i j : In i (good_idx a) -> In j (good_idx a) -> i < k < j ->
  nthq (a1 a) k = nthq a k.
Proof.
  intros Hi Hj Hk. unfold a1. destruct extrap; [|reflexivity].
  pose proof (good_idx_sorted a) as S.
  destruct (good_idx a) as [|g0 gs] eqn:E; [reflexivity|].
  rewrite extrap_ext2, (ext2_nth _ _ _ _ E).
  assert (j <= gl g0 gs) by (apply sorted_last; assumption).
  inversion S as [|? ? S1 S2]; subst. rewrite Forall_forall in S2.
  assert (g0 <= i) by (destruct Hi as [<-|Hi]; [lia|apply S2 in Hi; lia]).
  replace (k <? g0) with false by lia.
  replace (gl g0 gs <? k) with false by lia. reflexivity.
Qed.

Lemma gd_bound a : Forall (fun g => g < length (a1 a)) (good_idx a).
Proof. apply Forall_forall. intros g H. rewrite a1_length. apply good_idx_lt. exact H. Qed.

Lemma fillw_length a : length (fillw a) = length a.
Proof.
  unfold fillw. fold (a1 a). rewrite fill_loop_length; [apply a1_length|apply gd_bound].
Qed.

Lemma fillw_keep a k v : nthq a k = Some v -> nthq (fillw a) k = Some v.
Proof.
  intros H. unfold fillw. fold (a1 a).
  assert (Hk : In k (good_idx a)) by (apply good_idx_in; eauto).
  rewrite fill_loop_miss; [|apply gd_bound|apply good_idx_sorted|].
  - rewrite a1_good; assumption.
  - intros i j A B. destruct (sorted_adj _ _ _ (good_idx_sorted a) A) as (_ & _ & _ & N).
    apply N in Hk. lia.
Qed.

Lemma fillw_inner a k i j x y : missing a k -> left_nb a k i x -> right_nb a k j y ->
  fits (j - i - 1) maxgap -> valid (fillw a) k (line i j k x y).
Proof.
  intros Hm HL HR Hf. apply missing_nthq in Hm. destruct Hm as [Hl Hn].
  destruct (neighbours_adj a k i j x y Hn HL HR) as (A & B & C & D).
  apply valid_nthq. split; [rewrite fillw_length; exact Hl|].
  unfold fillw. fold (a1 a).
  rewrite (fill_loop_hit _ _ _ _ _ _ A (a1 a) (gd_bound a) (good_idx_sorted a) B).
  - destruct (sorted_adj _ _ _ (good_idx_sorted a) A) as (_ & Ii & Ij & _).
    rewrite !a1_good by assumption. rewrite C, D. reflexivity.
  - unfold cond. apply le_max_fits in Hf. rewrite Hf, andb_true_r.
    lia.
Qed.

Lemma fillw_inner_big a k i j x y : missing a k -> left_nb a k i x -> right_nb a k j y ->
  ~ fits (j - i - 1) maxgap -> missing (fillw a) k.
Proof.
  intros Hm HL HR Hf. apply missing_nthq in Hm. destruct Hm as [Hl Hn].
  destruct (neighbours_adj a k i j x y Hn HL HR) as (A & B & C & D).
  apply missing_nthq. split; [rewrite fillw_length; exact Hl|].
  destruct (sorted_adj _ _ _ (good_idx_sorted a) A) as (_ & Ii & Ij & N).
  unfold fillw. fold (a1 a).
  rewrite fill_loop_miss; [|apply gd_bound|apply good_idx_sorted|].
  - rewrite (a1_inner a k i j); assumption.
  - intros i' j' A' B'.
    destruct (sorted_adj _ _ _ (good_idx_sorted a) A') as (_ & Ii' & Ij' & N').
    assert (i = i') by (apply N in Ii'; apply N' in Ii; lia).
    assert (j = j') by (apply N in Ij'; apply N' in Ij; lia).
    subst. unfold cond. apply le_max_fits_false in Hf. rewrite Hf. apply andb_false_r.
Qed.

(** outside the valid indices only the extrapolation acts *)
Lemma fillw_outside a k : (forall g, In g (good_idx a) -> k < g) \/ (forall g, In g (good_idx a) -> g < k) ->
  nthq (fillw a) k = nthq (a1 a) k.
Proof.
  intros H. unfold fillw. fold (a1 a).
  apply fill_loop_miss; [apply gd_bound|apply good_idx_sorted|].
  intros i j A B. destruct (sorted_adj _ _ _ (good_idx_sorted a) A) as (_ & Ii & Ij & _).
  destruct H as [H|H]; [apply H in Ii|apply H in Ij]; lia.
Qed.

Lemma none_before_gd a k : missing a k -> none_before a k -> forall g, In g (good_idx a) -> k < g.
Proof.
  intros Hm Hb g Hg. apply good_idx_in in Hg. destruct Hg as [v Hv].
  destruct (Nat.lt_trichotomy k g) as [C|[C|C]]; [exact C| |].
  - subst. apply missing_nthq in Hm. destruct Hm; congruence.
  - apply Hb in C. apply missing_nthq in C. destruct C; congruence.
Qed.

Lemma none_after_gd a k : missing a k -> none_after a k -> forall g, In g (good_idx a) -> g < k.
Proof.
  intros Hm Hb g Hg. pose proof (good_idx_lt a g Hg) as L.
  apply good_idx_in in Hg. destruct Hg as [v Hv].
  destruct (Nat.lt_trichotomy k g) as [C|[C|C]]; [|  |exact C].
  - specialize (Hb g (conj C L)). apply missing_nthq in Hb. destruct Hb; congruence.
  - subst. apply missing_nthq in Hm. destruct Hm; congruence.
Qed.

Lemma fillw_ends_noextrap a k : extrap = false -> missing a k -> none_before a k \/ none_after a k ->
  missing (fillw a) k.
Proof.
  intros He Hm H. pose proof Hm as Hm'. apply missing_nthq in Hm'. destruct Hm' as [Hl Hn].
  apply missing_nthq. split; [rewrite fillw_length; exact Hl|].
  rewrite fillw_outside.
  - unfold a1. rewrite He. exact Hn.
  - destruct H as [H|H]; [left; apply none_before_gd|right; apply none_after_gd]; assumption.
Qed.

Lemma fillw_head a k j y : extrap = true -> missing a k -> none_before a k -> right_nb a k j y ->
  (fits j maxgap -> valid (fillw a) k y) /\ (~ fits j maxgap -> missing (fillw a) k).
Proof.
  intros He Hm Hb (R1 & R2 & R3). pose proof Hm as Hm'. apply missing_nthq in Hm'.
  destruct Hm' as [Hl Hn]. apply valid_nthq in R2. destruct R2 as [R2 R4].
  pose proof (none_before_gd a k Hm Hb) as N.
  assert (E : nthq (fillw a) k = if le_max j maxgap then Some y else None).
  { rewrite fillw_outside by (left; exact N). unfold a1. rewrite He.
    assert (Ij : In j (good_idx a)) by (apply good_idx_in; eauto).
    pose proof (good_idx_sorted a) as S.
    destruct (good_idx a) as [|g0 gs] eqn:E; [destruct Ij|].
    inversion S as [|? ? S1 S2]; subst. rewrite Forall_forall in S2.
    assert (g0 = j).
    { destruct Ij as [C|C]; [exact C|]. apply S2 in C.
      assert (M : missing a g0). { apply R3. specialize (N g0 (or_introl eq_refl)). lia. }
      apply missing_nthq in M. destruct M as [_ M].
      destruct (g0_good a g0 gs E) as [v Hv]. congruence. }
    subst g0. rewrite extrap_ext2, (ext2_nth _ _ _ _ E).
    pose proof (g0_le_gl a j gs E) as G.
    replace (k <? j) with true by lia. simpl.
    destruct (le_max j maxgap); [exact R4|].
    replace (gl j gs <? k) with false by lia. exact Hn. }
  split; intros F.
  - apply valid_nthq. split; [rewrite fillw_length; exact Hl|].
    rewrite E. apply le_max_fits in F. rewrite F. reflexivity.
  - apply missing_nthq. split; [rewrite fillw_length; exact Hl|].
    rewrite E. apply le_max_fits_false in F. rewrite F. reflexivity.
Qed.

Lemma fillw_tail a k i x : extrap = true -> missing a k -> none_after a k -> left_nb a k i x ->
  (fits (length a - i - 1) maxgap -> valid (fillw a) k x) /\
  (~ fits (length a - i - 1) maxgap -> missing (fillw a) k).
Proof.
  intros He Hm Hb (R1 & R2 & R3). pose proof Hm as Hm'. apply missing_nthq in Hm'.
  destruct Hm' as [Hl Hn]. apply valid_nthq in R2. destruct R2 as [R2 R4].
  pose proof (none_after_gd a k Hm Hb) as N.
  replace (length a - i - 1) with (length a - (i + 1)) by lia.
  assert (E : nthq (fillw a) k = if le_max (length a - (i + 1)) maxgap then Some x else None).
  { rewrite fillw_outside by (right; exact N). unfold a1. rewrite He.
    assert (Ij : In i (good_idx a)) by (apply good_idx_in; eauto).
    pose proof (good_idx_sorted a) as S.
    destruct (good_idx a) as [|g0 gs] eqn:E; [destruct Ij|].
    assert (gl g0 gs = i).
    { pose proof (sorted_last _ 0 _ S Ij) as L. fold (gl g0 gs) in L.
      pose proof (gl_in g0 gs) as G. pose proof (N _ G) as G'.
      destruct (Nat.eq_dec (gl g0 gs) i) as [C|C]; [exact C|].
      assert (M : missing a (gl g0 gs)) by (apply R3; lia).
      apply missing_nthq in M. destruct M as [_ M].
      rewrite <- E in G. apply good_idx_in in G. destruct G as [v Hv]. congruence. }
    pose proof (g0_le_gl a g0 gs E) as G.
    rewrite extrap_ext2, (ext2_nth _ _ _ _ E).
    replace (k <? g0) with false by lia. simpl.
    replace (gl g0 gs <? k) with true by lia. replace (k <? length a) with true by lia. simpl.
    rewrite H. destruct (le_max _ maxgap); [exact R4|exact Hn]. }
  split; intros F.
  - apply valid_nthq. split; [rewrite fillw_length; exact Hl|].
    rewrite E. apply le_max_fits in F. rewrite F. reflexivity.
  - apply missing_nthq. split; [rewrite fillw_length; exact Hl|].
    rewrite E. apply le_max_fits_false in F. rewrite F. reflexivity.
Qed.

Lemma fillw_all_missing a : (forall k, k < length a -> missing a k) -> fillw a = a.
Proof.
  intros H. unfold fillw.
  destruct (good_idx a) as [|g gs] eqn:E.
  - destruct extrap; reflexivity.
  - exfalso. assert (In g (good_idx a)) as G by (rewrite E; left; reflexivity).
    pose proof (good_idx_lt a g G) as L. apply H in L. apply missing_nthq in L.
    apply good_idx_in in G. destruct G as [v Hv]. destruct L; congruence.
Qed.
End Whole.

(** ** the two formulas *)
Lemma qn_sub i j : i <= j -> (qn (j - i) == qn j - qn i)%Q.
Proof.
  intros H. unfold qn. rewrite Nat2Z.inj_sub by exact H. unfold Z.sub.
  rewrite inject_Z_plus, inject_Z_opp. reflexivity.
Qed.

Lemma qn_lt i j : i < j -> (qn i < qn j)%Q.
Proof. intros H. unfold qn. rewrite <- Zlt_Qlt. lia. Qed.

Lemma line_index_on_line i j k x y : i < k < j -> on_line i j k x y (line_index i j k x y).
Proof.
  intros H. unfold on_line, line_index.
  replace (Z.of_nat (k - (i + 1)) + 1)%Z with (Z.of_nat (k - i)) by lia.
  replace (Z.of_nat (j - (i + 1)) + 1)%Z with (Z.of_nat (j - i)) by lia.
  fold (qn (k - i)). fold (qn (j - i)).
  rewrite (qn_sub i k), (qn_sub i j) by lia.
  pose proof (qn_lt i j ltac:(lia)) as L. field. lra.
Qed.

Lemma line_time_on_line t i j k x y : ~ (nth j t 0%Q == nth i t 0%Q)%Q ->
  on_line_t (nth i t 0%Q) (nth j t 0%Q) (nth k t 0%Q) x y (line_time t i j k x y).
Proof. intros H. unfold on_line_t, line_time. field. lra. Qed.

Lemma on_line_unique i j k x y v w : i < j -> on_line i j k x y v -> on_line i j k x y w -> (v == w)%Q.
Proof.
  intros H A B. unfold on_line in *. pose proof (qn_lt i j H) as L.
  assert (C : ((v - w) * (qn j - qn i) == 0)%Q) by (transitivity ((v - x) * (qn j - qn i) - (w - x) * (qn j - qn i))%Q;
    [ring|rewrite A, B; ring]).
  apply Qmult_integral in C. destruct C; lra.
Qed.

(** ** _fill_time_gaps *)
Section TimeGaps.
Variable e : series.
Variable fs : Q.
Variables (g0 : nat) (gs : list nat).
Hypothesis Hgd : good_idx e = g0 :: gs.
Let L := gl g0 gs.
Let dt := (1 / fs)%Q.
Let e1 := fillgaps None false e.

Lemma e1_fillw : e1 = fillw line_index None false e. Proof. reflexivity. Qed.

Lemma e1_len : length e1 = length e. Proof. rewrite e1_fillw. apply fillw_length. Qed.

Lemma tg_L_lt : L < length e. Proof. apply (gd_lt e g0 gs Hgd). apply gl_in. Qed.
Lemma tg_g0L : g0 <= L. Proof. apply (g0_le_gl e g0 gs Hgd). Qed.

Lemma tg_good g : In g (good_idx e) -> g0 <= g <= L.
Proof.
  intros H. pose proof (good_idx_sorted e) as S. rewrite Hgd in S, H. split.
  - inversion S as [|? ? S1 S2]; subst. rewrite Forall_forall in S2.
    destruct H as [<-|H]; [lia|]. apply S2 in H. lia.
  - apply sorted_last; assumption.
Qed.

Lemma tg_L_good : In L (good_idx e). Proof. rewrite Hgd. apply gl_in. Qed.
Lemma tg_g0_good : In g0 (good_idx e). Proof. rewrite Hgd. left; reflexivity. Qed.

Lemma e1_before k : k < g0 -> nthq e1 k = None.
Proof.
  intros H. rewrite e1_fillw, fillw_outside.
  - destruct (nthq e k) eqn:E; [|reflexivity].
    assert (In k (good_idx e)) as G by (apply good_idx_in; eauto). apply tg_good in G. lia.
  - left. intros g G. apply tg_good in G. lia.
Qed.
Lemma e1_after k : L < k -> nthq e1 k = None.
Proof.
  intros H. rewrite e1_fillw, fillw_outside.
  - destruct (nthq e k) eqn:E; [|reflexivity].
    assert (In k (good_idx e)) as G by (apply good_idx_in; eauto). apply tg_good in G. lia.
  - right. intros g G. apply tg_good in G. lia.
Qed.

Lemma e1_keep k v : nthq e k = Some v -> nthq e1 k = Some v.
Proof. rewrite e1_fillw. apply fillw_keep. Qed.

(** every adjacent pair of valid samples spans a straight line of filled samples *)
Lemma e1_line i j k x y : adj (good_idx e) i j -> nthq e i = Some x -> nthq e j = Some y ->
  i <= k <= j -> exists v, nthq e1 k = Some v /\ on_line i j k x y v.
Proof.
  intros A Hi Hj Hk.
  destruct (Nat.eq_dec k i) as [->|Ni].
  { exists x. split; [apply e1_keep; exact Hi|]. unfold on_line. ring. }
  destruct (Nat.eq_dec k j) as [->|Nj].
  { exists y. split; [apply e1_keep; exact Hj|]. unfold on_line. ring. }
  exists (line_index i j k x y). split; [|apply line_index_on_line; lia].
  rewrite e1_fillw. unfold fillw.
  rewrite (fill_loop_hit line_index None _ _ _ _ A e).
  - rewrite Hi, Hj. reflexivity.
  - apply Forall_forall. apply good_idx_lt.
  - apply good_idx_sorted.
  - lia.
  - unfold cond. simpl. rewrite andb_true_r. lia.
Qed.

Lemma adj_cover gd k : StronglySorted lt gd -> forall a b, In a gd -> In b gd -> a <= k < b ->
  exists i j, adj gd i j /\ i <= k < j.
Proof.
  induction gd as [|x gd IH]; intros S a b Ha Hb Hk; [destruct Ha|].
  inversion S as [|? ? S1 F1]; subst. rewrite Forall_forall in F1.
  destruct gd as [|y gd].
  - destruct Ha as [<-|[]], Hb as [<-|[]]. lia.
  - assert (Hx : x <= a) by (destruct Ha as [<-|Ha]; [lia|apply F1 in Ha; lia]).
    destruct (Nat.lt_ge_cases k y) as [H|H].
    + exists x, y. split; [constructor|lia].
    + destruct (IH S1 y b) as (i & j & A & B).
      * left; reflexivity.
      * destruct Hb as [<-|Hb]; [|exact Hb]. exfalso.
        assert (x < y) by (apply F1; left; reflexivity). lia.
      * lia.
      * exists i, j. split; [constructor; exact A|exact B].
Qed.

Lemma e1_middle k : g0 <= k <= L -> exists v, nthq e1 k = Some v.
Proof.
  intros H. destruct (Nat.eq_dec k L) as [->|N].
  { destruct (proj1 (good_idx_in e L) tg_L_good) as [v Hv]. exists v. apply e1_keep; exact Hv. }
  destruct (adj_cover _ k (good_idx_sorted e) g0 L tg_g0_good tg_L_good) as (i & j & A & B); [lia|].
  destruct (sorted_adj _ _ _ (good_idx_sorted e) A) as (_ & Ii & Ij & _).
  apply good_idx_in in Ii, Ij. destruct Ii as [x Hx], Ij as [y Hy].
  destruct (e1_line i j k x y A Hx Hy) as (v & Hv & _); [lia|]. eauto.
Qed.

Lemma good_e1 k : In k (good_idx e1) <-> g0 <= k <= L.
Proof.
  rewrite good_idx_in. split.
  - intros [v Hv]. destruct (Nat.lt_ge_cases k g0) as [C|C].
    { rewrite e1_before in Hv by exact C; discriminate. }
    destruct (Nat.lt_ge_cases L k) as [D|D]; [|lia].
    rewrite e1_after in Hv by exact D; discriminate.
  - apply e1_middle.
Qed.

Lemma good_hd_min a x xs : good_idx a = x :: xs -> forall g, In g (good_idx a) -> x <= g.
Proof.
  intros E g H. pose proof (good_idx_sorted a) as S. rewrite E in S, H.
  inversion S as [|? ? S1 S2]; subst. rewrite Forall_forall in S2.
  destruct H as [<-|H]; [lia|]. apply S2 in H. lia.
Qed.

Variable v0 vL : Q.
Hypothesis Hv0 : nthq e g0 = Some v0.
Hypothesis HvL : nthq e L = Some vL.

Definition zdt (p q : nat) : Q := (inject_Z (Z.of_nat p - Z.of_nat q) * dt)%Q.

Lemma fill_head_spec : exists e2, fill_head dt e1 = Some e2 /\ length e2 = length e /\
  forall k, nthq e2 k = if k <? g0 then Some (v0 + zdt k g0)%Q else nthq e1 k.
Proof.
  pose proof tg_L_lt as HL. pose proof tg_g0L as HG. pose proof e1_len as Hlen.
  unfold fill_head. destruct e1 as [|[q|] r] eqn:E.
  - simpl in Hlen. lia.
  - exists (Some q :: r). rewrite <- E in *. split; [reflexivity|]. split; [exact Hlen|].
    intros k. destruct (Nat.ltb_spec k g0); [|reflexivity].
    exfalso. assert (N : nthq e1 0 = None) by (apply e1_before; lia). rewrite E in N. discriminate.
  - rewrite <- E in *.
    destruct (good_idx e1) as [|i0 rest] eqn:G.
    { exfalso. assert (In g0 (good_idx e1)) as F by (apply good_e1; lia). rewrite G in F. destruct F. }
    assert (i0 = g0).
    { assert (In i0 (good_idx e1)) as F by (rewrite G; left; reflexivity). apply good_e1 in F.
      assert (In g0 (good_idx e1)) as F2 by (apply good_e1; lia).
      pose proof (good_hd_min _ _ _ G _ F2). lia. }
    subst i0. eexists. split; [reflexivity|]. split.
    + rewrite set_range_length; rewrite ?map_length, ?seq_length; lia.
    + intros k. rewrite set_range_nth by (rewrite map_length, seq_length; lia).
      rewrite map_length, seq_length.
      destruct (Nat.ltb_spec k g0) as [H|H].
      * replace ((0 <=? k) && (k <? 0 + g0)) with true by lia. rewrite Nat.sub_0_r.
        unfold nthq at 1.
        set (f := fun k => Some (val_or0 (nthq e1 g0) + inject_Z (Z.of_nat k - Z.of_nat g0) * dt)%Q).
        rewrite (nth_indep _ None (f 0)) by (rewrite map_length, seq_length; lia).
        rewrite map_nth, seq_nth by lia. unfold f.
        rewrite (e1_keep _ _ Hv0). reflexivity.
      * replace ((0 <=? k) && (k <? 0 + g0)) with false by lia. reflexivity.
Qed.

Lemma last_nth' {A} (l : list A) d : last l d = nth (length l - 1) l d.
Proof.
  induction l as [|x l IH]; [reflexivity|]. destruct l as [|y l]; [reflexivity|].
  change (last (x :: y :: l) d) with (last (y :: l) d). rewrite IH. simpl length.
  replace (S (S (length l)) - 1) with (S (length l)) by lia.
  replace (S (length l) - 1) with (length l) by lia. reflexivity.
Qed.

Lemma fill_time_spec : exists out, fill_time_gaps e fs = Some out /\ length out = length e /\
  forall k, k < length e -> nthq out k =
    if k <? g0 then Some (v0 + zdt k g0)%Q
    else if L <? k then Some (vL + zdt k L)%Q else nthq e1 k.
Proof.
  pose proof tg_L_lt as HL. pose proof tg_g0L as HG.
  destruct fill_head_spec as (e2 & H1 & H2 & H3).
  unfold fill_time_gaps. fold dt. fold e1. rewrite H1. unfold fill_tail.
  assert (N2 : forall k, nthq e2 k = None <-> L < k).
  { intros k. rewrite H3. destruct (Nat.ltb_spec k g0).
    - split; [discriminate|lia].
    - split.
      + intros N. destruct (Nat.lt_ge_cases L k); [assumption|].
        destruct (e1_middle k) as [v Hv]; [lia|]. congruence.
      + apply e1_after. }
  destruct (last e2 None) as [q|] eqn:El.
  - exists e2. split; [reflexivity|]. split; [exact H2|]. intros k Hk. rewrite H3.
    destruct (Nat.ltb_spec k g0); [reflexivity|].
    destruct (Nat.ltb_spec L k); [|reflexivity]. exfalso.
    rewrite last_nth' in El. fold (nthq e2 (length e2 - 1)) in El.
    assert (N : nthq e2 (length e2 - 1) = None) by (apply N2; lia). congruence.
  - assert (Lin : In L (good_idx e2)).
    { apply good_idx_in. destruct (nthq e2 L) eqn:E; [eauto|]. apply N2 in E. lia. }
    destruct (good_idx e2) as [|x xs] eqn:G; [destruct Lin|].
    assert (HLl : last (x :: xs) 0 = L).
    { rewrite <- G in *.
      pose proof (sorted_last _ 0 _ (good_idx_sorted e2) Lin).
      assert (In (last (good_idx e2) 0) (good_idx e2)) as F by (apply last_in; rewrite G; discriminate).
      apply good_idx_in in F. destruct F as [v Hv].
      destruct (Nat.lt_ge_cases L (last (good_idx e2) 0)) as [C|C]; [|lia].
      apply N2 in C. congruence. }
    cbv zeta. rewrite HLl. eexists. split; [reflexivity|]. split.
    + rewrite set_range_length; rewrite ?map_length, ?seq_length; lia.
    + intros k Hk. rewrite set_range_nth by (rewrite map_length, seq_length; lia).
      rewrite map_length, seq_length. rewrite (H3 k).
      destruct (Nat.ltb_spec k g0) as [B|B].
      * replace (L + 1 <=? k) with false by lia. reflexivity.
      * destruct (Nat.ltb_spec L k) as [C|C].
        -- replace ((L + 1 <=? k) && (k <? L + 1 + (length e2 - L - 1))) with true by lia.
           unfold nthq at 1.
           set (f := fun m => Some (val_or0 (nthq e2 L) + inject_Z (Z.of_nat m) * dt)%Q).
           rewrite (nth_indep _ None (f 0)) by (rewrite map_length, seq_length; lia).
           rewrite map_nth, seq_nth by lia. unfold f, zdt.
           replace (nthq e2 L) with (Some vL).
           2: { rewrite H3. replace (L <? g0) with false by lia. symmetry. apply e1_keep, HvL. }
           replace (Z.of_nat (1 + (k - (L + 1)))) with (Z.of_nat k - Z.of_nat L)%Z by lia.
           reflexivity.
        -- replace (L + 1 <=? k) with false by lia. reflexivity.
Qed.

Hypothesis Hfs : (0 < fs)%Q.
Lemma dt_pos : (0 < dt)%Q.
Proof. unfold dt, Qdiv. rewrite Qmult_1_l. apply Qinv_lt_0_compat. exact Hfs. Qed.

Hypothesis Hinc : forall i j x y, i < j -> valid e i x -> valid e j y -> (x < y)%Q.

Lemma e1_step k x y : g0 <= k -> k < L -> nthq e1 k = Some x -> nthq e1 (S k) = Some y -> (x < y)%Q.
Proof.
  intros H1 H2 Hx Hy.
  destruct (adj_cover _ k (good_idx_sorted e) g0 L tg_g0_good tg_L_good) as (i & j & A & B); [lia|].
  destruct (sorted_adj _ _ _ (good_idx_sorted e) A) as (_ & Ii & Ij & _).
  pose proof (good_idx_lt _ _ Ii) as Li. pose proof (good_idx_lt _ _ Ij) as Lj.
  apply good_idx_in in Ii, Ij. destruct Ii as [a Ha], Ij as [b Hb].
  destruct (e1_line i j k a b A Ha Hb) as (v & Hv & O1); [lia|].
  destruct (e1_line i j (S k) a b A Ha Hb) as (w & Hw & O2); [lia|].
  assert (v = x) by congruence. assert (w = y) by congruence. subst v w.
  assert (a < b)%Q by (apply (Hinc i j); [lia| |]; apply valid_nthq; auto).
  unfold on_line in *. pose proof (qn_lt i j ltac:(lia)) as Q1.
  assert (Q2 : (qn (S k) == qn k + 1)%Q).
  { unfold qn. rewrite Nat2Z.inj_succ. unfold Z.succ. rewrite inject_Z_plus. reflexivity. }
  rewrite Q2 in O2. clear Q2.
  assert (D : ((y - x) * (qn j - qn i) == b - a)%Q) by nra.
  destruct (Qlt_le_dec x y) as [|C]; [assumption|]. exfalso. nra.
Qed.

Lemma fill_time_inc out : fill_time_gaps e fs = Some out ->
  forall i j x y, i < j -> valid out i x -> valid out j y -> (x < y)%Q.
Proof.
  intros Ho. destruct fill_time_spec as (out' & H1 & H2 & H3).
  assert (out' = out) by congruence. subst out'. clear H1.
  pose proof tg_L_lt as HL. pose proof tg_g0L as HG. pose proof dt_pos as Hdt.
  assert (STEP : forall k x y, S k < length e -> nthq out k = Some x -> nthq out (S k) = Some y -> (x < y)%Q).
  { intros k x y Hk Hx Hy. rewrite H3 in Hx, Hy by lia.
    assert (SUC : forall p q, (zdt (S p) q == zdt p q + dt)%Q).
    { intros p q. unfold zdt. replace (Z.of_nat (S p) - Z.of_nat q)%Z with (Z.of_nat p - Z.of_nat q + 1)%Z by lia.
      rewrite inject_Z_plus. change (inject_Z 1) with 1%Q. ring. }
    assert (ZD : forall p, (zdt p p == 0)%Q).
    { intros p. unfold zdt. rewrite Z.sub_diag. change (inject_Z 0) with 0%Q. ring. }
    destruct (Nat.ltb_spec k g0) as [A|A].
    - destruct (Nat.ltb_spec (S k) g0) as [B|B].
      + injection Hx as <-. injection Hy as <-. rewrite SUC. lra.
      + assert (S k = g0) by lia. replace (L <? S k) with false in Hy by lia.
        rewrite H in Hy. rewrite (e1_keep _ _ Hv0) in Hy. injection Hy as <-. injection Hx as <-.
        pose proof (SUC k g0) as Q1. rewrite H, ZD in Q1. lra.
    - replace (S k <? g0) with false in Hy by lia.
      destruct (Nat.ltb_spec L k) as [C|C].
      + replace (L <? S k) with true in Hy by lia. injection Hx as <-. injection Hy as <-. rewrite SUC. lra.
      + destruct (Nat.ltb_spec L (S k)) as [D|D].
        * assert (k = L) by lia. subst k. rewrite (e1_keep _ _ HvL) in Hx.
          injection Hx as <-. injection Hy as <-. rewrite SUC, ZD. lra.
        * apply (e1_step k); try assumption; lia. }
  assert (TOT : forall k, k < length e -> exists v, nthq out k = Some v).
  { intros k Hk. rewrite H3 by exact Hk. destruct (Nat.ltb_spec k g0); [eauto|].
    destruct (Nat.ltb_spec L k); [eauto|]. apply e1_middle; lia. }
  intros i j x y Hij Hx. apply valid_nthq in Hx. destruct Hx as [_ Hx].
  revert y. induction j as [|j IH]; [lia|]. intros y Hy. apply valid_nthq in Hy.
  destruct Hy as [Lj Hy]. rewrite H2 in Lj.
  destruct (Nat.eq_dec i j) as [->|N].
  - apply (STEP j); assumption.
  - destruct (TOT j) as [w Hw]; [lia|].
    apply Qlt_trans with w.
    + apply IH; [lia|]. apply valid_nthq. split; [lia|exact Hw].
    + apply (STEP j); assumption.
Qed.
End TimeGaps.

Lemma has_valid_good e : (exists k v, valid e k v) <-> good_idx e <> [].
Proof.
  split.
  - intros (k & v & H). apply valid_nthq in H. destruct H as [_ H].
    assert (In k (good_idx e)) as G by (apply good_idx_in; eauto). intros E. rewrite E in G. destruct G.
  - intros H. destruct (good_idx e) as [|g gs] eqn:E; [congruence|].
    assert (In g (good_idx e)) as G by (rewrite E; left; reflexivity).
    pose proof (good_idx_lt _ _ G). apply good_idx_in in G. destruct G as [v Hv].
    exists g, v. apply valid_nthq. auto.
Qed.

(** the interface lemmas used by Props *)
Lemma ftg_raises e fs : fill_time_gaps e fs = None <-> ~ exists k v, valid e k v.
Proof.
  rewrite has_valid_good. destruct (good_idx e) as [|g gs] eqn:E.
  - split; [congruence|]. intros _.
    unfold fill_time_gaps, fillgaps. rewrite E. simpl.
    unfold fill_head. destruct e as [|[q|] r]; [reflexivity| |].
    + exfalso. simpl in E. discriminate.
    + rewrite E. reflexivity.
  - split; [|intros H; exfalso; apply H; discriminate]. intros H. exfalso.
    assert (Ig : In g (good_idx e)) by (rewrite E; left; reflexivity).
    assert (Il : In (gl g gs) (good_idx e)) by (rewrite E; apply gl_in).
    apply good_idx_in in Ig, Il. destruct Ig as [v0 H0], Il as [vL HL].
    destruct (fill_time_spec e fs g gs E v0 vL H0 HL) as (out & A & _). congruence.
Qed.

Lemma ftg_decomp e fs out : fill_time_gaps e fs = Some out ->
  exists g0 gs v0 vL, good_idx e = g0 :: gs /\ nthq e g0 = Some v0 /\ nthq e (gl g0 gs) = Some vL.
Proof.
  intros H. destruct (good_idx e) as [|g gs] eqn:E.
  - exfalso. assert (fill_time_gaps e fs = None) as N; [|congruence].
    apply ftg_raises. rewrite has_valid_good, E. intros F. apply F. reflexivity.
  - assert (Ig : In g (good_idx e)) by (rewrite E; left; reflexivity).
    assert (Il : In (gl g gs) (good_idx e)) by (rewrite E; apply gl_in).
    apply good_idx_in in Ig, Il. destruct Ig as [v0 H0], Il as [vL HL].
    exists g, gs, v0, vL. auto.
Qed.

Lemma ftg_complete e fs out : fill_time_gaps e fs = Some out ->
  length out = length e /\ (forall k, k < length e -> exists v, valid out k v) /\
  (forall k v, valid e k v -> valid out k v).
Proof.
  intros H. destruct (ftg_decomp _ _ _ H) as (g0 & gs & v0 & vL & E & H0 & HL).
  destruct (fill_time_spec e fs g0 gs E v0 vL H0 HL) as (o & A & B & C).
  assert (o = out) by congruence. subst o. split; [exact B|]. split.
  - intros k Hk. pose proof (C k Hk) as D.
    assert (X : exists v, nthq out k = Some v).
    { rewrite D. destruct (Nat.ltb_spec k g0); [eauto|].
      destruct (Nat.ltb_spec (gl g0 gs) k); [eauto|]. apply (e1_middle e g0 gs E); lia. }
    destruct X as [v Hv]. exists v. apply valid_nthq. split; [lia|exact Hv].
  - intros k v Hv. apply valid_nthq in Hv. destruct Hv as [Hk Hv].
    apply valid_nthq. split; [lia|]. rewrite C by exact Hk.
    assert (G : In k (good_idx e)) by (apply good_idx_in; eauto).
    apply (tg_good e g0 gs E) in G.
    replace (k <? g0) with false by lia. replace (gl g0 gs <? k) with false by lia.
    apply e1_keep. exact Hv.
Qed.

Lemma ftg_head e fs out k j y : fill_time_gaps e fs = Some out -> missing e k ->
  none_before e k -> right_nb e k j y ->
  exists v, valid out k v /\ (v == y - qn (j - k) / fs)%Q.
Proof.
  intros H Hm Hb HR. destruct (ftg_decomp _ _ _ H) as (g0 & gs & v0 & vL & E & H0 & HL).
  destruct (fill_time_spec e fs g0 gs E v0 vL H0 HL) as (o & A & B & C).
  assert (o = out) by congruence. subst o.
  pose proof (none_before_gd e k Hm Hb) as N.
  apply missing_nthq in Hm. destruct Hm as [Hk Hm].
  assert (G0 : In g0 (good_idx e)) by (rewrite E; left; reflexivity).
  destruct HR as (R1 & R2 & R3). apply valid_nthq in R2. destruct R2 as [R2 R4].
  assert (Ij : In j (good_idx e)) by (apply good_idx_in; eauto).
  apply (tg_good e g0 gs E) in Ij. pose proof (N g0 G0) as N0.
  assert (g0 = j).
  { destruct (Nat.eq_dec g0 j); [assumption|].
    assert (M : missing e g0) by (apply R3; lia). apply missing_nthq in M. destruct M. congruence. }
  subst g0. rewrite R4 in H0. injection H0 as <-.
  eexists. split.
  - apply valid_nthq. split; [lia|]. rewrite C by exact Hk.
    replace (k <? j) with true by lia. reflexivity.
  - unfold zdt. replace (Z.of_nat k - Z.of_nat j)%Z with (- Z.of_nat (j - k))%Z by lia.
    rewrite inject_Z_opp. fold (qn (j - k)). unfold Qdiv. ring.
Qed.

Lemma ftg_tail e fs out k i x : fill_time_gaps e fs = Some out -> missing e k ->
  none_after e k -> left_nb e k i x ->
  exists v, valid out k v /\ (v == x + qn (k - i) / fs)%Q.
Proof.
  intros H Hm Hb HR. destruct (ftg_decomp _ _ _ H) as (g0 & gs & v0 & vL & E & H0 & HL).
  destruct (fill_time_spec e fs g0 gs E v0 vL H0 HL) as (o & A & B & C).
  assert (o = out) by congruence. subst o.
  pose proof (none_after_gd e k Hm Hb) as N.
  apply missing_nthq in Hm. destruct Hm as [Hk Hm].
  destruct HR as (R1 & R2 & R3). apply valid_nthq in R2. destruct R2 as [R2 R4].
  assert (Ij : In i (good_idx e)) by (apply good_idx_in; eauto).
  apply (tg_good e g0 gs E) in Ij.
  assert (GL : In (gl g0 gs) (good_idx e)) by (rewrite E; apply gl_in).
  pose proof (N _ GL) as N0.
  assert (Ei : gl g0 gs = i).
  { destruct (Nat.eq_dec (gl g0 gs) i); [assumption|].
    assert (M : missing e (gl g0 gs)) by (apply R3; lia). apply missing_nthq in M. destruct M. congruence. }
  rewrite Ei in *. rewrite R4 in HL. injection HL as <-.
  eexists. split.
  - apply valid_nthq. split; [lia|]. rewrite C by exact Hk.
    replace (k <? g0) with false by lia. replace (i <? k) with true by lia. reflexivity.
  - unfold zdt. replace (Z.of_nat k - Z.of_nat i)%Z with (Z.of_nat (k - i))%Z by lia.
    fold (qn (k - i)). unfold Qdiv. ring.
Qed.

Lemma ftg_inner e fs out k i j x y : fill_time_gaps e fs = Some out -> missing e k ->
  left_nb e k i x -> right_nb e k j y ->
  exists v, valid out k v /\ on_line i j k x y v.
Proof.
  intros H Hm HLn HR. destruct (ftg_decomp _ _ _ H) as (g0 & gs & v0 & vL & E & H0 & HL).
  destruct (fill_time_spec e fs g0 gs E v0 vL H0 HL) as (o & A & B & C).
  assert (o = out) by congruence. subst o.
  apply missing_nthq in Hm. destruct Hm as [Hk Hm].
  destruct (neighbours_adj e k i j x y Hm HLn HR) as (D1 & D2 & D3 & D4).
  destruct (sorted_adj _ _ _ (good_idx_sorted e) D1) as (_ & Ii & Ij & _).
  apply (tg_good e g0 gs E) in Ii, Ij.
  destruct (e1_line e g0 gs i j k x y D1 D3 D4) as (v & Hv & O); [lia|].
  exists v. split; [|exact O]. apply valid_nthq. split; [lia|]. rewrite C by exact Hk.
  replace (k <? g0) with false by lia. replace (gl g0 gs <? k) with false by lia. exact Hv.
Qed.

Lemma ftg_increasing e fs out : (0 < fs)%Q -> fill_time_gaps e fs = Some out ->
  (forall i j x y, i < j -> valid e i x -> valid e j y -> (x < y)%Q) ->
  forall i j x y, i < j -> valid out i x -> valid out j y -> (x < y)%Q.
Proof.
  intros Hfs H Hinc. destruct (ftg_decomp _ _ _ H) as (g0 & gs & v0 & vL & E & H0 & HL).
  apply (fill_time_inc e fs g0 gs E v0 vL H0 HL Hfs Hinc out H).
Qed.

Lemma fillgaps_line maxgap extrap a k i j x y : missing a k -> left_nb a k i x -> right_nb a k j y ->
  fits (j - i - 1) maxgap -> exists v, valid (fillgaps maxgap extrap a) k v /\ on_line i j k x y v.
Proof.
  intros Hm HL HR F. exists (line_index i j k x y). split.
  - exact (fillw_inner line_index maxgap extrap a k i j x y Hm HL HR F).
  - apply line_index_on_line. destruct HL, HR. lia.
Qed.

Lemma interpgaps_line t maxgap extrap a k i j x y : missing a k -> left_nb a k i x -> right_nb a k j y ->
  fits (j - i - 1) maxgap -> ~ (nth j t 0%Q == nth i t 0%Q)%Q ->
  exists v, valid (interpgaps t maxgap extrap a) k v /\
            on_line_t (nth i t 0%Q) (nth j t 0%Q) (nth k t 0%Q) x y v.
Proof.
  intros Hm HL HR F Ht. exists (line_time t i j k x y). split.
  - exact (fillw_inner (line_time t) maxgap extrap a k i j x y Hm HL HR F).
  - apply line_time_on_line. exact Ht.
Qed.

Lemma interp_between t maxgap extrap a k i j x y v : missing a k -> left_nb a k i x -> right_nb a k j y ->
  (nth i t 0%Q < nth k t 0%Q)%Q -> (nth k t 0%Q < nth j t 0%Q)%Q ->
  valid (interpgaps t maxgap extrap a) k v -> ((x <= v <= y) \/ (y <= v <= x))%Q.
Proof.
  intros Hm HL HR T1 T2 Hv.
  assert (D : fits (j - i - 1) maxgap \/ ~ fits (j - i - 1) maxgap).
  { destruct maxgap; simpl; [|tauto]. lia. }
  destruct D as [F|F].
  - destruct (interpgaps_line t maxgap extrap a k i j x y Hm HL HR F) as (w & Hw & O); [lra|].
    assert (w = v) by (unfold valid in *; congruence). subst w. unfold on_line_t in O.
    set (ti := nth i t 0%Q) in *. set (tk := nth k t 0%Q) in *. set (tj := nth j t 0%Q) in *.
    clearbody ti tk tj.
    destruct (Qlt_le_dec x y) as [X|X]; [left|right]; split;
      (match goal with |- (?p <= ?q)%Q => destruct (Qlt_le_dec q p) as [Z|]; [exfalso|assumption] end; nra).
  - pose proof (fillw_inner_big (line_time t) maxgap extrap a k i j x y Hm HL HR F) as M.
    unfold valid, missing in *. change (fillw (line_time t) maxgap extrap a) with (interpgaps t maxgap extrap a) in M.
    congruence.
Qed.

(** comparing two interpolation formulas *)
Lemma adj_dec (P : nat -> nat -> bool) gd :
  (exists i j, adj gd i j /\ P i j = true) \/ (forall i j, adj gd i j -> P i j = false).
Proof.
  induction gd as [|x gd IH].
  - right. intros i j A. inversion A.
  - destruct IH as [(i & j & A & B)|IH].
    + left. exists i, j. split; [constructor; exact A|exact B].
    + destruct gd as [|y gd].
      * right. intros i j A. inversion A as [|? ? ? ? A']; subst. inversion A'.
      * destruct (P x y) eqn:E.
        -- left. exists x, y. split; [constructor|exact E].
        -- right. intros i j A. inversion A as [|? ? ? ? A']; subst; [exact E|apply IH; exact A'].
Qed.

Lemma fillw_compare l1 l2 maxgap extrap a k :
  nthq (fillw l1 maxgap extrap a) k = nthq (fillw l2 maxgap extrap a) k \/
  exists i j x y, i < k < j /\ j < length a /\
    nthq (fillw l1 maxgap extrap a) k = Some (l1 i j k x y) /\
    nthq (fillw l2 maxgap extrap a) k = Some (l2 i j k x y).
Proof.
  unfold fillw.
  set (a1 := if extrap then extrap_ends a (good_idx a) maxgap else a).
  assert (B : Forall (fun g => g < length a1) (good_idx a)) by apply gd_bound.
  destruct (adj_dec (fun i j => (i <? k) && (k <? j) && cond maxgap i j) (good_idx a)) as [(i & j & A & P)|N].
  - right. exists i, j, (val_or0 (nthq a1 i)), (val_or0 (nthq a1 j)).
    split; [lia|]. split.
    { destruct (sorted_adj _ _ _ (good_idx_sorted a) A) as (_ & _ & Ij & _). apply good_idx_lt. exact Ij. }
    split; (apply fill_loop_hit; [exact A|exact B|apply good_idx_sorted|lia|lia]).
  - left. rewrite !fill_loop_miss; try reflexivity; try exact B; try apply good_idx_sorted;
      intros i j A H; specialize (N i j A); lia.
Qed.

Lemma interp_same_selection t maxgap extrap a k :
  missing (interpgaps t maxgap extrap a) k <-> missing (fillgaps maxgap extrap a) k.
Proof.
  change (interpgaps t maxgap extrap a) with (fillw (line_time t) maxgap extrap a).
  change (fillgaps maxgap extrap a) with (fillw line_index maxgap extrap a).
  rewrite !missing_nthq, !fillw_length.
  destruct (fillw_compare (line_time t) line_index maxgap extrap a k) as [E|(i & j & x & y & _ & _ & E1 & E2)].
  - rewrite E. tauto.
  - rewrite E1, E2. split; intros [_ C]; discriminate.
Qed.

Lemma line_even t t0 dt i j k x y : ~ (dt == 0)%Q -> i < k < j ->
  (forall m, m <= j -> (nth m t 0 == t0 + qn m * dt)%Q) ->
  (line_time t i j k x y == line_index i j k x y)%Q.
Proof.
  intros Hdt H Ht. apply on_line_unique with (i := i) (j := j) (k := k) (x := x) (y := y).
  - lia.
  - assert (Nz : ~ (nth j t 0%Q == nth i t 0%Q)%Q).
    { rewrite !Ht by lia. pose proof (qn_lt i j ltac:(lia)). intros C.
      assert ((qn j - qn i) * dt == 0)%Q as D by lra.
      apply Qmult_integral in D. destruct D; lra. }
    pose proof (line_time_on_line t i j k x y Nz) as O. unfold on_line_t in O. unfold on_line.
    rewrite !Ht in O by lia.
    set (v := line_time t i j k x y) in *. clearbody v.
    assert (D : (((v - x) * (qn j - qn i) - (y - x) * (qn k - qn i)) * dt == 0)%Q) by lra.
    apply Qmult_integral in D. destruct D; lra.
  - apply line_index_on_line. exact H.
Qed.

Lemma interp_even t t0 dt maxgap extrap a : ~ (dt == 0)%Q ->
  (forall m, m < length a -> (nth m t 0 == t0 + qn m * dt)%Q) ->
  forall k v w, valid (interpgaps t maxgap extrap a) k v -> valid (fillgaps maxgap extrap a) k w -> (v == w)%Q.
Proof.
  intros Hdt Ht k v w Hv Hw.
  change (interpgaps t maxgap extrap a) with (fillw (line_time t) maxgap extrap a) in Hv.
  change (fillgaps maxgap extrap a) with (fillw line_index maxgap extrap a) in Hw.
  apply valid_nthq in Hv, Hw. destruct Hv as [_ Hv], Hw as [_ Hw].
  destruct (fillw_compare (line_time t) line_index maxgap extrap a k) as [E|(i & j & x & y & K & Lj & E1 & E2)].
  - assert (v = w) by congruence. subst. reflexivity.
  - assert (v = line_time t i j k x y) by congruence. assert (w = line_index i j k x y) by congruence. subst.
    apply (line_even t t0 dt); try assumption. intros m Hm. apply Ht. lia.
Qed.

Lemma fillw_keep_valid line maxgap extrap a k v :
  valid a k v -> valid (fillw line maxgap extrap a) k v.
Proof.
  intros H. apply valid_nthq in H. destruct H. apply valid_nthq. rewrite fillw_length.
  split; [assumption|]. apply fillw_keep. assumption.
Qed.

Lemma fillgaps_inner maxgap extrap a k i j x y :
  missing a k -> left_nb a k i x -> right_nb a k j y ->
  (fits (j - i - 1) maxgap ->
     exists v, valid (fillgaps maxgap extrap a) k v /\ on_line i j k x y v) /\
  (~ fits (j - i - 1) maxgap -> missing (fillgaps maxgap extrap a) k).
Proof.
  intros Hm HL HR. split.
  - apply fillgaps_line; assumption.
  - exact (fillw_inner_big line_index maxgap extrap a k i j x y Hm HL HR).
Qed.

Lemma fillgaps_ends maxgap a k :
  missing a k -> none_before a k \/ none_after a k -> missing (fillgaps maxgap false a) k.
Proof. intros H1 H2. exact (fillw_ends_noextrap line_index maxgap false a k eq_refl H1 H2). Qed.

Lemma fillgaps_head maxgap a k j y :
  missing a k -> none_before a k -> right_nb a k j y ->
  (fits j maxgap -> valid (fillgaps maxgap true a) k y) /\
  (~ fits j maxgap -> missing (fillgaps maxgap true a) k).
Proof. intros H1 H2 H3. exact (fillw_head line_index maxgap true a k j y eq_refl H1 H2 H3). Qed.

Lemma fillgaps_tail maxgap a k i x :
  missing a k -> none_after a k -> left_nb a k i x ->
  (fits (length a - i - 1) maxgap -> valid (fillgaps maxgap true a) k x) /\
  (~ fits (length a - i - 1) maxgap -> missing (fillgaps maxgap true a) k).
Proof. intros H1 H2 H3. exact (fillw_tail line_index maxgap true a k i x eq_refl H1 H2 H3). Qed.
