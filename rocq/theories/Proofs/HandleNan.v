From Coq Require Import String Ascii.
From Coq Require Import QArith List Bool Lia.
From Verif.Model Require Import Rotate HandleNan.
From Verif.Spec Require Import HandleNan.
Import ListNotations.
Open Scope nat_scope.
Open Scope list_scope.

Lemma prefix_spec k s : prefix k s = true <-> exists b, s = (k ++ b)%string.
Proof.
  revert s. induction k as [|c k IH]; intros s.
  - split; [intros _; exists s; reflexivity|destruct s; reflexivity].
  - destruct s as [|a s]; simpl.
    + split; [discriminate|intros (b & E); discriminate].
    + destruct (ascii_dec c a) as [->|N].
      * rewrite IH. split; intros (b & E); exists b; congruence.
      * split; [discriminate|]. intros (b & E). congruence.
Qed.
Lemma contains_spec k s : contains k s = true <-> mentions k s.
Proof.
  unfold mentions. induction s as [|c s IH].
  - unfold contains. simpl. destruct k as [|a k].
    + split; [intros _; exists ""%string, ""%string; reflexivity|reflexivity].
    + split; [discriminate|]. intros (x & y & E). destruct x; discriminate.
  - assert (E : contains k (String c s) = prefix k (String c s) || contains k s).
    { unfold contains. cbn [index]. destruct (prefix k (String c s)); [reflexivity|]. destruct (index 0 k s); reflexivity. }
    rewrite E, orb_true_iff, prefix_spec, IH. split.
    + intros [(b & ->)|(a & b & ->)]; [exists ""%string, b; reflexivity|exists (String c a), b; reflexivity].
    + intros (a & b & H). destruct a as [|a0 a]; [left; exists b; exact H|]. right. exists a, b. simpl in H. congruence.
Qed.
Lemma imu_spec v : imu_name (vname v) = true <-> imu_variable v.
Proof. unfold imu_name, imu_variable. rewrite !orb_true_iff, !contains_spec. tauto. Qed.

Lemma isnan_nth l k : nth k (isnan l) false = true <-> missing_in l k.
Proof.
  unfold missing_in. revert k. induction l as [|x l IH]; intros k.
  - destruct k; simpl; split; discriminate.
  - destruct k; [|apply IH]. simpl. destruct x; split; congruence.
Qed.
Lemma isnan_length l : length (isnan l) = length l. Proof. apply map_length. Qed.
Lemma or_length a b : length (or_lists a b) = length a.
Proof. revert b; induction a as [|x a IH]; intros [|y b]; simpl; congruence. Qed.
Lemma or_nth a b k : length a = length b -> nth k (or_lists a b) false = nth k a false || nth k b false.
Proof.
  revert b k; induction a as [|x a IH]; intros [|y b] k H; simpl in *; try discriminate; [destruct k; reflexivity|].
  destruct k; [reflexivity|]. apply IH. lia.
Qed.

Lemma last_In {A} (l : list A) d : l <> [] -> In (last l d) l.
Proof.
  induction l as [|x l IH]; intros H; [congruence|]. destruct l as [|y l]; [left; reflexivity|].
  right. apply IH. discriminate.
Qed.
Lemma last_one {A} (l : list A) d : length l = 1 -> last l d = hd d l.
Proof. destruct l as [|x [|y l]]; simpl; intros; try discriminate; reflexivity. Qed.

Definition seen (l : nat) (v : nvar) (k : nat) : Prop :=
  imu_variable v /\ width v = l /\ (ndim v = 1 \/ ndim v = 2) /\ missing_in (last (lines v) []) k.
Lemma var_nan_spec l v nan : rectangular v -> length nan = l ->
  length (var_nan l v nan) = l /\
  forall k, nth k (var_nan l v nan) false = true <-> nth k nan false = true \/ seen l v k.
Proof.
  intros (R1 & R2 & R3) L. unfold var_nan, seen.
  destruct (imu_name (vname v)) eqn:I; cbn [andb].
  2:{ split; [exact L|]. intros k. assert (~ imu_variable v) by (rewrite <- imu_spec; congruence). tauto. }
  apply imu_spec in I.
  destruct (Nat.eqb_spec (width v) l) as [W|W]; [|split; [exact L|]; intros k; tauto].
  destruct (ndim v) as [|[|[|n]]] eqn:D.
  - split; [exact L|]. intros k. intuition congruence.
  - split; [rewrite or_length; exact L|]. intros k. rewrite or_nth, orb_true_iff, isnan_nth.
    + rewrite last_one by (apply R2; reflexivity). tauto.
    + rewrite isnan_length. unfold width in W. congruence.
  - split; [rewrite or_length; exact L|]. intros k. rewrite or_nth, orb_true_iff, isnan_nth.
    + tauto.
    + rewrite isnan_length. rewrite R3 by (apply last_In; exact R1). congruence.
  - split; [exact L|]. intros k. intuition congruence.
Qed.

Lemma fold_nan l vs nan : (forall v, In v vs -> rectangular v) -> length nan = l ->
  let m := fold_left (fun nan v => var_nan l v nan) vs nan in
  length m = l /\ forall k, nth k m false = true <-> nth k nan false = true \/ exists v, In v vs /\ seen l v k.
Proof.
  revert nan. induction vs as [|v vs IH]; intros nan R L; simpl.
  - split; [exact L|]. intros k. split; [tauto|]. intros [H|(v & [] & _)]; exact H.
  - destruct (var_nan_spec l v nan (R v (or_introl eq_refl)) L) as [L1 S1].
    destruct (IH (var_nan l v nan)) as [L2 S2]; [intros; apply R; right; assumption|exact L1|].
    split; [exact L2|]. intros k. rewrite S2, S1. split.
    + intros [[H|H]|(w & H1 & H2)]; [tauto|right; exists v; tauto|right; exists w; tauto].
    + intros [H|(w & [->|H1] & H2)]; [tauto|tauto|right; exists w; tauto].
Qed.

Lemma mask_spec d : (forall v, In v (nvars d) -> rectangular v) ->
  length (nan_mask d) = length (ntime d) /\ forall k, nth k (nan_mask d) false = true <-> last_incomplete d k.
Proof.
  intros R. unfold nan_mask. destruct (fold_nan (length (ntime d)) (nvars d) (isnan (ntime d)) R (isnan_length _)) as [L S].
  split; [exact L|]. intros k. rewrite S, isnan_nth. unfold last_incomplete, seen. split; intros [H|(v & H)]; eauto.
Qed.

(** positions of True *)
Fixpoint positions (m : list bool) (p : nat) : list nat :=
  match m with [] => [] | true :: m' => p :: positions m' (S p) | false :: m' => positions m' (S p) end.
Lemma positions_spec m p : length (positions m p) = count_occ bool_dec m true /\ NoDup (positions m p) /\
  forall k, In k (positions m p) <-> p <= k /\ nth (k - p) m false = true.
Proof.
  revert p. induction m as [|x m IH]; intros p.
  - simpl. split; [reflexivity|]. split; [constructor|]. intros k. destruct (k - p); split; [tauto|intros [_ H]; discriminate|tauto|intros [_ H]; discriminate].
  - destruct (IH (S p)) as (A & B & C).
    assert (G : forall k, S p <= k -> nth (k - p) (x :: m) false = nth (k - S p) m false).
    { intros k Hk. replace (k - p) with (S (k - S p)) by lia. reflexivity. }
    destruct x; simpl positions.
    + split; [|split].
      * rewrite count_occ_cons_eq by reflexivity. simpl. rewrite A. reflexivity.
      * constructor; [|exact B]. intros H. apply C in H. lia.
      * intros k. cbn [In]. rewrite C. split.
        -- intros [<-|[H1 H2]]; [split; [lia|]; rewrite Nat.sub_diag; reflexivity|]. split; [lia|]. rewrite G by lia. exact H2.
        -- intros [H1 H2]. destruct (Nat.eq_dec p k); [tauto|]. right. rewrite G in H2 by lia. split; [lia|exact H2].
    + split; [|split].
      * rewrite count_occ_cons_neq by discriminate. exact A.
      * exact B.
      * intros k. rewrite C. split.
        -- intros [H1 H2]. split; [lia|]. rewrite G by lia. exact H2.
        -- intros [H1 H2]. destruct (Nat.eq_dec p k) as [<-|]; [rewrite Nat.sub_diag in H2; discriminate|]. rewrite G in H2 by lia. split; [lia|exact H2].
Qed.

Lemma last_incomplete_lt d k : (forall v, In v (nvars d) -> rectangular v) -> last_incomplete d k -> k < length (ntime d).
Proof.
  intros R [H|(v & H1 & H2 & H3 & H4 & H5)]; unfold missing_in in *.
  - apply nth_error_Some. congruence.
  - destruct (R v H1) as (A & B & C). rewrite <- H3, <- (C (last (lines v) [])) by (apply last_In; exact A).
    apply nth_error_Some. congruence.
Qed.

(** what is removed, counted *)
Lemma removed d d' : (forall v, In v (nvars d) -> rectangular v) -> handle_nan d = Some d' ->
  exists ks, NoDup ks /\ (forall k, In k ks <-> last_incomplete d k) /\
    ntime d' = firstn (length (ntime d) - length ks) (ntime d) /\
    nvars d' = map (fun v => if Nat.eqb (width v) (length (ntime d))
                     then NVar (vname v) (ndim v) (map (firstn (length (ntime d) - length ks)) (lines v)) else v) (nvars d).
Proof.
  intros R H. destruct (mask_spec d R) as [L MS]. destruct (positions_spec (nan_mask d) 0) as (A & B & C).
  exists (positions (nan_mask d) 0). split; [exact B|]. split.
  { intros k. rewrite C, Nat.sub_0_r, MS. split; [tauto|]. intros X. split; [lia|exact X]. }
  rewrite A. unfold handle_nan, trailing in H. destruct (nan_mask d) as [|b m] eqn:E; [discriminate|].
  set (n := count_occ bool_dec (b :: m) true) in *. destruct n as [|n1] eqn:En.
  - injection H as <-. rewrite Nat.sub_0_r, firstn_all. split; [reflexivity|].
    rewrite <- (map_id (nvars d)) at 1. apply map_ext_in. intros v Hv. destruct (Nat.eqb_spec (width v) (length (ntime d))) as [W|]; [|reflexivity].
    destruct v as [nm nd ls]. cbn [vname ndim lines]. f_equal. rewrite <- (map_id ls) at 1. apply map_ext_in. intros l Hl.
    destruct (R _ Hv) as (_ & _ & C'). rewrite <- W, <- (C' l Hl). symmetry. apply firstn_all.
  - assert (Hd : d' = NData (drop_end (S n1) (ntime d)) (map (fun v => if Nat.eqb (width v) (length (ntime d))
                     then NVar (vname v) (ndim v) (map (drop_end (S n1)) (lines v)) else v) (nvars d))) by congruence.
    rewrite Hd. cbn [ntime nvars]. split; [reflexivity|].
    apply map_ext_in. intros v Hv. destruct (Nat.eqb_spec (width v) (length (ntime d))) as [W|]; [|reflexivity].
    f_equal. apply map_ext_in. intros l Hl. unfold drop_end. destruct (R _ Hv) as (_ & _ & C'). rewrite (C' l Hl), W. reflexivity.
Qed.

Lemma only_trailing d a : (forall v, In v (nvars d) -> rectangular v) -> ntime d <> [] -> a <= length (ntime d) ->
  (forall k, k < length (ntime d) -> (last_incomplete d k <-> a <= k)) ->
  exists d', handle_nan d = Some d' /\ ntime d' = firstn a (ntime d) /\
    nvars d' = map (fun v => if Nat.eqb (width v) (length (ntime d))
                     then NVar (vname v) (ndim v) (map (firstn a) (lines v)) else v) (nvars d).
Proof.
  intros R NE La H.
  assert (E : exists d', handle_nan d = Some d').
  { unfold handle_nan, trailing. destruct (mask_spec d R) as [L _]. destruct (nan_mask d); [destruct (ntime d); [congruence|discriminate]|].
    destruct (count_occ _ _ _); eexists; reflexivity. }
  destruct E as (d' & E). exists d'. split; [exact E|].
  destruct (removed d d' R E) as (ks & N & K & T & V).
  assert (Lk : length ks = length (ntime d) - a).
  { assert (P : forall k, In k ks <-> In k (seq a (length (ntime d) - a))).
    { intros k. rewrite K, in_seq. split.
      - intros X. pose proof (last_incomplete_lt d k R X). apply H in X; lia.
      - intros X. apply H; lia. }
    apply Nat.le_antisymm.
    - rewrite <- (seq_length (length (ntime d) - a) a) at 1. apply NoDup_incl_length; [exact N|]. intros k. apply P.
    - rewrite <- (seq_length (length (ntime d) - a) a) at 1. apply NoDup_incl_length; [apply seq_NoDup|]. intros k. apply P. }
  rewrite Lk in T, V. replace (length (ntime d) - (length (ntime d) - a)) with a in T, V by lia. auto.
Qed.
