From Coq Require Import ZArith QArith Qabs Reals List Bool Lia Sorting Lqa.
From Verif.Model Require Import Gaps Reshape Stats CleanAdv.
From Verif.Spec Require Import Gaps CleanAdv.
From Verif.Proofs Require Gaps.
Import ListNotations.
Close Scope R_scope.
Open Scope nat_scope.

Lemma Qlt_bool_iff x y : Qlt_bool x y = true <-> (x < y)%Q.
Proof.
  unfold Qlt_bool. rewrite negb_true_iff. split; intros H.
  - apply Qnot_le_lt. intros L. apply Qle_bool_iff in L. congruence.
  - destruct (Qle_bool y x) eqn:E; [|easy]. apply Qle_bool_iff in E. lra.
Qed.

(** ** masks *)
Lemma range_limit_spec lo hi u k : k < length u -> flagged (range_limit lo hi u) k <-> ~ inside lo hi u k.
Proof.
  intros H. unfold flagged, range_limit, inside, valid. rewrite nth_error_map.
  destruct (nth_error u k) as [[v|]|] eqn:E; [| |apply nth_error_None in E; lia]; cbn [option_map olt].
  - split.
    + intros F (w & W & A & B). injection W as <-. apply Qlt_bool_iff in A, B. rewrite A, B in F. discriminate.
    + intros N. f_equal. apply negb_true_iff. destruct (Qlt_bool lo v) eqn:A; [|easy]. destruct (Qlt_bool v hi) eqn:B; [|easy].
      elim N. exists v. rewrite <- !Qlt_bool_iff. auto.
  - split; [intros _ (w & W & _); discriminate|reflexivity].
Qed.
Lemma range_limit_length lo hi u : length (range_limit lo hi u) = length u.
Proof. apply map_length. Qed.

Lemma diff_from_length p u : length (diff_from p u) = length u.
Proof. revert p. induction u as [|x u IH]; intros p; [reflexivity|]. cbn [diff_from length]. now rewrite IH. Qed.
Lemma diff_from_nth u : forall p k, k < length u ->
  nth_error (diff_from p u) k = Some (qsub (nthq u k) (match k with O => p | S j => nthq u j end)).
Proof.
  induction u as [|x u IH]; intros p k H; [cbn in H; lia|]. destruct k as [|k]; [reflexivity|].
  cbn [diff_from nth_error]. rewrite IH by (cbn in H; lia). destruct k; reflexivity.
Qed.
Lemma spike_spec t u k : k < length u -> flagged (spike_thresh t u) k <-> exists d, jump u k d /\ (t < Qabs d)%Q.
Proof.
  intros H. unfold flagged, spike_thresh. rewrite nth_error_map, diff_from_nth by easy. cbn [option_map].
  assert (V : forall j v, j < length u -> (nthq u j = Some v <-> valid u j v)).
  { intros j v Hj. rewrite Gaps.valid_nthq. tauto. }
  set (pv := match k with O => Some 0%Q | S j => nthq u j end).
  assert (P : forall p, pv = Some p <-> match k with O => p = 0%Q | S j => valid u j p end).
  { intros p. unfold pv. destruct k as [|k]; [split; congruence|]. apply V. lia. }
  destruct (nthq u k) as [v|] eqn:E.
  - destruct pv as [p|] eqn:EP; cbn [qsub olt].
    + assert (A : (Qlt_bool t (v - p) || Qlt_bool (v - p) (- t) = true) <-> (t < Qabs (v - p))%Q).
      { rewrite orb_true_iff, !Qlt_bool_iff. apply Qabs_case; intros; lra. }
      split.
      * intros F. injection F as F. exists (v - p)%Q. split; [|now apply A]. exists v, p. repeat split; [now apply V|now apply P].
      * intros (d & (v' & p' & V1 & P1 & D) & T). apply V in V1; [|easy]. apply P in P1. f_equal. apply A.
        assert (v' = v) by congruence. assert (p' = p) by congruence. subst. now rewrite <- D.
    + split; [discriminate|]. intros (d & (v' & p' & _ & P1 & _) & _). apply P in P1. discriminate.
  - cbn [qsub olt]. split; [discriminate|]. intros (d & (v' & p' & V1 & _) & _). apply V in V1; [congruence|easy].
Qed.
Lemma spike_length t u : length (spike_thresh t u) = length u.
Proof. unfold spike_thresh. now rewrite map_length, diff_from_length. Qed.

Lemma exceeds_spec t val u : length (val_exceeds_thresh t val u) = length u /\
  forall k, k < length u -> nth_error (val_exceeds_thresh t val u) k = Some val /\ (exists v, valid u k v /\ (t < Qabs v)%Q)
    \/ nth_error (val_exceeds_thresh t val u) k = nth_error u k /\ ~ exists v, valid u k v /\ (t < Qabs v)%Q.
Proof.
  split; [apply map_length|]. intros k H. unfold val_exceeds_thresh. rewrite nth_error_map.
  unfold valid. destruct (nth_error u k) as [[v|]|] eqn:E; [| |apply nth_error_None in E; lia]; cbn [option_map].
  - destruct (Qlt_bool t (Qabs v)) eqn:L; [left|right].
    + split; [easy|]. exists v. split; [easy|]. now apply Qlt_bool_iff.
    + split; [easy|]. intros (w & W & A). injection W as <-. apply Qlt_bool_iff in A. congruence.
  - right. split; [easy|]. now intros (w & W & _).
Qed.

(** ** the windows *)
Fixpoint windows (npt : nat) (bds : list bool) (pos : nat) (st : option (nat * nat)) : list (nat * nat) :=
  match bds with
  | [] => []
  | b :: bds' =>
    match st with
    | None => windows npt bds' (S pos) (if b then Some (pos - npt, 0) else None)
    | Some (start, ntail) =>
      let ntail := if b then 0 else S ntail in
      if Nat.eqb ntail npt || match bds' with [] => true | _ => false end
      then (start, S pos) :: windows npt bds' (S pos) None
      else windows npt bds' (S pos) (Some (start, ntail))
    end
  end.
Definition step (f : nat -> series -> series) (da : series) (w : nat * nat) : series :=
  set_range da (fst w) (f (fst w) (slice da (fst w) (snd w))).
Lemma loop_windows f npt bds : forall pos st da,
  interp_loop f npt bds pos st da = fold_left (step f) (windows npt bds pos st) da.
Proof.
  induction bds as [|b bds IH]; intros pos st da; [reflexivity|]. cbn [interp_loop windows].
  destruct st as [[start nt]|]; [|apply IH]. cbv zeta. destruct (_ || _); [|apply IH]. cbn [fold_left]. rewrite <- IH. reflexivity.
Qed.

Lemma windows_in npt bds : forall pos st, (forall s nt, st = Some (s, nt) -> s < pos) ->
  forall s e, In (s, e) (windows npt bds pos st) -> s < e <= pos + length bds.
Proof.
  induction bds as [|b bds IH]; intros pos st Hst s e H; [destruct H|]. cbn [windows length] in *.
  destruct st as [[start nt]|].
  - cbv zeta in H. pose proof (Hst _ _ eq_refl) as S0. destruct (_ || _).
    + destruct H as [H|H]; [injection H as <- <-; lia|]. apply IH in H; [lia|discriminate].
    + apply IH in H; [lia|]. intros ? ? E. injection E as <- <-. lia.
  - apply IH in H; [lia|]. intros s0 nt E. destruct b; [|discriminate]. injection E as <- <-. lia.
Qed.

Lemma pend npt bds : forall pos start nt, bds <> [] -> exists e, In (start, e) (windows npt bds pos (Some (start, nt))) /\
  (e = pos + length bds \/ forall p, p + nt < pos -> p + npt < e).
Proof.
  induction bds as [|b bds IH]; intros pos start nt H; [easy|]. cbn [windows length]. cbv zeta.
  set (nt' := if b then 0 else S nt). assert (K : forall p, p + nt < pos -> p + nt' < S pos) by (intros p P; subst nt'; destruct b; lia).
  destruct (Nat.eqb_spec nt' npt) as [E|E]; cbn [orb].
  - exists (S pos). split; [now left|]. right. intros p P. apply K in P. lia.
  - destruct bds as [|b' bds].
    + exists (S pos). split; [now left|]. left. cbn. lia.
    + destruct (IH (S pos) start nt' ltac:(discriminate)) as (e & I & Q). exists e. split; [exact I|].
      destruct Q as [Q|Q]; [left; rewrite Q; cbn; lia|right; intros p P; apply Q, K, P].
Qed.

Lemma cover npt bds : forall pos st q, (forall s nt, st = Some (s, nt) -> s <= pos - npt) ->
  nth_error bds q = Some true -> S q < length bds ->
  exists s e, In (s, e) (windows npt bds pos st) /\ s <= pos + q - npt /\ (e = pos + length bds \/ pos + q + npt < e).
Proof.
  induction bds as [|b bds IH]; intros pos st q Hst B L; [cbn in L; lia|]. cbn [length] in L.
  assert (NE : bds <> []) by (destruct bds; [cbn in L; lia|discriminate]).
  destruct q as [|q].
  - injection B as ->. cbn [windows]. destruct st as [[start nt]|].
    + cbv zeta. pose proof (Hst _ _ eq_refl). destruct (Nat.eqb_spec 0 npt) as [E|E]; cbn [orb].
      * exists start, (S pos). split; [now left|]. split; [lia|]. right. lia.
      * replace (match bds with [] => true | _ => false end) with false by (destruct bds; [easy|reflexivity]).
        destruct (pend npt bds (S pos) start 0 NE) as (e & I & Q). exists start, e. split; [exact I|]. split; [lia|].
        destruct Q as [Q|Q]; [left; cbn [length]; lia|right]. specialize (Q pos). lia.
    + destruct (pend npt bds (S pos) (pos - npt) 0 NE) as (e & I & Q). exists (pos - npt), e. split; [exact I|]. split; [lia|].
      destruct Q as [Q|Q]; [left; cbn [length]; lia|right]. specialize (Q pos). lia.
  - cbn [nth_error] in B.
    assert (G : forall st', (forall s nt, st' = Some (s, nt) -> s <= S pos - npt) -> exists s e, In (s, e) (windows npt bds (S pos) st') /\
      s <= pos + S q - npt /\ (e = pos + S (length bds) \/ pos + S q + npt < e)).
    { intros st' H'. destruct (IH (S pos) st' q H' B ltac:(lia)) as (s & e & I & A & C). exists s, e. split; [exact I|]. split; lia. }
    cbn [windows length]. destruct st as [[start nt]|].
    + cbv zeta. pose proof (Hst _ _ eq_refl). destruct (_ || _).
      * destruct (G None ltac:(discriminate)) as (s & e & I & Q). exists s, e. split; [now right|exact Q].
      * apply G. intros ? ? E. injection E as <- <-. lia.
    + apply G. intros s0 nt0 E. destruct b; [|discriminate]. injection E as <- <-. lia.
Qed.

Lemma last_pend npt bds : forall pos start nt, bds <> [] -> nt + length bds <= npt -> exists s, s <= start /\ In (s, pos + length bds) (windows npt bds pos (Some (start, nt))).
Proof.
  induction bds as [|b bds IH]; intros pos start nt H L; [easy|]. cbn [windows length] in *. cbv zeta.
  destruct bds as [|b' bds].
  - rewrite orb_true_r. exists start. split; [lia|]. left. f_equal. cbn. lia.
  - assert (E : Nat.eqb (if b then 0 else S nt) npt = false) by (apply Nat.eqb_neq; destruct b; cbn in L; lia).
    rewrite E. cbn [orb]. destruct (IH (S pos) start (if b then 0 else S nt) ltac:(discriminate)) as (s & A & I).
    { destruct b; cbn in *; lia. }
    exists s. split; [exact A|]. replace (pos + S (length (b' :: bds))) with (S pos + length (b' :: bds)) by (cbn; lia). exact I.
Qed.
Lemma cover_last npt bds : forall pos st q, nth_error bds q = Some true -> S q < length bds -> length bds <= S q + npt ->
  (forall s nt, st = Some (s, nt) -> s <= pos) -> exists s, s < pos + length bds - 1 /\ In (s, pos + length bds) (windows npt bds pos st).
Proof.
  induction bds as [|b bds IH]; intros pos st q B L N Hst; [cbn in L; lia|]. cbn [length] in *.
  assert (NE : bds <> []) by (destruct bds; [cbn in L; lia|discriminate]).
  replace (pos + S (length bds)) with (S pos + length bds) by lia.
  destruct q as [|q].
  - injection B as ->. cbn [windows]. destruct st as [[start nt]|].
    + cbv zeta. pose proof (Hst _ _ eq_refl). replace (Nat.eqb 0 npt) with false by (symmetry; apply Nat.eqb_neq; lia).
      replace (match bds with [] => true | _ => false end) with false by (destruct bds; [easy|reflexivity]). cbn [orb].
      destruct (last_pend npt bds (S pos) start 0 NE ltac:(lia)) as (s & A & I). exists s. split; [lia|exact I].
    + destruct (last_pend npt bds (S pos) (pos - npt) 0 NE ltac:(lia)) as (s & A & I). exists s. split; [lia|exact I].
  - cbn [nth_error] in B. cbn [windows].
    assert (G : forall st', (forall s nt, st' = Some (s, nt) -> s <= S pos) -> exists s, s < S pos + length bds - 1 /\ In (s, S pos + length bds) (windows npt bds (S pos) st')).
    { intros st' H'. apply (IH (S pos) st' q B); [lia|lia|exact H']. }
    destruct st as [[start nt]|].
    + cbv zeta. pose proof (Hst _ _ eq_refl). destruct (_ || _).
      * destruct (G None ltac:(discriminate)) as (s & A & I). exists s. split; [exact A|now right].
      * apply G. intros ? ? E. injection E as <- <-. lia.
    + apply G. intros s0 nt0 E. destruct b; [|discriminate]. injection E as <- <-. lia.
Qed.

(** ** what the interpolation does *)
Lemma slice_length a s e : e <= length a -> length (slice a s e) = e - s.
Proof. intros H. unfold slice. rewrite firstn_length, skipn_length. lia. Qed.
Lemma slice_nth a s e k : k < e - s -> nthq (slice a s e) k = nthq a (s + k).
Proof. intros H. unfold nthq, slice. rewrite Gaps.nth_firstn_lt by easy. apply Gaps.nth_skipn_add. Qed.
Lemma step_keeps f a s e : interpolator f -> s < e <= length a ->
  length (step f a (s, e)) = length a /\ (forall k v, nthq a k = Some v -> nthq (step f a (s, e)) k = Some v).
Proof.
  intros F B. unfold step. cbn [fst snd]. destruct (F s (slice a s e)) as [L K]. rewrite slice_length in L by lia.
  assert (R : s + length (f s (slice a s e)) <= length a) by (rewrite L; lia).
  split; [now apply Gaps.set_range_length|]. intros k v V. rewrite Gaps.set_range_nth by easy.
  destruct (Nat.leb_spec s k) as [A|A]; [|exact V]. destruct (Nat.ltb_spec k (s + length (f s (slice a s e)))) as [C|C]; [|exact V]. cbn [andb].
  rewrite L in C. assert (X : valid (slice a s e) (k - s) v).
  { apply Gaps.valid_nthq. rewrite slice_length by lia. split; [lia|]. rewrite slice_nth by lia. now replace (s + (k - s)) with k by lia. }
  apply K in X. now apply Gaps.valid_nthq in X.
Qed.
Lemma fold_keeps f a ws : interpolator f -> (forall s e, In (s, e) ws -> s < e <= length a) ->
  length (fold_left (step f) ws a) = length a /\ (forall k v, nthq a k = Some v -> nthq (fold_left (step f) ws a) k = Some v).
Proof.
  intros F. revert a. induction ws as [|[s e] ws IH]; intros a B; [auto|]. cbn [fold_left].
  destruct (step_keeps f a s e F (B s e (or_introl eq_refl))) as [L K].
  destruct (IH (step f a (s, e))) as [L' K'].
  { intros s' e' I. rewrite L. apply B. now right. }
  split; [congruence|]. intros k v V. apply K', K, V.
Qed.
Lemma bads_length (a : series) : length (map (fun x => negb (is_some x)) a) = length a.
Proof. apply map_length. Qed.
Lemma bads_nth a k : missing a k -> nth_error (map (fun x => negb (is_some x)) a) k = Some true.
Proof. intros H. rewrite nth_error_map. unfold missing in H. now rewrite H. Qed.
Definition wins npt (a : series) := windows npt (map (fun x => negb (is_some x)) a) 0 None.
Lemma wins_in npt a s e : In (s, e) (wins npt a) -> s < e <= length a.
Proof. intros H. apply windows_in in H; [|discriminate]. now rewrite bads_length in H. Qed.
Lemma interp_nan_keeps f npt a : interpolator f -> length (interp_nan f npt a) = length a /\
  forall k v, valid a k v -> valid (interp_nan f npt a) k v.
Proof.
  intros F. unfold interp_nan. rewrite loop_windows. fold (wins npt a). destruct (fold_keeps f a (wins npt a) F (wins_in npt a)) as [L K].
  split; [exact L|]. intros k v V. apply Gaps.valid_nthq in V as [H V]. apply Gaps.valid_nthq. split; [now rewrite L|]. now apply K.
Qed.

(** ** mask *)
Lemma mask_length m : forall u, length (apply_mask m u) = length u.
Proof. induction m as [|b m IH]; intros [|x u]; cbn [apply_mask length]; [easy..|]. now rewrite IH. Qed.
Lemma mask_nth m : forall u k, nth_error (apply_mask m u) k =
  match nth_error m k with Some true => match nth_error u k with Some _ => Some None | None => None end | _ => nth_error u k end.
Proof.
  induction m as [|b m IH]; intros [|x u] [|k]; cbn [apply_mask nth_error]; try reflexivity; try apply IH; try (now destruct b).
  now destruct (nth_error m k) as [[|]|].
Qed.
Lemma mask_valid m u k v : valid (apply_mask m u) k v <-> valid u k v /\ ~ flagged m k.
Proof.
  unfold valid, flagged. rewrite mask_nth. destruct (nth_error m k) as [[|]|].
  - destruct (nth_error u k); split; intros H; try discriminate; destruct H as [_ H]; now elim H.
  - split; [intros H; split; [exact H|discriminate]|tauto].
  - split; [intros H; split; [exact H|discriminate]|tauto].
Qed.
Lemma mask_missing m u k : missing (apply_mask m u) k <-> k < length u /\ (missing u k \/ flagged m k).
Proof.
  unfold missing, flagged. rewrite mask_nth. split.
  - intros H. split; [rewrite <- (mask_length m u); apply nth_error_Some; rewrite mask_nth; congruence|].
    destruct (nth_error m k) as [[|]|]; auto.
  - intros [L H]. destruct (nth_error u k) eqn:E; [|apply nth_error_None in E; lia]. destruct (nth_error m k) as [[|]|]; [easy| |]; destruct H as [H|H]; congruence.
Qed.

(** ** neighbours *)
Lemma left_dec a k : k <= length a -> (exists i x, left_nb a k i x) \/ none_before a k.
Proof.
  induction k as [|k IH]; intros H; [right; intros m Hm; lia|]. destruct (nthq a k) as [v|] eqn:E.
  - left. exists k, v. split; [lia|]. split; [apply Gaps.valid_nthq; split; [lia|exact E]|]. intros m Hm. lia.
  - assert (M : missing a k) by (apply Gaps.missing_nthq; split; [lia|exact E]).
    destruct IH as [(i & x & A & B & C)|N]; [lia| |].
    + left. exists i, x. split; [lia|]. split; [exact B|]. intros m Hm. destruct (Nat.eq_dec m k); [now subst|apply C; lia].
    + right. intros m Hm. destruct (Nat.eq_dec m k); [now subst|apply N; lia].
Qed.
Lemma right_dec a k : (exists j y, right_nb a k j y) \/ none_after a k.
Proof.
  assert (G : forall d, (exists j y, right_nb a k j y) \/ forall m, k < m <= k + d -> m < length a -> missing a m).
  { induction d as [|d [IH|IH]]; [right; intros; lia|now left|]. destruct (le_lt_dec (length a) (k + S d)) as [L|L].
    - right. intros m Hm Hl. apply IH; lia.
    - destruct (nthq a (k + S d)) as [v|] eqn:E.
      + left. exists (k + S d), v. split; [lia|]. split; [apply Gaps.valid_nthq; auto|]. intros m Hm. apply IH; lia.
      + right. intros m Hm Hl. destruct (Nat.eq_dec m (k + S d)) as [->|]; [apply Gaps.missing_nthq; auto|apply IH; lia]. }
  destruct (G (length a)) as [H|H]; [now left|]. right. intros m Hm. apply H; lia.
Qed.

Definition T (t : list Q) (a : series) := interpgaps t None false a.
Lemma T_fillw t a : T t a = Gaps.fillw (line_time t) None false a. Proof. reflexivity. Qed.
Lemma T_length t a : length (T t a) = length a.
Proof. rewrite T_fillw. apply Gaps.fillw_length. Qed.
Lemma T_keep t a k v : nthq a k = Some v -> nthq (T t a) k = Some v.
Proof. rewrite T_fillw. apply Gaps.fillw_keep. Qed.
Lemma T_inner t a k i j x y : missing a k -> left_nb a k i x -> right_nb a k j y -> nthq (T t a) k = Some (line_time t i j k x y).
Proof. intros. rewrite T_fillw. apply Gaps.valid_nthq. now apply Gaps.fillw_inner. Qed.
Lemma T_ends t a k : missing a k -> none_before a k \/ none_after a k -> nthq (T t a) k = None.
Proof. intros. rewrite T_fillw. apply Gaps.missing_nthq. now apply Gaps.fillw_ends_noextrap. Qed.

Definition bound_l (a : series) s := s = 0 \/ nthq a s <> None.
Definition bound_r (a : series) e := e = length a \/ nthq a (e - 1) <> None.
Lemma slice_missing a s e k : e <= length a -> k < e - s -> missing (slice a s e) k <-> missing a (s + k).
Proof. intros H K. rewrite !Gaps.missing_nthq, slice_length, slice_nth by easy. intuition lia. Qed.
Lemma slice_valid a s e k v : e <= length a -> k < e - s -> valid (slice a s e) k v <-> valid a (s + k) v.
Proof. intros H K. rewrite !Gaps.valid_nthq, slice_length, slice_nth by easy. intuition lia. Qed.
Lemma T_local t a s e k : s < e <= length a -> bound_l a s -> bound_r a e -> k < e - s ->
  nthq (T (skipn s t) (slice a s e)) k = nthq (T t a) (s + k).
Proof.
  intros B Bl Br K. destruct (nthq a (s + k)) as [v|] eqn:E.
  - rewrite (T_keep t a _ v E). apply T_keep. now rewrite slice_nth.
  - assert (Hm : missing a (s + k)) by (apply Gaps.missing_nthq; split; [lia|exact E]).
    assert (Hw : missing (slice a s e) k) by now apply slice_missing.
    assert (LW : length (slice a s e) = e - s) by (apply slice_length; lia).
    destruct (left_dec (slice a s e) k) as [(i & x & A1 & A2 & A3)|NB]; [lia| |].
    + destruct (right_dec (slice a s e) k) as [(j & y & C1 & C2 & C3)|NA].
      * assert (j < e - s) by (apply Gaps.valid_nthq in C2; lia).
        rewrite (T_inner (skipn s t) (slice a s e) k i j x y Hw); [|now split|now split].
        rewrite (T_inner t a (s + k) (s + i) (s + j) x y Hm).
        -- f_equal. unfold line_time. now rewrite !Gaps.nth_skipn_add.
        -- split; [lia|]. split; [apply slice_valid in A2; [exact A2|lia|lia]|]. intros m M. replace m with (s + (m - s)) by lia. apply (slice_missing a s e); [lia|lia|]. apply A3. lia.
        -- split; [lia|]. split; [apply slice_valid in C2; [exact C2|lia|lia]|]. intros m M. replace m with (s + (m - s)) by lia. apply (slice_missing a s e); [lia|lia|]. apply C3. lia.
      * rewrite (T_ends _ _ _ Hw (or_intror NA)). symmetry. apply T_ends; [exact Hm|]. right.
        assert (e = length a).
        { destruct Br as [|Br]; [easy|]. exfalso. destruct (Nat.eq_dec (s + k) (e - 1)) as [Q|Q]; [congruence|].
          specialize (NA (e - 1 - s) ltac:(lia)). apply slice_missing in NA; [|lia|lia]. apply Gaps.missing_nthq in NA.
          replace (s + (e - 1 - s)) with (e - 1) in NA by lia. tauto. }
        intros m M. replace m with (s + (m - s)) by lia. apply (slice_missing a s e); [lia|lia|]. apply NA. lia.
    + rewrite (T_ends _ _ _ Hw (or_introl NB)). symmetry. apply T_ends; [exact Hm|]. left.
      assert (s = 0).
      { destruct Bl as [|Bl]; [easy|]. exfalso. destruct k as [|k]; [now rewrite Nat.add_0_r in E|].
        specialize (NB 0 ltac:(lia)). apply slice_missing in NB; [|lia|lia]. apply Gaps.missing_nthq in NB. rewrite Nat.add_0_r in NB. tauto. }
      subst s. intros m M. apply (slice_missing a 0 e); [lia|lia|]. apply NB. lia.
Qed.

(** ** the limit *)
Lemma mb_spec a l k : missing_before a l k = true <-> l <= k /\ forall m, k - l <= m <= k -> nthq a m = None.
Proof.
  unfold missing_before. rewrite andb_true_iff, Nat.leb_le, forallb_forall. split; intros [H F]; split; try exact H.
  - intros m M. specialize (F (k - m)). rewrite in_seq in F. specialize (F ltac:(lia)). replace (k - (k - m)) with m in F by lia. now destruct (nthq a m).
  - intros x X. apply in_seq in X. rewrite F by lia. reflexivity.
Qed.
Lemma mb_local a s e l k : s < e <= length a -> bound_l a s -> k < e - s ->
  missing_before (slice a s e) l k = missing_before a l (s + k).
Proof.
  intros B Bl K. apply eq_true_iff_eq. rewrite !mb_spec. split; intros [H F].
  - split; [lia|]. intros m M. replace m with (s + (m - s)) by lia. rewrite <- (slice_nth a s e) by lia. apply F. lia.
  - destruct (le_lt_dec l k) as [L|L].
    + split; [exact L|]. intros m M. rewrite slice_nth by lia. apply F. lia.
    + exfalso. destruct Bl as [->|Bl]; [lia|]. apply Bl, F. lia.
Qed.
Lemma xr_length t limit s w : length (xr_linear t limit s w) = length w.
Proof.
  unfold xr_linear. destruct limit; [now rewrite map_length, seq_length|]. apply T_length.
Qed.
Lemma xr_nth t l s w k : k < length w -> nthq (xr_linear t (Some l) s w) k = if missing_before w l k then None else nthq (T (skipn s t) w) k.
Proof.
  intros H. unfold xr_linear, nthq at 1. rewrite (nth_indep _ _ ((fun k => if missing_before w l k then None else nthq (T (skipn s t) w) k) 0)) by (rewrite map_length, seq_length; exact H).
  rewrite (map_nth (fun k => if missing_before w l k then None else nthq (T (skipn s t) w) k)). now rewrite seq_nth.
Qed.
Lemma xr_local t limit a s e k : s < e <= length a -> bound_l a s -> bound_r a e -> k < e - s ->
  nthq (xr_linear t limit s (slice a s e)) k = nthq (xr_linear t limit 0 a) (s + k).
Proof.
  intros B Bl Br K. destruct limit as [l|].
  - rewrite !xr_nth; [|lia|rewrite slice_length; lia]. rewrite mb_local by easy. destruct (missing_before a l (s + k)); [reflexivity|]. now apply T_local.
  - now apply T_local.
Qed.
Lemma xr_keep t limit s w k v : nthq w k = Some v -> nthq (xr_linear t limit s w) k = Some v.
Proof.
  intros V. assert (L : k < length w). { destruct (le_lt_dec (length w) k) as [G|G]; [rewrite Gaps.nthq_over in V by easy; discriminate|exact G]. }
  destruct limit as [l|]; [|now apply T_keep]. rewrite xr_nth by easy.
  destruct (missing_before w l k) eqn:E; [|now apply T_keep]. apply mb_spec in E as [_ E]. rewrite (E k) in V; [discriminate|lia].
Qed.
Lemma xr_interpolator t limit : interpolator (xr_linear t limit).
Proof.
  intros s w. split; [apply xr_length|]. intros k v V. apply Gaps.valid_nthq in V as [L V]. apply Gaps.valid_nthq. split; [now rewrite xr_length|]. now apply xr_keep.
Qed.

Lemma nthq_ext (a b : series) : length a = length b -> (forall k, k < length a -> nthq a k = nthq b k) -> a = b.
Proof. intros L H. apply (nth_ext a b None None L). exact H. Qed.

(** ** local interpolation: windows give the same as the whole series *)
Section Local.
Variables (f : nat -> series -> series) (a : series) (npt : nat).
Hypothesis npt1 : 1 <= npt.
Hypothesis flen : forall s w, length (f s w) = length w.
Hypothesis fkeep : forall k v, nthq a k = Some v -> nthq (f 0 a) k = Some v.
Hypothesis flocal : forall s e k, s < e <= length a -> bound_l a s -> bound_r a e -> k < e - s ->
  nthq (f s (slice a s e)) k = nthq (f 0 a) (s + k).
Hypothesis ftail : forall k, S k = length a -> nthq a k = None -> nthq (f 0 a) k = None.

Definition upto (d : nat) (da : series) : Prop := length da = length a /\ forall k, nthq da k = if k <? d then nthq (f 0 a) k else nthq a k.
Lemma good_before d d' da : d <= d' -> (forall m, d <= m < d' -> nthq a m <> None) -> upto d da -> upto d' da.
Proof.
  intros L G [A B]. split; [exact A|]. intros k. rewrite B. destruct (Nat.ltb_spec k d); destruct (Nat.ltb_spec k d'); try reflexivity; [lia|].
  specialize (G k ltac:(lia)). destruct (nthq a k) as [v|] eqn:E; [|easy]. symmetry. now apply fkeep.
Qed.
Lemma good_after d d' da : d' <= d -> (forall m, d' <= m < d -> nthq a m <> None) -> upto d da -> upto d' da.
Proof.
  intros L G [A B]. split; [exact A|]. intros k. rewrite B. destruct (Nat.ltb_spec k d); destruct (Nat.ltb_spec k d'); try reflexivity; [|lia].
  specialize (G k ltac:(lia)). destruct (nthq a k) as [v|] eqn:E; [|easy]. now apply fkeep.
Qed.
Lemma upto_step da s e : s < e <= length a -> bound_l a s -> bound_r a e -> upto s da ->
  upto e (set_range da s (f s (slice da s e))).
Proof.
  intros B Bl Br [L U].
  assert (SE : slice da s e = slice a s e).
  { apply nthq_ext; [rewrite !slice_length; lia|]. intros k K. rewrite slice_length in K by lia. rewrite !slice_nth by lia. rewrite U. destruct (Nat.ltb_spec (s + k) s); [lia|reflexivity]. }
  rewrite SE. assert (LF : length (f s (slice a s e)) = e - s) by (rewrite flen, slice_length; lia).
  split; [rewrite Gaps.set_range_length; [exact L|lia]|]. intros k. rewrite Gaps.set_range_nth by lia. rewrite LF, U.
  destruct (Nat.leb_spec s k); destruct (Nat.ltb_spec k (s + (e - s))); destruct (Nat.ltb_spec k s); destruct (Nat.ltb_spec k e); cbn [andb]; try lia; try reflexivity.
  rewrite flocal by (easy || lia). f_equal. lia.
Qed.
Lemma local_loop bds : forall pos st da,
  pos + length bds = length a -> (forall q, q < length bds -> nth_error bds q = Some (negb (is_some (nthq a (pos + q))))) ->
  match st with
  | None => upto pos da /\ forall m, pos - npt <= m < pos -> nthq a m <> None
  | Some (s, nt) => upto s da /\ s < pos /\ bound_l a s /\ nt < npt /\ (forall m, pos - nt <= m < pos -> nthq a m <> None)
                    /\ (bds = [] -> exists p, S p = pos /\ nthq a p = None /\ forall m, s <= m < p -> nthq a m <> None)
  end ->
  upto (length a) (interp_loop f npt bds pos st da).
Proof.
  induction bds as [|b bds IH]; intros pos st da L N I; cbn [length] in L.
  - cbn [interp_loop]. rewrite Nat.add_0_r in L. destruct st as [[s nt]|].
    + destruct I as ([A U] & S0 & _ & _ & _ & P). destruct (P eq_refl) as (p & P1 & P2 & P3).
      split; [exact A|]. intros k. rewrite U.
      destruct (Nat.ltb_spec k s); destruct (Nat.ltb_spec k (length a)); try reflexivity; [lia|].
      destruct (Nat.eq_dec k p) as [->|]; [rewrite P2; symmetry; apply ftail; [lia|exact P2]|].
      specialize (P3 k ltac:(lia)). destruct (nthq a k) as [v|] eqn:E; [|easy]. symmetry. now apply fkeep.
    + rewrite <- L. apply I.
  - assert (N' : forall q, q < length bds -> nth_error bds q = Some (negb (is_some (nthq a (S pos + q))))).
    { intros q Q. specialize (N (S q) ltac:(cbn; lia)). cbn [nth_error] in N. rewrite N. do 3 f_equal. f_equal. lia. }
    assert (B : b = negb (is_some (nthq a pos))).
    { specialize (N 0 ltac:(cbn; lia)). cbn [nth_error] in N. rewrite Nat.add_0_r in N. congruence. }
    assert (L' : S pos + length bds = length a) by lia.
    cbn [interp_loop]. destruct st as [[s nt]|].
    + destruct I as (U & S0 & Bl & NT & G & _). cbv zeta. set (nt' := if b then 0 else S nt) in *.
      assert (G' : forall m, S pos - nt' <= m < S pos -> nthq a m <> None).
      { intros m M. subst nt'. destruct b; [lia|]. destruct (Nat.eq_dec m pos) as [->|]; [|apply G; lia]. intros E. rewrite E in B. discriminate. }
      destruct (Nat.eqb_spec nt' npt) as [E|E]; cbn [orb].
      * apply IH; [exact L'|exact N'|]. split; [|rewrite <- E; exact G'].
        apply upto_step; [lia|exact Bl| |exact U]. right. replace (S pos - 1) with pos by lia. apply G'. lia.
      * destruct bds as [|b' bds].
        -- cbn [interp_loop]. replace (length a) with (S pos) at 1 by (cbn in L'; lia).
           apply upto_step; [lia|exact Bl|left; cbn in L'; lia|exact U].
        -- apply IH; [exact L'|exact N'|]. repeat split; try assumption; [apply U|apply U|lia|subst nt'; destruct b; lia|discriminate].
    + destruct I as (U & G). destruct b.
      * apply IH; [exact L'|exact N'|].
        assert (E : nthq a pos = None) by (destruct (nthq a pos); [discriminate|reflexivity]).
        split; [apply (good_after pos); [lia|exact G|exact U]|]. split; [lia|].
        split; [destruct (Nat.eq_dec (pos - npt) 0) as [Z|Z]; [now left|]; right; apply G; lia|]. split; [lia|].
        split; [intros m M; lia|]. intros _. exists pos. split; [reflexivity|]. split; [exact E|exact G].
      * apply IH; [exact L'|exact N'|].
        assert (E : nthq a pos <> None) by (intros E; rewrite E in B; discriminate).
        split; [|intros m M; destruct (Nat.eq_dec m pos) as [->|]; [exact E|apply G; lia]].
        apply (good_before pos); [lia| |exact U]. intros m M. replace m with pos by lia. exact E.
Qed.
End Local.

Lemma interp_nan_linear t limit npt a : 1 <= npt -> interp_nan (xr_linear t limit) npt a = xr_linear t limit 0 a.
Proof.
  intros H. assert (G : upto (xr_linear t limit) a (length a) (interp_nan (xr_linear t limit) npt a)).
  { unfold interp_nan. apply (local_loop _ a npt H).
    - apply xr_length.
    - apply xr_keep.
    - apply xr_local.
    - intros k L N. assert (M : missing a k) by (apply Gaps.missing_nthq; split; [lia|exact N]).
      assert (E : nthq (T (skipn 0 t) a) k = None) by (apply T_ends; [exact M|]; right; intros m Hm; lia).
      destruct limit as [l|]; [|exact E]. rewrite xr_nth by lia. now destruct (missing_before a l k).
    - now rewrite bads_length.
    - rewrite bads_length. intros q Q. rewrite nth_error_map, (nth_error_nth' a None Q). reflexivity.
    - split; [|intros m M; lia]. split; [reflexivity|]. intros k. reflexivity. }
  destruct G as [L G]. apply nthq_ext; [now rewrite L, xr_length|]. intros k K. rewrite G. destruct (Nat.ltb_spec k (length a)); [reflexivity|lia].
Qed.

(** ** masked data *)
Lemma nth_error_ext {A} (a : list A) : forall b, (forall k, nth_error a k = nth_error b k) -> a = b.
Proof.
  induction a as [|x a IH]; intros [|y b] H; [reflexivity|specialize (H 0); discriminate|specialize (H 0); discriminate|].
  f_equal; [specialize (H 0); cbn in H; congruence|]. apply IH. intros k. exact (H (S k)).
Qed.
Lemma mask_masked m u : masked m u (apply_mask m u).
Proof.
  split; [apply mask_length|]. intros k K. rewrite mask_nth. unfold flagged. destruct (nth_error u k) eqn:E; [|apply nth_error_None in E; lia].
  destruct (nth_error m k) as [[|]|]; split; intros H; try reflexivity; try discriminate; now elim H.
Qed.
Lemma masked_unique {A} m (u a b : list (option A)) : masked m u a -> masked m u b -> a = b.
Proof.
  intros [L1 H1] [L2 H2]. apply nth_error_ext. intros k. destruct (le_lt_dec (length u) k) as [K|K].
  - rewrite !(proj2 (nth_error_None _ _)) by lia. reflexivity.
  - destruct (H1 k K) as [A1 B1]. destruct (H2 k K) as [A2 B2]. unfold flagged in *. destruct (nth_error m k) as [[|]|] eqn:E.
    + now rewrite A1, A2.
    + now rewrite B1, B2.
    + now rewrite B1, B2.
Qed.
Lemma masked_eq m u a : masked m u a -> apply_mask m u = a.
Proof. intros H. apply (masked_unique m u); [apply mask_masked|exact H]. Qed.

Lemma clean_keeps f npt m u : interpolator f -> length (clean_fill f npt m u) = length u /\
  forall k v, valid u k v -> ~ flagged m k -> valid (clean_fill f npt m u) k v.
Proof.
  intros F. unfold clean_fill. destruct (interp_nan_keeps f npt (apply_mask m u) F) as [L K].
  split; [now rewrite L, mask_length|]. intros k v V N. apply K. apply mask_valid. auto.
Qed.

Lemma fold_fills f npt a ws k s e : interpolator f -> fills f npt (length a) -> (forall s e, In (s, e) ws -> s < e <= length a) ->
  In (s, e) ws -> k < length a -> s <= k < e -> (s = 0 \/ npt <= k - s) -> (e = length a \/ k + npt < e) ->
  exists v, nthq (fold_left (step f) ws a) k = Some v.
Proof.
  intros F FF B I K R C1 C2. apply in_split in I as (l1 & l2 & ->). rewrite fold_left_app. cbn [fold_left].
  set (a1 := fold_left (step f) l1 a).
  assert (A1 : length a1 = length a). { apply fold_keeps; [exact F|]. intros. apply B, in_or_app. now left. }
  assert (Bse : s < e <= length a1) by (rewrite A1; apply B, in_or_app; right; now left).
  destruct (step_keeps f a1 s e F Bse) as [SL SK].
  assert (V : exists v, nthq (step f a1 (s, e)) k = Some v).
  { destruct (nthq a1 k) as [v|] eqn:E; [exists v; now apply SK|].
    assert (M : missing (slice a1 s e) (k - s)).
    { apply slice_missing; [lia|lia|]. apply Gaps.missing_nthq. replace (s + (k - s)) with k by lia. split; [lia|exact E]. }
    rewrite <- A1 in FF.
    destruct (FF s (slice a1 s e) (k - s) M C1) as (v & V); [rewrite slice_length by lia; lia|].
    exists v. unfold step. cbn [fst snd]. destruct (F s (slice a1 s e)) as [FL _]. rewrite slice_length in FL by lia.
    rewrite Gaps.set_range_nth by lia. destruct (Nat.leb_spec s k); [|lia]. destruct (Nat.ltb_spec k (s + length (f s (slice a1 s e)))); [|lia].
    cbn [andb]. now apply Gaps.valid_nthq in V. }
  destruct V as (v & V). exists v. apply fold_keeps; [exact F| |exact V]. intros s' e' I. rewrite SL, A1. apply B, in_or_app. right. now right.
Qed.
Lemma interp_nan_fills f npt a k : interpolator f -> fills f npt (length a) -> missing a k -> S k < length a -> exists v, valid (interp_nan f npt a) k v.
Proof.
  intros F FF M K. destruct (cover npt (map (fun x => negb (is_some x)) a) 0 None k) as (s & e & I & A & C).
  - discriminate.
  - now apply bads_nth.
  - now rewrite bads_length.
  - rewrite bads_length in C. cbn [plus] in *. fold (wins npt a) in I. pose proof (wins_in _ _ _ _ I) as B.
    assert (R : s <= k < e) by (destruct C as [C|C]; lia).
    destruct (fold_fills f npt a (wins npt a) k s e F FF (wins_in npt a) I ltac:(lia) R ltac:(lia) C) as (v & V).
    exists v. apply Gaps.valid_nthq. split; [|unfold interp_nan; now rewrite loop_windows].
    destruct (interp_nan_keeps f npt a F) as [L _]. rewrite L. lia.
Qed.
Lemma interp_nan_fills_last f npt a k p : interpolator f -> (forall s w k, missing w k -> exists v, valid (f s w) k v) -> missing a k -> S k = length a ->
  missing a p -> p < k <= p + npt -> exists v, valid (interp_nan f npt a) k v.
Proof.
  intros F FF M K P R. destruct (cover_last npt (map (fun x => negb (is_some x)) a) 0 None p) as (s & A & I).
  - now apply bads_nth.
  - rewrite bads_length. lia.
  - rewrite bads_length. lia.
  - discriminate.
  - rewrite bads_length in *. cbn [plus] in *. fold (wins npt a) in I.
    destruct (fold_fills f 0 a (wins npt a) k s (length a) F) as (v & V); [intros s' w' k' M' _ _; now apply (FF s' w')|apply wins_in|exact I|lia|lia|lia|lia|].
    exists v. apply Gaps.valid_nthq. split; [|unfold interp_nan; now rewrite loop_windows].
    destruct (interp_nan_keeps f npt a F) as [L _]. rewrite L. lia.
Qed.

(** ** linear with a limit *)
Lemma run_spec a k l : l < run_to a k <-> l <= k /\ k < length a /\ forall m, k - l <= m <= k -> nthq a m = None.
Proof.
  revert l. induction k as [|k IH]; intros l; cbn [run_to].
  - destruct (nth_error a 0) as [[v|]|] eqn:E.
    + split; [lia|]. intros (_ & H & F). specialize (F 0 ltac:(lia)). unfold nthq in F. apply nth_error_nth with (d := None) in E. congruence.
    + split; [|lia]. intros H. split; [lia|]. split; [apply nth_error_Some; congruence|]. intros m M. assert (m = 0) by lia. subst. unfold nthq. now apply nth_error_nth.
    + split; [lia|]. intros (_ & H & _). apply nth_error_None in E. lia.
  - destruct (nth_error a (S k)) as [[v|]|] eqn:E.
    + split; [lia|]. intros (_ & H & F). specialize (F (S k) ltac:(lia)). unfold nthq in F. apply nth_error_nth with (d := None) in E. congruence.
    + assert (Z : nthq a (S k) = None) by (unfold nthq; now apply nth_error_nth).
      assert (LK : S k < length a) by (apply nth_error_Some; congruence).
      destruct l as [|l].
      * split; [|lia]. intros _. split; [lia|]. split; [lia|]. intros m M. assert (m = S k) by lia. now subst.
      * split.
        -- intros H. destruct (proj1 (IH l)) as (A & B & C); [lia|]. split; [lia|]. split; [lia|]. intros m M. destruct (Nat.eq_dec m (S k)) as [->|]; [exact Z|apply C; lia].
        -- intros (A & B & C). assert (l < run_to a k); [|lia]. apply IH. split; [lia|]. split; [lia|]. intros m M. apply C. lia.
    + split; [lia|]. intros (_ & H & _). apply nth_error_None in E. lia.
Qed.
Lemma mb_run a l k : k < length a -> missing_before a l k = Nat.ltb l (run_to a k).
Proof. intros H. apply eq_true_iff_eq. rewrite mb_spec, Nat.ltb_lt, run_spec. tauto. Qed.
Lemma clean_linear t limit npt m u a : 1 <= npt -> masked m u a -> forall k, missing a k ->
  (forall i j x y, left_nb a k i x -> right_nb a k j y -> fits (run_to a k) limit -> valid (clean_fill (xr_linear t limit) npt m u) k (line_time t i j k x y)) /\
  (none_before a k \/ none_after a k \/ ~ fits (run_to a k) limit -> missing (clean_fill (xr_linear t limit) npt m u) k).
Proof.
  intros H Ma k M. unfold clean_fill. rewrite (masked_eq _ _ _ Ma), interp_nan_linear by easy.
  pose proof M as M'. apply Gaps.missing_nthq in M' as [L _].
  split.
  - intros i j x y Ll Rr F. apply Gaps.valid_nthq. rewrite xr_length. split; [exact L|].
    assert (E : nthq (T t a) k = Some (line_time t i j k x y)) by now apply T_inner.
    destruct limit as [l|]; [|exact E]. rewrite xr_nth by easy. rewrite mb_run by easy. cbn [fits] in F.
    destruct (Nat.ltb_spec l (run_to a k)); [lia|exact E].
  - intros C. apply Gaps.missing_nthq. rewrite xr_length. split; [exact L|].
    assert (N : forall l, limit = Some l -> l < run_to a k -> nthq (xr_linear t limit 0 a) k = None).
    { intros l -> R. rewrite xr_nth by easy. rewrite mb_run by easy. apply Nat.ltb_lt in R. now rewrite R. }
    assert (E : none_before a k \/ none_after a k -> nthq (xr_linear t limit 0 a) k = None).
    { intros D. assert (E : nthq (T t a) k = None) by now apply T_ends. destruct limit as [l|]; [|exact E]. rewrite xr_nth by easy. now destruct (missing_before a l k). }
    destruct C as [C|[C|C]]; [auto|auto|]. destruct limit as [l|]; [apply (N l); [easy|cbn [fits] in C; lia]|now elim C].
Qed.
