From Coq Require Import ZArith QArith Reals List Bool Lia.
From Verif.Model Require Import Reshape Stats CleanAdv.
From Verif.Spec Require Import Stats CleanAdv.
From Verif.Proofs Require Gaps Reshape Stats CleanAdv.
Import ListNotations.
Close Scope R_scope.
Open Scope nat_scope.

Lemma fill_row_length r : length (fill_row r) = length r. Proof. apply map_length. Qed.
Lemma fill_row_nth r k : k < length r -> nth k (fill_row r) None = match nth k r None with Some x => Some x | None => nanmean r end.
Proof.
  intros H. unfold fill_row. set (g := fun x : option R => match x with Some _ => x | None => nanmean r end).
  rewrite (nth_indep (map g r) None (g None)) by (now rewrite map_length). rewrite (map_nth g). unfold g. now destruct (nth k r None).
Qed.
Lemma filled_chunks n : 1 <= n -> forall nb l, length l = nb * n ->
  length (concat (map fill_row (chunks n nb l))) = nb * n /\
  forall k, k < nb * n -> nth k (concat (map fill_row (chunks n nb l))) None =
    match nth k l None with Some x => Some x | None => nanmean (firstn n (skipn (k / n * n) l)) end.
Proof.
  intros N. induction nb as [|nb IH]; intros l L; [split; [reflexivity|intros; lia]|].
  cbn [chunks map concat]. destruct (IH (skipn n l)) as [A B]; [rewrite skipn_length; lia|].
  assert (LF : length (firstn n l) = n) by (rewrite firstn_length; lia).
  split; [rewrite app_length, A, fill_row_length, LF; lia|]. intros k K. destruct (le_lt_dec n k) as [G|G].
  - rewrite app_nth2; rewrite fill_row_length, LF; [|exact G]. rewrite B by lia.
    rewrite Gaps.nth_skipn_add. replace (n + (k - n)) with k by lia. destruct (nth k l None); [reflexivity|].
    replace (k / n) with (S ((k - n) / n)).
    + rewrite Nat.mul_succ_l. replace (skipn ((k - n) / n * n) (skipn n l)) with (skipn ((k - n) / n * n + n) l); [reflexivity|].
      clear. generalize ((k - n) / n * n). intros m. revert l. induction n as [|n IH]; intros l; [now rewrite Nat.add_0_r|].
      replace (m + S n) with (S (m + n)) by lia. destruct l; [now rewrite !skipn_nil|]. cbn [skipn]. apply IH.
    + replace k with (k - n + 1 * n) at 2 by lia. rewrite Nat.div_add by lia. lia.
  - rewrite app_nth1 by (rewrite fill_row_length, LF; exact G). rewrite fill_row_nth by lia. rewrite Gaps.nth_firstn_lt by easy.
    destruct (nth k l None); [reflexivity|]. now rewrite Nat.div_small.
Qed.
Lemma chunks_snoc {A} n : forall nb (l x : list A), length l = nb * n -> length x = n -> chunks n (S nb) (l ++ x) = chunks n nb l ++ [x].
Proof.
  induction nb as [|nb IH]; intros l x L X.
  - destruct l; [|discriminate]. cbn [app chunks]. rewrite <- X, firstn_all. reflexivity.
  - change (chunks n (S nb) l) with (firstn n l :: chunks n nb (skipn n l)). cbn [app]. rewrite <- IH by (try rewrite skipn_length; lia).
    change (chunks n (S (S nb)) (l ++ x)) with (firstn n (l ++ x) :: chunks n (S nb) (skipn n (l ++ x))).
    rewrite firstn_app, skipn_app. replace (n - length l) with 0 by lia. cbn [firstn skipn]. now rewrite app_nil_r.
Qed.
Lemma vals_app a b : vals (a ++ b) = vals a ++ vals b.
Proof. induction a as [|[x|] a IH]; cbn [app vals]; [easy| |]; now rewrite IH. Qed.
Lemma vals_none m : vals (repeat None m) = [].
Proof. induction m; [reflexivity|exact IHm]. Qed.
Lemma firstn_repeat {A} (x : A) k : forall m, firstn k (repeat x m) = repeat x (Nat.min k m).
Proof. induction k as [|k IH]; intros [|m]; cbn [firstn repeat Nat.min]; [reflexivity..|]. now rewrite IH. Qed.
Lemma skipn_repeat {A} (x : A) k : forall m, skipn k (repeat x m) = repeat x (m - k).
Proof. induction k as [|k IH]; intros [|m]; cbn [skipn repeat Nat.sub]; [reflexivity..|]. apply IH. Qed.
Lemma mean_pad var ex s n : nanmean (firstn n (skipn s (var ++ repeat None ex))) = nanmean (firstn n (skipn s var)).
Proof.
  unfold nanmean. replace (vals (firstn n (skipn s (var ++ repeat None ex)))) with (vals (firstn n (skipn s var))); [reflexivity|].
  rewrite skipn_app, firstn_app, vals_app, skipn_repeat, firstn_repeat, vals_none. now rewrite app_nil_r.
Qed.

Lemma where_masked m : forall u, masked m u (where_not m u).
Proof.
  assert (L : forall m u, length (where_not m u) = length u) by (clear; induction m as [|b m IH]; intros [|x u]; cbn [where_not length]; [easy..|]; now rewrite IH).
  intros u. split; [apply L|]. revert u. induction m as [|b m IH]; intros [|x u] k K; cbn [length] in K; try lia.
  - unfold flagged. destruct k; split; intros H; try reflexivity; discriminate.
  - destruct k as [|k]; [|apply (IH u k); lia]. unfold flagged. cbn. destruct b; split; intros H; try reflexivity; [now elim H|discriminate].
Qed.

Lemma ensemble_mean m n u a : 1 <= n <= length u -> masked m u a ->
  exists out, fill_nan_ensemble_mean m n u = inr out /\ length out = length u /\
    forall k, k < length u -> nth k out None = match nth k a None with Some x => Some x | None => nanmean (samples a (k / n * n) n) end.
Proof.
  intros N Ma. unfold fill_nan_ensemble_mean.
  rewrite (CleanAdv.masked_unique m u (where_not m u) a (where_masked m u) Ma).
  destruct Ma as [La _]. unfold reshape. rewrite Reshape.binned_whole by lia. change (0 / 2) with 0. change ((0 + 1) / 2) with 0. rewrite Reshape.place_nil.
  set (nb := length a / n). pose proof (Nat.div_mod (length a) n ltac:(lia)) as DM. fold nb in DM.
  pose proof (Nat.mod_upper_bound (length a) n ltac:(lia)) as MB.
  assert (LF : length (firstn (nb * n) a) = nb * n) by (rewrite firstn_length; lia).
  cbv zeta. rewrite Reshape.chunks_len. destruct (length a - nb * n) as [|d] eqn:D.
  - rewrite firstn_all2 by lia. destruct (filled_chunks n ltac:(lia) nb a ltac:(lia)) as [A B].
    eexists. split; [reflexivity|]. split; [lia|]. intros k K. apply B. lia.
  - set (ex := n - S d). set (x := skipn (length a - S d) a ++ repeat None ex).
    assert (LX : length x = n) by (unfold x; rewrite app_length, skipn_length, repeat_length; lia).
    rewrite <- (chunks_snoc n nb (firstn (nb * n) a) x LF LX).
    assert (EP : firstn (nb * n) a ++ x = a ++ repeat None ex).
    { unfold x. rewrite app_assoc. f_equal. replace (length a - S d) with (nb * n) by lia. apply firstn_skipn. }
    rewrite EP. assert (LP : length (a ++ repeat None ex) = S nb * n) by (rewrite app_length, repeat_length; cbn; lia).
    destruct (filled_chunks n ltac:(lia) (S nb) _ LP) as [A B].
    eexists. split; [reflexivity|]. rewrite A. assert (E : S nb * n - ex = length a) by (rewrite <- LP, app_length, repeat_length; lia).
    rewrite E. split; [rewrite firstn_length, A; lia|]. intros k K. rewrite Gaps.nth_firstn_lt by lia. rewrite B by lia.
    rewrite app_nth1 by lia. unfold samples. now rewrite mean_pad.
Qed.
Lemma ensemble_mean_raises m n u : length u < n -> fill_nan_ensemble_mean m n u = inl BinTooLong.
Proof.
  intros H. unfold fill_nan_ensemble_mean. rewrite Reshape.reshape_too_short; [reflexivity|].
  destruct (where_masked m u) as [L _]. rewrite L, <- Zlt_Qlt. lia.
Qed.
