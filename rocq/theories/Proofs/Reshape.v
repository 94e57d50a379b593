From Coq Require Import ZArith QArith Qround List Bool Lia Psatz.
From Verif.Model Require Import Reshape.
From Verif.Spec Require Import Reshape.
Import ListNotations.
Open Scope nat_scope.

(** ** chunks *)
Lemma chunks_len {A} m nb : forall l : list A, length (chunks m nb l) = nb.
Proof. induction nb as [|nb IH]; intros l; cbn; [easy|]. now rewrite IH. Qed.
Lemma skipn_nth {A} n : forall (l : list A) k, nth_error (skipn n l) k = nth_error l (n + k).
Proof. induction n as [|n IH]; intros [|x l] k; [easy|easy|destruct k; easy|apply IH]. Qed.
Lemma firstn_nth {A} n : forall (l : list A) k, k < n -> nth_error (firstn n l) k = nth_error l k.
Proof. induction n as [|n IH]; intros [|x l] [|k] H; try easy; try lia. cbn [firstn nth_error]. apply IH. lia. Qed.
Lemma chunk_nth {A} m nb : forall (l : list A) i, i < nb -> nth_error (chunks m nb l) i = Some (firstn m (skipn (i * m) l)).
Proof.
  induction nb as [|nb IH]; intros l i H; [lia|]. destruct i as [|i]; [reflexivity|]. cbn [chunks nth_error].
  rewrite IH by lia. do 2 f_equal. clear.
  assert (G : forall a b (x : list A), skipn a (skipn b x) = skipn (b + a) x).
  { intros a b. induction b as [|b IHb]; intros [|y x]; [easy|easy|destruct a; easy|apply IHb]. }
  rewrite G. f_equal.
Qed.
Lemma chunk_cell {A} m nb (l : list A) i j : i < nb -> j < m -> cell (chunks m nb l) i j = nth_error l (i * m + j).
Proof. intros Hi Hj. unfold cell. rewrite chunk_nth by easy. rewrite firstn_nth by easy. apply skipn_nth. Qed.
Lemma chunks_table {A} m nb (l : list A) : length l = nb * m -> table (chunks m nb l) nb m.
Proof.
  intros L. split; [apply chunks_len|]. intros r Hr. apply In_nth_error in Hr as [i Hi].
  assert (i < nb). { rewrite <- (chunks_len m nb l). apply nth_error_Some. congruence. }
  rewrite chunk_nth in Hi by easy. injection Hi as <-. rewrite firstn_length, skipn_length.
  assert (S i * m <= nb * m) by (apply Nat.mul_le_mono_r; lia). cbn in H0. lia.
Qed.
Lemma chunks_concat {A} m nb : forall l : list A, length l = nb * m -> concat (chunks m nb l) = l.
Proof.
  induction nb as [|nb IH]; intros l L; cbn in *; [now destruct l|].
  rewrite IH by (rewrite skipn_length; lia). apply firstn_skipn.
Qed.

(** ** padding *)
Section Pad.
Context {A : Type} (zero : A).
Variables (p0 p1 n : nat).

Lemma pad_left_eq r r' (rows : list (list A)) : pad_left p0 n (r :: r' :: rows) =
  match pad_left p0 n (r' :: rows) with
  | _ :: rest' => r :: (firstn p0 (skipn n r) ++ skipn p0 r') :: rest'
  | [] => [r]
  end.
Proof. reflexivity. Qed.
Lemma pad_left_len (rows : list (list A)) : length (pad_left p0 n rows) = length rows.
Proof.
  induction rows as [|r [|r' rows] IH]; try reflexivity. rewrite pad_left_eq.
  destruct (pad_left p0 n (r' :: rows)); cbn [length] in *; lia.
Qed.
Lemma pad_left_cons r r' (rows : list (list A)) : exists h rest, pad_left p0 n (r' :: rows) = h :: rest /\
  pad_left p0 n (r :: r' :: rows) = r :: (firstn p0 (skipn n r) ++ skipn p0 r') :: rest.
Proof.
  pose proof (pad_left_len (r' :: rows)) as L. rewrite pad_left_eq.
  destruct (pad_left p0 n (r' :: rows)) as [|h rest]; [discriminate|].
  exists h, rest. split; reflexivity.
Qed.
Lemma pad_left_0 (rows : list (list A)) : nth_error (pad_left p0 n rows) 0 = nth_error rows 0.
Proof.
  destruct rows as [|r [|r' rows]]; try reflexivity.
  destruct (pad_left_cons r r' rows) as (h & rest & _ & ->). reflexivity.
Qed.
Lemma pad_left_S (rows : list (list A)) : forall i r r', nth_error rows i = Some r -> nth_error rows (S i) = Some r' ->
  nth_error (pad_left p0 n rows) (S i) = Some (firstn p0 (skipn n r) ++ skipn p0 r').
Proof.
  induction rows as [|a [|b rows] IH]; intros i r r' Hi Hi'; [destruct i; discriminate|destruct i; discriminate|].
  destruct (pad_left_cons a b rows) as (h & rest & E1 & E2). rewrite E2.
  destruct i as [|i].
  - cbn in Hi, Hi'. injection Hi as ->. injection Hi' as ->. reflexivity.
  - cbn [nth_error] in Hi, Hi' |- *. specialize (IH i r r' Hi Hi'). rewrite E1 in IH. exact IH.
Qed.
Lemma pad_right_len (rows : list (list A)) : length (pad_right p0 p1 n rows) = length rows.
Proof. induction rows as [|r [|r' rows] IH]; try reflexivity. cbn [pad_right length] in *. now rewrite IH. Qed.
Lemma pad_right_i (rows : list (list A)) : forall i r r', nth_error rows i = Some r -> nth_error rows (S i) = Some r' ->
  nth_error (pad_right p0 p1 n rows) i = Some (firstn (n + p0) r ++ firstn p1 (skipn p0 r')).
Proof.
  induction rows as [|a [|b rows] IH]; intros i r r' Hi Hi'; [destruct i; discriminate|destruct i; discriminate|].
  destruct i as [|i].
  - cbn in Hi, Hi'. injection Hi as ->. injection Hi' as ->. reflexivity.
  - cbn [nth_error] in Hi, Hi'. cbn [pad_right nth_error]. now apply IH.
Qed.
Lemma pad_right_last (rows : list (list A)) : nth_error (pad_right p0 p1 n rows) (length rows - 1) = nth_error rows (length rows - 1).
Proof.
  induction rows as [|a [|b rows] IH]; try reflexivity.
  replace (length (a :: b :: rows) - 1) with (S (length (b :: rows) - 1)) by (cbn; lia). exact IH.
Qed.

Lemma app_nth {B} (l m : list B) k : nth_error (l ++ m) k = if k <? length l then nth_error l k else nth_error m (k - length l).
Proof. destruct (Nat.ltb_spec k (length l)); [now apply nth_error_app1|now apply nth_error_app2]. Qed.
Lemma repeat_nth {B} (x : B) k c : c < k -> nth_error (repeat x k) c = Some x.
Proof. intros H. rewrite (nth_error_nth' _ x) by now rewrite repeat_length. now rewrite nth_repeat. Qed.
Lemma nth_error_eq {B} (d : B) l k : k < length l -> nth_error l k = Some (nth k l d).
Proof. intros. now apply nth_error_nth'. Qed.

(** the padded table *)
Theorem padded rows nb : table rows nb n -> p0 <= n -> p1 <= n ->
  let out := pad_right p0 p1 n (pad_left p0 n (map (place zero p0 p1) rows)) in
  table out nb (n + p0 + p1) /\
  forall i c, i < nb -> c < n + p0 + p1 ->
    cell out i c = Some (at_or zero (concat rows) (Z.of_nat (i * n) + Z.of_nat c - Z.of_nat p0)).
Proof.
  intros [T1 T2] H0 H1 out.
  set (Lr := pad_left p0 n (map (place zero p0 p1) rows)).
  assert (LL : length Lr = nb). { subst Lr. now rewrite pad_left_len, map_length. }
  assert (LO : length out = nb). { subst out. fold Lr. now rewrite pad_right_len. }
  (* rows of the original table *)
  assert (R : forall i, i < nb -> exists r, nth_error rows i = Some r /\ length r = n).
  { intros i Hi. destruct (nth_error rows i) as [r|] eqn:E; [|apply nth_error_None in E; lia].
    exists r. split; [easy|]. apply T2. now apply nth_error_In in E. }
  assert (CC : forall i r j, nth_error rows i = Some r -> j < n -> nth_error (concat rows) (i * n + j) = nth_error r j).
  { clear - T2. induction rows as [|a rows IH]; intros i r j Hi Hj; [destruct i; discriminate|].
    destruct i as [|i]; cbn [nth_error concat] in *.
    - injection Hi as ->. rewrite app_nth, (T2 r) by now left.
      cbn [Nat.mul Nat.add]. destruct (Nat.ltb_spec j n); [easy|lia].
    - rewrite app_nth, (T2 a) by now left. destruct (Nat.ltb_spec (S i * n + j) n); [cbn in *; lia|].
      replace (S i * n + j - n) with (i * n + j) by (cbn; lia). apply IH; auto. intros. apply T2. now right. }
  assert (CL : length (concat rows) = nb * n).
  { clear - T1 T2. revert nb T1. induction rows as [|a rows IH]; intros nb <-; [reflexivity|].
    cbn. rewrite app_length, (T2 a) by now left. rewrite (IH ltac:(intros; apply T2; now right) (length rows) eq_refl). reflexivity. }
  assert (Pl : forall i r, nth_error rows i = Some r -> nth_error (map (place zero p0 p1) rows) i = Some (place zero p0 p1 r)).
  { intros. now apply map_nth_error. }
  assert (Plen : forall r, length r = n -> length (place zero p0 p1 r) = n + p0 + p1).
  { intros r Hr. unfold place. rewrite !app_length, !repeat_length. lia. }
  assert (AT : forall i j r, nth_error rows i = Some r -> length r = n -> j < n ->
    nth_error r j = Some (at_or zero (concat rows) (Z.of_nat (i * n + j)))).
  { intros i j r Hi Hr Hj. rewrite <- (CC i r j Hi Hj). unfold at_or.
    destruct (Z.ltb_spec (Z.of_nat (i * n + j)) 0); [lia|]. rewrite Nat2Z.id. apply nth_error_nth'.
    assert (i < nb). { rewrite <- T1. apply nth_error_Some. congruence. }
    rewrite CL. assert (S i * n <= nb * n) by (apply Nat.mul_le_mono_r; lia). cbn in *. lia. }
  (* cells after the left padding *)
  assert (CLft : forall i r, i < nb -> nth_error rows i = Some r -> exists l, nth_error Lr i = Some l /\ length l = n + p0 + p1 /\
    (forall c, c < n + p0 -> nth_error l c = Some (at_or zero (concat rows) (Z.of_nat (i * n) + Z.of_nat c - Z.of_nat p0))) /\
    (forall c, n + p0 <= c < n + p0 + p1 -> nth_error l c = Some zero)).
  { intros i r Hi Hr. assert (Lr' : length r = n) by (apply T2; now apply nth_error_In in Hr).
    assert (Core : forall c, p0 <= c < n + p0 -> nth_error (place zero p0 p1 r) c = Some (at_or zero (concat rows) (Z.of_nat (i * n) + Z.of_nat c - Z.of_nat p0))).
    { intros c Hc. unfold place. rewrite app_nth, repeat_length. destruct (Nat.ltb_spec c p0); [lia|].
      rewrite app_nth, Lr'. destruct (Nat.ltb_spec (c - p0) n); [|lia]. rewrite (AT i (c - p0) r Hr Lr') by lia.
      do 2 f_equal. lia. }
    assert (Tail : forall c, n + p0 <= c < n + p0 + p1 -> nth_error (place zero p0 p1 r) c = Some zero).
    { intros c Hc. unfold place. rewrite app_nth, repeat_length. destruct (Nat.ltb_spec c p0); [lia|].
      rewrite app_nth, Lr'. destruct (Nat.ltb_spec (c - p0) n); [lia|]. apply repeat_nth. lia. }
    destruct i as [|i].
    - exists (place zero p0 p1 r). split; [subst Lr; rewrite pad_left_0; now apply Pl|]. split; [now apply Plen|].
      split; [|exact Tail]. intros c Hc. destruct (Nat.lt_ge_cases c p0) as [G|G]; [|apply Core; lia].
      unfold place. rewrite app_nth, repeat_length. destruct (Nat.ltb_spec c p0); [|lia]. rewrite repeat_nth by lia.
      f_equal. unfold at_or. destruct (Z.ltb_spec (Z.of_nat (0 * n) + Z.of_nat c - Z.of_nat p0) 0); [reflexivity|lia].
    - destruct (R i ltac:(lia)) as (r' & Hr' & Lr'').
      exists (firstn p0 (skipn n (place zero p0 p1 r')) ++ skipn p0 (place zero p0 p1 r)).
      assert (F : length (firstn p0 (skipn n (place zero p0 p1 r'))) = p0).
      { rewrite firstn_length, skipn_length, Plen by easy. lia. }
      split; [subst Lr; apply pad_left_S; now apply Pl|].
      split; [rewrite app_length, F, skipn_length, Plen by easy; lia|]. split.
      + intros c Hc. rewrite app_nth, F. destruct (Nat.ltb_spec c p0) as [G|G].
        * rewrite firstn_nth by lia. rewrite skipn_nth. unfold place. rewrite app_nth, repeat_length.
          destruct (Nat.ltb_spec (n + c) p0); [lia|]. rewrite app_nth, Lr''.
          destruct (Nat.ltb_spec (n + c - p0) n); [|lia]. rewrite (AT i (n + c - p0) r' Hr' Lr'') by lia. do 2 f_equal.
          cbn [Nat.mul]. lia.
        * rewrite skipn_nth. replace (p0 + (c - p0)) with c by lia. apply Core. lia.
      + intros c Hc. rewrite app_nth, F. destruct (Nat.ltb_spec c p0) as [G|G]; [lia|].
        rewrite skipn_nth. replace (p0 + (c - p0)) with c by lia. now apply Tail. }
  assert (Final : forall i, i < nb -> exists o, nth_error out i = Some o /\ length o = n + p0 + p1 /\
    forall c, c < n + p0 + p1 -> nth_error o c = Some (at_or zero (concat rows) (Z.of_nat (i * n) + Z.of_nat c - Z.of_nat p0))).
  { intros i Hi. destruct (R i Hi) as (r & Hr & Lr'). destruct (CLft i r Hi Hr) as (l & El & Ll & Cl & Tl).
    destruct (Nat.eq_dec i (nb - 1)) as [E|E].
    - exists l. split; [subst out i; fold Lr; rewrite <- LL, pad_right_last, LL; exact El|]. split; [easy|].
      intros c Hc. destruct (Nat.lt_ge_cases c (n + p0)) as [G|G]; [now apply Cl|]. rewrite Tl by lia. f_equal.
      unfold at_or. destruct (Z.ltb_spec (Z.of_nat (i * n) + Z.of_nat c - Z.of_nat p0) 0); [reflexivity|].
      symmetry. apply nth_overflow. rewrite CL. assert (nb * n = i * n + n) by (subst i; nia). lia.
    - destruct (R (S i) ltac:(lia)) as (r' & Hr' & Lr''). destruct (CLft (S i) r' ltac:(lia) Hr') as (l' & El' & Ll' & Cl' & Tl').
      exists (firstn (n + p0) l ++ firstn p1 (skipn p0 l')).
      assert (F : length (firstn (n + p0) l) = n + p0) by (rewrite firstn_length; lia).
      split; [subst out; fold Lr; now apply pad_right_i|].
      split; [rewrite app_length, F, firstn_length, skipn_length; lia|].
      intros c Hc. rewrite app_nth, F. destruct (Nat.ltb_spec c (n + p0)).
      + rewrite firstn_nth by lia. now apply Cl.
      + rewrite firstn_nth by lia. rewrite skipn_nth. rewrite Cl' by lia. do 2 f_equal. cbn [Nat.mul]. lia. }
  split.
  - split; [exact LO|]. intros o Ho. apply In_nth_error in Ho as [i Ei].
    assert (Hi : i < nb). { rewrite <- LO. apply nth_error_Some. congruence. }
    destruct (Final i Hi) as (o' & E' & L' & _). congruence.
  - intros i c Hi Hc. unfold cell. destruct (Final i Hi) as (o & -> & _ & G). now apply G.
Qed.
End Pad.

(** ** whole bins *)
Lemma int_of_Z n : int_of (inject_Z (Z.of_nat n)) = n.
Proof. unfold int_of. now rewrite Qfloor_Z, Nat2Z.id. Qed.
Lemma Qle_bool_Z a b : Qle_bool (inject_Z (Z.of_nat a)) (inject_Z (Z.of_nat b)) = (a <=? b).
Proof.
  destruct (Nat.leb_spec a b); [apply Qle_bool_iff; rewrite <- Zle_Qle; lia|].
  apply not_true_is_false. intros H'. apply Qle_bool_iff in H'. rewrite <- Zle_Qle in H'. lia.
Qed.

Lemma binned_whole {A} (arr : list A) n : 1 <= n <= length arr ->
  binned arr (inject_Z (Z.of_nat n)) = inr (chunks n (length arr / n) (firstn (length arr / n * n) arr)).
Proof.
  intros H. unfold binned. rewrite Qle_bool_Z, int_of_Z. destruct (Nat.leb_spec n (length arr)); [|lia].
  destruct n as [|n']; [lia|]. set (n := S n') in *.
  replace (Qeq_bool (inject_Z (Z.of_nat n)) (inject_Z (Z.of_nat n))) with true; [reflexivity|].
  symmetry. now apply Qeq_bool_iff.
Qed.

Lemma whole_len {A} (arr : list A) n : 1 <= n -> length (firstn (length arr / n * n) arr) = length arr / n * n.
Proof. intros H. rewrite firstn_length. pose proof (Nat.div_mod (length arr) n ltac:(lia)). lia. Qed.

Lemma place_nil {A} (zero : A) rows : map (place zero 0 0) rows = rows.
Proof. induction rows as [|r rows IH]; [easy|]. cbn [map]. rewrite IH. unfold place. cbn [repeat app]. now rewrite app_nil_r. Qed.

Theorem reshape_whole {A} (zero : A) arr n : 1 <= n <= length arr ->
  exists rows, reshape zero arr 0 (inject_Z (Z.of_nat n)) = inr rows /\
    table rows (length arr / n) n /\
    (forall i j, i < length arr / n -> j < n -> cell rows i j = nth_error arr (i * n + j)) /\
    exists lost, arr = concat rows ++ lost /\ length lost = length arr mod n.
Proof.
  intros H. unfold reshape. rewrite binned_whole by easy. cbn [Nat.div]. change (0 / 2) with 0. change ((0 + 1) / 2) with 0.
  rewrite place_nil. eexists. split; [reflexivity|].
  set (nb := length arr / n). pose proof (whole_len arr n ltac:(lia)) as WL. fold nb in WL.
  pose proof (Nat.div_mod (length arr) n ltac:(lia)) as DM. fold nb in DM.
  split; [now apply chunks_table|]. split.
  - intros i j Hi Hj. rewrite chunk_cell by easy. apply firstn_nth.
    assert (S i * n <= nb * n) by (apply Nat.mul_le_mono_r; lia). cbn in *. lia.
  - exists (skipn (nb * n) arr). rewrite chunks_concat by easy. split; [symmetry; apply firstn_skipn|].
    rewrite skipn_length. lia.
Qed.

Theorem reshape_too_short {A} (zero : A) arr n_pad q :
  (inject_Z (Z.of_nat (length arr)) < q)%Q -> reshape zero arr n_pad q = inl BinTooLong.
Proof.
  intros H. unfold reshape, binned. replace (Qle_bool q (inject_Z (Z.of_nat (length arr)))) with false; [easy|].
  symmetry. apply not_true_is_false. intros E. apply Qle_bool_iff in E. apply Qle_not_lt in E. contradiction.
Qed.

Theorem reshape_padded {A} (zero : A) arr n_pad q rows :
  binned arr q = inr rows -> forall nb, table rows nb (int_of q) -> (n_pad + 1) / 2 <= int_of q ->
  exists out, reshape zero arr n_pad q = inr out /\
    table out nb (int_of q + n_pad) /\
    forall i c, i < nb -> c < int_of q + n_pad ->
      cell out i c = Some (at_or zero (concat rows) (Z.of_nat (i * int_of q) + Z.of_nat c - Z.of_nat (n_pad / 2))).
Proof.
  intros E nb T H. unfold reshape. rewrite E. eexists. split; [reflexivity|].
  assert (H0 : n_pad / 2 <= int_of q). { etransitivity; [|exact H]. apply Nat.div_le_mono; lia. }
  destruct (padded zero (n_pad / 2) ((n_pad + 1) / 2) (int_of q) rows nb T H0 H) as [P1 P2].
  assert (S2 : n_pad / 2 + (n_pad + 1) / 2 = n_pad).
  { destruct (Nat.Even_or_Odd n_pad) as [[k ->]|[k ->]].
    - replace (2 * k + 1) with (1 + k * 2) by lia. rewrite Nat.div_add by lia. change (1 / 2) with 0.
      rewrite Nat.mul_comm, Nat.div_mul by lia. lia.
    - replace (2 * k + 1 + 1) with ((k + 1) * 2) by lia. rewrite Nat.div_mul by lia.
      replace (2 * k + 1) with (1 + k * 2) by lia. rewrite Nat.div_add by lia. change (1 / 2) with 0. lia. }
  destruct n_pad as [|n'].
  - change (0 / 2) with 0 in *. change ((0 + 1) / 2) with 0 in *. rewrite place_nil.
    rewrite Nat.add_0_r in *.
    split; [exact T|]. intros i c Hi Hc. destruct T as [T1 T2].
    assert (G : forall rows nb m, length rows = nb -> (forall r : list A, In r rows -> length r = m) ->
      forall i c, i < nb -> c < m -> cell rows i c = Some (at_or zero (concat rows) (Z.of_nat (i * m) + Z.of_nat c - 0))).
    { clear. intros rows. induction rows as [|r rows IH]; intros nb m L F i c Hi Hc; [cbn in L; lia|].
      assert (Lr : length r = m) by (apply F; now left). unfold cell. destruct i as [|i].
      - cbn [nth_error]. unfold at_or. destruct (Z.ltb_spec (Z.of_nat (0 * m) + Z.of_nat c - 0) 0); [lia|].
        replace (Z.to_nat (Z.of_nat (0 * m) + Z.of_nat c - 0)) with c by (cbn; lia).
        cbn [concat]. rewrite app_nth1 by lia. apply nth_error_nth'. lia.
      - cbn [nth_error]. specialize (IH (nb - 1) m). cbn in L. fold (cell rows i c). rewrite IH; try lia; [|intros; apply F; now right].
        f_equal. unfold at_or. destruct (Z.ltb_spec (Z.of_nat (i * m) + Z.of_nat c - 0) 0); [lia|].
        destruct (Z.ltb_spec (Z.of_nat (S i * m) + Z.of_nat c - 0) 0); [lia|]. cbn [concat].
        rewrite app_nth2 by (cbn; lia). f_equal. cbn. lia. }
    exact (G rows nb (int_of q) T1 T2 i c Hi Hc).
  - set (n_pad := S n') in *. replace (int_of q + n_pad) with (int_of q + n_pad / 2 + (n_pad + 1) / 2) by lia. split; assumption.
Qed.

(** the whole-number case with padding *)
Theorem reshape_padded_whole {A} (zero : A) arr n_pad n : 1 <= n <= length arr -> n_pad <= 2 * n ->
  let nb := length arr / n in
  exists out, reshape zero arr n_pad (inject_Z (Z.of_nat n)) = inr out /\
    table out nb (n + n_pad) /\
    forall i c, i < nb -> c < n + n_pad ->
      cell out i c = Some (at_or zero (firstn (nb * n) arr) (Z.of_nat (i * n) + Z.of_nat c - Z.of_nat (n_pad / 2))).
Proof.
  intros H Hp nb. pose proof (binned_whole arr n H) as E. fold nb in E.
  pose proof (whole_len arr n ltac:(lia)) as WL. fold nb in WL.
  destruct (reshape_padded zero arr n_pad _ _ E nb) as (out & E1 & E2 & E3).
  - rewrite int_of_Z. now apply chunks_table.
  - rewrite int_of_Z. apply Nat.lt_succ_r, Nat.div_lt_upper_bound; lia.
  - rewrite int_of_Z in E2, E3. rewrite chunks_concat in E3 by easy. exists out. auto.
Qed.

(** ** fractional bins *)
Lemma floor_iff z x : (z <= Qfloor x)%Z <-> (inject_Z z <= x)%Q.
Proof.
  split; intros H.
  - eapply Qle_trans; [|apply Qfloor_le]. now rewrite <- Zle_Qle.
  - apply Qfloor_resp_le in H. now rewrite Qfloor_Z in H.
Qed.

Section Frac.
Variables (q : Q) (m : nat).
Hypothesis Hm : 1 <= m.
Hypothesis Hq : (inject_Z (Z.of_nat m) <= q)%Q.
Let ratio : Q := (q / inject_Z (Z.of_nat m))%Q.

Lemma m_pos : (0 < inject_Z (Z.of_nat m))%Q.
Proof. change 0%Q with (inject_Z 0). rewrite <- Zlt_Qlt. lia. Qed.
Lemma ratio_ge : (1 <= ratio)%Q.
Proof. unfold ratio. apply Qle_shift_div_l; [apply m_pos|]. now rewrite Qmult_1_l. Qed.

Definition posz (k : nat) : Z := Qfloor (inject_Z (Z.of_nat k) * q / inject_Z (Z.of_nat m)).
Lemma posz_ratio k : posz k = Qfloor (inject_Z (Z.of_nat k) * ratio).
Proof. unfold posz, ratio. apply Qfloor_comp. field. pose proof m_pos. intros E. rewrite E in H. discriminate. Qed.
Lemma posz_S k : (posz k + 1 <= posz (S k))%Z.
Proof.
  rewrite !posz_ratio. apply floor_iff. rewrite inject_Z_plus.
  replace (Z.of_nat (S k)) with (Z.of_nat k + 1)%Z by lia. rewrite inject_Z_plus.
  setoid_replace ((inject_Z (Z.of_nat k) + inject_Z 1) * ratio)%Q with (inject_Z (Z.of_nat k) * ratio + ratio)%Q
    by (change (inject_Z 1) with 1%Q; ring).
  apply Qplus_le_compat; [apply Qfloor_le|apply ratio_ge].
Qed.
Lemma posz_0 : posz 0 = 0%Z.
Proof. rewrite posz_ratio. change (inject_Z (Z.of_nat 0)) with 0%Q. rewrite (Qfloor_comp _ 0%Q); [reflexivity|ring]. Qed.
Lemma posz_ge k : (Z.of_nat k <= posz k)%Z.
Proof. induction k as [|k IH]; [rewrite posz_0; lia|]. pose proof (posz_S k). lia. Qed.
Definition pos (k : nat) : nat := Z.to_nat (posz k).
Lemma pos_lt j k : j < k -> pos j < pos k.
Proof.
  intros H. unfold pos. induction H as [|k H IH]; [pose proof (posz_S j); pose proof (posz_ge j); lia|].
  pose proof (posz_S k). pose proof (posz_ge k). lia.
Qed.
Lemma pos_ge k : k <= pos k.
Proof. unfold pos. pose proof (posz_ge k). lia. Qed.
Lemma pos_bin i : pos (i * m) = Z.to_nat (Qfloor (inject_Z (Z.of_nat i) * q)).
Proof.
  unfold pos, posz. f_equal. apply Qfloor_comp. rewrite Nat2Z.inj_mul, inject_Z_mult.
  field. pose proof m_pos. intros E. rewrite E in H. discriminate.
Qed.
Lemma pos_skip k : (q < inject_Z (Z.of_nat m + 1))%Q -> pos (S k) <= pos k + 2.
Proof.
  intros U. unfold pos. pose proof (posz_ge k). pose proof (posz_ge (S k)).
  enough (posz (S k) < posz k + 3)%Z by lia.
  rewrite !posz_ratio. apply Z.nle_gt. intros G. apply floor_iff in G.
  replace (Z.of_nat (S k)) with (Z.of_nat k + 1)%Z in G by lia. rewrite !inject_Z_plus in G.
  assert (R2 : (ratio <= 2)%Q).
  { unfold ratio. apply Qle_shift_div_r; [apply m_pos|]. eapply Qle_trans; [apply Qlt_le_weak, U|].
    change 2%Q with (inject_Z 2). rewrite <- inject_Z_mult, <- Zle_Qle. lia. }
  pose proof (Qlt_floor (inject_Z (Z.of_nat k) * ratio)) as F. rewrite inject_Z_plus in F.
  change (inject_Z 1) with 1%Q in *. change (inject_Z 3) with 3%Q in *.
  set (x := inject_Z (Z.of_nat k)) in *. set (fl := inject_Z (Qfloor (x * ratio))) in *. clearbody fl x. nra.
Qed.
End Frac.

Lemma take_spec {A} (arr : list A) : forall ix x, take arr ix = Some x ->
  length x = length ix /\ forall k p, nth_error ix k = Some p -> nth_error x k = nth_error arr p /\ p < length arr.
Proof.
  induction ix as [|i ix IH]; intros x H; cbn in H.
  - injection H as <-. split; [easy|]. intros [|k] p E; discriminate.
  - destruct (nth_error arr i) as [y|] eqn:Ey; [|discriminate]. destruct (take arr ix) as [r|] eqn:Er; [|discriminate].
    injection H as <-. destruct (IH r eq_refl) as [I1 I2]. split; [cbn; now rewrite I1|].
    intros [|k] p E; cbn in E.
    + injection E as ->. split; [easy|]. apply nth_error_Some. congruence.
    + now apply I2.
Qed.
Lemma take_some {A} (arr : list A) : forall ix, (forall p, In p ix -> p < length arr) -> exists x, take arr ix = Some x.
Proof.
  induction ix as [|i ix IH]; intros H; [now exists []|]. cbn.
  destruct (nth_error arr i) as [y|] eqn:E; [|apply nth_error_None in E; specialize (H i (or_introl eq_refl)); lia].
  destruct IH as [x ->]; [intros; apply H; now right|]. eauto.
Qed.

Lemma firstn_seq n k s : firstn n (seq s (n + k)) = seq s n.
Proof. rewrite seq_app, firstn_app, seq_length, Nat.sub_diag, firstn_all2 by now rewrite seq_length. cbn. apply app_nil_r. Qed.

Lemma int_of_bounds q : (1 <= q)%Q -> 1 <= int_of q /\ (inject_Z (Z.of_nat (int_of q)) <= q)%Q /\ (q < inject_Z (Z.of_nat (int_of q) + 1))%Q.
Proof.
  intros H. unfold int_of. assert (F : (1 <= Qfloor q)%Z) by (apply floor_iff; exact H).
  rewrite Z2Nat.id by lia. split; [lia|]. split; [apply Qfloor_le|apply Qlt_floor].
Qed.

Lemma inds_last q m c : 1 <= c -> last (inds q m c) 0 = pos q m (c - 1).
Proof.
  intros H. unfold inds. destruct c as [|c]; [lia|]. rewrite seq_S, map_app. cbn [map]. rewrite last_last.
  cbn [Nat.add]. replace (S c - 1) with c by lia. reflexivity.
Qed.

(** what [binned] does with a fractional bin *)
Lemma binned_frac {A} (arr : list A) q : (1 <= q)%Q -> fractional q -> (q <= inject_Z (Z.of_nat (length arr)))%Q ->
  let m := int_of q in let nb0 := length arr / m in
  let nb := if length arr <=? pos q m (nb0 * m - 1) then nb0 - 1 else nb0 in
  binned arr q = match take arr (map (pos q m) (seq 0 (nb * m))) with
                 | None => inl IndexError | Some x => inr (chunks m nb x) end /\ 1 <= nb0 * m.
Proof.
  intros H1 Hf HN m nb0 nb. destruct (int_of_bounds q H1) as (M1 & M2 & M3). fold m in M1, M2, M3.
  assert (MN : m <= length arr).
  { assert (X : (inject_Z (Z.of_nat m) <= inject_Z (Z.of_nat (length arr)))%Q) by (eapply Qle_trans; eassumption).
    rewrite <- Zle_Qle in X. lia. }
  assert (B1 : 1 <= nb0) by (apply Nat.div_le_lower_bound; lia).
  assert (B2 : 1 <= nb0 * m) by nia. split; [|exact B2].
  unfold binned. rewrite (proj2 (Qle_bool_iff _ _) HN). fold m. cbv zeta.
  match goal with |- (match m with O => _ | S _ => ?X end) = ?Y => transitivity X; [destruct m; [lia|reflexivity]|] end.
  replace (Qeq_bool q (inject_Z (Z.of_nat m))) with false.
  2:{ symmetry. apply not_true_is_false. intros E. apply Qeq_bool_iff in E. exact (Hf _ E). }
  fold nb0. cbv zeta. rewrite inds_last by easy. subst nb. destruct (Nat.leb_spec (length arr) (pos q m (nb0 * m - 1))).
  - assert (IL : length (inds q m (nb0 * m)) = nb0 * m) by (unfold inds; now rewrite map_length, seq_length).
    rewrite IL. replace (nb0 * m - m) with ((nb0 - 1) * m) by nia.
    assert (F : firstn ((nb0 - 1) * m) (inds q m (nb0 * m)) = map (pos q m) (seq 0 ((nb0 - 1) * m))).
    { unfold inds. rewrite firstn_map. replace (nb0 * m) with ((nb0 - 1) * m + m) by nia. rewrite firstn_seq. reflexivity. }
    rewrite F. reflexivity.
  - reflexivity.
Qed.

Theorem reshape_frac {A} (zero : A) arr q rows : (1 <= q)%Q -> fractional q -> reshape zero arr 0 q = inr rows ->
  exists pos nb, let m := Z.to_nat (Qfloor q) in
    table rows nb m /\ length arr / m - 1 <= nb <= length arr / m /\
    (forall j k, j < k -> pos j < pos k) /\ (forall k, pos (S k) <= pos k + 2) /\
    (forall i, pos (i * m) = Z.to_nat (Qfloor (inject_Z (Z.of_nat i) * q))) /\
    (forall i j, i < nb -> j < m -> cell rows i j = nth_error arr (pos (i * m + j)) /\ pos (i * m + j) < length arr).
Proof.
  intros H1 Hf H. fold (int_of q). destruct (int_of_bounds q H1) as (M1 & M2 & M3).
  unfold reshape in H. destruct (binned arr q) as [e|rows'] eqn:E; [discriminate|].
  change (0 / 2) with 0 in H. change ((0 + 1) / 2) with 0 in H. rewrite place_nil in H. injection H as ->.
  assert (HN : (q <= inject_Z (Z.of_nat (length arr)))%Q).
  { unfold binned in E. destruct (Qle_bool q _) eqn:L; [|discriminate]. now apply Qle_bool_iff. }
  destruct (binned_frac arr q H1 Hf HN) as [B B2]. rewrite B in E.
  set (m := int_of q) in *. set (nb := if _ <=? _ then _ else _) in *.
  destruct (take arr _) as [x|] eqn:T; [|discriminate]. injection E as <-.
  destruct (take_spec _ _ _ T) as [T1 T2]. rewrite map_length, seq_length in T1.
  exists (pos q m), nb. cbv zeta. split; [now apply chunks_table|].
  split; [subst nb; destruct (_ <=? _); lia|].
  split; [intros; now apply pos_lt|]. split; [intros; now apply pos_skip|].
  split; [intros; now apply pos_bin|].
  intros i j Hi Hj. rewrite chunk_cell by easy.
  assert (L : i * m + j < nb * m). { assert (S i * m <= nb * m) by (apply Nat.mul_le_mono_r; lia). cbn in *. lia. }
  apply T2. rewrite nth_error_map. rewrite (nth_error_nth' _ 0) by now rewrite seq_length.
  rewrite seq_nth by easy. reflexivity.
Qed.

(** it raises exactly when dropping one bin is not enough *)
Theorem reshape_frac_raises {A} (zero : A) arr n_pad q : (1 <= q)%Q -> fractional q -> (q <= inject_Z (Z.of_nat (length arr)))%Q ->
  let m := int_of q in let nb := length arr / m in
  reshape zero arr n_pad q = inl IndexError <->
    2 <= nb /\ (inject_Z (Z.of_nat (length arr)) <= inject_Z (Z.of_nat ((nb - 1) * m - 1)) * q / inject_Z (Z.of_nat m))%Q.
Proof.
  intros H1 Hf HN m nb. destruct (int_of_bounds q H1) as (M1 & M2 & M3). fold m in M1, M2, M3.
  destruct (binned_frac arr q H1 Hf HN) as [B B2]. fold m in B, B2. fold nb in B, B2.
  assert (FI : forall k, length arr <= pos q m k <-> (inject_Z (Z.of_nat (length arr)) <= inject_Z (Z.of_nat k) * q / inject_Z (Z.of_nat m))%Q).
  { intros k. rewrite <- floor_iff. fold (posz q m k). pose proof (posz_ge q m M1 M2 k). unfold pos. lia. }
  rewrite <- FI. unfold reshape. rewrite B.
  set (nb' := if _ <=? _ then _ else _) in *.
  assert (TN : take arr (map (pos q m) (seq 0 (nb' * m))) = None <-> 1 <= nb' * m /\ length arr <= pos q m (nb' * m - 1)).
  { split.
    - intros T. destruct (le_lt_dec 1 (nb' * m)) as [G|G].
      + split; [easy|]. destruct (le_lt_dec (length arr) (pos q m (nb' * m - 1))) as [G'|G']; [easy|].
        destruct (take_some arr (map (pos q m) (seq 0 (nb' * m)))) as [x X]; [|congruence].
        intros p Hp. apply in_map_iff in Hp as (k & <- & Hk). apply in_seq in Hk.
        destruct (Nat.eq_dec k (nb' * m - 1)) as [->|]; [easy|]. etransitivity; [apply (pos_lt q m M1 M2 k (nb' * m - 1)); lia|easy].
      + replace (nb' * m) with 0 in T by lia. discriminate.
    - intros [G G']. destruct (take arr _) as [x|] eqn:T; [|easy]. exfalso. apply take_spec in T as [_ T].
      destruct (T (nb' * m - 1) (pos q m (nb' * m - 1))) as [_ T']; [|lia].
      rewrite nth_error_map, (nth_error_nth' _ 0) by (rewrite seq_length; lia). rewrite seq_nth by lia. reflexivity. }
  assert (P1 : length arr <= pos q m ((nb - 1) * m - 1) -> length arr <= pos q m (nb * m - 1)).
  { intros G. etransitivity; [exact G|]. destruct (Nat.eq_dec ((nb - 1) * m - 1) (nb * m - 1)) as [->|]; [easy|].
    apply Nat.lt_le_incl, pos_lt; auto. nia. }
  split.
  - intros H. destruct (take arr _) eqn:T; [discriminate|]. destruct (proj1 TN eq_refl) as [G1 G2].
    subst nb'. destruct (Nat.leb_spec (length arr) (pos q m (nb * m - 1))).
    + split; [nia|easy].
    + lia.
  - intros [G1 G2]. rewrite (proj2 TN); [reflexivity|].
    subst nb'. destruct (Nat.leb_spec (length arr) (pos q m (nb * m - 1))); [split; [nia|easy]|]. specialize (P1 G2). lia.
Qed.
