From Coq Require Import ZArith List Bool Lia Sorting.Sorted.
From Verif.Model Require Import Group.
From Verif.Spec Require Import Group.
Import ListNotations.

Definition fin (k : nat) (p : bool) (l : list bool) : list nat :=
  if last (p :: l) false then [k + length l] else [].
Definition PF k l := combine (ups_from k false l) (dns_from k false l ++ fin k false l).
Definition PT s k l := combine (s :: ups_from k true l) (dns_from k true l ++ fin k true l).

Lemma last_cons {A} (a b : A) l d : last (a :: b :: l) d = last (b :: l) d.
Proof. reflexivity. Qed.
Lemma fin_cons k p b l : fin k p (b :: l) = fin (S k) b l.
Proof. unfold fin. rewrite last_cons. cbn [length]. now replace (k + S (length l)) with (S k + length l) by lia. Qed.

Lemma PF_t k l : PF k (true :: l) = PT k (S k) l.
Proof. unfold PF, PT. rewrite fin_cons. reflexivity. Qed.
Lemma PF_f k l : PF k (false :: l) = PF (S k) l.
Proof. unfold PF. rewrite fin_cons. reflexivity. Qed.
Lemma PT_t s k l : PT s k (true :: l) = PT s (S k) l.
Proof. unfold PT. rewrite fin_cons. reflexivity. Qed.
Lemma PT_f s k l : PT s k (false :: l) = (s, k) :: PF (S k) l.
Proof. unfold PT, PF. rewrite fin_cons. reflexivity. Qed.
Lemma PT_nil s k : PT s k [] = [(s, k)].
Proof. unfold PT, fin; simpl. now rewrite Nat.add_0_r. Qed.

Lemma skipn_S_tl {A} k : forall l : list A, skipn (S k) l = tl (skipn k l).
Proof. induction k as [|k IH]; intros [|a l]; try reflexivity. exact (IH l). Qed.

Section Walk.
Variable bl : list bool.
Lemma at_here k b l : skipn k bl = b :: l -> nth_error bl k = Some b /\ skipn (S k) bl = l.
Proof.
  intros H. split.
  - rewrite <- (firstn_skipn k bl), H. rewrite nth_error_app2.
    + assert (length (firstn k bl) = k).
      { rewrite firstn_length. pose proof (f_equal (@length _) H) as L. rewrite skipn_length in L. simpl in L. lia. }
      rewrite H0, Nat.sub_diag. reflexivity.
    + rewrite firstn_length. lia.
  - rewrite skipn_S_tl, H. reflexivity.
Qed.
Lemma at_end k : k <= length bl -> skipn k bl = [] -> k = length bl.
Proof. intros L H. pose proof (f_equal (@length _) H) as E. rewrite skipn_length in E. simpl in E. lia. Qed.

Definition run_start s k := s < k /\ (forall i, s <= i < k -> is_true_at bl i) /\
  (forall i, S i = s -> ~ is_true_at bl i).

Lemma walk : forall l k, k <= length bl -> skipn k bl = l ->
  ((forall i, S i = k -> ~ is_true_at bl i) ->
     (forall u d, In (u, d) (PF k l) <-> k <= u /\ maximal_run bl u d) /\
     StronglySorted (fun p q => snd p < fst q) (PF k l)) /\
  (forall s, run_start s k ->
     (forall u d, In (u, d) (PT s k l) <-> s <= u /\ maximal_run bl u d) /\
     StronglySorted (fun p q => snd p < fst q) (PT s k l)).
Proof.
  induction l as [|b l IH]; intros k L E.
  - apply at_end in E; [subst k|lia]. split.
    + intros _. split; [|constructor]. intros u d; split; [intros []|].
      intros [H1 [H2 _]]. lia.
    + intros s (S1 & S2 & S3). rewrite PT_nil. split.
      2:{ repeat constructor. }
      intros u d; split.
      * intros [H|[]]. injection H as <- <-. split; [lia|]. split; [lia|]. repeat split; auto.
        unfold is_true_at. assert (N : nth_error bl (length bl) = None) by (apply nth_error_None; lia). congruence.
      * intros [H1 (H2 & H3 & H4 & H5)]. left.
        assert (u = s). { destruct (Nat.eq_dec u s); [easy|]. exfalso. apply (H4 (u - 1)); [lia|]. apply S2. lia. }
        subst u. f_equal. destruct (Nat.eq_dec d (length bl)); [easy|]. exfalso. apply H5, S2. lia.
  - destruct (at_here _ _ _ E) as [Eb El]. assert (L' : S k <= length bl).
    { pose proof (proj1 (nth_error_Some bl k)). rewrite Eb in H. specialize (H ltac:(discriminate)). lia. }
    specialize (IH (S k) L' El). destruct IH as [IF IT]. split.
    + intros P. destruct b.
      * rewrite PF_t. apply (IT k). split; [lia|]. split; [|auto].
        intros i Hi. replace i with k by lia. exact Eb.
      * rewrite PF_f. destruct IF as [I1 I2].
        { intros i Hi. injection Hi as ->. unfold is_true_at. congruence. }
        split; [|exact I2]. intros u d. rewrite I1. split; [intros [? ?]; split; [lia|easy]|].
        intros [H1 H2]. split; [|easy]. destruct (Nat.eq_dec k u); [|lia]. subst u. exfalso.
        destruct H2 as (H2 & H3 & _). specialize (H3 k ltac:(lia)). unfold is_true_at in H3. congruence.
    + intros s (S1 & S2 & S3). destruct b.
      * rewrite PT_t. apply IT. split; [lia|]. split; [|auto]. intros i Hi.
        destruct (Nat.eq_dec i k); [subst; exact Eb|apply S2; lia].
      * rewrite PT_f. destruct IF as [I1 I2].
        { intros i Hi. injection Hi as ->. unfold is_true_at. congruence. }
        split.
        -- intros u d. cbn [In]. rewrite I1. split.
           ++ intros [H|[H1 H2]]; [|split; [lia|easy]]. injection H as <- <-. split; [lia|].
              split; [lia|]. repeat split; auto. unfold is_true_at. congruence.
           ++ intros [H1 H]. pose proof H as (H2 & H3 & H4 & H5).
              destruct (Nat.lt_ge_cases k u) as [G|G]; [right; split; [lia|exact H]|left].
              destruct (Nat.eq_dec u k).
              { subst u. specialize (H3 k ltac:(lia)). unfold is_true_at in H3. congruence. }
              assert (u = s). { destruct (Nat.eq_dec u s); [easy|]. exfalso. apply (H4 (u - 1)); [lia|]. apply S2. lia. }
              subst u. f_equal. destruct (Nat.lt_trichotomy d k) as [D|[D|D]]; [|easy|].
              ** exfalso. apply H5, S2. lia.
              ** exfalso. specialize (H3 k ltac:(lia)). unfold is_true_at in H3. congruence.
        -- constructor; [exact I2|]. apply Forall_forall. intros [u d] Hu. apply I1 in Hu. simpl. lia.
Qed.
End Walk.

Lemma sorted_filter {A} (R : A -> A -> Prop) f l : StronglySorted R l -> StronglySorted R (filter f l).
Proof.
  induction 1 as [|a l H IH F]; simpl; [constructor|]. destruct (f a); [|easy].
  constructor; [easy|]. rewrite Forall_forall in *. intros x Hx. apply filter_In in Hx. now apply F.
Qed.

Lemma filter_le {A} (f : A -> bool) l : length (filter f l) <= length l.
Proof. induction l; simpl; [lia|]. destruct (f a); simpl; lia. Qed.

Lemma any_true bl : existsb (fun b => b) bl = true <-> exists k, is_true_at bl k.
Proof.
  rewrite existsb_exists. split.
  - intros (x & Hx & ->). apply In_nth_error in Hx. exact Hx.
  - intros [k Hk]. exists true. split; [|easy]. eapply nth_error_In, Hk.
Qed.

Lemma group_lists bl m pairs :
  (existsb (fun b => b) bl = true -> combine (ups bl) (dns bl) = pairs) ->
  (forall u d, In (u, d) pairs <-> maximal_run bl u d) ->
  StronglySorted (fun p q => snd p < fst q) pairs -> lists_runs bl m (group bl m).
Proof.
  intros E I S. unfold group. destruct (existsb (fun b => b) bl) eqn:X; cbn [negb].
  - rewrite (E eq_refl). split; [now apply sorted_filter|]. intros u d. rewrite filter_In, I.
    cbn [fst snd]. rewrite Z.leb_le. reflexivity.
  - split; [constructor|]. intros u d. split; [intros []|]. intros [(H1 & H2 & _) _].
    exfalso. assert (T : existsb (fun b => b) bl = true) by (apply any_true; exists u; apply H2; lia).
    congruence.
Qed.

Lemma snoc_nonempty {A} (l : list A) x : match l with [] => [x] | _ => l ++ [x] end = l ++ [x].
Proof. now destruct l. Qed.

Lemma dns_eq b l : dns (b :: l) = dns_from 1 b l ++ fin 1 b l.
Proof.
  unfold dns, fin. destruct (last (b :: l) false).
  - rewrite snoc_nonempty. reflexivity.
  - now rewrite app_nil_r.
Qed.

Lemma ups_rise bl k : In k (ups0 bl) -> exists j, k = S j /\ nth_error bl j = Some false /\ is_true_at bl k.
Proof.
  destruct bl as [|b0 l0]; [intros []|]. unfold ups0.
  enough (G : forall l n p, nth_error (b0 :: l0) n = Some p -> skipn (S n) (b0 :: l0) = l ->
    forall k, In k (ups_from (S n) p l) -> exists j, k = S j /\ nth_error (b0 :: l0) j = Some false /\ is_true_at (b0 :: l0) k).
  { apply (G l0 0 b0); reflexivity. }
  clear k. induction l as [|b l IH]; intros n p Hn Hl k H; [easy|].
  destruct (at_here _ _ _ _ Hl) as [E1 E2]. simpl in H.
  destruct (negb p && b) eqn:X.
  - destruct H as [<-|H]; [|now apply (IH (S n) b)].
    exists n. destruct p, b; try easy.
  - now apply (IH (S n) b).
Qed.

(** correct when the first sample is False, or when there is no later run *)
Lemma group_ok bl m : hd false bl = false \/ ~ later_run bl -> lists_runs bl m (group bl m).
Proof.
  destruct bl as [|b l]; intros H.
  { split; [constructor|]. intros u d. split; [intros []|]. intros [[H1 _] _]. simpl in H1. lia. }
  destruct b.
  - destruct H as [H|H]; [discriminate|].
    destruct (walk (true :: l) l 1) as [_ W]; [simpl; lia|easy|].
    destruct (W 0) as [W1 W2].
    { split; [lia|]. split; [|easy]. intros i Hi. replace i with 0 by lia. reflexivity. }
    apply group_lists with (PT 0 1 l); [|intros u d; rewrite W1; split; [tauto|split; [lia|tauto]]|exact W2].
    intros _. rewrite dns_eq. unfold PT. f_equal. unfold ups. cbn [hd].
    destruct (ups0 (true :: l)) as [|k r] eqn:E; unfold ups0 in E; rewrite E; [reflexivity|].
    exfalso. apply H. destruct (ups_rise (true :: l) k) as (j & Ej & _); [unfold ups0; rewrite E; now left|].
    assert (Hin : exists d, In (k, d) (PT 0 1 l)).
    { unfold PT. rewrite E.
      assert (G : forall l n p, p = true -> length (dns_from n p l ++ fin n p l) = S (length (ups_from n p l))).
      { clear. intros l. enough (G : forall n, length (dns_from n true l ++ fin n true l) = S (length (ups_from n true l)) /\
          length (dns_from n false l ++ fin n false l) = length (ups_from n false l)).
        { intros n p ->. apply G. }
        induction l as [|b l IH]; intros n; [split; reflexivity|]. rewrite !fin_cons.
        destruct (IH (S n)) as [I1 I2]. destruct b; simpl; rewrite ?I1, ?I2; split; reflexivity. }
      specialize (G l 1 true eq_refl). rewrite E in G. simpl in G.
      destruct (dns_from 1 true l ++ fin 1 true l) as [|d0 [|d1 r']]; try discriminate.
      exists d1. right. now left. }
    destruct Hin as [d Hd]. apply W1 in Hd. exists k, d. split; [tauto|lia].
  - destruct (walk (false :: l) (false :: l) 0) as [W _]; [lia|easy|].
    destruct W as [W1 W2]; [easy|].
    apply group_lists with (PF 0 (false :: l)); [|intros u d; rewrite W1; split; [tauto|split; [lia|tauto]]|exact W2].
    intros _. rewrite PF_f. rewrite dns_eq. reflexivity.
Qed.

(** and wrong in every other case *)
Lemma group_bad bl : hd false bl = true -> later_run bl -> ~ lists_runs bl 0 (group bl 0).
Proof.
  intros H (u & d & Hr & Hu) [Hs G].
  assert (L : length (group bl 0) <= 2 /\ forall p, In p (group bl 0) -> fst p = 0 \/ fst p = length (ups0 bl)).
  { unfold group. destruct (negb _); [split; [simpl; lia|intros p []]|].
    unfold ups. rewrite H.
    assert (F : forall f (x y : list nat), length (filter f (combine x y)) <= length x).
    { intros f x y. etransitivity; [apply filter_le|]. rewrite combine_length. lia. }
    assert (I : forall f (x y : list nat) p, In p (filter f (combine x y)) -> In (fst p) x).
    { intros f x y [a b] Hp. apply filter_In in Hp as [Hp _]. now apply in_combine_l in Hp. }
    destruct (ups0 bl) as [|k r].
    - split; [etransitivity; [apply F|simpl; lia]|]. intros p Hp. apply I in Hp. destruct Hp as [<-|[]]. now left.
    - split; [etransitivity; [apply F|simpl; lia]|]. intros p Hp. apply I in Hp.
      destruct Hp as [<-|[<-|[]]]; [now left|now right]. }
  destruct L as [L1 L2].
  assert (Hin : In (u, d) (group bl 0)). { apply G. split; [exact Hr|]. destruct Hr as [? _]. lia. }
  pose proof (L2 _ Hin) as [E|E]; cbn [fst] in E; [lia|].
  destruct Hr as (R1 & R2 & R3 & R4).
  (* the first sample is True, so the run starts at 2 or later *)
  assert (H0 : is_true_at bl 0). { destruct bl as [|[] ?]; try discriminate. reflexivity. }
  assert (U2 : 2 <= u). { destruct u as [|[|u]]; [lia| |lia]. exfalso. apply (R3 0); [lia|exact H0]. }
  (* hence two rising edges, both starting a run different from 0 *)
  destruct (ups0 bl) as [|k1 [|k2 r]] eqn:EU; simpl in E; try lia.
  destruct bl as [|b0 l0]; [discriminate|]. cbn [hd] in H. subst b0.
  destruct (walk (true :: l0) l0 1) as [_ W]; [simpl; lia|easy|].
  destruct (W 0) as [W1 W2].
  { split; [lia|]. split; [|easy]. intros i Hi. replace i with 0 by lia. reflexivity. }
  unfold ups0 in EU.
  assert (G2 : forall l n, length (dns_from n true l ++ fin n true l) = S (length (ups_from n true l)) /\
          length (dns_from n false l ++ fin n false l) = length (ups_from n false l)).
  { clear. induction l as [|b l IH]; intros n; [split; reflexivity|]. rewrite !fin_cons.
    destruct (IH (S n)) as [I1 I2]. destruct b; simpl; rewrite ?I1, ?I2; split; reflexivity. }
  destruct (G2 l0 1) as [G3 _]. unfold PT in W1, W2. rewrite EU in *. simpl in G3.
  destruct (dns_from 1 true l0 ++ fin 1 true l0) as [|d0 [|d1 [|d2 r']]]; try discriminate.
  cbn [combine] in W1, W2.
  assert (A1 : In (k1, d1) (group (true :: l0) 0)).
  { apply G. destruct (proj1 (W1 k1 d1)) as [_ M]; [right; now left|]. split; [exact M|]. destruct M; lia. }
  assert (A2 : In (k2, d2) (group (true :: l0) 0)).
  { apply G. destruct (proj1 (W1 k2 d2)) as [_ M]; [right; right; now left|]. split; [exact M|]. destruct M; lia. }
  inversion W2 as [|? ? W3 F1]; subst. inversion W3 as [|? ? W4 F2]; subst.
  apply Forall_inv in F1. apply Forall_inv in F2. cbn [fst snd] in F1, F2.
  destruct (proj1 (W1 k1 d1)) as [_ [M1 _]]; [right; now left|].
  apply L2 in A1, A2. cbn [fst] in *. simpl in A1, A2. lia.
Qed.

Lemma group_iff bl : (forall m, lists_runs bl m (group bl m)) <-> hd false bl = false \/ ~ later_run bl.
Proof.
  split.
  - intros H. destruct (hd false bl) eqn:E; [right|now left]. intros L. exact (group_bad bl E L (H 0%Z)).
  - intros H m. now apply group_ok.
Qed.
