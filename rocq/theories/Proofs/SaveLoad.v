From Coq Require Import String Ascii.
From Coq Require Import ZArith Reals List Bool Lia.
From Verif.Model Require Import SaveLoad.
From Verif.Spec Require Import SaveLoad.
Import ListNotations.
Open Scope list_scope.

Lemma find_put k k' v d : find k (put k' v d) = if String.eqb k' k then Some v else find k d.
Proof.
  induction d as [|[a w] d IH]; simpl; [reflexivity|].
  destruct (String.eqb_spec a k') as [->|N]; simpl.
  - destruct (String.eqb k' k); reflexivity.
  - rewrite IH. destruct (String.eqb_spec a k) as [->|]; [|reflexivity].
    destruct (String.eqb_spec k' k); [congruence|reflexivity].
Qed.
Lemma find_drop k k' d : find k (drop k' d) = if String.eqb k' k then None else find k d.
Proof.
  induction d as [|[a w] d IH]; simpl; [destruct (String.eqb k' k); reflexivity|].
  destruct (String.eqb_spec a k') as [->|N]; simpl.
  - rewrite IH. destruct (String.eqb k' k); reflexivity.
  - rewrite IH. destruct (String.eqb_spec a k) as [->|]; [|reflexivity].
    destruct (String.eqb_spec k' k); [congruence|reflexivity].
Qed.
Lemma find_In k d : find k d <> None <-> In k (map fst d).
Proof.
  induction d as [|[a w] d IH]; simpl; [tauto|].
  destruct (String.eqb_spec a k) as [->|N]; [split; [tauto|discriminate]|]. rewrite IH. tauto.
Qed.

(** names of the parts *)
Lemma append_length a b : String.length (a ++ b)%string = String.length a + String.length b.
Proof. induction a as [|c a IH]; simpl; [reflexivity|]. rewrite IH. reflexivity. Qed.
Lemma append_inj a b s : (a ++ s = b ++ s)%string -> a = b.
Proof.
  revert b. induction a as [|c a IH]; intros [|e b] H; simpl in H.
  - reflexivity.
  - apply (f_equal String.length) in H. simpl in H. rewrite append_length in H. lia.
  - apply (f_equal String.length) in H. simpl in H. rewrite append_length in H. lia.
  - injection H as -> H. rewrite (IH b H). reflexivity.
Qed.
Lemma real_imag a b : real_of a <> imag_of b.
Proof.
  unfold real_of, imag_of. revert b. induction a as [|c a IH]; intros [|e b] H; simpl in H; try discriminate.
  - apply (f_equal String.length) in H. simpl in H. rewrite append_length in H. simpl in H. lia.
  - apply (f_equal String.length) in H. simpl in H. rewrite append_length in H. simpl in H. lia.
  - injection H as _ H. exact (IH b H).
Qed.
Lemma real_inj a b : real_of a = real_of b -> a = b. Proof. apply append_inj. Qed.
Lemma imag_inj a b : imag_of a = imag_of b -> a = b. Proof. apply append_inj. Qed.
Lemma real_ne a : real_of a <> a.
Proof. intros H. apply (f_equal String.length) in H. unfold real_of in H. rewrite append_length in H. simpl in H. lia. Qed.
Lemma imag_ne a : imag_of a <> a.
Proof. intros H. apply (f_equal String.length) in H. unfold imag_of in H. rewrite append_length in H. simpl in H. lia. Qed.

Ltac eqs := repeat match goal with
  | |- context [String.eqb ?a ?a] => rewrite (String.eqb_refl a)
  | |- context [String.eqb ?a ?b] => destruct (String.eqb_spec a b); subst
  end.

Section Save.
Variable cast : R -> R.
Variable d : vars.
Hypothesis clash : no_clash d.
Let part (done : list string) (k : string) : Prop :=
  exists x re im, In x done /\ find x d = Some (Cx re im) /\ (k = real_of x \/ k = imag_of x).

(** state of the saving loop after the names in [done] *)
Record inv (done : list string) (cur : vars) (cx : list string) : Prop := {
  i_todo : forall k v, find k d = Some v -> ~ In k done -> find k cur = Some v;
  i_kept : forall k v, find k d = Some v -> In k done -> (forall re im, v <> Cx re im) -> find k cur = Some (stored cast v);
  i_gone : forall k re im, find k d = Some (Cx re im) -> In k done -> find k cur = None;
  i_parts : forall k re im, find k d = Some (Cx re im) -> In k done ->
    find (real_of k) cur = Some (F64 re) /\ find (imag_of k) cur = Some (F64 im);
  i_new : forall k, find k d = None -> ~ part done k -> find k cur = None;
  i_cx : forall k, In k cx <-> In k done /\ is_complex d k }.

Lemma clash_real x re im k : find x d = Some (Cx re im) -> find k d <> None -> real_of x <> k /\ imag_of x <> k.
Proof.
  intros H K. destruct (clash x) as [A B]; [exists re, im; exact H|].
  split; intros E; apply K; rewrite <- E; assumption.
Qed.

Lemma inv_step done nm cur cx caller sh cur' cx' caller' sh' : inv done cur cx -> ~ In nm done -> find nm d <> None ->
  save_step cast nm (cur, cx, caller, sh) = (cur', cx', caller', sh') -> inv (done ++ [nm]) cur' cx'.
Proof.
  intros I N F H. destruct (find nm d) as [v|] eqn:E; [clear F|congruence].
  pose proof (i_todo _ _ _ I nm v E N) as C. cbn [save_step] in H. rewrite C in H.
  assert (IA : forall k, In k (done ++ [nm]) <-> In k done \/ k = nm).
  { intros k. rewrite in_app_iff. simpl. intuition. }
  assert (PM : forall k, ~ part (done ++ [nm]) k -> ~ part done k).
  { intros k P Q. apply P. destruct Q as (x & re & im & Q1 & Q2). exists x, re, im. rewrite IA. tauto. }
  destruct v as [re im|x|x|x].
  - (* complex *)
    assert (Hc : cur' = drop nm (put (imag_of nm) (F64 im) (put (real_of nm) (F64 re) cur)) /\ cx' = cx ++ [nm]).
    { split; congruence. } destruct Hc as [-> ->]. clear H.
    assert (G : forall k, find k (drop nm (put (imag_of nm) (F64 im) (put (real_of nm) (F64 re) cur))) =
      if String.eqb nm k then None else if String.eqb (imag_of nm) k then Some (F64 im) else if String.eqb (real_of nm) k then Some (F64 re) else find k cur).
    { intros k. rewrite find_drop, !find_put. reflexivity. }
    assert (O : forall k w, find k d = Some w -> real_of nm <> k /\ imag_of nm <> k).
    { intros k w Hk. apply (clash_real nm re im); congruence. }
    constructor.
    + intros k w Hk Hn. rewrite IA in Hn. rewrite G. destruct (O k w Hk) as [O1 O2]. eqs; try tauto.
      apply (i_todo _ _ _ I); tauto.
    + intros k w Hk Hn Hv. rewrite IA in Hn. rewrite G. destruct (O k w Hk) as [O1 O2]. eqs; try tauto.
      * exfalso. apply (Hv re im). congruence.
      * apply (i_kept _ _ _ I); try assumption. destruct Hn; [assumption|congruence].
    + intros k re' im' Hk Hn. rewrite IA in Hn. rewrite G. destruct (O k _ Hk) as [O1 O2]. eqs; try tauto.
      apply (i_gone _ _ _ I k re' im'); [assumption|]. destruct Hn; [assumption|congruence].
    + intros k re' im' Hk Hn. rewrite IA in Hn. rewrite !G.
      destruct (clash_real k re' im' nm Hk) as [O1 O2]; [congruence|].
      destruct (string_dec k nm) as [->|Ne].
      * assert (re' = re /\ im' = im) as [-> ->] by (split; congruence).
        split; eqs; try tauto; try congruence; try (exfalso; eapply real_imag; eauto; fail).
      * assert (Hd : In k done) by tauto. destruct (i_parts _ _ _ I k re' im' Hk Hd) as [P1 P2].
        split; eqs; try congruence.
        -- exfalso. exact (real_imag k nm ltac:(congruence)).
        -- exfalso. apply Ne. apply real_inj. congruence.
        -- exfalso. apply Ne. apply imag_inj. congruence.
        -- exfalso. exact (real_imag nm k ltac:(congruence)).
    + intros k Hk HP. rewrite G.
      assert (nm <> k) by congruence.
      assert (imag_of nm <> k). { intros <-. apply HP. exists nm, re, im. rewrite IA. tauto. }
      assert (real_of nm <> k). { intros <-. apply HP. exists nm, re, im. rewrite IA. tauto. }
      eqs; try tauto. apply (i_new _ _ _ I); [exact Hk|apply PM; exact HP].
    + intros k. rewrite in_app_iff, (i_cx _ _ _ I), IA. simpl. split.
      * intros [H|[<-|[]]]; [tauto|]. split; [tauto|]. exists re, im. exact E.
      * intros [[H|H] H2]; [left; tauto|right; left; congruence].
  - (* double precision *)
    assert (Hc : cur' = put nm (F32 (map cast x)) cur /\ cx' = cx) by (split; congruence). destruct Hc as [-> ->]. clear H.
    constructor.
    + intros k w Hk Hn. rewrite IA in Hn. rewrite find_put. eqs; try tauto. apply (i_todo _ _ _ I); tauto.
    + intros k w Hk Hn Hv. rewrite IA in Hn. rewrite find_put. eqs.
      * assert (w = F64 x) by congruence. subst w. reflexivity.
      * apply (i_kept _ _ _ I); try assumption. destruct Hn; [assumption|congruence].
    + intros k re' im' Hk Hn. rewrite IA in Hn. rewrite find_put. eqs; [congruence|].
      apply (i_gone _ _ _ I k re' im'); [assumption|]. destruct Hn; [assumption|congruence].
    + intros k re' im' Hk Hn. rewrite IA in Hn. rewrite !find_put.
      destruct (clash_real k re' im' nm Hk) as [O1 O2]; [congruence|].
      assert (Hd : In k done) by (destruct Hn; [assumption|congruence]). destruct (i_parts _ _ _ I k re' im' Hk Hd) as [P1 P2].
      split; eqs; congruence.
    + intros k Hk HP. rewrite find_put. eqs; [congruence|]. apply (i_new _ _ _ I); [exact Hk|apply PM; exact HP].
    + intros k. rewrite (i_cx _ _ _ I), IA. split; [tauto|]. intros [[H|H] (re & im & H2)]; [|congruence]. split; [exact H|]. exists re, im. exact H2.
  - assert (Hc : cur' = cur /\ cx' = cx) by (split; congruence). destruct Hc as [-> ->]. clear H.
    constructor.
    + intros k w Hk Hn. rewrite IA in Hn. apply (i_todo _ _ _ I); tauto.
    + intros k w Hk Hn Hv. rewrite IA in Hn. destruct Hn as [Hn| ->]; [apply (i_kept _ _ _ I); assumption|].
      assert (w = F32 x) by congruence. subst w. exact C.
    + intros k re' im' Hk Hn. rewrite IA in Hn. destruct Hn; [|congruence]. apply (i_gone _ _ _ I k re' im'); assumption.
    + intros k re' im' Hk Hn. rewrite IA in Hn. destruct Hn; [|congruence]. apply (i_parts _ _ _ I k re' im'); assumption.
    + intros k Hk HP. apply (i_new _ _ _ I); [exact Hk|apply PM; exact HP].
    + intros k. rewrite (i_cx _ _ _ I), IA. split; [tauto|]. intros [[H|H] (re & im & H2)]; [|congruence]. split; [exact H|]. exists re, im. exact H2.
  - assert (Hc : cur' = cur /\ cx' = cx) by (split; congruence). destruct Hc as [-> ->]. clear H.
    constructor.
    + intros k w Hk Hn. rewrite IA in Hn. apply (i_todo _ _ _ I); tauto.
    + intros k w Hk Hn Hv. rewrite IA in Hn. destruct Hn as [Hn| ->]; [apply (i_kept _ _ _ I); assumption|].
      assert (w = Oth x) by congruence. subst w. exact C.
    + intros k re' im' Hk Hn. rewrite IA in Hn. destruct Hn; [|congruence]. apply (i_gone _ _ _ I k re' im'); assumption.
    + intros k re' im' Hk Hn. rewrite IA in Hn. destruct Hn; [|congruence]. apply (i_parts _ _ _ I k re' im'); assumption.
    + intros k Hk HP. apply (i_new _ _ _ I); [exact Hk|apply PM; exact HP].
    + intros k. rewrite (i_cx _ _ _ I), IA. split; [tauto|]. intros [[H|H] (re & im & H2)]; [|congruence]. split; [exact H|]. exists re, im. exact H2.
Qed.

Lemma cx_nodup done nm cur cx caller sh cur' cx' caller' sh' : inv done cur cx -> ~ In nm done -> NoDup cx ->
  save_step cast nm (cur, cx, caller, sh) = (cur', cx', caller', sh') -> NoDup cx'.
Proof.
  intros I N ND H. cbn [save_step] in H. destruct (find nm cur) as [[re im|x|x|x]|]; try (assert (cx' = cx) by congruence; congruence).
  assert (Hc : cx' = cx ++ [nm]) by congruence. rewrite Hc.
  assert (Hn : ~ In nm cx) by (intros K; apply (i_cx _ _ _ I) in K; tauto).
  clear -Hn ND. induction cx as [|c l IH]; simpl; [constructor; [tauto|constructor]|].
  inversion ND; subst. simpl in Hn. constructor.
  - rewrite in_app_iff. simpl. intuition.
  - apply IH; tauto.
Qed.

Lemma loop names : forall done cur cx caller sh cur' cx' caller' sh', inv done cur cx -> NoDup cx -> NoDup (done ++ names) ->
  (forall k, In k names -> find k d <> None) ->
  fold_left (fun st nm => save_step cast nm st) names (cur, cx, caller, sh) = (cur', cx', caller', sh') ->
  inv (done ++ names) cur' cx' /\ NoDup cx'.
Proof.
  induction names as [|nm names IH]; intros done cur cx caller sh cur' cx' caller' sh' I NC ND F H.
  - simpl in H. rewrite app_nil_r. assert (cur' = cur /\ cx' = cx) as [-> ->] by (split; congruence). split; assumption.
  - cbn [fold_left] in H. destruct (save_step cast nm (cur, cx, caller, sh)) as [[[c1 x1] l1] s1] eqn:E.
    assert (Hn : ~ In nm done). { apply NoDup_remove_2 in ND. rewrite in_app_iff in ND. tauto. }
    pose proof (inv_step _ _ _ _ _ _ _ _ _ _ I Hn (F nm (or_introl eq_refl)) E) as I1.
    pose proof (cx_nodup _ _ _ _ _ _ _ _ _ _ I Hn NC E) as N1.
    specialize (IH (done ++ [nm]) c1 x1 l1 s1 cur' cx' caller' sh' I1 N1).
    rewrite <- app_assoc in IH. apply IH; [exact ND| |exact H]. intros k Hk. apply F. right. exact Hk.
Qed.

(** state of the rejoining loop: [todo] are the complex variables still split *)
Record linv (todo : list string) (cur : vars) : Prop := {
  l_plain : forall k v, find k d = Some v -> (forall re im, v <> Cx re im) -> find k cur = Some (stored cast v);
  l_done : forall k re im, find k d = Some (Cx re im) -> ~ In k todo -> find k cur = Some (Cx re im);
  l_parts : forall k re im, find k d = Some (Cx re im) -> In k todo ->
    find (real_of k) cur = Some (F64 re) /\ find (imag_of k) cur = Some (F64 im);
  l_new : forall k, find k d = None -> ~ part todo k -> find k cur = None }.

Lemma rejoin_loop todo : forall cur, linv todo cur -> NoDup todo -> (forall k, In k todo -> is_complex d k) ->
  exists out, rejoin_all todo cur = Some out /\ linv [] out.
Proof.
  induction todo as [|nm todo IH]; intros cur I ND C.
  - exists cur. split; [reflexivity|exact I].
  - destruct (C nm (or_introl eq_refl)) as (re & im & E).
    destruct (l_parts _ _ I nm re im E (or_introl eq_refl)) as [P1 P2].
    cbn [rejoin_all]. unfold rejoin. rewrite P1, P2. cbn [numbers]. inversion ND as [|? ? N1 N2]; subst.
    apply IH; [|exact N2|intros; apply C; right; assumption].
    set (out := drop (imag_of nm) (drop (real_of nm) (put nm (Cx re im) cur))).
    assert (G : forall k, find k out = if String.eqb (imag_of nm) k then None else if String.eqb (real_of nm) k then None else
       if String.eqb nm k then Some (Cx re im) else find k cur).
    { intros k. unfold out. rewrite !find_drop, find_put. reflexivity. }
    assert (O : forall k w, find k d = Some w -> real_of nm <> k /\ imag_of nm <> k).
    { intros k w Hk. apply (clash_real nm re im); congruence. }
    constructor.
    + intros k v Hk Hv. rewrite G. destruct (O k v Hk). eqs; try tauto.
      * exfalso. apply (Hv re im). congruence.
      * apply (l_plain _ _ I); assumption.
    + intros k re' im' Hk Hn. rewrite G. destruct (O k _ Hk). eqs; try tauto; [congruence|].
      apply (l_done _ _ I); [assumption|]. simpl. tauto.
    + intros k re' im' Hk Hn. rewrite !G. destruct (l_parts _ _ I k re' im' Hk (or_intror Hn)) as [Q1 Q2].
      destruct (clash_real k re' im' nm Hk) as [O1 O2]; [congruence|].
      assert (Ne : nm <> k) by (intros ->; contradiction).
      split; eqs; try congruence.
      * exfalso. exact (real_imag k nm ltac:(congruence)).
      * exfalso. apply Ne. apply real_inj. congruence.
      * exfalso. apply Ne. apply imag_inj. congruence.
      * exfalso. exact (real_imag nm k ltac:(congruence)).
    + intros k Hk HP. rewrite G. eqs; try reflexivity; [congruence|]. apply (l_new _ _ I); [exact Hk|].
      intros (x & r & i & X1 & X2 & X3). apply HP. exists x, r, i. destruct X1 as [->|X1]; [|tauto].
      exfalso. destruct X3; congruence.
Qed.

Lemma start : inv [] d [].
Proof.
  constructor; try (simpl; tauto); intros; simpl in *; tauto.
Qed.
End Save.

Lemma round_trip cast d : NoDup (map fst (xvars d)) -> ~ In ""%string (map fst (xvars d)) -> no_clash (xvars d) -> long_names (xvars d) ->
  exists d', load (fst (save cast d)) = Some d' /\ xcomplex d' = None /\ xrotate d' = xrotate d /\
    forall nm, find nm (xvars d') = option_map (stored cast) (find nm (xvars d)).
Proof.
  intros ND NE C LN. unfold save, save_loop.
  destruct (fold_left _ _ _) as [[[cur cx] caller] sh] eqn:E.
  destruct (loop cast (xvars d) C (map fst (xvars d)) [] (xvars d) [] (xvars d) true cur cx caller sh) as [I NC];
    [apply start|constructor|exact ND|intros k Hk; apply find_In; exact Hk|exact E|].
  cbn [app] in I. cbn [fst]. unfold load. cbn [ncomplex nrotate nvars].
  assert (Inn : forall k v, find k (xvars d) = Some v -> In k (map fst (xvars d))).
  { intros k v H. apply find_In. congruence. }
  assert (L0 : linv cast (xvars d) cx cur).
  { constructor.
    - intros k v H Hv. apply (i_kept _ _ _ _ _ I); eauto.
    - intros k re im H Hn. exfalso. apply Hn. apply (i_cx _ _ _ _ _ I). split; [eauto|]. exists re, im. exact H.
    - intros k re im H Hn. apply (i_parts _ _ _ _ _ I k re im); eauto.
    - intros k H HP. apply (i_new _ _ _ _ _ I k H). intros (x & re & im & X1 & X2 & X3). apply HP. exists x, re, im.
      split; [|tauto]. apply (i_cx _ _ _ _ _ I). split; [exact X1|]. exists re, im. exact X2. }
  assert (CC : forall k, In k cx -> is_complex (xvars d) k) by (intros k Hk; apply (i_cx _ _ _ _ _ I) in Hk; tauto).
  destruct (rejoin_loop cast (xvars d) C cx cur L0 NC CC) as (out & EO & IO).
  assert (LC : load_complex (write_att cx) cur = Some out).
  { destruct cx as [|a [|b l]].
    - exact EO.
    - cbn [write_att load_complex]. destruct a as [|c a]; [|exact EO]. exfalso. apply NE.
      destruct (CC ""%string (or_introl eq_refl)) as (re & im & H). eauto.
    - cbn [write_att load_complex]. destruct (Nat.eqb_spec (String.length a) 1) as [L1|]; [|exact EO]. exfalso.
      inversion NC as [|? ? N1 N2]; subst. apply (LN a b); [apply CC; simpl; tauto|apply CC; simpl; tauto| |exact L1].
      intros ->. apply N1. left. reflexivity. }
  rewrite LC. eexists. split; [reflexivity|]. cbn [xcomplex xrotate xvars]. split; [reflexivity|]. split.
  { destruct (xrotate d) as [|a [|b l]]; reflexivity. }
  intros nm. destruct (find nm (xvars d)) as [v|] eqn:Ev; cbn [option_map].
  - destruct v as [re im|x|x|x]; try (apply (l_plain _ _ _ _ IO); [exact Ev|discriminate]).
    apply (l_done _ _ _ _ IO); [exact Ev|simpl; tauto].
  - apply (l_new _ _ _ _ IO); [exact Ev|]. intros (x & re & im & [] & _).
Qed.

(** * what goes wrong *)
Lemma encoding_ignored {E} (user own : string -> option E) d nm : find nm d <> None -> save_encoding user own d nm = own nm.
Proof.
  intros H. unfold save_encoding. destruct (existsb _ _) eqn:X; [reflexivity|]. exfalso.
  apply find_In in H. assert (existsb (String.eqb nm) (map fst d) = true) by (apply existsb_exists; exists nm; split; [exact H|apply String.eqb_refl]).
  congruence.
Qed.

Lemma caller_kept cast d : (forall nm v, In (nm, v) (xvars d) -> (forall x, v <> F64 x) /\ (forall re im, v <> Cx re im)) ->
  xvars (snd (save cast d)) = xvars d.
Proof.
  intros H. unfold save, save_loop.
  assert (F : forall names, fold_left (fun st nm => save_step cast nm st) names (xvars d, [], xvars d, true) = (xvars d, [], xvars d, true)).
  { induction names as [|nm names IH]; [reflexivity|]. cbn [fold_left].
    assert (E : save_step cast nm (xvars d, [], xvars d, true) = (xvars d, [], xvars d, true)).
    { cbn [save_step]. destruct (find nm (xvars d)) as [v|] eqn:Ev; [|reflexivity].
      assert (I : In (nm, v) (xvars d)).
      { clear -Ev. induction (xvars d) as [|[k w] l IH]; simpl in *; [discriminate|].
        destruct (String.eqb_spec k nm) as [->|]; [left; congruence|right; auto]. }
      destruct (H nm v I) as [A B]. destruct v; try reflexivity; [exfalso; eapply B; reflexivity|exfalso; eapply A; reflexivity]. }
    rewrite E. exact IH. }
  rewrite F. reflexivity.
Qed.

Lemma put_keeps k v l nm : find nm l <> None -> find nm (put k v l) <> None.
Proof.
  induction l as [|[k' v'] l IH]; cbn; [easy|]. destruct (String.eqb_spec k' k) as [->|N]; cbn; destruct (String.eqb _ nm); try easy.
Qed.
Lemma nothing_lost cast d nm : find nm (xvars d) <> None -> find nm (xvars (snd (save cast d))) <> None.
Proof.
  intros H. unfold save, save_loop.
  assert (F : forall names cur cx caller shared, find nm caller <> None -> (shared = true -> find nm cur <> None) ->
    let '(_, _, caller', _) := fold_left (fun st n => save_step cast n st) names (cur, cx, caller, shared) in find nm caller' <> None).
  { induction names as [|n names IH]; intros cur cx caller shared A B; [exact A|]. cbn [fold_left]. unfold save_step at 2.
    destruct (find n cur) as [[re im|x|x|x]|]; try (apply IH; assumption).
    - apply IH; [|discriminate]. destruct shared; [|exact A]. apply put_keeps, put_keeps. now apply B.
    - apply IH; [|intros ->; apply put_keeps; now apply B]. destruct shared; [|exact A]. apply put_keeps. now apply B. }
  specialize (F (map fst (xvars d)) (xvars d) [] (xvars d) true H (fun _ => H)).
  destruct (fold_left _ _ _) as [[[cur cx] caller] sh]. exact F.
Qed.
