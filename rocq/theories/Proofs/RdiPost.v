From Coq Require Import String QArith Reals List Bool Lia Sorted Permutation.
From Verif.Model Require Import Linalg Rotate RdiPost.
From Verif.Spec Require Import Rotate.
From Verif.Spec Require HandleNan.
From Verif.Proofs Require Declination Rotate.
Import ListNotations.

(** ** sorting *)
Definition lt_key (a b : option Q) : Prop :=
  match a, b with Some x, Some y => (x < y)%Q | Some _, None => True | None, _ => False end.
Definition eq_key (a b : option Q) : Prop :=
  match a, b with Some x, Some y => (x == y)%Q | None, None => True | _, _ => False end.
Definition before (p q : option Q * nat) : Prop := lt_key (fst p) (fst q) \/ eq_key (fst p) (fst q) /\ (snd p < snd q)%nat.
Lemma time_le_spec a b : time_le a b = true <-> lt_key a b \/ eq_key a b.
Proof.
  destruct a as [x|], b as [y|]; cbn; [|intuition|intuition|intuition]. rewrite Qle_bool_iff. rewrite Qle_lteq. tauto.
Qed.
Lemma time_eq_spec a b : time_eq a b = true <-> eq_key a b.
Proof. destruct a as [x|], b as [y|]; cbn; [apply Qeq_bool_iff|intuition|intuition|intuition]. Qed.
Lemma key_total a b : ~ (lt_key a b \/ eq_key a b) -> lt_key b a.
Proof.
  destruct a as [x|], b as [y|]; cbn; try tauto. intros H. destruct (Q_dec x y) as [[L|G]|E]; tauto.
Qed.
Lemma lt_key_trans a b c : lt_key a b -> lt_key b c -> lt_key a c.
Proof. destruct a, b, c; cbn; try tauto. apply Qlt_trans. Qed.
Lemma eq_lt_key a b c : eq_key a b -> lt_key b c -> lt_key a c.
Proof. destruct a, b, c; cbn; try tauto. intros ->. easy. Qed.
Lemma lt_eq_key a b c : lt_key a b -> eq_key b c -> lt_key a c.
Proof. destruct a, b, c; cbn; try tauto. intros H <-. easy. Qed.
Lemma eq_key_trans a b c : eq_key a b -> eq_key b c -> eq_key a c.
Proof. destruct a, b, c; cbn; try tauto. intros ->. easy. Qed.
Lemma eq_key_sym a b : eq_key a b -> eq_key b a.
Proof. destruct a, b; cbn; try tauto. now intros ->. Qed.
Lemma lt_eq_excl a b : lt_key a b -> eq_key a b -> False.
Proof. destruct a, b; cbn; try tauto. intros H E. rewrite E in H. now apply (Qlt_irrefl q0). Qed.
Lemma before_trans p q r : before p q -> before q r -> before p r.
Proof.
  unfold before. intros [A|[A A']] [B|[B B']].
  - left. eapply lt_key_trans; eassumption.
  - left. eapply lt_eq_key; eassumption.
  - left. eapply eq_lt_key; eassumption.
  - right. split; [eapply eq_key_trans; eassumption|lia].
Qed.
Lemma insert_in p l x : In x (insert_time p l) <-> x = p \/ In x l.
Proof.
  induction l as [|q l IH]; cbn; [intuition|]. destruct (time_le (fst p) (fst q)); cbn; [intuition|]. rewrite IH. intuition.
Qed.
Lemma insert_sorted p l : StronglySorted before l -> (forall q, In q l -> (snd p < snd q)%nat) -> StronglySorted before (insert_time p l).
Proof.
  induction l as [|q l IH]; intros Hs Hp; cbn; [repeat constructor|]. inversion Hs as [|? ? Hs' F]; subst.
  destruct (time_le (fst p) (fst q)) eqn:E.
  - apply time_le_spec in E. assert (B : before p q) by (destruct E as [E|E]; [now left|right; split; [easy|apply Hp; now left]]).
    constructor; [easy|]. constructor; [easy|]. rewrite Forall_forall in *. intros x Hx. eapply before_trans; [exact B|now apply F].
  - assert (L : lt_key (fst q) (fst p)). { apply key_total. intros H. apply time_le_spec in H. congruence. }
    constructor; [apply IH; [easy|]; intros x Hx; apply Hp; now right|]. rewrite Forall_forall in *. intros x Hx. apply insert_in in Hx as [->|Hx]; [now left|now apply F].
Qed.
Lemma in_combine_seq {A} (t : list A) : forall s x i, In (x, i) (combine t (seq s (length t))) <-> (s <= i)%nat /\ nth_error t (i - s) = Some x.
Proof.
  induction t as [|a t IH]; intros s x i; cbn.
  - split; [easy|]. intros [_ H]. destruct (i - s)%nat; discriminate.
  - rewrite IH. split.
    + intros [E|[L H]]; [injection E as <- <-; split; [lia|now rewrite Nat.sub_diag]|]. split; [lia|]. replace (i - s)%nat with (S (i - S s)) by lia. easy.
    + intros [L H]. destruct (Nat.eq_dec i s) as [->|N]; [left; rewrite Nat.sub_diag in H; cbn in H; congruence|]. right. split; [lia|].
      replace (i - s)%nat with (S (i - S s)) in H by lia. easy.
Qed.
Lemma argsort_gen t : forall s, StronglySorted before (fold_right insert_time [] (combine t (seq s (length t)))) /\
  forall p, In p (fold_right insert_time [] (combine t (seq s (length t)))) <-> In p (combine t (seq s (length t))).
Proof.
  induction t as [|a t IH]; intros s; cbn [length seq combine fold_right]; [split; [constructor|easy]|]. destruct (IH (S s)) as [A B]. split.
  - apply insert_sorted; [easy|]. intros [y i] Hq. apply B in Hq. apply in_combine_seq in Hq. cbn. lia.
  - intros p. rewrite insert_in, B. cbn. intuition.
Qed.
Lemma argsort_sorted t : StronglySorted before (argsort t).
Proof. apply argsort_gen. Qed.
Lemma argsort_in t x i : In (x, i) (argsort t) <-> nth_error t i = Some x.
Proof. unfold argsort. rewrite (proj2 (argsort_gen t 0)), in_combine_seq, Nat.sub_0_r. intuition lia. Qed.

(** ** first of runs *)
Lemma runs_in prev l p : In p (first_of_runs prev l) -> In p l.
Proof.
  revert prev. induction l as [|q l IH]; intros prev; cbn; [easy|].
  destruct (match prev with Some v => time_eq v (fst q) | None => false end); cbn; intros H; [right; eapply IH; eassumption|].
  destruct H as [<-|H]; [now left|right; eapply IH; eassumption].
Qed.
Definition above (prev : option (option Q)) (p : option Q * nat) : Prop :=
  match prev with Some v => lt_key v (fst p) | None => True end.
Definition from (prev : option (option Q)) (p : option Q * nat) : Prop :=
  match prev with Some v => lt_key v (fst p) \/ eq_key v (fst p) | None => True end.
Lemma runs_ok l : forall prev, StronglySorted before l -> Forall (from prev) l ->
  Forall (above prev) (first_of_runs prev l) /\
  StronglySorted (fun p q => lt_key (fst p) (fst q)) (first_of_runs prev l) /\
  (forall p, In p (first_of_runs prev l) -> forall q, In q l -> eq_key (fst q) (fst p) -> (snd p <= snd q)%nat) /\
  (forall q, In q l -> (exists v, prev = Some v /\ eq_key v (fst q)) \/ exists p, In p (first_of_runs prev l) /\ eq_key (fst p) (fst q)).
Proof.
  induction l as [|q l IH]; intros prev Hs Hf; cbn [first_of_runs]; [repeat split; [constructor|constructor|easy|easy]|].
  inversion Hs as [|? ? Hs' F]; subst. inversion Hf as [|? ? Fq Hf']; subst. rewrite Forall_forall in F.
  destruct (match prev with Some v => time_eq v (fst q) | None => false end) eqn:E.
  - destruct prev as [v|]; [|discriminate]. apply time_eq_spec in E. destruct (IH (Some v) Hs' Hf') as (A & B & C & D).
    split; [easy|]. split; [easy|]. split.
    + intros p Hp r [<-|Hr] Er; [|now apply C]. exfalso. rewrite Forall_forall in A. specialize (A p Hp). cbn in A.
      apply (lt_eq_excl _ _ A). eapply eq_key_trans; [exact E|exact Er].
    + intros r [<-|Hr]; [left; now exists v|]. destruct (D r Hr) as [(v' & Ev & K)|K]; [left; now exists v'|now right].
  - assert (Ab : above prev q). { destruct prev as [v|]; [|easy]. cbn in *. destruct Fq as [L|K]; [easy|]. apply time_eq_spec in K. congruence. }
    assert (Ff : Forall (from (Some (fst q))) l).
    { apply Forall_forall. intros r Hr. destruct (F r Hr) as [L|[K _]]; cbn; [now left|now right]. }
    destruct (IH (Some (fst q)) Hs' Ff) as (A & B & C & D). split; [|split; [|split]].
    + constructor; [easy|]. eapply Forall_impl; [|exact A]. intros r Hr. destruct prev as [v|]; [|easy]. cbn in *. eapply lt_key_trans; eassumption.
    + constructor; [easy|exact A].
    + intros p [<-|Hp] r [<-|Hr] Er; [lia| | |now apply C].
      * destruct (F r Hr) as [L|[_ L]]; [|lia]. exfalso. apply (lt_eq_excl _ _ L). now apply eq_key_sym.
      * exfalso. rewrite Forall_forall in A. specialize (A p Hp). cbn in A. exact (lt_eq_excl _ _ A Er).
    + intros r [<-|Hr]; [right; exists q; split; [now left|destruct (fst q); cbn; [reflexivity|easy]]|].
      destruct (D r Hr) as [(v' & Ev & K)|(p & Hp & K)]; [injection Ev as <-; right; exists q; split; [now left|easy]|right; exists p; split; [now right|easy]].
Qed.
Lemma flat_sorted l : StronglySorted (fun p q => lt_key (fst p) (fst q)) l ->
  StronglySorted (fun p q : Q * nat => (fst p < fst q)%Q) (flat_map (fun p : option Q * nat => match fst p with Some x => [(x, snd p)] | None => [] end) l).
Proof.
  induction l as [|[[x|] i] l IH]; intros H; inversion H as [|? ? Hs F]; subst; cbn [flat_map fst snd app]; [constructor| |now apply IH].
  constructor; [now apply IH|]. rewrite Forall_forall in *. intros [y j] Hy. apply in_flat_map in Hy as ([[z|] k] & Hz & Hin); [|easy].
  destruct Hin as [E|[]]. injection E as <- <-. exact (F _ Hz).
Qed.
Lemma unique_ok t : StronglySorted (fun p q => (fst p < fst q)%Q) (unique_times t) /\
  (forall x i, In (x, i) (unique_times t) <-> nth_error t i = Some (Some x) /\ (forall j y, (j < i)%nat -> nth_error t j = Some (Some y) -> ~ (y == x)%Q)) /\
  (forall y j, nth_error t j = Some (Some y) -> exists x i, In (x, i) (unique_times t) /\ (x == y)%Q).
Proof.
  assert (FN : Forall (from None) (argsort t)) by (apply Forall_forall; easy).
  destruct (runs_ok (argsort t) None (argsort_sorted t) FN) as (_ & B & C & D). split; [now apply flat_sorted|].
  assert (I : forall x i, In (x, i) (unique_times t) <-> In (Some x, i) (first_of_runs None (argsort t))).
  { intros x i. unfold unique_times. rewrite in_flat_map. split.
    - intros ([[z|] k] & Hz & Hin); [|easy]. destruct Hin as [E|[]]. injection E as <- <-. exact Hz.
    - intros H. exists (Some x, i). split; [easy|now left]. }
  assert (M : forall y j, nth_error t j = Some (Some y) -> exists x i, In (Some x, i) (first_of_runs None (argsort t)) /\ (x == y)%Q).
  { intros y j H. apply argsort_in in H. destruct (D _ H) as [(v & Ev & _)|([[x|] i] & Hp & K)]; [discriminate| |easy]. now exists x, i. }
  split.
  - intros x i. rewrite I. split.
    + intros H. split; [now apply argsort_in, (runs_in None)|]. intros j y L H' E. apply argsort_in in H'.
      specialize (C _ H _ H' E). cbn in C. lia.
    + intros [H N]. destruct (M x i H) as (x' & i' & H' & E).
      assert (Hi : nth_error t i' = Some (Some x')) by now apply argsort_in, (runs_in None).
      assert (L : (i' <= i)%nat). { apply (C _ H' (Some x, i)); [now apply argsort_in|]. cbn. now symmetry. }
      destruct (Nat.eq_dec i' i) as [->|Ne]; [congruence|]. exfalso. apply (N i' x'); [lia|exact Hi|exact E].
  - intros y j H. destruct (M y j H) as (x & i & Hin & E). exists x, i. now rewrite I.
Qed.
Lemma sorted_increasing t : (forall i j x y, (i < j)%nat -> nth_error t i = Some (Some x) -> nth_error t j = Some (Some y) -> (x <= y)%Q) ->
  StronglySorted lt (map snd (unique_times t)).
Proof.
  intros Mono. destruct (unique_ok t) as (Hs & Hin & _). assert (I : forall p, In p (unique_times t) -> nth_error t (snd p) = Some (Some (fst p))).
  { intros [x i] H. now apply Hin in H. }
  clear Hin. induction (unique_times t) as [|p l IH]; cbn; [constructor|]. inversion Hs as [|? ? Hs' F]; subst. constructor; [apply IH; [easy|]; intros q Hq; apply I; now right|].
  rewrite Forall_forall in *. intros k Hk. apply in_map_iff in Hk as (q & <- & Hq). specialize (F q Hq). cbn in F.
  destruct (Nat.lt_trichotomy (snd p) (snd q)) as [L|[E|G]]; [easy| |]; exfalso.
  - pose proof (I p (or_introl eq_refl)) as A. pose proof (I q (or_intror Hq)) as B. rewrite E in A. rewrite A in B. injection B as B. rewrite B in F. now apply (Qlt_irrefl (fst q)).
  - pose proof (Mono _ _ _ _ G (I q (or_intror Hq)) (I p (or_introl eq_refl))) as K. apply (Qlt_not_le _ _ F K).
Qed.

(** ** declination *)
Lemma no_variation fam d a : admissible fam d -> NoDup (rotate_vars d) -> frame_ok d (coord_sys d) -> declination d = Some a ->
  exists d', set_rdi_declination 0 d = Ok d' /\ set_declination (set_decl d None) a = Ok d'.
Proof.
  intros A N F E. unfold set_rdi_declination. rewrite E. destruct (Req_EM_T 0 0); [|easy].
  destruct (Declination.replaces fam (set_decl d None) a a) as (d1 & _ & H & _); [now apply Declination.adm_set_decl|easy|destruct d; exact F|]. now exists d1.
Qed.
Lemma both_given fam d a magvar : admissible fam d -> NoDup (rotate_vars d) -> frame_ok d (coord_sys d) -> declination d = Some a -> magvar <> 0%R ->
  set_rdi_declination magvar d = Ok d.
Proof.
  intros A N F E M. unfold set_rdi_declination. rewrite E. destruct (Req_EM_T magvar 0); [easy|].
  set (d2 := set_decl (set_decl (set_decl d None) (Some magvar)) (Some a)). assert (D2 : d2 = d) by (destruct d; cbn in *; unfold d2; cbn; now rewrite E).
  rewrite D2. destruct (Rotate.adm_index _ _ A) as (i & Hi & C). rewrite (Declination.sd_ok fam d i a) by assumption.
  rewrite Declination.declined_same; [|assumption|assumption|unfold declination_change; rewrite E; ring]. destruct d; cbn in *; now rewrite E.
Qed.
Lemma variation_only magvar d : declination d = None -> magvar <> 0%R -> set_rdi_declination magvar d = Ok (set_decl d (Some magvar)).
Proof. intros E M. unfold set_rdi_declination. rewrite E. destruct (Req_EM_T magvar 0); [easy|]. now destruct d. Qed.
Lemma no_variation_values fam d a nm k c x : admissible fam d -> NoDup (rotate_vars d) -> coord_sys d = "earth"%string ->
  declination d = Some a -> In nm (rotate_vars d) -> value d nm k c = Some x ->
  exists d', set_rdi_declination 0 d = Ok d' /\ declination d' = Some a /\ value d' nm k c = Some (clockwise a x).
Proof.
  intros A N C E I V. assert (F : frame_ok d (coord_sys d)) by (split; [apply A|rewrite C; discriminate]).
  destruct (no_variation fam d a A N F E) as (d' & H & H'). exists d'. split; [exact H|].
  assert (A0 : admissible fam (set_decl d None)) by now apply Declination.adm_set_decl.
  assert (F0 : frame_ok (set_decl d None) (coord_sys (set_decl d None))) by (destruct d; exact F).
  split; [now apply (Declination.attributes fam (set_decl d None) a d')|].
  exact (Declination.earth_clockwise fam (set_decl d None) a d' nm k c x A0 N C H' I V).
Qed.
Section Names.
Local Open Scope nat_scope.
Local Open Scope string_scope.
Lemma substring_split : forall s n m, n + m <= String.length s -> exists a b, s = a ++ substring n m s ++ b /\ String.length a = n.
Proof.
  induction s as [|c s IH]; intros n m L.
  - cbn in L. assert (n = 0) by lia. assert (m = 0) by lia. subst. exists "", "". split; reflexivity.
  - destruct n as [|n].
    + destruct m as [|m]; [exists "", (String c s); split; reflexivity|]. cbn in L. destruct (IH 0 m ltac:(lia)) as (a & b & E & La).
      destruct a as [|x a]; [|discriminate La]. exists "", b. split; [|reflexivity]. cbn in *. f_equal. exact E.
    + cbn in L. destruct (IH n m ltac:(lia)) as (a & b & E & La). exists (String c a), b. split; [cbn; f_equal; exact E|cbn; f_equal; exact La].
Qed.
Lemma substring_mid a s b : substring (String.length a) (String.length s) (a ++ s ++ b) = s.
Proof.
  induction a as [|c a IH]; [|exact IH]. cbn. induction s as [|c s IH]; [destruct b; reflexivity|]. cbn. f_equal. exact IH.
Qed.
Lemma substring_short : forall s n m, substring n m s <> "" -> n <= String.length s.
Proof. induction s as [|c s IH]; intros n m H; [destruct n; [cbn; lia|destruct m; cbn in H; congruence]|]. destruct n; [cbn; lia|]. cbn in *. apply IH in H. lia. Qed.
Lemma substring_len : forall s n m, String.length (substring n m s) = m -> m = 0 \/ n + m <= String.length s.
Proof.
  induction s as [|c s IH]; intros n m H.
  - destruct n, m; cbn in H; auto; lia.
  - destruct n as [|n].
    + destruct m as [|m]; [auto|]. cbn in H. injection H as H. destruct (IH 0 m H) as [->|X]; cbn; lia.
    + cbn in H. destruct (IH n m H) as [->|X]; cbn; lia.
Qed.
Lemma has_sub_spec sub key : sub <> "" -> (has_sub sub key = true <-> HandleNan.mentions sub key).
Proof.
  intros NE. unfold has_sub. destruct (index 0 sub key) as [p|] eqn:E; split; try discriminate; auto; intros H.
  - apply index_correct1 in E. destruct (substring_len key p (String.length sub)) as [Z|L]; [rewrite E; reflexivity|destruct sub; [congruence|discriminate]|].
    destruct (substring_split key p _ L) as (a & b & K & _). rewrite E in K. exists a, b. exact K.
  - destruct H as (a & b & ->). exfalso. apply (index_correct3 0 (String.length a) _ _ E NE); [lia|]. apply substring_mid.
Qed.
End Names.
Lemma dedup_ok hdw t dvs ts out : remove_gps_duplicates hdw t dvs = (ts, out) ->
  exists idx, length idx = length ts /\ StronglySorted Qlt ts /\
    (forall k, (k < length ts)%nat -> nth_error t (nth k idx 0%nat) = Some (Some (nth k ts 0%Q)) /\
       forall j y, (j < nth k idx 0)%nat -> nth_error t j = Some (Some y) -> ~ (y == nth k ts 0)%Q) /\
    (forall j y, nth_error t j = Some (Some y) -> exists k, (k < length ts)%nat /\ (nth k ts 0 == y)%Q) /\
    (forall nm v, In (nm, v) (dvs ++ [("hdwtime_gps"%string, map Some hdw)]) ->
       HandleNan.mentions "gps" nm \/ HandleNan.mentions "nmea" nm -> In (nm, map (fun i => nth i v None) idx) out) /\
    (forall nm v, In (nm, v) dvs -> ~ HandleNan.mentions "gps" nm -> ~ HandleNan.mentions "nmea" nm -> In (nm, v) out) /\
    ((forall i j x y, (i < j)%nat -> nth_error t i = Some (Some x) -> nth_error t j = Some (Some y) -> (x <= y)%Q) -> StronglySorted lt idx).
Proof.
  unfold remove_gps_duplicates. intros E. injection E as <- <-. destruct (unique_ok t) as (Hs & Hin & Hall). set (u := unique_times t) in *.
  exists (map snd u). split; [now rewrite !map_length|]. split.
  { clear Hin Hall. induction u as [|p l IH]; cbn; [constructor|]. inversion Hs as [|? ? Hs' F]; subst. constructor; [now apply IH|].
    rewrite Forall_forall in *. intros x Hx. apply in_map_iff in Hx as (q & <- & Hq). now apply F. }
  split.
  { intros k Hk. rewrite map_length in Hk. rewrite (nth_indep _ _ (snd (0%Q, 0%nat))), map_nth by now rewrite map_length.
    rewrite (nth_indep (map fst u) 0%Q (fst (0%Q, 0%nat))), map_nth by now rewrite map_length.
    pose proof (nth_In u (0%Q, 0%nat) Hk) as H. destruct (nth k u (0%Q, 0%nat)) as [x i]. cbn [fst snd]. now apply Hin. }
  split.
  { intros j y H. destruct (Hall y j H) as (x & i & Hx & Q'). apply (In_nth _ _ (0%Q, 0%nat)) in Hx as (k & Hk & Ek). exists k. rewrite map_length. split; [easy|].
    rewrite (nth_indep (map fst u) 0%Q (fst (0%Q, 0%nat))), map_nth by now rewrite map_length. now rewrite Ek. }
  split; [|split; [|intros Mono; now apply sorted_increasing]].
  - intros nm v H G. apply in_map_iff. exists (nm, v). split; [|easy]. cbn [fst snd]. destruct G as [G|G].
    + apply (has_sub_spec "gps" nm ltac:(discriminate)) in G. rewrite G. reflexivity.
    + apply (has_sub_spec "nmea" nm ltac:(discriminate)) in G. rewrite G, orb_true_r. reflexivity.
  - intros nm v H G1 G2. apply in_map_iff. exists (nm, v). split; [|apply in_or_app; now left]. cbn [fst snd].
    assert (F : forall w, w <> ""%string -> ~ HandleNan.mentions w nm -> has_sub w nm = false).
    { intros w W G. destruct (has_sub w nm) eqn:X; [|reflexivity]. apply (has_sub_spec _ _ W) in X. contradiction. }
    rewrite (F "gps"%string), (F "nmea"%string) by (assumption || discriminate). reflexivity.
Qed.
