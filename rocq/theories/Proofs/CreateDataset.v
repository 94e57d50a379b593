(** Proofs about the assembly of datasets. *)
From Coq Require Import String Ascii.
From Coq Require Import List Bool Arith Lia.
From Verif.Model Require Import SigData CreateDataset.
From Verif.Spec Require Import CreateDataset.
Import ListNotations.
Open Scope string_scope.

Section Elements.
Context {V : Type}.
Implicit Types (a : array V) (ds : dict (entry V)).

Lemma get_set {A} (d : dict A) k v k' : get (set d k v) k' = if String.eqb k k' then Some v else get d k'.
Proof.
  induction d as [|[k1 v1] d IH]; simpl.
  - reflexivity.
  - destruct (String.eqb_spec k1 k) as [->|N]; simpl.
    + destruct (String.eqb_spec k k'); reflexivity.
    + rewrite IH. destruct (String.eqb_spec k1 k') as [->|N']; [|reflexivity].
      destruct (String.eqb_spec k k'); [congruence|reflexivity].
Qed.
Lemma get_app {A} (d : dict A) e k : get (app d e) k = match get d k with Some v => Some v | None => get e k end.
Proof. induction d as [|[k1 v1] d IH]; simpl; [reflexivity|]. destruct (String.eqb k1 k); auto. Qed.
Lemma get_in {A} (d : dict A) k v : get d k = Some v -> In (k, v) d.
Proof.
  induction d as [|[k1 v1] d IH]; simpl; [discriminate|].
  destruct (String.eqb_spec k1 k) as [->|N]; intro H; [injection H as ->; now left|right; auto].
Qed.
Lemma get_nodup {A} (d : dict A) k v : NoDup (map fst d) -> In (k, v) d -> get d k = Some v.
Proof.
  induction d as [|[k1 v1] d IH]; simpl; [tauto|]. intros N [E|H].
  - injection E as -> ->. now rewrite String.eqb_refl.
  - inversion N; subst. destruct (String.eqb_spec k1 k) as [->|]; auto.
    destruct H2. apply in_map_iff. now exists (k, v).
Qed.
Lemma set_in {A} (d : dict A) k v p : In p (set d k v) -> p = (k, v) \/ In p d.
Proof.
  induction d as [|[k1 v1] d IH]; simpl.
  - intros [<-|[]]; now left.
  - destruct (String.eqb k1 k); simpl.
    + intros [<-|H]; [now left|right; now right].
    + intros [<-|H]; [right; now left|]. destruct (IH H) as [->|]; [now left|right; now right].
Qed.

(** every entry agrees with the sizes of the axes *)
Definition sized (size : string -> nat) (e : entry V) : Prop := extent (snd e) = map size (fst e).
Definition all_sized size ds : Prop := forall p, In p ds -> sized size (snd p).

Lemma combine_map_in (size : string -> nat) l p : In p (combine l (map size l)) -> snd p = size (fst p).
Proof.
  induction l as [|x l IH]; simpl; [tauto|]. intros [<-|H]; auto.
Qed.
Lemma from_dict_ok size ds : all_sized size ds -> from_dict ds = inr ds.
Proof.
  intro H. unfold from_dict.
  assert (A : forall p, In p (flat_map (fun p => sizes (snd p)) ds) -> snd p = size (fst p)).
  { intros p Hp. apply in_flat_map in Hp. destruct Hp as [q [Hq Hp]].
    unfold sizes in Hp. rewrite (H q Hq) in Hp. exact (combine_map_in _ _ _ Hp). }
  rewrite (proj2 (forallb_forall _ _)).
  2:{ intros p Hp. apply Nat.eqb_eq. rewrite (H p Hp). now rewrite map_length. }
  rewrite (proj2 (forallb_forall _ _)); [reflexivity|].
  intros p Hp. apply forallb_forall. intros q Hq. unfold agree.
  destruct (String.eqb_spec (fst p) (fst q)) as [E|]; [|reflexivity].
  simpl. apply Nat.eqb_eq. rewrite (A p Hp), (A q Hq). now rewrite E.
Qed.

(** adding an axis *)
Definition extra : list string := ["x1"; "x2"; "earth"; "inst"; "q"; "dirIMU"].
Lemma add_axis_get ds n k : fst n <> k -> get (add_axis ds n) k = get ds k.
Proof.
  intro N. unfold add_axis. destruct (get ds (fst n)) eqn:E.
  - destruct (_ || _); [|reflexivity]. rewrite get_set. destruct (String.eqb_spec (fst n) k); [contradiction|reflexivity].
  - rewrite get_app. destruct (get ds k); [reflexivity|]. simpl.
    destruct (String.eqb_spec (fst n) k); [contradiction|reflexivity].
Qed.
Lemma add_axis_in ds n p : In p (add_axis ds n) -> In p ds \/ p = axis n.
Proof.
  unfold add_axis. destruct (get ds (fst n)).
  - destruct (_ || _); [|now left]. intro H. destruct (set_in _ _ _ _ H) as [->|]; [right|now left].
    reflexivity.
  - intro H. apply in_app_or in H. destruct H as [|[<-|[]]]; [now left|now right].
Qed.
Lemma add_axes_get ax ds k : (forall n, In n ax -> fst n <> k) -> get (fold_left add_axis ax ds) k = get ds k.
Proof.
  revert ds. induction ax as [|n ax IH]; intros ds H; simpl; [reflexivity|].
  rewrite IH by (intros; apply H; now right). apply add_axis_get. apply H. now left.
Qed.
Lemma add_axes_sized size ax ds :
  (forall n, In n ax -> snd n = size (fst n)) -> all_sized size ds -> all_sized size (fold_left add_axis ax ds).
Proof.
  revert ds. induction ax as [|n ax IH]; intros ds H S; simpl; [exact S|].
  apply IH; [intros; apply H; now right|].
  intros p Hp. destruct (add_axis_in _ _ _ Hp) as [| ->]; [auto|].
  unfold sized, axis. simpl. rewrite (H n); [reflexivity|now left].
Qed.

(** what is kept of a variable *)
Definition kept key a : array V := if is_fifth key then first_plane a else a.
(** a layout is respected by [place] *)
Definition respects (L : layout) nb (cs : dict nat) (size : string -> nat) : Prop :=
  forall key axes a tg, get L key = Some axes ->
    shape a = (if is_fifth key then 1 :: map size axes else map size axes) ->
    exists ax tg', place nb cs key a tg = inr (ax, Some (axes, Data (kept key a)), tg')
      /\ forall n, In n ax -> In (fst n) extra /\ snd n = size (fst n).

Lemma place_all_ok L nb cs size vars : respects L nb cs size ->
  (forall key, In key (map fst L) -> ~ In key extra) ->
  NoDup (map fst vars) ->
  (forall key a, In (key, a) vars -> exists axes, get L key = Some axes
        /\ shape a = if is_fifth key then 1 :: map size axes else map size axes) ->
  forall tg ds, all_sized size ds ->
  exists ds', place_all nb cs vars tg ds = inr ds' /\ all_sized size ds'
    /\ (forall k, ~ In k extra -> ~ In k (map fst vars) -> get ds' k = get ds k)
    /\ (forall key a axes, In (key, a) vars -> get L key = Some axes -> get ds' key = Some (axes, Data (kept key a))).
Proof.
  intros R X. induction vars as [|[key a] vars IH]; intros N F tg ds S; simpl.
  - exists ds. repeat split; auto. intros ? ? ? [].
  - inversion N as [|? ? N1 N2]; subst.
    destruct (F key a (or_introl eq_refl)) as [axes [G Sh]].
    destruct (R key axes a tg G Sh) as [ax [tg' [P A]]]. rewrite P.
    assert (Kx : ~ In key extra). { apply X. apply in_map_iff. exists (key, axes). split; [reflexivity|now apply get_in]. }
    set (ds1 := fold_left add_axis ax ds).
    assert (S2 : all_sized size (set ds1 key (axes, Data (kept key a)))).
    { intros p Hp. destruct (set_in _ _ _ _ Hp) as [->|Hp'].
      - unfold sized, kept. simpl. destruct (is_fifth key); simpl; rewrite Sh; reflexivity.
      - exact (add_axes_sized size ax ds (fun n Hn => proj2 (A n Hn)) S p Hp'). }
    destruct (IH N2 (fun k b H => F k b (or_intror H)) tg' _ S2) as [ds' [E [S' [O K]]]].
    exists ds'. split; [exact E|]. split; [exact S'|]. split.
    + intros k Kn Ki. rewrite O by (auto; intro; apply Ki; now right).
      rewrite get_set. destruct (String.eqb_spec key k) as [->|]; [exfalso; apply Ki; now left|].
      apply add_axes_get. intros m Hn E2. apply Kn. rewrite <- E2. apply A, Hn.
    + intros k b ax' [E2|H] G'.
      * injection E2 as <- <-. rewrite O by assumption. rewrite get_set, String.eqb_refl.
        rewrite G in G'. injection G' as <-. reflexivity.
      * now apply K.
Qed.

Lemma start_in (l : dict nat) ds p :
  In p (fold_left (fun ds q => set ds (fst q) ([fst q], Axis (snd q))) l ds) ->
  In p ds \/ exists q, In q l /\ p = (fst q, ([fst q], Axis (snd q))).
Proof.
  revert ds. induction l as [|q l IH]; intros ds H; simpl in *; [now left|].
  destruct (IH _ H) as [H'|[q' [I ->]]].
  - destruct (set_in _ _ _ _ H') as [->|]; [right; exists q; auto|now left].
  - right. exists q'. auto.
Qed.
Lemma start_get (l : dict nat) ds k :
  get (fold_left (fun ds q => set ds (fst q) ([fst q], Axis (snd q))) l ds) k =
  match get (rev l) k with Some n => Some ([k], Axis n) | None => get ds k end.
Proof.
  revert ds. induction l as [|q l IH]; intros ds; simpl; [reflexivity|].
  rewrite IH, get_set, get_app. destruct (get (rev l) k); [reflexivity|]. simpl. destruct q as [k' n]. simpl.
  destruct (String.eqb_spec k' k) as [->|]; reflexivity.
Qed.

Lemma beams_of (c : collected V) nb : nb = 3 \/ nb = 4 ->
  n_beams_avg c = Some nb \/ n_beams_avg c = None /\ n_beams_attr c = Some nb -> number_of_beams c = Some nb.
Proof.
  unfold number_of_beams. intros H [->|[-> ->]]; destruct H as [->| ->]; reflexivity.
Qed.

Lemma assembled L nb size (c : collected V) : nb = 3 \/ nb = 4 -> fits L nb size c ->
  respects L nb (coords c) size ->
  (forall key, In key (map fst L) -> ~ In key extra /\ ~ In key coordinate_names /\ key <> "beam" /\ key <> "dir") ->
  exists ds, create_dataset c = inr ds /\ complete L c ds.
Proof.
  intros Hn [P [B [N1 [N2 [C D]]]]] R X. unfold create_dataset. rewrite (beams_of c nb Hn B).
  set (start := fold_left _ _ _).
  assert (S : all_sized size start).
  { intros p Hp. destruct (start_in _ _ _ Hp) as [[]|[q [Hq ->]]]. unfold sized. simpl. f_equal.
    apply in_app_or in Hq. destruct Hq as [Hq|Hq].
    - destruct q as [k n]. apply (C k n Hq).
    - destruct P as [P1 [P2 _]]. destruct Hq as [<-|[<-|[]]]; simpl; congruence. }
  destruct (place_all_ok L nb (coords c) size (data_vars c) R (fun k H => proj1 (X k H)) N2 D None start S) as [ds [E [S' [O K]]]].
  rewrite E. exists ds. split; [now apply (from_dict_ok size)|]. split.
  - intros k n H. destruct (C k n H) as [Kc Kn].
    rewrite O.
    + unfold start. rewrite start_get, rev_app_distr, get_app.
      assert (Kb : get (rev [("beam", nb); ("dir", nb)]) k = None).
      { destruct (get (rev [("beam", nb); ("dir", nb)]) k) eqn:G; [exfalso|reflexivity].
        apply get_in in G. revert G Kc. clear. simpl. intros G Kc.
        destruct G as [G|[G|[]]]; injection G as <- _; intuition discriminate. }
      rewrite Kb. rewrite (get_nodup (rev (coords c)) k n); [reflexivity| |now apply -> in_rev].
      rewrite map_rev. now apply NoDup_rev.
    + revert Kc. clear. simpl. intros H K. repeat destruct H as [<-|H]; [..|destruct H]; intuition discriminate.
    + intro Kv. apply in_map_iff in Kv. destruct Kv as [[k' a] [<- Hv]]. destruct (D _ _ Hv) as [axes [G _]].
      assert (Kl : In k' (map fst L)) by (apply in_map_iff; exists (k', axes); split; [reflexivity|now apply get_in]).
      exact (proj1 (proj2 (X k' Kl)) Kc).
  - intros key a axes Hv G. exists (kept key a). split; [now apply K|].
    intro ix. unfold kept. destruct (is_fifth key); reflexivity.
Qed.

(** *** the layouts *)
Definition apart (key : string) : bool :=
  negb (existsb (String.eqb key) (app extra (app coordinate_names ["beam"; "dir"]))).
Lemma apart_spec key : apart key = true ->
  ~ In key extra /\ ~ In key coordinate_names /\ key <> "beam" /\ key <> "dir".
Proof.
  unfold apart. intro H. apply negb_true_iff in H.
  assert (A : ~ In key (app extra (app coordinate_names ["beam"; "dir"]))).
  { intro I. assert (E : existsb (String.eqb key) (app extra (app coordinate_names ["beam"; "dir"])) = true).
    { apply existsb_exists. exists key. split; [exact I|apply String.eqb_refl]. }
    congruence. }
  repeat split; intro I; apply A; apply in_or_app.
  - now left.
  - right. apply in_or_app. now left.
  - right. apply in_or_app. right. rewrite I. now left.
  - right. apply in_or_app. right. rewrite I. right. now left.
Qed.
Lemma apart_all (L : layout) : forallb apart (map fst L) = true ->
  forall key, In key (map fst L) -> ~ In key extra /\ ~ In key coordinate_names /\ key <> "beam" /\ key <> "dir".
Proof. intros H key I. apply apart_spec. exact (proj1 (forallb_forall _ _) H key I). Qed.

(** [place] looks at the first size of a two-dimensional array only *)
Definition has_bt (cs : dict nat) : bool := match get cs "time_bt" with Some _ => true | None => false end.
Definition stands nb (bt : bool) (key : string) (axes : list string) : Prop :=
  forall (cs : dict nat) (size : string -> nat) a tg, proper nb size -> has_bt cs = bt ->
    shape a = (if is_fifth key then 1 :: map size axes else map size axes) ->
    exists ax tg', place nb cs key a tg = inr (ax, Some (axes, Data (kept key a)), tg')
      /\ forall n, In n ax -> In (fst n) extra /\ snd n = size (fst n).
Lemma respected (L : layout) nb (bt : bool) : (forall p, In p L -> stands nb bt (fst p) (snd p)) ->
  forall cs size, proper nb size -> has_bt cs = bt -> respects L nb cs size.
Proof.
  intros H cs size P B key axes a tg G Sh.
  exact (H (key, axes) (get_in _ _ _ G) cs size a tg P B Sh).
Qed.

(** one-dimensional variables *)
Definition line_ok (key ax : string) : bool :=
  negb (contains "mat" key) && negb (contains "quaternions" key) && negb (is_fifth key)
  && (("time" ++ (if contains "_altraw_avg" key then "_altraw_avg" else if tagged key then "_" ++ last_piece key else ""))%string =? ax).
Lemma line_stands nb bt key ax : line_ok key ax = true -> stands nb bt key [ax].
Proof.
  unfold line_ok. intros H cs size a tg P B Sh.
  apply andb_prop in H. destruct H as [H H4]. apply andb_prop in H. destruct H as [H H3]. apply andb_prop in H.
  destruct H as [H1 H2]. apply negb_true_iff in H1, H2, H3. apply String.eqb_eq in H4.
  rewrite H3 in Sh. unfold place, kept. rewrite H1, H2, H3, Sh. cbn [map].
  eexists; eexists; split.
  - rewrite H4. reflexivity.
  - intros n [].
Qed.
End Elements.

Ltac stand :=
  let cs := fresh "cs" in let size := fresh "size" in let a := fresh "a" in let tg := fresh "tg" in
  let P := fresh "P" in let B := fresh "B" in let Sh := fresh "Sh" in
  intros cs size a tg P B Sh; destruct a as [sh f];
  destruct P as [P1 [P2 [P3 [P4 [P5 [P6 [P7 P8]]]]]]];
  cbn [shape] in Sh;
  match type of Sh with sh = (if ?b then _ else _) => let v := eval vm_compute in b in change b with v in Sh end;
  cbn [map] in Sh;
  try rewrite P1 in Sh; try rewrite P2 in Sh; try rewrite P5 in Sh; subst sh;
  unfold has_bt in B;
  unfold place; cbn [shape]; try rewrite B.
Ltac stand_ok :=
  stand; eexists; eexists; split; [lazy; reflexivity|];
  let n := fresh "n" in intros n Hn; cbn in Hn;
  repeat match goal with H : _ \/ _ |- _ => destruct H as [<-|H] end; try contradiction;
  cbn [fst snd]; (split; [cbn; tauto|congruence]).
Ltac stand_all := repeat (apply Forall_cons; [cbn [fst snd]; first [apply line_stands; vm_compute; reflexivity|stand_ok]|]); apply Forall_nil.

Lemma vector_stands {V} p bt : In p vector_layout -> @stands V 3 bt (fst p) (snd p).
Proof.
  revert p. apply Forall_forall.
  let l := eval vm_compute in vector_layout in change vector_layout with l.
  stand_all.
Qed.
Lemma awac_stands {V} p bt : In p awac_layout -> @stands V 3 bt (fst p) (snd p).
Proof.
  revert p. apply Forall_forall.
  let l := eval vm_compute in awac_layout in change awac_layout with l.
  stand_all.
Qed.
Lemma trdi_stands {V} p : In p trdi_layout -> @stands V 4 false (fst p) (snd p).
Proof.
  revert p. apply Forall_forall.
  let l := eval vm_compute in trdi_layout in change trdi_layout with l.
  stand_all.
Qed.
(** bottom tracks have their own time in the files of a Signature *)
Definition with_bt (bt : bool) (L : layout) : layout := filter (fun p => bt || negb (contains "bt" (fst p))) L.
Definition only_bt (L : layout) : layout := filter (fun p => contains "bt" (fst p)) L.
Lemma sig4_bt_stands {V} p : In p (only_bt (signature_layout 4)) -> @stands V 4 true (fst p) (snd p).
Proof.
  revert p. apply Forall_forall.
  let l := eval vm_compute in (only_bt (signature_layout 4)) in change (only_bt (signature_layout 4)) with l.
  stand_all.
Qed.
Lemma sig4_stands {V} p bt : In p (with_bt false (signature_layout 4)) -> @stands V 4 bt (fst p) (snd p).
Proof.
  revert p. apply Forall_forall.
  let l := eval vm_compute in (with_bt false (signature_layout 4)) in change (with_bt false (signature_layout 4)) with l.
  stand_all.
Qed.
Lemma sig3_bt_stands {V} p : In p (only_bt (signature_layout 3)) -> @stands V 3 true (fst p) (snd p).
Proof.
  revert p. apply Forall_forall.
  let l := eval vm_compute in (only_bt (signature_layout 3)) in change (only_bt (signature_layout 3)) with l.
  stand_all.
Qed.
Lemma sig3_stands {V} p bt : In p (with_bt false (signature_layout 3)) -> @stands V 3 bt (fst p) (snd p).
Proof.
  revert p. apply Forall_forall.
  let l := eval vm_compute in (with_bt false (signature_layout 3)) in change (with_bt false (signature_layout 3)) with l.
  stand_all.
Qed.
Lemma with_bt_split bt (L : layout) p : In p (with_bt bt L) -> In p (with_bt false L) \/ bt = true /\ In p (only_bt L).
Proof.
  unfold with_bt, only_bt. intro H. apply filter_In in H. destruct H as [I H]. rewrite !filter_In.
  destruct (contains "bt" (fst p)), bt; auto.
Qed.
Lemma sig_stands {V} nb bt p : nb = 3 \/ nb = 4 -> In p (with_bt bt (signature_layout nb)) -> @stands V nb bt (fst p) (snd p).
Proof.
  intros Hn H. apply with_bt_split in H. destruct H as [H|[-> H]]; destruct Hn as [->| ->].
  - now apply sig3_stands.
  - now apply sig4_stands.
  - now apply sig3_bt_stands.
  - now apply sig4_bt_stands.
Qed.
Lemma get_with_bt bt (L : layout) key : bt = true \/ contains "bt" key = false -> get (with_bt bt L) key = get L key.
Proof.
  intro H. induction L as [|[k ax] L IH]; [reflexivity|]. unfold with_bt in *. cbn [filter fst].
  destruct (bt || negb (contains "bt" k)) eqn:E; cbn [get]; rewrite IH; [reflexivity|].
  destruct (String.eqb_spec k key) as [->|]; [|reflexivity].
  destruct H as [->|H]; [discriminate|]. rewrite H in E. destruct bt; discriminate.
Qed.

Theorem vector_assembled {V} size (c : collected V) : fits vector_layout 3 size c ->
  exists ds, create_dataset c = inr ds /\ complete vector_layout c ds.
Proof.
  intro F. apply (assembled vector_layout 3 size); auto.
  - apply (respected vector_layout 3 (has_bt (coords c))); [|apply F|reflexivity]. intros p H. now apply vector_stands.
  - apply apart_all. vm_compute. reflexivity.
Qed.
Theorem awac_assembled {V} size (c : collected V) : fits awac_layout 3 size c ->
  exists ds, create_dataset c = inr ds /\ complete awac_layout c ds.
Proof.
  intro F. apply (assembled awac_layout 3 size); auto.
  - apply (respected awac_layout 3 (has_bt (coords c))); [|apply F|reflexivity]. intros p H. now apply awac_stands.
  - apply apart_all. vm_compute. reflexivity.
Qed.
Theorem trdi_assembled {V} size (c : collected V) : fits trdi_layout 4 size c -> ~ In "time_bt" (map fst (coords c)) ->
  exists ds, create_dataset c = inr ds /\ complete trdi_layout c ds.
Proof.
  intros F N. apply (assembled trdi_layout 4 size); auto.
  - apply (respected trdi_layout 4 false); [intros p H; now apply trdi_stands|apply F|].
    unfold has_bt. destruct (get (coords c) "time_bt") eqn:G; [|reflexivity].
    destruct N. apply get_in in G. apply in_map_iff. now exists ("time_bt", n).
  - apply apart_all. vm_compute. reflexivity.
Qed.
Lemma bt_assembled {V} (L : layout) nb size (c : collected V) : nb = 3 \/ nb = 4 -> fits L nb size c ->
  (forall bt p, In p (with_bt bt L) -> @stands V nb bt (fst p) (snd p)) ->
  (forall key, In key (map fst L) -> ~ In key extra /\ ~ In key coordinate_names /\ key <> "beam" /\ key <> "dir") ->
  (forall key a, In (key, a) (data_vars c) -> contains "bt" key = true -> In "time_bt" (map fst (coords c))) ->
  exists ds, create_dataset c = inr ds /\ complete L c ds.
Proof.
  intros Hn F Hs Ha B. set (bt := has_bt (coords c)).
  assert (G : forall key a, In (key, a) (data_vars c) -> get (with_bt bt L) key = get L key).
  { intros key a H. apply get_with_bt. destruct (contains "bt" key) eqn:E; [left|now right].
    unfold bt, has_bt. specialize (B key a H E). apply in_map_iff in B. destruct B as [[k n] [E2 I]]. simpl in E2. subst k.
    rewrite (get_nodup _ _ _ (proj1 (proj2 (proj2 F))) I). reflexivity. }
  destruct (assembled (with_bt bt L) nb size c) as [ds [E [C1 C2]]]; auto.
  - destruct F as [P [N [D1 [D2 [C D]]]]]. repeat (split; [assumption|]).
    intros key a H. destruct (D key a H) as [axes [Ga Sh]]. exists axes. split; [|exact Sh]. now rewrite (G key a H).
  - apply (respected _ nb bt); [|apply F|reflexivity]. apply Hs.
  - intros key K. apply Ha. apply in_map_iff in K. destruct K as [p [<- K]]. apply in_map. now apply filter_In in K.
  - exists ds. split; [exact E|]. split; [exact C1|].
    intros key a axes H Ga. apply (C2 key a axes H). now rewrite (G key a H).
Qed.
Lemma signature_apart nb : nb = 3 \/ nb = 4 -> forallb apart (map fst (signature_layout nb)) = true.
Proof. intros [->| ->]; vm_compute; reflexivity. Qed.
Theorem signature_assembled {V} nb size (c : collected V) : nb = 3 \/ nb = 4 -> fits (signature_layout nb) nb size c ->
  (forall key a, In (key, a) (data_vars c) -> contains "bt" key = true -> In "time_bt" (map fst (coords c))) ->
  exists ds, create_dataset c = inr ds /\ complete (signature_layout nb) c ds.
Proof.
  intros Hn F B.
  exact (bt_assembled (signature_layout nb) nb size c Hn F (fun bt p => sig_stands nb bt p Hn)
           (apart_all _ (signature_apart nb Hn)) B).
Qed.

(** *** when the numbers of beams differ *)
Section Conflict.
Context {V : Type}.
Implicit Types (a : array V) (ds : dict (entry V)).

Lemma place_axes nb cs key a tg ax en tg' : place nb cs key a tg = inr (ax, en, tg') -> forall n, In n ax -> In (fst n) extra.
Proof.
  unfold place.
  repeat (match goal with |- (if ?b then _ else _) = _ -> _ => destruct b | |- (match ?x with _ => _ end) = _ -> _ => destruct x end);
  intro H; try discriminate; injection H as <- _ _; intros q Hn; cbn in Hn;
  repeat match goal with H : _ \/ _ |- _ => destruct H as [<-|H] end; try contradiction; cbn; tauto.
Qed.
Lemma place_all_keeps nb cs vars tg ds ds' k : place_all nb cs vars tg ds = inr ds' ->
  ~ In k extra -> ~ In k (map fst vars) -> get ds' k = get ds k.
Proof.
  revert tg ds. induction vars as [|[key a] vars IH]; intros tg ds E X N; cbn in E.
  - now injection E as ->.
  - destruct (place nb cs key a tg) as [|[[ax en] tg']] eqn:P; [discriminate|].
    rewrite (IH _ _ E X); [|intro; apply N; now right].
    assert (A : get (fold_left add_axis ax ds) k = get ds k).
    { apply add_axes_get. intros q Hq Eq. apply X. rewrite <- Eq. exact (place_axes _ _ _ _ _ _ _ _ P q Hq). }
    destruct en as [e|]; [|exact A]. rewrite get_set.
    destruct (String.eqb_spec key k) as [->|]; [destruct N; now left|exact A].
Qed.
Lemma place_all_entry nb cs vars tg ds ds' key a e : place_all nb cs vars tg ds = inr ds' -> NoDup (map fst vars) ->
  In (key, a) vars -> ~ In key extra -> (forall t, exists ax t', place nb cs key a t = inr (ax, Some e, t')) ->
  get ds' key = Some e.
Proof.
  revert tg ds. induction vars as [|[k b] vars IH]; intros tg ds E N I X P; [destruct I|]. cbn in E.
  inversion N as [|? ? N1 N2]; subst. destruct I as [I|I].
  - injection I as -> ->. destruct (P tg) as [ax [t' P']]. rewrite P' in E.
    rewrite (place_all_keeps _ _ _ _ _ _ key E X N1). now rewrite get_set, String.eqb_refl.
  - destruct (place nb cs k b tg) as [|[[ax en] tg']]; [discriminate|].
    exact (IH _ _ E N2 I X P).
Qed.
Lemma from_dict_conflict ds k1 k2 d m n ax1 ax2 c1 c2 : get ds k1 = Some (d :: ax1, c1) -> get ds k2 = Some (d :: ax2, c2) ->
  (exists l, extent c1 = m :: l) -> (exists l, extent c2 = n :: l) -> m <> n -> from_dict ds = inl ValueError.
Proof.
  intros G1 G2 [l1 E1] [l2 E2] N. unfold from_dict.
  assert (I : forall k ax c (x : nat) l, get ds k = Some (d :: ax, c) -> extent c = x :: l ->
            In (d, x) (flat_map (fun p => sizes (snd p)) ds)).
  { intros k ax c x l G E. apply in_flat_map. exists (k, (d :: ax, c)). split; [now apply get_in|].
    unfold sizes. cbn [fst snd]. rewrite E. now left. }
  pose proof (I _ _ _ _ _ G1 E1) as I1. pose proof (I _ _ _ _ _ G2 E2) as I2. clear I.
  set (all := flat_map _ _) in *.
  destruct (forallb (fun p => forallb (agree p) all) all) eqn:F.
  - rewrite forallb_forall in F. specialize (F _ I1). rewrite forallb_forall in F. specialize (F _ I2).
    unfold agree in F. cbn [fst snd] in F. rewrite String.eqb_refl in F. apply Nat.eqb_eq in F. contradiction.
  - now rewrite andb_false_r.
Qed.
Lemma profile_place nb cs key a t n m p : In key ["vel"; "amp"; "corr"; "vel_avg"; "amp_avg"; "corr_avg"] -> shape a = [n; m; p] ->
  exists d ax t', (d = "dir" \/ d = "beam") /\ place nb cs key a t = inr ([], Some (d :: ax, Data a), t')
    /\ forall t2, exists t2', place nb cs key a t2 = inr ([], Some (d :: ax, Data a), t2').
Proof.
  intros K Sh. destruct a as [sh f]. cbn [shape] in Sh. subst sh.
  repeat destruct K as [<-|K]; try contradiction; unfold place; cbn [shape];
  (eexists; eexists; eexists; split; [|split; [lazy; reflexivity|intro; eexists; lazy; reflexivity]]); auto.
Qed.
Theorem beams_conflict (c : collected V) nb key a n m p : number_of_beams c = Some nb ->
  NoDup (map fst (data_vars c)) -> ~ In "dir" (map fst (data_vars c)) -> ~ In "beam" (map fst (data_vars c)) ->
  In (key, a) (data_vars c) -> In key ["vel"; "amp"; "corr"; "vel_avg"; "amp_avg"; "corr_avg"] -> shape a = [n; m; p] -> n <> nb ->
  exists e, create_dataset c = inl e.
Proof.
  intros B N D1 D2 I K Sh Hn. unfold create_dataset. rewrite B. set (start := fold_left _ _ _).
  destruct (place_all nb (coords c) (data_vars c) None start) as [e|ds] eqn:E; [now exists e|].
  destruct (profile_place nb (coords c) key a None n m p K Sh) as [d [ax [t' [Hd [_ P]]]]].
  assert (G1 : get ds key = Some (d :: ax, Data a)).
  { apply (place_all_entry _ _ _ _ _ _ _ _ _ E N I).
    - revert K. clear. cbn. intros K X. repeat destruct K as [<-|K]; try contradiction; intuition discriminate.
    - intro t. destruct (P t) as [t2 P2]. exists [], t2. exact P2. }
  assert (G2 : get ds d = Some ([d], Axis nb)).
  { rewrite (place_all_keeps _ _ _ _ _ _ d E).
    - unfold start. etransitivity; [apply start_get|]. rewrite rev_app_distr, get_app. destruct Hd as [->| ->]; reflexivity.
    - destruct Hd as [->| ->]; cbn; intuition discriminate.
    - destruct Hd as [->| ->]; assumption. }
  exists ValueError. refine (from_dict_conflict ds key d d n nb ax [] _ _ G1 G2 _ _ Hn).
  - exists [m; p]. exact Sh.
  - now exists [].
Qed.

(** the figure of merit, one number per beam, and bottom tracks with another number of beams *)
Lemma fom_place nb cs a t n : (nb = 3 \/ nb = 4) -> shape a = [nb; n] -> get cs "time_bt" <> None ->
  exists t', place nb cs "fom_bt" a t = inr ([], Some (["dir"; "time_bt"], Data a), t').
Proof.
  intros Hn Sh B. destruct a as [sh f]. cbn [shape] in Sh. subst sh. unfold place. cbn [shape].
  destruct (get cs "time_bt"); [|congruence].
  destruct Hn as [->| ->]; eexists; lazy; reflexivity.
Qed.
Lemma bt3_place cs a t n : shape a = [3; n] ->
  exists t', place 4 cs "vel_bt" a t = inr ([("dirIMU", 3)], Some (["dirIMU"; "time_bt"], Data a), t').
Proof.
  intros Sh. destruct a as [sh f]. cbn [shape] in Sh. subst sh. unfold place. cbn [shape].
  eexists; lazy; reflexivity.
Qed.
Theorem fom_axis (c : collected V) nb a n ds : create_dataset c = inr ds -> (nb = 3 \/ nb = 4) -> number_of_beams c = Some nb ->
  NoDup (map fst (data_vars c)) -> In ("fom_bt", a) (data_vars c) -> shape a = [nb; n] -> get (coords c) "time_bt" <> None ->
  get ds "fom_bt" = Some (["dir"; "time_bt"], Data a).
Proof.
  unfold create_dataset. intros E Hn B N I Sh T. rewrite B in E.
  destruct (place_all _ _ _ _ _) as [|ds'] eqn:P; [discriminate|].
  assert (E2 : ds' = ds). { unfold from_dict in E. destruct (_ && _) in E; [now injection E|discriminate]. }
  subst ds'. apply (place_all_entry _ _ _ _ _ _ _ _ _ P N I).
  - cbn. intuition discriminate.
  - intro t. destruct (fom_place nb (coords c) a t n Hn Sh T) as [t' P']. exists [], t'. exact P'.
Qed.
Theorem bt3_axis (c : collected V) a n ds : create_dataset c = inr ds -> number_of_beams c = Some 4 ->
  NoDup (map fst (data_vars c)) -> In ("vel_bt", a) (data_vars c) -> shape a = [3; n] ->
  get ds "vel_bt" = Some (["dirIMU"; "time_bt"], Data a).
Proof.
  unfold create_dataset. intros E B N I Sh. rewrite B in E.
  destruct (place_all _ _ _ _ _) as [|ds'] eqn:P; [discriminate|].
  assert (E2 : ds' = ds). { unfold from_dict in E. destruct (_ && _) in E; [now injection E|discriminate]. }
  subst ds'. apply (place_all_entry _ _ _ _ _ _ _ _ _ P N I).
  - cbn. intuition discriminate.
  - intro t. destruct (bt3_place (coords c) a t n Sh) as [t' P']. eexists. exists t'. exact P'.
Qed.
End Conflict.
