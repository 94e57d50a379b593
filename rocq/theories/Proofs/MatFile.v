(** Proofs about MATLAB files. *)
From Coq Require Import String Ascii.
From Coq Require Import List Bool Arith ZArith QArith Lia.
From Verif.Model Require Import SigData CreateDataset Time FloatTime MatFile.
From Verif.Spec Require Import CreateDataset MatFile.
From Verif.Proofs Require Import CreateDataset.
Import ListNotations.
Local Open Scope nat_scope.
Open Scope string_scope.

Section Elements.
Context {V : Type}.
Implicit Types (a : array V) (ds : dict (entry V)).

Lemma squeeze_same a : (forall n, In n (shape a) -> 2 <= n)%nat ->
  shape (squeeze a) = shape a /\ forall ix, length ix = length (shape a) -> at_ (squeeze a) ix = at_ a ix.
Proof.
  intro H. unfold squeeze.
  assert (Z : existsb (Nat.eqb 0) (shape a) = false).
  { destruct (existsb _ _) eqn:E; [|reflexivity]. apply existsb_exists in E. destruct E as [n [I E]].
    apply Nat.eqb_eq in E. specialize (H n I). lia. }
  rewrite Z. cbn [shape at_]. split.
  - revert H. generalize (shape a). induction l as [|n l IH]; intro H; [reflexivity|]. cbn [filter].
    replace (n =? 1)%nat with false by (symmetry; apply Nat.eqb_neq; specialize (H n (or_introl eq_refl)); lia).
    cbn [negb]. f_equal. apply IH. intros; apply H; now right.
  - intros ix L. f_equal. revert ix L H. generalize (shape a).
    induction l as [|n l IH]; intros [|i ix] L H; try discriminate; [reflexivity|]. cbn [unsqueezed].
    replace (n =? 1)%nat with false by (symmetry; apply Nat.eqb_neq; specialize (H n (or_introl eq_refl)); lia).
    f_equal. apply IH; [now injection L|]. intros; apply H; now right.
Qed.

Definition b5_tag (tg : option string) : Prop := exists t, tg = Some t /\ contains "b5" t = true.

Lemma add_axes_keep size ax ds k : (forall n, In n ax -> snd n = size (fst n)) -> get ds k = Some ([k], Axis (size k)) ->
  get (fold_left add_axis ax ds) k = Some ([k], Axis (size k)).
Proof.
  revert ds. induction ax as [|n ax IH]; intros ds A G; [exact G|]. cbn [fold_left]. apply IH; [intros; apply A; now right|].
  unfold add_axis. destruct (get ds (fst n)) eqn:E.
  - destruct (_ || _); [|exact G]. rewrite get_set. destruct (String.eqb_spec (fst n) k) as [F|]; [|exact G].
    unfold axis. cbn [snd]. rewrite (A n (or_introl eq_refl)), F. reflexivity.
  - rewrite get_app, G. reflexivity.
Qed.

Definition step_ok (L : layout) nb (cs : dict nat) size (key : string) a : Prop :=
  forall axes tg ok, get L key = Some axes -> shape a = map size axes ->
    (is_fifth key = true -> ok = true) -> (ok = true -> b5_tag tg) ->
    exists ax tg', place nb cs key a tg = inr (ax, Some (axes, Data a), tg')
      /\ (forall n, In n ax -> In (fst n) extra /\ snd n = size (fst n))
      /\ ((if is_fifth key then true else of_fifth_record key) = true -> b5_tag tg').

Lemma place_all_reload L nb cs size vars :
  (forall key a, In (key, a) vars -> step_ok L nb cs size key a) ->
  (forall key, In key (map fst L) -> ~ In key extra) ->
  NoDup (map fst vars) ->
  (forall key a, In (key, a) vars -> exists axes, get L key = Some axes /\ shape a = map size axes) ->
  forall ok tg ds, all_sized size ds -> fifth_behind ok (map fst vars) -> (ok = true -> b5_tag tg) ->
  exists ds', place_all nb cs vars tg ds = inr ds' /\ all_sized size ds'
    /\ (forall k, ~ In k (map fst vars) -> get ds k = Some ([k], Axis (size k)) -> get ds' k = Some ([k], Axis (size k)))
    /\ (forall key a axes, In (key, a) vars -> get L key = Some axes -> get ds' key = Some (axes, Data a))
    /\ (forall k, ~ In k extra -> ~ In k (map fst vars) -> get ds' k = get ds k).
Proof.
  intros St X. induction vars as [|[key a] vars IH]; intros N F ok tg ds S B T; cbn [place_all].
  - exists ds. split; [reflexivity|]. split; [exact S|]. split; [auto|]. split; [intros ? ? ? []|auto].
  - inversion N as [|? ? N1 N2]; subst. cbn [map fst fifth_behind] in B.
    destruct (F key a (or_introl eq_refl)) as [axes [G Sh]].
    assert (B1 : is_fifth key = true -> ok = true). { intro E. rewrite E in B. apply B. }
    destruct (St key a (or_introl eq_refl) axes tg ok G Sh B1 T) as [ax [tg' [P [A T']]]]. rewrite P.
    assert (B2 : fifth_behind (if is_fifth key then true else of_fifth_record key) (map fst vars)).
    { destruct (is_fifth key); [apply B|exact B]. }
    assert (Kx : ~ In key extra). { apply X. apply in_map_iff. exists (key, axes). split; [reflexivity|now apply get_in]. }
    set (ds1 := fold_left add_axis ax ds).
    assert (S2 : all_sized size (set ds1 key (axes, Data a))).
    { intros p Hp. destruct (set_in _ _ _ _ Hp) as [->|Hp'].
      - exact Sh.
      - exact (add_axes_sized size ax ds (fun n Hn => proj2 (A n Hn)) S p Hp'). }
    destruct (IH (fun k b H => St k b (or_intror H)) N2 (fun k b H => F k b (or_intror H)) _ tg' _ S2 B2 T') as [ds' [E [S' [O [K U]]]]].
    exists ds'. split; [exact E|]. split; [exact S'|]. split; [|split].
    + intros k Ki Gk. apply O; [intro; apply Ki; now right|].
      rewrite get_set. destruct (String.eqb_spec key k) as [->|]; [exfalso; apply Ki; now left|].
      apply add_axes_keep; [intros q Hq; apply A, Hq|exact Gk].
    + intros k b ax' [E2|H] G'; [|now apply K].
      injection E2 as <- <-. rewrite U by assumption. rewrite get_set, String.eqb_refl. rewrite G in G'. injection G' as <-. reflexivity.
    + intros k Kn Ki. rewrite U by (auto; intro; apply Ki; now right).
      rewrite get_set. destruct (String.eqb_spec key k) as [->|]; [exfalso; apply Ki; now left|].
      apply add_axes_get. intros m Hn E2. apply Kn. rewrite <- E2. apply A, Hn.
Qed.

(** what [save_mat] takes from a dataset *)
Lemma coords_in ds k n : In (k, n) (coords_of ds) <-> exists ax, In (k, (ax, Axis n)) ds.
Proof.
  unfold coords_of. rewrite in_flat_map. split.
  - intros [[k' [ax [m|b]]] [I J]]; cbn in J; [|contradiction]. destruct J as [J|[]]. injection J as -> ->. now exists ax.
  - intros [ax I]. exists (k, (ax, Axis n)). split; [exact I|now left].
Qed.
Lemma vars_in ds k a : In (k, a) (vars_of ds) <-> exists ax, In (k, (ax, Data a)) ds.
Proof.
  unfold vars_of. rewrite in_flat_map. split.
  - intros [[k' [ax [m|b]]] [I J]]; cbn in J; [contradiction|]. destruct J as [J|[]]. injection J as -> ->. now exists ax.
  - intros [ax I]. exists (k, (ax, Data a)). split; [exact I|now left].
Qed.
Lemma coords_sub ds k : In k (map fst (coords_of ds)) -> In k (map fst ds).
Proof.
  intro H. apply in_map_iff in H. destruct H as [[k' n] [<- H]]. apply coords_in in H. destruct H as [ax H].
  apply in_map_iff. now exists (k', (ax, Axis n)).
Qed.
Lemma vars_sub ds k : In k (map fst (vars_of ds)) -> In k (map fst ds).
Proof.
  intro H. apply in_map_iff in H. destruct H as [[k' n] [<- H]]. apply vars_in in H. destruct H as [ax H].
  apply in_map_iff. now exists (k', (ax, Data n)).
Qed.
Lemma coords_nodup ds : NoDup (map fst ds) -> NoDup (map fst (coords_of ds)).
Proof.
  induction ds as [|[k [ax [n|b]]] ds IH]; cbn; intro N; [constructor|..]; inversion N; subst; auto.
  constructor; auto. intro; apply H1; now apply coords_sub.
Qed.
Lemma vars_nodup ds : NoDup (map fst ds) -> NoDup (map fst (vars_of ds)).
Proof.
  induction ds as [|[k [ax [n|b]]] ds IH]; cbn; intro N; [constructor|..]; inversion N; subst; auto.
  constructor; auto. intro; apply H1; now apply vars_sub.
Qed.
Lemma vars_names ds : map fst (vars_of ds) = variable_names ds.
Proof. induction ds as [|[k [ax [n|b]]] ds IH]; cbn; [reflexivity|exact IH|f_equal; exact IH]. Qed.

Lemma map_squeeze_names (l : dict (array V)) : map fst (map (fun p => (fst p, squeeze (snd p))) l) = map fst l.
Proof. rewrite map_map. reflexivity. Qed.

Definition beams_known nb (n na : option nat) : Prop := na = Some nb \/ na = None /\ n = Some nb.

Theorem reload L nb size ds n na : nb = 3 \/ nb = 4 -> beams_known nb n na -> lies_on L nb size ds ->
  (forall key, In key (map fst L) -> ~ In key extra /\ ~ In key coordinate_names /\ key <> "beam" /\ key <> "dir") ->
  (forall key a, In (key, a) (map (fun p => (fst p, squeeze (snd p))) (vars_of ds)) -> step_ok L nb (coords_of ds) size key a) ->
  (forall key axes, get L key = Some axes -> axes <> []) ->
  fifth_behind false (variable_names ds) ->
  exists ds', load_mat (save_mat n na ds) = inr ds' /\ holds_all ds ds'
    /\ (forall k, get ds' k <> None -> In k (map fst ds) \/ In k frames).
Proof.
  intros Hn B [P [N C]] X St Ne Fb.
  set (vars := map (fun p => (fst p, squeeze (snd p))) (vars_of ds)).
  assert (Names : map fst vars = variable_names ds) by (unfold vars; rewrite map_squeeze_names; apply vars_names).
  assert (Vx : forall k e, In (k, e) ds -> In k (map fst L) -> exists axes a, get L k = Some axes /\ e = (axes, Data a)
             /\ shape a = map size axes /\ (forall d, In d axes -> 2 <= size d)%nat).
  { intros k e I K. destruct (C k e I) as [[Q _]|[axes [a [G [E [Sh [Z _]]]]]]]; [|now exists axes, a].
    destruct (X k K) as [X1 [X2 [X3 X4]]]. exfalso. destruct Q as [Q|[Q _]]; [|now apply X2].
    revert Q X1 X3 X4. clear. cbn. intros. intuition congruence. }
  assert (Vi : forall k b, In (k, b) vars -> exists axes a, get L k = Some axes /\ In (k, (axes, Data a)) ds
             /\ shape b = map size axes /\ shape a = map size axes /\ (forall d, In d axes -> 2 <= size d)%nat
             /\ forall ix, length ix = length (shape a) -> at_ b ix = at_ a ix).
  { intros k b I. apply in_map_iff in I. destruct I as [[k' a] [E I]]. injection E as -> <-. cbn [fst snd].
    apply vars_in in I. destruct I as [ax I]. destruct (C k _ I) as [[_ [E _]]|[axes [a' [G [E [Sh [Z _]]]]]]]; [discriminate|].
    injection E as -> <-. exists axes, a.
    assert (Q : forall m, In m (shape a) -> (2 <= m)%nat).
    { rewrite Sh. intros m Hm. apply in_map_iff in Hm. destruct Hm as [d [<- Hd]]. now apply Z. }
    destruct (squeeze_same a Q) as [E1 E2]. split; [exact G|]. split; [exact I|]. split; [congruence|]. split; [exact Sh|].
    split; [exact Z|exact E2]. }
  assert (Ci : forall k m, In (k, m) (coords_of ds) -> m = size k /\ (2 <= size k)%nat
            /\ (In k frames \/ In k coordinate_names)).
  { intros k m I. apply coords_in in I. destruct I as [ax I]. destruct (C k _ I) as [[Q [E Z]]|[axes [a [_ [E _]]]]]; [|discriminate].
    injection E as -> ->. split; [reflexivity|]. split; [exact Z|]. tauto. }
  unfold load_mat, save_mat. cbn [file_vars file_coords file_n_beams file_n_beams_avg]. fold vars.
  replace (existsb _ vars) with false.
  2:{ symmetry. destruct (existsb _ vars) eqn:E; [|reflexivity]. apply existsb_exists in E. destruct E as [[k b] [I E]].
      destruct (Vi k b I) as [axes [a [G [_ [Sh _]]]]]. cbn [fst snd] in E. rewrite Sh in E. pose proof (Ne k axes G).
      destruct axes; [congruence|]. cbn [map] in E. rewrite andb_false_r in E. discriminate. }
  replace (existsb _ (coords_of ds)) with false.
  2:{ symmetry. destruct (existsb _ (coords_of ds)) eqn:E; [|reflexivity]. apply existsb_exists in E. destruct E as [[k m] [I E]].
      destruct (Ci k m I) as [-> [Z _]]. cbn [fst snd] in E. apply andb_prop in E. destruct E as [E _]. apply Nat.eqb_eq in E. lia. }
  unfold create_dataset.
  assert (NB : number_of_beams (Collected (coords_of ds) n na vars) = Some nb)
    by (apply beams_of; [exact Hn|exact B]).
  rewrite NB. cbn [coords data_vars].
  set (start := fold_left _ _ _).
  assert (S : all_sized size start).
  { intros p Hp. destruct (start_in _ _ _ Hp) as [[]|[q [Hq ->]]]. unfold sized. cbn. f_equal.
    apply in_app_or in Hq. destruct Hq as [Hq|Hq].
    - destruct q as [k m]. apply (Ci k m Hq).
    - destruct P as [P1 [P2 _]]. destruct Hq as [<-|[<-|[]]]; cbn; congruence. }
  destruct (place_all_reload L nb (coords_of ds) size vars St (fun k H => proj1 (X k H))
    ltac:(rewrite Names, <- vars_names; now apply vars_nodup)
    ltac:(intros key b I; destruct (Vi key b I) as [axes [a [G [_ [Sh _]]]]]; now exists axes)
    false None start S ltac:(rewrite Names; exact Fb) ltac:(discriminate)) as [ds' [E [S' [O [K U]]]]].
  rewrite E. rewrite (from_dict_ok size ds' S'). exists ds'. split; [reflexivity|]. split.
  - intros k e I. destruct (C k e I) as [[Q [-> Z]]|[axes [a [G [-> [Sh [Z _]]]]]]].
    + exists ([k], Axis (size k)). split; [|split; reflexivity].
      assert (Kc : In (k, size k) (coords_of ds)) by (apply coords_in; now exists [k]).
      apply O.
      * intro Kv. apply in_map_iff in Kv. destruct Kv as [[k' b] [<- Kv]]. cbn [fst] in *.
        destruct (Vi k' b Kv) as [axes [a [_ [I2 _]]]].
        pose proof (get_nodup _ _ _ N I) as G1. pose proof (get_nodup _ _ _ N I2) as G2. congruence.
      * unfold start. etransitivity; [apply start_get|]. rewrite rev_app_distr, get_app.
        destruct (get (rev [("beam", nb); ("dir", nb)]) k) eqn:Gb.
        { apply get_in in Gb. destruct P as [P1 [P2 _]]. cbn in Gb.
          destruct Gb as [Gb|[Gb|[]]]; injection Gb as <- <-; do 3 f_equal; congruence. }
        rewrite (get_nodup (rev (coords_of ds)) k (size k)); [reflexivity| |now apply -> in_rev].
        rewrite map_rev. apply NoDup_rev. now apply coords_nodup.
    + exists (axes, Data (squeeze a)). split.
      * apply K; [|exact G]. unfold vars. apply in_map_iff. exists (k, a). split; [reflexivity|]. apply vars_in. now exists axes.
      * split; [reflexivity|]. cbn [snd same_contents]. apply squeeze_same. rewrite Sh. intros m Hm.
        apply in_map_iff in Hm. destruct Hm as [d [<- Hd]]. now apply Z.
  - intros k Gk. destruct (in_dec string_dec k frames) as [|Nf]; [now right|left].
    destruct (in_dec string_dec k (map fst vars)) as [Iv|Nv].
    + rewrite Names, <- vars_names in Iv. now apply vars_sub.
    + rewrite U in Gk; [|intro Q; apply Nf; revert Q; clear; cbn; tauto|exact Nv].
      assert (Gs : get start k = match get (rev (app (coords_of ds) [("beam", nb); ("dir", nb)])) k with
                                   Some m => Some ([k], Axis m) | None => None end) by (etransitivity; [apply start_get|reflexivity]).
      change (get start k <> None) in Gk. rewrite Gs, rev_app_distr, get_app in Gk.
      destruct (get (rev [("beam", nb); ("dir", nb)]) k) eqn:Gb.
      { apply get_in in Gb. exfalso. apply Nf. revert Gb. clear. cbn. intros [H|[H|[]]]; injection H as <- _; tauto. }
      destruct (get (rev (coords_of ds)) k) eqn:Gc; [|cbn in Gk; congruence].
      apply get_in in Gc. apply in_rev in Gc. apply coords_sub. apply in_map_iff. eexists. split; [|exact Gc]. reflexivity.
Qed.
End Elements.

(** the profiles of the fifth beam, as they are in the file *)
Lemma fifth_place {V} nb cs key (a : array V) t n m : is_fifth key = true -> shape a = [n; m] -> n <> 3 -> contains "b5" t = true ->
  place nb cs key a (Some t) = inr ([], Some (["range_b5"; "time_b5"], Data a), Some t).
Proof.
  intros F Sh N T. destruct a as [sh f]. cbn [shape] in Sh. subst sh. apply Nat.eqb_neq in N.
  unfold is_fifth in F. apply orb_prop in F.
  assert (K : key = "vel_b5" \/ key = "amp_b5" \/ key = "corr_b5").
  { destruct F as [F|F]; [apply orb_prop in F; destruct F as [F|F]|]; apply String.eqb_eq in F; auto. }
  clear F.
  assert (Q : contains "mat" key = false /\ contains "quaternions" key = false /\ (key =? "echo") = false
    /\ (key =? "samp_altraw") = false /\ (key =? "samp_altraw_avg") = false
    /\ existsb (fun t => contains t key) ["_avg"; "_b5"; "_echo"] = true)
    by (destruct K as [->|[->| ->]]; vm_compute; repeat split).
  destruct Q as [Q1 [Q2 [Q3 [Q4 [Q5 Q6]]]]].
  unfold place. cbn [shape]. rewrite Q1, Q2, Q3, Q4, Q5, Q6. cbn [negb]. rewrite andb_false_r, N, T. reflexivity.
Qed.

Definition tags_fifth {V} nb (p : string * list string) : Prop :=
  forall cs (size : string -> nat) (a : array V) tg, proper nb size -> shape a = map size (snd p) ->
    exists ax en, place nb cs (fst p) a tg = inr (ax, en, Some "_b5").
Lemma line_tags {V} nb key ax : contains "mat" key = false -> contains "quaternions" key = false -> contains "_altraw_avg" key = false ->
  (if tagged key then "_" ++ last_piece key else "") = "_b5" -> @tags_fifth V nb (key, [ax]).
Proof.
  intros H1 H2 H3 H4 cs size a tg P Sh. cbn [fst snd map] in *. unfold place. rewrite H1, H2, Sh, H3, H4. do 2 eexists. reflexivity.
Qed.
Lemma record_tags {V} nb p : nb = 3 \/ nb = 4 -> In p (sig_record 4 "_b5") -> @tags_fifth V nb p.
Proof.
  intros Hn. revert p. apply Forall_forall.
  let l := eval vm_compute in (sig_record 4 "_b5") in change (sig_record 4 "_b5") with l.
  repeat (apply Forall_cons; [first [apply line_tags; vm_compute; reflexivity|
    let P := fresh "P" in
    intros cs size [sh f] tg P Sh; destruct P as (P1 & P2 & P3 & P4 & P5 & P6 & P7 & P8); cbn [fst snd map shape] in *;
    try rewrite P5 in Sh; subst sh; unfold place; cbn [shape]; destruct Hn as [->| ->]; do 2 eexists; lazy; reflexivity]|]).
  apply Forall_nil.
Qed.

(** an entry of a layout that names data of the fifth beam has the axes of those *)
Definition fifth_entries (L : layout) : bool :=
  forallb (fun p => (negb (of_fifth_record (fst p))
                     || existsb (fun q => if string_dec (fst p) (fst q) then if list_eq_dec string_dec (snd p) (snd q) then true else false else false)
                          (sig_record 4 "_b5"))
    && (negb (is_fifth (fst p)) || if list_eq_dec string_dec (snd p) ["range_b5"; "time_b5"] then true else false)
    && match snd p with [] => false | _ => true end) L.
Lemma fifth_entries_spec (L : layout) key axes : fifth_entries L = true -> get L key = Some axes ->
  (of_fifth_record key = true -> In (key, axes) (sig_record 4 "_b5"))
  /\ (is_fifth key = true -> axes = ["range_b5"; "time_b5"]) /\ axes <> [].
Proof.
  intros H G. apply get_in in G. unfold fifth_entries in H. rewrite forallb_forall in H. specialize (H _ G). cbn [fst snd] in H.
  apply andb_prop in H. destruct H as [H H3]. apply andb_prop in H. destruct H as [H1 H2].
  split; [|split].
  - intro E. rewrite E in H1. cbn [negb orb] in H1. apply existsb_exists in H1. destruct H1 as [[k ax] [I H]]. cbn [fst snd] in H.
    destruct (string_dec key k); [|discriminate]. destruct (list_eq_dec string_dec axes ax); [|discriminate]. congruence.
  - intro E. rewrite E in H2. cbn [negb orb] in H2. destruct (list_eq_dec _ _ _); [assumption|discriminate].
  - intros ->. discriminate.
Qed.

Lemma step_of {V} (L : layout) nb bt cs size key (a : array V) : nb = 3 \/ nb = 4 -> proper nb size -> has_bt cs = bt ->
  fifth_entries L = true -> (is_fifth key = true -> size "range_b5" <> 3) ->
  (forall axes, get L key = Some axes -> is_fifth key = false -> @stands V nb bt key axes) ->
  step_ok L nb cs size key a.
Proof.
  intros Hn P B F R St axes tg ok G Sh Ok T.
  destruct (fifth_entries_spec L key axes F G) as [F1 [F2 _]].
  destruct (is_fifth key) eqn:E.
  - specialize (T (Ok eq_refl)). destruct T as [t [-> T]]. rewrite (F2 eq_refl) in *. cbn [map] in Sh.
    exists [], (Some t). split; [exact (fifth_place nb cs key a t _ _ E Sh (R eq_refl) T)|]. split; [intros ? []|]. intros _. now exists t.
  - destruct (St axes G eq_refl cs size a tg P B) as [ax [tg' [Pl A]]]; [now rewrite E|].
    exists ax, tg'. split; [|split; [exact A|]].
    + rewrite Pl. unfold kept. now rewrite E.
    + intro H. destruct (record_tags nb (key, axes) Hn (F1 H) cs size a tg P Sh) as [ax' [en Pl']]. cbn [fst] in Pl'.
      rewrite Pl in Pl'. injection Pl' as _ _ ->. exists "_b5". split; reflexivity.
Qed.

(** the two variables added to a layout *)
Lemma added_stands {V} nb bt p : nb = 3 \/ nb = 4 ->
  In p [("orientmat", ["earth"; "inst"; "time"]); ("inst2head_rotmat", ["x1"; "x2"])] -> @stands V nb bt (fst p) (snd p).
Proof.
  intros Hn. revert p. apply Forall_forall. destruct Hn as [->| ->]; stand_all.
Qed.
Lemma get_dataset_layout (L : layout) key axes : get (dataset_layout L) key = Some axes ->
  get L key = Some axes \/ In (key, axes) [("orientmat", ["earth"; "inst"; "time"]); ("inst2head_rotmat", ["x1"; "x2"])].
Proof.
  unfold dataset_layout. rewrite get_app. destruct (get L key) eqn:E; intro H; [left|right; now apply get_in].
  injection H as ->. reflexivity.
Qed.

Lemma reload_layout {V} (L : layout) nb size (ds : dict (entry V)) n na : nb = 3 \/ nb = 4 -> beams_known nb n na ->
  lies_on (dataset_layout L) nb size ds ->
  forallb apart (map fst (dataset_layout L)) = true -> fifth_entries (dataset_layout L) = true ->
  (forall key axes, In key (map fst ds) -> get L key = Some axes -> is_fifth key = false -> @stands V nb (has_bt (coords_of ds)) key axes) ->
  (forall key, In key (variable_names ds) -> is_fifth key = true -> size "range_b5" <> 3) ->
  fifth_behind false (variable_names ds) ->
  exists ds', load_mat (save_mat n na ds) = inr ds' /\ holds_all ds ds'
    /\ (forall k, get ds' k <> None -> In k (map fst ds) \/ In k frames).
Proof.
  intros Hn B On Ap Fe St R Fb.
  apply (reload (dataset_layout L) nb size ds n na Hn B On); auto.
  - exact (apart_all _ Ap).
  - intros key b I. apply in_map_iff in I. destruct I as [[k a] [E I]]. injection E as -> <-.
    assert (Kv : In key (map fst (vars_of ds))) by (apply in_map_iff; now exists (key, a)).
    apply (step_of (dataset_layout L) nb (has_bt (coords_of ds))); auto.
    + apply On.
    + intro E. rewrite vars_names in Kv. now apply (R key).
    + intros axes G E. apply get_dataset_layout in G. destruct G as [G|G].
      * apply St; auto. now apply vars_sub.
      * exact (added_stands nb _ (key, axes) Hn G).
  - intros key axes G. apply (fifth_entries_spec _ _ _ Fe G).
Qed.

Lemma fifth_free {V} (L : layout) nb size (ds : dict (entry V)) : lies_on L nb size ds ->
  forallb (fun k => negb (is_fifth k)) (map fst L) = true ->
  fifth_behind false (variable_names ds) /\ forall key, In key (variable_names ds) -> is_fifth key = false.
Proof.
  intros [_ [_ C]] H.
  assert (A : forall key, In key (variable_names ds) -> is_fifth key = false).
  { intros key I. rewrite <- vars_names in I. apply in_map_iff in I. destruct I as [[k a] [<- I]]. cbn [fst].
    apply vars_in in I. destruct I as [ax I]. destruct (C k _ I) as [[_ [E _]]|[axes [b [G _]]]]; [discriminate|].
    rewrite forallb_forall in H. apply get_in in G. apply negb_true_iff. apply H. apply in_map_iff. now exists (k, axes). }
  split; [|exact A]. revert A. generalize (variable_names ds). generalize false at 2.
  intros b l. revert b. induction l as [|k l IH]; intros b A; [exact Logic.I|]. cbn [fifth_behind].
  rewrite (A k (or_introl eq_refl)). apply IH. intros; apply A; now right.
Qed.

Theorem vector_reload {V} size (ds : dict (entry V)) n na : beams_known 3 n na -> lies_on (dataset_layout vector_layout) 3 size ds ->
  exists ds', load_mat (save_mat n na ds) = inr ds' /\ holds_all ds ds'
    /\ (forall k, get ds' k <> None -> In k (map fst ds) \/ In k frames).
Proof.
  intros B On. destruct (fifth_free _ _ _ _ On ltac:(vm_compute; reflexivity)) as [F1 F2].
  apply (reload_layout vector_layout 3 size ds n na (or_introl eq_refl) B On); [vm_compute; reflexivity|vm_compute; reflexivity| | |exact F1].
  - intros key axes _ G _. exact (vector_stands (key, axes) _ (get_in _ _ _ G)).
  - intros key I E. now rewrite (F2 key I) in E.
Qed.
Theorem awac_reload {V} size (ds : dict (entry V)) n na : beams_known 3 n na -> lies_on (dataset_layout awac_layout) 3 size ds ->
  exists ds', load_mat (save_mat n na ds) = inr ds' /\ holds_all ds ds'
    /\ (forall k, get ds' k <> None -> In k (map fst ds) \/ In k frames).
Proof.
  intros B On. destruct (fifth_free _ _ _ _ On ltac:(vm_compute; reflexivity)) as [F1 F2].
  apply (reload_layout awac_layout 3 size ds n na (or_introl eq_refl) B On); [vm_compute; reflexivity|vm_compute; reflexivity| | |exact F1].
  - intros key axes _ G _. exact (awac_stands (key, axes) _ (get_in _ _ _ G)).
  - intros key I E. now rewrite (F2 key I) in E.
Qed.
Lemma no_bt {V} (L : layout) nb size (ds : dict (entry V)) : lies_on L nb size ds ->
  forallb (fun p => negb (existsb (String.eqb "time_bt") (snd p))) L = true -> has_bt (coords_of ds) = false.
Proof.
  intros [_ [_ C]] H. unfold has_bt. destruct (get (coords_of ds) "time_bt") as [m|] eqn:G; [|reflexivity]. exfalso.
  apply get_in, coords_in in G. destruct G as [ax G]. destruct (C _ _ G) as [[[Q|[_ [key [axes [K I]]]]] _]|[axes [b [_ [E _]]]]]; [| |discriminate].
  - cbn in Q. intuition discriminate.
  - apply get_in in K. rewrite forallb_forall in H. specialize (H _ K). cbn [snd] in H. apply negb_true_iff in H.
    assert (T : existsb (String.eqb "time_bt") axes = true) by (apply existsb_exists; exists "time_bt"; split; [exact I|reflexivity]).
    congruence.
Qed.
Theorem trdi_reload {V} size (ds : dict (entry V)) n na : beams_known 4 n na -> lies_on (dataset_layout trdi_layout) 4 size ds ->
  exists ds', load_mat (save_mat n na ds) = inr ds' /\ holds_all ds ds'
    /\ (forall k, get ds' k <> None -> In k (map fst ds) \/ In k frames).
Proof.
  intros B On. destruct (fifth_free _ _ _ _ On ltac:(vm_compute; reflexivity)) as [F1 F2].
  apply (reload_layout trdi_layout 4 size ds n na (or_intror eq_refl) B On); [vm_compute; reflexivity|vm_compute; reflexivity| | |exact F1].
  - rewrite (no_bt _ _ _ _ On ltac:(vm_compute; reflexivity)).
    intros key axes _ G _. exact (trdi_stands (key, axes) (get_in _ _ _ G)).
  - intros key I E. now rewrite (F2 key I) in E.
Qed.
Lemma sig_bt nb key axes : nb = 3 \/ nb = 4 -> get (signature_layout nb) key = Some axes -> contains "bt" key = true -> In "time_bt" axes.
Proof.
  intros Hn G B. apply get_in in G.
  assert (H : forallb (fun p => negb (contains "bt" (fst p)) || existsb (String.eqb "time_bt") (snd p)) (signature_layout nb) = true)
    by (destruct Hn as [->| ->]; vm_compute; reflexivity).
  rewrite forallb_forall in H. specialize (H _ G). cbn [fst snd] in H. rewrite B in H. cbn [negb orb] in H.
  apply existsb_exists in H. destruct H as [x [I E]]. apply String.eqb_eq in E. now subst x.
Qed.
Theorem signature_reload {V} nb size (ds : dict (entry V)) n na : nb = 3 \/ nb = 4 -> beams_known nb n na ->
  lies_on (dataset_layout (signature_layout nb)) nb size ds ->
  (forall key, In key (variable_names ds) -> is_fifth key = true -> size "range_b5" <> 3) ->
  fifth_behind false (variable_names ds) ->
  exists ds', load_mat (save_mat n na ds) = inr ds' /\ holds_all ds ds'
    /\ (forall k, get ds' k <> None -> In k (map fst ds) \/ In k frames).
Proof.
  intros Hn B On R Fb. apply (reload_layout (signature_layout nb) nb size ds n na Hn B On); [..|exact R|exact Fb].
  - destruct Hn as [->| ->]; vm_compute; reflexivity.
  - destruct Hn as [->| ->]; vm_compute; reflexivity.
  - intros key axes I G E. apply (sig_stands nb _ (key, axes) Hn). apply get_in.
    rewrite get_with_bt; [exact G|]. destruct (contains "bt" key) eqn:Bt; [left|now right].
    destruct On as [_ [N C]].
    apply in_map_iff in I. destruct I as [[k e] [<- I]]. cbn [fst] in *.
    pose proof (sig_bt nb k axes Hn G Bt) as T.
    assert (Gd : get (dataset_layout (signature_layout nb)) k = Some axes) by (unfold dataset_layout; rewrite get_app, G; reflexivity).
    assert (Kc : ~ In k frames /\ ~ In k coordinate_names).
    { assert (Al : forallb apart (map fst (signature_layout nb)) = true) by now apply signature_apart.
      destruct (apart_all _ Al k) as [X1 [X2 [X3 X4]]]; [apply in_map_iff; exists (k, axes); split; [reflexivity|now apply get_in]|].
      split; [|exact X2]. revert X1 X3 X4. clear. cbn. intros. intuition congruence. }
    destruct (C k e I) as [[Q _]|[axes' [a [G' [_ [_ [_ Cs]]]]]]]; [exfalso; destruct Q as [Q|[Q _]]; tauto|].
    assert (axes' = axes). { rewrite Gd in G'. now injection G'. } subst axes'.
    specialize (Cs "time_bt" T ltac:(cbn; tauto)). apply in_map_iff in Cs. destruct Cs as [[k2 e2] [Ek I2]]. cbn [fst] in Ek. subst k2.
    unfold has_bt. destruct (C _ _ I2) as [[_ [-> _]]|[ax2 [b [G2 _]]]].
    + rewrite (get_nodup (coords_of ds) "time_bt" (size "time_bt")); [reflexivity|now apply coords_nodup|].
      apply coords_in. now exists ["time_bt"].
    + exfalso. revert G2. destruct Hn as [->| ->]; vm_compute; discriminate.
Qed.

(** *** where it fails *)
Theorem single_fails {V} (ds : dict (entry V)) n na k : In (k, ([k], Axis 1)) ds -> k <> "beam" -> k <> "dir" ->
  exists e, load_mat (save_mat n na ds) = inl e.
Proof.
  intros I N1 N2. unfold load_mat, save_mat. cbn [file_vars file_coords].
  destruct (existsb _ (map _ (vars_of ds))); [eexists; reflexivity|].
  replace (existsb _ (coords_of ds)) with true; [eexists; reflexivity|].
  symmetry. apply existsb_exists. exists (k, 1%nat). split; [apply coords_in; now exists [k]|].
  cbn [fst snd]. apply String.eqb_neq in N1, N2. now rewrite N1, N2.
Qed.
Lemma load_create {V} (ds ds' : dict (entry V)) n na : load_mat (save_mat n na ds) = inr ds' ->
  create_dataset (Collected (coords_of ds) n na (map (fun p => (fst p, squeeze (snd p))) (vars_of ds))) = inr ds'.
Proof.
  unfold load_mat, save_mat. cbn [file_vars file_coords file_n_beams file_n_beams_avg].
  destruct (existsb _ (map _ (vars_of ds))); [discriminate|]. destruct (existsb _ (coords_of ds)); [discriminate|].
  destruct (create_dataset _); [discriminate|]. intro H. now injection H as ->.
Qed.
Lemma three_place {V} nb cs key (a : array V) t m : is_fifth key = true -> shape a = [3; m] ->
  place nb cs key a t = inr ([("dirIMU", 3)], Some (["dirIMU"; "time_b5"], Data a), Some "_b5").
Proof.
  intros F Sh. destruct a as [sh f]. cbn [shape] in Sh. subst sh.
  unfold is_fifth in F. apply orb_prop in F.
  assert (K : key = "vel_b5" \/ key = "amp_b5" \/ key = "corr_b5").
  { destruct F as [F|F]; [apply orb_prop in F; destruct F as [F|F]|]; apply String.eqb_eq in F; auto. }
  clear F.
  assert (Q : contains "mat" key = false /\ contains "quaternions" key = false /\ (key =? "echo") = false
    /\ (key =? "samp_altraw") = false /\ (key =? "samp_altraw_avg") = false
    /\ existsb (fun t => contains t key) ["_avg"; "_b5"; "_echo"] = true /\ find (fun t => contains t key) tags = Some "_b5")
    by (destruct K as [->|[->| ->]]; vm_compute; repeat split).
  destruct Q as [Q1 [Q2 [Q3 [Q4 [Q5 [Q6 Q7]]]]]].
  unfold place. cbn [shape]. rewrite Q1, Q2, Q3, Q4, Q5, Q6, Q7. cbn [negb]. rewrite andb_false_r. reflexivity.
Qed.
Theorem three_cells {V} (ds ds' : dict (entry V)) n na key a m : is_fifth key = true -> NoDup (map fst ds) ->
  In (key, (["range_b5"; "time_b5"], Data a)) ds -> shape a = [3; m] -> (2 <= m)%nat ->
  load_mat (save_mat n na ds) = inr ds' -> exists b, get ds' key = Some (["dirIMU"; "time_b5"], Data b).
Proof.
  intros F N I Sh Hm H. apply load_create in H. exists (squeeze a). unfold create_dataset in H.
  destruct (number_of_beams _) as [nb|]; [|discriminate].
  destruct (place_all _ _ _ _ _) as [|d] eqn:P; [discriminate|].
  assert (E : d = ds'). { unfold from_dict in H. destruct (_ && _) in H; [now injection H|discriminate]. }
  subst d. apply (place_all_entry _ _ _ _ _ _ key (squeeze a) _ P).
  - cbn [data_vars]. rewrite map_squeeze_names. now apply vars_nodup.
  - cbn [data_vars]. apply in_map_iff. exists (key, a). split; [reflexivity|]. apply vars_in. now exists ["range_b5"; "time_b5"].
  - intro X. unfold is_fifth in F. cbn in X. repeat destruct X as [<-|X]; try contradiction; vm_compute in F; discriminate.
  - intro t. do 2 eexists. apply (three_place _ _ _ _ _ m F).
    destruct (squeeze_same a) as [E _]; [|congruence]. rewrite Sh. intros q [<-|[<-|[]]]; lia.
Qed.
