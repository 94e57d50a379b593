(** Lemmas on the configuration of Signature files. *)
From Coq Require Import String.
From Coq Require Import ZArith QArith List Bool Lia.
From Verif.Model Require Import Nortek RdiBlocks SigHead.
From Verif.Spec Require Import SigHead.
Import ListNotations.
Open Scope Z_scope.

(** ** texts *)
Lemma text_eqb_eq a b : text_eqb a b = true <-> a = b.
Proof. unfold text_eqb. destruct (list_eq_dec Z.eq_dec a b); split; congruence. Qed.
Lemma text_eqb_refl a : text_eqb a a = true. Proof. apply text_eqb_eq. reflexivity. Qed.
Lemma text_eqb_neq a b : a <> b -> text_eqb a b = false.
Proof. intros N. destruct (text_eqb a b) eqn:E; [apply text_eqb_eq in E; contradiction|reflexivity]. Qed.
Lemma tget_set {A} (d : tdict A) k v x : tget (tset d k v) x = if text_eqb k x then Some v else tget d x.
Proof.
  induction d as [|[k' v'] d IH]; cbn [tset tget].
  - destruct (text_eqb k x); reflexivity.
  - destruct (text_eqb k' k) eqn:E; cbn [tget].
    + apply text_eqb_eq in E. subst k'. destruct (text_eqb k x); reflexivity.
    + rewrite IH. destruct (text_eqb k' x) eqn:F; [|reflexivity]. apply text_eqb_eq in F. subst k'. destruct (text_eqb k x) eqn:G; [|reflexivity].
      apply text_eqb_eq in G. subst. rewrite text_eqb_refl in E. discriminate.
Qed.
Lemma without_app cs a b : without cs (a ++ b) <-> without cs a /\ without cs b.
Proof.
  unfold without. split.
  - intros H. split; intros c I; apply H, in_or_app; tauto.
  - intros [A B] c I. apply in_app_or in I. destruct I as [I|I]; [apply A, I|apply B, I].
Qed.
Lemma without_cons cs c t : without cs (c :: t) <-> ~ In c cs /\ without cs t.
Proof. unfold without. split; [intros H; split; [apply H; left; reflexivity|intros x I; apply H; right; exact I]|intros [A B] x [<-|I]; [exact A|apply B, I]]. Qed.
Lemma without_weaken cs cs' t : (forall c, In c cs' -> In c cs) -> without cs t -> without cs' t.
Proof. intros S W c I J. exact (W c I (S c J)). Qed.
Lemma no_breaks2 t : without (comma :: equals :: breaks) t -> without breaks t.
Proof. apply without_weaken. intros c I. right. right. exact I. Qed.
Lemma no_breaks1 t : without (comma :: breaks) t -> without breaks t.
Proof. apply without_weaken. intros c I. right. exact I. Qed.
Lemma is_break_in c : is_break c = true <-> In c breaks.
Proof.
  unfold is_break, breaks. rewrite orb_true_iff, !andb_true_iff, !Z.leb_le. cbn [In]. lia.
Qed.
Lemma is_break_not c : ~ In c breaks -> is_break c = false.
Proof. intros N. destruct (is_break c) eqn:E; [apply is_break_in in E; contradiction|reflexivity]. Qed.
Lemma splitlines_line t rest : without breaks t -> splitlines (t ++ [13; 10] ++ rest) = t :: splitlines rest.
Proof.
  induction t as [|c t IH]; intros W; [reflexivity|]. apply without_cons in W. destruct W as [N W]. cbn [app splitlines]. rewrite (is_break_not c N).
  change (t ++ 13 :: 10 :: rest) with (t ++ [13; 10] ++ rest). rewrite (IH W). reflexivity.
Qed.
Lemma cut_at c a b : ~ In c a -> cut c (a ++ [c] ++ b) = Some (a, b).
Proof.
  induction a as [|x a IH]; intros N; cbn [app cut].
  - rewrite Z.eqb_refl. reflexivity.
  - destruct (Z.eqb_spec x c) as [->|_]; [exfalso; apply N; left; reflexivity|]. change (a ++ c :: b) with (a ++ [c] ++ b). rewrite IH by (intros I; apply N; right; exact I). reflexivity.
Qed.
Lemma split_none c t : ~ In c t -> split c t = [t].
Proof.
  induction t as [|x t IH]; intros N; [reflexivity|]. cbn [split]. destruct (Z.eqb_spec x c) as [->|_]; [exfalso; apply N; left; reflexivity|].
  rewrite IH by (intros I; apply N; right; exact I). reflexivity.
Qed.
Lemma split_at c a b : ~ In c a -> split c (a ++ [c] ++ b) = a :: split c b.
Proof.
  induction a as [|x a IH]; intros N; cbn [app split].
  - rewrite Z.eqb_refl. reflexivity.
  - destruct (Z.eqb_spec x c) as [->|_]; [exfalso; apply N; left; reflexivity|]. change (a ++ c :: b) with (a ++ [c] ++ b). rewrite IH by (intros I; apply N; right; exact I). reflexivity.
Qed.
Lemma split_joined ts : ts <> [] -> Forall (fun t => ~ In comma t) ts -> split 44 (joined ts) = ts.
Proof.
  induction ts as [|t ts IH]; intros NE F; [congruence|]. inversion F as [|? ? Ft Fs]. subst. destruct ts as [|u ts].
  - cbn [joined]. apply split_none. exact Ft.
  - change (joined (t :: u :: ts)) with (t ++ [44] ++ joined (u :: ts)). rewrite split_at by exact Ft. rewrite IH; [reflexivity|discriminate|exact Fs].
Qed.

(** ** lines *)
Definition full_key (l : line) : text := match l with Command nm _ => codes "GET" ++ nm | Other k _ => k end.
Definition body_of (l : line) : text := match l with Command _ ps => joined (map param ps) | Other _ v => v end.
Lemma line_parts l : line_text l = full_key l ++ [comma] ++ body_of l.
Proof. destruct l as [nm ps|k v]; [unfold line_text, full_key, body_of; rewrite <- app_assoc; reflexivity|reflexivity]. Qed.
Lemma in_comma cs : In comma (comma :: cs). Proof. left. reflexivity. Qed.
Lemma key_no_comma l : good_line l -> ~ In comma (full_key l).
Proof.
  destruct l as [nm ps|k v]; cbn [good_line full_key].
  - intros (W & _) I. apply in_app_or in I. destruct I as [I|I]; [cbn in I; unfold comma in I; lia|]. apply (W _ I). left. reflexivity.
  - intros (W & _) I. apply (W _ I). left. reflexivity.
Qed.
Lemma param_breaks p : without (comma :: equals :: breaks) (fst p) -> without (comma :: equals :: breaks) (snd p) -> without breaks (param p) /\ ~ In comma (param p).
Proof.
  intros A B. split.
  - unfold param. rewrite !without_app. split; [|split].
    + apply no_breaks2; exact A.
    + intros c [<-|[]]. unfold equals, breaks. cbn. lia.
    + apply no_breaks2; exact B.
  - unfold param. intros I. apply in_app_or in I. destruct I as [I|I]; [apply (A _ I); left; reflexivity|]. destruct I as [I|I]; [discriminate I|]. apply (B _ I). left. reflexivity.
Qed.
Lemma joined_breaks ts : Forall (without breaks) ts -> without breaks (joined ts).
Proof.
  induction ts as [|t ts IH]; intros F; [intros c []|]. inversion F as [|? ? Ft Fs]. subst. destruct ts as [|u ts]; [exact Ft|].
  change (joined (t :: u :: ts)) with (t ++ [comma] ++ joined (u :: ts)). rewrite !without_app. split; [exact Ft|]. split; [|exact (IH Fs)].
  intros c [<-|[]]. unfold comma, breaks. cbn. lia.
Qed.
Lemma line_breaks l : good_line l -> without breaks (line_text l).
Proof.
  intros G. rewrite line_parts, !without_app. assert (C : without breaks [comma]) by (intros c [<-|[]]; unfold comma, breaks; cbn; lia).
  destruct l as [nm ps|k v]; cbn [good_line full_key body_of] in *.
  - destruct G as (W & _ & _ & P). split; [|split; [exact C|]].
    + apply without_app. split; [|apply no_breaks2; exact W]. intros c I. unfold breaks. cbn in I |- *. lia.
    + apply joined_breaks. apply Forall_forall. intros t I. apply in_map_iff in I. destruct I as (p & <- & I). rewrite Forall_forall in P. destruct (P p I) as [A B].
      exact (proj1 (param_breaks p A B)).
  - destruct G as (W & V & _). split; [apply no_breaks1; exact W|]. split; [exact C|exact V].
Qed.
Lemma split_written ls : Forall good_line ls -> splitlines (written ls) = map line_text ls.
Proof.
  induction 1 as [|l ls G F IH]; [reflexivity|]. unfold written in *. cbn [map concat]. rewrite <- app_assoc. rewrite splitlines_line by exact (line_breaks l G).
  rewrite IH. reflexivity.
Qed.

(** ** collecting *)
Definition with_key (k : text) (ls : list line) : list text := map body_of (filter (fun l => text_eqb (full_key l) k) ls).
Definition as_item (vs : list text) : option item := match vs with [] => None | [v] => Some (One v) | _ => Some (Many vs) end.
Definition texts (i : option item) : list text := match i with None => [] | Some (One t) => [t] | Some (Many l) => l end.
Definition proper (out : tdict item) : Prop := forall k, as_item (texts (tget out k)) = tget out k.
Lemma add_get out k v x : proper out -> tget (add_line out k v) x = if text_eqb k x then as_item (texts (tget out k) ++ [v]) else tget out x.
Proof.
  intros P. specialize (P k). unfold add_line. destruct (tget out k) as [[t|l]|] eqn:E; rewrite tget_set; destruct (text_eqb k x); try reflexivity.
  cbn [texts] in *. destruct l as [|a [|b l]]; try discriminate P. reflexivity.
Qed.
Lemma add_proper out k v : proper out -> proper (add_line out k v).
Proof.
  intros P x. rewrite add_get by exact P. destruct (text_eqb k x); [|apply P]. destruct (texts (tget out k)) as [|a [|b l]]; reflexivity.
Qed.
Lemma collect_get ls : Forall good_line ls -> forall out, proper out -> exists out', collect (map line_text ls) out = Some out' /\ proper out' /\
  forall k, tget out' k = as_item (texts (tget out k) ++ with_key k ls).
Proof.
  induction 1 as [|l ls G F IH]; intros out P; cbn [map collect].
  - exists out. split; [reflexivity|]. split; [exact P|]. intros k. cbn [with_key filter map]. unfold with_key. cbn. rewrite app_nil_r. symmetry. apply P.
  - rewrite line_parts, cut_at by exact (key_no_comma l G). destruct (IH (add_line out (full_key l) (body_of l)) (add_proper _ _ _ P)) as (out' & E & P' & H).
    exists out'. split; [exact E|]. split; [exact P'|]. intros k. rewrite H, add_get by exact P. unfold with_key. cbn [filter].
    destruct (text_eqb (full_key l) k) eqn:K; [|reflexivity]. apply text_eqb_eq in K. subst k. cbn [map].
    replace (texts (as_item (texts (tget out (full_key l)) ++ [body_of l]))) with (texts (tget out (full_key l)) ++ [body_of l]) by (destruct (texts (tget out (full_key l))) as [|a [|b t]]; reflexivity).
    rewrite <- app_assoc. reflexivity.
Qed.
(** the keys of a dictionary *)
Lemma tget_in {A} (d : tdict A) k v : tget d k = Some v -> In (k, v) d.
Proof.
  induction d as [|[k' v'] d IH]; [discriminate|]. cbn [tget]. destruct (text_eqb k' k) eqn:E; [|intros H; right; apply IH, H].
  intros [= <-]. apply text_eqb_eq in E. subst. left. reflexivity.
Qed.
Lemma tset_keys {A} (d : tdict A) k v x : In x (map fst (tset d k v)) <-> x = k \/ In x (map fst d).
Proof.
  induction d as [|[k' v'] d IH]; cbn [tset map fst In]; [intuition congruence|]. destruct (text_eqb k' k) eqn:E; cbn [map fst In].
  - apply text_eqb_eq in E. subst. intuition.
  - rewrite IH. intuition.
Qed.
Lemma tset_nodup {A} (d : tdict A) k v : NoDup (map fst d) -> NoDup (map fst (tset d k v)).
Proof.
  induction d as [|[k' v'] d IH]; intros N; cbn [tset map fst]; [constructor; [intros []|constructor]|]. cbn [map fst] in N. inversion N as [|? ? NI N']. subst.
  destruct (text_eqb k' k) eqn:E; cbn [map fst].
  - apply text_eqb_eq in E. subst. exact N.
  - apply NoDup_cons; [|apply IH, N']. rewrite tset_keys. intros [->|I]; [rewrite text_eqb_refl in E; discriminate|contradiction].
Qed.
Lemma add_nodup out k v : NoDup (map fst out) -> NoDup (map fst (add_line out k v)).
Proof. intros N. unfold add_line. destruct (tget out k) as [[t|l]|]; apply tset_nodup, N. Qed.
Lemma collect_nodup ls : forall out out', NoDup (map fst out) -> collect ls out = Some out' -> NoDup (map fst out').
Proof.
  induction ls as [|l ls IH]; intros out out' N E; cbn [collect] in E; [injection E as <-; exact N|]. destruct (cut 44 l) as [[k v]|]; [|discriminate E].
  exact (IH _ _ (add_nodup _ _ _ N) E).
Qed.
Lemma in_tget {A} (d : tdict A) k v : NoDup (map fst d) -> In (k, v) d -> tget d k = Some v.
Proof.
  induction d as [|[k' v'] d IH]; intros N I; [destruct I|]. cbn [map fst] in N. inversion N as [|? ? NI N']. subst. cbn [tget]. destruct I as [I|I].
  - injection I as -> ->. rewrite text_eqb_refl. reflexivity.
  - rewrite text_eqb_neq; [exact (IH N' I)|]. intros ->. apply NI. apply in_map_iff. exists (k, v). split; [reflexivity|exact I].
Qed.

(** ** commands *)
Definition short_key (ky : text) : text := if is_get ky then lstrip_get ky else ky.
Definition entry_of (ky : text) (i : item) : option entry :=
  if is_get ky then match i with One dat => option_map Table (parameters (split 44 dat) []) | Many _ => None end else Some (Plain i).
Lemma commands_get out : NoDup (map (fun p => short_key (fst p)) out) -> (forall ky i, In (ky, i) out -> entry_of ky i <> None) -> forall out2,
  exists r, commands out out2 = Some r /\ (forall ky i, In (ky, i) out -> tget r (short_key ky) = entry_of ky i) /\
    (forall k, ~ In k (map (fun p => short_key (fst p)) out) -> tget r k = tget out2 k).
Proof.
  induction out as [|[ky i] out IH]; intros N H out2; cbn [commands].
  - exists out2. split; [reflexivity|]. split; [intros ky i []|reflexivity].
  - cbn [map fst] in N. inversion N as [|? ? NI N']. subst.
    assert (H' : forall ky i, In (ky, i) out -> entry_of ky i <> None) by (intros ky' i' I; apply H; right; exact I).
    assert (ST : exists e, entry_of ky i = Some e /\ commands ((ky, i) :: out) out2 = commands out (tset out2 (short_key ky) e)).
    { specialize (H ky i (or_introl eq_refl)). unfold entry_of, short_key in *. cbn [commands]. destruct (is_get ky); [|eexists; split; reflexivity].
      destruct i as [dat|l]; [|congruence]. destruct (parameters (split 44 dat) []) as [d|]; [|cbn in H; congruence]. eexists. split; reflexivity. }
    destruct ST as (e & Ee & ST). cbn [commands] in ST. rewrite ST. destruct (IH N' H' (tset out2 (short_key ky) e)) as (r & Er & G1 & G2). exists r. split; [exact Er|]. split.
    + intros ky' i' [I|I]; [|exact (G1 _ _ I)]. injection I as <- <-. rewrite G2 by exact NI. rewrite tget_set, text_eqb_refl. symmetry. exact Ee.
    + intros k NK. cbn [map fst In] in NK. rewrite G2 by tauto. rewrite tget_set, text_eqb_neq; [reflexivity|]. intros X. apply NK. left. exact X.
Qed.
Lemma get_prefix nm : is_get (codes "GET" ++ nm) = true. Proof. reflexivity. Qed.
Lemma get_only k : is_get k = true -> exists t, k = codes "GET" ++ t.
Proof.
  destruct k as [|a [|b [|c t]]]; try discriminate. cbn [is_get]. intros H. apply andb_true_iff in H. destruct H as [H C]. apply andb_true_iff in H. destruct H as [A B].
  apply Z.eqb_eq in A, B, C. subst. exists t. reflexivity.
Qed.
Lemma strip_get nm : (forall c t, nm = c :: t -> ~ In c (codes "GET")) -> lstrip_get (codes "GET" ++ nm) = nm.
Proof.
  intros H. cbn [codes app lstrip_get in_get]. destruct nm as [|c t]; [reflexivity|]. specialize (H c t eq_refl). cbn [codes In] in H.
  change (lstrip_get (c :: t) = c :: t). cbn [lstrip_get]. unfold in_get. 
  destruct (Z.eqb_spec c 71); [exfalso; apply H; left; cbn; lia|]. destruct (Z.eqb_spec c 69); [exfalso; apply H; right; left; cbn; lia|].
  destruct (Z.eqb_spec c 84); [exfalso; apply H; right; right; left; cbn; lia|]. reflexivity.
Qed.

Lemma short_full l : good_line l -> short_key (full_key l) = key_of l.
Proof.
  destruct l as [nm ps|k v]; cbn [good_line full_key key_of]; unfold short_key.
  - intros (_ & S & _). rewrite get_prefix. apply strip_get, S.
  - intros (_ & _ & N). destruct (is_get k) eqn:E; [|reflexivity]. exfalso. apply N, get_only, E.
Qed.
Lemma one_key ls a b : Forall good_line ls -> one_command ls -> In a ls -> In b ls -> key_of a = key_of b -> full_key a = full_key b.
Proof.
  intros F O Ia Ib E. destruct a as [nm ps|k v]; destruct b as [nm' ps'|k' v']; cbn [key_of full_key] in *; try congruence.
  - exfalso. apply in_split in Ia. destruct Ia as (l1 & l2 & Els). specialize (O _ _ _ _ Els). rewrite Forall_forall in O.
    apply (O (Other k' v')); [|symmetry; exact E]. rewrite Els in Ib. apply in_app_or in Ib. apply in_or_app. destruct Ib as [Ib|[Ib|Ib]]; [tauto|discriminate Ib|tauto].
  - exfalso. apply in_split in Ib. destruct Ib as (l1 & l2 & Els). specialize (O _ _ _ _ Els). rewrite Forall_forall in O.
    apply (O (Other k v)); [|exact E]. rewrite Els in Ia. apply in_app_or in Ia. apply in_or_app. destruct Ia as [Ia|[Ia|Ia]]; [tauto|discriminate Ia|tauto].
Qed.
Lemma nodup_map {A B} (f : A -> B) l : NoDup l -> (forall x y, In x l -> In y l -> f x = f y -> x = y) -> NoDup (map f l).
Proof.
  induction 1 as [|x l NI N IH]; intros H; [constructor|]. cbn [map]. constructor.
  - intros I. apply in_map_iff in I. destruct I as (y & E & I). apply NI. rewrite (H x y (or_introl eq_refl) (or_intror I) (eq_sym E)). exact I.
  - apply IH. intros a b Ia Ib. apply H; right; assumption.
Qed.
Lemma with_key_in k ls v : In v (with_key k ls) -> exists l, In l ls /\ full_key l = k.
Proof. unfold with_key. intros I. apply in_map_iff in I. destruct I as (l & _ & I). apply filter_In in I. destruct I as [I E]. apply text_eqb_eq in E. exists l. tauto. Qed.
Lemma filter_none {A} (f : A -> bool) l : (forall x, In x l -> f x = false) -> filter f l = [].
Proof. induction l as [|x l IH]; intros H; [reflexivity|]. cbn [filter]. rewrite (H x (or_introl eq_refl)). apply IH. intros y I. apply H. right. exact I. Qed.
(** the one line of a command *)
Lemma with_command ls nm ps : Forall good_line ls -> one_command ls -> In (Command nm ps) ls -> with_key (codes "GET" ++ nm) ls = [joined (map param ps)].
Proof.
  intros F O I. apply in_split in I. destruct I as (l1 & l2 & E). specialize (O _ _ _ _ E). subst ls.
  apply Forall_app in F. destruct F as [F1 F2]. inversion F2 as [|? ? _ F3]. subst. apply Forall_app in O. destruct O as [O1 O2].
  assert (K : forall l, good_line l -> key_of l <> nm -> text_eqb (full_key l) (codes "GET" ++ nm) = false).
  { intros l G N. apply text_eqb_neq. destruct l as [nm' ps'|k v]; cbn [full_key key_of] in *.
    - intros X. apply app_inv_head in X. contradiction.
    - intros X. destruct G as (_ & _ & NG). apply NG. exists nm. exact X. }
  unfold with_key. rewrite filter_app. cbn [filter full_key]. rewrite text_eqb_refl.
  rewrite !filter_none; [reflexivity| |].
  - intros x Ix. rewrite Forall_forall in F3, O2. apply K; [apply F3, Ix|apply O2, Ix].
  - intros x Ix. rewrite Forall_forall in F1, O1. apply K; [apply F1, Ix|apply O1, Ix].
Qed.
Lemma with_other ls k : Forall good_line ls -> ~ (exists t, k = codes "GET" ++ t) -> with_key k ls = values_of ls k.
Proof.
  intros F N. unfold with_key, values_of. induction F as [|l ls G F IH]; [reflexivity|]. cbn [filter map concat]. destruct l as [nm ps|k' v]; cbn [full_key].
  - rewrite text_eqb_neq; [exact IH|]. intros <-. apply N. exists nm. reflexivity.
  - destruct (text_eqb k' k); cbn [map app]; rewrite <- IH; reflexivity.
Qed.
(** the parameters *)
Lemma parameters_get ps : Forall (fun p => without (comma :: equals :: breaks) (fst p) /\ without (comma :: equals :: breaks) (snd p)) ps -> NoDup (map fst ps) -> forall d,
  exists d', parameters (map param ps) d = Some d' /\ (forall p, In p ps -> tget d' (fst p) = Some (number_of (snd p))) /\ (forall k, ~ In k (map fst ps) -> tget d' k = tget d k).
Proof.
  induction 1 as [|p ps [A B] F IH]; intros N d; cbn [map parameters].
  - exists d. split; [reflexivity|]. split; [intros p []|reflexivity].
  - cbn [map] in N. inversion N as [|? ? NI N']. subst.
    assert (E : split 61 (param p) = [fst p; snd p]).
    { unfold param, equals. rewrite split_at by (intros I; apply (A _ I); right; left; reflexivity). rewrite split_none by (intros I; apply (B _ I); right; left; reflexivity). reflexivity. }
    rewrite E. destruct (IH N' (tset d (fst p) (number_of (snd p)))) as (d' & E' & G1 & G2). exists d'. split; [exact E'|]. split.
    + intros q [<-|I]; [|exact (G1 q I)]. rewrite G2 by exact NI. rewrite tget_set, text_eqb_refl. reflexivity.
    + intros k NK. cbn [In] in NK. rewrite G2 by tauto. rewrite tget_set, text_eqb_neq; [reflexivity|]. intros X. apply NK. left. exact X.
Qed.
Lemma parameters_some items : Forall (fun t => exists k v, split 61 t = [k; v]) items -> forall d, parameters items d <> None.
Proof. induction 1 as [|t items (k & v & E) F IH]; intros d; cbn [parameters]; [discriminate|]. rewrite E. apply IH. Qed.
Lemma params_text ps : ps <> [] -> Forall (fun p => without (comma :: equals :: breaks) (fst p) /\ without (comma :: equals :: breaks) (snd p)) ps ->
  split 44 (joined (map param ps)) = map param ps.
Proof.
  intros NE F. apply split_joined; [destruct ps; [congruence|discriminate]|]. apply Forall_forall. intros t I. apply in_map_iff in I. destruct I as (p & <- & I).
  rewrite Forall_forall in F. destruct (F p I) as [A B]. exact (proj2 (param_breaks p A B)).
Qed.

(** ** the whole text *)
Lemma config_read ls : Forall good_line ls -> one_command ls -> exists cf, read_config (written ls) = Some cf /\
  (forall nm ps, In (Command nm ps) ls -> exists d, parameters (map param ps) [] = Some d /\ tget cf nm = Some (Table d)) /\
  (forall k v, In (Other k v) ls -> tget cf k = option_map Plain (as_item (values_of ls k))).
Proof.
  intros F O. unfold read_config. rewrite (split_written ls F).
  destruct (collect_get ls F [] (fun k => eq_refl)) as (out & E & _ & G). rewrite E. pose proof (collect_nodup (map line_text ls) [] out (NoDup_nil _) E) as ND.
  assert (KI : forall ky i, In (ky, i) out -> exists l, In l ls /\ full_key l = ky).
  { intros ky i I. pose proof (in_tget _ _ _ ND I) as T. rewrite G in T. cbn [tget texts app] in T. destruct (with_key ky ls) as [|v vs] eqn:W; [discriminate T|].
    apply (with_key_in ky ls v). rewrite W. left. reflexivity. }
  assert (EN : forall ky i, In (ky, i) out -> entry_of ky i <> None).
  { intros ky i I. destruct (KI ky i I) as (l & Il & <-). unfold entry_of. destruct (is_get (full_key l)) eqn:IG; [|discriminate].
    pose proof (in_tget _ _ _ ND I) as T. rewrite G in T. cbn [tget texts app] in T. rewrite Forall_forall in F. pose proof (F l Il) as Gl.
    destruct l as [nm ps|k v]; cbn [full_key] in *.
    - rewrite (with_command ls nm ps) in T; [|apply Forall_forall; exact F|exact O|exact Il]. cbn [as_item] in T. injection T as <-.
      destruct Gl as (_ & _ & NE & P). rewrite (params_text ps NE P).
      assert (X : parameters (map param ps) [] <> None).
      { apply parameters_some. apply Forall_forall. intros t It. apply in_map_iff in It. destruct It as (p & <- & Ip). rewrite Forall_forall in P. destruct (P p Ip) as [A B].
        exists (fst p), (snd p). unfold param, equals. rewrite split_at by (intros J; apply (A _ J); right; left; reflexivity). rewrite split_none by (intros J; apply (B _ J); right; left; reflexivity). reflexivity. }
      destruct (parameters (map param ps) []); [discriminate|congruence].
    - exfalso. destruct Gl as (_ & _ & NG). apply NG, get_only, IG. }
  assert (SN : NoDup (map (fun p => short_key (fst p)) out)).
  { rewrite <- map_map. apply nodup_map; [exact ND|]. intros x y Ix Iy Exy. apply in_map_iff in Ix, Iy. destruct Ix as ([ka ia] & <- & Ia), Iy as ([kb ib] & <- & Ib). cbn [fst] in *.
    destruct (KI _ _ Ia) as (la & Ila & <-), (KI _ _ Ib) as (lb & Ilb & <-). pose proof F as F'. rewrite Forall_forall in F'. rewrite !short_full in Exy by (apply F'; assumption).
    exact (one_key ls la lb F O Ila Ilb Exy). }
  destruct (commands_get out SN EN []) as (cf & Ec & G1 & _). exists cf. split; [exact Ec|]. pose proof F as F'. rewrite Forall_forall in F'. split.
  - intros nm ps I. pose proof (G (codes "GET" ++ nm)) as T. cbn [tget texts app] in T. rewrite (with_command ls nm ps F O I) in T. cbn [as_item] in T.
    specialize (G1 _ _ (tget_in _ _ _ T)). pose proof (F' _ I) as Gl. pose proof (short_full _ Gl) as SK. cbn [full_key key_of] in SK. rewrite SK in G1.
    unfold entry_of in G1. rewrite get_prefix in G1. destruct Gl as (_ & _ & NE & P). rewrite (params_text ps NE P) in G1.
    specialize (EN _ _ (tget_in _ _ _ T)). unfold entry_of in EN. rewrite get_prefix, (params_text ps NE P) in EN.
    destruct (parameters (map param ps) []) as [d|]; [|cbn in EN; congruence]. exists d. split; [reflexivity|exact G1].
  - intros k v I. pose proof (F' _ I) as Gl. pose proof (short_full _ Gl) as SK. cbn [full_key key_of] in SK. destruct Gl as (_ & _ & NG).
    pose proof (G k) as T. cbn [tget texts app] in T. rewrite (with_other ls k F NG) in T.
    destruct (as_item (values_of ls k)) as [i|] eqn:AI.
    + specialize (G1 _ _ (tget_in _ _ _ T)). rewrite SK in G1. rewrite G1. unfold entry_of. destruct (is_get k) eqn:IG; [exfalso; apply NG, get_only, IG|reflexivity].
    + exfalso. assert (V : In v (values_of ls k)).
      { unfold values_of. apply in_concat. exists [v]. split; [|left; reflexivity]. apply in_map_iff. exists (Other k v). rewrite text_eqb_refl. split; [reflexivity|exact I]. }
      destruct (values_of ls k) as [|a [|b l]]; [destruct V|discriminate AI|discriminate AI].
Qed.

(** ** numbers *)
Lemma digit_ok d : 0 <= d <= 9 -> is_digit (48 + d) = true.
Proof. intros D. unfold is_digit. apply andb_true_iff. rewrite !Z.leb_le. lia. Qed.
Lemma numeral_digits t n : numeral t n -> t <> [] /\ forallb is_digit t = true /\ digits t = n /\ 0 <= n.
Proof.
  induction 1 as [d D|t n d H (NE & F & E & P) D].
  - split; [discriminate|]. split; [cbn [forallb]; rewrite (digit_ok d D); reflexivity|]. split; [unfold digits; cbn [fold_left]; lia|lia].
  - split; [destruct t; discriminate|]. split; [rewrite forallb_app, F; cbn [forallb]; rewrite (digit_ok d D); reflexivity|].
    split; [|lia]. unfold digits in *. rewrite fold_left_app, E. cbn [fold_left]. lia.
Qed.
Lemma digit_not_space c : is_digit c = true -> is_space c = false.
Proof. unfold is_digit, is_space. rewrite andb_true_iff, !Z.leb_le. intros H. rewrite orb_false_iff, !andb_false_iff, !Z.leb_gt. lia. Qed.
Lemma strip_same t : (forall c u, t = c :: u -> is_space c = false) -> (forall c u, t = u ++ [c] -> is_space c = false) -> strip t = t.
Proof.
  intros A B. unfold strip. assert (E : lstrip t = t) by (destruct t as [|c t]; [reflexivity|]; cbn [lstrip]; rewrite (A c t eq_refl); reflexivity). rewrite E.
  assert (E' : lstrip (rev t) = rev t).
  { destruct (rev t) as [|c u] eqn:R; [reflexivity|]. cbn [lstrip]. rewrite (B c (rev u)); [reflexivity|]. rewrite <- (rev_involutive t), R. reflexivity. }
  rewrite E'. apply rev_involutive.
Qed.
Lemma last_digit t c u : forallb is_digit t = true -> t = u ++ [c] -> is_digit c = true.
Proof. intros F ->. rewrite forallb_app in F. apply andb_true_iff in F. destruct F as [_ F]. cbn in F. rewrite andb_true_r in F. exact F. Qed.
Lemma app_last {A} (a b : list A) c u : b <> [] -> a ++ b = u ++ [c] -> exists u', b = u' ++ [c].
Proof.
  intros NE E. destruct (exists_last NE) as (b' & x & ->). rewrite app_assoc in E. apply app_inj_tail in E. destruct E as [_ <-]. exists b'. reflexivity.
Qed.
Lemma int_numeral t n : numeral t n -> py_int t = Ret n /\ py_int (45 :: t) = Ret (- n).
Proof.
  intros H. destruct (numeral_digits t n H) as (NE & F & E & P). split.
  - unfold py_int. rewrite strip_same.
    + destruct t as [|c t]; [congruence|]. cbn [forallb] in F. apply andb_true_iff in F. destruct F as [Fc Ft]. unfold sign_of.
      assert (N : (c =? 45) = false /\ (c =? 43) = false) by (unfold is_digit in Fc; rewrite andb_true_iff, !Z.leb_le in Fc; split; apply Z.eqb_neq; lia). destruct N as [-> ->].
      cbn [length Nat.eqb negb andb forallb]. rewrite Fc, Ft. cbn [andb check bind]. rewrite E. f_equal. lia.
    + intros c u ->. cbn [forallb] in F. apply andb_true_iff in F. apply digit_not_space, F.
    + intros c u Eu. apply digit_not_space. exact (last_digit t c u F Eu).
  - unfold py_int. rewrite strip_same.
    + cbn [sign_of Z.eqb Pos.eqb]. rewrite F. destruct t as [|c t]; [congruence|]. cbn [length Nat.eqb negb andb check bind]. rewrite E. reflexivity.
    + intros c u [= <- <-]. reflexivity.
    + intros c u Eu. apply digit_not_space. destruct (app_last [45] t c u NE Eu) as (u' & Eu'). exact (last_digit t c u' F Eu').
Qed.
Lemma point_cut w f : forallb is_digit w = true -> before_point (w ++ [46] ++ f) = (w, f).
Proof.
  induction w as [|c w IH]; intros F; [reflexivity|]. cbn [forallb] in F. apply andb_true_iff in F. destruct F as [Fc Fw]. cbn [app before_point].
  assert (N : (c =? 46) = false) by (unfold is_digit in Fc; rewrite andb_true_iff, !Z.leb_le in Fc; apply Z.eqb_neq; lia). rewrite N.
  change (w ++ 46 :: f) with (w ++ [46] ++ f). rewrite (IH Fw). reflexivity.
Qed.
Lemma digits_from l : forall a, fold_left (fun a b => 10 * a + (b - 48)) l a = a * 10 ^ Z.of_nat (length l) + fold_left (fun a b => 10 * a + (b - 48)) l 0.
Proof.
  induction l as [|x l IH]; intros a; [cbn; lia|]. cbn [fold_left length]. rewrite IH, (IH (10 * 0 + (x - 48))).
  replace (Z.of_nat (S (length l))) with (Z.of_nat (length l) + 1) by lia. rewrite Z.pow_add_r by lia. change (10 ^ 1) with 10. nia.
Qed.
Lemma float_value w a f b : numeral w a -> numeral f b ->
  (qz (digits (w ++ f)) / qz (10 ^ Z.of_nat (length f)) == inject_Z a + inject_Z b / inject_Z (10 ^ Z.of_nat (length f)))%Q.
Proof.
  intros A B. destruct (numeral_digits w a A) as (_ & _ & Ea & _), (numeral_digits f b B) as (_ & _ & Eb & _).
  assert (D : digits (w ++ f) = a * 10 ^ Z.of_nat (length f) + b) by (unfold digits in *; rewrite fold_left_app, digits_from, Ea, Eb; reflexivity).
  rewrite D. set (P := 10 ^ Z.of_nat (length f)). assert (PP : 0 < P) by (apply Z.pow_pos_nonneg; lia). unfold qz. rewrite inject_Z_plus, inject_Z_mult. field.
  intros X. unfold Qeq in X. cbn in X. lia.
Qed.
Lemma number_integer t n : integer t n -> number_of t = VInt n.
Proof. intros [t' n' H|t' n' H]; unfold number_of; destruct (int_numeral _ _ H) as [A B]; [rewrite A|rewrite B]; reflexivity. Qed.
Lemma number_fraction t q : fraction t q -> exists q', number_of t = VFloat q' /\ (q' == q)%Q.
Proof.
  assert (M : forall w a f b, numeral w a -> numeral f b -> forall sg pre, (pre = [] /\ sg = 1) \/ (pre = [45] /\ sg = -1) ->
    number_of (pre ++ w ++ [46] ++ f) = VFloat (qz sg * (qz (digits (w ++ f)) / qz (10 ^ Z.of_nat (length f))))%Q).
  { intros w a f b A B sg pre C. destruct (numeral_digits w a A) as (NW & Fw & _), (numeral_digits f b B) as (NF & Ff & _).
    assert (S : strip (pre ++ w ++ [46] ++ f) = pre ++ w ++ [46] ++ f).
    { apply strip_same.
      - intros c u E. destruct C as [[-> _]|[-> _]]; [|injection E as <- _; reflexivity]. destruct w as [|x w]; [congruence|]. injection E as <- _. cbn [forallb] in Fw. apply andb_true_iff in Fw. apply digit_not_space, Fw.
      - intros c u E. rewrite !app_assoc in E. destruct (app_last ((pre ++ w) ++ [46]) f c u NF E) as (u' & Eu). apply digit_not_space. exact (last_digit f c u' Ff Eu). }
    assert (SG : sign_of (pre ++ w ++ [46] ++ f) = (sg, w ++ [46] ++ f)).
    { destruct C as [[-> ->]|[-> ->]]; [|reflexivity]. destruct w as [|x w]; [congruence|]. cbn [forallb] in Fw. apply andb_true_iff in Fw. destruct Fw as [Fx _].
      assert (N : (x =? 45) = false /\ (x =? 43) = false) by (unfold is_digit in Fx; rewrite andb_true_iff, !Z.leb_le in Fx; split; apply Z.eqb_neq; lia). destruct N as [N1 N2].
      cbn [app sign_of]. rewrite N1, N2. reflexivity. }
    assert (PI : exists e, py_int (pre ++ w ++ [46] ++ f) = Raise e).
    { unfold py_int. rewrite S, SG. assert (X : forallb is_digit (w ++ [46] ++ f) = false) by (rewrite forallb_app; cbn; apply andb_false_r). rewrite X, andb_false_r. eexists. reflexivity. }
    destruct PI as (e & PI). unfold number_of. rewrite PI. unfold py_float. rewrite S, SG, (point_cut w f Fw), forallb_app, Fw, Ff.
    assert (L : Nat.eqb (length (w ++ f)) 0 = false) by (apply Nat.eqb_neq; rewrite app_length; destruct w; [congruence|cbn; lia]). rewrite L. reflexivity. }
  intros [w a f b A B|w a f b A B].
  - eexists. split; [exact (M w a f b A B 1 [] (or_introl (conj eq_refl eq_refl)))|]. rewrite (float_value w a f b A B). unfold qz. ring.
  - eexists. split; [exact (M w a f b A B (-1) [45] (or_intror (conj eq_refl eq_refl)))|]. rewrite (float_value w a f b A B). unfold qz. change (inject_Z (-1)) with (- (1))%Q. ring.
Qed.

(** ** uses *)
Lemma number_value v q : (exists n, integer v n /\ (q == inject_Z n)%Q) \/ fraction v q -> exists q', as_number (Some (number_of v)) = Some q' /\ (q' == q)%Q.
Proof.
  intros [(n & I & E)|F].
  - exists (inject_Z n). rewrite (number_integer v n I). split; [reflexivity|]. symmetry. exact E.
  - destruct (number_fraction v q F) as (q' & -> & E). exists q'. split; [reflexivity|exact E].
Qed.
Lemma command_table ls cf nm ps : Forall good_line ls -> one_command ls -> read_config (written ls) = Some cf -> In (Command nm ps) ls -> NoDup (map fst ps) ->
  exists d, tget cf nm = Some (Table d) /\ (forall k v, In (k, v) ps -> tget d k = Some (number_of v)).
Proof.
  intros F O R I N. destruct (config_read ls F O) as (cf' & R' & C & _). rewrite R' in R. injection R as <-. destruct (C nm ps I) as (d & P & T). exists d. split; [exact T|].
  pose proof F as F'. rewrite Forall_forall in F'. destruct (F' _ I) as (_ & _ & _ & G). destruct (parameters_get ps G N []) as (d' & P' & H & _). rewrite P in P'. injection P' as <-.
  intros k v Ik. exact (H (k, v) Ik).
Qed.
Lemma all_some_get {A} (l : list (option A)) (f : nat -> A -> Prop) : (forall i x, nth_error l i = Some x -> exists y, x = Some y /\ f i y) ->
  exists ys, all_some l = Some ys /\ length ys = length l /\ forall i y, nth_error ys i = Some y -> f i y.
Proof.
  revert f. induction l as [|x l IH]; intros f H.
  - exists []. split; [reflexivity|]. split; [reflexivity|]. intros i y E. destruct i; discriminate E.
  - destruct (H 0%nat x eq_refl) as (y & -> & Fy). destruct (IH (fun i => f (S i)) (fun i x E => H (S i) x E)) as (ys & E & L & G).
    exists (y :: ys). cbn [all_some]. rewrite E. split; [reflexivity|]. split; [cbn; lia|]. intros [|i] z Ez; [injection Ez as <-; exact Fy|exact (G i z Ez)].
Qed.
Lemma str_small n : (n < 10)%nat -> str n = [48 + Z.of_nat n].
Proof. intros H. unfold str. cbn [decimal]. destruct (Nat.ltb_spec n 10); [|lia]. rewrite Nat.mod_small by exact H. reflexivity. Qed.
Lemma nth_seq n i : (i < n)%nat -> nth_error (seq 0 n) i = Some i.
Proof. intros H. rewrite (nth_error_nth' _ 0%nat) by (rewrite seq_length; exact H). rewrite seq_nth by exact H. reflexivity. Qed.
Lemma matrix_read d r c (M : nat -> nat -> Q) : (r < 10)%nat -> (c < 10)%nat -> tget d (codes "ROWS") = Some (VInt (Z.of_nat r)) -> tget d (codes "COLS") = Some (VInt (Z.of_nat c)) ->
  (forall i j, (i < r)%nat -> (j < c)%nat -> exists q, as_number (tget d (codes "M" ++ [48 + Z.of_nat (i + 1)] ++ [48 + Z.of_nat (j + 1)])) = Some q /\ (q == M i j)%Q) ->
  exists m, matrix_of d = Some m /\ length m = r /\ forall i row, nth_error m i = Some row -> length row = c /\ forall j q, nth_error row j = Some q -> (q == M i j)%Q.
Proof.
  intros R9 C9 HR HC HM. unfold matrix_of. rewrite HR, HC, !Nat2Z.id.
  destruct (all_some_get (map (fun i => all_some (map (fun j => as_number (tget d (codes "M" ++ str (i + 1) ++ str (j + 1)))) (seq 0 c))) (seq 0 r))
    (fun i row => length row = c /\ forall j q, nth_error row j = Some q -> (q == M i j)%Q)) as (m & E & L & G).
  - intros i x Ex. assert (Li : (i < r)%nat) by (rewrite <- (seq_length r 0), <- (map_length (fun i => all_some (map (fun j => as_number (tget d (codes "M" ++ str (i + 1) ++ str (j + 1)))) (seq 0 c)))); apply nth_error_Some; rewrite Ex; discriminate).
    rewrite nth_error_map, nth_seq in Ex by exact Li. injection Ex as <-.
    destruct (all_some_get (map (fun j => as_number (tget d (codes "M" ++ str (i + 1) ++ str (j + 1)))) (seq 0 c)) (fun j q => (q == M i j)%Q)) as (row & Er & Lr & Gr).
    + intros j x Ex. assert (Lj : (j < c)%nat) by (rewrite <- (seq_length c 0), <- (map_length (fun j => as_number (tget d (codes "M" ++ str (i + 1) ++ str (j + 1))))); apply nth_error_Some; rewrite Ex; discriminate).
      rewrite nth_error_map, nth_seq in Ex by exact Lj. injection Ex as <-. destruct (HM i j Li Lj) as (q & Eq & Q). exists q. split; [|exact Q].
      destruct (Nat.eq_dec (i + 1) 10); [lia|]. rewrite !str_small by lia. exact Eq.
    + exists row. split; [exact Er|]. split; [rewrite Lr, map_length, seq_length; reflexivity|exact Gr].
  - exists m. split; [exact E|]. split; [rewrite L, map_length, seq_length; reflexivity|exact G].
Qed.
Lemma starts_app p t : starts p (p ++ t) = true.
Proof. induction p as [|x p IH]; [reflexivity|]. cbn [app starts]. rewrite Z.eqb_refl. exact IH. Qed.
Lemma occurs_app a p t : occurs p (a ++ p ++ t) = true.
Proof. induction a as [|x a IH]; [destruct (p ++ t) eqn:E; cbn [app occurs]; [destruct p; [reflexivity|discriminate E]|rewrite <- E, starts_app; reflexivity]|]. cbn [app occurs]. rewrite IH. apply orb_true_r. Qed.
Lemma angle_read ls cf b a0 a1 rest rest_lines : Forall good_line ls -> one_command ls -> read_config (written ls) = Some cf ->
  values_of ls (codes "BEAMCFGLIST") = (codes "BEAM=" ++ [48 + b] ++ codes ",THETA=" ++ [48 + a0; 48 + a1] ++ rest) :: rest_lines -> rest_lines <> [] -> 0 <= a0 <= 9 -> 0 <= a1 <= 9 ->
  beam_angle cf = Some (Some (10 * a0 + a1)).
Proof.
  intros F O R V NE A0 A1. destruct (config_read ls F O) as (cf' & R' & _ & C). rewrite R' in R. injection R as <-.
  assert (I : exists v, In (Other (codes "BEAMCFGLIST") v) ls).
  { assert (X : In (codes "BEAM=" ++ [48 + b] ++ codes ",THETA=" ++ [48 + a0; 48 + a1] ++ rest) (values_of ls (codes "BEAMCFGLIST"))) by (rewrite V; left; reflexivity).
    unfold values_of in X. apply in_concat in X. destruct X as (x & Ix & J). apply in_map_iff in Ix. destruct Ix as (l & <- & Il). destruct l as [nm ps|k v]; [destruct J|].
    destruct (text_eqb k (codes "BEAMCFGLIST")) eqn:E; [|destruct J]. apply text_eqb_eq in E. subst k. exists v. exact Il. }
  destruct I as (v & I). pose proof (C _ _ I) as T. rewrite V in T. unfold beam_angle. rewrite T. destruct rest_lines as [|l2 rl]; [congruence|]. cbn [as_item option_map].
  assert (OC : occurs (codes "THETA=") (codes "BEAM=" ++ [48 + b] ++ codes ",THETA=" ++ [48 + a0; 48 + a1] ++ rest) = true).
  { change (codes "BEAM=" ++ [48 + b] ++ codes ",THETA=" ++ [48 + a0; 48 + a1] ++ rest) with ((codes "BEAM=" ++ [48 + b] ++ [44]) ++ codes "THETA=" ++ ([48 + a0; 48 + a1] ++ rest)). apply occurs_app. }
  cbv zeta. rewrite OC. change (firstn 2 (skipn 13 (codes "BEAM=" ++ [48 + b] ++ codes ",THETA=" ++ [48 + a0; 48 + a1] ++ rest))) with [48 + a0; 48 + a1].
  destruct (int_numeral [48 + a0; 48 + a1] (10 * a0 + a1)) as [P _]; [apply (numeral_more [48 + a0] a0 a1); [apply numeral_one, A0|exact A1]|]. rewrite P. reflexivity.
Qed.
Lemma model_read ls cf nm rest : Forall good_line ls -> one_command ls -> read_config (written ls) = Some cf ->
  values_of ls (codes "ID") = [codes "STR=" ++ [34] ++ nm ++ [34] ++ codes "," ++ rest] -> ~ In comma nm -> inst_model cf = Some nm.
Proof.
  intros F O R V N. destruct (config_read ls F O) as (cf' & R' & _ & C). rewrite R' in R. injection R as <-.
  assert (I : exists v, In (Other (codes "ID") v) ls).
  { assert (X : In (codes "STR=" ++ [34] ++ nm ++ [34] ++ codes "," ++ rest) (values_of ls (codes "ID"))) by (rewrite V; left; reflexivity).
    unfold values_of in X. apply in_concat in X. destruct X as (x & Ix & J). apply in_map_iff in Ix. destruct Ix as (l & <- & Il). destruct l as [nm' ps|k v]; [destruct J|].
    destruct (text_eqb k (codes "ID")) eqn:E; [|destruct J]. apply text_eqb_eq in E. subst k. exists v. exact Il. }
  destruct I as (v & I). pose proof (C _ _ I) as T. rewrite V in T. unfold inst_model. rewrite T. cbn [as_item option_map].
  replace (codes "STR=" ++ [34] ++ nm ++ [34] ++ codes "," ++ rest) with ((codes "STR=" ++ [34] ++ nm ++ [34]) ++ [44] ++ rest) by (rewrite <- !app_assoc; reflexivity).
  rewrite split_at.
  - cbn [hd]. unfold slice. rewrite !app_assoc, removelast_last. reflexivity.
  - intros X. apply in_app_or in X. destruct X as [X|X]; [cbn in X; lia|]. apply in_app_or in X. destruct X as [X|X]; [cbn in X; lia|]. apply in_app_or in X. destruct X as [X|X]; [apply N, X|cbn in X; lia].
Qed.
Lemma other_lines ls : Forall good_line ls -> one_command ls -> exists cf, read_config (written ls) = Some cf /\
  forall k v, In (Other k v) ls ->
    match values_of ls k with
    | [] => False
    | [w] => tget cf k = Some (Plain (One w))
    | ws => tget cf k = Some (Plain (Many ws))
    end.
Proof.
  intros F O. destruct (config_read ls F O) as (cf & R & _ & C). exists cf. split; [exact R|]. intros k v I. pose proof (C k v I) as T.
  assert (J : In v (values_of ls k)).
  { unfold values_of. apply in_concat. exists [v]. split; [|left; reflexivity]. apply in_map_iff. exists (Other k v). split; [rewrite text_eqb_refl; reflexivity|exact I]. }
  destruct (values_of ls k) as [|w [|w' ws]]; [destruct J|exact T|exact T].
Qed.
Lemma matrix_written ls cf nm ps r c tr tc (M : nat -> nat -> Q) (T : nat -> nat -> text) :
  Forall good_line ls -> one_command ls -> read_config (written ls) = Some cf ->
  In (Command (codes nm) ps) ls -> NoDup (map fst ps) -> (r < 10)%nat -> (c < 10)%nat ->
  In (codes "ROWS", tr) ps -> integer tr (Z.of_nat r) -> In (codes "COLS", tc) ps -> integer tc (Z.of_nat c) ->
  (forall i j, (i < r)%nat -> (j < c)%nat ->
    In (codes "M" ++ [48 + Z.of_nat (i + 1)] ++ [48 + Z.of_nat (j + 1)], T i j) ps /\
    ((exists n, integer (T i j) n /\ (M i j == inject_Z n)%Q) \/ fraction (T i j) (M i j))) ->
  exists m, matrix cf nm = Some m /\ length m = r /\
  forall i row, nth_error m i = Some row -> length row = c /\ forall j q, nth_error row j = Some q -> (q == M i j)%Q.
Proof.
  intros F O R I N R9 C9 Ir Nr Ic Nc H. destruct (command_table ls cf _ ps F O R I N) as (d & E & G). unfold matrix. rewrite E.
  apply matrix_read; try assumption.
  - rewrite (G _ _ Ir). f_equal. apply number_integer, Nr.
  - rewrite (G _ _ Ic). f_equal. apply number_integer, Nc.
  - intros i j Li Lj. destruct (H i j Li Lj) as (It & V). rewrite (G _ _ It). apply number_value, V.
Qed.
Lemma collect_app l1 l2 : forall out, collect (l1 ++ l2) out = match collect l1 out with Some o => collect l2 o | None => None end.
Proof. induction l1 as [|x l1 IH]; intros out; [reflexivity|]. cbn [app collect]. destruct (cut 44 x) as [[a b]|]; [apply IH|reflexivity]. Qed.
Lemma splitlines_written ls rest : Forall good_line ls -> splitlines (written ls ++ rest) = map line_text ls ++ splitlines rest.
Proof.
  intros F. induction F as [|l ls G F IH]; [reflexivity|]. unfold written in *. cbn [map concat app]. rewrite <- !app_assoc, splitlines_line by apply line_breaks, G.
  rewrite IH. reflexivity.
Qed.
Lemma empty_line ls rest : Forall good_line ls -> read_config (written ls ++ [13; 10] ++ rest) = None.
Proof.
  intros F. unfold read_config. rewrite splitlines_written by exact F. change (splitlines ([13; 10] ++ rest)) with ([] :: splitlines rest).
  rewrite collect_app. destruct (collect (map line_text ls) []); reflexivity.
Qed.
