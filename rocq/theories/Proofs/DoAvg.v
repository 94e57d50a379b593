(** Proofs about the averaging of datasets. *)
From Coq Require Import String Ascii.
From Coq Require Import Reals List QArith Bool Arith Lia Lra.
From Verif.Model Require Import Reshape Stats Vel SigData DoAvg.
From Verif.Spec Require Import Stats DoAvg.
From Verif.Proofs Require Stats Reshape.
From Verif.Proofs Require CreateDataset.
Import ListNotations.
Open Scope string_scope.
Open Scope nat_scope.

Notation q_of n := (inject_Z (Z.of_nat n)).

Lemma each_ok {A B E} (f : A -> E + B) l : (forall a, In a l -> exists b, f a = inr b) ->
  exists bs, each f l = inr bs /\ Forall2 (fun a b => f a = inr b) l bs.
Proof.
  induction l as [|a l IH]; intro H; [exists []; split; [reflexivity|constructor]|].
  destruct (H a) as [b Hb]; [now left|]. destruct IH as [bs [E1 F]]; [intros; apply H; now right|].
  exists (b :: bs). cbn. rewrite Hb, E1. split; [reflexivity|now constructor].
Qed.
Lemma each_inr {A B E} (f : A -> E + B) l bs : each f l = inr bs -> Forall2 (fun a b => f a = inr b) l bs.
Proof.
  revert bs. induction l as [|a l IH]; cbn; intros bs H; [injection H as <-; constructor|].
  destruct (f a) as [|b] eqn:Ea; [discriminate|]. destruct (each f l) as [|bs'] eqn:E1; [discriminate|].
  injection H as <-. constructor; auto.
Qed.
Lemma each_inl {A B E} (f : A -> E + B) l a e : In a l -> f a = inl e -> exists e', each f l = inl e'.
Proof.
  induction l as [|x l IH]; [intros []|]. intros [->|H] Ha; cbn.
  - rewrite Ha. now exists e.
  - destruct (f x) as [e2|]; [now exists e2|]. destruct (IH H Ha) as [e' ->]. now exists e'.
Qed.

Lemma mean_ok l n : 1 <= n <= length l -> exists m, bin_mean l (q_of n) = inr m /\ means n l m.
Proof. intro H. destruct (Stats.bin_mean_ok l n H) as [m [E [L M]]]. exists m. split; [exact E|]. split; auto. Qed.
Lemma var_ok l n : 1 <= n <= length l -> exists m, bin_var l (q_of n) = inr m /\ variances n l m.
Proof.
  intro H. destruct (Stats.bin_var_ok l n H) as [m [E [L M]]]. exists m. split; [exact E|]. split; auto.
  intros k Hk. destruct (M k Hk) as [v [Nv [H1 H2]]]. exists v. split; [exact Nv|]. split; [exact H1|].
  intros mu x Hm Hv. destruct (H2 mu x Hm Hv) as [A [B _]]. split; auto.
Qed.
Lemma std_ok l n : 1 <= n <= length l -> exists m, bin_std l (q_of n) = inr m /\ deviations n l m.
Proof.
  intro H. destruct (var_ok l n H) as [vs [Ev [Lv Hv]]].
  assert (Es : exists ss, bin_std l (q_of n) = inr ss /\ ss = map osqrt vs).
  { unfold bin_var, bin_std, over_bins in *. destruct (reshape (Some 0%R) l 0 (q_of n)) as [|rs]; [discriminate|].
    injection Ev as <-. eexists. split; [reflexivity|]. now rewrite map_map. }
  destruct Es as [ss [Es ->]]. exists (map osqrt vs). split; [exact Es|]. split; [now rewrite map_length|].
  intros k Hk. destruct (Hv k Hk) as [v [Nv V]]. exists (osqrt v). split; [now rewrite nth_error_map, Nv|].
  destruct v as [x|]; cbn; [|exact V]. split; [apply sqrt_pos|].
  destruct V as [V1 V2].
  assert (Hx : (0 <= x)%R).
  { destruct (present (samples l (k * n) n)) as [|y p] eqn:P; [exfalso; assert (Some x = None) by (apply V1; reflexivity); discriminate|].
    destruct (nanmean (samples l (k * n) n)) as [m|] eqn:M.
    - assert (IM : is_mean (samples l (k * n) n) (Some m)). { rewrite <- M. apply Stats.nanmean_is. }
      exact (proj1 (V2 m x IM eq_refl)).
    - pose proof (Stats.nanmean_is (samples l (k * n) n)) as IM. rewrite M in IM. cbn in IM. congruence. }
  rewrite sqrt_sqrt by exact Hx. now split.
Qed.
Lemma too_short l n : length l < n -> forall f : list (option R) -> option R, exists e, over_bins f l 0 (q_of n) = inl e.
Proof.
  intros H f. unfold over_bins. rewrite Reshape.reshape_too_short; [now eexists|].
  rewrite <- Zlt_Qlt. lia.
Qed.

Lemma append_len a b : String.length (a ++ b) = String.length a + String.length b.
Proof. induction a; cbn; congruence. Qed.
Lemma altimeter_iff v : existsb (contains "altraw") (dims v) = true <-> altimeter v.
Proof. apply existsb_exists. Qed.
Lemma not_altimeter v : ~ altimeter v -> existsb (contains "altraw") (dims v) = false.
Proof. intro H. destruct (existsb _ _) eqn:E; [|reflexivity]. now apply altimeter_iff in E. Qed.

Section Averaging.
Context (raw : dataset) (size : string -> nat) (n : nat).
Hypothesis S : sound size raw.
Hypothesis Hn : 1 <= n.

Lemma value_len nm : length (axis_values raw nm (size nm)) = size nm.
Proof.
  unfold axis_values. destruct (get (coords raw) nm) as [t|] eqn:G.
  - apply CreateDataset.get_in in G. exact (proj2 S _ _ G).
  - now rewrite map_length, seq_length.
Qed.

Lemma dims_sizes ky v : get (vars raw) ky = Some v -> dims v <> [] /\ (lead v ++ [len v])%list = map size (dims v)
      /\ length (rows v) = product (lead v) /\ rows v <> [] /\ Forall (fun r => length r = len v) (rows v).
Proof. intro G. apply CreateDataset.get_in in G. exact (proj1 S _ _ G). Qed.

Lemma combine_sizes (l : list string) : combine l (map size l) = map (fun o => (o, size o)) l.
Proof. induction l; cbn; congruence. Qed.

(** the new coordinates *)
Definition on_axis (o : string) (c : string * nat * option (list (option R))) : Prop :=
  fst (fst c) = o /\
  match snd c with
  | Some t => times o /\ bin_mean (axis_values raw o (size o)) (q_of n) = inr t /\ snd (fst c) = length t
  | None => ~ times o /\ snd (fst c) = size o
  end.
Lemma Forall2_map_l {A B C} (f : A -> B) (P : B -> C -> Prop) l m : Forall2 P (map f l) m -> Forall2 (fun a c => P (f a) c) l m.
Proof.
  revert m. induction l as [|a l IH]; cbn; intros m H; inversion H; subst; constructor; auto.
Qed.
Lemma Forall2_imp {A B} (P Q : A -> B -> Prop) l m : (forall a b, P a b -> Q a b) -> Forall2 P l m -> Forall2 Q l m.
Proof. intros H F. induction F; constructor; auto. Qed.
Lemma axes_inr ky v cs : get (vars raw) ky = Some v -> new_axes raw (q_of n) v = inr cs -> Forall2 on_axis (dims v) cs.
Proof.
  intros G E. destruct (dims_sizes _ _ G) as [_ [Sz _]]. unfold new_axes in E. rewrite Sz, combine_sizes in E.
  apply each_inr, Forall2_map_l in E. revert E. apply Forall2_imp. intros o c. unfold new_axis, on_axis, times. cbn [fst snd].
  destruct (contains "time" o) eqn:T.
  - destruct (bin_mean _ _) as [|t] eqn:M; [discriminate|]. intro H. injection H as <-. cbn. repeat split; auto.
  - intro H. injection H as <-. cbn. repeat split; auto; discriminate.
Qed.
Lemma axes_ok ky v : get (vars raw) ky = Some v -> (forall o, In o (dims v) -> times o -> n <= size o) ->
  exists cs, new_axes raw (q_of n) v = inr cs.
Proof.
  intros G L. destruct (dims_sizes _ _ G) as [_ [Sz _]]. unfold new_axes. rewrite Sz, combine_sizes.
  destruct (each_ok (new_axis raw (q_of n)) (map (fun o => (o, size o)) (dims v))) as [cs [E _]]; [|now exists cs].
  intros a Ha. apply in_map_iff in Ha. destruct Ha as [o [<- Ho]]. unfold new_axis. cbn [fst snd].
  destruct (contains "time" o) eqn:T; [|now eexists].
  destruct (mean_ok (axis_values raw o (size o)) n) as [m [-> _]]; [|now eexists].
  rewrite value_len. split; [exact Hn|now apply L].
Qed.
Lemma axes_short ky v o : get (vars raw) ky = Some v -> In o (dims v) -> times o -> size o < n ->
  exists e, new_axes raw (q_of n) v = inl e.
Proof.
  intros G Ho T L. destruct (dims_sizes _ _ G) as [_ [Sz _]]. unfold new_axes. rewrite Sz, combine_sizes.
  destruct (too_short (axis_values raw o (size o)) n) with (f := nanmean) as [e E]; [now rewrite value_len|].
  apply (each_inl _ _ (o, size o) e); [apply in_map_iff; now exists o|].
  unfold new_axis. cbn [fst snd]. unfold times in T. rewrite T. unfold bin_mean. now rewrite E.
Qed.

(** reduction of one variable *)
Lemma last_axis o v ky : get (vars raw) ky = Some v -> on_time o v -> len v = size o /\ (lead v = map size (removelast (dims v))).
Proof.
  intros G [_ [others [D _]]]. destruct (dims_sizes _ _ G) as [_ [Sz _]]. rewrite D, map_app in Sz. cbn in Sz.
  apply app_inj_tail in Sz. destruct Sz as [E1 E2]. split; [exact E2|]. rewrite D, removelast_last. exact E1.
Qed.
Lemma sizes_of (v : variable) o others cs : dims v = (others ++ [o])%list -> (forall x, In x others -> ~ times x) -> times o ->
  Forall2 on_axis (dims v) cs -> exists t, bin_mean (axis_values raw o (size o)) (q_of n) = inr t
    /\ map (fun a => snd (fst a)) cs = (map size others ++ [length t])%list.
Proof.
  intros D. rewrite D. clear D. revert cs. induction others as [|x others IH]; intros cs H T F; cbn in F.
  - inversion F as [|? c ? cs' F1 F2]; subst. inversion F2; subst. destruct F1 as [_ F1].
    destruct (snd c) as [t|] eqn:Ec; [|destruct F1; contradiction]. destruct F1 as [_ [M L]].
    exists t. split; [exact M|]. cbn. now rewrite L.
  - inversion F as [|? c ? cs' F1 F2]; subst. destruct (IH cs' (fun y Hy => H y (or_intror Hy)) T F2) as [t [M E]].
    exists t. split; [exact M|]. cbn. rewrite E. destruct F1 as [_ F1].
    destruct (snd c); [destruct F1 as [Tx _]; now destruct (H x (or_introl eq_refl))|]. destruct F1 as [_ ->]. reflexivity.
Qed.
Lemma mean_length l t : bin_mean l (q_of n) = inr t -> n <= length l -> length t = length l / n.
Proof. intros E L. destruct (mean_ok l n (conj Hn L)) as [m [E2 [Lm _]]]. congruence. Qed.
Lemma reduced_ok (f : list (option R) -> reshape_err + list (option R)) (P : list (option R) -> list (option R) -> Prop) ky v o cs :
  (forall l, n <= length l -> exists m, f l = inr m /\ P l m /\ length m = length l / n) ->
  get (vars raw) ky = Some v -> on_time o v -> n <= len v -> Forall2 on_axis (dims v) cs ->
  exists w, reduced f v (map (fun a => snd (fst a)) cs) = Some w /\ lines P v w.
Proof.
  intros Hf G O L F. destruct (dims_sizes _ _ G) as [Nd [Sz [_ [Nr Fr]]]].
  destruct (last_axis o v ky G O) as [El Ea]. destruct O as [T [others [D Ho]]].
  destruct (sizes_of v o others cs D Ho T F) as [t [M E]].
  unfold reduced. destruct (dims v) as [|d0 ds0] eqn:Dv; [contradiction|]. rewrite <- Dv in *.
  destruct (each_ok f (rows v)) as [rs [Er Fr2]].
  { intros r Hr. rewrite Forall_forall in Fr. destruct (Hf r) as [m [Em _]]; [rewrite (Fr r Hr); exact L|]. now exists m. }
  rewrite Er.
  assert (Lr : Forall2 (fun a b => P a b /\ length b = len v / n) (rows v) rs).
  { revert Fr. clear - Hf Fr2 L. induction Fr2 as [|a b l m Hab Fl IH]; intro Fr; constructor.
    - inversion Fr; subst. destruct (Hf a) as [m' [Em [HP HL]]]; [lia|]. rewrite Hab in Em. injection Em as <-.
      split; [exact HP|]. congruence.
    - apply IH. now inversion Fr. }
  assert (Hlen : match rs with r :: _ => length r | [] => 0 end = len v / n).
  { destruct Lr as [|a b l m Hab Fl]; [now destruct Nr|apply Hab]. }
  rewrite Hlen, E, Ea, D, removelast_last.
  rewrite (mean_length _ t M) by (rewrite value_len; lia). rewrite value_len, El.
  destruct (list_eq_dec _ _ _) as [_|C]; [|now destruct C].
  eexists. split; [reflexivity|]. split; [cbn; now rewrite D|]. split; [cbn; rewrite Ea, D, removelast_last; reflexivity|]. cbn.
  revert Lr. apply Forall2_imp. tauto.
Qed.

(** what the loops store for a variable *)
Definition reduction (f : list (option R) -> reshape_err + list (option R)) (ky : string) : option variable :=
  match get (vars raw) ky with
  | None => None
  | Some v => if existsb (contains "altraw") (dims v) then None
              else match new_axes raw (q_of n) v with
                   | inl _ => None
                   | inr cs => if contains "ensemble" ky then None else reduced f v (map (fun a => snd (fst a)) cs)
                   end
  end.
Lemma store_vars name w cs out ky : get (vars (store name w cs out)) ky =
  if String.eqb name ky then match w with Some w => Some w | None => get (vars out) ky end else get (vars out) ky.
Proof.
  destruct w as [w|]; cbn; [rewrite CreateDataset.get_set|]; destruct (String.eqb name ky); reflexivity.
Qed.
Lemma std_vars q out out' ky : add_std raw q out = inr out' -> ky <> "U_std" -> get (vars out') ky = get (vars out) ky.
Proof.
  unfold add_std. intros E N. destruct (get (vars raw) "vel") as [vel|]; [|discriminate].
  destruct (speed vel); [|discriminate]. destruct (each _ _); [discriminate|]. injection E as <-. cbn.
  rewrite CreateDataset.get_set. destruct (String.eqb_spec "U_std" ky); [congruence|reflexivity].
Qed.
Lemma std_coords q out out' : add_std raw q out = inr out' -> coords out' = coords out.
Proof.
  unfold add_std. intros E. destruct (get (vars raw) "vel") as [vel|]; [|discriminate].
  destruct (speed vel); [|discriminate]. destruct (each _ _); [discriminate|]. injection E as <-. reflexivity.
Qed.
Lemma do_avg_vars names out out' ky : do_avg raw (q_of n) names out = inr out' -> ky <> "U_std" ->
  get (vars out') ky = if existsb (String.eqb ky) names
                       then match reduction (fun r => bin_mean r (q_of n)) ky with Some w => Some w | None => get (vars out) ky end
                       else get (vars out) ky.
Proof.
  intros E N. revert out E. induction names as [|k names IH]; intros out E; cbn in E.
  - injection E as <-. reflexivity.
  - destruct (get (vars raw) k) as [v|] eqn:G; [|discriminate]. cbn [existsb].
    destruct (existsb (contains "altraw") (dims v)) eqn:A.
    + rewrite (IH _ E). destruct (String.eqb_spec ky k) as [->|]; cbn [orb]; [|reflexivity].
      unfold reduction. rewrite G, A. destruct (existsb (String.eqb k) names); reflexivity.
    + destruct (new_axes raw (q_of n) v) as [|cs] eqn:Ax; [discriminate|].
      destruct (add_std _ _ _) as [|out1] eqn:St; [discriminate|].
      rewrite (IH _ E), (std_vars _ _ _ _ St N), store_vars, String.eqb_sym.
      destruct (String.eqb_spec ky k) as [->|]; cbn [orb]; [|reflexivity].
      unfold reduction. rewrite G, A, Ax. destruct (if contains "ensemble" k then _ else _); destruct (existsb (String.eqb k) names); reflexivity.
Qed.
Lemma do_var_vars suf names out out' ky : do_var raw (q_of n) suf names out = inr out' ->
  get (vars out') (ky ++ suf) = if existsb (String.eqb ky) names
                       then match reduction (fun r => bin_var r (q_of n)) ky with Some w => Some w | None => get (vars out) (ky ++ suf) end
                       else get (vars out) (ky ++ suf).
Proof.
  intros E. revert out E. induction names as [|k names IH]; intros out E; cbn in E.
  - injection E as <-. reflexivity.
  - destruct (get (vars raw) k) as [v|] eqn:G; [|discriminate]. cbn [existsb].
    destruct (existsb (contains "altraw") (dims v)) eqn:A.
    + rewrite (IH _ E). destruct (String.eqb_spec ky k) as [->|]; cbn [orb]; [|reflexivity].
      unfold reduction. rewrite G, A. destruct (existsb (String.eqb k) names); reflexivity.
    + destruct (new_axes raw (q_of n) v) as [|cs] eqn:Ax; [discriminate|].
      rewrite (IH _ E), store_vars.
      destruct (String.eqb_spec (k ++ suf) (ky ++ suf)) as [Ek|Nk].
      * assert (k = ky). { revert Ek. clear. revert ky. induction k as [|a k IH]; destruct ky as [|b ky]; cbn; intro H.
          - reflexivity.
          - exfalso. apply (f_equal String.length) in H. cbn in H. rewrite append_len in H. lia.
          - exfalso. apply (f_equal String.length) in H. cbn in H. rewrite append_len in H. lia.
          - injection H as -> H. f_equal. now apply IH. }
        subst ky. rewrite String.eqb_refl. cbn [orb].
        unfold reduction. rewrite G, A, Ax. destruct (if contains "ensemble" k then _ else _); destruct (existsb (String.eqb k) names); reflexivity.
      * destruct (String.eqb_spec ky k) as [->|]; [congruence|reflexivity].
Qed.

(** the coordinates *)
Definition computed (out : dataset) : Prop := forall nm t, get (coords out) nm = Some t -> bin_mean (axis_values raw nm (size nm)) (q_of n) = inr t.
Lemma fold_coords ds cs c nm t : Forall2 on_axis ds cs ->
  get (fold_left (fun c a => match snd a with Some t => set c (fst (fst a)) t | None => c end) cs c) nm = Some t ->
  get c nm = Some t \/ bin_mean (axis_values raw nm (size nm)) (q_of n) = inr t.
Proof.
  intro F. revert c. induction F as [|o a ds cs Ha F IH]; intros c H; [now left|]. cbn in H. apply IH in H. destruct H as [H|H]; [|now right].
  destruct Ha as [Eo Ha]. destruct (snd a) as [ta|]; [|now left]. rewrite CreateDataset.get_set in H.
  destruct (String.eqb_spec (fst (fst a)) nm) as [En|]; [|now left]. injection H as <-. right. destruct Ha as [_ [Hm _]]. congruence.
Qed.
Lemma fold_kept ds cs c nm : Forall2 on_axis ds cs -> get c nm <> None ->
  get (fold_left (fun c a => match snd a with Some t => set c (fst (fst a)) t | None => c end) cs c) nm <> None.
Proof.
  intro F. revert c. induction F as [|o a ds cs Ha F IH]; intros c H; [exact H|]. cbn. apply IH.
  destruct (snd a); [|exact H]. rewrite CreateDataset.get_set. destruct (String.eqb _ _); [discriminate|exact H].
Qed.
Lemma fold_has ds cs c nm : Forall2 on_axis ds cs -> In nm ds -> times nm ->
  get (fold_left (fun c a => match snd a with Some t => set c (fst (fst a)) t | None => c end) cs c) nm <> None.
Proof.
  intro F. revert c. induction F as [|o a ds cs Ha F IH]; intros c H T; [destruct H|]. cbn.
  destruct H as [->|H]; [|now apply IH].
  apply (fold_kept ds cs); [exact F|]. destruct Ha as [Eo Ha]. destruct (snd a); [|now destruct Ha].
  rewrite CreateDataset.get_set, Eo, String.eqb_refl. discriminate.
Qed.
Lemma store_computed ky v name w cs out : get (vars raw) ky = Some v -> new_axes raw (q_of n) v = inr cs -> computed out -> computed (store name w cs out).
Proof.
  intros G A C nm t H. pose proof (axes_inr _ _ _ G A) as F. destruct w; [|now apply C]. cbn in H.
  destruct (fold_coords _ _ _ _ _ F H); auto.
Qed.
Lemma store_kept ky v name w cs out nm : get (vars raw) ky = Some v -> new_axes raw (q_of n) v = inr cs ->
  get (coords out) nm <> None -> get (coords (store name w cs out)) nm <> None.
Proof. intros G A C. pose proof (axes_inr _ _ _ G A) as F. destruct w; [|exact C]. cbn. now apply (fold_kept (dims v)). Qed.
Lemma do_avg_kept names out out' nm : do_avg raw (q_of n) names out = inr out' -> get (coords out) nm <> None -> get (coords out') nm <> None.
Proof.
  intros E. revert out E. induction names as [|k names IH]; intros out E C; cbn in E; [injection E as <-; exact C|].
  destruct (get (vars raw) k) as [v|] eqn:G; [|discriminate]. destruct (existsb _ _); [now apply (IH out)|].
  destruct (new_axes raw (q_of n) v) as [|cs] eqn:A; [discriminate|]. destruct (add_std _ _ _) as [|o1] eqn:St; [discriminate|].
  apply (IH o1 E). rewrite (std_coords _ _ _ St). now apply (store_kept k v).
Qed.
Lemma do_avg_computed names out out' : do_avg raw (q_of n) names out = inr out' -> computed out -> computed out'.
Proof.
  intros E. revert out E. induction names as [|k names IH]; intros out E C; cbn in E; [injection E as <-; exact C|].
  destruct (get (vars raw) k) as [v|] eqn:G; [|discriminate]. destruct (existsb _ _); [now apply (IH out)|].
  destruct (new_axes raw (q_of n) v) as [|cs] eqn:A; [discriminate|]. destruct (add_std _ _ _) as [|o1] eqn:St; [discriminate|].
  apply (IH o1 E). unfold computed. rewrite (std_coords _ _ _ St). now apply (store_computed k v).
Qed.
Lemma do_avg_has names out out' ky v w nm : do_avg raw (q_of n) names out = inr out' -> In ky names -> get (vars raw) ky = Some v ->
  reduction (fun r => bin_mean r (q_of n)) ky = Some w -> In nm (dims v) -> times nm -> get (coords out') nm <> None.
Proof.
  intros E Hk Gv R Hd T. revert out E Hk. induction names as [|k names IH]; intros out E Hk; [destruct Hk|]. cbn in E.
  destruct Hk as [->|Hk].
  - unfold reduction in R. rewrite Gv in E, R. destruct (existsb _ _); [discriminate|].
    destruct (new_axes raw (q_of n) v) as [|cs] eqn:A; [discriminate|]. destruct (contains "ensemble" ky); [discriminate|].
    rewrite R in E. destruct (add_std _ _ _) as [|o1] eqn:St; [discriminate|].
    apply (do_avg_kept _ _ _ _ E). rewrite (std_coords _ _ _ St). cbn. apply (fold_has (dims v)); auto. now apply (axes_inr ky).
  - destruct (get (vars raw) k) as [v'|] eqn:G; [|discriminate]. destruct (existsb _ _); [now apply (IH out)|].
    destruct (new_axes raw (q_of n) v') as [|cs] eqn:A; [discriminate|]. destruct (add_std _ _ _) as [|o1] eqn:St; [discriminate|].
    now apply (IH o1).
Qed.
Lemma do_var_kept suf names out out' nm : do_var raw (q_of n) suf names out = inr out' -> get (coords out) nm <> None -> get (coords out') nm <> None.
Proof.
  intros E. revert out E. induction names as [|k names IH]; intros out E C; cbn in E; [injection E as <-; exact C|].
  destruct (get (vars raw) k) as [v|] eqn:G; [|discriminate]. destruct (existsb _ _); [now apply (IH out)|].
  destruct (new_axes raw (q_of n) v) as [|cs] eqn:A; [discriminate|].
  apply (IH _ E). now apply (store_kept k v).
Qed.
Lemma do_var_computed suf names out out' : do_var raw (q_of n) suf names out = inr out' -> computed out -> computed out'.
Proof.
  intros E. revert out E. induction names as [|k names IH]; intros out E C; cbn in E; [injection E as <-; exact C|].
  destruct (get (vars raw) k) as [v|] eqn:G; [|discriminate]. destruct (existsb _ _); [now apply (IH out)|].
  destruct (new_axes raw (q_of n) v) as [|cs] eqn:A; [discriminate|].
  apply (IH _ E). now apply (store_computed k v).
Qed.
Lemma do_var_has suf names out out' ky v w nm : do_var raw (q_of n) suf names out = inr out' -> In ky names -> get (vars raw) ky = Some v ->
  reduction (fun r => bin_var r (q_of n)) ky = Some w -> In nm (dims v) -> times nm -> get (coords out') nm <> None.
Proof.
  intros E Hk Gv R Hd T. revert out E Hk. induction names as [|k names IH]; intros out E Hk; [destruct Hk|]. cbn in E.
  destruct Hk as [->|Hk].
  - unfold reduction in R. rewrite Gv in E, R. destruct (existsb _ _); [discriminate|].
    destruct (new_axes raw (q_of n) v) as [|cs] eqn:A; [discriminate|]. destruct (contains "ensemble" ky); [discriminate|].
    rewrite R in E. apply (do_var_kept _ _ _ _ _ E). cbn. apply (fold_has (dims v)); auto. now apply (axes_inr ky).
  - destruct (get (vars raw) k) as [v'|] eqn:G; [|discriminate]. destruct (existsb _ _); [now apply (IH out)|].
    destruct (new_axes raw (q_of n) v') as [|cs] eqn:A; [discriminate|]. now apply (IH _ E).
Qed.

(** the standard deviation of the speed *)
Lemma fold_product l : fold_right Nat.mul 1 l = product l.
Proof. reflexivity. Qed.
Lemma map2_len {A B C} (f : A -> B -> C) a b : length (map2 f a b) = Nat.min (length a) (length b).
Proof. revert b. induction a as [|x a IH]; intros [|y b]; cbn; try reflexivity. now rewrite IH. Qed.
Lemma map2_nth {A B C} (f : A -> B -> C) a b k x y : nth_error a k = Some x -> nth_error b k = Some y -> nth_error (map2 f a b) k = Some (f x y).
Proof.
  revert b k. induction a as [|x' a IH]; intros [|y' b] [|k] H1 H2; cbn in *; try discriminate; [congruence|]. now apply IH.
Qed.
Lemma speed_ok vel c rest : get (vars raw) "vel" = Some vel -> lead vel = c :: rest -> 2 <= c ->
  exists s, speed vel = Some s /\ speeds vel s /\ Forall (fun r => length r = len vel) (rows s) /\ rows s <> [].
Proof.
  intros G L Hc. destruct (dims_sizes _ _ G) as [Nd [Sz [Lr [Nr Fr]]]]. unfold speed. rewrite L.
  destruct c as [|[|c]]; [lia|lia|]. eexists. split; [reflexivity|].
  rewrite L in Lr. cbn in Lr. rewrite fold_product in Lr. rewrite fold_product.
  assert (P : 1 <= product rest) by (destruct (product rest); [|lia]; destruct (rows vel); [now destruct Nr|]; cbn in Lr; lia).
  rewrite Forall_forall in Fr.
  assert (Row : forall k, k < product rest -> exists a b, nth_error (rows vel) k = Some a /\ nth_error (rows vel) (product rest + k) = Some b
    /\ length a = len vel /\ length b = len vel /\
    nth_error (map2 (map2 osum_sqrt) (firstn (product rest) (rows vel)) (firstn (product rest) (skipn (product rest) (rows vel)))) k = Some (map2 osum_sqrt a b)).
  { intros k Hk. destruct (nth_error (rows vel) k) as [a|] eqn:Ea; [|apply nth_error_None in Ea; lia].
    destruct (nth_error (rows vel) (product rest + k)) as [b|] eqn:Eb; [|apply nth_error_None in Eb; lia].
    exists a, b. repeat split; auto; [apply Fr; eapply nth_error_In; eauto..|].
    apply map2_nth.
    - rewrite <- Ea. rewrite <- (firstn_skipn (product rest) (rows vel)) at 2. rewrite nth_error_app1; [reflexivity|].
      rewrite firstn_length. lia.
    - rewrite <- Eb. rewrite <- (firstn_skipn (product rest) (rows vel)) at 2.
      rewrite nth_error_app2 by (rewrite firstn_length; lia). rewrite firstn_length.
      replace (product rest + k - Nat.min (product rest) (length (rows vel))) with k by lia.
      rewrite <- (firstn_skipn (product rest) (skipn (product rest) (rows vel))) at 2. rewrite nth_error_app1; [reflexivity|].
      rewrite firstn_length, skipn_length. lia. }
  set (rs := map2 _ _ _) in *.
  assert (Lrs : length rs = product rest). { unfold rs. rewrite map2_len, !firstn_length, skipn_length. lia. }
  split; [|split].
  - split; [reflexivity|]. split; [cbn; rewrite L; reflexivity|]. split; [reflexivity|]. cbn [lead rows].
    split; [exact Lrs|]. intros k i Hk Hi. destruct (Row k Hk) as [a [b [Ea [Eb [La [Lb Er]]]]]].
    destruct (nth_error a i) as [x|] eqn:Ex; [|apply nth_error_None in Ex; lia].
    destruct (nth_error b i) as [y|] eqn:Ey; [|apply nth_error_None in Ey; lia].
    exists x, y. unfold sample. cbn [rows]. rewrite Ea, Eb, Er, (map2_nth _ _ _ _ _ _ Ex Ey). split; [exact Ex|]. split; [exact Ey|].
    eexists. split; [reflexivity|]. destruct x, y; cbn; try reflexivity. unfold u_mag. split; [apply sqrt_pos|].
    rewrite sqrt_sqrt; [ring|]. apply Rplus_le_le_0_compat; apply Rle_0_sqr || (apply pow2_ge_0) || nra.
  - apply Forall_forall. intros r Hr. cbn in Hr. apply In_nth_error in Hr. destruct Hr as [k Er].
    assert (Hk : k < product rest). { rewrite <- Lrs. apply nth_error_Some. congruence. }
    destruct (Row k Hk) as [a [b [_ [_ [La [Lb Er2]]]]]]. rewrite Er in Er2. injection Er2 as ->. rewrite map2_len. lia.
  - cbn. intro C. rewrite C in Lrs. cbn in Lrs. lia.
Qed.
Lemma std_done vel t c rest out : get (vars raw) "vel" = Some vel -> on_time t vel -> n <= len vel -> lead vel = c :: rest -> 2 <= c ->
  exists out' s w, add_std raw (q_of n) out = inr out' /\ get (vars out') "U_std" = Some w /\ speeds vel s /\ lines (deviations n) s w.
Proof.
  intros G O Ln L Hc. destruct (speed_ok _ _ _ G L Hc) as [s [Es [Sp [Fs Ns]]]]. unfold add_std. rewrite G, Es.
  destruct (each_ok (fun r => bin_std r (q_of n)) (rows s)) as [rs [Er Frs]].
  { intros r Hr. rewrite Forall_forall in Fs. destruct (std_ok r n) as [m [Em _]]; [rewrite (Fs r Hr); lia|]. now exists m. }
  rewrite Er. eexists. exists s. eexists. split; [reflexivity|]. split; [cbn; rewrite CreateDataset.get_set; reflexivity|].
  split; [exact Sp|]. split; [reflexivity|]. split; [reflexivity|]. cbn.
  revert Fs. clear - Frs Ln Hn. induction Frs as [|a b l m Hab F IH]; intro Fs; constructor.
  - inversion Fs; subst. destruct (std_ok a n) as [m' [Em Dm]]; [lia|]. congruence.
  - apply IH. now inversion Fs.
Qed.

Lemma ready_axes names ky v : ready raw n names -> In ky names -> get (vars raw) ky = Some v -> ~ altimeter v ->
  exists cs, new_axes raw (q_of n) v = inr cs.
Proof.
  intros [R _] Hk G A. destruct (R ky Hk) as [v' [G' H]]. rewrite G in G'. injection G' as <-. apply (axes_ok ky v G).
  intros o Ho T. destruct (H A) as [W|[t [O L]]]; [now destruct (W o Ho)|].
  destruct (last_axis t v ky G O) as [El _]. destruct O as [_ [others [D Hothers]]]. rewrite D in Ho. apply in_app_or in Ho.
  destruct Ho as [Ho|[<-|[]]]; [now destruct (Hothers o Ho)|lia].
Qed.
Lemma ready_tail k names : ready raw n (k :: names) -> ready raw n names.
Proof. intros [H V]. split; [|exact V]. intros ky Hk. apply H. now right. Qed.
Lemma do_avg_ok names out : ready raw n names -> exists out', do_avg raw (q_of n) names out = inr out'.
Proof.
  revert out. induction names as [|k names IH]; intros out R; [now exists out|]. cbn.
  destruct (proj1 R k (or_introl eq_refl)) as [v [G _]]. rewrite G.
  destruct (existsb _ _) eqn:A; [apply IH; now apply ready_tail in R|].
  destruct (ready_axes _ k v R (or_introl eq_refl) G) as [cs ->]. { intro C. apply altimeter_iff in C. congruence. }
  destruct (proj2 R) as [vel [t [c [rest [Gv [O [Ln [L Hc]]]]]]]].
  destruct (std_done vel t c rest (store k (if contains "ensemble" k then None else reduced (fun r => bin_mean r (q_of n)) v (map (fun a => snd (fst a)) cs)) cs out) Gv O Ln L Hc)
    as [o1 [s [w [-> _]]]].
  apply IH. now apply ready_tail in R.
Qed.
Lemma do_var_ok suf names out : ready raw n names -> exists out', do_var raw (q_of n) suf names out = inr out'.
Proof.
  revert out. induction names as [|k names IH]; intros out R; [now exists out|]. cbn.
  destruct (proj1 R k (or_introl eq_refl)) as [v [G _]]. rewrite G.
  destruct (existsb _ _) eqn:A; [apply IH; now apply ready_tail in R|].
  destruct (ready_axes _ k v R (or_introl eq_refl) G) as [cs ->]. { intro C. apply altimeter_iff in C. congruence. }
  apply IH. now apply ready_tail in R.
Qed.
Lemma do_avg_std names out out' ky v : ready raw n names -> do_avg raw (q_of n) names out = inr out' ->
  (In ky names -> get (vars raw) ky = Some v -> ~ altimeter v -> exists vel s w, get (vars raw) "vel" = Some vel /\ speeds vel s
     /\ get (vars out') "U_std" = Some w /\ lines (deviations n) s w)
  /\ ((exists vel s w, get (vars raw) "vel" = Some vel /\ speeds vel s
     /\ get (vars out) "U_std" = Some w /\ lines (deviations n) s w) -> exists vel s w, get (vars raw) "vel" = Some vel /\ speeds vel s
     /\ get (vars out') "U_std" = Some w /\ lines (deviations n) s w).
Proof.
  intros R E. revert out R E. induction names as [|k names IH]; intros out R E.
  - split; [intros []|]. cbn in E. injection E as <-. auto.
  - cbn in E. pose proof (ready_tail _ _ R) as R'. destruct (get (vars raw) k) as [vk|] eqn:G; [|discriminate].
    destruct (existsb _ _) eqn:A.
    + destruct (IH _ R' E) as [I1 I2]. split; [|exact I2]. intros [->|Hk]; [|now apply I1].
      intros Gv Na. rewrite G in Gv. injection Gv as ->. destruct Na. now apply altimeter_iff.
    + destruct (new_axes raw (q_of n) vk) as [|cs]; [discriminate|].
      destruct (proj2 R) as [vel [t [c [rest [Gv [O [Ln [L Hc]]]]]]]].
      match type of E with match add_std _ _ ?o with _ => _ end = _ => destruct (std_done vel t c rest o Gv O Ln L Hc) as [o1 [s [w [Es [U [Sp Li]]]]]] end.
      rewrite Es in E. destruct (IH _ R' E) as [_ I2]. split; intros; apply I2; exists vel, s, w; auto.
Qed.

Lemma reduction_ok (f : list (option R) -> reshape_err + list (option R)) (P : list (option R) -> list (option R) -> Prop) names ky v o :
  (forall l, n <= length l -> exists m, f l = inr m /\ P l m /\ length m = length l / n) ->
  ready raw n names -> In ky names -> get (vars raw) ky = Some v -> on_time o v -> ~ altimeter v -> ~ counter ky ->
  exists w, reduction f ky = Some w /\ lines P v w.
Proof.
  intros Hf R Hk G O A C. destruct (ready_axes _ _ _ R Hk G A) as [cs Ax]. unfold reduction. rewrite G, (not_altimeter _ A), Ax.
  unfold counter in C. destruct (contains "ensemble" ky); [now destruct C|].
  apply (reduced_ok f P ky v o cs Hf G O); [|now apply (axes_inr ky)].
  destruct (proj1 R ky Hk) as [v' [G' H]]. rewrite G in G'. injection G' as <-. destruct (H A) as [W|[t [_ L]]]; [|exact L].
  destruct O as [T [oth [D _]]]. destruct (W o); [rewrite D; apply in_or_app; right; now left|exact T].
Qed.
Lemma existsb_in ky names : In ky names -> existsb (String.eqb ky) names = true.
Proof. intro H. apply existsb_exists. exists ky. split; [exact H|apply String.eqb_refl]. Qed.

Theorem averaged names : ready raw n names -> exists out, do_avg raw (q_of n) names (Dataset [] []) = inr out
  /\ (forall ky v o, In ky names -> get (vars raw) ky = Some v -> on_time o v -> ~ altimeter v -> ~ counter ky -> ky <> "U_std" ->
       (exists w, get (vars out) ky = Some w /\ lines (means n) v w)
       /\ exists t, get (coords out) o = Some t /\ means n (axis_values raw o (size o)) t)
  /\ (forall ky v, In ky names -> get (vars raw) ky = Some v -> ~ altimeter v ->
       exists vel s w, get (vars raw) "vel" = Some vel /\ speeds vel s /\ get (vars out) "U_std" = Some w /\ lines (deviations n) s w).
Proof.
  intro R. destruct (do_avg_ok names (Dataset [] []) R) as [out E]. exists out. split; [exact E|]. split.
  - intros ky v o Hk G O A C N. destruct (reduction_ok (fun r => bin_mean r (q_of n)) (means n) names ky v o) as [w [Rw Lw]]; auto.
    { intros l Hl. destruct (mean_ok l n (conj Hn Hl)) as [m [Em Mm]]. exists m. split; [exact Em|]. split; [exact Mm|apply Mm]. }
    split.
    + exists w. split; [|exact Lw]. rewrite (do_avg_vars _ _ _ ky E N), existsb_in, Rw by exact Hk. reflexivity.
    + pose proof (do_avg_has _ _ _ ky v w o E Hk G Rw) as Hh.
      destruct (get (coords out) o) as [t|] eqn:Gt.
      * exists t. split; [reflexivity|].
        assert (Hc : bin_mean (axis_values raw o (size o)) (q_of n) = inr t).
        { apply (do_avg_computed names (Dataset [] []) out E); [|exact Gt]. intros nm t' H. discriminate H. }
        destruct (mean_ok (axis_values raw o (size o)) n) as [m [Em Mm]]; [|congruence].
        rewrite value_len. split; [exact Hn|].
        destruct (last_axis o v ky G O) as [<- _].
        destruct (proj1 R ky Hk) as [v' [G' H]]. rewrite G in G'. injection G' as <-. destruct (H A) as [W|[tt [_ L]]]; [|exact L].
        destruct O as [T [oth [D _]]]. destruct (W o); [rewrite D; apply in_or_app; right; now left|exact T].
      * destruct O as [T [oth [D _]]]. exfalso. apply Hh; auto. rewrite D. apply in_or_app. right. now left.
  - intros ky v Hk G A. exact (proj1 (do_avg_std _ _ _ ky v R E) Hk G A).
Qed.
Theorem varied suf names : ready raw n names -> exists out, do_var raw (q_of n) suf names (Dataset [] []) = inr out
  /\ (forall ky v o, In ky names -> get (vars raw) ky = Some v -> on_time o v -> ~ altimeter v -> ~ counter ky ->
       (exists w, get (vars out) (ky ++ suf) = Some w /\ lines (variances n) v w)
       /\ exists t, get (coords out) o = Some t /\ means n (axis_values raw o (size o)) t).
Proof.
  intro R. destruct (do_var_ok suf names (Dataset [] []) R) as [out E]. exists out. split; [exact E|].
  - intros ky v o Hk G O A C. destruct (reduction_ok (fun r => bin_var r (q_of n)) (variances n) names ky v o) as [w [Rw Lw]]; auto.
    { intros l Hl. destruct (var_ok l n (conj Hn Hl)) as [m [Em Mm]]. exists m. split; [exact Em|]. split; [exact Mm|apply Mm]. }
    split.
    + exists w. split; [|exact Lw]. rewrite (do_var_vars _ _ _ _ ky E), existsb_in, Rw by exact Hk. reflexivity.
    + pose proof (do_var_has _ _ _ _ ky v w o E Hk G Rw) as Hh.
      destruct (get (coords out) o) as [t|] eqn:Gt.
      * exists t. split; [reflexivity|].
        assert (Hc : bin_mean (axis_values raw o (size o)) (q_of n) = inr t).
        { apply (do_var_computed suf names (Dataset [] []) out E); [|exact Gt]. intros nm t' H. discriminate H. }
        destruct (mean_ok (axis_values raw o (size o)) n) as [m [Em Mm]]; [|congruence].
        rewrite value_len. split; [exact Hn|].
        destruct (last_axis o v ky G O) as [<- _].
        destruct (proj1 R ky Hk) as [v' [G' H]]. rewrite G in G'. injection G' as <-. destruct (H A) as [W|[tt [_ L]]]; [|exact L].
        destruct O as [T [oth [D _]]]. destruct (W o); [rewrite D; apply in_or_app; right; now left|exact T].
      * destruct O as [T [oth [D _]]]. exfalso. apply Hh; auto. rewrite D. apply in_or_app. right. now left.
Qed.

(** what cannot be averaged *)
Lemma each_len {A B E} (f : A -> E + B) l bs : each f l = inr bs -> length bs = length l.
Proof. intro H. apply each_inr in H. induction H; cbn; congruence. Qed.
Lemma static_sizes v cs : without_time v -> Forall2 on_axis (dims v) cs -> map (fun a => snd (fst a)) cs = map size (dims v).
Proof.
  intro W. unfold without_time in W. revert W. generalize (dims v). intros ds W F. induction F as [|o c ds cs [_ Hc] F IH]; [reflexivity|]. cbn.
  rewrite IH by (intros x Hx; apply W; now right). destruct (snd c); [destruct Hc as [T _]; now destruct (W o (or_introl eq_refl))|].
  destruct Hc as [_ ->]. reflexivity.
Qed.
Theorem static_lost names out ky v : do_avg raw (q_of n) names (Dataset [] []) = inr out -> 2 <= n -> get (vars raw) ky = Some v ->
  without_time v -> 1 <= len v -> ky <> "U_std" -> get (vars out) ky = None.
Proof.
  intros E H2 G W L1 N. rewrite (do_avg_vars _ _ _ ky E N). cbn [vars]. destruct (existsb _ names); [|reflexivity].
  assert (Rn : reduction (fun r => bin_mean r (q_of n)) ky = None); [|now rewrite Rn].
  unfold reduction. rewrite G. destruct (existsb _ _); [reflexivity|].
  destruct (new_axes raw (q_of n) v) as [|cs] eqn:A; [reflexivity|]. destruct (contains _ _); [reflexivity|].
  rewrite (static_sizes v cs W (axes_inr _ _ _ G A)). destruct (dims_sizes _ _ G) as [Nd [Sz [_ [Nr Fr]]]]. rewrite <- Sz.
  unfold reduced. destruct (dims v); [reflexivity|]. destruct (each _ _) as [|rs] eqn:Er; [reflexivity|].
  destruct (list_eq_dec _ _ _) as [Eq|]; [|reflexivity]. exfalso. apply app_inj_tail in Eq. destruct Eq as [_ Eq].
  destruct (rows v) as [|r rows'] eqn:Rv; [now destruct Nr|]. cbn in Er.
  destruct (bin_mean r (q_of n)) as [|b] eqn:Eb; [discriminate|]. destruct (each _ rows'); [discriminate|]. injection Er as <-.
  inversion Fr; subst. destruct (Nat.lt_ge_cases (len v) n) as [Lt|Ge].
  - destruct (too_short r n) with (f := nanmean) as [e Ee]; [lia|]. unfold bin_mean in Eb. rewrite Ee in Eb. discriminate.
  - assert (length b = len v / n). { rewrite <- H1. apply mean_length; [exact Eb|lia]. }
    assert (len v / n < len v) by (apply Nat.div_lt; lia). lia.
Qed.
Theorem short_fails names out ky v o : In ky names -> get (vars raw) ky = Some v -> ~ altimeter v -> In o (dims v) -> times o -> size o < n ->
  exists e, do_avg raw (q_of n) names out = inl e.
Proof.
  intros Hk G A Ho T Sh. revert out Hk. induction names as [|k names IH]; intros out Hk; [destruct Hk|]. cbn.
  destruct (get (vars raw) k) as [vk|] eqn:Gk; [|now eexists].
  destruct Hk as [->|Hk].
  - rewrite G in Gk. injection Gk as <-. rewrite (not_altimeter _ A). destruct (axes_short ky v o G Ho T Sh) as [e ->]. now eexists.
  - destruct (existsb _ _); [now apply IH|]. destruct (new_axes _ _ _); [now eexists|]. destruct (add_std _ _ _); [now eexists|]. now apply IH.
Qed.
Theorem no_velocity names out ky v : get (vars raw) "vel" = None -> In ky names -> get (vars raw) ky = Some v -> ~ altimeter v ->
  exists e, do_avg raw (q_of n) names out = inl e.
Proof.
  intros Nv Hk G A. revert out Hk. induction names as [|k names IH]; intros out Hk; [destruct Hk|]. cbn.
  destruct (get (vars raw) k) as [vk|] eqn:Gk; [|now eexists].
  destruct Hk as [->|Hk].
  - rewrite G in Gk. injection Gk as <-. rewrite (not_altimeter _ A). destruct (new_axes _ _ _); [now eexists|]. unfold add_std. rewrite Nv. now eexists.
  - destruct (existsb _ _); [now apply IH|]. destruct (new_axes _ _ _); [now eexists|]. unfold add_std. rewrite Nv. now eexists.
Qed.
End Averaging.

(** the lengths of transforms *)
Lemma new_binner_lengths nb f c : let b := new_binner nb f c in
  n_bin_of b = nb /\ (n_fft_of b <= nb)%Z /\ (n_fft_coh_of b <= nb)%Z
  /\ (forall x, f = Some x -> (x <= nb)%Z -> n_fft_of b = x) /\ (forall x, c = Some x -> (x <= nb)%Z -> n_fft_coh_of b = x)
  /\ (c = None -> n_fft_coh_of b = n_fft_of b) /\ (f = None -> n_fft_of b = nb).
Proof.
  cbn. repeat split.
  - destruct f as [x|]; [|lia]. destruct (Z.ltb_spec nb x); lia.
  - destruct c as [y|]; [destruct (Z.ltb_spec nb y); lia|]. destruct f as [x|]; [|lia]. destruct (Z.ltb_spec nb x); lia.
  - intros x -> H. destruct (Z.ltb_spec nb x); lia.
  - intros x -> H. destruct (Z.ltb_spec nb x); lia.
  - intros ->. reflexivity.
  - intros ->. reflexivity.
Qed.
Lemma parse_lengths b : (n_fft_of b <= n_bin_of b)%Z -> (n_fft_coh_of b <= n_bin_of b)%Z -> forall f,
  (parse_nfft b f <= n_bin_of b)%Z /\ (parse_nfft_coh b f <= n_bin_of b)%Z
  /\ (forall x, f = Some x -> (x <= n_bin_of b)%Z -> parse_nfft b f = x /\ parse_nfft_coh b f = x).
Proof.
  intros H1 H2 f. unfold parse_nfft, parse_nfft_coh. repeat split.
  - destruct f as [x|]; [|lia]. destruct (Z.ltb_spec (n_bin_of b) x); lia.
  - destruct f as [x|]; [|lia]. destruct (Z.ltb_spec (n_bin_of b) x); lia.
  - subst. destruct (Z.ltb_spec (n_bin_of b) x); lia.
  - subst. destruct (Z.ltb_spec (n_bin_of b) x); lia.
Qed.

(** the coordinates of results of the binner *)
Lemma new_coords_ok own axes n t : 1 <= n ->
  get own "time" = Some t -> n <= length t ->
  exists cs t', new_coords own axes (q_of n) = inr cs /\ means n t t' /\
    cs = map (fun a => if contains "time" (fst a) then (fst a, length t', Some t') else (a, None)) axes.
Proof.
  intros Hn G L. destruct (mean_ok t n (conj Hn L)) as [t' [Et Mt]]. unfold new_coords. rewrite G, Et.
  exists (map (fun a => if contains "time" (fst a) then (fst a, length t', Some t') else (a, None)) axes), t'.
  split; [|now split]. induction axes as [|a axes IH]; [reflexivity|]. cbn.
  destruct (contains "time" (fst a)); rewrite IH; reflexivity.
Qed.
Lemma new_coords_fails own axes q : get own "time" = None -> (exists a, In a axes /\ contains "time" (fst a) = true) ->
  new_coords own axes q = inl AttributeError.
Proof.
  intros G [a [Ha T]]. unfold new_coords. rewrite G. induction axes as [|x axes IH]; [destruct Ha|]. cbn.
  destruct (contains "time" (fst x)) eqn:Tx; [reflexivity|]. destruct Ha as [->|Ha]; [congruence|].
  now rewrite (IH Ha).
Qed.
Lemma override_lengths nb f0 c0 x : let b := new_binner nb f0 c0 in
  (parse_nfft b x <= nb)%Z /\ (parse_nfft_coh b x <= nb)%Z
  /\ (forall y, x = Some y -> (y <= nb)%Z -> parse_nfft b x = y /\ parse_nfft_coh b x = y)
  /\ (x = None -> parse_nfft b x = n_fft_of b /\ parse_nfft_coh b x = n_fft_coh_of b).
Proof.
  intro b. destruct (new_binner_lengths nb f0 c0) as [E [H1 [H2 _]]]. fold b in E, H1, H2. rewrite <- E in H1, H2.
  destruct (parse_lengths b H1 H2 x) as [A [B C]]. rewrite E in A, B, C. split; [exact A|]. split; [exact B|]. split; [exact C|]. intros ->. split; reflexivity.
Qed.
