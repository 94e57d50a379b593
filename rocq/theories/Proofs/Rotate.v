From Coq Require Import Reals List Bool String Lia Lra.
From Verif.Model Require Import Linalg Rotate.
From Verif.Spec Require Import Linalg Rotate.
From Verif.Proofs Require Import Linalg.
Import ListNotations.
Open Scope R_scope.

(** ** association lists *)
Lemma lookup_update nm nm' v l :
  lookup nm (update nm' v l) =
  match lookup nm l with
  | None => None
  | Some w => Some (if String.eqb nm nm' then v else w)
  end.
Proof.
  induction l as [|[k w] l IH]; [reflexivity|]. simpl.
  destruct (String.eqb_spec k nm') as [->|N]; simpl.
  - destruct (String.eqb_spec nm' nm) as [->|]; [rewrite String.eqb_refl; reflexivity|exact IH].
  - destruct (String.eqb_spec k nm) as [->|]; [|exact IH].
    destruct (String.eqb_spec nm nm'); [congruence|reflexivity].
Qed.

Lemma update_keys nm v l : map fst (update nm v l) = map fst l.
Proof.
  unfold update. rewrite map_map. apply map_ext. intros [k w]. simpl.
  destruct (String.eqb k nm); reflexivity.
Qed.

Lemma in_lookup nm v l : NoDup (map fst l) -> In (nm, v) l -> lookup nm l = Some v.
Proof.
  induction l as [|[k w] l IH]; simpl; intros N H; [destruct H|].
  inversion N as [|? ? N1 N2]; subst. destruct H as [H|H].
  - injection H as -> ->. rewrite String.eqb_refl. reflexivity.
  - destruct (String.eqb_spec k nm) as [->|]; [|apply IH; assumption].
    exfalso. apply N1. apply in_map_iff. exists (nm, v). auto.
Qed.

Lemma lookup_in nm v l : lookup nm l = Some v -> In (nm, v) l.
Proof.
  induction l as [|[k w] l IH]; simpl; [discriminate|].
  destruct (String.eqb_spec k nm) as [->|]; intros H; [left; congruence|right; auto].
Qed.

(** ** the loop over the variables *)
Definition count (nm : string) (names : list string) : nat := count_occ string_dec names nm.
Definition iter_data (names : list string) (F : var -> var) (l : list (string * var)) :=
  map (fun kv => (fst kv, Nat.iter (count (fst kv) names) F (snd kv))) l.

Lemma iter_data_nil F l : iter_data [] F l = l.
Proof. unfold iter_data. rewrite <- (map_id l) at 2. apply map_ext. intros [k v]. reflexivity. Qed.

Lemma iter_data_keys names F l : map fst (iter_data names F l) = map fst l.
Proof. unfold iter_data. rewrite map_map. reflexivity. Qed.

Lemma lookup_iter names F nm l :
  lookup nm (iter_data names F l) = option_map (Nat.iter (count nm names) F) (lookup nm l).
Proof.
  induction l as [|[k v] l IH]; [reflexivity|]. simpl.
  destruct (String.eqb_spec k nm) as [->|]; [reflexivity|exact IH].
Qed.

Lemma iter_shift {A} (F : A -> A) n x : Nat.iter n F (F x) = F (Nat.iter n F x).
Proof. induction n; simpl; congruence. Qed.

Lemma iter_data_cons nm names F l v : NoDup (map fst l) -> lookup nm l = Some v ->
  iter_data names F (update nm (F v) l) = iter_data (nm :: names) F l.
Proof.
  intros N H. unfold iter_data, update. rewrite map_map. apply map_ext_in.
  intros [k w] Hin. simpl. unfold count. simpl.
  destruct (String.eqb_spec k nm) as [->|Hn]; simpl.
  - rewrite (in_lookup _ _ _ N Hin) in H. injection H as ->.
    destruct (string_dec nm nm); [|congruence]. simpl. rewrite iter_shift. reflexivity.
  - destruct (string_dec nm k); [congruence|reflexivity].
Qed.

Lemma over_vars_ok names f F (P : var -> Prop) :
  (forall v, P v -> f v = inr (F v) /\ P (F v)) ->
  forall d, NoDup (map fst (data d)) ->
  (forall nm, In nm names -> exists v, lookup nm (data d) = Some v /\ P v) ->
  over_vars names f d = Ok (set_data d (iter_data names F (data d))).
Proof.
  intros HF. induction names as [|nm names IH]; intros d N H.
  - simpl. rewrite iter_data_nil. destruct d; reflexivity.
  - simpl. destruct (H nm (or_introl eq_refl)) as (v & Hv & Pv). rewrite Hv.
    destruct (HF v Pv) as [E PF]. rewrite E. rewrite IH.
    + simpl. rewrite (iter_data_cons nm names F (data d) v N Hv). reflexivity.
    + simpl. rewrite update_keys. exact N.
    + simpl. intros nm' Hn. destruct (H nm' (or_intror Hn)) as (w & Hw & Pw).
      exists (if String.eqb nm' nm then F v else w). split.
      * rewrite lookup_update, Hw. reflexivity.
      * destruct (String.eqb nm' nm); assumption.
Qed.

(** [P] holds for the named variables only *)
Definition all_named (names : list string) (P : var -> Prop) (l : list (string * var)) : Prop :=
  forall nm, In nm names -> exists v, lookup nm l = Some v /\ P v.

Lemma count_notin nm names : ~ In nm names -> count nm names = 0%nat.
Proof. intros H. apply count_occ_not_In. exact H. Qed.

Lemma iter_P {A} (P : A -> Prop) F n x : (forall y, P y -> P (F y)) -> P x -> P (Nat.iter n F x).
Proof. intros H Hx. induction n; simpl; auto. Qed.

Lemma iter_inv {A} (P : A -> Prop) F G n x : (forall y, P y -> P (F y) /\ G (F y) = y) ->
  P x -> Nat.iter n G (Nat.iter n F x) = x.
Proof.
  intros H Hx. induction n as [|n IH]; [reflexivity|]. simpl.
  rewrite <- iter_shift. assert (P (Nat.iter n F x)) as Pn by (apply iter_P; [intros y Hy; apply H; exact Hy|exact Hx]).
  destruct (H _ Pn) as [_ E]. rewrite E. exact IH.
Qed.

Lemma iter_data_inv names F G (P : var -> Prop) l : NoDup (map fst l) ->
  (forall v, P v -> P (F v) /\ G (F v) = v) -> all_named names P l ->
  iter_data names G (iter_data names F l) = l.
Proof.
  intros N H A. unfold iter_data. rewrite map_map. rewrite <- (map_id l) at 2.
  apply map_ext_in. intros [k v] Hin. simpl. f_equal.
  destruct (in_dec string_dec k names) as [I|I].
  - destruct (A k I) as (w & Hw & Pw). rewrite (in_lookup _ _ _ N Hin) in Hw. injection Hw as ->.
    apply iter_inv with (P := P); assumption.
  - rewrite count_notin by exact I. reflexivity.
Qed.

Lemma all_named_iter names names' F (P : var -> Prop) l :
  (forall v, P v -> P (F v)) -> all_named names P l -> all_named names P (iter_data names' F l).
Proof.
  intros H A nm Hn. destruct (A nm Hn) as (v & Hv & Pv).
  exists (Nat.iter (count nm names') F v). rewrite lookup_iter, Hv. split; [reflexivity|].
  apply iter_P; assumption.
Qed.

(** ** variables *)
Lemma map_cells_shaped n f v : (forall x, is_vec (ncomp v) x -> is_vec (ncomp v) (f x)) ->
  shaped n v -> shaped n (map_cells f v).
Proof.
  intros H [L F]. split; simpl; [rewrite map_length; exact L|].
  rewrite Forall_map. eapply Forall_impl; [|exact F]. intros row Hr. rewrite Forall_map.
  eapply Forall_impl; [|exact Hr]. exact H.
Qed.

Lemma map_map_id {A} (f g : A -> A) (P : A -> Prop) (c : list (list A)) :
  (forall x, P x -> g (f x) = x) -> Forall (Forall P) c -> map (map g) (map (map f) c) = c.
Proof.
  intros H F. rewrite map_map. rewrite <- (map_id c) at 2. apply map_ext_in. intros row Hr.
  rewrite map_map. rewrite <- (map_id row) at 2. apply map_ext_in. intros x Hx. apply H.
  rewrite Forall_forall in F. specialize (F row Hr). rewrite Forall_forall in F. apply F. exact Hx.
Qed.

Lemma map_cells_inv n f g v : (forall x, is_vec (ncomp v) x -> g (f x) = x) -> shaped n v ->
  map_cells g (map_cells f v) = v.
Proof.
  intros H [L F]. unfold map_cells. destruct v as [nc c]; simpl in *. f_equal.
  eapply map_map_id; [exact H|exact F].
Qed.

Lemma zip_cells_length fs c : List.length fs = List.length c -> List.length (zip_cells fs c) = List.length c.
Proof. revert c; induction fs as [|f fs IH]; intros [|x c] H; simpl in *; try lia. rewrite IH; lia. Qed.

Lemma zip_cells_Forall (P : vec -> Prop) fs c :
  Forall (fun f => forall x, P x -> P (f x)) fs -> Forall (Forall P) c ->
  Forall (Forall P) (zip_cells fs c).
Proof.
  intros H. revert c. induction H as [|f fs Hf H IH]; intros [|x c] F; simpl; try constructor.
  - inversion F; subst. rewrite Forall_map. eapply Forall_impl; [|eassumption]. exact Hf.
  - inversion F; subst. apply IH. assumption.
Qed.

Lemma zip_cells_inv (P : vec -> Prop) fs gs c :
  Forall2 (fun f g => forall x, P x -> g (f x) = x) fs gs -> Forall (Forall P) c ->
  List.length fs = List.length c -> zip_cells gs (zip_cells fs c) = c.
Proof.
  intros H. revert c. induction H as [|f g fs gs Hf H IH]; intros [|x c] F L; simpl in *; try lia; try reflexivity.
  inversion F as [|? ? Fx Fc]; subst. f_equal; [|apply IH; [exact Fc|lia]].
  rewrite map_map. rewrite <- (map_id x) at 2. apply map_ext_in. intros v Hv. apply Hf.
  rewrite Forall_forall in Fx. apply Fx. exact Hv.
Qed.

Definition zip_var (fs : list (vec -> vec)) (v : var) : var := Var (ncomp v) (zip_cells fs (cells v)).

Lemma map_time_ok fs v : shaped (List.length fs) v -> map_time fs v = inr (zip_var fs v).
Proof.
  intros [L _]. unfold map_time. rewrite L, Nat.eqb_refl. reflexivity.
Qed.

Lemma zip_var_shaped fs v : Forall (fun f => forall x, is_vec (ncomp v) x -> is_vec (ncomp v) (f x)) fs ->
  shaped (List.length fs) v -> shaped (List.length fs) (zip_var fs v).
Proof.
  intros H [L F]. split; simpl.
  - rewrite zip_cells_length; [exact L|symmetry; exact L].
  - apply zip_cells_Forall; assumption.
Qed.

Lemma zip_var_inv fs gs v : Forall2 (fun f g => forall x, is_vec (ncomp v) x -> g (f x) = x) fs gs ->
  shaped (List.length fs) v -> zip_var gs (zip_var fs v) = v.
Proof.
  intros H [L F]. destruct v as [nc c]; unfold zip_var; simpl in *. f_equal.
  eapply zip_cells_inv; [exact H|exact F|symmetry; exact L].
Qed.

Lemma Forall2_map_same {A B C} (R : B -> C -> Prop) (f : A -> B) (g : A -> C) l :
  Forall (fun x => R (f x) (g x)) l -> Forall2 R (map f l) (map g l).
Proof. intros H; induction H; simpl; constructor; assumption. Qed.

(** ** pure versions of the steps *)
Definition sel (n : nat) (rv : list string) (X : list (string * var)) : list string :=
  filter (fun nm => match lookup nm X with Some v => Nat.eqb (ncomp v) n | None => false end) rv.

Definition Bmat (rev : bool) (d : ds) : mat :=
  let n := List.length (beam2inst d) in if rev then inv n (beam2inst d) else beam2inst d.
Definition beam_data (rev : bool) (d : ds) X :=
  iter_data (sel (List.length (beam2inst d)) (rotate_vars d) X) (map_cells (mv (Bmat rev d))) X.
Definition head_data (rev : bool) (d : ds) X :=
  match inst2head d with
  | Some H => iter_data ["vel"%string] (map_cells (mv (if rev then tr 3 H else H))) X
  | None => X
  end.

Definition sgn3 (down : bool) (v : vec) := if down then vmul sign3 v else v.
Definition sgn4 (down : bool) (v : vec) := if down then vmul sign4 v else v.

Definition vec_fs (rev : bool) (om : list mat) : list (vec -> vec) :=
  map (fun O => let rmat := tr 3 O in mv (if rev then tr 3 rmat else rmat)) om.
Definition sig_f3 (rev down : bool) (om : list mat) : list (vec -> vec) :=
  map (fun r v => if rev then (if down then vmul sign3 (mv (tr 3 r) v) else mv (tr 3 r) v)
                  else (if down then mv r (vmul sign3 v) else mv r v)) (map (tr 3) om).
Definition sig_f4 (rev down : bool) (om : list mat) : list (vec -> vec) :=
  map (fun r v => if rev then (if down then vmul sign4 (mv (inv 4 (rmat4 r)) v)
                               else mv (inv 4 (rmat4 r)) v)
                  else (if down then mv (rmat4 r) (vmul sign4 v) else mv (rmat4 r) v)) (map (tr 3) om).
Definition rdi_fs (rev : bool) (om : list mat) : list (vec -> vec) :=
  map (fun O => let r := tr 3 O in first3 (mv (if rev then tr 3 r else r))) om.

Definition isdown d := String.eqb (orientation d) "down".
Definition earthF (fam : family) (rev : bool) (d : ds) (v : var) : var :=
  match fam with
  | Vector | Awac => zip_var (vec_fs rev (orientmat d)) v
  | Signature => if Nat.eqb (ncomp v) 3 then zip_var (sig_f3 rev (isdown d) (orientmat d)) v
                 else zip_var (sig_f4 rev (isdown d) (orientmat d)) v
  | Rdi => zip_var (rdi_fs rev (orientmat d)) v
  end.
Definition earth_data fam rev d X := iter_data (rotate_vars d) (earthF fam rev d) X.

Definition pang (rev : bool) (ph : R) : R := if rev then deg2rad (90 - ph) else - deg2rad (90 - ph).
Definition prin_data (rev : bool) (d : ds) X :=
  match principal_heading d with
  | Some ph => iter_data (rotate_vars d) (map_cells (rot2 (pang rev ph))) X
  | None => X
  end.

Definition move (fam : family) (low : nat) (rev : bool) (d : ds) X :=
  match low with
  | O => match fam with
         | Vector => if rev then beam_data true d (head_data true d X)
                     else head_data false d (beam_data false d X)
         | _ => beam_data rev d X
         end
  | 1%nat => earth_data fam rev d X
  | _ => prin_data rev d X
  end.

Definition okvar fam T (v : var) : Prop := shaped T v /\ rotatable fam (ncomp v).
Definition okvel T (v : var) : Prop := shaped T v /\ ncomp v = 3%nat.

Record wfd (fam : family) (d : ds) (X : list (string * var)) : Prop := {
  wfd_keys : NoDup (map fst X);
  wfd_vars : all_named (rotate_vars d) (okvar fam (List.length (orientmat d))) X;
  wfd_vel : inst2head d <> None -> exists v, lookup "vel" X = Some v /\ okvel (List.length (orientmat d)) v }.

Lemma wfd_iter fam d X names F (P : var -> Prop) :
  wfd fam d X ->
  (forall nm v, In nm names -> lookup nm X = Some v -> P v) ->
  (forall v, P v -> P (F v) /\ shaped (List.length (orientmat d)) (F v) /\ ncomp (F v) = ncomp v) ->
  wfd fam d (iter_data names F X).
Proof.
  intros [K V L] HP HF.
  assert (ST : forall v k, P v -> shaped (List.length (orientmat d)) v ->
     shaped (List.length (orientmat d)) (Nat.iter k F v) /\ ncomp (Nat.iter k F v) = ncomp v).
  { intros v k Pv Sv.
    assert (Hk : P (Nat.iter k F v) /\ shaped (List.length (orientmat d)) (Nat.iter k F v)
                 /\ ncomp (Nat.iter k F v) = ncomp v); [|tauto].
    induction k as [|k (A & B & C)]; simpl; [tauto|].
    destruct (HF _ A) as (A' & B' & C'). rewrite C'. tauto. }
  assert (LK : forall nm v, lookup nm X = Some v -> shaped (List.length (orientmat d)) v ->
     exists w, lookup nm (iter_data names F X) = Some w /\ shaped (List.length (orientmat d)) w /\ ncomp w = ncomp v).
  { intros nm v Hv Sv. rewrite lookup_iter, Hv. simpl. eexists; split; [reflexivity|].
    destruct (in_dec string_dec nm names) as [I|I].
    - apply ST; [eapply HP; eassumption|exact Sv].
    - rewrite count_notin by exact I. simpl. tauto. }
  split.
  - rewrite iter_data_keys. exact K.
  - intros nm Hn. destruct (V nm Hn) as (v & Hv & Sv & Rv).
    destruct (LK nm v Hv Sv) as (w & Hw & Sw & Nw). exists w. split; [exact Hw|].
    split; [exact Sw|rewrite Nw; exact Rv].
  - intros Hi. destruct (L Hi) as (v & Hv & Sv & Rv).
    destruct (LK _ v Hv Sv) as (w & Hw & Sw & Nw). exists w. split; [exact Hw|].
    split; [exact Sw|rewrite Nw; exact Rv].
Qed.

(** static part of admissibility *)
Record statics (fam : family) (d : ds) : Prop := {
  st_make : standard_make fam (make_model d);
  st_beam : List.length (beam_labels d) = ndir fam;
  st_b2i : exists n, (n = 3%nat \/ n = 4%nat) /\ is_mat n (beam2inst d) /\ det n (beam2inst d) <> 0;
  st_omat : Forall orthonormal (orientmat d);
  st_sig : fam = Signature -> Forall (fun O => entry O 2 2 <> 0) (orientmat d);
  st_i2h : forall M, inst2head d = Some M -> inst2head_was_set d = true /\ proper_rotation M }.

Lemma adm_split fam d : admissible fam d <->
  statics fam d /\ In (coord_sys d) frames /\ dir d = axis_labels fam (coord_sys d) (beam_labels d) /\
  (dirIMU d = None \/ dirIMU d = Some (imu_labels (coord_sys d))) /\ wfd fam d (data d).
Proof.
  split.
  - intros [A B C D E F G H I J K]. split; [|split; [|split; [|split]]]; try assumption.
    + constructor; try assumption. intros M HM. destruct (K M HM) as (K1 & K2 & _). auto.
    + constructor; try assumption.
      intros Hn. destruct (inst2head d) as [M|]; [|congruence].
      destruct (K M eq_refl) as (_ & _ & v & K1 & K2 & K3). exists v. split; [exact K1|split; assumption].
  - intros ([A1 A2 A3 A4 A5 A6] & B & C & D & [E1 E2 E3]). constructor; try assumption.
    intros M HM. destruct (A6 M HM) as [A7 A8]. split; [exact A7|]. split; [exact A8|].
    destruct E3 as (v & V1 & V2 & V3); [congruence|]. eauto.
Qed.

(** *** beam <-> inst *)
Lemma beam_mv_inv rev n M : (n = 3 \/ n = 4)%nat -> is_mat n M -> det n M <> 0 ->
  forall x, is_vec n x ->
  mv (if negb rev then inv n M else M) (mv (if rev then inv n M else M) x) = x.
Proof.
  intros [->| ->] HM HD x Hx; destruct rev; simpl;
    [apply inv3_r|apply inv3_l|apply inv4_r|apply inv4_l]; assumption.
Qed.

Lemma mat_mv_vec n M x : is_mat n M -> is_vec n (mv M x).
Proof. intros [L _]. unfold is_vec. rewrite mv_length. exact L. Qed.

Lemma inv_mv_vec n M x : is_vec n (mv (inv n M) x).
Proof. unfold is_vec. rewrite mv_length, inv_length. reflexivity. Qed.

Definition selvar d (v : var) : Prop :=
  shaped (List.length (orientmat d)) v /\ ncomp v = List.length (beam2inst d).

Lemma Bmat_vec fam d rev x : statics fam d -> is_vec (List.length (beam2inst d)) (mv (Bmat rev d) x).
Proof.
  intros S. destruct (st_b2i _ _ S) as (n & Hn & HM & HD). pose proof (proj1 HM) as L. rewrite L.
  unfold Bmat. rewrite L. destruct rev; [apply inv_mv_vec|apply mat_mv_vec; exact HM].
Qed.

Lemma beamF_ok fam d rev v : statics fam d -> selvar d v ->
  selvar d (map_cells (mv (Bmat rev d)) v) /\
  shaped (List.length (orientmat d)) (map_cells (mv (Bmat rev d)) v) /\
  ncomp (map_cells (mv (Bmat rev d)) v) = ncomp v.
Proof.
  intros S [Sv Nv].
  assert (S' : shaped (List.length (orientmat d)) (map_cells (mv (Bmat rev d)) v)).
  { apply map_cells_shaped; [|exact Sv]. intros x _. rewrite Nv. eapply Bmat_vec; exact S. }
  repeat split; try apply S'; exact Nv.
Qed.

Lemma beamF_inv fam d rev v : statics fam d -> selvar d v ->
  map_cells (mv (Bmat (negb rev) d)) (map_cells (mv (Bmat rev d)) v) = v.
Proof.
  intros S [Sv Nv]. eapply map_cells_inv; [|exact Sv]. intros x Hx. rewrite Nv in Hx.
  destruct (st_b2i _ _ S) as (n & Hn & HM & HD). pose proof (proj1 HM) as L. rewrite L in Hx.
  unfold Bmat. rewrite L. apply beam_mv_inv; assumption.
Qed.

Lemma sel_spec fam d X nm v : wfd fam d X ->
  In nm (sel (List.length (beam2inst d)) (rotate_vars d) X) -> lookup nm X = Some v -> selvar d v.
Proof.
  intros W H Hv. apply filter_In in H. destruct H as [H1 H2]. rewrite Hv in H2.
  apply Nat.eqb_eq in H2. destruct (wfd_vars _ _ _ W nm H1) as (w & Hw & Sw & _).
  rewrite Hv in Hw. injection Hw as ->. split; assumption.
Qed.

Lemma sel_named fam d X : wfd fam d X ->
  all_named (sel (List.length (beam2inst d)) (rotate_vars d) X) (selvar d) X.
Proof.
  intros W nm H. pose proof H as H'. apply filter_In in H. destruct H as [H1 H2].
  destruct (wfd_vars _ _ _ W nm H1) as (w & Hw & _). exists w. split; [exact Hw|].
  eapply sel_spec; eassumption.
Qed.

Lemma beam_wfd fam d rev X : statics fam d -> wfd fam d X -> wfd fam d (beam_data rev d X).
Proof.
  intros S W. unfold beam_data. eapply wfd_iter; [exact W| |].
  - intros nm v. apply (sel_spec fam d X nm v W).
  - intros v. apply (beamF_ok fam d rev v S).
Qed.

Lemma sel_iter n rv X names F : (forall nm v, lookup nm X = Some v -> In nm names ->
    forall k, ncomp (Nat.iter k F v) = ncomp v) ->
  sel n rv (iter_data names F X) = sel n rv X.
Proof.
  intros H. unfold sel. apply filter_ext. intros nm. rewrite lookup_iter.
  destruct (lookup nm X) as [v|] eqn:E; simpl; [|reflexivity].
  destruct (in_dec string_dec nm names) as [I|I].
  - rewrite (H nm v E I). reflexivity.
  - rewrite count_notin by exact I. reflexivity.
Qed.

Lemma iter_map_cells_ncomp f k v : ncomp (Nat.iter k (map_cells f) v) = ncomp v.
Proof. induction k; simpl; [reflexivity|exact IHk]. Qed.

Lemma beam_inv fam d rev X : statics fam d -> wfd fam d X ->
  beam_data (negb rev) d (beam_data rev d X) = X.
Proof.
  intros S W. unfold beam_data at 1.
  replace (sel (List.length (beam2inst d)) (rotate_vars d) (beam_data rev d X))
    with (sel (List.length (beam2inst d)) (rotate_vars d) X).
  2: { symmetry. apply sel_iter. intros. apply iter_map_cells_ncomp. }
  unfold beam_data. eapply iter_data_inv with (P := selvar d).
  - apply (wfd_keys _ _ _ W).
  - intros v Pv. split; [apply (beamF_ok fam d rev v S Pv)|apply (beamF_inv fam d rev v S Pv)].
  - apply (sel_named fam); exact W.
Qed.

(** inst2head *)
Lemma headF_inv H rev T v : orthonormal H -> okvel T v ->
  okvel T (map_cells (mv (if rev : bool then tr 3 H else H)) v) /\
  map_cells (mv (if negb rev then tr 3 H else H)) (map_cells (mv (if rev then tr 3 H else H)) v) = v.
Proof.
  intros O [Sv Nv]. split.
  - split; [|exact Nv]. apply map_cells_shaped; [|exact Sv]. rewrite Nv. intros x Hx.
    apply mat_mv_vec. destruct rev; [apply is_mat_tr3|]; apply O.
  - eapply map_cells_inv; [|exact Sv]. rewrite Nv. intros x Hx. destruct rev; cbn [negb].
    + apply orth_mv_tr; assumption.
    + apply orth_tr_mv; assumption.
Qed.

Lemma head_wfd fam d rev X : statics fam d -> wfd fam d X -> wfd fam d (head_data rev d X).
Proof.
  intros S W. unfold head_data. destruct (inst2head d) as [H|] eqn:E; [|exact W].
  destruct (st_i2h _ _ S H E) as [_ [O _]].
  eapply wfd_iter with (P := okvel (List.length (orientmat d))); [exact W| |].
  - intros nm v [<-|[]] Hv. destruct (wfd_vel _ _ _ W) as (w & Hw & Ow); [congruence|].
    rewrite Hv in Hw. injection Hw as ->. exact Ow.
  - intros v Pv. destruct (headF_inv H rev _ v O Pv) as [A _]. split; [exact A|]. split; [apply A|].
    reflexivity.
Qed.

Lemma head_inv fam d rev X : statics fam d -> wfd fam d X ->
  head_data (negb rev) d (head_data rev d X) = X.
Proof.
  intros S W. unfold head_data. destruct (inst2head d) as [H|] eqn:E; [|reflexivity].
  destruct (st_i2h _ _ S H E) as [_ [O _]].
  eapply iter_data_inv with (P := okvel (List.length (orientmat d))).
  - apply (wfd_keys _ _ _ W).
  - intros v Pv. apply headF_inv; assumption.
  - intros nm [<-|[]]. apply (wfd_vel _ _ _ W). congruence.
Qed.

(** *** inst <-> earth *)
Lemma first3_vec n f x : (3 <= n)%nat -> (forall y, is_vec 3 y -> is_vec 3 (f y)) -> is_vec n x ->
  is_vec n (first3 f x).
Proof.
  unfold is_vec, first3. intros Hn Hf Hx. rewrite app_length, Hf, skipn_length; [lia|].
  rewrite firstn_length. lia.
Qed.

Lemma first3_inv n f g x : (3 <= n)%nat -> (forall y, is_vec 3 y -> is_vec 3 (f y) /\ g (f y) = y) ->
  is_vec n x -> first3 g (first3 f x) = x.
Proof.
  unfold is_vec, first3. intros Hn Hf Hx.
  destruct (Hf (firstn 3 x)) as [A B]; [rewrite firstn_length; lia|].
  rewrite firstn_app, skipn_app, A. replace (3 - 3)%nat with 0%nat by lia.
  rewrite firstn_O, app_nil_r, skipn_O. rewrite (firstn_all2 (f (firstn 3 x))) by lia.
  rewrite (skipn_all2 (f (firstn 3 x))) by lia. rewrite B. exact (firstn_skipn 3 x).
Qed.

Lemma vmul3 x : is_vec 3 x -> is_vec 3 (vmul sign3 x) /\ vmul sign3 (vmul sign3 x) = x.
Proof.
  intros H. destruct (is_vec3 x H) as (a & b & c & ->). split; [reflexivity|]. cbn.
  apply vec3_ext; ring.
Qed.
Lemma vmul4 x : is_vec 4 x -> is_vec 4 (vmul sign4 x) /\ vmul sign4 (vmul sign4 x) = x.
Proof.
  intros H. destruct (is_vec4 x H) as (a & b & c & d & ->). split; [reflexivity|]. cbn.
  apply vec4_ext; ring.
Qed.

Lemma rmat4_det r : is_mat 3 r -> det 4 (rmat4 r) = det3 r * entry r 2 2.
Proof.
  intros H. destruct (is_mat3 r H) as (a & b & c & d & e & f & g & h & i & ->).
  unfold rmat4, ent, det3, entry. cbn. unfold sgn. cbn. field.
Qed.

Lemma rmat4_is_mat r : is_mat 4 (rmat4 r).
Proof. split; [reflexivity|repeat constructor]. Qed.

Lemma orth_det_nz M : orthonormal M -> det3 M * det3 M = 1.
Proof.
  intros O. rewrite <- (det3_tr M (proj1 O)) at 1.
  rewrite <- det3_mm by (try apply is_mat_tr3; apply O).
  destruct (is_mat3 M (proj1 O)) as (a & b & c & d & e & f & g & h & i & ->).
  destruct (orth_eqs _ _ _ _ _ _ _ _ _ O) as [_ (B1 & B2 & B3 & B4 & B5 & B6)].
  cbn. unfold det3, entry. cbn.
  rewrite !Rplus_0_r, <- !Rplus_assoc.
  rewrite B1, B2, B3, (Rmult_comm b a), (Rmult_comm e d), (Rmult_comm h g), B4,
    (Rmult_comm c a), (Rmult_comm f d), (Rmult_comm i g), B5,
    (Rmult_comm c b), (Rmult_comm f e), (Rmult_comm i h), B6. ring.
Qed.

Lemma orth_det_ne0 M : orthonormal M -> det3 M <> 0.
Proof. intros O E. pose proof (orth_det_nz M O) as D. rewrite E in D. lra. Qed.

Lemma tr_entry22 O : is_mat 3 O -> entry (tr 3 O) 2 2 = entry O 2 2.
Proof. intros H. destruct (is_mat3 O H) as (a & b & c & d & e & f & g & h & i & ->). reflexivity. Qed.

Lemma rmat4_nonsing O : orthonormal O -> entry O 2 2 <> 0 -> det 4 (rmat4 (tr 3 O)) <> 0.
Proof.
  intros H E. rewrite rmat4_det by (apply is_mat_tr3, H). rewrite tr_entry22 by apply H.
  apply Rmult_integral_contrapositive_currified; [|exact E].
  rewrite det3_tr by apply H. apply orth_det_ne0. exact H.
Qed.

Lemma vecf_ok O rev : orthonormal O ->
  forall x, is_vec 3 x -> is_vec 3 (mv (if rev : bool then tr 3 (tr 3 O) else tr 3 O) x) /\
    mv (if negb rev then tr 3 (tr 3 O) else tr 3 O) (mv (if rev then tr 3 (tr 3 O) else tr 3 O) x) = x.
Proof.
  intros H x Hx. pose proof (orth_tr O H) as Ht. split.
  - apply mat_mv_vec. destruct rev; [apply is_mat_tr3|]; apply Ht.
  - destruct rev; cbn [negb]; [apply orth_mv_tr|apply orth_tr_mv]; assumption.
Qed.

Lemma sig3_ok O rev down : orthonormal O ->
  let f rev := fun v => if rev : bool then (if down : bool then vmul sign3 (mv (tr 3 (tr 3 O)) v) else mv (tr 3 (tr 3 O)) v)
               else (if down then mv (tr 3 O) (vmul sign3 v) else mv (tr 3 O) v) in
  forall x, is_vec 3 x -> is_vec 3 (f rev x) /\ f (negb rev) (f rev x) = x.
Proof.
  intros H f x Hx. pose proof (orth_tr O H) as Ht.
  assert (V : forall M y, orthonormal M -> is_vec 3 (mv M y)) by (intros M y HM; apply mat_mv_vec, HM).
  destruct rev, down; unfold f; cbn [negb].
  - split; [apply vmul3, V, orth_tr, Ht|].
    rewrite (proj2 (vmul3 _ (V _ _ (orth_tr _ Ht)))). apply orth_mv_tr; assumption.
  - split; [apply V, orth_tr, Ht|]. apply orth_mv_tr; assumption.
  - split; [apply V, Ht|]. rewrite orth_tr_mv; [apply vmul3; exact Hx|exact Ht|apply vmul3; exact Hx].
  - split; [apply V, Ht|]. apply orth_tr_mv; assumption.
Qed.

Lemma sig4_ok O rev down : orthonormal O -> entry O 2 2 <> 0 ->
  let r := tr 3 O in
  let f rev := fun v => if rev : bool then (if down : bool then vmul sign4 (mv (inv 4 (rmat4 r)) v) else mv (inv 4 (rmat4 r)) v)
               else (if down then mv (rmat4 r) (vmul sign4 v) else mv (rmat4 r) v) in
  forall x, is_vec 4 x -> is_vec 4 (f rev x) /\ f (negb rev) (f rev x) = x.
Proof.
  intros H E r f x Hx. pose proof (rmat4_nonsing O H E) as D. fold r in D.
  pose proof (rmat4_is_mat r) as IM.
  destruct rev, down; unfold f; cbn [negb].
  - split; [apply vmul4, inv_mv_vec|].
    rewrite (proj2 (vmul4 _ (inv_mv_vec 4 _ _))). apply inv4_r; assumption.
  - split; [apply inv_mv_vec|]. apply inv4_r; assumption.
  - split; [apply mat_mv_vec, IM|]. rewrite inv4_l; [apply vmul4; exact Hx|exact IM|exact D|apply vmul4; exact Hx].
  - split; [apply mat_mv_vec, IM|]. apply inv4_l; assumption.
Qed.

Lemma zip_pair fs gs v : List.length fs = List.length gs ->
  Forall2 (fun f g => forall x, is_vec (ncomp v) x -> is_vec (ncomp v) (f x) /\ g (f x) = x) fs gs ->
  shaped (List.length fs) v -> shaped (List.length fs) (zip_var fs v) /\ zip_var gs (zip_var fs v) = v.
Proof.
  intros L H S. split.
  - apply zip_var_shaped; [|exact S]. clear - H. induction H; constructor; auto. intros z Hz. apply H; exact Hz.
  - apply zip_var_inv; [|exact S]. clear - H. induction H; constructor; auto. intros z Hz. apply H; exact Hz.
Qed.

Lemma earthF_ok fam d rev v : statics fam d -> okvar fam (List.length (orientmat d)) v ->
  (shaped (List.length (orientmat d)) (earthF fam rev d v) /\ ncomp (earthF fam rev d v) = ncomp v) /\
  earthF fam (negb rev) d (earthF fam rev d v) = v.
Proof.
  intros S [Sv Rv]. pose proof (st_omat _ _ S) as HO.
  assert (VEC : ncomp v = 3%nat ->
    (shaped (List.length (orientmat d)) (zip_var (vec_fs rev (orientmat d)) v)) /\
    zip_var (vec_fs (negb rev) (orientmat d)) (zip_var (vec_fs rev (orientmat d)) v) = v).
  { intros N. assert (E : List.length (orientmat d) = List.length (vec_fs rev (orientmat d)))
      by (symmetry; apply map_length).
    rewrite E at 1. apply zip_pair.
    - unfold vec_fs. rewrite !map_length. reflexivity.
    - apply Forall2_map_same. rewrite N. eapply Forall_impl; [|exact HO].
      intros O Ho x Hx. apply (vecf_ok O rev Ho x Hx).
    - rewrite <- E. exact Sv. }
  destruct fam; simpl in Rv; unfold earthF.
  - destruct (VEC Rv). auto.
  - destruct (VEC Rv). auto.
  - assert (HS := st_sig _ _ S eq_refl).
    destruct Rv as [N|N]; rewrite N; cbn [Nat.eqb].
    + change (ncomp (zip_var (sig_f3 rev (isdown d) (orientmat d)) v)) with (ncomp v). rewrite N. cbn [Nat.eqb].
      assert (E : List.length (orientmat d) = List.length (sig_f3 rev (isdown d) (orientmat d)))
        by (unfold sig_f3; rewrite !map_length; reflexivity).
      destruct (zip_pair (sig_f3 rev (isdown d) (orientmat d)) (sig_f3 (negb rev) (isdown d) (orientmat d)) v)
        as [A B].
      * unfold sig_f3; rewrite !map_length; reflexivity.
      * unfold sig_f3. rewrite !map_map. apply Forall2_map_same. rewrite N.
        eapply Forall_impl; [|exact HO]. intros O Ho x Hx. apply (sig3_ok O rev (isdown d) Ho x Hx).
      * rewrite <- E. exact Sv.
      * rewrite <- E in A. auto.
    + change (ncomp (zip_var (sig_f4 rev (isdown d) (orientmat d)) v)) with (ncomp v). rewrite N. cbn [Nat.eqb].
      assert (E : List.length (orientmat d) = List.length (sig_f4 rev (isdown d) (orientmat d)))
        by (unfold sig_f4; rewrite !map_length; reflexivity).
      destruct (zip_pair (sig_f4 rev (isdown d) (orientmat d)) (sig_f4 (negb rev) (isdown d) (orientmat d)) v)
        as [A B].
      * unfold sig_f4; rewrite !map_length; reflexivity.
      * unfold sig_f4. rewrite !map_map. apply Forall2_map_same. rewrite N.
        assert (H2 : Forall (fun O => orthonormal O /\ entry O 2 2 <> 0) (orientmat d))
          by (apply Forall_and; assumption).
        eapply Forall_impl; [|exact H2]. intros O [Ho Eo] x Hx. apply (sig4_ok O rev (isdown d) Ho Eo x Hx).
      * rewrite <- E. exact Sv.
      * rewrite <- E in A. auto.
  - assert (E : List.length (orientmat d) = List.length (rdi_fs rev (orientmat d)))
      by (symmetry; apply map_length).
    destruct (zip_pair (rdi_fs rev (orientmat d)) (rdi_fs (negb rev) (orientmat d)) v) as [A B].
    + unfold rdi_fs; rewrite !map_length; reflexivity.
    + apply Forall2_map_same. eapply Forall_impl; [|exact HO]. intros O Ho x Hx. cbv zeta. split.
      * apply first3_vec; [exact Rv| |exact Hx]. intros y Hy. apply (vecf_ok O rev Ho y Hy).
      * eapply first3_inv; [exact Rv| |exact Hx]. intros y Hy. apply (vecf_ok O rev Ho y Hy).
    + rewrite <- E. exact Sv.
    + rewrite <- E in A. auto.
Qed.

Lemma okvar_shape fam T v w : okvar fam T v -> shaped T w -> ncomp w = ncomp v -> okvar fam T w.
Proof. intros [_ R] S N. split; [exact S|rewrite N; exact R]. Qed.

Lemma earth_wfd fam d rev X : statics fam d -> wfd fam d X -> wfd fam d (earth_data fam rev d X).
Proof.
  intros S W. unfold earth_data. eapply wfd_iter with (P := okvar fam (List.length (orientmat d))); [exact W| |].
  - intros nm v Hn Hv. destruct (wfd_vars _ _ _ W nm Hn) as (w & Hw & Ow). congruence.
  - intros v Pv. destruct (earthF_ok fam d rev v S Pv) as [[A B] _].
    split; [eapply okvar_shape; eassumption|auto].
Qed.

Lemma earth_inv fam d rev X : statics fam d -> wfd fam d X ->
  earth_data fam (negb rev) d (earth_data fam rev d X) = X.
Proof.
  intros S W. unfold earth_data. eapply iter_data_inv with (P := okvar fam (List.length (orientmat d))).
  - apply (wfd_keys _ _ _ W).
  - intros v Pv. destruct (earthF_ok fam d rev v S Pv) as [[A B] C].
    split; [eapply okvar_shape; eassumption|exact C].
  - apply (wfd_vars _ _ _ W).
Qed.

(** *** earth <-> principal *)
Lemma rot2_vec n a x : is_vec n x -> is_vec n (rot2 a x).
Proof. destruct x as [|p [|q x]]; intros H; exact H. Qed.

Lemma rot2_inv a x : rot2 (- a) (rot2 a x) = x.
Proof.
  destruct x as [|p [|q x]]; try reflexivity. cbn [rot2]. rewrite cos_neg, sin_neg.
  pose proof (sin2_cos2 a) as H. unfold Rsqr in H.
  f_equal; [|f_equal].
  - transitivity (p * (sin a * sin a + cos a * cos a)); [ring|rewrite H; ring].
  - transitivity (q * (sin a * sin a + cos a * cos a)); [ring|rewrite H; ring].
Qed.

Lemma pang_neg rev ph : pang (negb rev) ph = - pang rev ph.
Proof. destruct rev; simpl; ring. Qed.

Lemma rotatable_2 fam n : rotatable fam n -> (2 <= n)%nat.
Proof. destruct fam; simpl; lia. Qed.

Lemma prin_wfd fam d rev X : wfd fam d X -> wfd fam d (prin_data rev d X).
Proof.
  intros W. unfold prin_data. destruct (principal_heading d) as [ph|]; [|exact W].
  eapply wfd_iter with (P := okvar fam (List.length (orientmat d))); [exact W| |].
  - intros nm v Hn Hv. destruct (wfd_vars _ _ _ W nm Hn) as (w & Hw & Ow). congruence.
  - intros v Pv. assert (A : shaped (List.length (orientmat d)) (map_cells (rot2 (pang rev ph)) v)).
    { apply map_cells_shaped; [|apply Pv]. intros x. apply rot2_vec. }
    split; [split; [exact A|apply Pv]|auto].
Qed.

Lemma prin_inv fam d rev X : wfd fam d X -> prin_data (negb rev) d (prin_data rev d X) = X.
Proof.
  intros W. unfold prin_data. destruct (principal_heading d) as [ph|]; [|reflexivity].
  eapply iter_data_inv with (P := okvar fam (List.length (orientmat d))).
  - apply (wfd_keys _ _ _ W).
  - intros v Pv. split.
    + split; [|apply Pv]. apply map_cells_shaped; [|apply Pv]. intros x. apply rot2_vec.
    + eapply map_cells_inv; [|apply Pv]. intros x _. rewrite pang_neg. apply rot2_inv.
  - apply (wfd_vars _ _ _ W).
Qed.

Lemma move_wfd fam d low rev X : statics fam d -> wfd fam d X -> wfd fam d (move fam low rev d X).
Proof.
  intros S W. destruct low as [|[|low]]; simpl.
  - destruct fam; try (apply beam_wfd; assumption).
    destruct rev; [apply beam_wfd|apply head_wfd]; try assumption; [apply head_wfd|apply beam_wfd]; assumption.
  - apply earth_wfd; assumption.
  - apply prin_wfd; assumption.
Qed.

Lemma move_inv fam d low rev X : statics fam d -> wfd fam d X ->
  move fam low (negb rev) d (move fam low rev d X) = X.
Proof.
  intros S W. destruct low as [|[|low]]; unfold move.
  - destruct fam; try (eapply (beam_inv _ d rev); eassumption).
    destruct rev; cbn [negb].
    + rewrite (beam_inv Vector d true) by (try apply head_wfd; assumption).
      apply (head_inv Vector d true); assumption.
    + rewrite (head_inv Vector d false) by (try apply beam_wfd; assumption).
      apply (beam_inv Vector d false); assumption.
  - apply earth_inv; assumption.
  - apply (prin_inv fam); assumption.
Qed.

(** ** one step of rotate2 on an admissible dataset *)
Definition fname (i : nat) : string := nth i frames ""%string.
Definition relabel (fam : family) (f : string) (d : ds) : ds :=
  set_cs d f (axis_labels fam f (beam_labels d)) (option_map (fun _ => imu_labels f) (dirIMU d)).

Lemma axis_labels_length fam f b : List.length b = ndir fam -> List.length (axis_labels fam f b) = ndir fam.
Proof.
  intros H. unfold axis_labels. destruct (String.eqb f "beam"); [exact H|].
  destruct (String.eqb f "inst"); [destruct fam; reflexivity|].
  destruct (String.eqb f "earth"); destruct fam; reflexivity.
Qed.

Lemma labels_ok fam mk f b : standard_make fam mk -> In f frames ->
  labels mk f b = Some (axis_labels fam f b).
Proof.
  intros [_ H] Hf. unfold labels, is_rdi, four_labels.
  destruct fam.
  1,2: destruct H as (-> & -> & -> & -> & ->); cbn [orb].
  3: destruct H as (-> & -> & [->| ->]); rewrite ?orb_true_r; cbn [orb].
  5: rewrite H.
  all: repeat (destruct Hf as [<-|Hf]; [reflexivity|]); destruct Hf.
Qed.

Lemma labelsIMU_ok f : In f frames -> labelsIMU f = Some (imu_labels f).
Proof. intros Hf. repeat (destruct Hf as [<-|Hf]; [reflexivity|]); destruct Hf. Qed.

Lemma imu_length f : List.length (imu_labels f) = 3%nat.
Proof. unfold imu_labels. destruct (String.eqb f "earth"), (String.eqb f "principal"); reflexivity. Qed.

Lemma set_coords_ok fam d f : standard_make fam (make_model d) -> In f frames ->
  List.length (beam_labels d) = ndir fam -> List.length (dir d) = ndir fam ->
  (dirIMU d = None \/ exists l, dirIMU d = Some l /\ List.length l = 3%nat) ->
  set_coords d f = Ok (relabel fam f d).
Proof.
  intros M F B D I. unfold set_coords. rewrite (labels_ok fam) by assumption.
  rewrite axis_labels_length, D, Nat.eqb_refl by exact B. unfold relabel.
  destruct I as [->|(l & -> & L)]; [reflexivity|].
  rewrite labelsIMU_ok by exact F. rewrite imu_length, L. reflexivity.
Qed.

Lemma adm_set_coords fam d X f : admissible fam d -> In f frames ->
  set_coords (set_data d X) f = Ok (relabel fam f (set_data d X)).
Proof.
  intros A Hf. apply adm_split in A. destruct A as (S & _ & D & I & _).
  apply set_coords_ok; simpl.
  - apply S.
  - exact Hf.
  - apply S.
  - rewrite D. apply axis_labels_length. apply S.
  - destruct I as [->| ->]; [left; reflexivity|right; eexists; split; [reflexivity|apply imu_length]].
Qed.

Lemma adm_relabel fam d X f : admissible fam d -> In f frames -> wfd fam d X ->
  admissible fam (relabel fam f (set_data d X)).
Proof.
  intros A Hf W. apply adm_split in A. destruct A as (S & _ & D & I & _). apply adm_split.
  split; [destruct S; constructor; assumption|]. split; [exact Hf|]. split; [reflexivity|].
  split; [simpl; destruct I as [->| ->]; [left|right]; reflexivity|].
  destruct W; constructor; assumption.
Qed.

Lemma proper_check M : proper_rotation M -> check_rotmat_det M = true.
Proof.
  intros [O D]. unfold check_rotmat_det. rewrite det_det3 by apply O. rewrite D.
  destruct (Rlt_dec _ _) as [|N]; [reflexivity|]. exfalso. apply N.
  replace (1 - 1) with 0 by ring. rewrite Rabs_R0. lra.
Qed.

Lemma check_i2h_ok fam d : statics fam d ->
  check_inst2head d = inr (match inst2head d with Some _ => true | None => false end).
Proof.
  intros S. unfold check_inst2head. destruct (inst2head d) as [M|] eqn:E; [|reflexivity].
  destruct (st_i2h _ _ S M E) as [-> P]. rewrite proper_check by exact P. reflexivity.
Qed.

Lemma rot_i2h_ok fam d rev : statics fam d -> wfd fam d (data d) ->
  rotate_inst2head rev d = Ok (set_data d (head_data rev d (data d))).
Proof.
  intros S W. unfold rotate_inst2head. rewrite (check_i2h_ok fam) by exact S.
  unfold head_data. destruct (inst2head d) as [M|] eqn:E; [|destruct d; reflexivity].
  destruct (st_i2h _ _ S M E) as [_ [O _]].
  apply over_vars_ok with (P := okvel (List.length (orientmat d))).
  - intros v Pv. rewrite (proj2 Pv). split; [reflexivity|]. apply headF_inv; assumption.
  - apply W.
  - intros nm [<-|[]]. apply (wfd_vel _ _ _ W). congruence.
Qed.

Lemma select_sel n rv X : (forall nm, In nm rv -> exists v, lookup nm X = Some v) ->
  select n rv X = Some (sel n rv X).
Proof.
  induction rv as [|nm rv IH]; intros H; [reflexivity|]. simpl.
  destruct (H nm (or_introl eq_refl)) as (v & Hv). rewrite Hv.
  rewrite IH by (intros; apply H; right; assumption).
  destruct (Nat.eqb (ncomp v) n); reflexivity.
Qed.

Lemma singular_false n M : det n M <> 0 -> singular n M = false.
Proof. intros H. unfold singular. destruct (Req_EM_T (det n M) 0); [contradiction|reflexivity]. Qed.

Lemma base_ok fam d rev : admissible fam d -> coord_sys d = (if rev : bool then "inst" else "beam")%string ->
  base_beam2inst rev d =
  Ok (relabel fam (if rev then "beam" else "inst")%string (set_data d (beam_data rev d (data d)))).
Proof.
  intros A C. pose proof A as A'. apply adm_split in A'. destruct A' as (S & _ & _ & _ & W).
  unfold base_beam2inst. rewrite C.
  destruct (st_b2i _ _ S) as (n & Hn & HM & HD). pose proof (proj1 HM) as L.
  rewrite select_sel.
  2: { intros nm Hi. destruct (wfd_vars _ _ _ W nm Hi) as (v & Hv & _). eauto. }
  rewrite (singular_false _ (beam2inst d)) by (rewrite L; exact HD).
  assert (OV : over_vars (sel (List.length (beam2inst d)) (rotate_vars d) (data d))
    (fun v => inr (map_cells (mv (Bmat rev d)) v)) d = Ok (set_data d (beam_data rev d (data d)))).
  { apply over_vars_ok with (P := selvar d).
    - intros v Pv. split; [reflexivity|]. apply (beamF_ok fam d rev v S Pv).
    - apply W.
    - apply (sel_named fam). exact W. }
  unfold Bmat in OV. destruct rev; simpl negb; cbn [andb]; rewrite OV; cbn [bind];
    apply adm_set_coords; try exact A; simpl; tauto.
Qed.

Lemma earth_step_ok fam d rev : admissible fam d -> coord_sys d = (if rev : bool then "earth" else "inst")%string ->
  (match fam with Vector | Awac => vec_inst2earth | Signature => sig_inst2earth | Rdi => rdi_inst2earth end) rev d =
  Ok (relabel fam (if rev then "inst" else "earth")%string (set_data d (earth_data fam rev d (data d)))).
Proof.
  intros A C. pose proof A as A'. apply adm_split in A'. destruct A' as (S & _ & _ & _ & W).
  assert (OV : forall f, (forall v, okvar fam (List.length (orientmat d)) v -> f v = inr (earthF fam rev d v)) ->
     over_vars (rotate_vars d) f d = Ok (set_data d (earth_data fam rev d (data d)))).
  { intros f Hf. apply over_vars_ok with (P := okvar fam (List.length (orientmat d))).
    - intros v Pv. split; [apply Hf; exact Pv|].
      destruct (earthF_ok fam d rev v S Pv) as [[P1 P2] _]. eapply okvar_shape; eassumption.
    - apply W.
    - apply (wfd_vars _ _ _ W). }
  assert (SC : set_coords (set_data d (earth_data fam rev d (data d))) (if rev then "inst" else "earth")%string
     = Ok (relabel fam (if rev then "inst" else "earth")%string (set_data d (earth_data fam rev d (data d))))).
  { apply adm_set_coords; [exact A|]. destruct rev; simpl; tauto. }
  assert (VEC : (fam = Vector \/ fam = Awac) -> vec_inst2earth rev d = Ok (relabel fam (if rev then "inst" else "earth")%string (set_data d (earth_data fam rev d (data d))))).
  { intros Hfam. unfold vec_inst2earth. rewrite C.
    replace (negb (String.eqb (lower (if rev then "earth" else "inst")) (if rev then "earth" else "inst")))
      with false by (destruct rev; reflexivity).
    rewrite OV; [exact SC|]. intros v [Sv Rv].
    assert (N : ncomp v = 3%nat) by (destruct Hfam as [-> | ->]; exact Rv). rewrite N. cbn [Nat.eqb].
    transitivity (inr err (zip_var (vec_fs rev (orientmat d)) v)).
    - apply map_time_ok. unfold vec_fs, rdi_fs. rewrite map_length. exact Sv.
    - destruct Hfam as [-> | ->]; reflexivity. }
  destruct fam; [apply VEC; tauto|apply VEC; tauto| |].
  - clear VEC. unfold sig_inst2earth. rewrite C.
    replace (negb (String.eqb (lower (if rev then "earth" else "inst")) (if rev then "earth" else "inst")))
      with false by (destruct rev; reflexivity).
    assert (SG : existsb (fun r => singular 4 (rmat4 r)) (map (tr 3) (orientmat d)) = false).
    { pose proof (st_omat _ _ S) as H1. pose proof (st_sig _ _ S eq_refl) as H2.
      clear - H1 H2. induction H1 as [|O l Ho Hl IH]; [reflexivity|]. inversion H2; subst.
      cbn [map existsb]. rewrite singular_false by (apply rmat4_nonsing; assumption). apply IH; assumption. }
    rewrite SG, andb_false_r. rewrite OV; [exact SC|]. intros v [Sv Rv]. unfold earthF.
    destruct Rv as [N|N]; rewrite N; cbn [Nat.eqb].
    + apply map_time_ok. unfold sig_f3, sig_f4. rewrite !map_length. exact Sv.
    + apply map_time_ok. unfold sig_f3, sig_f4. rewrite !map_length. exact Sv.
  - clear VEC. unfold rdi_inst2earth. rewrite C.
    replace (negb (if rev then String.eqb (lower (if rev then "earth" else "inst")) "earth"
       else String.eqb (lower (if rev then "earth" else "inst")) "inst"
         || String.eqb (lower (if rev then "earth" else "inst")) "ship"))
      with false by (destruct rev; reflexivity).
    rewrite OV; [exact SC|]. intros v [Sv Rv]. rewrite (proj2 (Nat.leb_le _ _) Rv).
    apply map_time_ok. unfold vec_fs, rdi_fs. rewrite map_length. exact Sv.
Qed.

Lemma prin_step_ok fam d rev : admissible fam d -> coord_sys d = (if rev : bool then "principal" else "earth")%string ->
  principal_heading d <> None ->
  earth2principal rev d =
  Ok (relabel fam (if rev then "earth" else "principal")%string (set_data d (prin_data rev d (data d)))).
Proof.
  intros A C H. pose proof A as A'. apply adm_split in A'. destruct A' as (S & _ & _ & _ & W).
  unfold earth2principal, prin_data. destruct (principal_heading d) as [ph|]; [|congruence].
  rewrite C.
  replace (negb (String.eqb (lower (if rev then "principal" else "earth")) (if rev then "principal" else "earth")))
      with false by (destruct rev; reflexivity).
  rewrite (over_vars_ok _ _ (map_cells (rot2 (pang rev ph))) (okvar fam (List.length (orientmat d)))).
  - cbn [bind]. apply adm_set_coords; [exact A|]. destruct rev; simpl; tauto.
  - intros v Pv. rewrite (proj2 (Nat.leb_le _ _) (rotatable_2 _ _ (proj2 Pv))). split; [reflexivity|].
    split; [|apply Pv]. apply map_cells_shaped; [|apply Pv]. intros x. apply rot2_vec.
  - apply W.
  - apply (wfd_vars _ _ _ W).
Qed.

Lemma one_step_ok fam d low rev : admissible fam d -> (low < 3)%nat ->
  coord_sys d = fname (if rev : bool then S low else low) ->
  (low = 2%nat -> principal_heading d <> None) ->
  one_step fam rev d =
  Ok (relabel fam (fname (if rev then low else S low)) (set_data d (move fam low rev d (data d)))).
Proof.
  intros A Hl C HP. unfold one_step. rewrite C.
  destruct low as [|[|[|low]]]; [| | |lia].
  - transitivity ((match fam with Vector => vec_beam2inst | _ => base_beam2inst end) rev d).
    { destruct rev; reflexivity. }
    assert (B := base_ok fam d rev A ltac:(destruct rev; exact C)).
    destruct fam; try (rewrite B; destruct rev; reflexivity).
    clear B. pose proof A as A'. apply adm_split in A'. destruct A' as (S & _ & _ & _ & W).
    unfold vec_beam2inst. destruct rev.
    + rewrite (rot_i2h_ok Vector) by assumption. cbn [bind].
      rewrite (base_ok Vector); [reflexivity| |exact C].
      assert (E : set_data d (head_data true d (data d)) =
                  relabel Vector (coord_sys d) (set_data d (head_data true d (data d)))).
      { unfold relabel. simpl. rewrite <- (adm_dir _ _ A).
        destruct (adm_imu _ _ A) as [I|I]; rewrite I; simpl; rewrite <- I; reflexivity. }
      rewrite E. apply adm_relabel; [exact A|apply A|apply head_wfd; assumption].
    + rewrite (base_ok Vector) by (exact A || exact C). cbn [bind].
      rewrite (rot_i2h_ok Vector).
      * reflexivity.
      * destruct S; constructor; assumption.
      * pose proof (beam_wfd Vector d false _ S W) as W'. destruct W'; constructor; assumption.
  - transitivity ((match fam with Vector | Awac => vec_inst2earth | Signature => sig_inst2earth | Rdi => rdi_inst2earth end) rev d).
    { destruct rev; reflexivity. }
    rewrite (earth_step_ok fam d rev A ltac:(destruct rev; exact C)). destruct rev; reflexivity.
  - transitivity (earth2principal rev d).
    { destruct rev; reflexivity. }
    rewrite (prin_step_ok fam d rev A ltac:(destruct rev; exact C) (HP eq_refl)).
    destruct rev; reflexivity.
Qed.

(** ** the chain *)
Fixpoint U (fam : family) (d : ds) (j : nat) X :=
  match j with O => X | S j' => move fam j' false d (U fam d j' X) end.
Fixpoint D (fam : family) (d : ds) (j : nat) X :=
  match j with O => X | S j' => D fam d j' (move fam j' true d X) end.

Lemma U_wfd fam d j X : statics fam d -> wfd fam d X -> wfd fam d (U fam d j X).
Proof. intros S W. induction j; simpl; [exact W|apply move_wfd; assumption]. Qed.
Lemma D_wfd fam d j X : statics fam d -> wfd fam d X -> wfd fam d (D fam d j X).
Proof.
  intros S. revert X. induction j; intros X W; simpl; [exact W|]. apply IHj, move_wfd; assumption.
Qed.
Lemma D_U fam d j X : statics fam d -> wfd fam d X -> D fam d j (U fam d j X) = X.
Proof.
  intros S W. induction j; simpl; [reflexivity|].
  rewrite (move_inv fam d j false) by (try apply U_wfd; assumption). exact IHj.
Qed.
Lemma U_D fam d j X : statics fam d -> wfd fam d X -> U fam d j (D fam d j X) = X.
Proof.
  intros S. revert X. induction j; intros X W; simpl; [reflexivity|].
  rewrite IHj by (apply move_wfd; assumption).
  apply (move_inv fam d j true); assumption.
Qed.

Lemma lower_fname i : (i < 4)%nat -> lower (fname i) = fname i.
Proof. destruct i as [|[|[|[|i]]]]; intros; try reflexivity; lia. Qed.
Lemma fname_in i : (i < 4)%nat -> In (fname i) frames.
Proof. intros. apply nth_In. exact H. Qed.
Lemma fname_inj i j : (i < 4)%nat -> (j < 4)%nat -> fname i = fname j -> i = j.
Proof.
  intros Hi Hj. do 4 (destruct i as [|i]; [do 4 (destruct j as [|j]; [intros E; (reflexivity || discriminate E)|]); lia|]). lia.
Qed.
Lemma fname_eqb i j : (i < 4)%nat -> (j < 4)%nat -> String.eqb (fname i) (fname j) = Nat.eqb i j.
Proof.
  intros Hi Hj. destruct (Nat.eqb_spec i j) as [->|N]; [apply String.eqb_refl|].
  apply String.eqb_neq. intros E. apply N. apply fname_inj; assumption.
Qed.
Lemma frames_fname f : In f frames -> exists i, (i < 4)%nat /\ f = fname i.
Proof. intros H. apply (In_nth _ _ ""%string) in H. destruct H as (i & Hi & E). exists i. split; [exact Hi|symmetry; exact E]. Qed.
Lemma rc_fname i : (i < 4)%nat -> rc_index (fname i) = Some i.
Proof. destruct i as [|[|[|[|i]]]]; intros; try reflexivity; lia. Qed.
Lemma rc_some s i : rc_index s = Some i -> (i < 4)%nat /\ s = fname i.
Proof.
  unfold rc_index.
  destruct (String.eqb_spec s "beam"); [intros [= <-]; split; [lia|assumption]|].
  destruct (String.eqb_spec s "inst"); [intros [= <-]; split; [lia|assumption]|].
  destruct (String.eqb_spec s "earth"); [intros [= <-]; split; [lia|assumption]|].
  destruct (String.eqb_spec s "principal"); [intros [= <-]; split; [lia|assumption]|discriminate].
Qed.

Lemma adm_self fam d : admissible fam d -> relabel fam (coord_sys d) (set_data d (data d)) = d.
Proof.
  intros A. pose proof (adm_dir _ _ A) as E1. pose proof (adm_imu _ _ A) as E2.
  unfold relabel, set_cs, set_data. simpl. rewrite <- E1.
  assert (E3 : option_map (fun _ => imu_labels (coord_sys d)) (dirIMU d) = dirIMU d)
    by (destruct E2 as [->| ->]; reflexivity).
  rewrite E3. destruct d; reflexivity.
Qed.

Lemma U_relabel fam f d X j Z : U fam (relabel fam f (set_data d X)) j Z = U fam d j Z.
Proof. induction j; simpl; [reflexivity|rewrite IHj; reflexivity]. Qed.
Lemma D_relabel fam f d X j Z : D fam (relabel fam f (set_data d X)) j Z = D fam d j Z.
Proof. revert Z; induction j; intros Z; simpl; [reflexivity|]. rewrite IHj. reflexivity. Qed.
Lemma relabel_relabel fam f g d X Y :
  relabel fam f (set_data (relabel fam g (set_data d X)) Y) = relabel fam f (set_data d Y).
Proof. unfold relabel, set_cs, set_data. simpl. destruct (dirIMU d); reflexivity. Qed.

Lemma loop_up fam Z : forall fuel d i j,
  admissible fam d -> coord_sys d = fname i -> data d = U fam d i Z -> wfd fam d Z ->
  (i <= j)%nat -> (j < 4)%nat -> (j - i <= fuel)%nat -> (j = 3%nat -> i <> 3%nat -> principal_heading d <> None) ->
  rot_loop fuel fam false (fname j) d = Ok (relabel fam (fname j) (set_data d (U fam d j Z))).
Proof.
  induction fuel as [|fuel IH]; intros d i j A C E W Hij Hj Hf HP; cbn [rot_loop];
    rewrite C, lower_fname, fname_eqb by lia.
  - replace j with i by lia. rewrite Nat.eqb_refl. rewrite <- E, <- C. rewrite adm_self by exact A. reflexivity.
  - destruct (Nat.eqb_spec i j) as [->|N].
    + rewrite <- E, <- C. rewrite adm_self by exact A. reflexivity.
    + assert (St : statics fam d) by (apply adm_split in A; apply A).
      assert (WD : wfd fam d (data d)) by (apply adm_split in A; apply A).
      rewrite (one_step_ok fam d i false) by (try assumption; try lia; intros; apply HP; lia).
      cbn [bind]. rewrite (IH _ (S i) j).
      * rewrite relabel_relabel, U_relabel. reflexivity.
      * apply adm_relabel; [exact A|apply fname_in; lia|apply move_wfd; assumption].
      * reflexivity.
      * rewrite U_relabel. simpl. rewrite E. reflexivity.
      * destruct W; constructor; assumption.
      * lia.
      * exact Hj.
      * lia.
      * intros. apply HP; lia.
Qed.

Lemma loop_down fam Z : forall fuel d i j,
  admissible fam d -> coord_sys d = fname i -> data d = U fam d i Z -> wfd fam d Z ->
  (j <= i)%nat -> (i < 4)%nat -> (i - j <= fuel)%nat -> (i = 3%nat -> j <> 3%nat -> principal_heading d <> None) ->
  rot_loop fuel fam true (fname j) d = Ok (relabel fam (fname j) (set_data d (U fam d j Z))).
Proof.
  induction fuel as [|fuel IH]; intros d i j A C E W Hij Hj Hf HP; cbn [rot_loop];
    rewrite C, lower_fname, fname_eqb by lia.
  - replace j with i by lia. rewrite Nat.eqb_refl. rewrite <- E, <- C. rewrite adm_self by exact A. reflexivity.
  - destruct (Nat.eqb_spec i j) as [->|N].
    + rewrite <- E, <- C. rewrite adm_self by exact A. reflexivity.
    + assert (St : statics fam d) by (apply adm_split in A; apply A).
      assert (WD : wfd fam d (data d)) by (apply adm_split in A; apply A).
      destruct i as [|i]; [lia|].
      rewrite (one_step_ok fam d i true) by (try assumption; try lia; intros; apply HP; lia).
      cbn [bind]. rewrite (IH _ i j).
      * rewrite relabel_relabel, U_relabel. reflexivity.
      * apply adm_relabel; [exact A|apply fname_in; lia|apply move_wfd; assumption].
      * reflexivity.
      * rewrite U_relabel. simpl. rewrite E. simpl. apply (move_inv fam d i false); [exact St|apply U_wfd; assumption].
      * destruct W; constructor; assumption.
      * lia.
      * lia.
      * lia.
      * intros. apply HP; lia.
Qed.

(** What rotate2 does to an admissible dataset. *)
Definition goto (fam : family) (i j : nat) (d : ds) : ds :=
  relabel fam (fname j) (set_data d (U fam d j (D fam d i (data d)))).

(** crossing the principal frame needs a principal heading *)
Definition crossing_ok (d : ds) (i j : nat) : Prop :=
  (i = 3%nat \/ j = 3%nat) -> i <> j -> principal_heading d <> None.

Lemma not_ship i : (i < 4)%nat -> String.eqb (fname i) "ship" = false.
Proof. destruct i as [|[|[|[|i]]]]; intros; try reflexivity; lia. Qed.

Lemma rotate2_unfold fam d i out : admissible fam d -> coord_sys d = fname i -> (i < 4)%nat ->
  rotate2 d out = match rc_index (lower out) with
                  | None => Err BadOutputFrame d
                  | Some j => rot_loop 4 fam (negb (Nat.ltb i j)) (lower out) d
                  end.
Proof.
  intros A C Hi. unfold rotate2. pose proof A as A'. apply adm_split in A'. destruct A' as (S & _).
  rewrite (check_i2h_ok fam) by exact S. rewrite (proj1 (st_make _ _ S)).
  rewrite C, lower_fname, not_ship, rc_fname by exact Hi. reflexivity.
Qed.

Lemma rotate2_ok fam d i j out : admissible fam d -> coord_sys d = fname i -> (i < 4)%nat ->
  lower out = fname j -> (j < 4)%nat -> crossing_ok d i j ->
  rotate2 d out = Ok (goto fam i j d).
Proof.
  intros A C Hi Ho Hj HC. rewrite (rotate2_unfold fam d i out A C Hi), Ho, rc_fname by exact Hj.
  pose proof A as A'. apply adm_split in A'. destruct A' as (S & _ & _ & _ & W).
  assert (E : data d = U fam d i (D fam d i (data d))) by (symmetry; apply U_D; assumption).
  assert (WD : wfd fam d (D fam d i (data d))) by (apply D_wfd; assumption).
  destruct (Nat.ltb_spec i j); cbn [negb].
  - apply loop_up with (i := i); try assumption; try lia. intros. apply HC; lia.
  - apply loop_down with (i := i); try assumption; try lia. intros. apply HC; lia.
Qed.

Lemma goto_adm fam d i j : admissible fam d -> (j < 4)%nat -> admissible fam (goto fam i j d).
Proof.
  intros A Hj. pose proof A as A'. apply adm_split in A'. destruct A' as (S & _ & _ & _ & W).
  apply adm_relabel; [exact A|apply fname_in; exact Hj|]. apply U_wfd; [exact S|apply D_wfd; assumption].
Qed.

Lemma goto_goto fam d i j k : admissible fam d -> (j < 4)%nat ->
  goto fam j k (goto fam i j d) = goto fam i k d.
Proof.
  intros A Hj. pose proof A as A'. apply adm_split in A'. destruct A' as (S & _ & _ & I & W).
  unfold goto at 1 3.
  change (data (goto fam i j d)) with (U fam d j (D fam d i (data d))).
  unfold goto at 1 2 3. rewrite relabel_relabel, U_relabel, D_relabel.
  rewrite D_U by (try apply D_wfd; assumption). reflexivity.
Qed.

Lemma goto_self fam d i : admissible fam d -> coord_sys d = fname i -> goto fam i i d = d.
Proof.
  intros A C. pose proof A as A'. apply adm_split in A'. destruct A' as (S & _ & _ & _ & W).
  unfold goto. rewrite U_D by assumption. rewrite <- C. apply adm_self. exact A.
Qed.

(** failures: without a principal heading the principal frame cannot be entered or left *)
Lemma prin_err rev d : principal_heading d = None -> earth2principal rev d = Err NoSuchAttribute d.
Proof. intros H. unfold earth2principal. rewrite H. reflexivity. Qed.

Lemma loop_up_err fam : forall fuel d i, admissible fam d -> coord_sys d = fname i -> (i < 3)%nat ->
  principal_heading d = None -> forall d', rot_loop fuel fam false (fname 3) d <> Ok d'.
Proof.
  induction fuel as [|fuel IH]; intros d i A C Hi HP d'; cbn [rot_loop];
    rewrite C, lower_fname, fname_eqb by lia; destruct (Nat.eqb_spec i 3); try lia; [discriminate|].
  assert (St : statics fam d) by (apply adm_split in A; apply A).
  assert (WD : wfd fam d (data d)) by (apply adm_split in A; apply A).
  destruct (Nat.eq_dec i 2) as [->|N].
  - unfold one_step. rewrite C. cbn. rewrite prin_err by exact HP. discriminate.
  - rewrite (one_step_ok fam d i false) by (try assumption; lia). cbn [bind].
    apply (IH _ (S i)).
    + apply adm_relabel; [exact A|apply fname_in; lia|apply move_wfd; assumption].
    + reflexivity.
    + lia.
    + exact HP.
Qed.

Lemma rotate2_inv fam d i out d' : admissible fam d -> coord_sys d = fname i -> (i < 4)%nat ->
  rotate2 d out = Ok d' ->
  exists j, (j < 4)%nat /\ lower out = fname j /\ crossing_ok d i j /\ d' = goto fam i j d.
Proof.
  intros A C Hi H. pose proof H as H0. rewrite (rotate2_unfold fam d i out A C Hi) in H.
  destruct (rc_index (lower out)) as [j|] eqn:R; [|discriminate].
  apply rc_some in R. destruct R as [Hj Ho]. exists j. split; [exact Hj|]. split; [exact Ho|].
  assert (HC : crossing_ok d i j).
  { intros H3 Hn HP. rewrite Ho in H. destruct (Nat.ltb_spec i j) as [Hl|Hl]; cbn [negb] in H.
    - assert (j = 3%nat) by lia. subst j. revert H. eapply loop_up_err; eassumption || lia.
    - assert (i = 3%nat) by lia. subst i. cbn [rot_loop] in H.
      rewrite C, lower_fname, fname_eqb in H by lia. destruct (Nat.eqb_spec 3 j); [lia|].
      unfold one_step in H. rewrite C in H. cbn in H. rewrite prin_err in H by exact HP. discriminate. }
  split; [exact HC|]. rewrite (rotate2_ok fam d i j out) in H0 by assumption. congruence.
Qed.

Lemma adm_index fam d : admissible fam d -> exists i, (i < 4)%nat /\ coord_sys d = fname i.
Proof. intros A. destruct (frames_fname _ (adm_frame _ _ A)) as (i & Hi & E). eauto. Qed.

(** C01 *)
Lemma round_trip fam d out d' : admissible fam d -> rotate2 d out = Ok d' ->
  admissible fam d' /\ rotate2 d' (coord_sys d) = Ok d.
Proof.
  intros A H. destruct (adm_index _ _ A) as (i & Hi & C).
  destruct (rotate2_inv fam d i out d' A C Hi H) as (j & Hj & Ho & HC & ->).
  split; [apply goto_adm; assumption|].
  rewrite (rotate2_ok fam _ j i); [|apply goto_adm; assumption|reflexivity|exact Hj| |exact Hi|].
  - rewrite goto_goto by assumption. rewrite (goto_self fam d i A C). reflexivity.
  - rewrite C. apply lower_fname. exact Hi.
  - intros H3 Hn. apply HC; [tauto|congruence].
Qed.

(** C02 *)
Lemma route fam d b d1 c d2 : admissible fam d -> rotate2 d b = Ok d1 -> rotate2 d1 c = Ok d2 ->
  rotate2 d c = Ok d2.
Proof.
  intros A H1 H2. destruct (adm_index _ _ A) as (i & Hi & C).
  destruct (rotate2_inv fam d i b d1 A C Hi H1) as (j & Hj & Hb & HC & ->).
  assert (A1 : admissible fam (goto fam i j d)) by (apply goto_adm; assumption).
  destruct (rotate2_inv fam _ j c d2 A1 eq_refl Hj H2) as (k & Hk & Hc & HC2 & ->).
  rewrite goto_goto by assumption. apply rotate2_ok; try assumption.
  intros H3 Hn. destruct (Nat.eq_dec i j) as [->|N].
  - apply HC2; assumption.
  - destruct (Nat.eq_dec j k) as [->|N2]; [apply HC; assumption|].
    destruct H3 as [H3|H3]; [apply HC; [tauto|exact N]|apply HC2; [tauto|exact N2]].
Qed.

(** reachability *)
Lemma reaches fam d out : admissible fam d -> frame_ok d (coord_sys d) -> frame_ok d (lower out) ->
  exists d', rotate2 d out = Ok d' /\ coord_sys d' = lower out.
Proof.
  intros A [_ F1] [I2 F2]. destruct (adm_index _ _ A) as (i & Hi & C).
  destruct (frames_fname _ I2) as (j & Hj & E).
  exists (goto fam i j d). split; [|symmetry; exact E].
  apply rotate2_ok; try assumption. intros [->| ->] _; [apply F1|apply F2]; assumption.
Qed.
