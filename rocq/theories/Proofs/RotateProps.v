From Coq Require Import Reals List Bool String Lia Lra.
From Verif.Model Require Import Linalg Rotate.
From Verif.Spec Require Import Linalg Rotate.
From Verif.Proofs Require Import Linalg Rotate.
Import ListNotations.
Open Scope R_scope.

(** ** relations kept along the chain *)
Lemma chain_rel fam d lo (RR : list (string * var) -> list (string * var) -> Prop) :
  statics fam d -> (forall X, RR X X) -> (forall X Y Z, RR X Y -> RR Y Z -> RR X Z) ->
  (forall low rev X, (lo <= low < 3)%nat -> wfd fam d X -> RR X (move fam low rev d X)) ->
  forall i j X, (lo <= i < 4)%nat -> (lo <= j < 4)%nat -> wfd fam d X -> RR X (U fam d j (D fam d i X)).
Proof.
  intros S Rf Tr Mv.
  assert (Up : forall n i X, (lo <= i)%nat -> (i + n < 4)%nat -> wfd fam d X -> RR X (U fam d (n + i) (D fam d i X))).
  { induction n as [|n IH]; intros i X Hi Hn W; cbn [Nat.add].
    - rewrite U_D by assumption. apply Rf.
    - cbn [U]. eapply Tr; [apply IH; [exact Hi|lia|exact W]|]. apply Mv; [lia|].
      apply U_wfd; [exact S|apply D_wfd; assumption]. }
  assert (Dn : forall n j X, (lo <= j)%nat -> (j + n < 4)%nat -> wfd fam d X -> RR X (U fam d j (D fam d (n + j) X))).
  { induction n as [|n IH]; intros j X Hi Hn W; cbn [Nat.add].
    - rewrite U_D by assumption. apply Rf.
    - cbn [D]. eapply Tr; [|apply IH; [exact Hi|lia|apply move_wfd; assumption]]. apply Mv; [lia|exact W]. }
  intros i j X Hi Hj W. destruct (Nat.le_gt_cases i j).
  - replace j with ((j - i) + i)%nat by lia. apply Up; try lia. exact W.
  - replace (D fam d i X) with (D fam d ((i - j) + j) X) by (f_equal; lia). apply Dn; try lia. exact W.
Qed.

Section Pointwise.
Variable Rel : vec -> vec -> Prop.
Hypothesis Rel_refl : forall x, Rel x x.
Hypothesis Rel_trans : forall x y z, Rel x y -> Rel y z -> Rel x z.

Definition crel := Forall2 (Forall2 Rel).
Definition vrel (v w : var) : Prop := ncomp w = ncomp v /\ crel (cells v) (cells w).

Lemma F2_refl {A} (Q : A -> A -> Prop) l : (forall x, Q x x) -> Forall2 Q l l.
Proof. intros H; induction l; constructor; auto. Qed.
Lemma F2_trans {A} (Q : A -> A -> Prop) : (forall x y z, Q x y -> Q y z -> Q x z) ->
  forall a b c, Forall2 Q a b -> Forall2 Q b c -> Forall2 Q a c.
Proof.
  intros H a b c H1. revert c. induction H1; intros c H2; inversion H2; subst; constructor; eauto.
Qed.

Lemma vrel_refl v : vrel v v.
Proof. split; [reflexivity|]. apply F2_refl. intros. apply F2_refl. exact Rel_refl. Qed.
Lemma vrel_trans u v w : vrel u v -> vrel v w -> vrel u w.
Proof.
  intros [N1 H1] [N2 H2]. split; [congruence|]. eapply F2_trans; [|exact H1|exact H2].
  apply F2_trans. exact Rel_trans.
Qed.

Lemma vrel_map n f v : (forall x, is_vec (ncomp v) x -> Rel x (f x)) -> shaped n v ->
  vrel v (map_cells f v).
Proof.
  intros H [_ F]. split; [reflexivity|]. simpl. unfold crel. induction F as [|row c Hr F IH]; constructor; [|exact IH].
  induction Hr; constructor; auto.
Qed.

Lemma vrel_zip fs v : Forall (fun f => forall x, is_vec (ncomp v) x -> Rel x (f x)) fs ->
  shaped (List.length fs) v -> vrel v (zip_var fs v).
Proof.
  intros H [L F]. split; [reflexivity|]. simpl. unfold crel. destruct v as [n c]. simpl in *.
  revert c L F. induction H as [|f fs Hf H IH]; intros [|row c] L F; simpl in *; try lia; [constructor|].
  inversion F as [|? ? Hr Fc]; subst. constructor; [|apply IH; [lia|exact Fc]].
  clear - Hr Hf. induction Hr; constructor; auto.
Qed.

(** [nm] is related in the two data lists if its number of components satisfies [E] *)
Definition drel (E : nat -> Prop) (nm : string) (X Y : list (string * var)) : Prop :=
  forall v, lookup nm X = Some v -> E (ncomp v) -> exists w, lookup nm Y = Some w /\ vrel v w.

Lemma drel_refl E nm X : drel E nm X X.
Proof. intros v H _. exists v. split; [exact H|apply vrel_refl]. Qed.
Lemma drel_trans E nm X Y Z : drel E nm X Y -> drel E nm Y Z -> drel E nm X Z.
Proof.
  intros H1 H2 v Hv Ev. destruct (H1 v Hv Ev) as (w & Hw & R1).
  destruct (H2 w Hw) as (u & Hu & R2); [rewrite (proj1 R1); exact Ev|].
  exists u. split; [exact Hu|eapply vrel_trans; eassumption].
Qed.

Lemma drel_iter (E : nat -> Prop) nm names F (P : var -> Prop) X :
  (forall v, In nm names -> lookup nm X = Some v -> P v) ->
  (forall v, P v -> E (ncomp v) -> P (F v) /\ vrel v (F v)) ->
  drel E nm X (iter_data names F X).
Proof.
  intros HP HF v Hv Ev. rewrite lookup_iter, Hv. simpl. eexists; split; [reflexivity|].
  destruct (in_dec string_dec nm names) as [I|I].
  - assert (K : forall k, P (Nat.iter k F v) /\ vrel v (Nat.iter k F v)); [|apply K].
    induction k as [|k [A B]]; simpl; [split; [apply HP; assumption|apply vrel_refl]|].
    destruct (HF _ A) as [C D']; [rewrite (proj1 B); exact Ev|].
    split; [exact C|eapply vrel_trans; eassumption].
  - rewrite count_notin by exact I. apply vrel_refl.
Qed.

Lemma drel_value E nm d d' k c x : drel E nm (data d) (data d') ->
  (forall v, lookup nm (data d) = Some v -> E (ncomp v)) ->
  value d nm k c = Some x -> exists y, value d' nm k c = Some y /\ Rel x y.
Proof.
  unfold value. intros H HE. destruct (lookup nm (data d)) as [v|] eqn:L; [|discriminate].
  destruct (H v L (HE v eq_refl)) as (w & -> & _ & C). unfold crel in C.
  revert k C. generalize (cells w), (cells v). intros cw cv k C. revert k.
  induction C as [|rv rw cv cw Hr C IH]; intros [|k]; simpl; try discriminate; [|apply IH].
  clear IH. revert c. induction Hr; intros [|c']; simpl; try discriminate; [|apply IHHr].
  intros [= <-]. eexists; split; [reflexivity|assumption].
Qed.
End Pointwise.

(** ** C03 *)
Definition same_speed (x y : vec) : Prop :=
  norm2 y = norm2 x /\ skipn 3 y = skipn 3 x /\ List.length y = List.length x.
Definition same_vertical (x y : vec) : Prop :=
  skipn 2 y = skipn 2 x /\ comp y 0 * comp y 0 + comp y 1 * comp y 1 = comp x 0 * comp x 0 + comp x 1 * comp x 1.
Definition euclid (fam : family) (n : nat) : Prop := n = 3%nat \/ fam = Rdi.

Lemma same_speed_refl x : same_speed x x. Proof. split; [|split]; reflexivity. Qed.
Lemma same_speed_trans x y z : same_speed x y -> same_speed y z -> same_speed x z.
Proof. intros (A & B & C) (A' & B' & C'). split; [|split]; congruence. Qed.
Lemma same_vertical_refl x : same_vertical x x. Proof. split; reflexivity. Qed.
Lemma same_vertical_trans x y z : same_vertical x y -> same_vertical y z -> same_vertical x z.
Proof. intros (A & B) (A' & B'). split; congruence. Qed.

Lemma speed_mv M x : orthonormal M -> is_vec 3 x -> same_speed x (mv M x).
Proof.
  intros O Hx. split; [apply norm2_mv; assumption|]. assert (L : is_vec 3 (mv M x)) by (apply mat_mv_vec, O).
  unfold is_vec in *. split; [|congruence]. rewrite !skipn_all2 by lia. reflexivity.
Qed.

Lemma speed_first3 n f x : (3 <= n)%nat -> is_vec n x ->
  (forall y, is_vec 3 y -> same_speed y (f y)) -> same_speed x (first3 f x).
Proof.
  intros Hn Hx Hf. unfold first3. unfold is_vec in Hx.
  destruct (Hf (firstn 3 x)) as (A & B & C); [unfold is_vec; rewrite firstn_length; lia|].
  rewrite firstn_length in C.
  assert (L : List.length (f (firstn 3 x)) = 3%nat) by lia.
  destruct (is_vec3 _ L) as (a & b & c & E). rewrite E in *. clear E.
  destruct x as [|p [|q [|r x]]]; simpl in Hx; try lia.
  split; [|split]; [exact A|reflexivity|reflexivity].
Qed.

Lemma speed_rot2 a x : (2 <= List.length x)%nat -> same_speed x (rot2 a x) /\ same_vertical x (rot2 a x).
Proof.
  destruct x as [|p [|q x]]; simpl; intros H; try lia.
  pose proof (sin2_cos2 a) as E. unfold Rsqr in E.
  assert (K : (cos a * p - sin a * q) * (cos a * p - sin a * q) +
              (sin a * p + cos a * q) * (sin a * p + cos a * q) = p * p + q * q).
  { transitivity ((p * p + q * q) * (sin a * sin a + cos a * cos a)); [ring|rewrite E; ring]. }
  split.
  - split; [|split]; [|reflexivity|reflexivity]. unfold norm2, dot3, comp. simpl. rewrite K. reflexivity.
  - split; [reflexivity|]. unfold comp. simpl. exact K.
Qed.

Lemma speed_sign3 x : is_vec 3 x -> same_speed x (vmul sign3 x).
Proof.
  intros H. destruct (is_vec3 x H) as (a & b & c & ->). split; [|split]; try reflexivity.
  unfold norm2, dot3, comp. cbn. ring.
Qed.

Lemma earthF_speed fam d rev v : statics fam d -> okvar fam (List.length (orientmat d)) v ->
  euclid fam (ncomp v) -> vrel same_speed v (earthF fam rev d v).
Proof.
  intros S [Sv Rv] E. pose proof (st_omat _ _ S) as HO.
  assert (M : forall (O : mat) (b : bool), orthonormal O -> orthonormal (if b then tr 3 (tr 3 O) else tr 3 O)).
  { intros O [|] H; repeat apply orth_tr; exact H. }
  destruct fam; unfold earthF.
  - apply vrel_zip; unfold vec_fs; rewrite ?map_length; [|exact Sv].
    rewrite Forall_map. eapply Forall_impl; [|exact HO]. simpl in Rv. rewrite Rv. intros O Ho x Hx.
    apply speed_mv; [apply (M O rev Ho)|exact Hx].
  - apply vrel_zip; unfold vec_fs; rewrite ?map_length; [|exact Sv].
    rewrite Forall_map. eapply Forall_impl; [|exact HO]. simpl in Rv. rewrite Rv. intros O Ho x Hx.
    apply speed_mv; [apply (M O rev Ho)|exact Hx].
  - destruct E as [N|]; [|discriminate]. rewrite N. cbn [Nat.eqb].
    apply vrel_zip; unfold sig_f3; rewrite ?map_length; [|exact Sv].
    rewrite map_map, Forall_map. eapply Forall_impl; [|exact HO]. rewrite N. intros O Ho x Hx. cbv beta.
    pose proof (orth_tr O Ho) as Ht. pose proof (orth_tr _ Ht) as Htt.
    assert (V : forall M y, orthonormal M -> is_vec 3 (mv M y)) by (intros; apply mat_mv_vec, H).
    destruct rev, (isdown d).
    + eapply same_speed_trans; [apply (speed_mv _ _ Htt Hx)|]. apply speed_sign3. apply V; exact Htt.
    + apply (speed_mv _ _ Htt Hx).
    + eapply same_speed_trans; [apply speed_sign3; exact Hx|]. apply speed_mv; [exact Ht|apply vmul3; exact Hx].
    + apply (speed_mv _ _ Ht Hx).
  - apply vrel_zip; unfold rdi_fs; rewrite ?map_length; [|exact Sv].
    rewrite Forall_map. eapply Forall_impl; [|exact HO]. intros O Ho x Hx. cbv zeta.
    eapply speed_first3; [exact Rv|exact Hx|]. intros y Hy. apply speed_mv; [apply (M O rev Ho)|exact Hy].
Qed.

Lemma move_speed fam d low rev nm X : statics fam d -> (1 <= low < 3)%nat -> wfd fam d X ->
  drel same_speed (euclid fam) nm X (move fam low rev d X).
Proof.
  intros S Hl W. destruct low as [|[|[|low]]]; try lia; simpl.
  - unfold earth_data. eapply drel_iter with (P := okvar fam (List.length (orientmat d))).
    + apply same_speed_refl.
    + apply same_speed_trans.
    + intros v Hn Hv. destruct (wfd_vars _ _ _ W nm Hn) as (w & Hw & Ow). congruence.
    + intros v Pv Ev. split; [|apply earthF_speed; assumption].
      destruct (earthF_ok fam d rev v S Pv) as [[A B] _]. eapply okvar_shape; eassumption.
  - unfold prin_data. destruct (principal_heading d) as [ph|]; [|apply drel_refl, same_speed_refl].
    eapply drel_iter with (P := okvar fam (List.length (orientmat d))).
    + apply same_speed_refl.
    + apply same_speed_trans.
    + intros v Hn Hv. destruct (wfd_vars _ _ _ W nm Hn) as (w & Hw & Ow). congruence.
    + intros v Pv Ev. split.
      * split; [|apply Pv]. apply map_cells_shaped; [|apply Pv]. intros x. apply rot2_vec.
      * eapply vrel_map; [|apply Pv]. intros x Hx. apply speed_rot2.
        unfold is_vec in Hx. rewrite Hx. eapply rotatable_2. apply Pv.
Qed.

Lemma move_vertical fam d low rev nm X : (2 <= low < 3)%nat -> wfd fam d X ->
  drel same_vertical (fun _ => True) nm X (move fam low rev d X).
Proof.
  intros Hl W. destruct low as [|[|[|low]]]; try lia; simpl.
  unfold prin_data. destruct (principal_heading d) as [ph|]; [|apply drel_refl, same_vertical_refl].
  eapply drel_iter with (P := okvar fam (List.length (orientmat d))).
  + apply same_vertical_refl.
  + apply same_vertical_trans.
  + intros v Hn Hv. destruct (wfd_vars _ _ _ W nm Hn) as (w & Hw & Ow). congruence.
  + intros v Pv Ev. split.
    * split; [|apply Pv]. apply map_cells_shaped; [|apply Pv]. intros x. apply rot2_vec.
    * eapply vrel_map; [|apply Pv]. intros x Hx. apply speed_rot2.
      unfold is_vec in Hx. rewrite Hx. eapply rotatable_2. apply Pv.
Qed.

Lemma speed_kept fam d out d' nm k c x :
  admissible fam d -> rotate2 d out = Ok d' -> coord_sys d <> "beam"%string -> lower out <> "beam"%string ->
  (forall v, lookup nm (data d) = Some v -> ncomp v = 3%nat \/ fam = Rdi) ->
  value d nm k c = Some x ->
  exists y, value d' nm k c = Some y /\ norm2 y = norm2 x /\ skipn 3 y = skipn 3 x.
Proof.
  intros A H B1 B2 HE V. destruct (adm_index _ _ A) as (i & Hi & C).
  destruct (rotate2_inv fam d i out d' A C Hi H) as (j & Hj & Ho & HC & ->).
  assert (S := proj1 (proj1 (adm_split _ _) A)).
  assert (W : wfd fam d (data d)) by (apply adm_split in A; apply A).
  assert (i <> 0%nat) by (intros ->; apply B1; exact C).
  assert (j <> 0%nat) by (intros ->; apply B2; exact Ho).
  destruct (drel_value same_speed (euclid fam) nm d (goto fam i j d) k c x) as (y & Hy & P1 & P2 & _).
  - apply (chain_rel fam d 1 (drel same_speed (euclid fam) nm) S).
    + intros X. apply drel_refl, same_speed_refl.
    + intros X Y Z. apply drel_trans. apply same_speed_trans.
    + intros. apply move_speed; assumption.
    + lia.
    + lia.
    + exact W.
  - exact HE.
  - exact V.
  - eauto.
Qed.

Lemma vertical_kept fam d out d' nm k c x :
  admissible fam d -> rotate2 d out = Ok d' ->
  (coord_sys d = "earth" \/ coord_sys d = "principal")%string -> (lower out = "earth" \/ lower out = "principal")%string ->
  value d nm k c = Some x ->
  exists y, value d' nm k c = Some y /\ skipn 2 y = skipn 2 x /\
     comp y 0 * comp y 0 + comp y 1 * comp y 1 = comp x 0 * comp x 0 + comp x 1 * comp x 1.
Proof.
  intros A H B1 B2 V. destruct (adm_index _ _ A) as (i & Hi & C).
  destruct (rotate2_inv fam d i out d' A C Hi H) as (j & Hj & Ho & HC & ->).
  assert (S := proj1 (proj1 (adm_split _ _) A)).
  assert (W : wfd fam d (data d)) by (apply adm_split in A; apply A).
  rewrite C in B1. rewrite Ho in B2.
  assert (2 <= i)%nat by (destruct i as [|[|i]]; [destruct B1; discriminate|destruct B1; discriminate|lia]).
  assert (2 <= j)%nat by (destruct j as [|[|j]]; [destruct B2; discriminate|destruct B2; discriminate|lia]).
  destruct (drel_value same_vertical (fun _ => True) nm d (goto fam i j d) k c x) as (y & Hy & P1 & P2).
  - apply (chain_rel fam d 2 (drel same_vertical (fun _ => True) nm) S).
    + intros X. apply drel_refl, same_vertical_refl.
    + intros X Y Z. apply drel_trans. apply same_vertical_trans.
    + intros. apply move_vertical; assumption.
    + lia.
    + lia.
    + exact W.
  - tauto.
  - exact V.
  - eauto.
Qed.

(** variables that are not rotated do not change *)
Lemma move_other fam d low rev nm X : ~ In nm (rotate_vars d) ->
  (nm = "vel"%string -> inst2head d = None \/ fam <> Vector) ->
  lookup nm (move fam low rev d X) = lookup nm X.
Proof.
  intros N V.
  assert (I : forall names F Y, ~ In nm names -> lookup nm (iter_data names F Y) = lookup nm Y).
  { intros names F Y Hn. rewrite lookup_iter, count_notin by exact Hn. destruct (lookup nm Y); reflexivity. }
  assert (B : forall r Y, lookup nm (beam_data r d Y) = lookup nm Y).
  { intros. apply I. intros H. apply filter_In in H. tauto. }
  assert (H : fam = Vector -> forall r Y, lookup nm (head_data r d Y) = lookup nm Y).
  { intros Hf r Y. unfold head_data. destruct (inst2head d) eqn:E; [|reflexivity]. apply I.
    intros [Hv|[]]. destruct (V (eq_sym Hv)); congruence. }
  destruct low as [|[|low]]; simpl.
  - destruct fam; try apply B. destruct rev.
    + rewrite B. apply H. reflexivity.
    + rewrite H by reflexivity. apply B.
  - apply I. exact N.
  - unfold prin_data. destruct (principal_heading d); [apply I; exact N|reflexivity].
Qed.

Lemma other_kept fam d out d' nm : admissible fam d -> rotate2 d out = Ok d' ->
  ~ In nm (rotate_vars d) -> (nm = "vel"%string -> inst2head d = None \/ fam <> Vector) ->
  lookup nm (data d') = lookup nm (data d).
Proof.
  intros A H N V. destruct (adm_index _ _ A) as (i & Hi & C).
  destruct (rotate2_inv fam d i out d' A C Hi H) as (j & Hj & Ho & HC & ->).
  assert (S := proj1 (proj1 (adm_split _ _) A)).
  assert (W : wfd fam d (data d)) by (apply adm_split in A; apply A).
  apply (chain_rel fam d 0 (fun X Y => lookup nm Y = lookup nm X) S); try lia.
  - reflexivity.
  - congruence.
  - intros. apply move_other; assumption.
  - exact W.
Qed.

(** ** C04: any dataset whatever *)
Lemma over_vars_keeps names f : forall d d', over_vars names f d = Ok d' -> exists X, d' = set_data d X.
Proof.
  induction names as [|nm names IH]; simpl; intros d d' H.
  - injection H as <-. exists (data d). destruct d; reflexivity.
  - destruct (lookup nm (data d)); [|discriminate]. destruct (f v); [discriminate|].
    apply IH in H. destruct H as (X & ->). exists X. reflexivity.
Qed.

Lemma over_vars_fuel names f : (forall v, f v <> inl OutOfFuel) ->
  forall d d', over_vars names f d <> Err OutOfFuel d'.
Proof.
  intros Hf. induction names as [|nm names IH]; simpl; intros d d' H; [discriminate|].
  destruct (lookup nm (data d)); [|discriminate]. pose proof (Hf v). destruct (f v); [congruence|].
  apply IH in H. exact H.
Qed.

Lemma set_coords_cs d f d' : set_coords d f = Ok d' -> coord_sys d' = f.
Proof.
  unfold set_coords. destruct (labels _ _ _); [|discriminate]. destruct (Nat.eqb _ _); [|discriminate].
  destruct (dirIMU d); [|intros [= <-]; reflexivity]. destruct (labelsIMU f); [|discriminate].
  destruct (Nat.eqb _ _); [intros [= <-]; reflexivity|discriminate].
Qed.
Lemma set_coords_fuel d f d' : set_coords d f <> Err OutOfFuel d'.
Proof.
  unfold set_coords. destruct (labels _ _ _); [|discriminate]. destruct (Nat.eqb _ _); [|discriminate].
  destruct (dirIMU d); [|discriminate]. destruct (labelsIMU f); [|discriminate].
  destruct (Nat.eqb _ _); discriminate.
Qed.

Lemma bind_ok r f d' : bind r f = Ok d' -> exists d, r = Ok d /\ f d = Ok d'.
Proof. destruct r; simpl; [eauto|discriminate]. Qed.
Lemma bind_fuel r f d' : (forall d, r <> Err OutOfFuel d) -> (forall d e, f d <> Err OutOfFuel e) ->
  bind r f <> Err OutOfFuel d'.
Proof. intros H1 H2. destruct r; simpl; [apply H2|]. intros [= -> ->]. exact (H1 d' eq_refl). Qed.

Lemma base_cs rev d d' : base_beam2inst rev d = Ok d' ->
  coord_sys d' = (if rev then "beam" else "inst")%string /\ (rev = true -> coord_sys d = "inst"%string).
Proof.
  unfold base_beam2inst. destruct (negb rev && _); [discriminate|].
  destruct (rev && negb (String.eqb (coord_sys d) "inst")) eqn:E; [discriminate|].
  destruct (select _ _ _); [|discriminate]. destruct (rev && singular _ _); [discriminate|].
  intros H. apply bind_ok in H. destruct H as (d1 & _ & H). apply set_coords_cs in H. split; [exact H|].
  intros ->. simpl in E. apply negb_false_iff, String.eqb_eq in E. exact E.
Qed.
Lemma base_fuel rev d d' : base_beam2inst rev d <> Err OutOfFuel d'.
Proof.
  unfold base_beam2inst. destruct (negb rev && _); [discriminate|].
  destruct (rev && negb (String.eqb (coord_sys d) "inst")) eqn:E; [discriminate|].
  destruct (select _ _ _); [|discriminate]. destruct (rev && singular _ _); [discriminate|].
  apply bind_fuel; [|intros; apply set_coords_fuel]. intros. apply over_vars_fuel. discriminate.
Qed.

Lemma map_time_fuel fs v : map_time fs v <> inl OutOfFuel.
Proof. unfold map_time. destruct (Nat.eqb _ _); discriminate. Qed.

Lemma head_keeps rev d d' : rotate_inst2head rev d = Ok d' -> exists X, d' = set_data d X.
Proof.
  unfold rotate_inst2head. destruct (check_inst2head d) as [|[|]]; [discriminate| |].
  - destruct (inst2head d); [apply over_vars_keeps|].
    intros [= <-]. exists (data d). destruct d; reflexivity.
  - intros [= <-]. exists (data d). destruct d; reflexivity.
Qed.
Lemma check_fuel d : check_inst2head d <> inl OutOfFuel.
Proof.
  unfold check_inst2head. destruct (inst2head d); [|discriminate].
  destruct (negb (inst2head_was_set d)); [discriminate|]. destruct (negb _); discriminate.
Qed.
Lemma head_fuel rev d d' : rotate_inst2head rev d <> Err OutOfFuel d'.
Proof.
  unfold rotate_inst2head. pose proof (check_fuel d) as H. destruct (check_inst2head d) as [e|[|]].
  - congruence.
  - destruct (inst2head d); [|discriminate]. apply over_vars_fuel. intros v.
    destruct (Nat.eqb _ _); discriminate.
  - discriminate.
Qed.

Lemma vecbeam_cs rev d d' : vec_beam2inst rev d = Ok d' ->
  coord_sys d' = (if rev then "beam" else "inst")%string /\ (rev = true -> coord_sys d = "inst"%string).
Proof.
  unfold vec_beam2inst. destruct rev; intros H; apply bind_ok in H; destruct H as (d1 & H1 & H2).
  - apply head_keeps in H1. destruct H1 as (X & ->). apply base_cs in H2. exact H2.
  - apply base_cs in H1. apply head_keeps in H2. destruct H2 as (X & ->). split; [apply H1|discriminate].
Qed.
Lemma vecbeam_fuel rev d d' : vec_beam2inst rev d <> Err OutOfFuel d'.
Proof.
  unfold vec_beam2inst. destruct rev; apply bind_fuel; intros; (apply head_fuel || apply base_fuel).
Qed.

Lemma earthstep_cs fam rev d d' :
  (match fam with Vector | Awac => vec_inst2earth | Signature => sig_inst2earth | Rdi => rdi_inst2earth end) rev d = Ok d' ->
  coord_sys d' = (if rev then "inst" else "earth")%string.
Proof.
  intros H. destruct fam; revert H; unfold vec_inst2earth, sig_inst2earth, rdi_inst2earth;
    (destruct (negb _); [discriminate|]); try (destruct (rev && existsb _ _); [discriminate|]);
    intros H; apply bind_ok in H; destruct H as (d1 & _ & H); apply set_coords_cs in H; exact H.
Qed.
Lemma earthstep_fuel fam rev d d' :
  (match fam with Vector | Awac => vec_inst2earth | Signature => sig_inst2earth | Rdi => rdi_inst2earth end) rev d
  <> Err OutOfFuel d'.
Proof.
  destruct fam; unfold vec_inst2earth, sig_inst2earth, rdi_inst2earth;
    (destruct (negb _); [discriminate|]); try (destruct (rev && existsb _ _); [discriminate|]);
    apply bind_fuel; try (intros; apply set_coords_fuel); intros; apply over_vars_fuel; intros v.
  - destruct (Nat.eqb _ _); [apply map_time_fuel|discriminate].
  - destruct (Nat.eqb _ _); [apply map_time_fuel|discriminate].
  - destruct (Nat.eqb _ _); [apply map_time_fuel|]. destruct (Nat.eqb _ _); [apply map_time_fuel|discriminate].
  - destruct (Nat.leb _ _); [apply map_time_fuel|discriminate].
Qed.

Lemma prinstep_cs rev d d' : earth2principal rev d = Ok d' ->
  coord_sys d' = (if rev then "earth" else "principal")%string.
Proof.
  unfold earth2principal. destruct (principal_heading d); [|discriminate]. destruct (negb _); [discriminate|].
  intros H; apply bind_ok in H; destruct H as (d1 & _ & H); apply set_coords_cs in H; exact H.
Qed.
Lemma prinstep_fuel rev d d' : earth2principal rev d <> Err OutOfFuel d'.
Proof.
  unfold earth2principal. destruct (principal_heading d); [|discriminate]. destruct (negb _); [discriminate|].
  apply bind_fuel; [|intros; apply set_coords_fuel]. intros. apply over_vars_fuel. intros v.
  destruct (Nat.leb _ _); discriminate.
Qed.

Definition csin (d : ds) : string := if String.eqb (coord_sys d) "ship" then "inst"%string else coord_sys d.

Lemma one_step_cs fam rev d d' : one_step fam rev d = Ok d' ->
  exists low, (low < 3)%nat /\ csin d = fname (if rev then S low else low) /\
              coord_sys d' = fname (if rev then low else S low) /\
              (rev = true -> low = 0%nat -> coord_sys d = "inst"%string).
Proof.
  unfold one_step. fold (csin d). destruct (rc_index (csin d)) as [i|] eqn:R; [|discriminate].
  apply rc_some in R. destruct R as [Hi E]. intros H.
  destruct rev.
  - destruct i as [|i]; [discriminate|]. destruct (step_fun fam i) as [g|] eqn:G; [|discriminate].
    destruct i as [|[|[|i]]]; simpl in G; try discriminate; injection G as <-.
    + exists 0%nat. split; [lia|]. split; [exact E|].
      assert (K : coord_sys d' = "beam"%string /\ (true = true -> coord_sys d = "inst"%string))
        by (destruct fam; (apply vecbeam_cs in H || apply base_cs in H); exact H).
      split; [apply K|intros; apply K; reflexivity].
    + exists 1%nat. split; [lia|]. split; [exact E|]. split; [apply earthstep_cs in H; exact H|discriminate].
    + exists 2%nat. split; [lia|]. split; [exact E|]. split; [apply prinstep_cs in H; exact H|discriminate].
  - destruct (step_fun fam i) as [g|] eqn:G; [|discriminate].
    destruct i as [|[|[|i]]]; simpl in G; try discriminate; injection G as <-.
    + exists 0%nat. split; [lia|]. split; [exact E|].
      assert (K : coord_sys d' = "inst"%string)
        by (destruct fam; (apply vecbeam_cs in H || apply base_cs in H); apply H).
      split; [apply K|discriminate].
    + exists 1%nat. split; [lia|]. split; [exact E|]. split; [apply earthstep_cs in H; exact H|discriminate].
    + exists 2%nat. split; [lia|]. split; [exact E|]. split; [apply prinstep_cs in H; exact H|discriminate].
Qed.

Lemma one_step_fuel fam rev d d' : one_step fam rev d <> Err OutOfFuel d'.
Proof.
  unfold one_step. fold (csin d). destruct (rc_index (csin d)) as [i|]; [|discriminate].
  assert (K : forall low g, step_fun fam low = Some g -> g rev d <> Err OutOfFuel d').
  { intros [|[|[|low]]] g; simpl; try discriminate; intros [= <-].
    - destruct fam; (apply vecbeam_fuel || apply base_fuel).
    - apply earthstep_fuel.
    - apply prinstep_fuel. }
  destruct rev.
  - destruct i as [|i]; [discriminate|]. destruct (step_fun fam i) eqn:G; [|discriminate]. apply (K _ _ G).
  - destruct (step_fun fam i) eqn:G; [|discriminate]. apply (K _ _ G).
Qed.

Lemma csin_fname i d : (i < 4)%nat -> coord_sys d = fname i -> csin d = fname i.
Proof. intros Hi H. unfold csin. rewrite H, not_ship by exact Hi. reflexivity. Qed.

(** the loop never runs out of fuel *)
Lemma loop_terminates fam (rev : bool) out : forall fuel d,
  (forall i, csin d = fname i -> (i < 4)%nat -> (if (rev : bool) then i < fuel else 3 - i < fuel)%nat) ->
  (0 < fuel)%nat ->
  forall d', rot_loop fuel fam rev out d <> Err OutOfFuel d'.
Proof.
  induction fuel as [|fuel IH]; intros d Hf H0 d'; [lia|]. cbn [rot_loop].
  destruct (String.eqb _ _); [discriminate|].
  destruct (one_step fam rev d) as [d1|e d1] eqn:E; cbn [bind].
  - apply one_step_cs in E. destruct E as (low & Hl & C1 & C2 & _).
    specialize (Hf _ C1). apply IH.
    + intros i Hi Hi4. rewrite (csin_fname (if rev then low else S low) d1) in Hi by (try exact C2; destruct rev; lia).
      apply fname_inj in Hi; [|destruct rev; lia|exact Hi4]. destruct rev; lia.
    + destruct rev; lia.
  - intros [= -> ->]. eapply one_step_fuel. exact E.
Qed.

Lemma rotate2_terminates d out d' : rotate2 d out <> Err OutOfFuel d'.
Proof.
  unfold rotate2. pose proof (check_fuel d) as Hc. destruct (check_inst2head d); [congruence|].
  destruct (family_of _) as [fam|]; [|discriminate]. destruct (rc_index _); [|discriminate].
  destruct (rc_index (lower out)); [|discriminate]. apply loop_terminates; [|lia].
  intros i _ Hi. destruct (negb _); lia.
Qed.

Lemma loop_reaches fam rev out : forall fuel d d', rot_loop fuel fam rev out d = Ok d' ->
  (d' = d /\ lower (coord_sys d) = out) \/ coord_sys d' = out.
Proof.
  assert (G : forall fuel d d', rot_loop fuel fam rev out d = Ok d' ->
    (forall i, coord_sys d = fname i -> (i < 4)%nat -> coord_sys d' = out)).
  { induction fuel as [|fuel IH]; intros d d' H i C Hi; cbn [rot_loop] in H;
      destruct (String.eqb_spec (lower (coord_sys d)) out) as [E|E]; try discriminate.
    - injection H as <-. rewrite C in *. rewrite lower_fname in E by exact Hi. exact E.
    - injection H as <-. rewrite C in *. rewrite lower_fname in E by exact Hi. exact E.
    - apply bind_ok in H. destruct H as (d1 & H1 & H2). apply one_step_cs in H1.
      destruct H1 as (low & Hl & _ & C2 & _). eapply IH; [exact H2|exact C2|destruct rev; lia]. }
  intros fuel d d' H. destruct fuel as [|fuel]; cbn [rot_loop] in H;
    destruct (String.eqb_spec (lower (coord_sys d)) out) as [E|E]; try discriminate.
  - injection H as <-. left. auto.
  - injection H as <-. left. auto.
  - apply bind_ok in H. destruct H as (d1 & H1 & H2). apply one_step_cs in H1.
    destruct H1 as (low & Hl & _ & C2 & _). right. eapply G; [exact H2|exact C2|destruct rev; lia].
Qed.

Lemma rotate2_reaches d out d' : rotate2 d out = Ok d' ->
  (d' = d /\ lower (coord_sys d) = lower out) \/ coord_sys d' = lower out.
Proof.
  unfold rotate2. destruct (check_inst2head d); [discriminate|].
  destruct (family_of _) as [fam|]; [|discriminate]. destruct (rc_index _); [|discriminate].
  destruct (rc_index (lower out)); [|discriminate]. apply loop_reaches.
Qed.

Lemma rejected d out :
  family_of (make_model d) = None \/ ~ In (lower out) frames \/ ~ In (lower (coord_sys d)) ("ship"%string :: frames) ->
  exists e, rotate2 d out = Err e d.
Proof.
  intros H. unfold rotate2. destruct (check_inst2head d); [eauto|].
  destruct (family_of _) as [fam|]; [|eauto]. destruct H as [H|H]; [discriminate|].
  destruct (rc_index _) as [i|] eqn:R1; [|eauto].
  destruct (rc_index (lower out)) as [j|] eqn:R2; [|eauto]. exfalso.
  apply rc_some in R1, R2. destruct R1 as [Hi R1], R2 as [Hj R2]. destruct H as [H|H]; apply H.
  - rewrite R2. apply fname_in. exact Hj.
  - destruct (String.eqb_spec (lower (coord_sys d)) "ship") as [->|N]; [left; reflexivity|].
    right. rewrite R1. apply fname_in. exact Hi.
Qed.

Lemma ship_down d out : coord_sys d = "ship"%string -> lower out = "inst"%string \/ lower out = "beam"%string ->
  exists e d', rotate2 d out = Err e d'.
Proof.
  intros C H. destruct (rotate2 d out) as [d'|e d'] eqn:E; [|eauto]. exfalso.
  unfold rotate2 in E. rewrite C in E. cbn [lower String.eqb] in E.
  destruct (check_inst2head d); [discriminate|].
  destruct (family_of _) as [fam|]; [|discriminate].
  assert (K : exists j, (j <= 1)%nat /\ rc_index (lower out) = Some j).
  { destruct H as [->| ->]; [exists 1%nat|exists 0%nat]; split; (lia || reflexivity). }
  destruct K as (j & Hj & K). rewrite K in E.
  change (rc_index (if String.eqb (lower "ship") "ship" then "inst"%string else lower "ship")) with (Some 1%nat) in E.
  cbn iota in E. replace (Nat.ltb 1 j) with false in E by (symmetry; apply Nat.ltb_ge; lia).
  cbn [negb rot_loop] in E. rewrite C in E.
  replace (String.eqb (lower "ship") (lower out)) with false in E by (destruct H as [->| ->]; reflexivity).
  apply bind_ok in E. destruct E as (d1 & H1 & _). apply one_step_cs in H1.
  destruct H1 as (low & Hl & C1 & _ & C3). unfold csin in C1. rewrite C in C1.
  change (if String.eqb "ship" "ship" then "inst"%string else "ship"%string) with (fname 1) in C1.
  replace (negb (Nat.ltb 1 j)) with true in * by (symmetry; apply negb_true_iff, Nat.ltb_ge; lia).
  assert (E1 : (1 = S low)%nat) by (apply fname_inj; [lia|lia|exact C1]). assert (L0 : low = 0%nat) by lia. specialize (C3 eq_refl L0). congruence.
Qed.

(** ship -> earth for TRDI: the same as from the instrument frame *)
Lemma ship_up d out : admissible Rdi (set_cs d "inst" (dir d) (dirIMU d)) -> coord_sys d = "ship"%string ->
  lower out = "earth"%string \/ (lower out = "principal"%string /\ principal_heading d <> None) ->
  exists d', rotate2 d out = Ok d' /\ rotate2 (set_cs d "inst" (dir d) (dirIMU d)) out = Ok d'.
Proof.
  intros A C H. set (di := set_cs d "inst" (dir d) (dirIMU d)) in *.
  assert (K : exists j, (1 < j < 4)%nat /\ lower out = fname j /\ crossing_ok di 1 j).
  { destruct H as [H|[H P]]; [exists 2%nat|exists 3%nat]; (split; [lia|]); (split; [exact H|]);
      intros [X|X] Y; try lia. exact P. }
  destruct K as (j & Hj & Ho & HC).
  assert (L1 : (1 < 4)%nat) by lia. assert (L2 : (j < 4)%nat) by lia.
  exists (goto Rdi 1 j di). rewrite (rotate2_ok Rdi di 1 j out A eq_refl L1 Ho L2 HC).
  split; [|reflexivity].
  rewrite <- (rotate2_ok Rdi di 1 j out A eq_refl L1 Ho L2 HC).
  rewrite (rotate2_unfold Rdi di 1 out A eq_refl L1). unfold rotate2. rewrite C.
  change (check_inst2head d) with (check_inst2head di).
  pose proof A as A'. apply adm_split in A'. destruct A' as (S & _ & _ & _ & W).
  rewrite (check_i2h_ok Rdi) by exact S. change (make_model d) with (make_model di).
  rewrite (proj1 (st_make _ _ S)).
  change (rc_index (if String.eqb (lower "ship") "ship" then "inst"%string else lower "ship")) with (Some 1%nat).
  cbn iota. rewrite Ho, rc_fname by lia. replace (Nat.ltb 1 j) with true by (symmetry; apply Nat.ltb_lt; lia).
  cbn [negb]. cbn [rot_loop].
  assert (O : one_step Rdi false d = one_step Rdi false di).
  { rewrite (one_step_ok Rdi di 1 false A) by (lia || reflexivity).
    unfold one_step. rewrite C. transitivity (rdi_inst2earth false d); [reflexivity|].
    unfold rdi_inst2earth. rewrite C.
    replace (negb (String.eqb (lower "ship") "inst" || String.eqb (lower "ship") "ship")) with false by reflexivity.
    rewrite (over_vars_ok _ _ (earthF Rdi false di) (okvar Rdi (List.length (orientmat d)))).
    - cbn [bind]. rewrite (set_coords_ok Rdi).
      + reflexivity.
      + exact (st_make _ _ S).
      + simpl. tauto.
      + exact (st_beam _ _ S).
      + change (dir (set_data d (iter_data (rotate_vars d) (earthF Rdi false di) (data d)))) with (dir di).
        rewrite (adm_dir _ _ A). apply axis_labels_length. exact (st_beam _ _ S).
      + change (dirIMU (set_data d (iter_data (rotate_vars d) (earthF Rdi false di) (data d)))) with (dirIMU di).
        destruct (adm_imu _ _ A) as [->| ->]; [left; reflexivity|right; eexists; split; [reflexivity|apply imu_length]].
    - intros v [Sv Rv]. rewrite (proj2 (Nat.leb_le _ _) Rv). split.
      + apply map_time_ok. rewrite map_length. exact Sv.
      + destruct (earthF_ok Rdi di false v S (conj Sv Rv)) as [[P1 P2] _]. eapply okvar_shape; [split; eassumption|exact P1|exact P2].
    - exact (wfd_keys _ _ _ W).
    - exact (wfd_vars _ _ _ W). }
  rewrite O, C. change (coord_sys di) with (fname 1). rewrite lower_fname, fname_eqb by lia.
  destruct (Nat.eqb_spec 1 j); [lia|].
  replace (String.eqb (lower "ship") (fname j)) with false; [reflexivity|].
  change (lower "ship") with "ship"%string. rewrite String.eqb_sym, not_ship by lia. reflexivity.
Qed.

Lemma labels_reached fam d out d' : admissible fam d -> rotate2 d out = Ok d' ->
  coord_sys d' = lower out /\ dir d' = axis_labels fam (lower out) (beam_labels d') /\
  (dirIMU d' = None \/ dirIMU d' = Some (imu_labels (lower out))).
Proof.
  intros A H. destruct (adm_index _ _ A) as (i & Hi & C).
  destruct (rotate2_inv fam d i out d' A C Hi H) as (j & Hj & Ho & HC & ->).
  pose proof (goto_adm fam d i j A Hj) as A'. rewrite Ho.
  split; [reflexivity|]. split; [exact (adm_dir _ _ A')|exact (adm_imu _ _ A')].
Qed.
