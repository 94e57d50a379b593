From Coq Require Import Reals List Bool String Lia Lra.
From Verif.Model Require Import Linalg Rotate.
From Verif.Spec Require Import Linalg Rotate.
From Verif.Proofs Require Import Linalg Rotate RotateProps.
Import ListNotations.
Open Scope R_scope.

Lemma ds_ext a b :
  make_model a = make_model b -> inst_model a = inst_model b -> coord_sys a = coord_sys b -> dir a = dir b ->
  dirIMU a = dirIMU b -> beam_labels a = beam_labels b -> orientation a = orientation b ->
  beam2inst a = beam2inst b -> orientmat a = orientmat b -> heading a = heading b ->
  inst2head a = inst2head b -> inst2head_was_set a = inst2head_was_set b ->
  principal_heading a = principal_heading b -> declination a = declination b ->
  rotate_vars a = rotate_vars b -> data a = data b -> a = b.
Proof. destruct a, b; simpl; intros; subst; reflexivity. Qed.

(** attributes after set_declination *)
Definition dcl (de : R) (b : R) (d : ds) : ds :=
  set_decl (set_principal (set_heading (set_orientmat d (map (decl_mat de) (orientmat d)))
    (match heading d with Some h => Some (map (fun x => x + de) h) | None => None end))
    (add_opt de (principal_heading d))) (Some b).

Lemma Rdec_orth a : orthonormal (Rdec a).
Proof.
  unfold Rdec. pose proof (sin2_cos2 (- deg2rad a)) as H. unfold Rsqr in H.
  apply orth_of_eqs; repeat split; try ring; rewrite <- H; ring.
Qed.

Lemma decl_mat_orth a O : orthonormal O -> orthonormal (decl_mat a O).
Proof. intros H. apply orth_mm; [exact H|apply orth_tr, Rdec_orth]. Qed.

Lemma decl_mat_22 a O : is_mat 3 O -> entry (decl_mat a O) 2 2 = entry O 2 2.
Proof.
  intros H. destruct (is_mat3 O H) as (p & q & r & s & t & u & v & w & x & ->).
  unfold decl_mat, Rdec, entry. cbn. ring.
Qed.

Lemma dcl_statics fam a b d : statics fam d -> statics fam (dcl a b d).
Proof.
  intros [A1 A2 A3 A4 A5 A6]. constructor; try assumption; simpl.
  - rewrite Forall_map. eapply Forall_impl; [|exact A4]. intros O. apply decl_mat_orth.
  - intros Hf. rewrite Forall_map. assert (H2 : Forall (fun O => orthonormal O /\ entry O 2 2 <> 0) (orientmat d))
      by (apply Forall_and; auto).
    eapply Forall_impl; [|exact H2]. intros O [Ho Eo]. rewrite decl_mat_22 by apply Ho. exact Eo.
Qed.

Lemma dcl_wfd fam a b d X : wfd fam (dcl a b d) X <-> wfd fam d X.
Proof.
  assert (L : List.length (orientmat (dcl a b d)) = List.length (orientmat d)) by (simpl; apply map_length).
  split; intros [A B C]; constructor; try assumption.
  - rewrite L in B. exact B.
  - rewrite L in C. exact C.
  - rewrite L. exact B.
  - rewrite L. exact C.
Qed.

(** *** the effect on the inst -> earth step *)
Lemma decl_mv a O x : is_mat 3 O -> is_vec 3 x ->
  mv (tr 3 (decl_mat a O)) x = rot2 (- deg2rad a) (mv (tr 3 O) x).
Proof.
  intros H Hx. destruct (is_mat3 O H) as (p & q & r & s & t & u & v & w & y & ->).
  destruct (is_vec3 x Hx) as (x0 & x1 & x2 & ->). unfold decl_mat, Rdec. cbn.
  apply vec3_ext; ring.
Qed.

Lemma decl_mv4 a O x : is_mat 3 O -> is_vec 4 x ->
  mv (rmat4 (tr 3 (decl_mat a O))) x = rot2 (- deg2rad a) (mv (rmat4 (tr 3 O)) x).
Proof.
  intros H Hx. destruct (is_mat3 O H) as (p & q & r & s & t & u & v & w & y & ->).
  destruct (is_vec4 x Hx) as (x0 & x1 & x2 & x3 & ->). unfold decl_mat, Rdec, rmat4, ent. cbn.
  apply vec4_ext; field.
Qed.

Lemma rot2_first3 a f x : (3 <= List.length x)%nat -> (forall y, is_vec 3 y -> is_vec 3 (f y)) ->
  first3 (fun y => rot2 a (f y)) x = rot2 a (first3 f x).
Proof.
  intros Hx Hf. unfold first3.
  assert (L : is_vec 3 (f (firstn 3 x))) by (apply Hf; unfold is_vec; rewrite firstn_length; lia).
  destruct (is_vec3 _ L) as (p & q & r & E). rewrite E. reflexivity.
Qed.

Lemma zip_cells_post (P : vec -> Prop) (g : vec -> vec) fs gs c :
  Forall2 (fun f h => forall x, P x -> h x = g (f x)) fs gs -> Forall (Forall P) c ->
  zip_cells gs c = map (map g) (zip_cells fs c).
Proof.
  intros H. revert c. induction H as [|f h fs gs Hf H IH]; intros [|row c] F; simpl; try reflexivity.
  inversion F as [|? ? Fr Fc]; subst. f_equal; [|apply IH; exact Fc].
  rewrite map_map. apply map_ext_in. intros x Hx. apply Hf. rewrite Forall_forall in Fr. apply Fr. exact Hx.
Qed.

Lemma zip_var_post g fs gs v n :
  Forall2 (fun f h => forall x, is_vec (ncomp v) x -> h x = g (f x)) fs gs -> shaped n v ->
  zip_var gs v = map_cells g (zip_var fs v).
Proof.
  intros H [_ F]. unfold zip_var, map_cells. simpl. f_equal. eapply zip_cells_post; eassumption.
Qed.

Lemma earthF_decl fam d a b v : statics fam d -> okvar fam (List.length (orientmat d)) v ->
  earthF fam false (dcl a b d) v = map_cells (rot2 (- deg2rad a)) (earthF fam false d v).
Proof.
  intros S [Sv Rv]. pose proof (st_omat _ _ S) as HO.
  assert (VEC : ncomp v = 3%nat ->
    zip_var (vec_fs false (map (decl_mat a) (orientmat d))) v =
    map_cells (rot2 (- deg2rad a)) (zip_var (vec_fs false (orientmat d)) v)).
  { intros N. eapply zip_var_post; [|exact Sv]. unfold vec_fs. rewrite map_map.
    apply Forall2_map_same. rewrite N. eapply Forall_impl; [|exact HO]. intros O Ho x Hx.
    apply decl_mv; [apply Ho|exact Hx]. }
  destruct fam; unfold earthF; simpl in Rv.
  - apply VEC. exact Rv.
  - apply VEC. exact Rv.
  - destruct Rv as [N|N]; rewrite N; cbn [Nat.eqb].
    + eapply zip_var_post; [|exact Sv]. unfold sig_f3. simpl. rewrite !map_map.
      apply Forall2_map_same. rewrite N. eapply Forall_impl; [|exact HO]. intros O Ho x Hx.
      cbv beta. change (isdown (dcl a b d)) with (isdown d).
      destruct (isdown d); apply decl_mv; try apply Ho; [apply vmul3; exact Hx|exact Hx].
    + eapply zip_var_post; [|exact Sv]. unfold sig_f4. simpl. rewrite !map_map.
      apply Forall2_map_same. rewrite N. eapply Forall_impl; [|exact HO]. intros O Ho x Hx.
      cbv beta. change (isdown (dcl a b d)) with (isdown d).
      destruct (isdown d); apply decl_mv4; try apply Ho; [apply vmul4; exact Hx|exact Hx].
  - eapply zip_var_post; [|exact Sv]. unfold rdi_fs. simpl. rewrite map_map.
    apply Forall2_map_same. eapply Forall_impl; [|exact HO]. intros O Ho x Hx. cbv zeta.
    unfold is_vec in Hx. rewrite <- rot2_first3.
    + unfold first3. f_equal. apply decl_mv; [apply Ho|]. unfold is_vec. rewrite firstn_length. lia.
    + lia.
    + intros y _. apply mat_mv_vec, is_mat_tr3, Ho.
Qed.

(** *** names without repetition *)
Lemma count_le1 nm names : NoDup names -> (count nm names <= 1)%nat.
Proof. intros H. unfold count. apply (NoDup_count_occ string_dec). exact H. Qed.

Lemma iter_ext names F G H (P : var -> Prop) X : NoDup names ->
  all_named names P X -> NoDup (map fst X) -> (forall v, P v -> H v = G (F v)) ->
  iter_data names H X = iter_data names G (iter_data names F X).
Proof.
  intros N A K E. unfold iter_data. rewrite map_map. apply map_ext_in. intros [k v] Hin. simpl. f_equal.
  pose proof (count_le1 k names N) as L. destruct (count k names) as [|[|c]] eqn:C; try lia; [reflexivity|].
  simpl. apply E. assert (I : In k names).
  { destruct (in_dec string_dec k names) as [|I]; [assumption|]. apply count_notin in I. lia. }
  destruct (A k I) as (w & Hw & Pw). rewrite (in_lookup _ _ _ K Hin) in Hw. congruence.
Qed.

Lemma iter_comp names F G H X : NoDup names -> (forall v, H v = G (F v)) ->
  iter_data names G (iter_data names F X) = iter_data names H X.
Proof.
  intros N E. unfold iter_data. rewrite map_map. apply map_ext. intros [k v]. simpl. f_equal.
  pose proof (count_le1 k names N) as L. destruct (count k names) as [|[|c]] eqn:C; try lia; [reflexivity|].
  simpl. symmetry. apply E.
Qed.

Lemma rot2_add a b x : rot2 a (rot2 b x) = rot2 (a + b) x.
Proof.
  destruct x as [|p [|q x]]; try reflexivity. cbn [rot2]. rewrite cos_plus, sin_plus.
  f_equal; [ring|f_equal; ring].
Qed.

Lemma map_cells_comp f g v : map_cells f (map_cells g v) = map_cells (fun x => f (g x)) v.
Proof.
  unfold map_cells. simpl. f_equal. rewrite map_map. apply map_ext. intros row. apply map_map.
Qed.
Lemma map_cells_ext f g v : (forall x, f x = g x) -> map_cells f v = map_cells g v.
Proof. intros H. unfold map_cells. f_equal. apply map_ext. intros row. apply map_ext. exact H. Qed.

Lemma earth_decl fam d a b X : statics fam d -> wfd fam d X -> NoDup (rotate_vars d) ->
  earth_data fam false (dcl a b d) X =
  iter_data (rotate_vars d) (map_cells (rot2 (- deg2rad a))) (earth_data fam false d X).
Proof.
  intros S W N. unfold earth_data. change (rotate_vars (dcl a b d)) with (rotate_vars d).
  apply iter_ext with (P := okvar fam (List.length (orientmat d))); try assumption.
  - apply (wfd_vars _ _ _ W).
  - apply W.
  - intros v Pv. apply earthF_decl; assumption.
Qed.

Lemma prin_decl d a b X : NoDup (rotate_vars d) -> principal_heading d <> None ->
  prin_data false (dcl a b d) (iter_data (rotate_vars d) (map_cells (rot2 (- deg2rad a))) X) =
  prin_data false d X.
Proof.
  intros N H. unfold prin_data. simpl. destruct (principal_heading d) as [ph|]; [|congruence]. simpl.
  apply iter_comp; [exact N|]. intros v. rewrite map_cells_comp. apply map_cells_ext. intros x.
  rewrite rot2_add. f_equal. unfold deg2rad. simpl. unfold Rdiv. ring.
Qed.

Lemma U1_decl fam d a b X : U fam (dcl a b d) 1 X = U fam d 1 X.
Proof. destruct fam; reflexivity. Qed.
Lemma D1_decl fam d a b X : D fam (dcl a b d) 1 X = D fam d 1 X.
Proof. destruct fam; reflexivity. Qed.

Lemma U2_decl fam d a b Z : statics fam d -> wfd fam d Z -> NoDup (rotate_vars d) ->
  U fam (dcl a b d) 2 Z = iter_data (rotate_vars d) (map_cells (rot2 (- deg2rad a))) (U fam d 2 Z).
Proof.
  intros S W N. change (U fam (dcl a b d) 2 Z) with (earth_data fam false (dcl a b d) (U fam (dcl a b d) 1 Z)).
  rewrite U1_decl. rewrite earth_decl; [reflexivity|exact S| |exact N]. apply (U_wfd fam d 1 Z S W).
Qed.

Lemma U3_decl fam d a b Z : statics fam d -> wfd fam d Z -> NoDup (rotate_vars d) ->
  principal_heading d <> None -> U fam (dcl a b d) 3 Z = U fam d 3 Z.
Proof.
  intros S W N H. change (U fam (dcl a b d) 3 Z) with (prin_data false (dcl a b d) (U fam (dcl a b d) 2 Z)).
  rewrite U2_decl by assumption. rewrite prin_decl by assumption. reflexivity.
Qed.

(** *** set_declination on an admissible dataset *)
Definition declined (fam : family) (i : nat) (a : R) (d : ds) : ds :=
  let d' := dcl (declination_change d a) a d in set_data d' (U fam d' i (D fam d i (data d))).

Lemma frame_ok_cross d i : (i < 4)%nat -> coord_sys d = fname i -> frame_ok d (coord_sys d) ->
  i = 3%nat -> principal_heading d <> None.
Proof. intros Hi C [_ F] ->. apply F. exact C. Qed.

Lemma adm_set_decl fam d x : admissible fam d -> admissible fam (set_decl d x).
Proof. intros [A1 A2 A3 A4 A5 A6 A7 A8 A9 A10 A11]. constructor; assumption. Qed.

Lemma adm_ds fam d i : statics fam d -> (i < 4)%nat -> coord_sys d = fname i ->
  dir d = axis_labels fam (fname i) (beam_labels d) ->
  (dirIMU d = None \/ dirIMU d = Some (imu_labels (fname i))) -> wfd fam d (data d) -> admissible fam d.
Proof.
  intros S Hi C A B W. apply adm_split. rewrite C. split; [exact S|]. split; [apply fname_in; exact Hi|].
  split; [exact A|]. split; [exact B|exact W].
Qed.

Lemma declined_adm fam d i a : admissible fam d -> (i < 4)%nat -> coord_sys d = fname i ->
  admissible fam (declined fam i a d).
Proof.
  intros A Hi C. pose proof A as A'. apply adm_split in A'. destruct A' as (S & _ & Hd & HI & W).
  rewrite C in Hd, HI. apply adm_ds with (i := i); try assumption.
  - destruct (dcl_statics fam (declination_change d a) a d S). constructor; assumption.
  - assert (W' : wfd fam (dcl (declination_change d a) a d) (U fam (dcl (declination_change d a) a d) i (D fam d i (data d)))).
    { apply U_wfd; [apply dcl_statics; exact S|]. apply dcl_wfd. apply D_wfd; assumption. }
    destruct W'; constructor; assumption.
Qed.

Lemma sd_ok fam d i a : admissible fam d -> NoDup (rotate_vars d) -> frame_ok d (coord_sys d) ->
  (i < 4)%nat -> coord_sys d = fname i ->
  set_declination d a = Ok (declined fam i a d).
Proof.
  intros A N F Hi C. pose proof A as A'. apply adm_split in A'. destruct A' as (S & _ & Hd & HI & W).
  unfold set_declination. fold (declination_change d a). set (de := declination_change d a).
  change (coord_sys (set_decl d None)) with (coord_sys d).
  destruct (Nat.eq_dec i 2) as [->|Ni].
  - rewrite C. change (String.eqb (fname 2) "earth") with true. cbn iota.
    assert (A0 : admissible fam (set_decl d None)) by (apply adm_set_decl; exact A).
    rewrite (rotate2_ok fam (set_decl d None) 2 1 "inst"); try assumption; try lia; try reflexivity;
      [|intros [X|X]; lia].
    cbn [bind].
    set (d1 := goto fam 2 1 (set_decl d None)).
    set (d3 := set_heading _ _).
    assert (A3 : admissible fam d3).
    { apply adm_ds with (i := 1%nat); try reflexivity; try lia.
      - pose proof (dcl_statics fam de a d S) as T. destruct T. constructor; assumption.
      - simpl. destruct HI as [->| ->]; [left|right]; reflexivity.
      - assert (W' : wfd fam (dcl de a d) (U fam d 1 (D fam d 2 (data d)))).
        { apply dcl_wfd. apply U_wfd; [exact S|apply D_wfd; assumption]. }
        destruct W'; constructor; assumption. }
    rewrite (rotate2_ok fam d3 1 2 "earth"); try assumption; try lia; try reflexivity;
      [|intros [X|X]; lia].
    cbn [bind]. unfold declined. fold de.
    assert (E : U fam d3 2 (D fam d3 1 (data d3)) = U fam (dcl de a d) 2 (D fam d 2 (data d))).
    { transitivity (U fam (dcl de a d) 2 (D fam d 1 (U fam d 1 (D fam d 2 (data d))))).
      - destruct fam; reflexivity.
      - rewrite D_U by (try apply D_wfd; assumption). reflexivity. }
    unfold goto. rewrite E. f_equal.
    apply ds_ext; try reflexivity.
    + change (fname 2 = coord_sys d). symmetry. exact C.
    + change (axis_labels fam (fname 2) (beam_labels d) = dir d). rewrite Hd, C. reflexivity.
    + change (option_map (fun _ => imu_labels (fname 2)) (option_map (fun _ => imu_labels (fname 1)) (dirIMU d)) = dirIMU d).
      rewrite C in HI. destruct HI as [->| ->]; reflexivity.
  - assert (NE : String.eqb (coord_sys d) "earth" = false).
    { rewrite C. change "earth"%string with (fname 2). rewrite fname_eqb by lia. apply Nat.eqb_neq. exact Ni. }
    rewrite NE. cbn [bind]. unfold declined. fold de.
    assert (E : U fam (dcl de a d) i (D fam d i (data d)) = data d).
    { destruct i as [|[|[|[|i]]]]; try lia.
      - reflexivity.
      - rewrite U1_decl. apply U_D; assumption.
      - rewrite U3_decl; [apply U_D; assumption|exact S|apply D_wfd; assumption|exact N|].
        eapply frame_ok_cross; try eassumption. reflexivity. }
    rewrite E. reflexivity.
Qed.

(** *** algebra of the angles *)
Lemma decl_mat_add a b O : is_mat 3 O -> decl_mat b (decl_mat a O) = decl_mat (a + b) O.
Proof.
  intros H. destruct (is_mat3 O H) as (p & q & r & s & t & u & v & w & x & ->).
  unfold decl_mat, Rdec. replace (- deg2rad (a + b)) with (- deg2rad a + - deg2rad b)
    by (unfold deg2rad, Rdiv; ring).
  rewrite cos_plus, sin_plus. cbn. repeat (f_equal; try ring).
Qed.

Lemma deg0 : deg2rad 0 = 0. Proof. unfold deg2rad, Rdiv. ring. Qed.

Lemma decl_mat_0 O : is_mat 3 O -> decl_mat 0 O = O.
Proof.
  intros H. destruct (is_mat3 O H) as (p & q & r & s & t & u & v & w & x & ->).
  unfold decl_mat, Rdec. rewrite deg0, Ropp_0, cos_0, sin_0. cbn. repeat (f_equal; try ring).
Qed.

Lemma dcl_dcl x a y b d : Forall orthonormal (orientmat d) -> dcl y b (dcl x a d) = dcl (x + y) b d.
Proof.
  intros HO. apply ds_ext; try reflexivity.
  - change (map (decl_mat y) (map (decl_mat x) (orientmat d)) = map (decl_mat (x + y)) (orientmat d)).
    rewrite map_map. apply map_ext_in. intros O Hin. apply decl_mat_add.
    rewrite Forall_forall in HO. apply HO. exact Hin.
  - cbn. destruct (heading d); [|reflexivity]. f_equal. rewrite map_map. apply map_ext. intros. ring.
  - cbn. destruct (principal_heading d); simpl; [|reflexivity]. f_equal. ring.
Qed.

Lemma dcl_0 b d : Forall orthonormal (orientmat d) -> dcl 0 b d = set_decl d (Some b).
Proof.
  intros HO. apply ds_ext; try reflexivity.
  - change (map (decl_mat 0) (orientmat d) = orientmat d). rewrite <- (map_id (orientmat d)) at 2. apply map_ext_in. intros O Hin. apply decl_mat_0.
    rewrite Forall_forall in HO. apply HO. exact Hin.
  - cbn. destruct (heading d) as [h|]; [|reflexivity]. f_equal. rewrite <- (map_id h) at 2. apply map_ext. intros. ring.
  - cbn. destruct (principal_heading d); simpl; [|reflexivity]. f_equal. ring.
Qed.

Lemma U_set_data fam d X j Z : U fam (set_data d X) j Z = U fam d j Z.
Proof. induction j; simpl; [reflexivity|rewrite IHj; reflexivity]. Qed.
Lemma D_set_data fam d X j Z : D fam (set_data d X) j Z = D fam d j Z.
Proof. revert Z; induction j; intros Z; simpl; [reflexivity|]. rewrite IHj. reflexivity. Qed.
Lemma U_set_decl fam d x j Z : U fam (set_decl d x) j Z = U fam d j Z.
Proof. induction j; simpl; [reflexivity|rewrite IHj; reflexivity]. Qed.

Lemma declined_declined fam d i a b : admissible fam d -> (i < 4)%nat ->
  declined fam i b (declined fam i a d) = declined fam i b d.
Proof.
  intros A Hi. pose proof A as A'. apply adm_split in A'. destruct A' as (S & _ & Hd & HI & W).
  unfold declined at 1. set (d1 := declined fam i a d).
  assert (E1 : declination_change d1 b = b - a) by reflexivity. rewrite E1.
  assert (E2 : data d1 = U fam (dcl (declination_change d a) a d) i (D fam d i (data d))) by reflexivity.
  assert (E3 : forall Z, D fam d1 i Z = D fam (dcl (declination_change d a) a d) i Z).
  { intros Z. unfold d1, declined. cbv zeta. apply D_set_data. }
  rewrite E3, E2. rewrite D_U.
  2: apply dcl_statics; exact S.
  2: apply dcl_wfd, D_wfd; assumption.
  assert (E4 : dcl (b - a) b d1 = set_data (dcl (declination_change d b) b d) (data d1)).
  { transitivity (set_data (dcl (b - a) b (dcl (declination_change d a) a d)) (data d1)); [reflexivity|].
    rewrite dcl_dcl by apply S. replace (declination_change d a + (b - a)) with (declination_change d b); [reflexivity|].
    unfold declination_change. destruct (declination d); ring. }
  rewrite E4. rewrite U_set_data. reflexivity.
Qed.

Lemma declined_frame fam d i a : frame_ok d (coord_sys d) -> frame_ok (declined fam i a d) (coord_sys (declined fam i a d)).
Proof.
  intros [I F]. split; [exact I|]. intros H. simpl. specialize (F H).
  destruct (principal_heading d); [discriminate|congruence].
Qed.

(** C05 *)
Lemma replaces fam d a b : admissible fam d -> NoDup (rotate_vars d) -> frame_ok d (coord_sys d) ->
  exists d1 d2, set_declination d a = Ok d1 /\ set_declination d1 b = Ok d2 /\ set_declination d b = Ok d2.
Proof.
  intros A N F. destruct (adm_index _ _ A) as (i & Hi & C).
  exists (declined fam i a d), (declined fam i b d). repeat split; try (apply sd_ok; assumption).
  rewrite (sd_ok fam _ i b); [|apply declined_adm; assumption|exact N|apply declined_frame; exact F|exact Hi|exact C].
  rewrite declined_declined by assumption. reflexivity.
Qed.

Lemma declined_same fam d i a : admissible fam d -> coord_sys d = fname i -> declination_change d a = 0 ->
  declined fam i a d = set_decl d (Some a).
Proof.
  intros A C E. pose proof A as A'. apply adm_split in A'. destruct A' as (S & _ & Hd & HI & W).
  unfold declined. rewrite E. rewrite dcl_0 by apply S. rewrite U_set_decl. rewrite U_D by assumption. destruct d; reflexivity.
Qed.

Lemma recovers fam d a d1 : admissible fam d -> NoDup (rotate_vars d) -> frame_ok d (coord_sys d) ->
  set_declination d a = Ok d1 ->
  (declination d = None -> set_declination d1 0 = Ok (set_decl d (Some 0))) /\
  (forall old, declination d = Some old -> set_declination d1 old = Ok d).
Proof.
  intros A N F H. destruct (adm_index _ _ A) as (i & Hi & C).
  rewrite (sd_ok fam d i a) in H by assumption. injection H as <-. split.
  - intros E. rewrite (sd_ok fam _ i 0); [|apply declined_adm; assumption|exact N|apply declined_frame; exact F|exact Hi|exact C].
    rewrite declined_declined by assumption. rewrite declined_same; [reflexivity|exact A|exact C|].
    unfold declination_change. rewrite E. reflexivity.
  - intros old E. rewrite (sd_ok fam _ i old); [|apply declined_adm; assumption|exact N|apply declined_frame; exact F|exact Hi|exact C].
    rewrite declined_declined by assumption. rewrite declined_same; [|exact A|exact C|].
    + rewrite <- E. destruct d; reflexivity.
    + unfold declination_change. rewrite E. ring.
Qed.

(** C06 *)
Lemma rot2_clockwise a x : rot2 (- deg2rad a) x = clockwise a x.
Proof.
  destruct x as [|p [|q x]]; try reflexivity. cbn [rot2 clockwise]. rewrite cos_neg, sin_neg.
  apply f_equal2; [ring|]; apply f_equal2; [ring|reflexivity].
Qed.

Lemma value_iter d d' nm k c f x : lookup nm (data d') = option_map (map_cells f) (lookup nm (data d)) ->
  value d nm k c = Some x -> value d' nm k c = Some (f x).
Proof.
  unfold value. intros ->. destruct (lookup nm (data d)) as [v|]; [|discriminate]. simpl.
  rewrite nth_error_map. destruct (nth_error (cells v) k) as [row|]; [|discriminate]. simpl.
  rewrite nth_error_map. intros ->. reflexivity.
Qed.

Lemma earth_clockwise fam d a d' nm k c x : admissible fam d -> NoDup (rotate_vars d) ->
  coord_sys d = "earth"%string -> set_declination d a = Ok d' -> In nm (rotate_vars d) ->
  value d nm k c = Some x -> value d' nm k c = Some (clockwise (declination_change d a) x).
Proof.
  intros A N C H I V. pose proof A as A'. apply adm_split in A'. destruct A' as (S & _ & Hd & HI & W).
  rewrite (sd_ok fam d 2 a) in H; try assumption; try lia.
  2: { split; [apply A|]. rewrite C. discriminate. }
  injection H as <-. rewrite <- rot2_clockwise. apply (value_iter d _ nm k c (rot2 (- deg2rad (declination_change d a)))); [|exact V].
  unfold declined. cbv zeta. cbn [data set_data].
  rewrite U2_decl by (try apply D_wfd; assumption). rewrite U_D by assumption.
  rewrite lookup_iter. destruct (lookup nm (data d)); [|reflexivity]. cbn [option_map]. f_equal.
  pose proof (count_le1 nm _ N) as L. destruct (count nm (rotate_vars d)) as [|[|n]] eqn:E; try lia; [|reflexivity].
  exfalso. unfold count in E. apply count_occ_not_In in E. contradiction.
Qed.

Lemma not_earth_same fam d a d' : admissible fam d -> NoDup (rotate_vars d) -> frame_ok d (coord_sys d) ->
  coord_sys d <> "earth"%string -> set_declination d a = Ok d' -> data d' = data d.
Proof.
  intros A N F C H. destruct (adm_index _ _ A) as (i & Hi & Ci).
  pose proof A as A'. apply adm_split in A'. destruct A' as (S & _ & Hd & HI & W).
  rewrite (sd_ok fam d i a) in H by assumption. injection H as <-.
  unfold declined. cbv zeta. cbn [data set_data].
  destruct i as [|[|[|[|i]]]]; try lia.
  - reflexivity.
  - rewrite U1_decl. apply U_D; assumption.
  - exfalso. apply C. exact Ci.
  - rewrite U3_decl; [apply U_D; assumption|exact S|apply D_wfd; assumption|exact N|].
    eapply frame_ok_cross; try eassumption. reflexivity.
Qed.

Lemma attributes fam d a d' : admissible fam d -> NoDup (rotate_vars d) -> frame_ok d (coord_sys d) ->
  set_declination d a = Ok d' ->
  declination d' = Some a /\ coord_sys d' = coord_sys d /\
  heading d' = option_map (map (fun h => h + declination_change d a)) (heading d) /\
  principal_heading d' = option_map (fun h => h + declination_change d a) (principal_heading d).
Proof.
  intros A N F H. destruct (adm_index _ _ A) as (i & Hi & Ci).
  rewrite (sd_ok fam d i a) in H by assumption. injection H as <-. repeat split.
Qed.

Lemma commutes fam d out a d1 d2 : admissible fam d -> NoDup (rotate_vars d) -> frame_ok d (coord_sys d) ->
  rotate2 d out = Ok d1 -> set_declination d a = Ok d2 ->
  exists d3, rotate2 d2 out = Ok d3 /\ set_declination d1 a = Ok d3.
Proof.
  intros A N F H1 H2. destruct (adm_index _ _ A) as (i & Hi & C).
  pose proof A as A'. apply adm_split in A'. destruct A' as (S & _ & Hd & HI & W).
  destruct (rotate2_inv fam d i out d1 A C Hi H1) as (j & Hj & Ho & HC & ->).
  rewrite (sd_ok fam d i a) in H2 by assumption. injection H2 as <-.
  assert (HP : (i = 3%nat \/ j = 3%nat) -> principal_heading d <> None).
  { intros H3. destruct (Nat.eq_dec i j) as [->|Nij].
    - eapply frame_ok_cross; try eassumption. lia.
    - apply HC; assumption. }
  eexists. split.
  - apply (rotate2_ok fam _ i j out); try assumption.
    + apply declined_adm; assumption.
    + intros H3 _. simpl. specialize (HP H3). destruct (principal_heading d); [discriminate|congruence].
  - rewrite (sd_ok fam (goto fam i j d) j a); try assumption; try reflexivity.
    + set (d' := dcl (declination_change d a) a d).
      change (declined fam j a (goto fam i j d)) with
        (set_data (dcl (declination_change d a) a (goto fam i j d))
           (U fam (dcl (declination_change d a) a (goto fam i j d)) j (D fam (goto fam i j d) j (data (goto fam i j d))))).
      assert (E2 : forall Z, D fam (goto fam i j d) j Z = D fam d j Z) by (intros; apply D_relabel).
      assert (E3 : data (goto fam i j d) = U fam d j (D fam d i (data d))) by reflexivity.
      rewrite E2, E3. rewrite D_U by (try apply D_wfd; assumption).
      assert (E4 : dcl (declination_change d a) a (goto fam i j d) = relabel fam (fname j) (set_data d' (data (goto fam i j d)))) by reflexivity.
      rewrite E4, U_relabel.
      f_equal. unfold goto at 2. unfold declined. fold d'. cbv zeta.
      assert (E5 : forall Z, D fam (set_data d' (U fam d' i (D fam d i (data d)))) i Z = D fam d' i Z) by (intros; apply D_set_data).
      rewrite E5. cbn [data set_data]. rewrite D_U.
      2: apply dcl_statics; exact S.
      2: apply dcl_wfd, D_wfd; assumption.
      rewrite U_set_data. reflexivity.
    + apply goto_adm; assumption.
    + split; [apply fname_in; exact Hj|]. intros Hp. apply HP. right.
      apply (fname_inj j 3); [exact Hj|lia|exact Hp].
Qed.

Lemma twice fam d a d1 : admissible fam d -> NoDup (rotate_vars d) -> frame_ok d (coord_sys d) ->
  set_declination d a = Ok d1 -> set_declination d1 a = Ok d1.
Proof.
  intros A N F H. destruct (replaces fam d a a A N F) as (e1 & e2 & H1 & H2 & H3). congruence.
Qed.

(** C07 *)
Lemma principal_unaffected fam d a d' out d1 :
  admissible fam d -> NoDup (rotate_vars d) -> coord_sys d = "principal"%string ->
  principal_heading d <> None -> set_declination d a = Ok d' -> lower out = "earth"%string ->
  rotate2 d out = Ok d1 ->
  data d' = data d /\
  exists d2, rotate2 d' out = Ok d2 /\
    forall nm k c x, In nm (rotate_vars d) -> value d1 nm k c = Some x ->
      value d2 nm k c = Some (clockwise (declination_change d a) x).
Proof.
  intros A N C P H Ho H1.
  assert (F : frame_ok d (coord_sys d)) by (split; [apply A|intros _; exact P]).
  split.
  - apply (not_earth_same fam d a d' A N F); [rewrite C; discriminate|exact H].
  - destruct (commutes fam d out a d1 d' A N F H1 H) as (d3 & R & S). exists d3. split; [exact R|].
    intros nm k c x I V. destruct (adm_index _ _ A) as (i & Hi & Ci).
    destruct (rotate2_inv fam d i out d1 A Ci Hi H1) as (j & Hj & Hoj & HC & ->).
    assert (E : declination_change (goto fam i j d) a = declination_change d a) by reflexivity.
    rewrite <- E. eapply earth_clockwise; try eassumption.
    + apply goto_adm; assumption.
    + transitivity (fname j); [reflexivity|]. rewrite <- Hoj. exact Ho.
Qed.

Lemma principal_same fam d a d' dp :
  admissible fam d -> NoDup (rotate_vars d) -> frame_ok d (coord_sys d) ->
  set_declination d a = Ok d' -> rotate2 d "principal" = Ok dp ->
  exists dp', rotate2 d' "principal" = Ok dp' /\ data dp' = data dp.
Proof.
  intros A N F H R. destruct (commutes fam d "principal" a dp d' A N F R H) as (d3 & R3 & S3).
  exists d3. split; [exact R3|]. destruct (adm_index _ _ A) as (i & Hi & Ci).
  destruct (rotate2_inv fam d i "principal" dp A Ci Hi R) as (j & Hj & Hoj & HC & ->).
  assert (j = 3%nat) by (apply (fname_inj j 3); [exact Hj|lia|symmetry; exact Hoj]). subst j.
  apply (not_earth_same fam (goto fam i 3 d) a d3).
  - apply goto_adm; assumption.
  - exact N.
  - split; [apply fname_in; lia|]. intros _. destruct (Nat.eq_dec i 3) as [->|Ni].
    + exact (proj2 F Ci).
    + apply HC; [tauto|exact Ni].
  - discriminate.
  - exact S3.
Qed.
