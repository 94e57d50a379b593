From Coq Require Import Reals List Bool String Lia Lra.
From Verif.Model Require Import Linalg Rotate.
From Verif.Spec Require Import Linalg Rotate.
From Verif.Proofs Require Import Linalg Rotate Declination.
Import ListNotations.
Open Scope R_scope.

Lemma in_earth_mv O x : is_mat 3 O -> is_vec 3 x -> in_earth O x = mv (tr 3 O) x.
Proof.
  intros H Hx. destruct (is_mat3 O H) as (a & b & c & d & e & f & g & h & i & ->).
  destruct (is_vec3 x Hx) as (p & q & r & ->). unfold in_earth, entry, comp, mv, tr, dot.
  cbn [map seq nth]. apply vec3_ext; ring.
Qed.

Lemma value_zip d d' nm k c fs x f v : lookup nm (data d) = Some v ->
  lookup nm (data d') = Some (zip_var fs v) ->
  nth_error fs k = Some f -> value d nm k c = Some x -> value d' nm k c = Some (f x).
Proof.
  unfold value. intros -> ->. unfold zip_var. cbn [cells].
  revert fs k. induction (cells v) as [|row rows IH]; intros [|g fs] [|k]; cbn [nth_error zip_cells]; try discriminate.
  - intros E. injection E as ->. rewrite nth_error_map. intros ->. reflexivity.
  - intros F. destruct (nth_error rows k) as [rw|] eqn:Ek; [|discriminate]. intros V.
    specialize (IH fs k F). rewrite Ek in IH. exact (IH V).
Qed.

(** the vector found has the number of components of its variable *)
Lemma value_vec d nm k c x T v : lookup nm (data d) = Some v -> shaped T v ->
  value d nm k c = Some x -> is_vec (ncomp v) x /\ (k < T)%nat.
Proof.
  intros L [S1 S2] V. unfold value in V. rewrite L in V.
  destruct (nth_error (cells v) k) as [row|] eqn:E; [|discriminate]. split.
  - apply nth_error_In in E. apply nth_error_In in V. rewrite Forall_forall in S2.
    specialize (S2 row E). rewrite Forall_forall in S2. apply S2, V.
  - rewrite <- S1. apply nth_error_Some. congruence.
Qed.

Lemma count_one nm names : NoDup names -> In nm names -> count nm names = 1%nat.
Proof.
  intros N I. pose proof (count_le1 nm names N). unfold count in *.
  apply (count_occ_In string_dec) in I. lia.
Qed.

Lemma step_up_data fam d i out d' : admissible fam d -> coord_sys d = fname i -> (i < 3)%nat ->
  lower out = fname (S i) -> rotate2 d out = Ok d' -> data d' = move fam i false d (data d).
Proof.
  intros A C Hi Ho H. destruct (rotate2_inv fam d i out d' A C) as (j & Hj & Hoj & _ & ->); [lia|exact H|].
  assert (j = S i) by (apply fname_inj; [exact Hj|lia|congruence]). subst j.
  pose proof A as A'. apply adm_split in A'. destruct A' as (St & _ & _ & _ & W).
  transitivity (U fam d (S i) (D fam d i (data d))); [reflexivity|]. cbn [U].
  rewrite U_D by assumption. reflexivity.
Qed.

Lemma earth_value fam d out d' nm k c x : admissible fam d -> NoDup (rotate_vars d) ->
  coord_sys d = "inst"%string -> lower out = "earth"%string -> rotate2 d out = Ok d' ->
  In nm (rotate_vars d) -> value d nm k c = Some x ->
  exists O v, nth_error (orientmat d) k = Some O /\ lookup nm (data d) = Some v /\ is_vec (ncomp v) x /\
    rotatable fam (ncomp v) /\ orthonormal O /\
    value d' nm k c = Some (match fam with
      | Vector | Awac => mv (tr 3 O) x
      | Signature => if Nat.eqb (ncomp v) 3 then mv (tr 3 O) (sgn3 (isdown d) x)
                     else mv (rmat4 (tr 3 O)) (sgn4 (isdown d) x)
      | Rdi => first3 (mv (tr 3 O)) x end).
Proof.
  intros A N C Ho H I V.
  pose proof (step_up_data fam d 1 out d' A C ltac:(lia) Ho H) as Ed.
  pose proof A as A'. apply adm_split in A'. destruct A' as (St & _ & _ & _ & W).
  destruct (wfd_vars _ _ _ W nm I) as (v & L & Sh & Rt).
  destruct (value_vec d nm k c x _ v L Sh V) as [Vx Hk].
  destruct (nth_error (orientmat d) k) as [O|] eqn:EO; [|apply nth_error_None in EO; lia].
  exists O, v. split; [reflexivity|]. split; [exact L|]. split; [exact Vx|]. split; [exact Rt|].
  split; [eapply Forall_forall; [exact (st_omat _ _ St)|eapply nth_error_In; exact EO]|].
  assert (L' : lookup nm (data d') = Some (earthF fam false d v)).
  { rewrite Ed. cbn [move]. unfold earth_data. rewrite lookup_iter, L, (count_one nm _ N I). reflexivity. }
  destruct fam; cbn [earthF] in L'.
  - refine (value_zip d d' nm k c _ x _ v L L' _ V). unfold vec_fs. rewrite nth_error_map, EO. reflexivity.
  - refine (value_zip d d' nm k c _ x _ v L L' _ V). unfold vec_fs. rewrite nth_error_map, EO. reflexivity.
  - destruct (Nat.eqb (ncomp v) 3).
    + refine (eq_trans (value_zip d d' nm k c _ x (fun v => if isdown d then mv (tr 3 O) (vmul sign3 v) else mv (tr 3 O) v) v L L' _ V) _).
      * unfold sig_f3. rewrite !nth_error_map, EO. reflexivity.
      * unfold sgn3. destruct (isdown d); reflexivity.
    + refine (eq_trans (value_zip d d' nm k c _ x (fun v => if isdown d then mv (rmat4 (tr 3 O)) (vmul sign4 v) else mv (rmat4 (tr 3 O)) v) v L L' _ V) _).
      * unfold sig_f4. rewrite !nth_error_map, EO. reflexivity.
      * unfold sgn4. destruct (isdown d); reflexivity.
  - refine (value_zip d d' nm k c _ x _ v L L' _ V). unfold rdi_fs. rewrite nth_error_map, EO. reflexivity.
Qed.

Lemma mounted3 b x : is_vec 3 x -> sgn3 b x = mounted b x.
Proof.
  intros H. destruct (is_vec3 x H) as (p & q & r & ->). destruct b; [|reflexivity].
  unfold sgn3, sign3, mounted. cbn [vmul map]. apply vec3_ext; ring.
Qed.
Lemma mounted4 b x : is_vec 4 x -> sgn4 b x = mounted b x.
Proof.
  intros H. destruct (is_vec4 x H) as (p & q & r & s & ->). destruct b; [|reflexivity].
  unfold sgn4, sign4, mounted. cbn [vmul map]. apply vec4_ext; ring.
Qed.
Lemma mounted_vec n b x : is_vec n x -> is_vec n (mounted b x).
Proof. unfold is_vec, mounted. destruct b, x; cbn [List.length]; rewrite ?map_length; auto. Qed.

(** C81 *)
Lemma inst_to_earth fam d out d' nm k c x : admissible fam d -> NoDup (rotate_vars d) ->
  coord_sys d = "inst"%string -> lower out = "earth"%string -> rotate2 d out = Ok d' ->
  In nm (rotate_vars d) -> value d nm k c = Some x ->
  (fam = Signature -> List.length x = 3%nat) ->
  exists O, nth_error (orientmat d) k = Some O /\
    value d' nm k c = Some (in_earth O (mounted (match fam with Signature => String.eqb (orientation d) "down"
                                                  | _ => false end) (firstn 3 x)) ++ skipn 3 x).
Proof.
  intros A N C Ho H I V Sg.
  destruct (earth_value fam d out d' nm k c x A N C Ho H I V) as (O & v & EO & L & Vx & Rt & Or & E).
  exists O. split; [exact EO|]. rewrite E. f_equal.
  destruct fam; cbn [rotatable] in Rt.
  - rewrite Rt in Vx. rewrite firstn_all2, skipn_all2 by (unfold is_vec in Vx; lia). rewrite app_nil_r.
    cbn [mounted]. symmetry. apply in_earth_mv; [apply Or|exact Vx].
  - rewrite Rt in Vx. rewrite firstn_all2, skipn_all2 by (unfold is_vec in Vx; lia). rewrite app_nil_r.
    cbn [mounted]. symmetry. apply in_earth_mv; [apply Or|exact Vx].
  - specialize (Sg eq_refl). assert (N3 : ncomp v = 3%nat) by (unfold is_vec in Vx; congruence).
    rewrite N3, Nat.eqb_refl. rewrite N3 in Vx.
    rewrite firstn_all2, skipn_all2 by (unfold is_vec in Vx; lia). rewrite app_nil_r.
    rewrite mounted3 by exact Vx. symmetry. apply in_earth_mv; [apply Or|apply mounted_vec, Vx].
  - unfold first3. f_equal. cbn [mounted]. symmetry. apply in_earth_mv; [apply Or|].
    unfold is_vec in *. rewrite firstn_length. lia.
Qed.

Lemma earth_to_principal fam d out d' nm k c x ph : admissible fam d -> NoDup (rotate_vars d) ->
  coord_sys d = "earth"%string -> lower out = "principal"%string -> rotate2 d out = Ok d' ->
  principal_heading d = Some ph ->
  In nm (rotate_vars d) -> value d nm k c = Some x ->
  value d' nm k c = Some (along ph (comp x 0) (comp x 1) :: left_of ph (comp x 0) (comp x 1) :: skipn 2 x).
Proof.
  intros A N C Ho H P I V.
  pose proof (step_up_data fam d 2 out d' A C ltac:(lia) Ho H) as Ed.
  pose proof A as A'. apply adm_split in A'. destruct A' as (St & _ & _ & _ & W).
  destruct (wfd_vars _ _ _ W nm I) as (v & L & Sh & Rt).
  destruct (value_vec d nm k c x _ v L Sh V) as [Vx Hk].
  pose proof (rotatable_2 _ _ Rt) as R2.
  erewrite (value_iter d d' nm k c (rot2 (pang false ph)) x); [|rewrite Ed; cbn [move]; unfold prin_data; rewrite P, lookup_iter, (count_one nm _ N I); reflexivity|exact V].
  f_equal. unfold is_vec in Vx. destruct x as [|e [|n x]]; cbn [List.length] in Vx; try lia.
  cbn [rot2 comp nth skipn]. unfold pang, along, left_of, comp. cbn [nth].
  replace (deg2rad (90 - ph)) with (PI / 2 - deg2rad ph) by (unfold deg2rad; field).
  rewrite cos_neg, sin_neg, cos_shift, sin_shift.
  apply f_equal2; [ring|]. apply f_equal2; [ring|reflexivity].
Qed.

Lemma beam_to_inst fam d out d' nm k c x : admissible fam d -> NoDup (rotate_vars d) ->
  coord_sys d = "beam"%string -> lower out = "inst"%string -> rotate2 d out = Ok d' ->
  In nm (rotate_vars d) -> value d nm k c = Some x ->
  List.length x = List.length (beam2inst d) ->
  (fam = Vector -> nm = "vel"%string -> inst2head d = None) ->
  value d' nm k c = Some (mv (beam2inst d) x).
Proof.
  intros A N C Ho H I V Lx Hv.
  pose proof (step_up_data fam d 0 out d' A C ltac:(lia) Ho H) as Ed.
  pose proof A as A'. apply adm_split in A'. destruct A' as (St & _ & _ & _ & W).
  destruct (wfd_vars _ _ _ W nm I) as (v & L & Sh & Rt).
  destruct (value_vec d nm k c x _ v L Sh V) as [Vx Hk].
  assert (Nc : ncomp v = List.length (beam2inst d)) by (unfold is_vec in Vx; congruence).
  assert (Lb : lookup nm (beam_data false d (data d)) = option_map (map_cells (mv (beam2inst d))) (lookup nm (data d))).
  { unfold beam_data. rewrite lookup_iter, L. cbn [option_map]. f_equal.
    assert (Cn : count nm (sel (List.length (beam2inst d)) (rotate_vars d) (data d)) = 1%nat).
    { apply count_one; [apply NoDup_filter, N|]. apply filter_In. split; [exact I|]. rewrite L, Nc, Nat.eqb_refl. reflexivity. }
    rewrite Cn. reflexivity. }
  eapply value_iter; [|exact V]. rewrite Ed, <- Lb. cbn [move]. destruct fam; try reflexivity.
  unfold head_data. destruct (inst2head d) as [Hm|] eqn:EH; [|reflexivity].
  rewrite lookup_iter. rewrite count_notin; [destruct (lookup nm (beam_data false d (data d))); reflexivity|].
  intros [E|[]]. specialize (Hv eq_refl (eq_sym E)). discriminate.
Qed.

(** C14 *)
Lemma four_beam fam d out d' nm k c x y z : admissible fam d -> fam = Signature -> NoDup (rotate_vars d) ->
  coord_sys d = "inst"%string -> lower out = "earth"%string -> rotate2 d out = Ok d' ->
  In nm (rotate_vars d) -> value d nm k c = Some [x; y; z; z] ->
  exists O, nth_error (orientmat d) k = Some O /\
    let u := in_earth O (mounted (String.eqb (orientation d) "down") [x; y; z]) in
    value d' nm k c = Some [comp u 0; comp u 1; comp u 2; comp u 2].
Proof.
  intros A -> N C Ho H I V.
  destruct (earth_value Signature d out d' nm k c _ A N C Ho H I V) as (O & v & EO & L & Vx & Rt & Or & E).
  exists O. split; [exact EO|]. cbv zeta. rewrite E. f_equal.
  assert (N4 : ncomp v = 4%nat) by (unfold is_vec in Vx; cbn [List.length] in Vx; congruence).
  rewrite N4 in *. cbn [Nat.eqb].
  destruct (is_mat3 O (proj1 Or)) as (a & b & c' & d0 & e & f & g & h & i & ->).
  unfold isdown. destruct (String.eqb (orientation d) "down");
    unfold sgn4, sign4, mounted, in_earth, rmat4, ent, entry, comp, tr, mv, dot; cbn [map seq nth vmul];
    apply vec4_ext; field.
Qed.

Lemma four_beam_invertible O : orthonormal O ->
  (det 4 (rmat4 (tr 3 O)) <> 0 <-> entry O 2 2 <> 0).
Proof.
  intros Or. rewrite rmat4_det by apply is_mat_tr3, Or. rewrite tr_entry22 by apply Or.
  pose proof (orth_det_ne0 (tr 3 O) (orth_tr O Or)) as D. split; intros H.
  - intros Z. apply H. rewrite Z. ring.
  - apply Rmult_integral_contrapositive_currified; assumption.
Qed.

(** earth->inst with a horizontal z-axis is refused by a Signature *)
Lemma four_beam_rejected d out : standard_make Signature (make_model d) -> coord_sys d = "earth"%string ->
  lower out = "inst"%string -> inst2head d = None ->
  Forall orthonormal (orientmat d) -> Exists (fun O => entry O 2 2 = 0) (orientmat d) ->
  rotate2 d out = Err Singular d.
Proof.
  intros [Fm _] C Ho Hh Or Ex.
  assert (E : sig_inst2earth true d = Err Singular d).
  { unfold sig_inst2earth. rewrite C.
    change (negb (String.eqb (lower "earth") "earth")) with false. cbv iota zeta.
    replace (existsb _ _) with true; [reflexivity|]. symmetry. apply existsb_exists.
    apply Exists_exists in Ex. destruct Ex as (O & IO & Z). exists (tr 3 O).
    split; [apply in_map, IO|]. unfold singular. destruct (Req_EM_T _ 0) as [|Nz]; [reflexivity|].
    exfalso. rewrite Forall_forall in Or. apply (proj1 (four_beam_invertible O (Or O IO)) Nz Z). }
  unfold rotate2, check_inst2head. rewrite Hh, Fm, Ho, C.
  change (rc_index "inst") with (Some 1%nat). change (rc_index _) with (Some 2%nat).
  change (negb (Nat.ltb 2 1)) with true. cbn [rot_loop]. rewrite C.
  change (String.eqb (lower "earth") "inst") with false. cbv iota.
  unfold one_step. rewrite C. change (String.eqb "earth" "ship") with false. cbv iota.
  change (rc_index "earth") with (Some 2%nat). cbv iota. cbn [step_fun]. change (negb (Nat.ltb 2 1)) with true. cbv iota. rewrite E. reflexivity.
Qed.
