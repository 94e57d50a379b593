From Coq Require Import Reals List Bool String Lia Lra.
From Verif.Model Require Import Linalg Rotate.
From Verif.Spec Require Import Linalg Rotate.
From Verif.Proofs Require Import Linalg Rotate RotateProps Declination.
Import ListNotations.
Open Scope R_scope.

Definition hd (M : mat) (d : ds) : ds := set_i2h d (Some M).

Lemma hd_statics M d : proper_rotation M -> statics Vector d -> statics Vector (hd M d).
Proof.
  intros P [A1 A2 A3 A4 A5 A6]. constructor; try assumption. simpl. intros N [= <-]. auto.
Qed.

Lemma hd_wfd M d X : In "vel"%string (rotate_vars d) -> wfd Vector d X -> wfd Vector (hd M d) X.
Proof.
  intros I [A B C]. constructor; try assumption. intros _.
  destruct (B _ I) as (v & Hv & Sv & Rv). exists v. split; [exact Hv|]. split; [exact Sv|exact Rv].
Qed.

Definition headed (i : nat) (M : mat) (d : ds) : ds :=
  set_data (hd M d) (U Vector (hd M d) i (D Vector d i (data d))).

Lemma headed_adm i M d : admissible Vector d -> proper_rotation M -> In "vel"%string (rotate_vars d) ->
  (i < 4)%nat -> coord_sys d = fname i -> admissible Vector (headed i M d).
Proof.
  intros A P I Hi C. pose proof A as A'. apply adm_split in A'. destruct A' as (S & _ & Hd & HI & W).
  rewrite C in Hd, HI. apply adm_ds with (i := i); try assumption.
  - destruct (hd_statics M d P S). constructor; assumption.
  - assert (W' : wfd Vector (hd M d) (U Vector (hd M d) i (D Vector d i (data d)))).
    { apply U_wfd; [apply hd_statics; assumption|]. apply hd_wfd; [exact I|]. apply D_wfd; assumption. }
    destruct W'; constructor; assumption.
Qed.

Lemma hd_U1 M d Z : inst2head d = None ->
  U Vector (hd M d) 1 Z = head_data false (hd M d) (U Vector d 1 Z).
Proof.
  intros H. cbn [U move]. unfold head_data at 3. rewrite H. reflexivity.
Qed.

Lemma i2h_ok M d i : admissible Vector d -> proper_rotation M -> In "vel"%string (rotate_vars d) ->
  inst_model d = "vector"%string -> inst2head d = None -> frame_ok d (coord_sys d) ->
  (i < 4)%nat -> coord_sys d = fname i ->
  set_inst2head_rotmat d M = Ok (headed i M d).
Proof.
  intros A P I Hm Hn F Hi C. pose proof A as A'. apply adm_split in A'. destruct A' as (S & _ & Hd & HI & W).
  unfold set_inst2head_rotmat. rewrite Hm, Hn. cbn [negb String.eqb Ascii.eqb Bool.eqb].
  destruct (Nat.eq_dec i 0) as [->|N0]; [|destruct (Nat.eq_dec i 1) as [->|N1]].
  - rewrite C. cbn. unfold headed. cbn [U D]. f_equal.
  - rewrite C. change (String.eqb (fname 1) "inst" || String.eqb (fname 1) "beam")%bool with true.
    change (String.eqb (fname 1) "beam") with false. cbn [bind].
    fold (hd M d).
    rewrite (rot_i2h_ok Vector) by (try apply hd_statics; try apply hd_wfd; assumption).
    cbn [bind]. unfold headed. rewrite hd_U1 by exact Hn. rewrite U_D by assumption. reflexivity.
  - rewrite C.
    assert (E1 : String.eqb (fname i) "beam" = false).
    { change "beam"%string with (fname 0). rewrite fname_eqb by lia. apply Nat.eqb_neq. exact N0. }
    assert (E2 : String.eqb (fname i) "inst" = false).
    { change "inst"%string with (fname 1). rewrite fname_eqb by lia. apply Nat.eqb_neq. exact N1. }
    rewrite E1, E2. cbn [orb].
    assert (HP : i = 3%nat -> principal_heading d <> None) by (intros; eapply frame_ok_cross; eassumption).
    rewrite (rotate2_ok Vector d i 1 "inst"); try assumption; try lia; try reflexivity; [|intros [X|X] _; [auto|lia]].
    cbn [bind]. set (d1 := goto Vector i 1 d). set (Z := D Vector d i (data d)).
    assert (WZ : wfd Vector d Z) by (apply D_wfd; assumption).
    fold (hd M d1).
    assert (S1 : statics Vector (hd M d1)).
    { destruct (hd_statics M d P S). constructor; assumption. }
    assert (W1 : wfd Vector (hd M d1) (data (hd M d1))).
    { assert (W' : wfd Vector (hd M d) (U Vector d 1 Z)) by (apply hd_wfd; [exact I|apply U_wfd; assumption]).
      destruct W'; constructor; assumption. }
    rewrite (rot_i2h_ok Vector) by assumption. cbn [bind].
    set (d3 := set_data (hd M d1) _).
    assert (ED : data d3 = U Vector (hd M d) 1 Z).
    { unfold d3. change (head_data false (hd M d) (U Vector d 1 Z) = U Vector (hd M d) 1 Z).
      rewrite hd_U1 by exact Hn. reflexivity. }
    assert (E3 : d3 = relabel Vector (fname 1) (set_data (hd M d) (data d3))) by reflexivity.
    assert (A3 : admissible Vector d3).
    { apply adm_ds with (i := 1%nat); try reflexivity; try lia.
      - destruct S1; constructor; assumption.
      - simpl. destruct HI as [->| ->]; [left|right]; reflexivity.
      - rewrite ED. assert (W' : wfd Vector (hd M d) (U Vector (hd M d) 1 Z)).
        { apply U_wfd; [apply hd_statics; assumption|]. apply hd_wfd; assumption. }
        destruct W'; constructor; assumption. }
    rewrite (rotate2_ok Vector d3 1 i (fname i)); try assumption; try lia; try reflexivity;
      [|apply lower_fname; exact Hi|intros [X|X] _; [lia|exact (HP X)]].
    unfold goto. rewrite ED. rewrite E3 at 1 2 3. rewrite relabel_relabel, U_relabel, D_relabel.
    rewrite D_U; [|apply hd_statics; assumption|apply hd_wfd; assumption].
    unfold headed. fold Z. f_equal.
    apply ds_ext; try reflexivity.
    + change (fname i = coord_sys d). symmetry. exact C.
    + change (axis_labels Vector (fname i) (beam_labels d) = dir d). rewrite Hd, C. reflexivity.
    + change (option_map (fun _ => imu_labels (fname i)) (dirIMU d) = dirIMU d).
      rewrite C in HI. destruct HI as [->| ->]; reflexivity.
Qed.

Lemma i2h_commutes M d out d1 d2 : admissible Vector d -> proper_rotation M -> In "vel"%string (rotate_vars d) ->
  inst_model d = "vector"%string -> inst2head d = None -> frame_ok d (coord_sys d) ->
  rotate2 d out = Ok d1 -> set_inst2head_rotmat d M = Ok d2 ->
  exists d3, rotate2 d2 out = Ok d3 /\ set_inst2head_rotmat d1 M = Ok d3.
Proof.
  intros A P I Hm Hn F H1 H2. destruct (adm_index _ _ A) as (i & Hi & C).
  pose proof A as A'. apply adm_split in A'. destruct A' as (S & _ & Hd & HI & W).
  destruct (rotate2_inv Vector d i out d1 A C Hi H1) as (j & Hj & Ho & HC & ->).
  rewrite (i2h_ok M d i) in H2 by assumption. injection H2 as <-.
  assert (HP : (i = 3%nat \/ j = 3%nat) -> principal_heading d <> None).
  { intros H3. destruct (Nat.eq_dec i j) as [->|Nij].
    - eapply frame_ok_cross; try eassumption. lia.
    - apply HC; assumption. }
  eexists. split.
  - apply (rotate2_ok Vector _ i j out); try assumption.
    apply headed_adm; assumption.
  - rewrite (i2h_ok M (goto Vector i j d) j); try assumption; try reflexivity.
    + unfold headed at 1.
      assert (E2 : forall Z, D Vector (goto Vector i j d) j Z = D Vector d j Z) by (intros; apply D_relabel).
      assert (E3 : data (goto Vector i j d) = U Vector d j (D Vector d i (data d))) by reflexivity.
      rewrite E2, E3. rewrite D_U by (try apply D_wfd; assumption).
      assert (E4 : hd M (goto Vector i j d) = relabel Vector (fname j) (set_data (hd M d) (data (goto Vector i j d)))) by reflexivity.
      rewrite E4, U_relabel. f_equal. unfold goto at 2. unfold headed.
      assert (E5 : forall Z, D Vector (set_data (hd M d) (U Vector (hd M d) i (D Vector d i (data d)))) i Z = D Vector (hd M d) i Z) by (intros; apply D_set_data).
      rewrite E5. cbn [data set_data]. rewrite D_U.
      2: apply hd_statics; assumption.
      2: apply hd_wfd; [exact I|apply D_wfd; assumption].
      rewrite U_set_data. reflexivity.
    + apply goto_adm; assumption.
    + split; [apply fname_in; exact Hj|]. intros Hp. apply HP. right.
      apply (fname_inj j 3); [exact Hj|lia|exact Hp].
Qed.

Lemma i2h_result M d : admissible Vector d -> proper_rotation M -> In "vel"%string (rotate_vars d) ->
  inst_model d = "vector"%string -> inst2head d = None -> frame_ok d (coord_sys d) ->
  exists d', set_inst2head_rotmat d M = Ok d' /\ admissible Vector d' /\ inst2head d' = Some M /\
    coord_sys d' = coord_sys d /\ forall N, set_inst2head_rotmat d' N = Err Inst2headTwice d'.
Proof.
  intros A P I Hm Hn F. destruct (adm_index _ _ A) as (i & Hi & C).
  exists (headed i M d). split; [apply i2h_ok; assumption|]. split; [apply headed_adm; assumption|].
  split; [reflexivity|]. split; [reflexivity|]. intros N. unfold set_inst2head_rotmat.
  change (inst_model (headed i M d)) with (inst_model d). rewrite Hm. reflexivity.
Qed.

Lemma i2h_inst M d d' k c x : admissible Vector d -> proper_rotation M -> In "vel"%string (rotate_vars d) ->
  inst_model d = "vector"%string -> inst2head d = None -> coord_sys d = "inst"%string ->
  set_inst2head_rotmat d M = Ok d' -> value d "vel" k c = Some x -> value d' "vel" k c = Some (mv M x).
Proof.
  intros A P I Hm Hn C H V. pose proof A as A'. apply adm_split in A'. destruct A' as (S & _ & Hd & HI & W).
  rewrite (i2h_ok M d 1) in H; try assumption; try lia.
  2: { split; [apply A|rewrite C; discriminate]. }
  injection H as <-. eapply value_iter; [|exact V].
  unfold headed. cbn [data set_data]. rewrite hd_U1 by exact Hn. rewrite U_D by assumption.
  change (head_data false (hd M d) (data d)) with (iter_data ["vel"%string] (map_cells (mv M)) (data d)).
  rewrite lookup_iter. destruct (lookup "vel" (data d)); reflexivity.
Qed.

(** C09 *)
Lemma accepted_orthonormal M : orthonormal M -> check_rotmat_det M = true -> det3 M = 1.
Proof.
  intros O H. unfold check_rotmat_det in H. rewrite det_det3 in H by apply O.
  destruct (Rlt_dec _ _) as [L|]; [|discriminate].
  pose proof (orth_det_nz M O) as E.
  assert (D : (det3 M - 1) * (det3 M + 1) = 0) by lra.
  apply Rmult_integral in D. destruct D as [D|D]; [lra|].
  replace (det3 M) with (-1) in L by lra. rewrite Rabs_left in L by lra. lra.
Qed.

(** for every vector, M (M^T x) = x and M^T (M x) = x: exactly orthonormality *)
Lemma reversible_orthonormal M : is_mat 3 M ->
  (forall x, is_vec 3 x -> mv M (mv (tr 3 M) x) = x) ->
  (forall x, is_vec 3 x -> mv (tr 3 M) (mv M x) = x) -> orthonormal M.
Proof.
  intros HM H1 H2. destruct (is_mat3 M HM) as (a & b & c & d & e & f & g & h & i & ->).
  pose proof (H1 [1;0;0] eq_refl) as A1. pose proof (H1 [0;1;0] eq_refl) as A2. pose proof (H1 [0;0;1] eq_refl) as A3.
  pose proof (H2 [1;0;0] eq_refl) as B1. pose proof (H2 [0;1;0] eq_refl) as B2. pose proof (H2 [0;0;1] eq_refl) as B3.
  clear H1 H2. cbn in A1, A2, A3, B1, B2, B3.
  injection A1 as A11 A12 A13. injection A2 as A21 A22 A23. injection A3 as A31 A32 A33.
  injection B1 as B11 B12 B13. injection B2 as B21 B22 B23. injection B3 as B31 B32 B33.
  apply orth_of_eqs; repeat split; lra.
Qed.

Lemma only_vector M d : inst_model d <> "vector"%string -> set_inst2head_rotmat d M = Err Inst2headNotVector d.
Proof.
  intros H. unfold set_inst2head_rotmat. apply String.eqb_neq in H. rewrite H. reflexivity.
Qed.

(** the counterexample: identity beam matrix, a shear of determinant 1, velocity (1,0,0) *)
Definition I3 : mat := [[1;0;0];[0;1;0];[0;0;1]].
Definition shear : mat := [[1;1;0];[0;1;0];[0;0;1]].
Definition dshear (x : vec) (cs : string) (di : list string) (h : option mat) (b : bool) : ds :=
  Ds "nortek vector" "vector" cs di None ["1";"2";"3"]%string "up" I3 [I3] None h b None None
     ["vel"%string] [("vel"%string, Var 3 [[x]])].

Lemma det3_ut a b c d e f : det 3 [[a;b;c];[0;d;e];[0;0;f]] = a * d * f.
Proof. cbn. unfold sgn. cbn. ring. Qed.

Lemma shear_check : check_rotmat_det shear = true.
Proof.
  unfold check_rotmat_det, shear. rewrite det3_ut. destruct (Rlt_dec _ _) as [|N]; [reflexivity|].
  exfalso. apply N. replace (1 * 1 * 1 - 1) with 0 by ring. rewrite Rabs_R0. lra.
Qed.

Lemma I3_sing : singular 3 I3 = false.
Proof. unfold singular, I3. rewrite det3_ut. destruct (Req_EM_T _ _); [lra|reflexivity]. Qed.

Lemma base_shear z : base_beam2inst true (dshear z "inst" ["X";"Y";"Z"]%string (Some shear) true) =
  Ok (dshear (mv (inv 3 I3) z) "beam" ["1";"2";"3"]%string (Some shear) true).
Proof.
  unfold base_beam2inst. set (d := dshear z _ _ _ _).
  replace (singular (List.length (beam2inst d)) (beam2inst d)) with false by (symmetry; exact I3_sing).
  reflexivity.
Qed.

Lemma shear_counterexample :
  exists d M d1 d2 d3, set_inst2head_rotmat d M = Ok d1 /\ coord_sys d1 = "beam"%string /\
    is_mat 3 M /\
    check_rotmat_det M = true /\ rotate2 d1 "inst" = Ok d2 /\ rotate2 d2 "beam" = Ok d3 /\
    value d3 "vel" 0 0 <> value d1 "vel" 0 0.
Proof.
  set (b := ["1";"2";"3"]%string). set (xyz := ["X";"Y";"Z"]%string).
  exists (dshear [1;0;0] "beam" b None false), shear, (dshear [1;0;0] "beam" b (Some shear) true),
    (dshear (mv shear (mv I3 [1;0;0])) "inst" xyz (Some shear) true),
    (dshear (mv (inv 3 I3) (mv (tr 3 shear) (mv shear (mv I3 [1;0;0])))) "beam" b (Some shear) true).
  assert (CH : forall x cs di, check_inst2head (dshear x cs di (Some shear) true) = inr true).
  { intros. unfold check_inst2head. cbn [inst2head inst2head_was_set dshear negb].
    rewrite shear_check. reflexivity. }
  split; [reflexivity|]. split; [reflexivity|]. split; [split; [reflexivity|repeat constructor]|].
  split; [apply shear_check|]. split; [|split].
  - unfold rotate2. rewrite CH.
    change (family_of (make_model (dshear [1;0;0] "beam" b (Some shear) true))) with (Some Vector).
    change (lower (coord_sys (dshear [1;0;0] "beam" b (Some shear) true))) with "beam"%string.
    change (lower "inst") with "inst"%string.
    cbn [rc_index String.eqb Ascii.eqb Bool.eqb Nat.ltb Nat.leb negb].
    cbn [rot_loop]. change (String.eqb (lower (coord_sys (dshear [1;0;0] "beam" b (Some shear) true))) "inst") with false.
    cbn iota. unfold one_step.
    change (coord_sys (dshear [1;0;0] "beam" b (Some shear) true)) with "beam"%string.
    cbn [rc_index String.eqb Ascii.eqb Bool.eqb step_fun]. unfold vec_beam2inst.
    assert (B : base_beam2inst false (dshear [1;0;0] "beam" b (Some shear) true) =
                Ok (dshear (mv I3 [1;0;0]) "inst" xyz (Some shear) true)) by reflexivity.
    rewrite B. cbn [bind]. unfold rotate_inst2head. rewrite CH. reflexivity.
  - set (y := mv shear (mv I3 [1;0;0])).
    unfold rotate2. rewrite CH.
    change (family_of (make_model (dshear y "inst" xyz (Some shear) true))) with (Some Vector).
    change (lower (coord_sys (dshear y "inst" xyz (Some shear) true))) with "inst"%string.
    change (lower "beam") with "beam"%string.
    cbn [rc_index String.eqb Ascii.eqb Bool.eqb Nat.ltb Nat.leb negb].
    cbn [rot_loop]. change (String.eqb (lower (coord_sys (dshear y "inst" xyz (Some shear) true))) "beam") with false.
    cbn iota. unfold one_step.
    change (coord_sys (dshear y "inst" xyz (Some shear) true)) with "inst"%string.
    cbn [rc_index String.eqb Ascii.eqb Bool.eqb step_fun]. unfold vec_beam2inst.
    unfold rotate_inst2head. rewrite CH.
    change (over_vars ["vel"%string] (fun v => if Nat.eqb (ncomp v) 3 then inr (map_cells (mv (tr 3 shear)) v) else inl NotAVector)
       (dshear y "inst" xyz (Some shear) true)) with (Ok (dshear (mv (tr 3 shear) y) "inst" xyz (Some shear) true)).
    cbn [bind inst2head dshear]. set (z := mv (tr 3 shear) y).
    change (bind (base_beam2inst true (dshear z "inst" xyz (Some shear) true)) (rot_loop 3 Vector true "beam") =
            Ok (dshear (mv (inv 3 I3) z) "beam" b (Some shear) true)).
    rewrite base_shear. reflexivity.
  - intros H.
    change (Some (mv (inv 3 I3) (mv (tr 3 shear) (mv shear (mv I3 [1;0;0])))) = Some [1;0;0]) in H.
    apply (f_equal (fun o => match o with Some l => mv I3 l | None => [] end)) in H. cbv beta iota in H. rewrite inv3_r in H.
    + apply (f_equal (fun l => nth 1 l 0)) in H. cbn in H. lra.
    + split; [reflexivity|repeat constructor].
    + unfold I3. rewrite det3_ut. lra.
    + reflexivity.
Qed.
