(** Turning the vectors of a Signature dataset to earth coordinates, whatever its matrices are. *)
From Coq Require Import String.
From Coq Require Import Reals List Bool Lia Lra.
From Verif.Model Require Import Linalg Rotate.
From Verif.Spec Require Import Linalg Rotate.
From Verif.Proofs Require Import Linalg.
From Verif.Proofs Require Rotate RotateValues.
Import ListNotations.
Open Scope R_scope.

Record ready (D : ds) : Prop := {
  rd_make : standard_make Signature (make_model D);
  rd_i2h : inst2head D = None;
  rd_beam : List.length (beam_labels D) = 4%nat;
  rd_dir : List.length (dir D) = 4%nat;
  rd_imu : dirIMU D = None \/ exists l, dirIMU D = Some l /\ List.length l = 3%nat;
  rd_names : NoDup (rotate_vars D);
  rd_keys : NoDup (map fst (data D));
  rd_vars : forall nm, In nm (rotate_vars D) -> exists v, lookup nm (data D) = Some v /\ (ncomp v = 3%nat \/ ncomp v = 4%nat) /\ List.length (cells v) = List.length (orientmat D) }.
Definition turn (D : ds) (n : nat) (O : mat) (x : vec) : vec :=
  if Nat.eqb n 3 then mv (tr 3 O) (Rotate.sgn3 (Rotate.isdown D) x) else mv (rmat4 (tr 3 O)) (Rotate.sgn4 (Rotate.isdown D) x).
Definition turnF (D : ds) (v : var) : var :=
  if Nat.eqb (ncomp v) 3 then Rotate.zip_var (Rotate.sig_f3 false (Rotate.isdown D) (orientmat D)) v else Rotate.zip_var (Rotate.sig_f4 false (Rotate.isdown D) (orientmat D)) v.
Lemma zip_cells_length fs c : List.length fs = List.length c -> List.length (zip_cells fs c) = List.length c.
Proof. revert fs. induction c as [|x c IH]; intros [|f fs] H; try discriminate; [reflexivity|]. cbn. f_equal. apply IH. cbn in H. lia. Qed.
Lemma f3_length D : List.length (Rotate.sig_f3 false (Rotate.isdown D) (orientmat D)) = List.length (orientmat D).
Proof. unfold Rotate.sig_f3. now rewrite !map_length. Qed.
Lemma f4_length D : List.length (Rotate.sig_f4 false (Rotate.isdown D) (orientmat D)) = List.length (orientmat D).
Proof. unfold Rotate.sig_f4. now rewrite !map_length. Qed.
Lemma inst2earth_ok D : ready D -> coord_sys D = "inst"%string ->
  sig_inst2earth false D = Ok (Rotate.relabel Signature "earth" (set_data D (Rotate.iter_data (rotate_vars D) (turnF D) (data D)))).
Proof.
  intros Rd C. unfold sig_inst2earth. rewrite C. change (lower "inst") with "inst"%string. change (String.eqb "inst" "inst") with true. cbn [negb andb].
  rewrite (Rotate.over_vars_ok (rotate_vars D) _ (turnF D) (fun v => (ncomp v = 3%nat \/ ncomp v = 4%nat) /\ List.length (cells v) = List.length (orientmat D))).
  - cbn [bind]. apply Rotate.set_coords_ok; [exact (rd_make D Rd)|do 2 right; now left|exact (rd_beam D Rd)|exact (rd_dir D Rd)|exact (rd_imu D Rd)].
  - intros v [Nc L]. unfold turnF. split.
    + destruct Nc as [E|E]; rewrite E; cbn [Nat.eqb]; unfold map_time.
      * rewrite !map_length, L, Nat.eqb_refl. reflexivity.
      * rewrite !map_length, L, Nat.eqb_refl. reflexivity.
    + destruct Nc as [E|E]; rewrite E; cbn [Nat.eqb]; unfold Rotate.zip_var; cbn [ncomp cells].
      * split; [left; exact E|]. rewrite zip_cells_length; [exact L|rewrite f3_length; now rewrite L].
      * split; [right; exact E|]. rewrite zip_cells_length; [exact L|rewrite f4_length; now rewrite L].
  - exact (rd_keys D Rd).
  - exact (rd_vars D Rd).
Qed.
Lemma inst2earth_value D X nm v k c x O : ready D -> In nm (rotate_vars D) -> lookup nm (data D) = Some v -> value D nm k c = Some x -> nth_error (orientmat D) k = Some O ->
  X = Rotate.iter_data (rotate_vars D) (turnF D) (data D) ->
  value (Rotate.relabel Signature "earth" (set_data D X)) nm k c = Some (turn D (ncomp v) O x).
Proof.
  intros Rd I L V EO ->. set (d' := Rotate.relabel _ _ _).
  assert (L' : lookup nm (data d') = Some (turnF D v)).
  { unfold d'. cbn [data Rotate.relabel set_cs set_data]. rewrite Rotate.lookup_iter, L, (RotateValues.count_one nm _ (rd_names D Rd) I). reflexivity. }
  unfold turn, turnF in *. destruct (Nat.eqb (ncomp v) 3).
  - refine (eq_trans (RotateValues.value_zip D d' nm k c _ x (fun v => if Rotate.isdown D then mv (tr 3 O) (vmul sign3 v) else mv (tr 3 O) v) v L L' _ V) _).
    + unfold Rotate.sig_f3. rewrite !nth_error_map, EO. reflexivity.
    + unfold Rotate.sgn3. destruct (Rotate.isdown D); reflexivity.
  - refine (eq_trans (RotateValues.value_zip D d' nm k c _ x (fun v => if Rotate.isdown D then mv (rmat4 (tr 3 O)) (vmul sign4 v) else mv (rmat4 (tr 3 O)) v) v L L' _ V) _).
    + unfold Rotate.sig_f4. rewrite !nth_error_map, EO. reflexivity.
    + unfold Rotate.sgn4. destruct (Rotate.isdown D); reflexivity.
Qed.
Definition beamed (D : ds) : ds :=
  Rotate.relabel Signature "inst" (set_data D (Rotate.iter_data (Rotate.sel (List.length (beam2inst D)) (rotate_vars D) (data D)) (map_cells (mv (beam2inst D))) (data D))).
Lemma beam2inst_ok D : ready D -> coord_sys D = "beam"%string -> base_beam2inst false D = Ok (beamed D).
Proof.
  intros Rd C. unfold base_beam2inst. rewrite C. change (lower "beam") with "beam"%string. change (String.eqb "beam" "beam") with true. cbn [negb andb].
  rewrite (Rotate.select_sel (List.length (beam2inst D)) (rotate_vars D) (data D)) by (intros nm I; destruct (rd_vars D Rd nm I) as (v & L & _); now exists v).
  rewrite (Rotate.over_vars_ok _ _ (map_cells (mv (beam2inst D))) (fun _ => True)).
  - cbn [bind]. apply Rotate.set_coords_ok; [exact (rd_make D Rd)|right; now left|exact (rd_beam D Rd)|exact (rd_dir D Rd)|exact (rd_imu D Rd)].
  - intros v _. split; [reflexivity|exact Logic.I].
  - exact (rd_keys D Rd).
  - intros nm I. unfold Rotate.sel in I. apply filter_In in I. destruct I as [I _]. destruct (rd_vars D Rd nm I) as (v & L & _). now exists v.
Qed.
Lemma beamed_lookup D nm v : ready D -> In nm (rotate_vars D) -> lookup nm (data D) = Some v ->
  lookup nm (data (beamed D)) = Some (if Nat.eqb (ncomp v) (List.length (beam2inst D)) then map_cells (mv (beam2inst D)) v else v).
Proof.
  intros Rd I L. unfold beamed. cbn [data Rotate.relabel set_cs set_data]. rewrite Rotate.lookup_iter, L. f_equal.
  destruct (Nat.eqb (ncomp v) (List.length (beam2inst D))) eqn:E.
  - rewrite RotateValues.count_one; [reflexivity|apply NoDup_filter, (rd_names D Rd)|]. apply filter_In. split; [exact I|]. rewrite L. exact E.
  - rewrite Rotate.count_notin; [reflexivity|]. intros J. apply filter_In in J. destruct J as [_ J]. rewrite L in J. congruence.
Qed.
Lemma keys_iter names F l : map fst (Rotate.iter_data names F l) = map fst l.
Proof. unfold Rotate.iter_data. rewrite map_map. apply map_ext. intros [k w]. reflexivity. Qed.
Lemma beamed_ready D : ready D -> ready (beamed D).
Proof.
  intros Rd. constructor; try apply Rd.
  - apply (Rotate.axis_labels_length Signature). apply Rd.
  - cbn. destruct (rd_imu D Rd) as [->|(l & -> & L)]; [now left|right]. eexists. split; reflexivity.
  - unfold beamed. cbn [data Rotate.relabel set_cs set_data]. rewrite keys_iter. apply Rd.
  - intros nm I. destruct (rd_vars D Rd nm I) as (v & L & Nc & Lc). rewrite (beamed_lookup D nm v Rd I L). eexists. split; [reflexivity|].
    destruct (Nat.eqb (ncomp v) _); [|now split]. cbn [ncomp cells map_cells]. rewrite map_length. now split.
Qed.
Lemma beamed_value D nm v k c x : ready D -> In nm (rotate_vars D) -> lookup nm (data D) = Some v -> value D nm k c = Some x ->
  value (beamed D) nm k c = Some (if Nat.eqb (ncomp v) (List.length (beam2inst D)) then mv (beam2inst D) x else x).
Proof.
  intros Rd I L V. unfold value in *. rewrite (beamed_lookup D nm v Rd I L), L in *. destruct (Nat.eqb (ncomp v) _); [|exact V].
  cbn [cells map_cells]. rewrite nth_error_map. destruct (nth_error (cells v) k) as [row|]; [|discriminate]. cbn [option_map]. rewrite nth_error_map, V. reflexivity.
Qed.
(** what the vectors become *)
Definition turned_from (D : ds) (n : nat) (O : mat) (x : vec) : vec :=
  if String.eqb (coord_sys D) "beam" then turn D n O (if Nat.eqb n (List.length (beam2inst D)) then mv (beam2inst D) x else x)
  else if String.eqb (coord_sys D) "inst" then turn D n O x else x.
Lemma to_earth D : ready D -> In (coord_sys D) ["beam"; "inst"; "earth"]%string -> exists d', rotate2 D "earth" = Ok d' /\
  (forall nm v k c x O, In nm (rotate_vars D) -> lookup nm (data D) = Some v -> value D nm k c = Some x -> nth_error (orientmat D) k = Some O ->
     value d' nm k c = Some (turned_from D (ncomp v) O x)).
Proof.
  intros Rd F. unfold rotate2, check_inst2head. rewrite (rd_i2h D Rd). destruct (rd_make D Rd) as [Fa _]. rewrite Fa. unfold turned_from. cbn [In] in F.
  destruct F as [e|[e|[e|[]]]]; rewrite <- e; symmetry in e.
  - change (String.eqb "beam" "beam") with true. cbv iota.
    assert (E1 : rot_loop 4 Signature false "earth" D = rot_loop 3 Signature false "earth" (beamed D)).
    { change (rot_loop 4 Signature false "earth" D) with (if String.eqb (lower (coord_sys D)) "earth" then Ok D else bind (one_step Signature false D) (rot_loop 3 Signature false "earth")).
      unfold one_step. rewrite e. change (String.eqb (lower "beam") "earth") with false. change (String.eqb "beam" "ship") with false. cbv iota. change (rc_index "beam") with (Some 0%nat). cbn [step_fun].
      rewrite (beam2inst_ok D Rd e). reflexivity. }
    pose proof (beamed_ready D Rd) as R1.
    assert (E2 : rot_loop 3 Signature false "earth" (beamed D) = Ok (Rotate.relabel Signature "earth" (set_data (beamed D) (Rotate.iter_data (rotate_vars (beamed D)) (turnF (beamed D)) (data (beamed D)))))).
    { change (rot_loop 3 Signature false "earth" (beamed D)) with (if String.eqb (lower (coord_sys (beamed D))) "earth" then Ok (beamed D) else bind (one_step Signature false (beamed D)) (rot_loop 2 Signature false "earth")).
      unfold one_step. change (coord_sys (beamed D)) with "inst"%string. change (String.eqb (lower "inst") "earth") with false. change (String.eqb "inst" "ship") with false. cbv iota. change (rc_index "inst") with (Some 1%nat). cbn [step_fun].
      rewrite (inst2earth_ok (beamed D) R1 eq_refl). reflexivity. }
    eexists. split.
    + change (String.eqb (lower "beam") "ship") with false. change (lower "beam") with "beam"%string. change (lower "earth") with "earth"%string. cbv iota. change (rc_index "beam") with (Some 0%nat). change (rc_index "earth") with (Some 2%nat).
      cbv iota beta. change (negb (Nat.ltb 0 2)) with false. rewrite E1, E2. reflexivity.
    + intros nm v k c x O I L V EO.
      pose proof (beamed_value D nm v k c x Rd I L V) as V1.
      rewrite (inst2earth_value (beamed D) _ nm _ k c _ O R1 I (beamed_lookup D nm v Rd I L) V1 EO eq_refl). f_equal.
      destruct (Nat.eqb (ncomp v) (List.length (beam2inst D))); reflexivity.
  - change (String.eqb "inst" "beam") with false. change (String.eqb "inst" "inst") with true. cbv iota. eexists. split.
    + change (String.eqb (lower "inst") "ship") with false. change (lower "inst") with "inst"%string. change (lower "earth") with "earth"%string. cbv iota. change (rc_index "inst") with (Some 1%nat). change (rc_index "earth") with (Some 2%nat).
      cbv iota beta. change (negb (Nat.ltb 1 2)) with false.
      change (rot_loop 4 Signature false "earth" D) with (if String.eqb (lower (coord_sys D)) "earth" then Ok D else bind (one_step Signature false D) (rot_loop 3 Signature false "earth")).
      unfold one_step. rewrite e. change (String.eqb (lower "inst") "earth") with false. change (String.eqb "inst" "ship") with false. cbv iota. change (rc_index "inst") with (Some 1%nat). cbn [step_fun].
      rewrite (inst2earth_ok D Rd e). reflexivity.
    + intros nm v k c x O I L V EO. exact (inst2earth_value D _ nm v k c x O Rd I L V EO eq_refl).
  - change (String.eqb "earth" "beam") with false. change (String.eqb "earth" "inst") with false. cbv iota. exists D. split.
    + change (String.eqb (lower "earth") "ship") with false. change (lower "earth") with "earth"%string. cbv iota. change (rc_index "earth") with (Some 2%nat). cbv iota.
      cbn [rot_loop]. rewrite e. change (String.eqb (lower "earth") "earth") with true. reflexivity.
    + intros nm v k c x O I L V EO. exact V.
Qed.
(** the declination of a dataset that is not in earth coordinates *)
Lemma declined D a : declination D = None -> coord_sys D <> "earth"%string -> exists D2, set_declination D a = Ok D2 /\ declination D2 = Some a /\ coord_sys D2 = coord_sys D /\
  (ready D -> ready D2) /\ rotate_vars D2 = rotate_vars D /\ data D2 = data D /\ orientmat D2 = map (decl_mat a) (orientmat D) /\ orientation D2 = orientation D /\ beam2inst D2 = beam2inst D /\ dirIMU D2 = dirIMU D.
Proof.
  intros N C. unfold set_declination. rewrite N. apply String.eqb_neq in C. change (coord_sys (set_decl D None)) with (coord_sys D). rewrite C. cbn [bind].
  eexists. split; [reflexivity|]. repeat (split; [reflexivity|]). split.
  - intros [M I B Di Im Nm K V]. constructor; try assumption. cbn. intros nm Hn. destruct (V nm Hn) as (v & L & Nc & Lc). exists v. rewrite map_length. repeat split; assumption.
  - repeat split; reflexivity.
Qed.
(** turning with the matrix with the declination: turning, then clockwise *)
Lemma decl_turn n a O d x : is_mat 3 O -> is_vec n x -> n = 3%nat \/ n = 4%nat ->
  turn d n (decl_mat a O) x = clockwise a (turn d n O x).
Proof.
  intros Mo Vx Hn. destruct (is_mat3 O Mo) as (a0 & b0 & c0 & a1 & b1 & c1 & a2 & b2 & c2 & ->).
  unfold turn. destruct Hn as [->| ->]; cbn [Nat.eqb].
  - destruct (is_vec3 x Vx) as (p & q & r & ->). unfold Rotate.sgn3. destruct (Rotate.isdown d);
    unfold decl_mat, Rdec, clockwise, mm, tr, mv, dot, sign3; rewrite cos_neg, sin_neg; cbn [map seq nth vmul]; apply vec3_ext; ring.
  - destruct (is_vec4 x Vx) as (p & q & r & s & ->). unfold Rotate.sgn4. destruct (Rotate.isdown d);
    unfold decl_mat, Rdec, clockwise, rmat4, ent, mm, tr, mv, dot, sign4; rewrite cos_neg, sin_neg; cbn [map seq nth vmul]; apply vec4_ext; field.
Qed.
