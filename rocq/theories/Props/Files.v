(** Properties C57-C61, C102, C103: file names, file types, userdata files, missing samples at the end of
    a file, saving and loading. *)
From Coq Require Import String Ascii.
From Coq Require Import ZArith QArith Reals List Bool Lia Lra.
From Verif.Model Require FileNames HandleNan SaveLoad.
From Verif.Spec Require FileNames HandleNan SaveLoad.
From Verif.Proofs Require FileNames HandleNan SaveLoad.
Import ListNotations.
Close Scope R_scope.
Open Scope nat_scope.
Open Scope string_scope.
Open Scope list_scope.

Section Names.
Import Verif.Model.FileNames Verif.Spec.FileNames.

(** ** C57 *)
(** every path has a base name, so the three cases below cover every path *)
Theorem C57_base_name : forall path, exists nm, basename path nm.
Proof. exact Proofs.FileNames.basename_exists. Qed.
Theorem C57_right_extension_kept : forall path nm stem ext, extension ext -> basename path nm -> nm = stem ++ "."%char :: ext ->
  check_file_ext path ext = Some path.
Proof. exact Proofs.FileNames.accepts. Qed.
Theorem C57_wrong_extension_refused : forall path nm ext, extension ext -> basename path nm -> In "."%char nm ->
  (forall stem, nm <> stem ++ "."%char :: ext) -> check_file_ext path ext = None.
Proof. exact Proofs.FileNames.refuses. Qed.
Theorem C57_extension_appended : forall path nm ext, basename path nm -> ~ In "."%char nm ->
  check_file_ext path ext = Some (path ++ "."%char :: ext).
Proof. exact Proofs.FileNames.appends. Qed.
Theorem C57_idempotent : forall path ext p, extension ext -> check_file_ext path ext = Some p -> check_file_ext p ext = Some p.
Proof. exact Proofs.FileNames.idempotent. Qed.
Example C57_ex : extension (chars "nc") /\ basename (chars "a.b/c\d.e.nc") (chars "d.e.nc") /\
  check_file_ext (chars "a.b/c\d.e.nc") (chars "nc") = Some (chars "a.b/c\d.e.nc") /\
  check_file_ext (chars "a.b/c") (chars "nc") = Some (chars "a.b/c.nc") /\
  check_file_ext (chars "a.nc.b") (chars "nc") = None.
Proof.
  split; [|split; [|repeat split; reflexivity]].
  - intros c [<-|[<-|[]]]; split; try discriminate; intros [H|H]; discriminate.
  - split; [|right; exists (chars "a.b/c"), "\"%char; split; [reflexivity|right; reflexivity]].
    intros c H. simpl in H. repeat (destruct H as [<-|H]; [intros [E|E]; discriminate|]). destruct H.
Qed.

(** ** C58 *)
Theorem C58_first_40_bytes : forall a b, firstn 40 a = firstn 40 b -> read_dispatch a = read_dispatch b /\ get_filetype a = get_filetype b.
Proof. intros a b H. unfold read_dispatch, get_filetype. rewrite H. split; reflexivity. Qed.
Theorem C58_magic_bytes : forall file,
  (get_filetype file = RDI <-> starts [127; 121]%Z file \/ starts [127; 127]%Z file) /\
  (get_filetype file = SignatureFile <-> starts [165; 10]%Z file) /\
  (get_filetype file = NortekFile <-> starts [165; 5]%Z file) /\
  (get_filetype file = LfsPointer <-> starts (text_bytes "version https://git-lfs.github.com/spec/") file).
Proof. exact Proofs.FileNames.filetypes. Qed.
(** a parser is called only on a file of its type; other files and LFS pointers are refused *)
Theorem C58_dispatch : forall file t,
  (read_dispatch file = Calls t -> get_filetype file = t /\ t <> Unknown /\ t <> LfsPointer) /\
  (~ starts [127; 121]%Z file -> ~ starts [127; 127]%Z file -> ~ starts [165; 10]%Z file -> ~ starts [165; 5]%Z file ->
   read_dispatch file = IOErr).
Proof.
  intros file t. split.
  - unfold read_dispatch. destruct (get_filetype file) eqn:E; intros H; try discriminate; injection H as <-; repeat split; discriminate.
  - intros A B C D. destruct (Proofs.FileNames.filetypes file) as (H1 & H2 & H3 & _). unfold read_dispatch.
    destruct (get_filetype file); try reflexivity; exfalso; tauto.
Qed.
Example C58_ex : get_filetype [165; 10; 10; 0]%Z = SignatureFile /\ get_filetype [127]%Z = Unknown /\ read_dispatch lfs_magic = IOErr.
Proof. repeat split. Qed.

(** ** C60 *)
(** userdata=True: the file named after the data file without its extension, else after the data file *)
Theorem C60_true_partial : forall fs stem ext, ~ In "."%char ext ->
  let filename := stem ++ "."%char :: ext in
  (forall d, fs (stem ++ chars ".userdata.json") = Some d -> find_userdata fs filename (UBool true) = read_userdata d) /\
  (forall d, fs (stem ++ chars ".userdata.json") = None -> fs (filename ++ chars ".userdata.json") = Some d ->
     find_userdata fs filename (UBool true) = read_userdata d) /\
  (fs (stem ++ chars ".userdata.json") = None -> fs (filename ++ chars ".userdata.json") = None ->
     find_userdata fs filename (UBool true) = Some []).
Proof.
  intros fs stem ext N filename.
  assert (E : find_userdata fs filename (UBool true) =
    match fs (stem ++ userdata_suffix) with Some d => read_userdata d
    | None => match fs (filename ++ userdata_suffix) with Some d => read_userdata d | None => Some [] end end).
  { unfold find_userdata. cbn [truthy]. unfold filename. change dot with "."%char. rewrite (Proofs.FileNames.before_app "."%char stem ext N). reflexivity. }
  rewrite E. unfold userdata_suffix. split; [|split].
  - intros d ->. reflexivity.
  - intros d -> ->. reflexivity.
  - intros -> ->. reflexivity.
Qed.
Theorem C60_no_extension : forall fs filename, ~ In "."%char filename ->
  find_userdata fs filename (UBool true) =
  match fs (filename ++ chars ".userdata.json") with Some d => read_userdata d | None => Some [] end.
Proof.
  intros fs filename N. unfold find_userdata. cbn [truthy]. change dot with "."%char. rewrite (Proofs.FileNames.before_none "."%char filename N).
  unfold userdata_suffix. destruct (fs (filename ++ chars ".userdata.json")); reflexivity.
Qed.
Theorem C60_false : forall fs filename, find_userdata fs filename (UBool false) = Some [].
Proof. reflexivity. Qed.
(** a file name given by the caller is not looked at *)
Theorem C60_named_file_ignored : forall fs filename c f,
  find_userdata fs filename (UName (c :: f)) = find_userdata fs filename (UBool true).
Proof. reflexivity. Qed.
Theorem C60_named_file_refuted : exists fs filename f d d', fs f = Some d /\ read_userdata d = Some d' /\
  find_userdata fs filename (UName f) <> Some d'.
Proof.
  exists (fun f => if name_eqb f (chars "x.json") then Some [(chars "declination", JNum 10)] else None), (chars "data.vec"), (chars "x.json").
  eexists. eexists. split; [reflexivity|]. split; [reflexivity|]. vm_compute. discriminate.
Qed.

(** ** C102: what a userdata file gives *)
Theorem C102_userdata_contents : forall d d', read_userdata d = Some d' ->
  (forall k, deprecated k -> get k d' = None) /\
  get (chars "inst2head_rotmat") d' = option_map matrix_of (given d (chars "body2head_rotmat") (chars "inst2head_rotmat")) /\
  (forall v, given d (chars "body2head_vec") (chars "inst2head_vec") = Some v -> exists l, to_list v = Some l /\ get (chars "inst2head_vec") d' = Some l) /\
  (forall k, ~ deprecated k -> ~ converted k -> get k d' = get k d).
Proof. exact Proofs.FileNames.userdata_spec. Qed.
Example C102_ex : exists d', read_userdata [(chars "body2head_rotmat", JStr (chars "identity")); (chars "declination", JNum 3);
    (chars "inst2head_vec", JList [JNum 0; JNum 0; JNum 1])] = Some d' /\
  get (chars "inst2head_rotmat") d' = Some JIdentity /\ get (chars "declination") d' = Some (JNum 3).
Proof. eexists. split; [reflexivity|]. split; reflexivity. Qed.
End Names.

Section Nan.
Import Verif.Model.HandleNan Verif.Spec.HandleNan.
(** ** C59. Missing: interior missing samples, components other than the last, and arrays that only
    happen to have as many columns as there are samples; see the refutations. *)
(** samples are removed from the end only, the same number from the time and from every variable as
    long as the time; that number is the number of samples without time or without the last component
    of an IMU variable *)
Theorem C59_removed_from_the_end_partial : forall d d', (forall v, In v (nvars d) -> rectangular v) -> handle_nan d = Some d' ->
  exists ks, NoDup ks /\ (forall k, In k ks <-> last_incomplete d k) /\
    ntime d' = firstn (length (ntime d) - length ks) (ntime d) /\
    nvars d' = map (fun v => if Nat.eqb (width v) (length (ntime d))
                     then NVar (vname v) (ndim v) (map (firstn (length (ntime d) - length ks)) (lines v)) else v) (nvars d).
Proof. exact Proofs.HandleNan.removed. Qed.
(** when the samples it looks for are all at the end, exactly they are removed *)
Theorem C59_trailing_removed_partial : forall d a, (forall v, In v (nvars d) -> rectangular v) -> ntime d <> [] -> a <= length (ntime d) ->
  (forall k, k < length (ntime d) -> (last_incomplete d k <-> a <= k)) ->
  exists d', handle_nan d = Some d' /\ ntime d' = firstn a (ntime d) /\
    nvars d' = map (fun v => if Nat.eqb (width v) (length (ntime d))
                     then NVar (vname v) (ndim v) (map (firstn a) (lines v)) else v) (nvars d).
Proof. exact Proofs.HandleNan.only_trailing. Qed.
Definition imu (l : list (list (option Q))) : nvar := NVar "accel" 2 l.
(** a missing sample in the middle costs a good sample at the end *)
Theorem C59_interior_refuted : exists d d', (forall v, In v (nvars d) -> rectangular v) /\ handle_nan d = Some d' /\
  ~ incomplete d (length (ntime d) - 1) /\ length (ntime d') < length (ntime d).
Proof.
  exists (NData [Some 0; Some 1; Some 2]%Q [imu [[Some 1; None; Some 1]; [Some 1; None; Some 1]; [Some 1; None; Some 1]]%Q]).
  eexists. split; [|split; [reflexivity|split; [|cbn; lia]]].
  - intros v [<-|[]]. split; [discriminate|]. split; [discriminate|]. intros l H. cbn in H. destruct H as [<-|[<-|[<-|[]]]]; reflexivity.
  - intros [H|(v & l & [<-|[]] & _ & _ & _ & H & M)]; [discriminate|]. cbn in H. destruct H as [<-|[<-|[<-|[]]]]; discriminate.
Qed.
(** a last sample whose first component is missing is kept *)
Theorem C59_first_component_refuted : exists d d', (forall v, In v (nvars d) -> rectangular v) /\ handle_nan d = Some d' /\
  incomplete d (length (ntime d) - 1) /\ ntime d' = ntime d.
Proof.
  exists (NData [Some 0; Some 1]%Q [imu [[Some 1; None]; [Some 1; Some 1]; [Some 1; Some 1]]%Q]).
  eexists. split; [|split; [reflexivity|split; [|reflexivity]]].
  - intros v [<-|[]]. split; [discriminate|]. split; [discriminate|]. intros l H. cbn in H. destruct H as [<-|[<-|[<-|[]]]]; reflexivity.
  - right. eexists. exists [Some 1; None]%Q. split; [left; reflexivity|]. split; [left; exists "", ""; reflexivity|].
    split; [reflexivity|]. split; [cbn; lia|]. split; [left; reflexivity|reflexivity].
Qed.
(** a 3 x 3 matrix loses a column in a file of three samples *)
Theorem C59_matrix_refuted : exists d d' v v', (forall v, In v (nvars d) -> rectangular v) /\ handle_nan d = Some d' /\
  In v (nvars d) /\ vname v = "beam2inst_orientmat" /\ In v' (nvars d') /\ vname v' = "beam2inst_orientmat" /\ width v = 3 /\ width v' = 2.
Proof.
  pose (m := NVar "beam2inst_orientmat" 2 [[Some 1; Some 0; Some 0]; [Some 0; Some 1; Some 0]; [Some 0; Some 0; Some 1]]%Q).
  exists (NData [Some 0; Some 1; None]%Q [m]). eexists. exists m. eexists. split; [|split; [reflexivity|]].
  - intros v [<-|[]]. split; [discriminate|]. split; [discriminate|]. intros l H. cbn in H. destruct H as [<-|[<-|[<-|[]]]]; reflexivity.
  - split; [left; reflexivity|]. split; [reflexivity|]. split; [left; reflexivity|]. repeat split.
Qed.
Example C59_ex : handle_nan (NData [Some 0; Some 1; Some 2; None]%Q [imu [[Some 1; Some 1; None; None]; [Some 1; Some 1; None; None]]%Q])
  = Some (NData [Some 0; Some 1]%Q [imu [[Some 1; Some 1]; [Some 1; Some 1]]%Q]).
Proof. reflexivity. Qed.
End Nan.

Section Netcdf.
Import Verif.Model.SaveLoad Verif.Spec.SaveLoad.
(** ** C61. Missing: names that clash with those of the parts of a complex variable, and several complex
    variables when one has a name of one character. *)
Theorem C61_round_trip_partial : forall cast d, NoDup (map fst (xvars d)) -> ~ In ""%string (map fst (xvars d)) ->
  no_clash (xvars d) -> long_names (xvars d) ->
  exists d', load (fst (save cast d)) = Some d' /\ xcomplex d' = None /\ xrotate d' = xrotate d /\
    forall nm, find nm (xvars d') = option_map (stored cast) (find nm (xvars d)).
Proof. exact Proofs.SaveLoad.round_trip. Qed.
Example C61_ex : exists d, NoDup (map fst (xvars d)) /\ ~ In ""%string (map fst (xvars d)) /\ no_clash (xvars d) /\ long_names (xvars d) /\
  is_complex (xvars d) "csd" /\ is_complex (xvars d) "fft".
Proof.
  exists (Xds [("csd", Cx [1%R] [2%R]); ("vel", F64 [3%R]); ("fft", Cx [4%R] [5%R]); ("amp", Oth [6%Z])] ["vel"] None).
  assert (P : forall nm, is_complex [("csd", Cx [1%R] [2%R]); ("vel", F64 [3%R]); ("fft", Cx [4%R] [5%R]); ("amp", Oth [6%Z])] nm -> nm = "csd" \/ nm = "fft").
  { intros nm (re & im & H). cbn [find] in H. destruct (String.eqb_spec "csd" nm) as [<-|]; [left; reflexivity|]. destruct (String.eqb "vel" nm); [discriminate|].
    destruct (String.eqb_spec "fft" nm) as [<-|]; [right; reflexivity|]. destruct (String.eqb "amp" nm); discriminate. }
  split; [repeat constructor; simpl; intuition discriminate|]. split; [simpl; intuition discriminate|].
  split; [intros nm H; destruct (P nm H) as [->| ->]; split; reflexivity|].
  split; [intros a b Ha _ _; destruct (P a Ha) as [->| ->]; discriminate|].
  split; eexists; eexists; reflexivity.
Qed.
Theorem C61_name_clash_refuted : exists cast d d' nm, NoDup (map fst (xvars d)) /\ find nm (xvars d) <> None /\
  load (fst (save cast d)) = Some d' /\ find nm (xvars d') = None.
Proof.
  exists (fun x => x), (Xds [("x", Cx [1%R] [2%R]); ("x_real", Oth [6%Z])] [] None). eexists. exists "x_real".
  split; [repeat constructor; simpl; intuition discriminate|]. split; [discriminate|]. split; reflexivity.
Qed.
Theorem C61_one_letter_refuted : exists cast d, NoDup (map fst (xvars d)) /\ no_clash (xvars d) /\ load (fst (save cast d)) = None.
Proof.
  exists (fun x => x), (Xds [("a", Cx [1%R] [2%R]); ("b", Cx [1%R] [2%R])] [] None).
  split; [repeat constructor; simpl; intuition discriminate|]. split; [|reflexivity].
  intros nm (re & im & H). cbn [find xvars] in H. destruct (String.eqb_spec "a" nm) as [<-|]; [split; reflexivity|].
  destruct (String.eqb_spec "b" nm) as [<-|]; [split; reflexivity|discriminate].
Qed.
(** the encoding supplied by the user is replaced by that of the variable *)
Theorem C61_user_encoding_refuted : forall E (user own : string -> option E) d nm, find nm d <> None -> user nm <> own nm ->
  save_encoding user own d nm <> user nm.
Proof. intros E user own d nm H N. rewrite Proofs.SaveLoad.encoding_ignored by exact H. congruence. Qed.

(** ** C103: save and the dataset of the caller. Missing: it changes when it holds float64 or complex
    variables. *)
Theorem C103_unchanged_partial : forall cast d,
  (forall nm v, In (nm, v) (xvars d) -> (forall x, v <> F64 x) /\ (forall re im, v <> Cx re im)) ->
  xvars (snd (save cast d)) = xvars d.
Proof. exact Proofs.SaveLoad.caller_kept. Qed.
(** no variable of the caller disappears *)
Theorem C103_nothing_lost : forall cast d nm, find nm (xvars d) <> None -> find nm (xvars (snd (save cast d))) <> None.
Proof. exact Proofs.SaveLoad.nothing_lost. Qed.
Example C103_nothing_lost_case : find "csd" [("csd", Cx [1%R] [2%R]); ("phi", Cx [1%R] [2%R])] <> None. Proof. discriminate. Qed.
Theorem C103_precision_lost_refuted : exists cast d, xvars (snd (save cast d)) <> xvars d /\ forall nm re im, find nm (xvars d) <> Some (Cx re im).
Proof.
  exists (fun _ => 0%R), (Xds [("vel", F64 [1%R])] [] None). split.
  - cbn. intros H. discriminate.
  - intros nm re im. cbn [find xvars]. destruct (String.eqb "vel" nm); discriminate.
Qed.
Theorem C103_extra_variables_refuted : exists cast d nm, find nm (xvars d) = None /\ find nm (xvars (snd (save cast d))) <> None.
Proof.
  exists (fun x => x), (Xds [("csd", Cx [1%R] [2%R])] [] None), "csd_real". split; [reflexivity|discriminate].
Qed.
End Netcdf.

(** All the theorems of this file, for one listing of axioms. *)
Definition all_theorems :=
  (@C57_base_name,
   @C57_right_extension_kept,
   @C57_wrong_extension_refused,
   @C57_extension_appended,
   @C57_idempotent,
   @C58_first_40_bytes,
   @C58_magic_bytes,
   @C58_dispatch,
   @C60_true_partial,
   @C60_no_extension,
   @C60_false,
   @C60_named_file_ignored,
   @C60_named_file_refuted,
   @C102_userdata_contents,
   @C59_removed_from_the_end_partial,
   @C59_trailing_removed_partial,
   @C59_interior_refuted,
   @C59_first_component_refuted,
   @C59_matrix_refuted,
   @C61_round_trip_partial,
   @C61_name_clash_refuted,
   @C61_one_letter_refuted,
   @C61_user_encoding_refuted,
   @C103_unchanged_partial,
   @C103_nothing_lost,
   @C103_precision_lost_refuted,
   @C103_extra_variables_refuted).
Print Assumptions all_theorems.
