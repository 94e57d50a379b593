From Coq Require Import String Ascii ZArith QArith List Bool Lia.
From Verif.Model Require Import FileNames.
From Verif.Spec Require Import FileNames.
Import ListNotations.
Open Scope nat_scope.
Open Scope string_scope.
Open Scope list_scope.

Lemma name_eqb_spec a b : reflect (a = b) (name_eqb a b).
Proof. unfold name_eqb. destruct (list_eq_dec ascii_dec a b); constructor; assumption. Qed.
Lemma name_eqb_refl a : name_eqb a a = true. Proof. destruct (name_eqb_spec a a); congruence. Qed.
Lemma mem_In c s : mem c s = true <-> In c s.
Proof.
  unfold mem. rewrite existsb_exists. split.
  - intros (x & H & E). apply Ascii.eqb_eq in E. subst. exact H.
  - intros H. exists c. split; [exact H|apply Ascii.eqb_refl].
Qed.
Lemma mem_not c s : ~ In c s -> mem c s = false.
Proof. intros H. destruct (mem c s) eqn:E; [|reflexivity]. apply mem_In in E. contradiction. Qed.

Lemma split_ne c s : split c s <> [].
Proof. destruct s as [|x s]; simpl; [discriminate|]. destruct (Ascii.eqb x c); [discriminate|]. destruct (split c s); discriminate. Qed.
Lemma last_cons {A} (x : A) l d : l <> [] -> last (x :: l) d = last l d.
Proof. destruct l; [congruence|reflexivity]. Qed.
Lemma split_none c b : ~ In c b -> split c b = [b].
Proof.
  induction b as [|x b IH]; intros H; [reflexivity|]. simpl in *.
  destruct (Ascii.eqb_spec x c); [tauto|]. rewrite IH by tauto. reflexivity.
Qed.
Lemma piece_none c b : ~ In c b -> last_piece c b = b.
Proof. intros H. unfold last_piece. rewrite split_none by exact H. reflexivity. Qed.
Lemma split_app c a b : exists l, l <> [] /\ split c (a ++ c :: b) = l ++ split c b.
Proof.
  induction a as [|x a (l & N & E)]; simpl.
  - rewrite Ascii.eqb_refl. exists [[]]. split; [discriminate|reflexivity].
  - rewrite E. destruct (Ascii.eqb x c); [exists ([] :: l); split; [discriminate|reflexivity]|].
    destruct l as [|w l]; [congruence|]. exists ((x :: w) :: l). split; [discriminate|reflexivity].
Qed.
Lemma last_app_ne {A} (l m : list A) d : m <> [] -> last (l ++ m) d = last m d.
Proof. induction l as [|x l IH]; intros H; [reflexivity|]. simpl app. rewrite last_cons; [auto|]. destruct l, m; simpl; congruence. Qed.
Lemma piece_app c a b : ~ In c b -> last_piece c (a ++ c :: b) = b.
Proof.
  intros H. unfold last_piece. destruct (split_app c a b) as (l & _ & ->).
  rewrite last_app_ne by apply split_ne. apply piece_none. exact H.
Qed.
Lemma last_split c (s : name) : (~ In c s) \/ exists a b, s = a ++ c :: b /\ ~ In c b.
Proof.
  induction s as [|x s [H|(a & b & -> & H)]].
  - left. simpl. tauto.
  - destruct (ascii_dec x c) as [->|N].
    + right. exists [], s. split; [reflexivity|exact H].
    + left. simpl. intros [|]; congruence || tauto.
  - right. exists (x :: a), b. split; [reflexivity|exact H].
Qed.

Definition unsep (c : ascii) : ascii := if Ascii.eqb c backslash then slash else c.
Lemma unsep_id nm : (forall c, In c nm -> ~ separator c) -> map unsep nm = nm /\ ~ In slash nm.
Proof.
  intros H. split.
  - rewrite <- (map_id nm) at 2. apply map_ext_in. intros c Hc. unfold unsep.
    destruct (Ascii.eqb_spec c backslash) as [->|]; [|reflexivity]. exfalso. apply (H _ Hc). right. reflexivity.
  - intros Hs. apply (H _ Hs). left. reflexivity.
Qed.
Lemma unsep_sep c : separator c -> unsep c = slash.
Proof. intros [->| ->]; reflexivity. Qed.
Lemma filename_is path nm : basename path nm -> last_piece slash (map unsep path) = nm.
Proof.
  intros [N [->|(dir & c & -> & S)]]; destruct (unsep_id nm N) as [E I].
  - rewrite E. apply piece_none. exact I.
  - rewrite map_app. cbn [map]. rewrite unsep_sep, E by exact S. apply piece_app. exact I.
Qed.
Lemma check_eq path nm ext : basename path nm -> check_file_ext path ext =
  if mem dot nm then (if name_eqb (last_piece dot nm) ext then Some path else None) else Some (path ++ dot :: ext).
Proof. intros H. unfold check_file_ext. fold unsep. change (fun c => _) with unsep. rewrite (filename_is path nm H). reflexivity. Qed.

Lemma basename_exists path : exists nm, basename path nm.
Proof.
  assert (D : forall c, separator c \/ ~ separator c).
  { intros c. unfold separator. destruct (ascii_dec c "/"%char), (ascii_dec c "\"%char); tauto. }
  induction path as [|x p (nm & N & H)].
  - exists []. split; [simpl; tauto|left; reflexivity].
  - destruct H as [->|(dir & c & -> & S)].
    + destruct (D x) as [S|NS].
      * exists nm. split; [exact N|]. right. exists [], x. split; [reflexivity|exact S].
      * exists (x :: nm). split; [|left; reflexivity]. intros c [->|Hc]; auto.
    + exists nm. split; [exact N|]. right. exists (x :: dir), c. split; [reflexivity|exact S].
Qed.

Lemma accepts path nm stem ext : extension ext -> basename path nm -> nm = stem ++ "."%char :: ext ->
  check_file_ext path ext = Some path.
Proof.
  intros X B E. rewrite (check_eq path nm ext B). assert (M : mem dot nm = true) by (apply mem_In; rewrite E; apply in_elt).
  rewrite M, E. change "."%char with dot. rewrite piece_app by (intros H; destruct (X _ H) as [H1 _]; apply H1; reflexivity).
  rewrite name_eqb_refl. reflexivity.
Qed.
Lemma refuses path nm ext : extension ext -> basename path nm -> In "."%char nm ->
  (forall stem, nm <> stem ++ "."%char :: ext) -> check_file_ext path ext = None.
Proof.
  intros X B M E. rewrite (check_eq path nm ext B). rewrite (proj2 (mem_In dot nm) M).
  destruct (last_split dot nm) as [H|(a & b & -> & H)]; [contradiction|].
  rewrite piece_app by exact H. destruct (name_eqb_spec b ext) as [->|]; [|reflexivity]. exfalso. apply (E a). reflexivity.
Qed.
Lemma appends path nm ext : basename path nm -> ~ In "."%char nm -> check_file_ext path ext = Some (path ++ "."%char :: ext).
Proof. intros B M. rewrite (check_eq path nm ext B), (mem_not dot nm M). reflexivity. Qed.
Lemma idempotent path ext p : extension ext -> check_file_ext path ext = Some p -> check_file_ext p ext = Some p.
Proof.
  intros X H. destruct (basename_exists path) as (nm & B). rewrite (check_eq path nm ext B) in H.
  destruct (mem dot nm) eqn:M.
  - destruct (name_eqb (last_piece dot nm) ext) eqn:N; [|discriminate]. injection H as <-.
    rewrite (check_eq path nm ext B), M, N. reflexivity.
  - injection H as <-. apply (accepts _ (nm ++ dot :: ext) nm); [exact X| |reflexivity].
    destruct B as [N B]. split.
    + intros c Hc. apply in_app_or in Hc. destruct Hc as [Hc|[<-|Hc]]; [apply N; exact Hc| |apply X; exact Hc].
      intros [E|E]; discriminate.
    + destruct B as [->|(dir & c & -> & S)]; [left; reflexivity|]. right. exists dir, c. split; [|exact S].
      rewrite <- app_assoc. reflexivity.
Qed.

(** * file types *)
Lemma bytes_eqb_spec a b : reflect (a = b) (bytes_eqb a b).
Proof. unfold bytes_eqb. destruct (list_eq_dec Z.eq_dec a b); constructor; assumption. Qed.
Lemma starts2 a b file : bytes_eqb (firstn 2 (firstn 40 file)) [a; b] = true <-> starts [a; b] file.
Proof.
  split.
  - destruct (bytes_eqb_spec (firstn 2 (firstn 40 file)) [a; b]) as [E|]; [|discriminate]. intros _.
    rewrite firstn_firstn in E. change (Nat.min 2 40) with 2 in E. exists (skipn 2 file). rewrite <- E. symmetry. apply firstn_skipn.
  - intros (r & ->). rewrite firstn_firstn. change (Nat.min 2 40) with 2. simpl.
    destruct (bytes_eqb_spec [a; b] [a; b]); congruence.
Qed.
Lemma starts40 file : bytes_eqb (firstn 40 file) lfs_magic = true <-> starts lfs_magic file.
Proof.
  split.
  - destruct (bytes_eqb_spec (firstn 40 file) lfs_magic) as [E|]; [|discriminate]. intros _.
    exists (skipn 40 file). rewrite <- E. symmetry. apply firstn_skipn.
  - intros (r & ->). change 40 with (length lfs_magic). rewrite firstn_app, Nat.sub_diag, firstn_all, app_nil_r.
    destruct (bytes_eqb_spec lfs_magic lfs_magic); congruence.
Qed.
Lemma not_both a b a' b' file : starts [a; b] file -> starts [a'; b'] file -> a = a' /\ b = b'.
Proof. intros (r & ->) (r' & E). simpl in E. split; congruence. Qed.
Lemma lfs_not a b file : a <> 118%Z -> starts [a; b] file -> ~ starts lfs_magic file.
Proof. intros N (r & ->) (r' & E). simpl in E. congruence. Qed.

Lemma filetypes file :
  (get_filetype file = RDI <-> starts [127; 121]%Z file \/ starts [127; 127]%Z file) /\
  (get_filetype file = SignatureFile <-> starts [165; 10]%Z file) /\
  (get_filetype file = NortekFile <-> starts [165; 5]%Z file) /\
  (get_filetype file = LfsPointer <-> starts lfs_magic file).
Proof.
  pose proof (starts2 127 121 file) as A. pose proof (starts2 127 127 file) as B. pose proof (starts2 165 10 file) as C.
  pose proof (starts2 165 5 file) as D. pose proof (starts40 file) as E.
  assert (AC : starts [127; 121]%Z file -> ~ starts [165; 10]%Z file) by (intros P Q; destruct (not_both _ _ _ _ _ P Q); discriminate).
  assert (AD : starts [127; 121]%Z file -> ~ starts [165; 5]%Z file) by (intros P Q; destruct (not_both _ _ _ _ _ P Q); discriminate).
  assert (BC : starts [127; 127]%Z file -> ~ starts [165; 10]%Z file) by (intros P Q; destruct (not_both _ _ _ _ _ P Q); discriminate).
  assert (BD : starts [127; 127]%Z file -> ~ starts [165; 5]%Z file) by (intros P Q; destruct (not_both _ _ _ _ _ P Q); discriminate).
  assert (CD : starts [165; 10]%Z file -> ~ starts [165; 5]%Z file) by (intros P Q; destruct (not_both _ _ _ _ _ P Q); discriminate).
  assert (AE := lfs_not 127 121 file ltac:(discriminate)). assert (BE := lfs_not 127 127 file ltac:(discriminate)).
  assert (CE := lfs_not 165 10 file ltac:(discriminate)). assert (DE := lfs_not 165 5 file ltac:(discriminate)).
  unfold get_filetype.
  destruct (bytes_eqb _ [127; 121]%Z), (bytes_eqb _ [127; 127]%Z), (bytes_eqb _ [165; 10]%Z), (bytes_eqb _ [165; 5]%Z), (bytes_eqb _ lfs_magic); cbn [orb];
    (split; [|split; [|split]]); (split; intros; [try discriminate|try reflexivity]); try (intuition congruence).
Qed.

(** * userdata *)
Lemma before_app c a b : ~ In c b -> before_last c (a ++ c :: b) = a.
Proof.
  intros H. induction a as [|x a IH]; simpl.
  - rewrite (mem_not c b H), Ascii.eqb_refl. reflexivity.
  - rewrite (proj2 (mem_In c (a ++ c :: b))) by apply in_elt. rewrite IH. reflexivity.
Qed.
Lemma before_none c b : ~ In c b -> before_last c b = b.
Proof.
  induction b as [|x b IH]; intros H; [reflexivity|]. simpl in *. rewrite mem_not by tauto.
  destruct (Ascii.eqb_spec x c); [tauto|]. rewrite IH by tauto. reflexivity.
Qed.

Lemma get_upd k k' v d : get k (upd k' v d) = if name_eqb k' k then Some v else get k d.
Proof.
  induction d as [|[a w] d IH]; simpl; [reflexivity|].
  destruct (name_eqb_spec a k') as [->|N]; simpl.
  - destruct (name_eqb k' k); reflexivity.
  - rewrite IH. destruct (name_eqb_spec a k) as [->|]; [|reflexivity].
    destruct (name_eqb_spec k' k); [congruence|reflexivity].
Qed.
Lemma get_del k k' d : get k (del k' d) = if name_eqb k' k then None else get k d.
Proof.
  induction d as [|[a w] d IH]; simpl; [destruct (name_eqb k' k); reflexivity|].
  destruct (name_eqb_spec a k') as [->|N]; simpl.
  - rewrite IH. destruct (name_eqb k' k); reflexivity.
  - rewrite IH. destruct (name_eqb_spec a k) as [->|]; [|reflexivity].
    destruct (name_eqb_spec k' k); [congruence|reflexivity].
Qed.
Lemma get_rename k old new d : old <> new -> get k (rename old new d) =
  if name_eqb old k then None else if name_eqb new k then given d old new else get k d.
Proof.
  intros N. unfold rename, given. destruct (get old d) as [v|] eqn:E.
  - rewrite get_upd, get_del. destruct (name_eqb_spec new k), (name_eqb_spec old k); try congruence; try reflexivity.
  - destruct (name_eqb_spec old k); [congruence|]. destruct (name_eqb_spec new k); [congruence|reflexivity].
Qed.
Lemma matrix_conv v : (if is_identity v then JIdentity else JArray v) = matrix_of v.
Proof. destruct v as [| |b| | | | |]; reflexivity. Qed.

Lemma userdata_spec d d' : read_userdata d = Some d' ->
  (forall k, deprecated k -> get k d' = None) /\
  get (chars "inst2head_rotmat") d' = option_map matrix_of (given d (chars "body2head_rotmat") (chars "inst2head_rotmat")) /\
  (forall v, given d (chars "body2head_vec") (chars "inst2head_vec") = Some v -> exists l, to_list v = Some l /\ get (chars "inst2head_vec") d' = Some l) /\
  (forall k, ~ deprecated k -> ~ converted k -> get k d' = get k d).
Proof.
  unfold read_userdata. set (d1 := rename body2head_rotmat inst2head_rotmat d).
  set (d2 := rename body2head_vec inst2head_vec d1).
  set (d3 := match get inst2head_rotmat d2 with Some v => _ | None => d2 end).
  assert (G1 : forall k, get k d1 = if name_eqb body2head_rotmat k then None else if name_eqb inst2head_rotmat k then given d body2head_rotmat inst2head_rotmat else get k d).
  { intros k. apply get_rename. discriminate. }
  assert (G2 : forall k, get k d2 = if name_eqb body2head_vec k then None else if name_eqb inst2head_vec k then given d1 body2head_vec inst2head_vec else get k d1).
  { intros k. apply get_rename. discriminate. }
  assert (G3 : forall k, get k d3 = if name_eqb inst2head_rotmat k then option_map matrix_of (get inst2head_rotmat d2) else get k d2).
  { intros k. unfold d3. destruct (get inst2head_rotmat d2) as [v|] eqn:E.
    - rewrite get_upd, matrix_conv. reflexivity.
    - destruct (name_eqb_spec inst2head_rotmat k) as [<-|]; [exact E|reflexivity]. }
  assert (GV : given d1 body2head_vec inst2head_vec = given d body2head_vec inst2head_vec).
  { unfold given. rewrite !G1. reflexivity. }
  assert (E3 : get inst2head_vec d3 = given d body2head_vec inst2head_vec).
  { rewrite G3. transitivity (get inst2head_vec d2); [reflexivity|]. rewrite G2. exact GV. }
  assert (R3 : get inst2head_rotmat d3 = option_map matrix_of (given d body2head_rotmat inst2head_rotmat)).
  { rewrite G3. transitivity (option_map matrix_of (get inst2head_rotmat d2)); [reflexivity|].
    f_equal. rewrite G2. transitivity (get inst2head_rotmat d1); [reflexivity|]. rewrite G1. reflexivity. }
  assert (O3 : forall k, ~ deprecated k -> ~ converted k -> get k d3 = get k d).
  { intros k N1 N2. rewrite G3, (G2 k), (G1 k). unfold deprecated, converted in *.
    destruct (name_eqb_spec inst2head_rotmat k); [exfalso; apply N2; left; symmetry; assumption|].
    destruct (name_eqb_spec body2head_vec k); [exfalso; apply N1; right; symmetry; assumption|].
    destruct (name_eqb_spec inst2head_vec k); [exfalso; apply N2; right; symmetry; assumption|].
    destruct (name_eqb_spec body2head_rotmat k); [exfalso; apply N1; left; symmetry; assumption|]. reflexivity. }
  assert (D3 : forall k, deprecated k -> get k d3 = None).
  { intros k [-> | ->]; rewrite G3.
    - transitivity (get body2head_rotmat d2); [reflexivity|]. rewrite G2.
      transitivity (get body2head_rotmat d1); [reflexivity|]. rewrite G1. reflexivity.
    - transitivity (get body2head_vec d2); [reflexivity|]. rewrite G2. reflexivity. }
  change (chars "inst2head_rotmat") with inst2head_rotmat. change (chars "body2head_rotmat") with body2head_rotmat.
  change (chars "inst2head_vec") with inst2head_vec. change (chars "body2head_vec") with body2head_vec.
  rewrite E3. destruct (given d body2head_vec inst2head_vec) as [v|] eqn:Ev.
  - destruct (to_list v) as [l|] eqn:El; [|discriminate]. intros H.
    assert (Hd : d' = upd inst2head_vec l d3) by congruence. rewrite Hd. clear H Hd.
    split; [|split; [|split]].
    + intros k Hk. rewrite get_upd. destruct (name_eqb_spec inst2head_vec k) as [<-|]; [destruct Hk; discriminate|]. apply D3. exact Hk.
    + rewrite get_upd. exact R3.
    + intros v' Hv. exists l. split; [congruence|]. rewrite get_upd, name_eqb_refl. reflexivity.
    + intros k N1 N2. rewrite get_upd. destruct (name_eqb_spec inst2head_vec k) as [<-|]; [exfalso; apply N2; right; reflexivity|]. apply O3; assumption.
  - intros H. assert (Hd : d' = d3) by congruence. rewrite Hd. clear H Hd.
    split; [exact D3|]. split; [exact R3|]. split; [discriminate|exact O3].
Qed.
