(** Proofs about the number of samples of a Nortek file. *)
From Coq Require Import ZArith List Bool Lia Arith.
From Verif.Model Require Import Nortek NortekFile NortekGuess.
From Verif.Spec Require Import Nortek NortekGuess.
From Verif.Proofs Require Import NortekFile.
From Verif.Proofs Require Nortek.
Import ListNotations.
Open Scope Z_scope.

Section Search.
Context (r : reader) (file : bytes) (id : Z).

Definition hop (b : blk) : Prop := forall p rest, skipn p file = bytes_of b ++ rest ->
  next_block r file (bid b) (p + 2) = Some (p + length (bytes_of b))%nat.

Lemma hop_sized b : (velocity b = true -> length (bytes_of b) = 24%nat) -> sized (rendian r) b -> hop b.
Proof.
  intros V S p rest H. unfold next_block. destruct S as [S|(N & b0 & b1 & bd & E & W)].
  - unfold velocity in *. rewrite S. rewrite (V S). f_equal. lia.
  - unfold velocity in V. destruct (bid b =? 16) eqn:E16; [rewrite V by reflexivity; f_equal; lia|].
    destruct (Z.eqb_spec (bid b) 81); [contradiction|].
    assert (T : take file (p + 2) 2 = Some [b0; b1]).
    { apply (take_ok _ _ _ (bd ++ ck b ++ rest)); [|reflexivity].
      assert (X : skipn (p + 2) file = (body b ++ ck b) ++ rest) by (apply (skip_next file p [165; bid b]); rewrite H; reflexivity).
      rewrite X, E, <- app_assoc. reflexivity. }
    rewrite T, W. f_equal. lia.
Qed.

Lemma read_here p b rest : skipn p file = bytes_of b ++ rest -> read_id r file p = Some (bid b, [165; bid b], (p + 2)%nat).
Proof.
  intros H. unfold read_id. rewrite (take_ok file p [165; bid b] ((body b ++ ck b) ++ rest) 2) by (try reflexivity; rewrite H; reflexivity).
  reflexivity.
Qed.

Lemma find_first pre : forall p b rest fuel, skipn p file = concat (map bytes_of pre) ++ bytes_of b ++ rest -> Forall hop pre -> hop b ->
  (forall x, In x pre -> kind id x = false) -> kind id b = true -> (length pre < fuel)%nat ->
  findnextid fuel r file id p = Found (p + size pre + length (bytes_of b)).
Proof.
  induction pre as [|x pre IH]; intros p b rest fuel H F Hb N K L; (destruct fuel as [|fuel]; [cbn in L; lia|]); cbn [findnextid].
  - cbn in H. rewrite (read_here _ _ _ H), (Hb _ _ H). unfold kind in K. rewrite K. f_equal. unfold size. cbn. lia.
  - inversion F as [|? ? Hx F']; subst. cbn [map concat] in H. rewrite <- app_assoc in H. rewrite (read_here _ _ _ H), (Hx _ _ H).
    assert (Kx : (bid x =? id) = false) by (apply N; now left). rewrite Kx.
    rewrite (IH _ b rest); auto.
    + f_equal. unfold size. cbn [map concat]. rewrite app_length. lia.
    + apply skip_next. exact H.
    + intros y Hy. apply N. now right.
    + cbn in L. lia.
Qed.

Lemma find_none bs : forall p tail fuel, skipn p file = concat (map bytes_of bs) ++ tail -> Forall hop bs -> cut_off tail -> id <> 16 ->
  (forall x, In x bs -> kind id x = false) -> (length bs + 1 < fuel)%nat -> (p <= length file)%nat ->
  exists q, findnextid fuel r file id p = End_of_file q /\ (length file <= q <= length file + 22)%nat.
Proof.
  induction bs as [|x bs IH]; intros p tail fuel H F C I N L P; (destruct fuel as [|fuel]; [cbn in L; lia|]); cbn [findnextid].
  - cbn in H. destruct C as [C|(t & E & C)].
    + unfold read_id. rewrite take_none by (rewrite H; exact C). eexists. split; [reflexivity|]. lia.
    + assert (T : read_id r file p = Some (16, [165; 16], (p + 2)%nat)).
      { unfold read_id. rewrite (take_ok file p [165; 16] t 2) by (try reflexivity; rewrite H, E; reflexivity). reflexivity. }
      rewrite T. change (next_block r file 16 (p + 2)) with (Some (p + 2 + 22)%nat). cbv iota beta.
      destruct (Z.eqb_spec 16 id); [congruence|].
      assert (Lf : (length file = p + 2 + length t)%nat).
      { rewrite <- (firstn_skipn p file), app_length, H, E, firstn_length. cbn [length]. lia. }
      destruct fuel as [|fuel]; [cbn in L; lia|]. cbn [findnextid]. unfold read_id. rewrite take_none by (rewrite skipn_all2 by lia; cbn; lia).
      eexists. split; [reflexivity|]. lia.
  - inversion F as [|? ? Hx F']; subst. cbn [map concat] in H. rewrite <- app_assoc in H. rewrite (read_here _ _ _ H), (Hx _ _ H).
    assert (Kx : (bid x =? id) = false) by (apply N; now left). rewrite Kx.
    apply (IH _ tail); auto.
    + apply skip_next. exact H.
    + intros y Hy. apply N. now right.
    + cbn in L. lia.
    + assert (length file = p + length (bytes_of x ++ concat (map bytes_of bs) ++ tail))%nat.
      { rewrite <- (firstn_skipn p file), app_length, H at 1. rewrite firstn_length. rewrite <- H at 2. rewrite skipn_length. rewrite <- H, skipn_length. lia. }
      rewrite app_length in H0. lia.
Qed.

Lemma split_kind bs : (0 < number id bs)%nat -> exists pre b post, bs = pre ++ b :: post /\ (forall x, In x pre -> kind id x = false)
  /\ kind id b = true /\ number id bs = S (number id post).
Proof.
  unfold number. induction bs as [|x bs IH]; cbn; intro H; [lia|]. destruct (kind id x) eqn:K.
  - exists [], x, bs. split; [reflexivity|]. split; [intros y []|]. split; [exact K|reflexivity].
  - destruct IH as (pre & b & post & -> & N & Kb & E); [exact H|]. exists (x :: pre), b, post. split; [reflexivity|].
    split; [intros y [<-|Hy]; auto|]. split; [exact Kb|exact E].
Qed.
Lemma none_kind bs : number id bs = O -> forall x, In x bs -> kind id x = false.
Proof.
  unfold number. induction bs as [|y bs IH]; cbn; intros H x [].
  - subst. destruct (kind id x); [discriminate|reflexivity].
  - destruct (kind id y); [discriminate|]. now apply IH.
Qed.
Lemma upto_split pre : forall k b post, (forall x, In x pre -> kind id x = false) -> kind id b = true ->
  upto id (S k) (pre ++ b :: post) = (size pre + length (bytes_of b) + upto id k post)%nat.
Proof.
  induction pre as [|x pre IH]; intros k b post N K; cbn [app upto].
  - rewrite K. unfold size. cbn. reflexivity.
  - rewrite (N x) by now left. rewrite IH; [|intros; apply N; now right|exact K]. unfold size. cbn [map concat]. rewrite app_length. lia.
Qed.
Lemma fit p (a b : bytes) : skipn p file = a ++ b -> (p <= length file)%nat -> (p + length a <= length file)%nat.
Proof.
  intros H P. assert (E : length (skipn p file) = (length a + length b)%nat) by (rewrite H; apply app_length).
  rewrite skipn_length in E. lia.
Qed.
Lemma loop_spec n : forall bs k p tail fuel, skipn p file = concat (map bytes_of bs) ++ tail -> Forall hop bs -> cut_off tail -> id <> 16 ->
  (length bs + 1 < fuel)%nat -> (p <= length file)%nat ->
  ((number id bs < n)%nat -> exists q, spacing_loop n k fuel r file id p = Some (q, S (k + number id bs)) /\ (length file <= q <= length file + 22)%nat)
  /\ ((n <= number id bs)%nat -> spacing_loop n k fuel r file id p = Some (p + upto id n bs, k + n)%nat).
Proof.
  induction n as [|n IH]; intros bs k p tail fuel H F C I L P.
  - split; [lia|]. intros _. cbn. f_equal. f_equal; [destruct bs; cbn|]; lia.
  - cbn [spacing_loop]. destruct (Nat.eq_dec (number id bs) 0) as [Z|NZ].
    + rewrite Z. split; [|lia]. intros _. destruct (find_none bs p tail fuel H F C I (none_kind bs Z) L P) as (q & -> & B).
      exists q. rewrite Nat.add_0_r. split; [reflexivity|exact B].
    + destruct (split_kind bs) as (pre & b & post & -> & N & K & E); [lia|]. rewrite E.
      apply Forall_app in F. destruct F as [F1 F2]. inversion F2 as [|? ? Hb F3]; subst.
      rewrite map_app, concat_app in H. cbn [map concat] in H. rewrite <- !app_assoc in H. rewrite app_length in L. cbn [length] in L.
      rewrite (find_first pre p b (concat (map bytes_of post) ++ tail)) by (auto; lia).
      assert (H2 : skipn (p + size pre + length (bytes_of b)) file = concat (map bytes_of post) ++ tail).
      { rewrite <- Nat.add_assoc. unfold size. rewrite <- app_length. apply skip_next. rewrite H, app_assoc. reflexivity. }
      assert (P2 : (p + size pre + length (bytes_of b) <= length file)%nat).
      { rewrite <- Nat.add_assoc. unfold size. rewrite <- app_length. apply (fit p _ (concat (map bytes_of post) ++ tail)); [|exact P]. rewrite H, app_assoc. reflexivity. }
      destruct (IH post (S k) _ tail fuel H2 F3 C I ltac:(lia) P2) as [A B]. split.
      * intro M. destruct A as (q & -> & Bq); [lia|]. exists q. split; [f_equal; f_equal; lia|exact Bq].
      * intro M. rewrite B by lia. rewrite upto_split by assumption. f_equal. f_equal; lia.
Qed.
Lemma upto_one bs : (0 < number id bs)%nat -> (2 <= upto id 1 bs)%nat.
Proof.
  intro H. destruct (split_kind bs H) as (pre & b & post & -> & N & K & _). rewrite upto_split by assumption.
  unfold bytes_of. cbn [length]. lia.
Qed.
End Search.

(** the room made for [k] blocks *)
Lemma quot_room (z b m : Z) : 0 < b -> 0 <= m -> b * m <= z -> m + 1 <= Z.quot (z + b) b.
Proof.
  intros Hb Hm H. rewrite Z.quot_div_nonneg by nia. apply Z.div_le_lower_bound; nia.
Qed.

Section File.
Context (r : reader) (header : bytes) (bs : list blk) (tail : bytes) (id : Z).
Let file := file_of header bs tail.
Context (Hh : (22 <= length header)%nat) (F : Forall (hop r file) bs) (C : cut_off tail) (I : id <> 16).

Lemma start_at : skipn (length header) file = concat (map bytes_of bs) ++ tail.
Proof. apply file_skip. Qed.
Lemma fuel_ok : (length bs + 1 < S (length file))%nat.
Proof. unfold file, file_of. rewrite !app_length. pose proof (blocks_length bs). lia. Qed.
Lemma start_le : (length header <= length file)%nat.
Proof. unfold file, file_of. rewrite app_length. lia. Qed.

Lemma spacing_none : number id bs = O -> code_spacing r file id (length header) = No_block.
Proof.
  intro Z. unfold code_spacing.
  destruct (find_none r file id bs _ tail _ start_at F C I (none_kind id bs Z) fuel_ok start_le) as (q & -> & _). reflexivity.
Qed.
(** the blocks after the first of the kind *)
Lemma spacing_some : (0 < number id bs)%nat -> exists b n, code_spacing r file id (length header) = Spacing b n /\ 0 <= b /\
  ((number id bs <= 50)%nat -> n = number id bs /\
     Z.of_nat (length file) - Z.of_nat (length header) - Z.of_nat (upto id 1 bs) <= b <= Z.of_nat (length file) + 22 - Z.of_nat (length header) - Z.of_nat (upto id 1 bs))
  /\ ((50 < number id bs)%nat -> n = 50%nat /\ b = Z.of_nat (upto id 51 bs - upto id 1 bs)).
Proof.
  intro H. destruct (split_kind id bs H) as (pre & b & post & Eb & N & K & Nn).
  pose proof start_at as St. pose proof fuel_ok as Fu. pose proof start_le as Sl.
  unfold code_spacing. rewrite Eb in St. rewrite map_app, concat_app in St. cbn [map concat] in St. rewrite <- !app_assoc in St.
  pose proof F as F0. rewrite Eb in F0. apply Forall_app in F0. destruct F0 as [F1 F2]. inversion F2 as [|? ? Hb F3]; subst x l.
  assert (Lb : length bs = (length pre + S (length post))%nat) by (rewrite Eb, app_length; reflexivity).
  rewrite (find_first r file id pre _ b (concat (map bytes_of post) ++ tail)) by (auto; lia).
  assert (H2 : skipn (length header + size pre + length (bytes_of b)) file = concat (map bytes_of post) ++ tail).
  { rewrite <- Nat.add_assoc. unfold size. rewrite <- app_length. apply skip_next. rewrite St, app_assoc. reflexivity. }
  assert (P2 : (length header + size pre + length (bytes_of b) <= length file)%nat).
  { rewrite <- Nat.add_assoc. unfold size. rewrite <- app_length. apply (fit file (length header) _ (concat (map bytes_of post) ++ tail)); [|exact Sl]. rewrite St, app_assoc. reflexivity. }
  destruct (loop_spec r file id 50 post 0 _ tail (S (length file)) H2 F3 C I ltac:(lia) P2) as [A B].
  assert (U1 : upto id 1 bs = (size pre + length (bytes_of b))%nat).
  { rewrite Eb, upto_split by assumption. destruct post; cbn; lia. }
  assert (U51 : upto id 51 bs = (size pre + length (bytes_of b) + upto id 50 post)%nat) by (rewrite Eb; now apply upto_split).
  destruct (Nat.lt_ge_cases (number id post) 50) as [Lt|Ge].
  - destruct (A Lt) as (q & -> & Bq). eexists. eexists. split; [reflexivity|]. split; [lia|]. split; [|lia].
    intros _. split; [lia|]. rewrite U1. lia.
  - rewrite (B Ge). eexists. eexists. split; [reflexivity|]. split; [lia|]. split; [lia|].
    intros _. split; [reflexivity|]. rewrite U1, U51. lia.
Qed.
(** room for one block more than there are *)
Lemma room b n : evenly id bs file -> (0 < number id bs)%nat -> code_spacing r file id (length header) = Spacing b n -> 0 < b ->
  (S (number id bs) <= quotient file b n)%nat.
Proof.
  intros Ev H E Hb. destruct (spacing_some H) as (b' & n' & E' & _ & A & B). rewrite E in E'. injection E' as <- <-.
  unfold quotient. apply Nat2Z.inj_le. rewrite Z2Nat.id by (apply Z.quot_pos; nia).
  destruct (Nat.le_gt_cases (number id bs) 50) as [Le|Gt].
  - destruct (A Le) as [-> [_ Bb]]. rewrite Nat2Z.inj_succ. unfold Z.succ. apply quot_room; [exact Hb|lia|]. nia.
  - destruct (B Gt) as [-> ->]. destruct Ev as [Ev|Ev]; [lia|]. rewrite Nat2Z.inj_succ. unfold Z.succ. apply quot_room; [exact Hb|lia|]. nia.
Qed.
Lemma later pre b post : bs = pre ++ b :: post -> kind id b = true -> post <> [] -> forall d n,
  code_spacing r file id (length header) = Spacing d n -> 0 < d.
Proof.
  intros Eb K Np d n E.
  assert (H : (0 < number id bs)%nat).
  { unfold number. rewrite Eb, filter_app, app_length. cbn [filter]. rewrite K. cbn. lia. }
  destruct (spacing_some H) as (b' & n' & E' & _ & A & B). rewrite E in E'. injection E' as <- <-.
  destruct (split_kind id bs H) as (pre' & b' & post' & Eb' & N & K' & Nn).
  assert (Lb : length bs = (length pre' + S (length post'))%nat) by (rewrite Eb', app_length; reflexivity).
  assert (Np' : (0 < length post')%nat).
  { assert (length bs = length pre + S (length post))%nat by (rewrite Eb, app_length; reflexivity).
    assert (length pre' <= length pre)%nat.
    { destruct (Nat.le_gt_cases (length pre') (length pre)) as [X|X]; [exact X|exfalso].
      assert (In b pre'). { assert (nth_error bs (length pre) = Some b) by (rewrite Eb, nth_error_app2, Nat.sub_diag by lia; reflexivity).
        rewrite Eb', nth_error_app1 in H1 by exact X. now apply nth_error_In in H1. }
      rewrite (N _ H1) in K. discriminate. }
    destruct post; [contradiction|]. cbn in *. lia. }
  assert (U1 : upto id 1 bs = (size pre' + length (bytes_of b'))%nat).
  { rewrite Eb', upto_split by assumption. destruct post'; cbn; lia. }
  assert (Sb : (size bs = size pre' + length (bytes_of b') + size post')%nat).
  { unfold size. rewrite Eb', map_app, concat_app, app_length. cbn [map concat]. rewrite app_length. lia. }
  assert (Sp : (0 < size post')%nat) by (pose proof (blocks_length post'); unfold size; lia).
  destruct (Nat.le_gt_cases (number id bs) 50) as [Le|Gt].
  - destruct (A Le) as [_ [Bb _]]. rewrite U1 in Bb. revert Bb. unfold file, file_of. rewrite !app_length. fold (size bs). rewrite Sb. lia.
  - destruct (B Gt) as [_ ->]. assert (upto id 51 bs = size pre' + length (bytes_of b') + upto id 50 post')%nat by (rewrite Eb'; now apply upto_split).
    rewrite H0, U1. destruct post' as [|x post']; [cbn in Np'; lia|]. cbn [upto]. unfold bytes_of at 2. cbn [length]. lia.
Qed.
End File.

Section Vector.
Context (e : endian) (cs : bool) (bins beams : nat).
Let r := Reader e cs Vector bins beams None.

Lemma vector_hop file b : vector_block e b -> verified r b -> sized e b -> hop r file b.
Proof.
  intros V (c0 & c1 & Ck & _) S. apply hop_sized; [|exact S]. intros K. unfold velocity in K. apply Z.eqb_eq in K.
  unfold bytes_of. cbn [length]. rewrite app_length, Ck. cbn [length].
  unfold vector_block in V. rewrite K in V. destruct V as [[_ ->]|V]; [reflexivity|].
  repeat (destruct V as [[X _]|V]; [discriminate X|]). destruct V as [X _]. discriminate X.
Qed.
Lemma vector_hops file bs : Forall (vector_block e) bs -> Forall (verified r) bs -> Forall (sized e) bs -> Forall (hop r file) bs.
Proof. rewrite !Forall_forall. intros A B D x Hx. apply vector_hop; auto. Qed.

Lemma seconds_length bs : length (seconds bs) = S (number 17 bs).
Proof.
  unfold number. induction bs as [|b bs IH]; [reflexivity|]. cbn [seconds filter]. change (kind 17 b) with (is_sys b).
  destruct (is_sys b); cbn; [now rewrite IH|]. destruct (seconds bs); [discriminate|exact IH].
Qed.
Lemma seconds_sum bs : length (samples bs) = fold_right Nat.add O (seconds bs).
Proof.
  unfold samples. induction bs as [|b bs IH]; [reflexivity|]. cbn [seconds filter]. rewrite map_length in *. pose proof (seconds_length bs) as SL.
  destruct (is_sys b) eqn:Sy.
  - assert (velocity b = false) by (unfold is_sys, velocity in *; apply Z.eqb_eq in Sy; rewrite Sy; reflexivity).
    rewrite H. cbn. exact IH.
  - destruct (seconds bs) as [|n l]; [discriminate|]. destruct (velocity b); cbn in *; lia.
Qed.
Lemma sum_bound f l : Forall (fun k => (k <= f)%nat) l -> (hd O l < f)%nat -> l <> [] -> (fold_right Nat.add O l < length l * f)%nat.
Proof.
  intros H H0 N. destruct l as [|a l]; [contradiction|]. cbn in *. inversion H as [|? ? _ H']; subst.
  assert (fold_right Nat.add O l <= length l * f)%nat; [|lia]. clear -H'. induction H'; cbn; lia.
Qed.

Lemma vector_room header bs tail fs : (22 <= length header)%nat -> cut_off tail ->
  Forall (vector_block e) bs -> Forall (verified r) bs -> Forall (sized e) bs ->
  (exists pre b post, bs = pre ++ b :: post /\ is_sys b = true /\ post <> []) ->
  evenly 17 bs (file_of header bs tail) ->
  Forall (fun k => (k <= fs)%nat) (seconds bs) -> (hd O (seconds bs) < fs)%nat ->
  exists n, guess_adv r (file_of header bs tail) (length header) fs = Room n /\ (length (samples bs) < n)%nat.
Proof.
  intros Hh C V Ve Sz (pre & b & post & Eb & K & Np) Ev L L0.
  pose proof (vector_hops (file_of header bs tail) bs V Ve Sz) as F.
  assert (H : (0 < number 17 bs)%nat).
  { unfold number. rewrite Eb, filter_app, app_length. cbn [filter]. change (kind 17 b) with (is_sys b). rewrite K. cbn. lia. }
  destruct (spacing_some r header bs tail 17 Hh F C ltac:(discriminate) H) as (d & n & E & _).
  pose proof (later r header bs tail 17 Hh F C ltac:(discriminate) pre b post Eb K Np d n E) as D.
  pose proof (room r header bs tail 17 Hh F C ltac:(discriminate) d n Ev H E D) as R.
  unfold guess_adv. rewrite E. destruct (Z.eqb_spec d 0); [lia|]. eexists. split; [reflexivity|].
  pose proof (seconds_length bs) as SL. assert (seconds bs <> []) by (intro X; rewrite X in SL; discriminate).
  pose proof (sum_bound fs (seconds bs) L L0 H0). rewrite seconds_sum. rewrite SL in H1. nia.
Qed.
Theorem vector_read header bs tail fs : (22 <= length header)%nat -> cut_off tail ->
  Forall (vector_block e) bs -> Forall (verified r) bs -> Forall (sized e) bs -> imu_after_velocity bs ->
  (exists pre b post, bs = pre ++ b :: post /\ is_sys b = true /\ post <> []) ->
  evenly 17 bs (file_of header bs tail) ->
  Forall (fun k => (k <= fs)%nat) (seconds bs) -> (hd O (seconds bs) < fs)%nat ->
  exists s n, read_vector r (file_of header bs tail) (length header) fs = Done s /\ data s = map Some (samples bs) ++ repeat None n.
Proof.
  intros Hh C V Ve Sz Im P Ev L L0. destruct (vector_room header bs tail fs Hh C V Ve Sz P Ev L L0) as (n & E & Ls).
  unfold read_vector. rewrite E. cbn [read_with].
  destruct (full_file r header bs tail _ eq_refl eq_refl C V Ve Im Ls) as (s & -> & Da & _). exists s. eexists. split; [reflexivity|exact Da].
Qed.
Theorem no_system_data header bs tail fs : (22 <= length header)%nat -> cut_off tail ->
  Forall (vector_block e) bs -> Forall (verified r) bs -> Forall (sized e) bs -> Forall (fun b => is_sys b = false) bs ->
  read_vector r (file_of header bs tail) (length header) fs = Error.
Proof.
  intros Hh C V Ve Sz N. pose proof (vector_hops (file_of header bs tail) bs V Ve Sz) as F.
  unfold read_vector, guess_adv. rewrite (spacing_none r header bs tail 17 Hh F C); [reflexivity|discriminate|].
  unfold number. induction N as [|x l Hx N IH]; [reflexivity|]. cbn. change (kind 17 x) with (is_sys x). rewrite Hx. apply IH.
  - now inversion V. - now inversion Ve. - now inversion Sz. - eapply vector_hops; [now inversion V|now inversion Ve|now inversion Sz].
Qed.
Theorem last_system_data header bs b fs : (22 <= length header)%nat ->
  Forall (vector_block e) bs -> Forall (verified r) bs -> Forall (sized e) bs -> Forall (fun b => is_sys b = false) bs ->
  vector_block e b -> verified r b -> sized e b -> is_sys b = true ->
  read_vector r (file_of header (bs ++ [b]) []) (length header) fs = Error.
Proof.
  intros Hh V Ve Sz N Vb Veb Szb K.
  assert (V2 : Forall (vector_block e) (bs ++ [b])) by (apply Forall_app; split; [exact V|now constructor]).
  assert (Ve2 : Forall (verified r) (bs ++ [b])) by (apply Forall_app; split; [exact Ve|now constructor]).
  assert (Sz2 : Forall (sized e) (bs ++ [b])) by (apply Forall_app; split; [exact Sz|now constructor]).
  pose proof (vector_hops (file_of header (bs ++ [b]) []) _ V2 Ve2 Sz2) as F.
  assert (N17 : number 17 (bs ++ [b]) = 1%nat).
  { unfold number. rewrite filter_app, app_length. cbn [filter]. change (kind 17 b) with (is_sys b). rewrite K.
    assert (X : filter (kind 17) bs = []); [|rewrite X; reflexivity].
    clear -N. induction N as [|x l Hx N IH]; [reflexivity|]. cbn. change (kind 17 x) with (is_sys x). rewrite Hx. exact IH. }
  unfold read_vector, guess_adv, code_spacing. set (file := file_of header (bs ++ [b]) []) in *.
  assert (St : skipn (length header) file = concat (map bytes_of bs) ++ bytes_of b ++ []).
  { unfold file. rewrite file_skip, map_app, concat_app. cbn. rewrite !app_nil_r. reflexivity. }
  apply Forall_app in F. destruct F as [F1 F2]. inversion F2 as [|? ? Hb _]; subst.
  assert (Lf : (length file = length header + size bs + length (bytes_of b))%nat).
  { unfold file, file_of. rewrite !app_length, map_app, concat_app, app_length. cbn [map concat]. rewrite app_nil_r. unfold size. cbn. lia. }
  pose proof (blocks_length bs) as BL. unfold size in Lf. 
  rewrite (find_first r file 17 bs _ b []); auto.
  - cbn [spacing_loop]. change 50%nat with (S 49). cbn [spacing_loop].
    destruct (find_none r file 17 [] (length header + size bs + length (bytes_of b)) [] (S (length file))) as (q & Eq & B).
    + rewrite skipn_all2 by (unfold size; lia). reflexivity.
    + constructor.
    + left. cbn. lia.
    + discriminate.
    + intros x [].
    + unfold bytes_of in Lf. cbn [length] in *. lia.
    + unfold size. lia.
    + cbn [findnextid] in Eq |- *. unfold read_id in *. rewrite take_none in * by (rewrite skipn_all2 by (unfold size; lia); cbn; lia).
      cbn [read_with]. replace (Z.of_nat (Nat.max (length header + size bs + length (bytes_of b)) (length file)) - Z.of_nat (length header + size bs + length (bytes_of b))) with 0; [reflexivity|].
      unfold size. lia.
  - intros x Hx. rewrite Forall_forall in N. apply (N x Hx).
  - lia.
Qed.

(** as many samples in every second as do not fit *)
Lemma upto_vel v g k rest : is_sys v = false -> upto 17 (S k) (repeat v g ++ rest) = (g * length (bytes_of v) + upto 17 (S k) rest)%nat.
Proof. intro K. induction g as [|g IH]; [reflexivity|]. cbn [repeat app upto]. change (kind 17 v) with (is_sys v). rewrite K, IH. lia. Qed.
Lemma upto_seconds s v g : is_sys s = true -> is_sys v = false -> forall n k, (k < n)%nat ->
  upto 17 (S k) (concat (repeat (second s v g) n)) = (length (bytes_of s) + k * (length (bytes_of s) + g * length (bytes_of v)))%nat.
Proof.
  intros Ks Kv. induction n as [|n IH]; intros k Hk; [lia|]. cbn [repeat concat second app upto]. change (kind 17 s) with (is_sys s). rewrite Ks.
  destruct k as [|k].
  - destruct (repeat v g ++ concat (repeat (second s v g) n)); cbn; lia.
  - rewrite upto_vel by exact Kv. rewrite IH by lia. lia.
Qed.
Lemma size_seconds s v g n : size (concat (repeat (second s v g) n)) = (n * (length (bytes_of s) + g * length (bytes_of v)))%nat.
Proof.
  unfold size. induction n as [|n IH]; [reflexivity|]. cbn [repeat concat second app map]. rewrite map_app, !concat_app, !app_length in *. rewrite IH.
  assert (length (concat (map bytes_of (repeat v g))) = g * length (bytes_of v))%nat; [|lia].
  clear. induction g as [|g IH]; [reflexivity|]. cbn. rewrite app_length, IH. reflexivity.
Qed.
Lemma number_seconds s v g n : is_sys s = true -> is_sys v = false -> number 17 (concat (repeat (second s v g) n)) = n.
Proof.
  intros Ks Kv. unfold number. induction n as [|n IH]; [reflexivity|]. cbn [repeat concat second app filter]. change (kind 17 s) with (is_sys s). rewrite Ks.
  cbn [length]. rewrite filter_app, app_length, IH.
  assert (X : filter (kind 17) (repeat v g) = []); [|rewrite X; reflexivity].
  clear -Kv. induction g as [|g IH]; [reflexivity|]. cbn. change (kind 17 v) with (is_sys v). now rewrite Kv.
Qed.
Lemma samples_seconds s v g n : velocity s = false -> velocity v = true -> length (samples (concat (repeat (second s v g) n))) = (n * g)%nat.
Proof.
  intros Ks Kv. unfold samples. rewrite map_length. induction n as [|n IH]; [reflexivity|]. cbn [repeat concat second app filter]. rewrite Ks.
  rewrite filter_app, app_length, IH.
  assert (X : length (filter velocity (repeat v g)) = g); [|lia].
  clear -Kv. induction g as [|g IH]; [reflexivity|]. cbn. rewrite Kv. cbn. now rewrite IH.
Qed.
Lemma in_seconds s v g n x : In x (concat (repeat (second s v g) n)) -> x = s \/ x = v.
Proof.
  intro H. apply in_concat in H. destruct H as (l & Hl & Hx). apply repeat_spec in Hl. subst l. destruct Hx as [<-|Hx]; [now left|].
  apply repeat_spec in Hx. now right.
Qed.
Theorem too_many_per_second header s v fs g : (22 <= length header)%nat -> is_sys s = true -> velocity v = true ->
  vector_block e s -> vector_block e v -> verified r s -> verified r v -> sized e s -> (fs < g)%nat ->
  exists n0, forall n, (n0 <= n)%nat -> read_vector r (file_of header (concat (repeat (second s v g) n)) []) (length header) fs = Error.
Proof.
  intros Hh Ks Kv Vs Vv Es Ev Ss G. exists (51 + fs * (length header + 1))%nat. intros n Hn.
  set (bs := concat (repeat (second s v g) n)).
  assert (Kv17 : is_sys v = false) by (unfold is_sys, velocity in *; apply Z.eqb_eq in Kv; rewrite Kv; reflexivity).
  assert (Ks16 : velocity s = false) by (unfold is_sys, velocity in *; apply Z.eqb_eq in Ks; rewrite Ks; reflexivity).
  assert (V : Forall (vector_block e) bs) by (apply Forall_forall; intros x Hx; destruct (in_seconds _ _ _ _ _ Hx) as [-> | ->]; assumption).
  assert (Ve : Forall (verified r) bs) by (apply Forall_forall; intros x Hx; destruct (in_seconds _ _ _ _ _ Hx) as [-> | ->]; assumption).
  assert (Sz : Forall (sized e) bs) by (apply Forall_forall; intros x Hx; destruct (in_seconds _ _ _ _ _ Hx) as [-> | ->]; [assumption|now left]).
  assert (C : cut_off []) by (left; cbn; lia).
  pose proof (vector_hops (file_of header bs []) _ V Ve Sz) as F.
  assert (N17 : number 17 bs = n) by (apply number_seconds; assumption).
  destruct (spacing_some r header bs [] 17 Hh F C ltac:(discriminate)) as (d & m & E & _ & _ & B); [rewrite N17; lia|].
  destruct B as [-> ->]; [rewrite N17; lia|].
  set (len := (length (bytes_of s) + g * length (bytes_of v))%nat).
  assert (D : (upto 17 51 bs - upto 17 1 bs = 50 * len)%nat).
  { unfold bs. rewrite !upto_seconds by (auto; lia). fold len. lia. }
  assert (Lp : (0 < len)%nat) by (unfold len, bytes_of; cbn [length]; lia).
  unfold read_vector, guess_adv. rewrite E, D. destruct (Z.eqb_spec (Z.of_nat (50 * len)) 0); [lia|]. cbn [read_with].
  assert (Q : (quotient (file_of header bs []) (Z.of_nat (50 * len)) 50 <= n + length header + 1)%nat).
  { unfold quotient. assert (Lf : length (file_of header bs []) = (length header + n * len)%nat).
    { unfold file_of. rewrite !app_length. fold (size bs). unfold bs. rewrite size_seconds. fold len. cbn. lia. }
    rewrite Lf. apply Nat2Z.inj_le. rewrite Z2Nat.id by (apply Z.quot_pos; lia). rewrite Z.quot_div_nonneg by lia.
    apply Z.div_le_upper_bound; [lia|]. nia. }
  rewrite too_short; auto.
  - intros pre b post Eb Hi. exfalso. assert (In b bs) by (rewrite Eb; apply in_or_app; right; now left).
    unfold is_imu in Hi. apply Z.eqb_eq in Hi. unfold is_sys, velocity in *. apply Z.eqb_eq in Ks, Kv.
    destruct (in_seconds _ _ _ _ _ H) as [-> | ->]; lia.
  - unfold bs at 2. rewrite samples_seconds by assumption. nia.
Qed.

(** a size of zero *)
Lemma endless file id nowid p : nowid <> 16 -> nowid <> 81 -> nowid <> id -> (exists rest, skipn p file = [165; nowid; 0; 0] ++ rest) ->
  forall fuel, findnextid fuel r file id p = Endless.
Proof.
  intros N1 N2 N3 (rest & H). induction fuel as [|fuel IH]; [reflexivity|]. cbn [findnextid].
  assert (T : read_id r file p = Some (nowid, [165; nowid], (p + 2)%nat)).
  { unfold read_id. rewrite (take_ok file p [165; nowid] ([0; 0] ++ rest) 2) by (try reflexivity; exact H). reflexivity. }
  rewrite T. unfold next_block. destruct (Z.eqb_spec nowid 16); [contradiction|]. destruct (Z.eqb_spec nowid 81); [contradiction|].
  rewrite (take_ok file (p + 2) [0; 0] rest 2); [|apply (skip_next file p [165; nowid]); exact H|reflexivity].
  replace (word (rendian r) 0 0) with 0 by (destruct (rendian r); reflexivity).
  replace (Z.to_nat (Z.of_nat (p + 2 + 2) + (2 * 0 - 4))) with p by lia. destruct (Z.eqb_spec nowid id); [contradiction|]. exact IH.
Qed.
Lemma find_skip file id bs : forall p rest fuel, skipn p file = concat (map bytes_of bs) ++ rest -> Forall (hop r file) bs ->
  (forall x, In x bs -> kind id x = false) ->
  findnextid (length bs + fuel) r file id p = findnextid fuel r file id (p + size bs).
Proof.
  induction bs as [|x bs IH]; intros p rest fuel H F N.
  - cbn. unfold size. cbn. now rewrite Nat.add_0_r.
  - inversion F as [|? ? Hx F']; subst. cbn [map concat] in H. rewrite <- app_assoc in H. cbn [length Nat.add findnextid].
    rewrite (read_here _ _ _ _ _ H), (Hx _ _ H). assert (Kx : (bid x =? id) = false) by (apply N; now left). rewrite Kx.
    rewrite (IH _ rest); [|apply skip_next; exact H|exact F'|intros; apply N; now right].
    f_equal. unfold size. cbn [map concat]. rewrite app_length. lia.
Qed.
Theorem zero_size header bs id rest fs : Forall (vector_block e) bs -> Forall (verified r) bs -> Forall (sized e) bs ->
  Forall (fun b => is_sys b = false) bs -> id <> 16 -> id <> 17 -> id <> 81 ->
  read_vector r (file_of header bs ([165; id; 0; 0] ++ rest)) (length header) fs = Hang.
Proof.
  intros V Ve Sz N I1 I2 I3. unfold read_vector, guess_adv, code_spacing. set (file := file_of header bs ([165; id; 0; 0] ++ rest)).
  assert (Lf : (length bs <= length file)%nat) by apply file_length.
  replace (S (length file)) with (length bs + (S (length file) - length bs))%nat at 1 by lia.
  rewrite (find_skip file 17 bs (length header) ([165; id; 0; 0] ++ rest)).
  - rewrite (endless file 17 id); auto. exists rest. unfold size. apply skip_next. apply file_skip.
  - apply file_skip.
  - now apply vector_hops.
  - rewrite Forall_forall in N. exact N.
Qed.
End Vector.

Section Awac.
Context (e : endian) (cs : bool) (bins beams : nat).
Let r := Reader e cs Awac bins beams None.

Definition astep (s : state) (b : blk) : state :=
  let p := (pos s + length (bytes_of b))%nat in
  if kind 32 b then State p (S (c s)) (upd (c s) (body b) (data s)) (sysd s) (imus s) (imu_seen s) else at_pos p s.
Lemma awac_next file s b rest : skipn (pos s) file = bytes_of b ++ rest -> awac_block bins beams b -> verified r b ->
  (kind 32 b = true -> (c s < length (data s))%nat) -> readnext r file s = Next (astep s b).
Proof.
  intros H WF V R1. pose proof (bytes_of_length b r V) as LB. unfold readnext. rewrite (read_here r file _ b rest H).
  assert (H2 : skipn (pos s + 2) file = body b ++ ck b ++ rest).
  { change (skipn (pos s) file = [165; bid b] ++ (body b ++ ck b) ++ rest) in H. apply skip_next in H. rewrite <- app_assoc in H. exact H. }
  assert (H3 : skipn (pos s + 2 + length (body b)) file = ck b ++ rest) by (apply skip_next; exact H2).
  assert (BL : forall n eff bump s', length (body b) = n -> eff (body b) (at_pos (pos s + 2) s) = Some s' ->
     block r file [165; bid b] (at_pos (pos s + 2) s) n eff bump = Next (at_count (bump + c s') (at_pos (pos s + 2 + n + 2) s'))).
  { intros n eff bump s' L E. unfold block. cbn [pos at_pos]. rewrite (take_ok file (pos s + 2) (body b) (ck b ++ rest) n H2 L).
    rewrite E. rewrite <- L. apply (close_ok r file b rest); assumption. }
  unfold astep, kind in *. rewrite LB.
  destruct WF as [(E & L & D & TD)|[(E & L)|[(E & L)|(E & L)]]]; rewrite E in *; cbv iota beta; cbn [Z.eqb Pos.eqb orb] in *.
  - specialize (R1 eq_refl). unfold read_awac_profile.
    change (rbeams r) with beams. change (rbins r) with bins.
    rewrite (BL _ _ 1%nat (with_data (upd (c s) (body b) (data s)) (at_pos (pos s + 2) s)) L).
    + f_equal. unfold at_count, with_data, at_pos. cbn [pos c data sysd imus imu_seen]. rewrite L. apply state_eq. lia.
    + rewrite (dated_ok _ _ TD). unfold store. cbn [c at_pos data]. rewrite write_upd by exact R1. reflexivity.
  - unfold skip_block. rewrite (BL 508%nat _ 0%nat (at_pos (pos s + 2) s) L eq_refl). f_equal. unfold at_count, at_pos. cbn [c pos data sysd imus imu_seen]. apply state_eq. lia.
  - unfold skip_block. rewrite (BL 220%nat _ 0%nat (at_pos (pos s + 2) s) L eq_refl). f_equal. unfold at_count, at_pos. cbn [c pos data sysd imus imu_seen]. apply state_eq. lia.
  - unfold skip_block. rewrite (BL 44%nat _ 0%nat (at_pos (pos s + 2) s) L eq_refl). f_equal. unfold at_count, at_pos. cbn [c pos data sysd imus imu_seen]. apply state_eq. lia.
Qed.
Lemma astep_pos s b : pos (astep s b) = (pos s + length (bytes_of b))%nat.
Proof. unfold astep. destruct (kind 32 b); reflexivity. Qed.
Lemma astep_c s b : c (astep s b) = ((if kind 32 b then 1 else 0) + c s)%nat.
Proof. unfold astep. destruct (kind 32 b); reflexivity. Qed.
Lemma astep_len s b : length (data (astep s b)) = length (data s).
Proof. unfold astep. destruct (kind 32 b); [apply upd_length|reflexivity]. Qed.
Lemma awac_run file : forall bs s f tail, skipn (pos s) file = concat (map bytes_of bs) ++ tail ->
  Forall (awac_block bins beams) bs -> Forall (verified r) bs -> (c s + number 32 bs <= length (data s))%nat ->
  readfile_loop (length bs + f) r file s = readfile_loop f r file (fold_left astep bs s).
Proof.
  induction bs as [|b bs IH]; intros s f tail H WF V R; [reflexivity|].
  inversion WF as [|? ? WF1 WF2]; subst. inversion V as [|? ? V1 V2]; subst.
  cbn [length plus readfile_loop fold_left]. cbn [map concat] in H. rewrite <- app_assoc in H.
  assert (Nb : number 32 (b :: bs) = ((if kind 32 b then 1 else 0) + number 32 bs)%nat) by (unfold number; cbn; destruct (kind 32 b); reflexivity).
  rewrite (awac_next file s b (concat (map bytes_of bs) ++ tail)); [|exact H|exact WF1|exact V1|].
  - change (enough r (astep s b)) with false. cbv iota. apply (IH _ _ tail); auto.
    + rewrite astep_pos. apply skip_next. exact H.
    + rewrite astep_c, astep_len. destruct (kind 32 b); lia.
  - intro K. rewrite K in Nb. lia.
Qed.
Lemma awac_data bs : forall s l n, data s = l ++ repeat None n -> c s = length l -> (number 32 bs <= n)%nat ->
  data (fold_left astep bs s) = l ++ map Some (profiles bs) ++ repeat None (n - number 32 bs).
Proof.
  induction bs as [|b bs IH]; intros s l n D C L.
  - cbn. rewrite Nat.sub_0_r. exact D.
  - assert (Nb : number 32 (b :: bs) = ((if kind 32 b then 1 else 0) + number 32 bs)%nat) by (unfold number; cbn; destruct (kind 32 b); reflexivity).
    cbn [fold_left]. unfold profiles. cbn [filter]. destruct (kind 32 b) eqn:K.
    + destruct n as [|n]; [lia|]. rewrite (IH _ (l ++ [Some (body b)]) n).
      * cbn [map]. rewrite <- app_assoc. replace (S n - number 32 (b :: bs))%nat with (n - number 32 bs)%nat by lia. reflexivity.
      * unfold astep. rewrite K. cbn [data]. rewrite D, C. cbn [repeat]. rewrite upd_app, <- app_assoc. reflexivity.
      * rewrite astep_c, K, app_length. cbn. lia.
      * lia.
    + rewrite (IH _ l n); [|unfold astep; rewrite K; exact D|rewrite astep_c, K; exact C|lia].
      replace (n - number 32 (b :: bs))%nat with (n - number 32 bs)%nat by lia. reflexivity.
Qed.
Lemma awac_hops file bs : Forall (awac_block bins beams) bs -> Forall (verified r) bs -> Forall (sized e) bs -> Forall (hop r file) bs.
Proof.
  rewrite !Forall_forall. intros A B D x Hx. apply hop_sized; [|now apply D].
  intro K. exfalso. unfold velocity in K. apply Z.eqb_eq in K. specialize (A x Hx). unfold awac_block in A. rewrite K in A.
  destruct A as [(X & _)|[(X & _)|[(X & _)|(X & _)]]]; discriminate X.
Qed.
Theorem awac_read header bs tail : (22 <= length header)%nat -> (length tail < 2)%nat ->
  Forall (awac_block bins beams) bs -> Forall (verified r) bs -> Forall (sized e) bs -> (0 < number 32 bs)%nat ->
  evenly 32 bs (file_of header bs tail) ->
  exists s n, read_with (guess_awac r (file_of header bs tail) (length header)) r (file_of header bs tail) (length header) = Done s
    /\ data s = map Some (profiles bs) ++ repeat None n.
Proof.
  intros Hh T V Ve Sz H Ev. assert (C : cut_off tail) by now left.
  pose proof (awac_hops (file_of header bs tail) bs V Ve Sz) as F.
  destruct (spacing_some r header bs tail 32 Hh F C ltac:(discriminate) H) as (d & n & E & D & A & B).
  assert (G : exists m, guess_awac r (file_of header bs tail) (length header) = Room m /\ (number 32 bs <= m)%nat).
  { unfold guess_awac. rewrite E. destruct (Z.eqb_spec d 0) as [Z|NZ].
    - exists 1%nat. split; [reflexivity|].
      destruct (split_kind 32 bs H) as (pre & b & post & Eb & N & K & Nn). destruct post as [|x post]; [rewrite Nn; cbn; lia|].
      exfalso. pose proof (later r header bs tail 32 Hh F C ltac:(discriminate) pre b (x :: post) Eb K ltac:(discriminate) d n E). lia.
    - eexists. split; [reflexivity|].
      pose proof (room r header bs tail 32 Hh F C ltac:(discriminate) d n Ev H E ltac:(lia)). lia. }
  destruct G as (m & -> & Lm). cbn [read_with]. unfold readfile. change (rpings r) with (@None nat). cbv iota.
  replace (S (length (file_of header bs tail))) with (length bs + S (length (file_of header bs tail) - length bs))%nat by (pose proof (file_length header bs tail); lia).
  rewrite (awac_run _ bs _ _ tail).
  - cbn [readfile_loop]. match goal with |- context [readnext r ?f ?s] => destruct (at_end r f s tail) as [p ->]; [|exact C|] end.
    + assert (X : forall l s, pos (fold_left astep l s) = (pos s + size l)%nat).
      { induction l as [|b l IH]; intro s; [unfold size; cbn; lia|]. cbn [fold_left]. rewrite IH, astep_pos. unfold size. cbn [map concat]. rewrite app_length. lia. }
      rewrite X. cbn [pos]. unfold size. apply skip_next. apply file_skip.
    + eexists. exists (m - number 32 bs)%nat. split; [reflexivity|]. cbn [data at_pos].
      rewrite (awac_data bs _ [] m); [reflexivity|reflexivity|reflexivity|exact Lm].
  - apply file_skip.
  - exact V.
  - exact Ve.
  - cbn [c data]. rewrite repeat_length. lia.
Qed.
End Awac.

(** every block but those of size zero is left behind *)
Lemma read_id_after r file p nowid th q : Forall is_byte file -> read_id r file p = Some (nowid, th, q) ->
  (p + 2 <= length file)%nat /\ ((exists rest, skipn p file = 165 :: nowid :: rest /\ q = (p + 2)%nat) \/ (p + 4 <= q)%nat).
Proof.
  intros B. unfold read_id, take. destruct (skipn p file) as [|b0 [|b1 rest]] eqn:E; try discriminate. cbn.
  assert (L : (p + 2 <= length file)%nat).
  { pose proof (skipn_length p file) as L. rewrite E in L. cbn [length] in L. lia. }
  intros H. split; [exact L|]. destruct (Z.eqb_spec b0 165) as [->|N].
  - injection H as <- <- <-. left. exists rest. split; reflexivity.
  - pose proof (Proofs.Nortek.findnext_spec (rendian r) false file (p + 2) B) as S.
    destruct (findnext (rendian r) false file (p + 2)) as [[q' id']|]; [|discriminate]. injection H as <- <- <-.
    destruct S as [S _]. unfold block_start in S. destruct S as ((k & K) & _). right. lia.
Qed.
Lemma word_nonneg e b0 b1 : is_byte b0 -> is_byte b1 -> 0 <= word e b0 b1 /\ (word e b0 b1 = 0 -> b0 = 0 /\ b1 = 0).
Proof. unfold is_byte, word. destruct e; lia. Qed.
Theorem ends e cs inst bins beams file id p : Forall is_byte file ->
  (forall q x rest, skipn q file <> 165 :: x :: 0 :: 0 :: rest) ->
  findnextid (S (length file)) (Reader e cs inst bins beams None) file id p <> Endless.
Proof.
  set (r := Reader e cs inst bins beams None). intros B Z0.
  cut (forall fuel p, (length file <= fuel + p)%nat -> findnextid (S fuel) r file id p <> Endless); [intros H; apply H; lia|].
  clear p. induction fuel as [|fuel IH]; intros p L; cbn [findnextid].
  - destruct (read_id r file p) as [[[nowid th] q]|] eqn:R; [|discriminate]. apply read_id_after in R; [|exact B]. lia.
  - destruct (read_id r file p) as [[[nowid th] q]|] eqn:R; [|discriminate]. apply read_id_after in R; [|exact B]. destruct R as [Lp R].
    destruct (next_block r file nowid q) as [q'|] eqn:N; [|discriminate]. destruct (nowid =? id); [discriminate|].
    apply (IH q'). enough (p < q')%nat by lia. clear IH. unfold next_block in N.
    assert (Q : (p + 2 <= q)%nat) by (destruct R as [(rest & _ & ->)|R]; lia).
    destruct (nowid =? 16); [injection N as <-; lia|]. destruct (nowid =? 81); [injection N as <-; lia|].
    unfold take in N. destruct (skipn q file) as [|b0 [|b1 rest']] eqn:E; try discriminate. cbn [firstn length Nat.eqb] in N.
    set (w := word (rendian r) b0 b1) in *. assert (N' : q' = Z.to_nat (Z.of_nat (q + 2) + (2 * w - 4))) by congruence. clear N. subst q'.
    assert (Bs : Forall is_byte (b0 :: b1 :: rest')) by (rewrite <- E; now apply Proofs.Nortek.skipn_Forall).
    inversion Bs as [|? ? B0 Bs']; subst. inversion Bs' as [|? ? B1 Bs'']; subst.
    destruct (word_nonneg (rendian r) b0 b1 B0 B1) as [W1 W2]. fold w in W1, W2. destruct R as [(rest & R & ->)|R].
    + assert (W : 0 < w); [|clearbody w; lia].
      destruct (Z.eq_dec w 0) as [W0|]; [|lia]. destruct (W2 W0) as [-> ->].
      exfalso. apply (Z0 p nowid rest'). rewrite R. f_equal. f_equal.
      pose proof (skip_next file p [165; nowid] rest R) as S. cbn [length] in S. rewrite E in S. congruence.
    + clearbody w. lia.
Qed.
