(** Reading a well-formed Vector file. *)
From Coq Require Import ZArith List Bool Lia.
From Verif.Model Require Import Nortek NortekFile.
From Verif.Spec Require Import Nortek.
Import ListNotations.
Open Scope Z_scope.

Lemma skipn_plus {A} a b (l : list A) : skipn (a + b) l = skipn b (skipn a l).
Proof. revert l. induction a as [|a IH]; intros l; [reflexivity|]. destruct l; simpl; [rewrite !skipn_nil; reflexivity|apply IH]. Qed.
Lemma skip_next {A} (file : list A) p a rest : skipn p file = a ++ rest -> skipn (p + length a) file = rest.
Proof. intros H. rewrite skipn_plus, H. rewrite skipn_app, skipn_all, Nat.sub_diag. reflexivity. Qed.
Lemma take_ok file p a rest n : skipn p file = a ++ rest -> length a = n -> take file p n = Some a.
Proof.
  intros H L. unfold take. rewrite H, firstn_app, L, Nat.sub_diag, <- L, firstn_all, app_nil_r, Nat.eqb_refl. reflexivity.
Qed.
Lemma take_none file p n : (length (skipn p file) < n)%nat -> take file p n = None.
Proof.
  intros H. unfold take. rewrite firstn_all2 by lia. destruct (Nat.eqb_spec (length (skipn p file)) n); [lia|reflexivity].
Qed.

Fixpoint upd {A} (k : nat) (x : A) (l : list (option A)) : list (option A) :=
  match k, l with
  | _, [] => []
  | O, _ :: l' => Some x :: l'
  | S k', y :: l' => y :: upd k' x l'
  end.
Lemma write_upd {A} k (x : A) l : (k < length l)%nat -> write k x l = Some (upd k x l).
Proof.
  revert l. induction k as [|k IH]; intros [|y l] H; simpl in *; try lia; [reflexivity|]. rewrite IH by lia. reflexivity.
Qed.
Lemma upd_length {A} k (x : A) l : length (upd k x l) = length l.
Proof. revert l. induction k as [|k IH]; intros [|y l]; simpl; try reflexivity. rewrite IH. reflexivity. Qed.
Lemma upd_same {A} k (x : A) l : (k < length l)%nat -> nth k (upd k x l) None = Some x.
Proof. revert l. induction k as [|k IH]; intros [|y l] H; simpl in *; try lia; [reflexivity|]. apply IH. lia. Qed.
Lemma upd_other {A} k j (x : A) l : j <> k -> nth j (upd k x l) None = nth j l None.
Proof.
  revert j l. induction k as [|k IH]; intros [|j] [|y l] H; simpl; try reflexivity; [congruence|]. apply IH. lia.
Qed.
Lemma upd_app {A} (a : list (option A)) x y l : upd (length a) x (a ++ y :: l) = a ++ Some x :: l.
Proof. induction a as [|z a IH]; simpl; [reflexivity|]. rewrite IH. reflexivity. Qed.

(** what one block does *)
Definition step (s : state) (b : blk) : state :=
  let p := (pos s + length (bytes_of b))%nat in
  if velocity b then State p (S (c s)) (upd (c s) (body b) (data s)) (sysd s) (imus s) (imu_seen s)
  else if is_sys b then State p (c s) (data s) (upd (c s) (body b) (sysd s)) (imus s) (imu_seen s)
  else if is_imu b then State p (c s) (data s) (sysd s) (upd (Nat.pred (c s)) (nth 3 (body b) 0, skipn 4 (body b)) (imus s)) true
  else at_pos p s.
(** there is room for it *)
Definition room (s : state) (b : blk) : Prop :=
  (velocity b = true -> (c s < length (data s))%nat) /\ (is_sys b = true -> (c s < length (sysd s))%nat) /\
  (is_imu b = true -> (0 < c s <= length (imus s))%nat).

Lemma close_ok r file b rest p s bump : verified r b -> skipn p file = ck b ++ rest ->
  close r file [165; bid b] (body b) p s bump = Next (at_count (bump + c s) (at_pos (p + 2) s)).
Proof.
  intros (c0 & c1 & E & V) H. unfold close. destruct (rchecksum r) eqn:R; [|reflexivity].
  rewrite (take_ok file p (ck b) rest 2 H) by (rewrite E; reflexivity). rewrite E.
  destruct V as [V|V]; [discriminate|]. rewrite V. reflexivity.
Qed.
Lemma bytes_of_length b r : verified r b -> length (bytes_of b) = (2 + length (body b) + 2)%nat.
Proof. intros (c0 & c1 & E & _). unfold bytes_of. rewrite E. simpl. rewrite app_length. simpl. lia. Qed.

Lemma state_eq p q k d sd i f : p = q -> State p k d sd i f = State q k d sd i f.
Proof. intros ->. reflexivity. Qed.
Lemma dated_ok b d : rd_time (skipn 2 b) = Some d -> dated b = true.
Proof. intros H. unfold dated. rewrite H. reflexivity. Qed.
Lemma firstn_In' {A} n (l : list A) x : In x (firstn n l) -> In x l.
Proof. revert l. induction n as [|n IH]; intros [|y l]; simpl; try tauto. intros [->|H]; [left; reflexivity|right; apply IH; exact H]. Qed.
Lemma skipn_In' {A} n (l : list A) x : In x (skipn n l) -> In x l.
Proof. revert l. induction n as [|n IH]; intros [|y l]; simpl; try tauto. intros H. right. apply IH. exact H. Qed.
Lemma ascii_ok l : (forall x, In x l -> x < 128) -> ascii l = true.
Proof. intros H. apply forallb_forall. intros x I. apply Z.ltb_lt. apply H. exact I. Qed.

Lemma readnext_block r file s b rest : rinst r = Vector -> skipn (pos s) file = bytes_of b ++ rest ->
  vector_block (rendian r) b -> verified r b -> room s b -> readnext r file s = Next (step s b).
Proof.
  intros I H WF V (R1 & R2 & R3). pose proof (bytes_of_length b r V) as LB.
  unfold readnext, read_id.
  assert (H2 : skipn (pos s + 2) file = body b ++ ck b ++ rest).
  { change (skipn (pos s) file = [165; bid b] ++ (body b ++ ck b) ++ rest) in H. apply skip_next in H. rewrite <- app_assoc in H. exact H. }
  assert (H3 : skipn (pos s + 2 + length (body b)) file = ck b ++ rest) by (apply skip_next; exact H2).
  rewrite (take_ok file (pos s) [165; bid b] (body b ++ ck b ++ rest) 2) by (try reflexivity; rewrite H; unfold bytes_of; simpl; rewrite <- app_assoc; reflexivity).
  change (165 =? 165) with true. cbv iota beta.
  assert (BL : forall n eff bump s', length (body b) = n -> eff (body b) (at_pos (pos s + 2) s) = Some s' ->
     block r file [165; bid b] (at_pos (pos s + 2) s) n eff bump = Next (at_count (bump + c s') (at_pos (pos s + 2 + n + 2) s'))).
  { intros n eff bump s' L E. unfold block. cbn [pos at_pos]. rewrite (take_ok file (pos s + 2) (body b) (ck b ++ rest) n H2 L).
    rewrite E. rewrite <- L. apply (close_ok r file b rest); assumption. }
  unfold step, room, velocity, is_sys, is_imu in *. rewrite LB.
  destruct WF as [(E & L)|[(E & L & D & TD)|[(E & L & (D & TD) & AS)|[(E & WF)|[(E & WF)|[(E & L)|[(E & L)|(E & L)]]]]]]];
    rewrite E in *; cbv iota beta; cbn [Z.eqb Pos.eqb orb] in *.
  - specialize (R1 eq_refl).
    unfold read_sample. rewrite (BL 20%nat store 1%nat (with_data (upd (c s) (body b) (data s)) (at_pos (pos s + 2) s)) L).
    + f_equal. unfold at_count, with_data, at_pos. cbn. apply state_eq. lia.
    + unfold store. cbn [c at_pos data]. rewrite write_upd by exact R1. reflexivity.
  - specialize (R2 eq_refl).
    unfold read_vec_sysdata. rewrite (BL 24%nat _ 0%nat (with_sys (upd (c s) (body b) (sysd s)) (at_pos (pos s + 2) s)) L).
    + f_equal. unfold at_count, with_sys, at_pos. cbn. apply state_eq. lia.
    + rewrite (dated_ok _ _ TD). cbn [c at_pos sysd]. rewrite write_upd by exact R2. reflexivity.
  - unfold read_vec_hdr. rewrite (BL 38%nat _ 0%nat (at_pos (pos s + 2) s) L).
    + f_equal. unfold at_count, at_pos. cbn. apply state_eq. lia.
    + rewrite (dated_ok _ _ TD). rewrite ascii_ok by (intros x X; apply AS; apply firstn_In', skipn_In' in X; exact X).
      rewrite ascii_ok by (intros x X; apply AS; apply skipn_In' in X; exact X). reflexivity.
  - destruct WF as (s0 & s1 & n0 & n1 & f0 & f1 & amps & EB & W & L).
    unfold read_vec_checkdata. rewrite I. cbn [pos at_pos].
    rewrite (take_ok file (pos s + 2) [s0; s1; n0; n1; f0; f1] (amps ++ ck b ++ rest) 6) by (try reflexivity; rewrite H2, EB, <- app_assoc; reflexivity).
    cbn [words nth].
    assert (H4 : skipn (pos s + 2 + 6) file = amps ++ ck b ++ rest).
    { rewrite EB, <- app_assoc in H2. apply (skip_next file (pos s + 2) [s0; s1; n0; n1; f0; f1]) in H2. exact H2. }
    rewrite (take_ok _ _ _ _ _ H4 L).
    replace (pos s + 2 + 6 + 3 * Z.to_nat (word (rendian r) n0 n1))%nat with (pos s + 2 + length (body b))%nat by (rewrite EB, app_length, L; simpl; lia).
    rewrite <- EB. replace [165; 7] with [165; bid b] by (rewrite E; reflexivity). rewrite (close_ok r file b rest) by assumption. f_equal. unfold at_count, at_pos. cbn. apply state_eq. lia.
  - destruct WF as (s0 & s1 & n & id & values & EB & WI). specialize (R3 eq_refl).
    unfold read_microstrain. cbn [pos at_pos at_count].
    rewrite (take_ok file (pos s + 2) [s0; s1; n; id] (values ++ ck b ++ rest) 4) by (try reflexivity; rewrite H2, EB, <- app_assoc; reflexivity).
    cbn [nth].
    assert (H4 : skipn (pos s + 2 + 4) file = values ++ ck b ++ rest).
    { rewrite EB, <- app_assoc in H2. apply (skip_next file (pos s + 2) [s0; s1; n; id]) in H2. exact H2. }
    assert (IL : imu_length id = Some (length values)).
    { unfold imu_length. destruct WI as [(-> & ->)|[(-> & ->)|(-> & ->)]]; reflexivity. }
    rewrite IL. rewrite (take_ok _ _ _ _ _ H4 eq_refl). cbn [c imus].
    rewrite write_upd by (cbn; lia). replace [165; 113] with [165; bid b] by (rewrite E; reflexivity).
    replace (pos s + 2 + 4 + length values)%nat with (pos s + 2 + length (body b))%nat by (rewrite EB, app_length; simpl; lia).
    rewrite <- EB. rewrite (close_ok r file b rest) by assumption. f_equal. rewrite EB. unfold at_count, at_pos, with_imu. cbn [c pos data sysd imus imu_seen nth app skipn].
    replace (1 + Nat.pred (c s))%nat with (c s) by lia. apply state_eq. simpl. lia.
  - unfold skip_block. rewrite (BL 508%nat _ 0%nat (at_pos (pos s + 2) s) L eq_refl). f_equal. unfold at_count, at_pos. cbn [c pos data sysd imus imu_seen]. apply state_eq. lia.
  - unfold skip_block. rewrite (BL 220%nat _ 0%nat (at_pos (pos s + 2) s) L eq_refl). f_equal. unfold at_count, at_pos. cbn [c pos data sysd imus imu_seen]. apply state_eq. lia.
  - unfold skip_block. rewrite (BL 44%nat _ 0%nat (at_pos (pos s + 2) s) L eq_refl). f_equal. unfold at_count, at_pos. cbn [c pos data sysd imus imu_seen]. apply state_eq. lia.
Qed.

(** ** the loop *)
Definition count (bs : list blk) : nat := length (samples bs).
Lemma count_cons b bs : count (b :: bs) = ((if velocity b then 1 else 0) + count bs)%nat.
Proof. unfold count, samples. simpl. destruct (velocity b); reflexivity. Qed.
Lemma count_app a b : count (a ++ b) = (count a + count b)%nat.
Proof. unfold count, samples. rewrite filter_app, map_app, app_length. reflexivity. Qed.
Lemma step_c s b : c (step s b) = ((if velocity b then 1 else 0) + c s)%nat.
Proof. unfold step. destruct (velocity b); [reflexivity|]. destruct (is_sys b); [reflexivity|]. destruct (is_imu b); reflexivity. Qed.
Lemma step_pos s b : pos (step s b) = (pos s + length (bytes_of b))%nat.
Proof. unfold step. destruct (velocity b); [reflexivity|]. destruct (is_sys b); [reflexivity|]. destruct (is_imu b); reflexivity. Qed.
Lemma step_lengths s b : length (data (step s b)) = length (data s) /\ length (sysd (step s b)) = length (sysd s) /\
  length (imus (step s b)) = length (imus s).
Proof.
  unfold step. destruct (velocity b); [simpl; rewrite upd_length; tauto|]. destruct (is_sys b); [simpl; rewrite upd_length; tauto|].
  destruct (is_imu b); [simpl; rewrite upd_length; tauto|simpl; tauto].
Qed.
Lemma fold_c bs : forall s, c (fold_left step bs s) = (c s + count bs)%nat.
Proof. induction bs as [|b bs IH]; intros s; [unfold count, samples; simpl; lia|]. cbn [fold_left]. rewrite IH, step_c, count_cons. destruct (velocity b); lia. Qed.
Lemma fold_pos bs : forall s, pos (fold_left step bs s) = (pos s + length (concat (map bytes_of bs)))%nat.
Proof. induction bs as [|b bs IH]; intros s; [simpl; lia|]. cbn [fold_left map concat]. rewrite IH, step_pos, app_length. lia. Qed.
Lemma fold_lengths bs : forall s, length (data (fold_left step bs s)) = length (data s) /\
  length (sysd (fold_left step bs s)) = length (sysd s) /\ length (imus (fold_left step bs s)) = length (imus s).
Proof.
  induction bs as [|b bs IH]; intros s; [tauto|]. cbn [fold_left]. destruct (IH (step s b)) as (A & B & C).
  destruct (step_lengths s b) as (A' & B' & C'). rewrite A, B, C. tauto.
Qed.
Fixpoint rooms (s : state) (bs : list blk) : Prop :=
  match bs with [] => True | b :: bs' => room s b /\ rooms (step s b) bs' end.
Lemma rooms_app a : forall s b, rooms s (a ++ b) <-> rooms s a /\ rooms (fold_left step a s) b.
Proof. induction a as [|x a IH]; intros s b; simpl; [tauto|]. rewrite IH. tauto. Qed.
Lemma is_excl b : velocity b = true -> is_sys b = false /\ is_imu b = false.
Proof. unfold velocity, is_sys, is_imu. intros H. apply Z.eqb_eq in H. rewrite H. split; reflexivity. Qed.
Lemma rooms_ok bs : forall s n, length (data s) = n -> length (sysd s) = n -> length (imus s) = n ->
  (c s + count bs < n)%nat -> (forall pre b post, bs = pre ++ b :: post -> is_imu b = true -> (0 < c s + count pre)%nat) -> rooms s bs.
Proof.
  induction bs as [|b bs IH]; intros s n L1 L2 L3 C I; [exact Logic.I|]. rewrite count_cons in C. simpl. split.
  - unfold room. rewrite L1, L2, L3. split; [intros V; rewrite V in C; lia|]. split; [lia|]. intros Ib.
    specialize (I [] b bs eq_refl Ib). unfold count, samples in I. simpl in I. lia.
  - destruct (step_lengths s b) as (A & B & D). apply (IH _ n); [lia|lia|lia| |].
    + rewrite step_c. destruct (velocity b); lia.
    + intros pre b' post E Ib. specialize (I (b :: pre) b' post ltac:(rewrite E; reflexivity) Ib). rewrite count_cons in I.
      rewrite step_c. destruct (velocity b); lia.
Qed.
Definition goes_on (r : reader) (k : nat) : Prop := forall n, rpings r = Some n -> (k < n)%nat.
Lemma run_pre r file : rinst r = Vector -> forall bs s f rest, skipn (pos s) file = concat (map bytes_of bs) ++ rest ->
  Forall (vector_block (rendian r)) bs -> Forall (verified r) bs -> rooms s bs -> goes_on r (c s + count bs) ->
  readfile_loop (length bs + f) r file s = readfile_loop f r file (fold_left step bs s).
Proof.
  intros I. induction bs as [|b bs IH]; intros s f rest H WF V R G; [reflexivity|].
  inversion WF as [|? ? WF1 WF2]; subst. inversion V as [|? ? V1 V2]; subst. destruct R as [R1 R2].
  cbn [length plus readfile_loop fold_left]. cbn [map concat] in H. rewrite <- app_assoc in H.
  rewrite (readnext_block r file s b (concat (map bytes_of bs) ++ rest)) by assumption.
  assert (E : enough r (step s b) = false).
  { unfold enough. destruct (rpings r) as [n|] eqn:P; [|reflexivity]. specialize (G n P). rewrite count_cons in G.
    apply Nat.leb_gt. rewrite step_c. destruct (velocity b); lia. }
  rewrite E. apply (IH _ _ rest); try assumption.
  - rewrite step_pos. apply skip_next. exact H.
  - intros n P. specialize (G n P). rewrite count_cons in G. rewrite step_c. destruct (velocity b); lia.
Qed.

Lemma at_end r file s tail : skipn (pos s) file = tail -> cut_off tail -> exists p, readnext r file s = Eof (at_pos p s).
Proof.
  intros H [L|(p & E & L)]; unfold readnext, read_id.
  - rewrite take_none by (rewrite H; exact L). exists (pos s). destruct s; reflexivity.
  - rewrite (take_ok file (pos s) [165; 16] p 2) by (try reflexivity; rewrite H, E; reflexivity).
    change (165 =? 165) with true. cbv iota beta. cbn [Z.eqb Pos.eqb orb].
    unfold read_sample, block. cbn [pos at_pos]. rewrite take_none; [exists (pos s + 2)%nat; reflexivity|].
    assert (X : skipn (pos s + 2) file = p) by (apply (skip_next file (pos s) [165; 16] p); rewrite H, E; reflexivity).
    cbn [pos at_pos]. rewrite X. exact L.
Qed.

Lemma blocks_length bs : (length bs <= length (concat (map bytes_of bs)))%nat.
Proof. induction bs as [|b bs IH]; simpl; [lia|]. rewrite app_length in *. simpl. lia. Qed.
Lemma file_length header bs tail : (length bs <= length (file_of header bs tail))%nat.
Proof. unfold file_of. rewrite !app_length. pose proof (blocks_length bs). lia. Qed.
Lemma file_skip header bs tail : skipn (length header) (file_of header bs tail) = concat (map bytes_of bs) ++ tail.
Proof. unfold file_of. rewrite skipn_app, skipn_all, Nat.sub_diag. reflexivity. Qed.
Definition start (header : bytes) (n : nat) : state := State (length header) 0 (repeat None n) (repeat None n) (repeat None n) false.
Lemma imu_hyp bs : imu_after_velocity bs -> forall pre b post, bs = pre ++ b :: post -> is_imu b = true -> (0 < 0 + count pre)%nat.
Proof. intros H pre b post E I. specialize (H pre b post E I). unfold count. destruct (samples pre); [congruence|simpl; lia]. Qed.

Lemma read_all r header bs tail n : rinst r = Vector -> rpings r = None -> cut_off tail ->
  Forall (vector_block (rendian r)) bs -> Forall (verified r) bs -> imu_after_velocity bs -> (count bs < n)%nat ->
  exists p, readfile r (file_of header bs tail) (length header) n = Some (at_pos p (fold_left step bs (start header n))).
Proof.
  intros I P CO WF V IM C. unfold readfile. rewrite P. fold (start header n).
  replace (S (length (file_of header bs tail))) with (length bs + S (length (file_of header bs tail) - length bs))%nat by (pose proof (file_length header bs tail); lia).
  rewrite (run_pre r _ I bs _ _ tail); try assumption.
  - cbn [readfile_loop]. destruct (at_end r (file_of header bs tail) (fold_left step bs (start header n)) tail) as [p ->]; [|exact CO|exists p; reflexivity].
    rewrite fold_pos. cbn [pos start]. apply skip_next. apply file_skip.
  - apply file_skip.
  - apply (rooms_ok bs _ n); try apply repeat_length; [exact C|apply imu_hyp; exact IM].
  - intros k Hk. congruence.
Qed.

(** ** what ends up in the arrays *)
Lemma fold_data bs : forall s l n, data s = l ++ repeat None n -> c s = length l -> (count bs <= n)%nat ->
  data (fold_left step bs s) = l ++ map Some (samples bs) ++ repeat None (n - count bs).
Proof.
  induction bs as [|b bs IH]; intros s l n D C L.
  - cbn [fold_left]. change (count []) with 0%nat. rewrite Nat.sub_0_r. exact D.
  - cbn [fold_left]. rewrite count_cons in *. destruct (velocity b) eqn:Vb.
    + destruct n as [|n]; [lia|]. rewrite (IH _ (l ++ [Some (body b)]) n).
      * unfold samples. cbn [filter]. rewrite Vb. cbn [map]. rewrite <- app_assoc. reflexivity.
      * unfold step. rewrite Vb. cbn [data]. rewrite D, C. cbn [repeat]. rewrite upd_app, <- app_assoc. reflexivity.
      * rewrite step_c, Vb, C, app_length. simpl. lia.
      * lia.
    + rewrite (IH _ l n).
      * unfold samples. cbn [filter]. rewrite Vb. reflexivity.
      * rewrite <- D. unfold step. rewrite Vb. destruct (is_sys b); [reflexivity|]. destruct (is_imu b); reflexivity.
      * rewrite step_c, Vb. exact C.
      * lia.
Qed.
Lemma sys_later bs : forall s k, (k < c s)%nat -> nth k (sysd (fold_left step bs s)) None = nth k (sysd s) None.
Proof.
  induction bs as [|b bs IH]; intros s k H; [reflexivity|]. cbn [fold_left]. rewrite IH by (rewrite step_c; lia).
  unfold step. destruct (velocity b); [reflexivity|]. destruct (is_sys b); [|destruct (is_imu b); reflexivity].
  cbn [sysd]. apply upd_other. lia.
Qed.
Lemma sys_same bs : forall s, none_before_velocity is_sys bs = true -> nth (c s) (sysd (fold_left step bs s)) None = nth (c s) (sysd s) None.
Proof.
  induction bs as [|b bs IH]; intros s H; [reflexivity|]. cbn [fold_left]. cbn [none_before_velocity] in H.
  destruct (velocity b) eqn:V.
  - rewrite sys_later by (rewrite step_c, V; lia). unfold step. rewrite V. reflexivity.
  - apply andb_true_iff in H. destruct H as [H1 H2]. apply negb_true_iff in H1.
    replace (c s) with (c (step s b)) at 1 by (rewrite step_c, V; reflexivity). rewrite IH by exact H2.
    rewrite step_c, V. unfold step. rewrite V, H1. destruct (is_imu b); reflexivity.
Qed.
Lemma imu_later bs : forall s k, (S k < c s)%nat -> nth k (imus (fold_left step bs s)) None = nth k (imus s) None.
Proof.
  induction bs as [|b bs IH]; intros s k H; [reflexivity|]. cbn [fold_left]. rewrite IH by (rewrite step_c; lia).
  unfold step. destruct (velocity b); [reflexivity|]. destruct (is_sys b); [reflexivity|]. destruct (is_imu b); [|reflexivity].
  cbn [imus]. apply upd_other. lia.
Qed.
Lemma imu_same bs : forall s, (0 < c s)%nat -> none_before_velocity is_imu bs = true ->
  nth (Nat.pred (c s)) (imus (fold_left step bs s)) None = nth (Nat.pred (c s)) (imus s) None.
Proof.
  induction bs as [|b bs IH]; intros s P H; [reflexivity|]. cbn [fold_left]. cbn [none_before_velocity] in H.
  destruct (velocity b) eqn:V.
  - rewrite imu_later by (rewrite step_c, V; lia). unfold step. rewrite V. reflexivity.
  - apply andb_true_iff in H. destruct H as [H1 H2]. apply negb_true_iff in H1.
    replace (c s) with (c (step s b)) at 1 by (rewrite step_c, V; reflexivity). rewrite IH; [|rewrite step_c, V; exact P|exact H2].
    rewrite step_c, V. unfold step. rewrite V, H1. destruct (is_sys b); reflexivity.
Qed.

Lemma full_file r header bs tail n : rinst r = Vector -> rpings r = None -> cut_off tail ->
  Forall (vector_block (rendian r)) bs -> Forall (verified r) bs -> imu_after_velocity bs -> (length (samples bs) < n)%nat ->
  exists s, readfile r (file_of header bs tail) (length header) n = Some s /\
    data s = map Some (samples bs) ++ repeat None (n - length (samples bs)) /\
    (forall pre b post, bs = pre ++ b :: post -> is_sys b = true -> none_before_velocity is_sys post = true ->
       nth (length (samples pre)) (sysd s) None = Some (body b)) /\
    (forall pre b post, bs = pre ++ b :: post -> is_imu b = true -> none_before_velocity is_imu post = true ->
       nth (length (samples pre) - 1) (imus s) None = Some (nth 3 (body b) 0, skipn 4 (body b))).
Proof.
  intros I P CO WF V IM C. destruct (read_all r header bs tail n I P CO WF V IM C) as [p E]. eexists. split; [exact E|].
  assert (R : rooms (start header n) bs).
  { apply (rooms_ok bs _ n); try apply repeat_length; [exact C|apply imu_hyp; exact IM]. }
  cbn [data sysd imus at_pos]. split; [|split].
  - rewrite (fold_data bs (start header n) [] n); [reflexivity|reflexivity|reflexivity|]. unfold count. lia.
  - intros pre b post Eb Sb N. rewrite Eb in *. apply rooms_app in R. destruct R as [_ [(_ & R2 & _) _]].
    rewrite fold_left_app. cbn [fold_left]. set (s := fold_left step pre (start header n)) in *.
    assert (Cs : c s = length (samples pre)) by (unfold s; rewrite fold_c; reflexivity).
    assert (Vb : velocity b = false) by (unfold velocity, is_sys in *; apply Z.eqb_eq in Sb; rewrite Sb; reflexivity).
    rewrite <- Cs. replace (c s) with (c (step s b)) by (rewrite step_c, Vb; reflexivity). rewrite sys_same by exact N.
    rewrite step_c, Vb. unfold step. rewrite Vb, Sb. cbn [sysd]. apply upd_same. apply R2. exact Sb.
  - intros pre b post Eb Sb N. rewrite Eb in *. apply rooms_app in R. destruct R as [_ [(_ & _ & R3) _]].
    rewrite fold_left_app. cbn [fold_left]. set (s := fold_left step pre (start header n)) in *. specialize (R3 Sb).
    assert (Cs : c s = length (samples pre)) by (unfold s; rewrite fold_c; reflexivity).
    assert (Vb : velocity b = false /\ is_sys b = false) by (unfold velocity, is_sys, is_imu in *; apply Z.eqb_eq in Sb; rewrite Sb; split; reflexivity).
    destruct Vb as [Vb Sy]. rewrite <- Cs, Nat.sub_1_r. replace (c s) with (c (step s b)) by (rewrite step_c, Vb; reflexivity).
    rewrite imu_same; [|rewrite step_c, Vb; simpl; lia|exact N].
    rewrite step_c, Vb. unfold step. rewrite Vb, Sy, Sb. cbn [imus]. apply upd_same. simpl. lia.
Qed.

(** ** a limited number of samples *)
Lemma upd_firstn {A} k (x : A) l n : upd k x (firstn n l) = firstn n (upd k x l).
Proof. revert k l. induction n as [|n IH]; intros [|k] [|y l]; simpl; try reflexivity. rewrite IH. reflexivity. Qed.
Definition part (n : nat) (a b : state) : Prop :=
  pos a = pos b /\ c a = c b /\ data a = firstn n (data b) /\ sysd a = firstn n (sysd b) /\ imus a = firstn n (imus b).
Lemma part_step n a b k : part n a b -> part n (step a k) (step b k).
Proof.
  intros (P & C & D & S1 & I). unfold part, step. rewrite P, C, D, S1, I. destruct (velocity k); [cbn; rewrite upd_firstn; tauto|].
  destruct (is_sys k); [cbn; rewrite upd_firstn; tauto|]. destruct (is_imu k); [cbn; rewrite upd_firstn; tauto|]. cbn. tauto.
Qed.
Lemma part_fold n bs : forall a b, part n a b -> part n (fold_left step bs a) (fold_left step bs b).
Proof. induction bs as [|k bs IH]; intros a b H; [exact H|]. cbn [fold_left]. apply IH, part_step, H. Qed.
Lemma firstn_repeat {A} (x : A) n m : (n <= m)%nat -> firstn n (repeat x m) = repeat x n.
Proof. revert m. induction n as [|n IH]; intros [|m] H; simpl; try lia; try reflexivity. rewrite IH by lia. reflexivity. Qed.
Lemma firstn_upd {A} k (x : A) l n : (n <= k)%nat -> firstn n (upd k x l) = firstn n l.
Proof. revert k l. induction n as [|n IH]; intros [|k] [|y l] H; simpl; try lia; try reflexivity. rewrite IH by lia. reflexivity. Qed.
Lemma later_fold n bs : forall s, (n <= c s)%nat -> firstn n (data (fold_left step bs s)) = firstn n (data s) /\
  firstn n (sysd (fold_left step bs s)) = firstn n (sysd s).
Proof.
  induction bs as [|b bs IH]; intros s H; [tauto|]. cbn [fold_left]. destruct (IH (step s b)) as [A B]; [rewrite step_c; lia|].
  rewrite A, B. unfold step. destruct (velocity b); [cbn; rewrite firstn_upd by exact H; tauto|].
  destruct (is_sys b); [cbn; rewrite firstn_upd by exact H; tauto|]. destruct (is_imu b); cbn; tauto.
Qed.

Lemma write_beyond {A} k (x : A) l : (length l <= k)%nat -> write k x l = None.
Proof. revert l. induction k as [|k IH]; intros [|y l] H; simpl in *; try lia; try reflexivity. rewrite IH by lia. reflexivity. Qed.
(** a block cannot change full arrays of velocities and system data *)
Definition same_arrays (s : state) (x : result) : Prop :=
  match x with Next s' | Ten s' | Eof s' => data s' = data s /\ sysd s' = sysd s | Fail => True end.
Lemma close_same r file th byts p s0 s bump : data s = data s0 /\ sysd s = sysd s0 -> same_arrays s0 (close r file th byts p s bump).
Proof.
  intros H. unfold close. destruct (rchecksum r); [|exact H]. destruct (take file p 2) as [[|b0 [|b1 [|b2 l]]]|]; try exact H.
  destruct (checksum_passes (rendian r) true th byts (word (rendian r) b0 b1)); [exact H|exact Logic.I].
Qed.
Lemma block_same r file th s0 s n eff bump : data s = data s0 /\ sysd s = sysd s0 ->
  (forall byts s', eff byts s = Some s' -> data s' = data s0 /\ sysd s' = sysd s0) -> same_arrays s0 (block r file th s n eff bump).
Proof.
  intros H E. unfold block. destruct (take file (pos s) n) as [byts|]; [|exact H].
  destruct (eff byts s) as [s'|] eqn:Ee; [|exact Logic.I]. apply close_same. exact (E byts s' Ee).
Qed.
Lemma readnext_same r file s : (length (data s) <= c s)%nat -> (length (sysd s) <= c s)%nat -> same_arrays s (readnext r file s).
Proof.
  intros L1 L2. unfold readnext. destruct (read_id r file (pos s)) as [[[id th] p]|]; [|cbn; tauto].
  assert (ST : forall byts, store byts (at_pos p s) = None).
  { intros byts. unfold store. cbn [c data at_pos]. rewrite write_beyond by exact L1. reflexivity. }
  assert (SK : forall n, same_arrays s (skip_block r file th (at_pos p s) n)).
  { intros n. apply block_same; [split; reflexivity|]. intros byts s' E. injection E as <-. split; reflexivity. }
  assert (SA : forall n, same_arrays s (read_sample r file th (at_pos p s) n)).
  { intros n. apply block_same; [split; reflexivity|]. intros byts s' E. rewrite ST in E. discriminate. }
  repeat match goal with |- same_arrays s (if ?b then _ else _) => destruct b end.
  all: try apply SK; try apply SA.
  - assert (GO : forall n0 nb, same_arrays s (match take file (pos (at_pos p s)) n0 with
        | Some byts0 => match take file (pos (at_pos p s) + n0) (nb * Z.to_nat (nth 1 (words (rendian r) byts0) 0)) with
            | Some byts1 => close r file th (byts0 ++ byts1) (pos (at_pos p s) + n0 + nb * Z.to_nat (nth 1 (words (rendian r) byts0) 0)) (at_pos p s) 0
            | None => Eof (at_pos p s) end
        | None => Eof (at_pos p s) end)).
    { intros n0 nb. destruct (take file (pos (at_pos p s)) n0) as [byts0|]; [|split; reflexivity].
      match goal with |- context[take file ?q ?m] => destruct (take file q m) end; [|split; reflexivity]. apply close_same. split; reflexivity. }
    unfold read_vec_checkdata. destruct (rinst r); [apply GO|apply GO|exact Logic.I].
  - apply block_same; [split; reflexivity|]. intros byts s' E. destruct (dated byts); [|discriminate]. injection E as <-. split; reflexivity.
  - apply block_same; [split; reflexivity|]. intros byts s' E. destruct (dated byts); [|discriminate].
    cbn [c sysd at_pos] in E. rewrite write_beyond in E by exact L2. discriminate.
  - apply block_same; [split; reflexivity|]. intros byts s' E.
    destruct (dated byts && ascii (firstn 1 (skipn 13 byts)) && ascii (skipn 17 byts)); [|discriminate]. injection E as <-. split; reflexivity.
  - apply block_same; [split; reflexivity|]. intros byts s' E. destruct (dated byts); [|discriminate]. rewrite ST in E. discriminate.
  - exact Logic.I.
  - split; reflexivity.
  - unfold read_microstrain. destruct (take file (pos (at_count (Nat.pred (c (at_pos p s))) (at_pos p s))) 4) as [byts0|]; [|split; reflexivity].
    destruct (imu_length (nth 3 byts0 0)) as [n|]; [|split; reflexivity].
    match goal with |- context[take file ?q ?m] => destruct (take file q m) end; [|split; reflexivity].
    match goal with |- context[write ?q ?m ?l] => destruct (write q m l) end; [|exact Logic.I].
    apply close_same. split; reflexivity.
  - split; reflexivity.
Qed.
Lemma last_imu_same r file s : (length (data s) <= c s)%nat -> (length (sysd s) <= c s)%nat ->
  data (last_imu r file s) = data s /\ sysd (last_imu r file s) = sysd s.
Proof.
  intros L1 L2. pose proof (readnext_same r file s L1 L2) as H. unfold last_imu. destruct (imu_seen s); [|tauto].
  destruct (readnext r file s); simpl in H; tauto.
Qed.

Lemma split_at bs : forall n, (n < count bs)%nat -> exists pre b post, bs = pre ++ b :: post /\ velocity b = true /\ count pre = n.
Proof.
  induction bs as [|b bs IH]; intros n H; [cbn in H; lia|]. rewrite count_cons in H. destruct (velocity b) eqn:V.
  - destruct n as [|n].
    + exists [], b, bs. repeat split. exact V.
    + destruct (IH n ltac:(lia)) as (pre & b' & post & -> & V' & C). exists (b :: pre), b', post. rewrite count_cons, V. repeat split; [exact V'|lia].
  - destruct (IH n ltac:(simpl in H; lia)) as (pre & b' & post & -> & V' & C). exists (b :: pre), b', post. rewrite count_cons, V. repeat split; [exact V'|lia].
Qed.

Definition limited (r : reader) (k : nat) : reader := Reader (rendian r) (rchecksum r) (rinst r) (rbins r) (rbeams r) (Some k).
Lemma first_n r header bs tail n k : rinst r = Vector -> rpings r = None -> cut_off tail ->
  Forall (vector_block (rendian r)) bs -> Forall (verified r) bs -> imu_after_velocity bs ->
  (length (samples bs) < n)%nat -> (0 < k <= length (samples bs))%nat ->
  exists s full, readfile r (file_of header bs tail) (length header) n = Some full /\
    readfile (limited r k) (file_of header bs tail) (length header) n = Some s /\
    data s = firstn k (data full) /\ sysd s = firstn k (sysd full) /\ data s = map Some (firstn k (samples bs)).
Proof.
  intros I P CO WF V IM C K. destruct (read_all r header bs tail n I P CO WF V IM C) as [p E].
  destruct (split_at bs (k - 1)) as (pre & b & post & Eb & Vb & Cp); [unfold count; lia|].
  set (r' := limited r k). set (file := file_of header bs tail) in *.
  assert (WF' : Forall (vector_block (rendian r')) bs) by exact WF.
  assert (V' : Forall (verified r') bs) by exact V.
  rewrite Eb in WF', V'. apply Forall_app in WF'. destruct WF' as [WF1 WF2]. inversion WF2 as [|? ? WF3 WF4]; subst x l.
  apply Forall_app in V'. destruct V' as [V1 V2]. inversion V2 as [|? ? V3 V4]; subst x l.
  set (s1 := fold_left step pre (start header k)).
  assert (SK : skipn (pos (start header k)) file = concat (map bytes_of pre) ++ bytes_of b ++ concat (map bytes_of post) ++ tail).
  { unfold file. cbn [pos start]. rewrite file_skip, Eb, map_app, concat_app. cbn [map concat]. rewrite <- !app_assoc. reflexivity. }
  assert (L1 : length (data s1) = k /\ length (sysd s1) = k /\ length (imus s1) = k).
  { unfold s1. destruct (fold_lengths pre (start header k)) as (A1 & A2 & A3). rewrite A1, A2, A3. split; [|split]; apply repeat_length. }
  assert (C1 : c s1 = (k - 1)%nat) by (unfold s1; rewrite fold_c; cbn [c start]; lia).
  assert (RUN : readfile r' file (length header) n = Some (last_imu r' file (step s1 b))).
  { unfold readfile. cbn [rpings r' limited]. fold (start header k).
    assert (FL : (length pre < length file)%nat).
    { unfold file. pose proof (file_length header bs tail) as X. rewrite Eb in X at 1. rewrite app_length in X. simpl in X. lia. }
    replace (S (length file)) with (length pre + S (length file - length pre))%nat by lia.
    rewrite (run_pre r' file I pre (start header k) (S (length file - length pre)) (bytes_of b ++ concat (map bytes_of post) ++ tail)); try assumption.
    - fold s1. cbn [readfile_loop]. rewrite (readnext_block r' file s1 b (concat (map bytes_of post) ++ tail)); try assumption.
      + replace (enough r' (step s1 b)) with true; [reflexivity|]. unfold enough. cbn [rpings r' limited]. rewrite step_c, Vb, C1.
        symmetry. apply Nat.leb_le. lia.
      + unfold s1. rewrite fold_pos. apply skip_next. exact SK.
      + destruct L1 as (A1 & A2 & A3). destruct (is_excl b Vb) as [B1 B2]. unfold room. rewrite B1, B2. repeat split; try discriminate. lia.
    - apply (rooms_ok pre _ k); try apply repeat_length; [cbn [c start]; lia|].
      intros pre' b' post' Ep Ib. cbn [c start]. apply (imu_hyp bs IM pre' b' (post' ++ b :: post)); [|exact Ib].
      rewrite Eb, Ep, <- app_assoc. reflexivity.
    - intros m Hm. cbn [rpings r' limited] in Hm. injection Hm as <-. cbn [c start]. lia. }
  eexists. eexists. split; [exact E|]. split; [exact RUN|].
  destruct (step_lengths s1 b) as (B1 & B2 & _). destruct L1 as (A1 & A2 & A3).
  destruct (last_imu_same r' file (step s1 b)) as [D1 D2]; [rewrite B1, step_c, Vb; lia|rewrite B2, step_c, Vb; lia|].
  rewrite D1, D2. cbn [data sysd at_pos].
  assert (PT : part k (step s1 b) (fold_left step (pre ++ [b]) (start header n))).
  { rewrite fold_left_app. cbn [fold_left]. apply part_step. apply part_fold.
    assert (KN : (k <= n)%nat) by lia. unfold part, start. cbn. rewrite !firstn_repeat by exact KN. tauto. }
  destruct PT as (P1 & P2 & P3 & P4 & P5).
  assert (FE : fold_left step bs (start header n) = fold_left step post (fold_left step (pre ++ [b]) (start header n))).
  { rewrite <- fold_left_app, <- app_assoc. cbn [app]. rewrite Eb. reflexivity. }
  destruct (later_fold k post (fold_left step (pre ++ [b]) (start header n))) as [Q1 Q2].
  { rewrite fold_c, count_app, count_cons, Vb. cbn [c start]. unfold count at 2, samples. simpl. lia. }
  assert (DD : data (step s1 b) = firstn k (data (fold_left step bs (start header n)))) by (rewrite FE, Q1; exact P3).
  split; [exact DD|]. split; [rewrite FE, Q2; exact P4|].
  rewrite DD, (fold_data bs (start header n) [] n); [|reflexivity|reflexivity|unfold count; lia].
  cbn [app]. rewrite firstn_app, map_length. replace (k - length (samples bs))%nat with 0%nat by lia. cbn [firstn]. rewrite app_nil_r.
  apply firstn_map.
Qed.

(** ** arrays that are too short *)
Lemma readnext_full r file s b rest : rinst r = Vector -> skipn (pos s) file = bytes_of b ++ rest ->
  vector_block (rendian r) b -> (velocity b = true /\ (length (data s) <= c s)%nat) \/ (is_sys b = true /\ (length (sysd s) <= c s)%nat) ->
  readnext r file s = Fail.
Proof.
  intros I H WF Full.
  unfold readnext, read_id.
  assert (H2 : skipn (pos s + 2) file = body b ++ ck b ++ rest).
  { change (skipn (pos s) file = [165; bid b] ++ (body b ++ ck b) ++ rest) in H. apply skip_next in H. rewrite <- app_assoc in H. exact H. }
  rewrite (take_ok file (pos s) [165; bid b] (body b ++ ck b ++ rest) 2) by (try reflexivity; rewrite H; unfold bytes_of; simpl; rewrite <- app_assoc; reflexivity).
  change (165 =? 165) with true. cbv iota beta.
  unfold velocity, is_sys in Full.
  destruct Full as [(E & L)|(E & L)]; apply Z.eqb_eq in E;
    (destruct WF as [(E' & WL)|[(E' & WL & D & TD)|[(E' & _)|[(E' & _)|[(E' & _)|[(E' & _)|[(E' & _)|(E' & _)]]]]]]]; try congruence);
    rewrite E; cbv iota beta; cbn [Z.eqb Pos.eqb orb].
  - unfold read_sample, block. cbn [pos at_pos]. rewrite (take_ok file (pos s + 2) (body b) (ck b ++ rest) 20 H2 WL).
    unfold store. cbn [c at_pos data]. rewrite write_beyond by exact L. reflexivity.
  - unfold read_vec_sysdata, block. cbn [pos at_pos]. rewrite (take_ok file (pos s + 2) (body b) (ck b ++ rest) 24 H2 WL).
    rewrite (dated_ok _ _ TD). cbn [c at_pos sysd]. rewrite write_beyond by exact L. reflexivity.
Qed.

Lemma run_full r file n : rinst r = Vector -> rpings r = None -> forall bs s fuel rest, skipn (pos s) file = concat (map bytes_of bs) ++ rest ->
  Forall (vector_block (rendian r)) bs -> Forall (verified r) bs ->
  length (data s) = n -> length (sysd s) = n -> length (imus s) = n -> (c s <= n)%nat -> (n < c s + count bs)%nat ->
  (forall pre b post, bs = pre ++ b :: post -> is_imu b = true -> (0 < c s + count pre)%nat) ->
  readfile_loop fuel r file s = None.
Proof.
  intros I NP. induction bs as [|b bs IH]; intros s fuel rest H WF V Ld Ls Li Lc Cn Imu; [unfold count in Cn; cbn in Cn; lia|].
  destruct fuel as [|fuel]; [reflexivity|]. cbn [map concat] in H. rewrite <- app_assoc in H.
  inversion WF as [|? ? WF1 WF2]; subst. inversion V as [|? ? V1 V2]; subst.
  cbn [readfile_loop].
  destruct (Bool.bool_dec (velocity b) true) as [Ev|Ev].
  { destruct (Nat.le_gt_cases (length (data s)) (c s)) as [F|F].
    - rewrite (readnext_full r file s b _ I H WF1 (or_introl (conj Ev F))). reflexivity.
    - rewrite (readnext_block r file s b _ I H WF1 V1).
      + unfold enough. rewrite NP. apply (IH (step s b) fuel rest).
        * rewrite step_pos. apply skip_next in H. exact H.
        * exact WF2.
        * exact V2.
        * apply step_lengths.
        * rewrite <- Ls. apply step_lengths.
        * rewrite <- Li. apply step_lengths.
        * rewrite step_c, Ev. lia.
        * rewrite step_c. rewrite count_cons in Cn. lia.
        * intros pre b' post E Hi. rewrite step_c, Ev. lia.
      + destruct (is_excl b Ev) as [X Y]. split; [intros _; lia|split; congruence]. }
  destruct (Bool.bool_dec (is_sys b) true) as [Es|Es].
  { destruct (Nat.le_gt_cases (length (sysd s)) (c s)) as [F|F].
    - rewrite (readnext_full r file s b _ I H WF1 (or_intror (conj Es F))). reflexivity.
    - rewrite (readnext_block r file s b _ I H WF1 V1).
      + unfold enough. rewrite NP. apply (IH (step s b) fuel rest).
        * rewrite step_pos. apply skip_next in H. exact H.
        * exact WF2.
        * exact V2.
        * apply step_lengths.
        * rewrite <- Ls. apply step_lengths.
        * rewrite <- Li. apply step_lengths.
        * rewrite step_c. destruct (velocity b); [congruence|lia].
        * rewrite step_c. rewrite count_cons in Cn. lia.
        * intros pre b' post E Hi. rewrite step_c. specialize (Imu (b :: pre) b' post ltac:(rewrite E; reflexivity) Hi). rewrite count_cons in Imu. lia.
      + split; [intros; congruence|split; [intros _; lia|]]. intros Hi. unfold is_sys, is_imu in *. apply Z.eqb_eq in Hi, Es. congruence. }
  rewrite (readnext_block r file s b _ I H WF1 V1).
  - unfold enough. rewrite NP. apply (IH (step s b) fuel rest).
    + rewrite step_pos. apply skip_next in H. exact H.
    + exact WF2.
    + exact V2.
    + apply step_lengths.
    + rewrite <- Ls. apply step_lengths.
    + rewrite <- Li. apply step_lengths.
    + rewrite step_c. destruct (velocity b); [congruence|lia].
    + rewrite step_c. rewrite count_cons in Cn. lia.
    + intros pre b' post E Hi. rewrite step_c. specialize (Imu (b :: pre) b' post ltac:(rewrite E; reflexivity) Hi). rewrite count_cons in Imu. lia.
  - split; [congruence|split; [congruence|]]. intros Hi. specialize (Imu [] b bs eq_refl Hi). cbn in Imu. lia.
Qed.
Lemma too_short r header bs tail n : rinst r = Vector -> rpings r = None ->
  Forall (vector_block (rendian r)) bs -> Forall (verified r) bs -> imu_after_velocity bs -> (n < length (samples bs))%nat ->
  readfile r (file_of header bs tail) (length header) n = None.
Proof.
  intros I NP WF V Im L. unfold readfile. rewrite NP.
  apply (run_full r _ n I NP bs _ _ tail); cbn [pos data sysd imus c]; try apply repeat_length; try lia; try assumption.
  - apply file_skip.
  - apply imu_hyp. exact Im.
Qed.
(** wave data of an AWAC *)
Lemma waves r header id rest n : id = 48 \/ id = 54 -> readfile r (header ++ 165 :: id :: rest) (length header) n = None.
Proof.
  intros E. unfold readfile. cbn [readfile_loop]. unfold readnext, read_id. cbn [pos].
  rewrite (take_ok _ _ [165; id] rest 2) by (try reflexivity; rewrite skipn_app, skipn_all, Nat.sub_diag; reflexivity).
  cbn [Z.eqb Pos.eqb]. destruct E as [-> | ->]; cbn [Z.eqb Pos.eqb orb]; unfold take; cbn [firstn length Nat.eqb]; reflexivity.
Qed.
