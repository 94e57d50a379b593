(** Attitude and IMU of Vector files. *)
From Coq Require Import String.
From Coq Require Import ZArith QArith List Bool Lia Sorted.
From Verif.Model Require Import Nortek NortekFile NortekGuess NortekData Gaps HandleNan Microstrain Time ReadVector.
From Verif.Model Require RdiBlocks.
From Verif.Spec Require Import Nortek NortekGuess NortekData Gaps Time HandleNan ReadVector.
From Verif.Proofs Require Import Gaps NortekFile NortekData HandleNan Time.
Import ListNotations.
Open Scope nat_scope.
From Verif.Proofs Require NortekGuess.
From Verif.Proofs Require Import ReadVector ReadVectorBursts.
Lemma fill_one_same t' t a i j : (forall k, k <= j -> nthq t k = Some (nth k t' 0%Q)) -> i <= j -> fill_one_o t a i j = fill_one (line_time t') None a i j.
Proof.
  intros H L. unfold fill_one_o, fill_one. cbn [le_max]. rewrite andb_true_r. destruct (Nat.ltb_spec 1 (j - i)) as [X|X]; [|reflexivity].
  f_equal. apply map_ext_in. intros k Hk. apply in_seq in Hk. unfold line_time_o. rewrite !H by lia. reflexivity.
Qed.
Lemma fill_loop_same t' t gd : StronglySorted lt gd -> (forall g, In g gd -> forall k, k <= g -> nthq t k = Some (nth k t' 0%Q)) ->
  forall a, fill_loop_o t a gd = fill_loop (line_time t') None a gd.
Proof.
  induction gd as [|i gd IH]; intros S1 H a; [reflexivity|]. destruct gd as [|j gd]; [reflexivity|]. cbn [fill_loop_o fill_loop].
  inversion S1 as [|? ? S2 F]; subst. rewrite (fill_one_same t').
  - apply IH; [exact S2|]. intros g Hg. apply H. right. exact Hg.
  - apply H. right. left. reflexivity.
  - inversion F; subst. lia.
Qed.
Lemma interp_same t' t a : (forall g v, valid a g v -> forall k, k <= g -> nthq t k = Some (nth k t' 0%Q)) ->
  interpgaps_o t a = interpgaps t' None false a.
Proof.
  intros H. unfold interpgaps_o, interpgaps. apply fill_loop_same; [apply good_idx_sorted|]. intros g Hg. pose proof (good_idx_lt a g Hg) as L.
  apply good_idx_in in Hg. destruct Hg as [v Hv]. apply (H g v). apply valid_nthq. split; assumption.
Qed.

Section Attitude.
Variables (e : endian) (bs : list blk) (n : nat) (header : bytes) (g : vec_cfg) (t : series) (im : list (option (Z * bytes))) (clk : nat -> Q) (d : dataset) (a0 : nat).
Let s := fold_left step bs (start header n).
Hypothesis (Oth : others e g (sysd s) t im (length (d_time d)) d).
Hypothesis (La : length (d_time d) <= n) (Lt : forall k, k < a0 -> exists q, nth_error t k = Some (Some q) /\ (q == clk k)%Q).
Hypothesis (Room : forall pre b post, bs = pre ++ b :: post -> is_sys b = true -> count pre < a0) (A0 : a0 <= n).
Lemma sysd_len : length (sysd s) = n.
Proof. unfold s. apply (state_lengths bs n header). Qed.
Lemma sysd_at k x : sys_at e bs k x -> k < a0 /\ exists b, nth k (sysd s) None = Some b /\ decode_sys e b = Some x.
Proof.
  intros (pre & b & post & E & Sb & <- & N & D). pose proof (Room pre b post E Sb) as R. change (length (samples pre)) with (count pre).
  split; [exact R|]. exists (body b). split; [|exact D]. unfold s. rewrite E, fold_left_app. cbn [fold_left].
  set (s1 := fold_left step pre (start header n)).
  assert (Cs : c s1 = count pre) by (unfold s1; rewrite fold_c; reflexivity).
  destruct (sys_not_velocity b Sb) as [Vb _].
  rewrite <- Cs. replace (c s1) with (c (step s1 b)) by (rewrite step_c, Vb; reflexivity). rewrite sys_same by exact N.
  rewrite step_c, Vb. unfold step. rewrite Vb, Sb. cbn [sysd]. apply upd_same.
  unfold s1. destruct (state_lengths pre n header) as (_ & -> & _). rewrite fold_c. cbn [c start]. unfold count in *. lia.
Qed.
Lemma sysd_none k : no_sys_at bs k -> nth k (sysd s) None = None.
Proof.
  intros H. destruct (nth k (sysd s) None) as [x|] eqn:E; [|reflexivity]. exfalso. unfold s in E. apply sys_origin in E.
  destruct E as [E|(p & y & q & Eb & Sb & _ & C)]; [rewrite start_sys in E; discriminate|]. apply (H p y q Eb Sb). exact C.
Qed.
Let arr (f : vec_sys -> Q) := floats_of f (decoded (decode_sys e) (sysd s)).
Lemma arr_len f : length (arr f) = n.
Proof. unfold arr. rewrite floats_of_length, decoded_length. apply sysd_len. Qed.
Lemma arr_nth f k : nthq (arr f) k = match nth k (sysd s) None with Some b => option_map f (decode_sys e b) | None => None end.
Proof.
  unfold nthq, arr, floats_of. change None with (option_map f None) at 1. rewrite map_nth, decoded_nth. destruct (nth k (sysd s) None); reflexivity.
Qed.
Lemma arr_valid f k x : sys_at e bs k x -> valid (arr f) k (f x).
Proof.
  intros H. destruct (sysd_at k x H) as (L & b & B & D). apply valid_nthq. rewrite arr_len. split; [lia|]. rewrite arr_nth, B, D. reflexivity.
Qed.
Lemma arr_missing f k : k < n -> no_sys_at bs k -> missing (arr f) k.
Proof. intros L H. apply missing_nthq. rewrite arr_len. split; [exact L|]. rewrite arr_nth, (sysd_none k H). reflexivity. Qed.
Lemma arr_early f k v : valid (arr f) k v -> k < a0.
Proof.
  intros V. apply valid_nthq in V. destruct V as [_ V]. rewrite arr_nth in V. destruct (nth k (sysd s) None) as [b|] eqn:E; [|discriminate].
  unfold s in E. apply sys_origin in E. destruct E as [E|(p & y & q & Eb & Sb & _ & <-)]; [rewrite start_sys in E; discriminate|].
  cbn [c start plus]. apply (Room p y q Eb Sb).
Qed.
Let t' := map val_or0 t.
Lemma t_some k : k < a0 -> nthq t k = Some (nth k t' 0%Q) /\ (nth k t' 0 == clk k)%Q.
Proof.
  intros L. destruct (Lt k L) as (q & Hq & C). assert (X : nthq t k = Some q) by (apply nth_error_nth; exact Hq).
  assert (Y : nth k t' 0%Q = q). { unfold t'. change 0%Q with (val_or0 None). rewrite map_nth. unfold nthq in X. rewrite X. reflexivity. }
  rewrite Y. split; assumption.
Qed.
Lemma smooth_is f : interpgaps_o t (arr f) = interpgaps t' None false (arr f).
Proof. apply interp_same. intros j v V k K. apply (t_some k). pose proof (arr_early f j v V). lia. Qed.
Lemma attitude_at nm f i : In (nm, f) attitudes -> i < length (d_time d) -> at_sample d nm 0 i = nth_error (interpgaps t' None false (arr f)) i.
Proof.
  intros H L. rewrite <- smooth_is.
  assert (X : exists v, existsb (fun x => String.eqb x nm) ["beam2inst_orientmat"; "vel"; "amp"; "corr"; "pressure"]%string = false /\
     find (fun v => String.eqb (vname v) nm) (sys_vars e g (sysd s) t ++ imu_vars e g im) = Some v /\ lines v = [interpgaps_o t (arr f)]).
  { cbn in H. repeat (destruct H as [H|H]; [injection H as <- <-; eexists; split; [reflexivity|]; split; [reflexivity|reflexivity]|]). destruct H. }
  destruct X as (v & X1 & X2 & X3). rewrite (proj1 Oth nm v 0 i X1 X2); [rewrite X3; reflexivity|rewrite X3; cbn; lia|exact L].
Qed.
Lemma attitude_ok : attitude_follows e bs clk d.
Proof.
  intros nm f H.
  split; [|split].
  - intros k x S1 L. rewrite (attitude_at nm f k H L). apply (fillw_keep_valid (line_time t') None false). apply arr_valid. exact S1.
  - intros i j k x y Si Sj K N L NE. rewrite (attitude_at nm f k H L).
    destruct (sysd_at i x Si) as (Li & _). destruct (sysd_at j y Sj) as (Lj & _).
    destruct (t_some i Li) as [_ Ti]. destruct (t_some j Lj) as [_ Tj]. destruct (t_some k ltac:(lia)) as [_ Tk].
    destruct (interpgaps_line t' None false (arr f) k i j (f x) (f y)) as (v & V & O).
    + apply arr_missing; [lia|]. apply N. lia.
    + split; [lia|]. split; [apply arr_valid; exact Si|]. intros m Hm. apply arr_missing; [lia|]. apply N. lia.
    + split; [lia|]. split; [apply arr_valid; exact Sj|]. intros m Hm. apply arr_missing; [lia|]. apply N. lia.
    + exact I.
    + rewrite Ti, Tj. intros C. apply NE. symmetry. exact C.
    + exists v. split; [exact V|]. unfold on_line_t in *. rewrite Ti, Tj, Tk in O. exact O.
  - intros k L D. rewrite (attitude_at nm f k H L). apply (fillw_ends_noextrap (line_time t') None false (arr f) k eq_refl).
    + apply arr_missing; [lia|]. destruct D as [D|D]; apply D; lia.
    + destruct D as [D|D]; [left; intros m Hm; apply arr_missing; [lia|apply D; lia]|right; intros m Hm; rewrite arr_len in Hm; apply arr_missing; [lia|apply D; lia]].
Qed.
End Attitude.

(** ** IMU *)
Lemma row_at {A} (f : A -> list (option Q)) k (l : list (option A)) i m : nth i l None = Some m -> i < length l ->
  nth_error (map (fun x => match x with Some m => nth k (f m) None | None => None end) l) i = Some (nth k (f m) None).
Proof. intros H L. rewrite nth_error_map', (nth_error_opt l i L), H. reflexivity. Qed.
Lemma sci_195 fs fl k nm p x v : 15 <= length fl -> imu_place 195 nm = Some p ->
  (if String.eqb nm "orientmat"
   then k < 9 /\ nth_error fl (p + 3 * fst (axis (k / 3)) + fst (world (k mod 3))) = Some (Some x) /\
        (v == snd (axis (k / 3)) * snd (world (k mod 3)) * x)%Q
   else k < 3 /\ nth_error fl (p + fst (axis k)) = Some (Some x) /\ (v == snd (axis k) * imu_factor fs 195 nm * x)%Q) ->
  let three := fun k => firstn 3 (skipn k fl) in
  let m := sci_imu fs 195 (Imu (three 3) (three 0) [] [three 6; three 9; three 12]) in
  exists f w, In (nm, f) [("accel", i_accel); ("angrt", i_angrt); ("orientmat", fun m => concat (i_omat m))]%string /\ nth k (f m) None = Some w /\ (w == v)%Q.
Proof.
  intros L P H. do 15 (destruct fl as [|? fl]; [exfalso; cbn [length] in L; lia|]). clear L.
  assert (N : (nm = "angrt" /\ p = 0 \/ nm = "accel" /\ p = 3 \/ nm = "orientmat" /\ p = 6)%string).
  { unfold imu_place in P. cbn [find fst snd Z.eqb Pos.eqb andb option_map] in P.
    destruct (String.eqb_spec "angrt" nm) as [<-|]; [injection P as <-; tauto|].
    destruct (String.eqb_spec "accel" nm) as [<-|]; [injection P as <-; tauto|].
    destruct (String.eqb_spec "orientmat" nm) as [<-|]; [injection P as <-; tauto|].
    discriminate. }
  destruct N as [[-> ->]|[[-> ->]|[-> ->]]]; cbn [String.eqb Ascii.eqb Bool.eqb] in H; destruct H as (K & X & Hv).
  - exists i_angrt. destruct k as [|[|[|k]]]; [| | |lia]; cbn in X; injection X as ->; eexists; (split; [cbn; tauto|]); (split; [reflexivity|rewrite Hv; unfold imu_factor; cbn; ring]).
  - exists i_accel. destruct k as [|[|[|k]]]; [| | |lia]; cbn in X; injection X as ->; eexists; (split; [cbn; tauto|]); (split; [reflexivity|rewrite Hv; unfold imu_factor; cbn; ring]).
  - eexists (fun m => concat (i_omat m)). do 9 (destruct k as [|k]; [cbn in X; injection X as ->; eexists; (split; [cbn; tauto|]); (split; [reflexivity|rewrite Hv; cbn; ring])|]). lia.
Qed.
Lemma sci_204 fs fl k nm p x v : 18 <= length fl -> imu_place 204 nm = Some p ->
  (if String.eqb nm "orientmat"
   then k < 9 /\ nth_error fl (p + 3 * fst (axis (k / 3)) + fst (world (k mod 3))) = Some (Some x) /\
        (v == snd (axis (k / 3)) * snd (world (k mod 3)) * x)%Q
   else k < 3 /\ nth_error fl (p + fst (axis k)) = Some (Some x) /\ (v == snd (axis k) * imu_factor fs 204 nm * x)%Q) ->
  let three := fun k => firstn 3 (skipn k fl) in
  let m := sci_imu fs 204 (Imu (three 0) (three 3) (three 6) [three 9; three 12; three 15]) in
  exists f w, In (nm, f) [("accel", i_accel); ("angrt", i_angrt); ("mag", i_mag); ("orientmat", fun m => concat (i_omat m))]%string /\ nth k (f m) None = Some w /\ (w == v)%Q.
Proof.
  intros L P H. do 18 (destruct fl as [|? fl]; [exfalso; cbn [length] in L; lia|]). clear L.
  assert (N : (nm = "accel" /\ p = 0 \/ nm = "angrt" /\ p = 3 \/ nm = "mag" /\ p = 6 \/ nm = "orientmat" /\ p = 9)%string).
  { unfold imu_place in P. cbn [find fst snd Z.eqb Pos.eqb andb option_map] in P.
    destruct (String.eqb_spec "accel" nm) as [<-|]; [injection P as <-; tauto|].
    destruct (String.eqb_spec "angrt" nm) as [<-|]; [injection P as <-; tauto|].
    destruct (String.eqb_spec "mag" nm) as [<-|]; [injection P as <-; tauto|].
    destruct (String.eqb_spec "orientmat" nm) as [<-|]; [injection P as <-; tauto|].
    discriminate. }
  destruct N as [[-> ->]|[[-> ->]|[[-> ->]|[-> ->]]]]; cbn [String.eqb Ascii.eqb Bool.eqb] in H; destruct H as (K & X & Hv).
  - exists i_accel. destruct k as [|[|[|k]]]; [| | |lia]; cbn in X; injection X as ->; eexists; (split; [cbn; tauto|]); (split; [reflexivity|rewrite Hv; unfold imu_factor; cbn; ring]).
  - exists i_angrt. destruct k as [|[|[|k]]]; [| | |lia]; cbn in X; injection X as ->; eexists; (split; [cbn; tauto|]); (split; [reflexivity|rewrite Hv; unfold imu_factor; cbn; ring]).
  - exists i_mag. destruct k as [|[|[|k]]]; [| | |lia]; cbn in X; injection X as ->; eexists; (split; [cbn; tauto|]); (split; [reflexivity|rewrite Hv; unfold imu_factor; cbn; ring]).
  - eexists (fun m => concat (i_omat m)). do 9 (destruct k as [|k]; [cbn in X; injection X as ->; eexists; (split; [cbn; tauto|]); (split; [reflexivity|rewrite Hv; cbn; ring])|]). lia.
Qed.
Lemma sci_211 fs fl k nm p x v : 9 <= length fl -> imu_place 211 nm = Some p ->
  (if String.eqb nm "orientmat"
   then k < 9 /\ nth_error fl (p + 3 * fst (axis (k / 3)) + fst (world (k mod 3))) = Some (Some x) /\
        (v == snd (axis (k / 3)) * snd (world (k mod 3)) * x)%Q
   else k < 3 /\ nth_error fl (p + fst (axis k)) = Some (Some x) /\ (v == snd (axis k) * imu_factor fs 211 nm * x)%Q) ->
  let three := fun k => firstn 3 (skipn k fl) in
  let m := sci_imu fs 211 (Imu (three 3) (three 0) (three 6) []) in
  exists f w, In (nm, f) [("angrt", i_angrt); ("accel", i_accel); ("mag", i_mag)]%string /\ nth k (f m) None = Some w /\ (w == v)%Q.
Proof.
  intros L P H. do 9 (destruct fl as [|? fl]; [exfalso; cbn [length] in L; lia|]). clear L.
  assert (N : (nm = "angrt" /\ p = 0 \/ nm = "accel" /\ p = 3 \/ nm = "mag" /\ p = 6)%string).
  { unfold imu_place in P. cbn [find fst snd Z.eqb Pos.eqb andb option_map] in P.
    destruct (String.eqb_spec "angrt" nm) as [<-|]; [injection P as <-; tauto|].
    destruct (String.eqb_spec "accel" nm) as [<-|]; [injection P as <-; tauto|].
    destruct (String.eqb_spec "mag" nm) as [<-|]; [injection P as <-; tauto|].
    discriminate. }
  destruct N as [[-> ->]|[[-> ->]|[-> ->]]]; cbn [String.eqb Ascii.eqb Bool.eqb] in H; destruct H as (K & X & Hv).
  - exists i_angrt. destruct k as [|[|[|k]]]; [| | |lia]; cbn in X; injection X as ->; eexists; (split; [cbn; tauto|]); (split; [reflexivity|rewrite Hv; unfold imu_factor; cbn; ring]).
  - exists i_accel. destruct k as [|[|[|k]]]; [| | |lia]; cbn in X; injection X as ->; eexists; (split; [cbn; tauto|]); (split; [reflexivity|rewrite Hv; unfold imu_factor; cbn; ring]).
  - exists i_mag. destruct k as [|[|[|k]]]; [| | |lia]; cbn in X; injection X as ->; eexists; (split; [cbn; tauto|]); (split; [reflexivity|rewrite Hv; unfold imu_factor; cbn; ring]).
Qed.

Section Imu.
Variables (e : endian) (bs : list blk) (n : nat) (header : bytes) (g : vec_cfg) (t : series) (d : dataset) (id : Z).
Let s := fold_left step bs (start header n).
Hypothesis (WF : Forall (vector_block e) bs) (Oth : others e g (sysd s) t (imus s) (length (d_time d)) d).
Hypothesis (La : length (d_time d) <= n) (Ln : count bs <= n) (Same : forall b, In b bs -> is_imu b = true -> nth 3 (body b) 0%Z = id).
Lemma imus_at i id' vals : imu_at bs i id' vals -> i < n /\ nth i (imus s) None = Some (id', vals) /\ known id' (length vals) /\ id' = id.
Proof.
  intros (pre & b & post & E & Ib & C & N & <- & <-).
  assert (Li : i < n). { rewrite E, count_app' in Ln. change (length (samples pre)) with (count pre) in C. lia. }
  split; [exact Li|]. split; [|split; [apply (imu_block_known e); [apply (in_block bs pre b post WF E)|exact Ib]|apply Same; [rewrite E; apply in_or_app; right; left; reflexivity|exact Ib]]].
  unfold s. rewrite E, fold_left_app. cbn [fold_left]. set (s1 := fold_left step pre (start header n)).
  assert (Cs : c s1 = S i) by (unfold s1; rewrite fold_c; exact C).
  destruct (imu_not_velocity b Ib) as [Vb Sb].
  assert (Cs2 : c (step s1 b) = S i) by (rewrite step_c, Vb, Cs; reflexivity).
  change i with (Nat.pred (S i)). rewrite <- Cs2. rewrite imu_same; [|lia|exact N]. rewrite Cs2. unfold step. rewrite Vb, Sb, Ib. cbn [imus]. rewrite Cs. apply upd_same.
  unfold s1. destruct (state_lengths pre n header) as (_ & _ & ->). cbn [Nat.pred]. exact Li.
Qed.
Lemma first_id i m : nth i (imus s) None = Some m -> exists vals, first_of (imus s) = Some (id, vals).
Proof.
  intros H. destruct (@first_of_some (Z * bytes) _ _ _ H) as ([id' vals] & F). exists vals. rewrite F. f_equal. f_equal.
  pose proof (first_of_in _ _ F) as I1. apply (In_nth _ _ None) in I1. destruct I1 as (j & _ & J). unfold s in J. apply imu_origin in J.
  destruct J as [J|(pre & b & post & E & Ib & X & _)]; [rewrite start_imu in J; discriminate|]. injection X as X1 _. rewrite <- X1.
  apply Same; [rewrite E; apply in_or_app; right; left; reflexivity|exact Ib].
Qed.
Lemma imu_ok : imu_follows e (g_fs g) bs d.
Proof.
  intros i id' vals nm k v A (p & x & P & H) L. destruct (imus_at i id' vals A) as (Li & B & Kn & ->). destruct (first_id i _ B) as (v0 & F).
  set (m := sci_imu (g_fs g) id (decode_imu e (id, vals))).
  assert (G : forall f nv, existsb (fun x => String.eqb x nm) ["beam2inst_orientmat"; "vel"; "amp"; "corr"; "pressure"]%string = false ->
     find (fun v => String.eqb (vname v) nm) (sys_vars e g (sysd s) t ++ imu_vars e g (imus s)) = Some nv -> k < length (lines nv) ->
     nth k (lines nv) [] = map (fun x => match x with Some m => nth k (f m) None | None => None end)
        (map (option_map (fun m => sci_imu (g_fs g) id (decode_imu e m))) (imus s)) ->
     at_sample d nm k i = Some (nth k (f m) None)).
  { intros f nv X1 X2 X3 X4. rewrite (proj1 Oth nm nv k i X1 X2 X3 L), X4. apply row_at.
    - change None with (option_map (fun m => sci_imu (g_fs g) id (decode_imu e m)) None). rewrite map_nth, B. reflexivity.
    - rewrite map_length. unfold s. destruct (state_lengths bs n header) as (_ & _ & ->). exact Li. }
  assert (K : k < (if String.eqb nm "orientmat" then 9 else 3)) by (destruct (String.eqb nm "orientmat"); apply H).
  destruct (floats_length e (length vals) vals (le_n _)) as [FL1 FL2]. unfold imu_number in H.
  assert (C : exists f w nv, existsb (fun x => String.eqb x nm) ["beam2inst_orientmat"; "vel"; "amp"; "corr"; "pressure"]%string = false /\
     find (fun v => String.eqb (vname v) nm) (sys_vars e g (sysd s) t ++ imu_vars e g (imus s)) = Some nv /\ k < length (lines nv) /\
     nth k (lines nv) [] = map (fun x => match x with Some m => nth k (f m) None | None => None end)
        (map (option_map (fun m => sci_imu (g_fs g) id (decode_imu e m))) (imus s)) /\ nth k (f m) None = Some w /\ (w == v)%Q).
  { unfold imu_vars. rewrite F. destruct Kn as [[-> Lv]|[[-> Lv]|[-> Lv]]].
    - destruct (sci_195 (g_fs g) (floats e vals) k nm p x v ltac:(lia) P H) as (f & w & If & W1 & W2). exists f, w. cbn in If.
      repeat (destruct If as [If|If]; [injection If as <- <-; cbn [String.eqb Ascii.eqb Bool.eqb] in K; eexists; split; [reflexivity|]; split; [reflexivity|];
        split; [cbn; lia|]; split; [|split; [exact W1|exact W2]]; do 9 (destruct k as [|k]; [first [reflexivity|exfalso; lia]|]); exfalso; lia|]). destruct If.
    - destruct (sci_204 (g_fs g) (floats e vals) k nm p x v ltac:(lia) P H) as (f & w & If & W1 & W2). exists f, w. cbn in If.
      repeat (destruct If as [If|If]; [injection If as <- <-; cbn [String.eqb Ascii.eqb Bool.eqb] in K; eexists; split; [reflexivity|]; split; [reflexivity|];
        split; [cbn; lia|]; split; [|split; [exact W1|exact W2]]; do 9 (destruct k as [|k]; [first [reflexivity|exfalso; lia]|]); exfalso; lia|]). destruct If.
    - destruct (sci_211 (g_fs g) (floats e vals) k nm p x v ltac:(lia) P H) as (f & w & If & W1 & W2). exists f, w. cbn in If.
      repeat (destruct If as [If|If]; [injection If as <- <-; cbn [String.eqb Ascii.eqb Bool.eqb] in K; eexists; split; [reflexivity|]; split; [reflexivity|];
        split; [cbn; lia|]; split; [|split; [exact W1|exact W2]]; do 9 (destruct k as [|k]; [first [reflexivity|exfalso; lia]|]); exfalso; lia|]). destruct If. }
  destruct C as (f & w & nv & X1 & X2 & X3 & X4 & W1 & W2). exists w. split; [|exact W2]. rewrite (G f nv X1 X2 X3 X4), W1. reflexivity.
Qed.
End Imu.

(** ** files *)
Lemma whole_more r header bs tail n g ab (every : bool) : vector_file r g bs tail -> rpings r = None -> count bs < n ->
  g_burst g = 0 -> clock_of bs ab -> three_times bs -> (if every then imu_every (rendian r) bs else no_imu bs) ->
  exists d, read_dataset g r (file_of header bs tail) (length header) n = Some d /\
    length (d_time d) = (if every then count bs else n) /\ (forall i, i < length (d_time d) -> time_is d i (clock_at ab i)) /\
    (forall i byts, nth_error (samples bs) i = Some byts -> sample_is (rendian r) (g_scale g) d i byts) /\
    (forall i, count bs <= i < length (d_time d) -> sample_made_up d i) /\
    attitude_follows (rendian r) bs (clock_at ab) d /\ imu_follows (rendian r) (g_fs g) bs d /\
    others (rendian r) g (sysd (fold_left step bs (start header n))) (sample_times (g_fs g) 0 (sys_times (rendian r) (sysd (fold_left step bs (start header n)))))
      (imus (fold_left step bs (start header n))) (length (d_time d)) d.
Proof.
  intros (I1 & CO & WF & V & IM & M) P C B CL TT EV.
  destruct (whole_file r header bs tail n g ab every I1 P CO WF V IM C M B CL TT EV) as (d & D1 & D2 & D3 & D4 & D5 & D6).
  assert (Ld : length (d_time d) <= n) by (rewrite D2; destruct every; lia).
  exists d. split; [exact D1|]. split; [exact D2|]. split; [exact D3|]. split; [exact D4|]. split; [exact D5|]. split.
  - refine (attitude_ok (rendian r) bs n header g _ _ (clock_at ab) d n D6 Ld _ _ (le_n n)).
    + intros k Hk. destruct (continuous_times (g_fs g) (sys_times (rendian r) (sysd (fold_left step bs (start header n)))) ab k) as (q & Q1 & Q2 & _).
      * apply (keeps (rendian r) (rendian r)); try assumption. apply sys_room_lt. exact C.
      * apply CL.
      * apply CL.
      * unfold sys_times. rewrite decoded_length. destruct (state_lengths bs n header) as (_ & -> & _). exact Hk.
      * exists q. split; [exact Q1|exact Q2].
    + exact (sys_room_lt bs n C).
  - split; [|exact D6]. destruct every.
    + destruct EV as ((id & EV) & _). apply (imu_ok (rendian r) bs n header g _ d id WF D6 Ld); [lia|]. intros b Hb Ib. apply (EV b Hb Ib).
    + intros i id vals nm k v (pre & b & post & E & Ib & _) _ _. exfalso. unfold no_imu in EV. rewrite Forall_forall in EV.
      specialize (EV b). rewrite E in EV. specialize (EV ltac:(apply in_or_app; right; left; reflexivity)). congruence.
Qed.
Lemma bursts_more r header bss clocks tail n g : vector_file r g (concat bss) tail -> rpings r = None -> count (concat bss) < n ->
  bss <> [] -> 0 < g_burst g -> Forall (whole_burst (g_burst g)) bss -> Forall2 clock_of bss clocks -> Forall three_times bss ->
  no_imu (concat bss) \/ imu_every (rendian r) (concat bss) ->
  exists d, read_dataset g r (file_of header (concat bss) tail) (length header) n = Some d /\
    holds_exactly (rendian r) (g_scale g) (samples (concat bss)) (clock_in_bursts (g_burst g) clocks) d /\
    attitude_follows (rendian r) (concat bss) (clock_in_bursts (g_burst g) clocks) d /\ imu_follows (rendian r) (g_fs g) (concat bss) d /\
    let s := fold_left step (concat bss) (start header n) in
    others (rendian r) g (sysd s) (sample_times (g_fs g) (g_burst g) (sys_times (rendian r) (sysd s))) (imus s) (length (d_time d)) d.
Proof.
  intros (I1 & CO & WF & V & IM & M) P C NE B WB CL TT EV.
  destruct (burst_file r header bss clocks tail n g I1 P CO WF V IM C M NE B WB CL TT EV) as (d & D1 & D2 & D6).
  pose proof (count_concat (g_burst g) bss WB) as CC. destruct D2 as [D2 D3].
  assert (Ld : length (d_time d) <= n) by (rewrite D2; unfold count in C; lia).
  exists d. split; [exact D1|]. split; [split; assumption|]. split.
  - refine (attitude_ok (rendian r) (concat bss) n header g _ _ (clock_in_bursts (g_burst g) clocks) d (count (concat bss)) D6 Ld _ _ ltac:(lia)).
    + intros k Hk. destruct (burst_time (rendian r) (rendian r) (g_burst g) n bss clocks header B WF WB CL TT C (g_fs g) k) as [X _].
      destruct X as (q & Q1 & Q2 & _); [lia|]. exists q. split; assumption.
    + intros pre b post E Sb. destruct (locate bss pre b post E) as (b1 & bl & b2 & pre' & post' & E1 & -> & E3).
      rewrite count_app', (count_before (g_burst g) bss WB b1 bl b2 E1).
      pose proof (burst_place (g_burst g) n bss B WB C b1 bl b2 pre' b post' E1 E3 Sb) as Lp. rewrite CC.
      assert (S (length b1) * g_burst g <= length bss * g_burst g) by (apply Nat.mul_le_mono_r; rewrite E1, app_length; cbn; lia). cbn in H. lia.
  - split; [|exact D6]. destruct EV as [EV|((id & EV) & _)].
    + intros i id vals nm k v (pre & b & post & E & Ib & _) _ _. exfalso. unfold no_imu in EV. rewrite Forall_forall in EV.
      specialize (EV b). rewrite E in EV. specialize (EV ltac:(apply in_or_app; right; left; reflexivity)). congruence.
    + apply (imu_ok (rendian r) (concat bss) n header g _ d id WF D6 Ld); [lia|]. intros b Hb Ib. apply (EV b Hb Ib).
Qed.
Lemma guessed r header bs tail g : vector_file r g bs tail -> rpings r = None ->
  regular (rendian r) (Z.to_nat (Qround.Qfloor (g_fs g))) header bs tail ->
  exists n, count bs < n /\ read_nortek_vector g r (file_of header bs tail) (length header) = read_dataset g r (file_of header bs tail) (length header) n.
Proof.
  intros (I1 & CO & WF & V & IM & M) P (Hh & Sz & Pr & Ev & L & L0). destruct r as [e cs inst bins beams pings]. cbn [rinst rpings rendian] in *. subst inst pings.
  destruct (NortekGuess.vector_room e cs bins beams header bs tail _ Hh CO WF V Sz Pr Ev L L0) as (n & E & Ln).
  exists n. split; [exact Ln|]. unfold read_nortek_vector, read_vector, read_dataset. rewrite E. cbn [read_with rendian].
  destruct (readfile _ _ _ n); reflexivity.
Qed.
