(** The AD2CP index and the reading loop. *)
From Coq Require Import ZArith List Bool Lia.
From Verif.Model Require Import Nortek Ad2cp Ad2cpIndex.
From Verif.Spec Require Import Ad2cp Ad2cpIndex.
From Verif.Proofs Require Import Ad2cp.
Import ListNotations.
Open Scope Z_scope.

(** ** any file *)
Lemma upd_same f k v : upd f k v k = v.
Proof. unfold upd. rewrite Z.eqb_refl. reflexivity. Qed.
Lemma upd_other f k v x : x <> k -> upd f k v x = f x.
Proof. unfold upd. destruct (Z.eqb_spec x k); [congruence|reflexivity]. Qed.

(** the numbers of the entries of one id, beginning from the last one *)
Inductive follows (id : Z) : Z -> Z -> list entry -> Prop :=
| follows_nil h n : follows id h n []
| follows_other h n e l : eid e <> id -> follows id h n l -> follows id h n (e :: l)
| follows_same h n e l : eid e = id -> h <= ehw e -> (eN e = n \/ eN e = n + 1) -> (eN e = n + 1 <-> 0 < h < ehw e) -> follows id (ehw e) (eN e) l -> follows id h n (e :: l).
Lemma le_nonneg bs : all_bytes bs -> 0 <= le bs.
Proof. induction 1 as [|b bs B H IH]; cbn [le]; lia. Qed.
Lemma all_skip n bs : all_bytes bs -> all_bytes (skipn n bs).
Proof. intros H. revert n. induction H as [|b bs B H IH]; intros [|n]; cbn; try constructor; auto. Qed.
Lemma all_first n bs : all_bytes bs -> all_bytes (firstn n bs).
Proof. intros H. revert n. induction H as [|b bs B H IH]; intros [|n]; cbn; constructor; try exact B; try apply IH. Qed.
Lemma u32_nonneg o r : all_bytes r -> 0 <= u32 o r.
Proof. intros H. apply le_nonneg, all_first, all_skip, H. Qed.
Lemma create_follows file : all_bytes file -> forall fuel N_ens pos last N l, (forall k, -1 <= last k) ->
  create_index fuel N_ens file pos last N = Index l -> forall id, follows id (last id) (N id) l.
Proof.
  intros AB. induction fuel as [|fuel IH]; intros N_ens pos last N l Hl H id; [discriminate|]. cbn [create_index] in H.
  destruct (pos <? 0); [discriminate|]. destruct (N 21 <? N_ens); [|injection H as <-; constructor].
  set (r := skipn (Z.to_nat pos) file) in *. assert (AR : all_bytes r) by (apply all_skip, AB).
  cbn zeta in H. destruct (length r <? 10)%nat; [injection H as <-; constructor|].
  destruct (zmem (nth 2 r 0) known_ids); [|apply (IH _ _ _ _ _ Hl H)].
  destruct (length r <? _)%nat; [discriminate|].
  set (k := nth 2 r 0) in *. set (e0 := u32 (ens_off k) r) in *.
  assert (E0 : 0 <= e0) by (apply u32_nonneg, AR).
  set (e := if (0 <? last k) && ((e0 =? 1) || (e0 <? last k)) then last k + 1 else e0) in *.
  set (n := if (0 <? last k) && negb (last k =? e) then N k + 1 else N k) in *.
  assert (HE : last k <= e /\ 0 <= e).
  { unfold e. pose proof (Hl k). destruct (Z.ltb_spec 0 (last k)); cbn [andb]; [|lia].
    destruct (Z.eqb_spec e0 1); cbn [orb]; [lia|]. destruct (Z.ltb_spec e0 (last k)); lia. }
  match type of H with (if ?c then _ else _) = _ => destruct c; [|discriminate] end.
  destruct (create_index fuel N_ens file _ (upd last k e) (upd N k n)) as [l'| |] eqn:C; try discriminate. injection H as <-.
  assert (Hl' : forall x, -1 <= upd last k e x) by (intros x; unfold upd; destruct (x =? k); [lia|apply Hl]).
  specialize (IH _ _ _ _ _ Hl' C id). destruct (Z.eq_dec k id) as [<-|D].
  - rewrite !upd_same in IH. apply follows_same; cbn; try reflexivity; [lia| | |exact IH].
    + unfold n. destruct ((0 <? last k) && negb (last k =? e)); lia.
    + unfold n. destruct (Z.ltb_spec 0 (last k)); cbn [andb]; [|lia]. destruct (Z.eqb_spec (last k) e); cbn [negb]; lia.
  - rewrite !upd_other in IH by congruence. apply follows_other; cbn; [exact D|exact IH].
Qed.
Lemma follows_tail id h n l1 : forall l2, follows id h n (l1 ++ l2) -> exists h' n', h <= h' /\ n <= n' /\ follows id h' n' l2.
Proof.
  revert h n. induction l1 as [|e l1 IH]; intros h n l2 F; [exists h, n; repeat split; try lia; exact F|].
  cbn [app] in F. inversion F as [|? ? ? ? D F'|? ? ? ? E1 E2 E3 E4 F']; subst.
  - apply IH, F'.
  - destruct (IH _ _ _ F') as (h' & n' & A & B & C). exists h', n'. repeat split; try lia; exact C.
Qed.
Lemma follows_skip id h n l1 : forall l2, Forall (fun x => eid x <> id) l1 -> follows id h n (l1 ++ l2) -> follows id h n l2.
Proof.
  induction l1 as [|e l1 IH]; intros l2 H F; [exact F|]. inversion H as [|? ? D H']; subst. cbn [app] in F.
  inversion F as [|? ? ? ? D' F'|? ? ? ? E1 E2 E3 E4 F']; subst; [|congruence]. apply IH; assumption.
Qed.
Lemma index_monotone fuel file l a b : all_bytes file -> index_file fuel file = Index l -> later l a b -> eid a = eid b ->
  ehw a <= ehw b /\ eN a <= eN b.
Proof.
  intros AB H (l1 & l2 & l3 & ->) E. unfold index_file in H.
  pose proof (create_follows file AB _ _ _ _ _ _ (fun _ => Z.le_refl _) H (eid a)) as F. cbn beta in F.
  destruct (follows_tail _ _ _ _ _ F) as (h & n & _ & _ & F1).
  inversion F1 as [|? ? ? ? D F2|? ? ? ? E1 E2 E3 E4 F2]; subst; [congruence|].
  destruct (follows_tail _ _ _ _ _ F2) as (h' & n' & A & B & F3).
  inversion F3 as [|? ? ? ? D F4|? ? ? ? E1' E2' E3' E4' F4]; subst; [congruence|]. lia.
Qed.
Lemma index_steps fuel file l a b : all_bytes file -> index_file fuel file = Index l -> next_of_id l a b ->
  (eN b = eN a \/ eN b = eN a + 1) /\ (eN b = eN a + 1 <-> 0 < ehw a < ehw b).
Proof.
  intros AB H (l1 & l2 & l3 & -> & E & NO). unfold index_file in H.
  pose proof (create_follows file AB _ _ _ _ _ _ (fun _ => Z.le_refl _) H (eid a)) as F. cbn beta in F.
  destruct (follows_tail _ _ _ _ _ F) as (h & n & _ & _ & F1).
  inversion F1 as [|? ? ? ? D F2|? ? ? ? E1 E2 E3 E4 F2]; subst; [congruence|].
  apply follows_skip in F2; [|exact NO].
  inversion F2 as [|? ? ? ? D F4|? ? ? ? E1' E2' E3' E4' F4]; subst; [congruence|]. split; assumption.
Qed.

(** ** files made of records *)
Lemma skipn_pre {A} (pre x : list A) : skipn (Z.to_nat (Z.of_nat (length pre))) (pre ++ x) = x.
Proof. rewrite Nat2Z.id. apply skipn_exact. Qed.
Lemma framed_length id body b : framed id body b -> length b = (10 + length body)%nat.
Proof. intros (h & f & s0 & s1 & c0 & c1 & d0 & d1 & -> & _). cbn. reflexivity. Qed.
Lemma framed_size id body b rest : framed id body b -> short body ->
  nth 2 (b ++ rest) 0 = id /\ value S16 (firstn 2 (skipn 4 (b ++ rest))) = Z.of_nat (length body).
Proof.
  intros (h & f & s0 & s1 & c0 & c1 & d0 & d1 & -> & B0 & B1 & S) SH. unfold short in SH. cbn [app nth skipn firstn]. split; [reflexivity|].
  unfold value. cbn [le ksigned andb]. change (2 ^ (8 * Z.of_nat (ksize S16)) / 2) with 32768.
  replace (s0 + 256 * (s1 + 256 * 0)) with (s0 + 256 * s1) by lia. rewrite S. destruct (Z.leb_spec 32768 (Z.of_nat (length body))); lia.
Qed.
Lemma u_app n o (b rest : bytes) : (o + n <= length b)%nat -> firstn n (skipn o (b ++ rest)) = firstn n (skipn o b).
Proof.
  intros H. rewrite skipn_app, firstn_app. replace (o - length b)%nat with 0%nat by lia.
  rewrite skipn_length. replace (n - (length b - o))%nat with 0%nat by lia. rewrite firstn_O, app_nil_r. reflexivity.
Qed.
Lemma index_positions_aux bs : forall pre fuel N_ens last N l,
  Forall (fun b => exists id body, framed id body b /\ short body) bs ->
  create_index fuel N_ens (pre ++ concat bs) (Z.of_nat (length pre)) last N = Index l ->
  Forall (fun e => Z.of_nat (length pre) <= epos e) l /\ (forall a b, later l a b -> epos a < epos b).
Proof.
  assert (NIL : forall a b, later [] a b -> epos a < epos b) by (intros a b (l1 & l2 & l3 & E); destruct l1; discriminate).
  induction bs as [|b bs IH]; intros pre fuel N_ens last N l H C; destruct fuel as [|fuel]; try discriminate; cbn [create_index] in C;
    (destruct (Z.ltb_spec (Z.of_nat (length pre)) 0) as [X|_]; [lia|]); (destruct (N 21 <? N_ens); [|injection C as <-; split; [constructor|exact NIL]]);
    rewrite skipn_pre in C; cbn zeta in C.
  - cbn in C. injection C as <-. split; [constructor|exact NIL].
  - inversion H as [|? ? (id & body & F & SH) H']; subst. cbn [concat] in C.
    pose proof (framed_length _ _ _ F) as L.
    destruct (Nat.ltb_spec (length (b ++ concat bs)) 10) as [X|_]; [rewrite app_length in X; lia|].
    destruct (framed_size _ _ _ (concat bs) F SH) as [E1 E2]. rewrite E1, E2 in C.
    assert (PN : Z.of_nat (length pre) + 10 + Z.of_nat (length body) = Z.of_nat (length (pre ++ b))) by (rewrite app_length; lia).
    rewrite PN, app_assoc in C.
    assert (W : forall fuel N_ens last N l, create_index fuel N_ens ((pre ++ b) ++ concat bs) (Z.of_nat (length (pre ++ b))) last N = Index l ->
      Forall (fun e => Z.of_nat (length pre) < epos e) l /\ (forall a b, later l a b -> epos a < epos b)).
    { intros fu ne la nn ll CC. destruct (IH (pre ++ b) fu ne la nn ll H' CC) as [I1 I2]. split; [|exact I2].
      eapply Forall_impl; [|exact I1]. cbn beta. intros e. rewrite app_length. lia. }
    destruct (zmem id known_ids).
    + destruct (_ <? _)%nat; [discriminate|]. match type of C with (if ?c then _ else _) = _ => destruct c; [|discriminate] end.
      destruct (create_index fuel N_ens _ _ _ _) as [l'| |] eqn:CI; try discriminate. injection C as <-.
      destruct (W _ _ _ _ _ CI) as [I1 I2]. split.
      * constructor; [cbn; lia|]. eapply Forall_impl; [|exact I1]. cbn beta. lia.
      * intros x y (l1 & l2 & l3 & E). destruct l1 as [|z l1].
        -- injection E as <- E. cbn [epos]. rewrite Forall_forall in I1. apply I1. rewrite E. apply in_or_app. right. left. reflexivity.
        -- injection E as _ E. apply I2. exists l1, l2, l3. exact E.
    + destruct (W _ _ _ _ _ C) as [I1 I2]. split; [|exact I2]. eapply Forall_impl; [|exact I1]. cbn beta. lia.
Qed.
Lemma index_positions fuel bs l a b : Forall (fun b => exists id body, framed id body b /\ short body) bs ->
  index_file fuel (concat bs) = Index l -> later l a b -> epos a < epos b.
Proof.
  intros H C. destruct (index_positions_aux bs [] fuel (2 ^ 32) (fun _ => -1) (fun _ => 0) l H C) as [_ P]. apply P.
Qed.
(** a size of 65526 is read as -10: the same header again and again *)
Lemma stuck fuel : forall h f c0 c1 d0 d1 rest N_ens last N, N 21 < N_ens ->
  create_index fuel N_ens ([165; h; 160; f; 246; 255; c0; c1; d0; d1] ++ rest) 0 last N = More.
Proof.
  induction fuel as [|fuel IH]; intros h f c0 c1 d0 d1 rest N_ens last N H; [reflexivity|]. cbn [create_index].
  change (0 <? 0) with false. cbn iota. destruct (Z.ltb_spec (N 21) N_ens) as [_|X]; [|lia].
  change (Z.to_nat 0) with 0%nat. cbn [skipn]. cbn zeta.
  change (nth 2 ([165; h; 160; f; 246; 255; c0; c1; d0; d1] ++ rest) 0) with 160.
  change (value S16 (firstn 2 (skipn 4 ([165; h; 160; f; 246; 255; c0; c1; d0; d1] ++ rest)))) with (-10).
  change (zmem 160 known_ids) with false. cbn iota. cbn [app length Nat.ltb Nat.leb]. change (0 + 10 + -10) with 0. apply (IH h f c0 c1 d0 d1 rest). exact H.
Qed.

(** ** regular files: the index *)
Definition len (p : piece) : Z := Z.of_nat (length (p_bytes p)).
Definition lens (ps : list piece) : Z := Z.of_nat (length (bytes_of ps)).
Lemma lens_cons p ps : lens (p :: ps) = len p + lens ps.
Proof. unfold lens, len, bytes_of. cbn [map concat]. rewrite app_length. lia. Qed.
Definition entry_of (e m pos : Z) (p : piece) : entry :=
  Entry e (m + e) pos (p_id p) (u16 12 (p_bytes p)) (u16 40 (p_bytes p)) (date_of (p_bytes p)) (nth 10 (p_bytes p) 0).
Fixpoint ents (m e pos : Z) (ps : list piece) : list entry :=
  match ps with
  | [] => []
  | p :: ps' => (if numbered (p_id p) then [entry_of e m pos p] else []) ++ ents m e (pos + len p) ps'
  end.
Definition prepend (l : list entry) (r : indexed) : indexed := match r with Index k => Index (l ++ k) | x => x end.
Lemma prepend_nil r : prepend [] r = r.
Proof. destruct r; reflexivity. Qed.
Lemma prepend_app a b r : prepend (a ++ b) r = prepend a (prepend b r).
Proof. destruct r; cbn; try reflexivity. rewrite app_assoc. reflexivity. Qed.
Lemma nth_app_b {A} (d : A) i b rest : (i < length b)%nat -> nth i (b ++ rest) d = nth i b d.
Proof. intros H. apply app_nth1. exact H. Qed.
Lemma ens_off_le id : ens_off id = 84%nat /\ id = 23 \/ ens_off id = 82%nat /\ id <> 23.
Proof. unfold ens_off. destruct (Z.eqb_spec id 23); [left|right]; split; auto. Qed.
Lemma step_other conf p pre rest fuel N_ens last N : good_piece conf p -> numbered (p_id p) = false -> N 21 < N_ens ->
  create_index (S fuel) N_ens (pre ++ p_bytes p ++ rest) (Z.of_nat (length pre)) last N =
  create_index fuel N_ens ((pre ++ p_bytes p) ++ rest) (Z.of_nat (length (pre ++ p_bytes p))) last N.
Proof.
  intros (_ & body & F & SH & _) K HN. cbn [create_index]. destruct (Z.ltb_spec (Z.of_nat (length pre)) 0); [lia|].
  destruct (Z.ltb_spec (N 21) N_ens); [|lia]. rewrite skipn_pre. cbn zeta. pose proof (framed_length _ _ _ F) as L.
  destruct (Nat.ltb_spec (length (p_bytes p ++ rest)) 10) as [X|_]; [rewrite app_length in X; lia|].
  destruct (framed_size _ _ _ rest F SH) as [E1 E2]. rewrite E1, E2. unfold numbered in K. rewrite K. rewrite <- app_assoc. f_equal.
  rewrite app_length. lia.
Qed.
Lemma step_numbered conf p pre rest fuel N_ens last N e m :
  good_piece conf p -> numbered (p_id p) = true -> N 21 < N_ens -> 0 <= e -> 1 <= m -> m + e < 2 ^ 32 ->
  Z.of_nat (length pre) < 2 ^ 64 -> number p = m + e ->
  (e = 0 /\ last (p_id p) = -1 /\ N (p_id p) = 0 \/ 0 < e /\ last (p_id p) = m + e - 1 /\ N (p_id p) = e - 1) ->
  create_index (S fuel) N_ens (pre ++ p_bytes p ++ rest) (Z.of_nat (length pre)) last N =
  prepend [entry_of e m (Z.of_nat (length pre)) p]
    (create_index fuel N_ens ((pre ++ p_bytes p) ++ rest) (Z.of_nat (length (pre ++ p_bytes p))) (upd last (p_id p) (m + e)) (upd N (p_id p) e)).
Proof.
  intros (_ & body & F & SH & _ & G & _) K HN He Hm Hme Hpre NUM ST. destruct (G K) as (L76 & L78 & C1 & C2 & MO). clear G.
  cbn [create_index]. destruct (Z.ltb_spec (Z.of_nat (length pre)) 0); [lia|].
  destruct (Z.ltb_spec (N 21) N_ens); [|lia]. rewrite skipn_pre. cbn zeta. pose proof (framed_length _ _ _ F) as L.
  destruct (Nat.ltb_spec (length (p_bytes p ++ rest)) 10) as [X|_]; [rewrite app_length in X; lia|].
  destruct (framed_size _ _ _ rest F SH) as [E1 E2]. rewrite E1, E2. unfold numbered in K. rewrite K.
  assert (OFF : (ens_off (p_id p) + 4 <= length (p_bytes p))%nat).
  { destruct (ens_off_le (p_id p)) as [[-> I]|[-> _]]; [specialize (L78 I)|]; lia. }
  destruct (Nat.ltb_spec (length (p_bytes p ++ rest)) (ens_off (p_id p) + 4)) as [X|_]; [rewrite app_length in X; lia|].
  assert (U : u32 (ens_off (p_id p)) (p_bytes p ++ rest) = m + e).
  { unfold u32. rewrite u_app by exact OFF. exact NUM. }
  rewrite U.
  assert (EE : (if (0 <? last (p_id p)) && ((m + e =? 1) || (m + e <? last (p_id p))) then last (p_id p) + 1 else m + e) = m + e).
  { destruct ST as [(? & -> & _)|(? & -> & _)]; [reflexivity|]. destruct (Z.ltb_spec 0 (m + e - 1)); cbn [andb]; [|reflexivity].
    destruct (Z.eqb_spec (m + e) 1); [lia|]. destruct (Z.ltb_spec (m + e) (m + e - 1)); [lia|]. reflexivity. }
  rewrite EE.
  assert (NN : (if (0 <? last (p_id p)) && negb (last (p_id p) =? m + e) then N (p_id p) + 1 else N (p_id p)) = e).
  { destruct ST as [(-> & -> & ->)|(? & -> & ->)]; [reflexivity|]. destruct (Z.ltb_spec 0 (m + e - 1)); cbn [andb]; [|lia].
    destruct (Z.eqb_spec (m + e - 1) (m + e)); cbn [negb]; lia. }
  rewrite NN. rewrite (nth_app_b 0 19 (p_bytes p) rest) by lia.
  destruct (Z.ltb_spec (m + e) (2 ^ 32)); [|lia]. destruct (Z.ltb_spec (nth 19 (p_bytes p) 0 + 1) 256); [|lia].
  destruct (Z.ltb_spec e (2 ^ 64)); [|lia]. destruct (Z.ltb_spec (Z.of_nat (length pre)) (2 ^ 64)); [|lia]. cbn [andb].
  rewrite <- app_assoc. replace (Z.of_nat (length pre) + 10 + Z.of_nat (length body)) with (Z.of_nat (length (pre ++ p_bytes p))) by (rewrite app_length; lia).
  destruct (create_index fuel N_ens _ _ _ _); cbn [prepend]; try reflexivity. cbn [app]. f_equal. f_equal. unfold entry_of, u16, date_of.
  unfold u16. rewrite !u_app by lia. rewrite !nth_app_b by lia. reflexivity.
Qed.

Definition ready (m e : Z) (last N : Z -> Z) (k : Z) : Prop :=
  e = 0 /\ last k = -1 /\ N k = 0 \/ 0 < e /\ last k = m + e - 1 /\ N k = e - 1.
Lemma index_ensemble conf m e ps : 0 <= e -> 1 <= m -> m + e < 2 ^ 32 ->
  forall pre rest fuel last N,
  Z.of_nat (length (pre ++ bytes_of ps ++ rest)) < 2 ^ 64 ->
  Forall (good_piece conf) ps -> Forall (fun p => numbered (p_id p) = true -> number p = m + e) ps ->
  NoDup (filter numbered (map p_id ps)) -> (forall k, In k (filter numbered (map p_id ps)) -> ready m e last N k) ->
  (forall k, N k <= e) ->
  exists last' N',
    create_index (fuel + length ps) (2 ^ 32) (pre ++ bytes_of ps ++ rest) (Z.of_nat (length pre)) last N =
    prepend (ents m e (Z.of_nat (length pre)) ps)
      (create_index fuel (2 ^ 32) ((pre ++ bytes_of ps) ++ rest) (Z.of_nat (length (pre ++ bytes_of ps))) last' N') /\
    (forall k, In k (filter numbered (map p_id ps)) -> last' k = m + e /\ N' k = e) /\
    (forall k, ~ In k (filter numbered (map p_id ps)) -> last' k = last k /\ N' k = N k).
Proof.
  intros He Hm Hme. induction ps as [|p ps IH]; intros pre rest fuel last N SZ G NUM ND RD NB.
  - exists last, N. cbn [length ents bytes_of map concat app]. rewrite Nat.add_0_r, prepend_nil, app_nil_r.
    split; [reflexivity|]. split; [intros k []|intros k _; split; reflexivity].
  - inversion G as [|? ? Gp Gps]; subst. inversion NUM as [|? ? Np Nps]; subst.
    cbn [bytes_of map concat] in *. fold (bytes_of ps) in *. rewrite <- !app_assoc in *.
    assert (SZ' : Z.of_nat (length ((pre ++ p_bytes p) ++ bytes_of ps ++ rest)) < 2 ^ 64) by (rewrite <- app_assoc; exact SZ).
    replace (fuel + length (p :: ps))%nat with (S (fuel + length ps)) by (cbn [length]; lia). cbn [ents]. cbn [filter] in *. destruct (numbered (p_id p)) eqn:K.
    + inversion ND as [|? ? NI ND']; subst.
      rewrite (step_numbered conf p pre (bytes_of ps ++ rest) (fuel + length ps) (2 ^ 32) last N e m); auto.
      2:{ specialize (NB 21). lia. }
      2:{ rewrite app_length in SZ. lia. }
      2:{ apply RD. left. reflexivity. }
      destruct (IH (pre ++ p_bytes p) rest fuel (upd last (p_id p) (m + e)) (upd N (p_id p) e) SZ' Gps Nps ND') as (last' & N' & E & I1 & I2).
      * intros k Ik. assert (k <> p_id p) by (intros ->; contradiction). unfold ready. rewrite !upd_other by assumption. apply RD. right. exact Ik.
      * intros k. unfold upd. destruct (k =? p_id p); [lia|apply NB].
      * exists last', N'. rewrite E. rewrite prepend_app. rewrite <- !app_assoc.
        replace (Z.of_nat (length pre) + len p) with (Z.of_nat (length (pre ++ p_bytes p))) by (unfold len; rewrite app_length; lia).
        split; [reflexivity|]. split.
        -- intros k [<-|Ik]; [|apply I1, Ik]. destruct (I2 (p_id p) NI) as [-> ->]. rewrite !upd_same. split; reflexivity.
        -- intros k Nk. assert (k <> p_id p) by (intros ->; apply Nk; left; reflexivity).
           destruct (I2 k) as [-> ->]; [intros Ik; apply Nk; right; exact Ik|]. rewrite !upd_other by assumption. split; reflexivity.
    + rewrite (step_other conf p pre (bytes_of ps ++ rest) (fuel + length ps) (2 ^ 32) last N); auto.
      2:{ specialize (NB 21). lia. }
      destruct (IH (pre ++ p_bytes p) rest fuel last N SZ' Gps Nps ND RD NB) as (last' & N' & E & I1 & I2).
      exists last', N'. rewrite E. cbn [app]. rewrite <- !app_assoc.
      replace (Z.of_nat (length pre) + len p) with (Z.of_nat (length (pre ++ p_bytes p))) by (unfold len; rewrite app_length; lia).
      split; [reflexivity|]. split; assumption.
Qed.
Lemma index_head conf hd : forall pre rest fuel, Forall (fun p => good_piece conf p /\ numbered (p_id p) = false) hd ->
  forall last N, N 21 < 2 ^ 32 ->
  create_index (fuel + length hd) (2 ^ 32) (pre ++ bytes_of hd ++ rest) (Z.of_nat (length pre)) last N =
  create_index fuel (2 ^ 32) ((pre ++ bytes_of hd) ++ rest) (Z.of_nat (length (pre ++ bytes_of hd))) last N.
Proof.
  induction hd as [|p hd IH]; intros pre rest fuel H last N HN.
  - cbn [length bytes_of map concat app]. rewrite Nat.add_0_r, app_nil_r. reflexivity.
  - inversion H as [|? ? [G K] H']; subst. cbn [bytes_of map concat length]. fold (bytes_of hd). rewrite <- !app_assoc. rewrite Nat.add_succ_r.
    rewrite (step_other conf p pre (bytes_of hd ++ rest) (fuel + length hd)) by assumption.
    rewrite IH by assumption. rewrite <- !app_assoc. reflexivity.
Qed.
Fixpoint all_ents (m e pos : Z) (enss : list (list piece)) : list entry :=
  match enss with [] => [] | ps :: r => ents m e pos ps ++ all_ents m (e + 1) (pos + lens ps) r end.
Definition good_ens (conf : Z -> Z * Z) (ids : list Z) (m e : Z) (ps : list piece) : Prop :=
    filter numbered (map p_id ps) = ids /\
    (exists p ps', ps = p :: ps' /\ numbered (p_id p) = true) /\
    Forall (good_piece conf) ps /\
    Forall (fun p => numbered (p_id p) = true -> number p = m + e) ps.
Definition pieces (enss : list (list piece)) : nat := length (concat enss).
Lemma index_all conf ids m enss : 1 <= m -> NoDup ids -> forall e pre fuel last N,
  0 <= e -> m + e + Z.of_nat (length enss) <= 2 ^ 32 -> Z.of_nat (length (pre ++ concat (map bytes_of enss))) < 2 ^ 64 ->
  (forall i ps, nth_error enss i = Some ps -> good_ens conf ids m (e + Z.of_nat i) ps) ->
  (forall k, In k ids -> ready m e last N k) -> (forall k, N k <= e) -> (forall k, N k < 2 ^ 32) ->
  create_index (S fuel + pieces enss) (2 ^ 32) (pre ++ concat (map bytes_of enss)) (Z.of_nat (length pre)) last N =
  Index (all_ents m e (Z.of_nat (length pre)) enss).
Proof.
  intros Hm ND. induction enss as [|ps enss IH]; intros e pre fuel last N He Hme SZ G RD NB NB2.
  - cbn [pieces concat length map all_ents]. rewrite Nat.add_0_r, app_nil_r. cbn [create_index].
    destruct (Z.ltb_spec (Z.of_nat (length pre)) 0); [lia|]. destruct (Z.ltb_spec (N 21) (2 ^ 32)) as [_|X]; [|specialize (NB2 21); lia].
    cbn zeta. rewrite Nat2Z.id, skipn_all. reflexivity.
  - cbn [map concat length] in *. assert (P : pieces (ps :: enss) = (pieces enss + length ps)%nat) by (unfold pieces; cbn; rewrite app_length; lia).
    rewrite P, Nat.add_assoc. destruct (G 0%nat ps eq_refl) as (E1 & E2 & E3 & E4). rewrite Z.add_0_r in E4.
    destruct (index_ensemble conf m e ps He Hm ltac:(lia) pre (concat (map bytes_of enss)) (S fuel + pieces enss)%nat last N SZ E3 E4) as (last' & N' & E & I1 & I2).
    + rewrite E1. exact ND.
    + rewrite E1. exact RD.
    + exact NB.
    + rewrite E. rewrite E1 in I1, I2.
      assert (ND' : forall k, N' k <= e).
      { intros k. destruct (in_dec Z.eq_dec k ids) as [I|I]; [destruct (I1 k I) as [_ ->]; lia|destruct (I2 k I) as [_ ->]; apply NB]. }
      rewrite (IH (e + 1) (pre ++ bytes_of ps) fuel last' N').
      * cbn [prepend all_ents]. f_equal. f_equal. f_equal. unfold lens. rewrite app_length. lia.
      * lia.
      * lia.
      * rewrite <- app_assoc. exact SZ.
      * intros i qs Hi. replace (e + 1 + Z.of_nat i) with (e + Z.of_nat (S i)) by lia. apply G. exact Hi.
      * intros k I. destruct (I1 k I) as [A B]. right. rewrite A, B. lia.
      * intros k. specialize (ND' k). lia.
      * intros k. destruct (in_dec Z.eq_dec k ids) as [I|I]; [destruct (I1 k I) as [_ ->]; lia|destruct (I2 k I) as [_ ->]; apply NB2].
Qed.
Lemma index_regular conf ids m hd enss file fuel : regular conf ids m hd enss file -> (length hd + pieces enss < fuel)%nat ->
  index_file fuel file = Index (all_ents m 0 (lens hd) enss).
Proof.
  intros [RF RH RI RE R1 R2 RS] FU. unfold index_file. subst file.
  replace fuel with ((S (fuel - S (length hd + pieces enss)) + pieces enss) + length hd)%nat by lia.
  assert (H0 : 0 < 2 ^ 32) by (apply Z.pow_pos_nonneg; lia).
  change 0 with (Z.of_nat (length (@nil Z))) at 1.
  rewrite <- (app_nil_l (bytes_of hd ++ _)). rewrite (index_head conf hd [] _ _ RH) by exact H0. cbn [app].
  rewrite (index_all conf ids m enss R1 RI 0); try lia.
  - reflexivity.
  - intros i ps Hi. rewrite Z.add_0_l. apply RE, Hi.
  - intros k _. left. repeat split; reflexivity.
Qed.

(** ** regular files: where the ensembles begin *)
Definition firsts (prev : option Z) (l : list entry) : list Z :=
  (fix go prev l := match l with
    | [] => []
    | e :: l' => (if match prev with Some n => negb (eN e =? n) | None => true end then [epos e] else []) ++ go (Some (eN e)) l'
    end) prev l.
Lemma firsts_first_pings l : first_pings l = firsts None l.
Proof.
  destruct l as [|e l]; [reflexivity|]. cbn [first_pings firsts]. cbn [app]. f_equal.
  revert e. induction l as [|e' l IH]; intros e; [reflexivity|]. cbn [combine filter fst snd firsts].
  destruct (negb (eN e' =? eN e)); cbn [map app snd]; rewrite <- IH; reflexivity.
Qed.
Lemma firsts_same m e ps : forall pos l, firsts (Some e) (ents m e pos ps ++ l) = firsts (Some e) l.
Proof.
  induction ps as [|p ps IH]; intros pos l; [reflexivity|]. cbn [ents]. destruct (numbered (p_id p)); cbn [app].
  - cbn [firsts eN entry_of]. rewrite Z.eqb_refl. cbn [negb app]. apply IH.
  - apply IH.
Qed.
Fixpoint starts (pos : Z) (enss : list (list piece)) : list Z :=
  match enss with [] => [] | ps :: r => pos :: starts (pos + lens ps) r end.
Lemma firsts_all conf ids m enss : forall e pos prev,
  (forall i ps, nth_error enss i = Some ps -> good_ens conf ids m (e + Z.of_nat i) ps) -> (match prev with Some n => n <> e | None => True end) ->
  firsts prev (all_ents m e pos enss) = starts pos enss.
Proof.
  induction enss as [|ps enss IH]; intros e pos prev G D; [reflexivity|]. cbn [all_ents starts].
  destruct (G 0%nat ps eq_refl) as (_ & (p & ps' & -> & K) & _). cbn [ents]. rewrite K. cbn [app firsts entry_of eN epos].
  assert (T : match prev with Some n => negb (e =? n) | None => true end = true).
  { destruct prev as [n|]; [|reflexivity]. destruct (Z.eqb_spec e n); [congruence|reflexivity]. }
  rewrite T. cbn [app]. f_equal. rewrite (firsts_same m e ps').
  apply (IH (e + 1) _ (Some e)); [|lia].
  intros i qs Hi. replace (e + 1 + Z.of_nat i) with (e + Z.of_nat (S i)) by lia. apply G. exact Hi.
Qed.
Lemma starts_nth enss : forall pos e d, (e < length enss)%nat -> nth e (starts pos enss) d = pos + Z.of_nat (length (concat (map bytes_of (firstn e enss)))).
Proof.
  induction enss as [|ps enss IH]; intros pos e d H; [cbn in H; lia|]. destruct e as [|e]; [cbn; lia|].
  cbn [starts nth firstn map concat]. rewrite IH by (cbn in H; lia). rewrite app_length. unfold lens. lia.
Qed.
Lemma starts_length enss : forall pos, length (starts pos enss) = length enss.
Proof. induction enss; intros pos; cbn; [reflexivity|]. rewrite IHenss. reflexivity. Qed.

(** ** regular files: nothing to fix *)
Lemma ents_ids m e ps : forall pos, map eid (ents m e pos ps) = filter numbered (map p_id ps).
Proof.
  induction ps as [|p ps IH]; intros pos; [reflexivity|]. cbn [ents map filter]. destruct (numbered (p_id p)); cbn [app map eid entry_of]; rewrite IH; reflexivity.
Qed.
Lemma all_ids conf ids m enss : forall e pos, (forall i ps, nth_error enss i = Some ps -> good_ens conf ids m (e + Z.of_nat i) ps) ->
  map eid (all_ents m e pos enss) = concat (repeat ids (length enss)).
Proof.
  induction enss as [|ps enss IH]; intros e pos G; [reflexivity|]. cbn [all_ents length repeat concat]. rewrite map_app, ents_ids.
  destruct (G 0%nat ps eq_refl) as (-> & _). f_equal. apply IH.
  intros i qs Hi. replace (e + 1 + Z.of_nat i) with (e + Z.of_nat (S i)) by lia. apply G. exact Hi.
Qed.
Definition at_from (k : nat) (id : Z) (ids : list Z) : list nat := map fst (filter (fun p => snd p =? id) (combine (seq k (length ids)) ids)).
Lemma at_app id l1 : forall l2 k, at_from k id (l1 ++ l2) = at_from k id l1 ++ at_from (k + length l1) id l2.
Proof.
  unfold at_from. induction l1 as [|x l1 IH]; intros l2 k; [cbn; rewrite Nat.add_0_r; reflexivity|].
  cbn [app length seq combine filter snd]. specialize (IH l2 (S k)). destruct (x =? id); cbn [map app fst]; rewrite IH;
    replace (S k + length l1)%nat with (k + S (length l1))%nat by lia; reflexivity.
Qed.
Lemma at_none id ids : forall k, ~ In id ids -> at_from k id ids = [].
Proof.
  unfold at_from. induction ids as [|x ids IH]; intros k N; [reflexivity|]. cbn [length seq combine filter snd].
  destruct (Z.eqb_spec x id) as [->|]; [exfalso; apply N; left; reflexivity|]. apply IH. intros I. apply N. right. exact I.
Qed.
Lemma at_one id ids : NoDup ids -> In id ids -> exists j, forall k, at_from k id ids = [(k + j)%nat].
Proof.
  induction 1 as [|x ids NI ND IH]; intros I; [destruct I|]. destruct (Z.eq_dec x id) as [->|D].
  - exists 0%nat. intros k. rewrite (at_app id [id] ids k) || change (id :: ids) with ([id] ++ ids).
    rewrite at_app, (at_none id ids) by exact NI. unfold at_from. cbn. rewrite Z.eqb_refl. cbn. rewrite Nat.add_0_r. reflexivity.
  - destruct I as [->|I]; [congruence|]. destruct (IH I) as [j Hj]. exists (S j). intros k. change (x :: ids) with ([x] ++ ids).
    rewrite at_app, Hj. unfold at_from. cbn. destruct (Z.eqb_spec x id); [congruence|]. cbn. f_equal. lia.
Qed.
Lemma at_repeat id ids E : NoDup ids -> In id ids -> exists j, forall k, at_from k id (concat (repeat ids E)) = map (fun i => (k + j + i * length ids)%nat) (seq 0 E).
Proof.
  intros ND I. destruct (at_one id ids ND I) as [j Hj]. exists j. induction E as [|E IH]; intros k; [reflexivity|].
  cbn [repeat concat]. rewrite at_app, Hj, IH. cbn [seq map app]. f_equal; [lia|]. rewrite <- seq_shift, map_map. apply map_ext. intros i. lia.
Qed.
Lemma unique_length (ids l : list Z) : NoDup ids -> (forall x, In x l <-> In x ids) -> length (unique l) = length ids.
Proof.
  intros ND H. apply Nat.le_antisymm; apply NoDup_incl_length; try exact ND; try apply unique_NoDup; intros x; rewrite unique_In, H; auto.
Qed.
Lemma steps_none n j E k : steps_over n (map (fun i => (k + j + i * n)%nat) (seq 0 E)) = [].
Proof.
  unfold steps_over. rewrite map_length, seq_length.
  assert (F : forall ib, In ib (seq 0 (E - 1)) ->
    (n <? nth (S ib) (map (fun i => (k + j + i * n)%nat) (seq 0 E)) 0%nat - nth ib (map (fun i => (k + j + i * n)%nat) (seq 0 E)) 0%nat)%nat = false).
  { intros ib I. apply in_seq in I. set (f := fun i => (k + j + i * n)%nat).
    rewrite (nth_indep (map f (seq 0 E)) 0%nat (f 0%nat)) by (rewrite map_length, seq_length; lia).
    rewrite (nth_indep (map f (seq 0 E)) 0%nat (f 0%nat)) by (rewrite map_length, seq_length; lia).
    rewrite !map_nth, !seq_nth by lia. apply Nat.ltb_ge. unfold f. lia. }
  induction (seq 0 (E - 1)) as [|ib l IH]; [reflexivity|]. cbn [filter]. rewrite F by (left; reflexivity). apply IH. intros x Hx. apply F. right. exact Hx.
Qed.
Lemma fix_nothing dp ids E ens : NoDup ids -> fix_skips dp (concat (repeat ids E)) ens = ens.
Proof.
  intros ND. unfold fix_skips. destruct E as [|E]; [reflexivity|].
  assert (IN : forall x, In x (concat (repeat ids (S E))) <-> In x ids).
  { intros x. rewrite in_concat. split.
    - intros (l & I & J). apply repeat_spec in I. subst. exact J.
    - intros I. exists ids. split; [left; reflexivity|exact I]. }
  rewrite (unique_length ids _ ND IN).
  assert (U : forall id, In id (unique (concat (repeat ids (S E)))) -> In id ids) by (intros id; rewrite unique_In, IN; auto).
  revert ens. induction (unique (concat (repeat ids (S E)))) as [|id us IH]; intros ens; [reflexivity|]. cbn [fold_left].
  destruct (at_repeat id ids (S E) ND (U id (or_introl eq_refl))) as [j Hj].
  change (at_id id (concat (repeat ids (S E)))) with (at_from 0 id (concat (repeat ids (S E)))). rewrite (Hj 0%nat), steps_none.
  replace (if is_dual dp (concat (repeat ids (S E))) then dual_skips [] else []) with (@nil nat) by (destruct (is_dual _ _); reflexivity).
  cbn [fold_left]. apply IH. intros x Hx. apply U. right. exact Hx.
Qed.
Lemma with_same l : with_ens l (map eN l) = l.
Proof. unfold with_ens. induction l as [|e l IH]; [reflexivity|]. cbn [map combine fst snd]. rewrite IH. destruct e; reflexivity. Qed.
Lemma get_regular conf ids m hd enss file fuel dp : regular conf ids m hd enss file -> (length hd + pieces enss < fuel)%nat ->
  get_index fuel dp true None file = Index (all_ents m 0 (lens hd) enss) /\
  forall ex, get_index fuel dp true ex file = Index (all_ents m 0 (lens hd) enss).
Proof.
  intros R FU. unfold get_index. rewrite (index_regular _ _ _ _ _ _ _ R FU). destruct R as [RF RH RI RE R1 R2 RS].
  assert (E : check_index dp (all_ents m 0 (lens hd) enss) = all_ents m 0 (lens hd) enss).
  { unfold check_index. rewrite (all_ids conf ids m enss 0) by (intros i ps Hi; rewrite Z.add_0_l; apply RE, Hi).
    rewrite fix_nothing by exact RI. apply with_same. }
  rewrite E. split; reflexivity.
Qed.

(** ** regular files: the readers *)
Lemma ents_conf conf m e ps : forall pos x, Forall (good_piece conf) ps -> In x (ents m e pos ps) ->
  econfig x = fst (conf (eid x)) /\ ebeams x = snd (conf (eid x)).
Proof.
  induction ps as [|p ps IH]; intros pos x G I; [destruct I|]. inversion G as [|? ? Gp Gps]; subst. cbn [ents] in I. apply in_app_or in I.
  destruct I as [I|I]; [|apply (IH _ _ Gps I)]. destruct (numbered (p_id p)) eqn:K; [|destruct I]. destruct I as [<-|[]]. cbn.
  destruct Gp as (_ & body & _ & _ & _ & G2 & _). destruct (G2 K) as (_ & _ & A & B & _). split; assumption.
Qed.
Lemma all_conf conf ids m enss : forall e pos x, (forall i ps, nth_error enss i = Some ps -> good_ens conf ids m (e + Z.of_nat i) ps) ->
  In x (all_ents m e pos enss) -> econfig x = fst (conf (eid x)) /\ ebeams x = snd (conf (eid x)).
Proof.
  induction enss as [|ps enss IH]; intros e pos x G I; [destruct I|]. cbn [all_ents] in I. apply in_app_or in I. destruct I as [I|I].
  - destruct (G 0%nat ps eq_refl) as (_ & _ & GP & _). apply (ents_conf conf m e ps pos x GP I).
  - apply (IH (e + 1) (pos + lens ps) x); [|exact I]. intros i qs Hi. replace (e + 1 + Z.of_nat i) with (e + Z.of_nat (S i)) by lia. apply G. exact Hi.
Qed.
Lemma uniform_map (f : entry -> Z) c es : es <> [] -> (forall x, In x es -> f x = c) -> isuniform (map f es) [] = true.
Proof.
  intros N H. apply uniform_spec. split; [destruct es; [congruence|discriminate]|].
  intros x y Hx Hy. apply in_map_iff in Hx, Hy. destruct Hx as (a & <- & Ia), Hy as (b & <- & Ib). rewrite (H a Ia), (H b Ib). reflexivity.
Qed.
Lemma config_one_uniform l id c b : (exists x, In x l /\ eid x = id) -> (forall x, In x l -> eid x = id -> econfig x = c /\ ebeams x = b) ->
  config_one l id = reader_for id c b.
Proof.
  intros (x & I & E) H. unfold config_one. set (es := filter (fun e => eid e =? id) l).
  assert (IN : forall y, In y es -> In y l /\ eid y = id) by (intros y Hy; apply filter_In in Hy; destruct Hy as [A B]; apply Z.eqb_eq in B; split; assumption).
  assert (NE : es <> []).
  { assert (J : In x es) by (apply filter_In; split; [exact I|apply Z.eqb_eq; exact E]). destruct es; [destruct J|discriminate]. }
  rewrite (uniform_map econfig c es NE) by (intros y Hy; apply H; apply IN, Hy).
  rewrite (uniform_map ebeams b es NE) by (intros y Hy; apply H; apply IN, Hy). cbn [andb orb].
  destruct es as [|y es']; [congruence|]. cbn [map]. destruct (H y) as [-> ->]; [apply IN; left; reflexivity|apply IN; left; reflexivity|]. reflexivity.
Qed.
Lemma config_all_some l f ids : (forall id, In id ids -> config_one l id = Some (f id)) -> config_all l ids = Some (map (fun id => (id, f id)) ids).
Proof.
  induction ids as [|id ids IH]; intros H; [reflexivity|]. cbn [config_all map]. rewrite H by (left; reflexivity). rewrite IH; [reflexivity|].
  intros x Hx. apply H. right. exact Hx.
Qed.
Lemma lookup_map (f : Z -> layout) ids id : In id ids -> lookup (map (fun i => (i, f i)) ids) id = Some (f id).
Proof.
  induction ids as [|x ids IH]; intros I; [destruct I|]. cbn [map lookup]. destruct (Z.eqb_spec x id) as [->|D]; [reflexivity|].
  destruct I as [->|I]; [congruence|]. apply IH, I.
Qed.
Lemma good_ens_piece conf ids m e ps id : good_ens conf ids m e ps -> In id ids -> exists p, In p ps /\ p_id p = id /\ numbered id = true /\ good_piece conf p.
Proof.
  intros (E & _ & G & _) I. rewrite <- E in I. apply filter_In in I. destruct I as [I K]. apply in_map_iff in I. destruct I as (p & <- & Ip).
  exists p. rewrite Forall_forall in G. split; [exact Ip|]. split; [reflexivity|]. split; [exact K|]. apply G, Ip.
Qed.
Lemma readers_regular conf ids m enss pos : enss <> [] -> (forall i ps, nth_error enss i = Some ps -> good_ens conf ids m (0 + Z.of_nat i) ps) ->
  exists rdrs, burst_readers (all_ents m 0 pos enss) = Some rdrs /\
    (forall p, In p rdrs -> zmem (fst p) [26; 31] = false) /\
    (forall id, In id ids -> In id data_ids -> lookup rdrs id = reader_for id (fst (conf id)) (snd (conf id))).
Proof.
  intros NE G. destruct enss as [|ps0 enss'] eqn:Ee; [congruence|]. rewrite <- Ee in *.
  assert (G0 : good_ens conf ids m 0 ps0) by (apply (G 0%nat ps0); rewrite Ee; reflexivity).
  set (l := all_ents m 0 pos enss).
  assert (IDS : map eid l = concat (repeat ids (length enss))) by (apply (all_ids conf ids m enss 0), G).
  assert (IN : forall x, In x (unique (map eid l)) <-> In x ids).
  { intros x. rewrite unique_In, IDS, in_concat. split.
    - intros (q & I & J). apply repeat_spec in I. subst. exact J.
    - intros I. exists ids. split; [rewrite Ee; left; reflexivity|exact I]. }
  set (f := fun id => match reader_for id (fst (conf id)) (snd (conf id)) with Some y => y | None => [] end).
  assert (RDR : forall id, In id ids -> In id config_ids -> zmem id [26; 31] = false /\ reader_for id (fst (conf id)) (snd (conf id)) = Some (f id)).
  { intros id I C. destruct (good_ens_piece _ _ _ _ _ _ G0 I) as (p & Ip & <- & K & (NA & body & _ & _ & _ & _ & D)).
    assert (NA' : zmem (p_id p) [26; 31] = false) by (destruct (zmem (p_id p) [26; 31]) eqn:Z; [apply zmem_In in Z; contradiction|reflexivity]).
    split; [exact NA'|].
    assert (DI : In (p_id p) data_ids).
    { unfold config_ids in C. cbn in C. unfold data_ids. cbn in *. intuition. }
    destruct (D DI) as (y & Hy & _). unfold f. rewrite Hy. reflexivity. }
  assert (ONE : forall id, In id (filter (fun id => zmem id config_ids) (unique (map eid l))) -> config_one l id = Some (f id)).
  { intros id I. apply filter_In in I. destruct I as [I C]. apply IN in I. apply zmem_In in C.
    rewrite (config_one_uniform l id (fst (conf id)) (snd (conf id))).
    - apply RDR; assumption.
    - assert (J : In id (map eid l)) by (apply unique_In, IN, I). apply in_map_iff in J. destruct J as (x & E & J). exists x. split; assumption.
    - intros x Ix <-. apply (all_conf conf ids m enss 0 pos x G Ix). }
  unfold burst_readers. rewrite (config_all_some l f _ ONE). eexists. split; [reflexivity|]. split.
  - intros p Hp. apply in_map_iff in Hp. destruct Hp as (id & <- & I). cbn [fst]. apply filter_In in I. destruct I as [I C]. apply IN in I. apply zmem_In in C.
    apply RDR; assumption.
  - intros id I D. assert (C : In id config_ids) by (unfold data_ids in D; unfold config_ids; cbn in *; intuition).
    rewrite lookup_map; [symmetry; apply RDR; assumption|]. apply filter_In. split; [apply IN, I|apply zmem_In, C].
Qed.

(** ** regular files: the reading loop *)
Lemma advance_stay fuel ens_pos eof tell start total c : tell < nth (c + start + 1) ens_pos (eof + 1) -> advance fuel ens_pos eof tell start total c = c.
Proof. intros H. destruct fuel; [reflexivity|]. cbn [advance]. destruct (Z.leb_spec (nth (c + start + 1) ens_pos (eof + 1)) tell); [lia|reflexivity]. Qed.
Lemma advance_one fuel ens_pos eof tell start total c : nth (c + start + 1) ens_pos (eof + 1) = tell ->
  ((c + start + 2 < total)%nat -> tell < nth (c + start + 2) ens_pos (eof + 1)) -> advance (S fuel) ens_pos eof tell start total c = S c.
Proof.
  intros H D. cbn [advance]. rewrite H, Z.leb_refl. destruct (Nat.leb_spec total (S c + start + 1)) as [L|L]; [reflexivity|].
  apply advance_stay. replace (S c + start + 1)%nat with (c + start + 2)%nat by lia. apply D. lia.
Qed.
Lemma read_hdr_framed id body b rest : framed id body b -> exists h, read_hdr (b ++ rest) = Some (h, body ++ rest) /\
  nth 0 (nth 2 h []) 0 = id /\ nth 0 (nth 4 h []) 0 = Z.of_nat (length body).
Proof.
  intros (h & f & s0 & s1 & c0 & c1 & d0 & d1 & -> & B0 & B1 & E). rewrite <- app_assoc. cbn [app]. rewrite hdr_any.
  eexists. split; [reflexivity|]. cbn [nth]. unfold value. cbn [ksigned andb le]. split; [lia|]. lia.
Qed.
Definition emits (es : list event) (r : rd) : rd := match r with Events l => Events (es ++ l) | x => x end.
Lemma emits_nil r : emits [] r = r.
Proof. destruct r; reflexivity. Qed.
Lemma emit_emits e es r : emit e (emits es r) = emits (e :: es) r.
Proof. destruct r; reflexivity. Qed.
Lemma emits_app a b r : emits (a ++ b) r = emits a (emits b r).
Proof. destruct r; cbn; try reflexivity. rewrite app_assoc. reflexivity. Qed.
(** one record: the values, the position after it *)
Lemma loop_piece conf rdrs p pre rest fuel ens_pos start nens total nalt c alt calt :
  good_piece conf p -> (In (p_id p) data_ids -> lookup rdrs (p_id p) = reader_for (p_id p) (fst (conf (p_id p))) (snd (conf (p_id p)))) ->
  rloop (S fuel) (pre ++ p_bytes p ++ rest) ens_pos start nens total rdrs nalt (Z.of_nat (length pre)) c alt calt =
  emits (kept c [p])
    (let c' := advance (S (length ens_pos)) ens_pos (Z.of_nat (length (pre ++ p_bytes p ++ rest))) (Z.of_nat (length (pre ++ p_bytes p))) start total c in
     if (nens <=? c')%nat then Events []
     else rloop fuel (pre ++ p_bytes p ++ rest) ens_pos start nens total rdrs nalt (Z.of_nat (length (pre ++ p_bytes p))) c' alt calt).
Proof.
  intros (NA & body & F & SH & N160 & _ & D) LK. cbn [rloop]. rewrite skipn_pre. cbn zeta. pose proof (framed_length _ _ _ F) as L.
  destruct (Nat.ltb_spec (length (p_bytes p ++ rest)) 10) as [X|_]; [rewrite app_length in X; lia|].
  destruct (read_hdr_framed _ _ _ rest F) as (h & -> & -> & ->).
  assert (P : Z.of_nat (length pre) + 10 + Z.of_nat (length body) = Z.of_nat (length (pre ++ p_bytes p))) by (rewrite app_length; lia).
  unfold kept. cbn [filter]. change [21; 22; 23; 24; 28] with data_ids. destruct (zmem (p_id p) data_ids) eqn:Z.
  - apply zmem_In in Z. destruct (D Z) as (l & HR & HH). rewrite (LK Z), HR. unfold read_burst. rewrite (read_holds l (p_vals p) body rest HH).
    rewrite <- (holds_length _ _ _ HH), P. cbn [map]. match goal with |- emit _ ?r = emits _ ?q => change q with r; destruct r; reflexivity end.
  - assert (NA' : zmem (p_id p) [26; 31] = false) by (destruct (zmem (p_id p) [26; 31]) eqn:Z'; [apply zmem_In in Z'; contradiction|reflexivity]).
    rewrite NA'. cbn [map]. rewrite emits_nil. destruct (Z.eqb_spec (p_id p) 160) as [E|E].
    + specialize (N160 E). destruct body as [|b0 body]; [congruence|].
      destruct (Nat.ltb_spec (length ((b0 :: body) ++ rest)) 1) as [X|_]; [cbn in X; lia|].
      destruct (Z.eqb_spec (Z.of_nat (length (b0 :: body))) 0) as [X|_]; [cbn [length] in X; lia|]. cbn [orb].
      rewrite Z.min_l by (rewrite app_length; lia). rewrite P. reflexivity.
    + rewrite P. reflexivity.
Qed.
Lemma kept_cons c p ps : kept c (p :: ps) = kept c [p] ++ kept c ps.
Proof. unfold kept. cbn [filter]. destruct (zmem (p_id p) data_ids); reflexivity. Qed.
Lemma piece_pos conf p : good_piece conf p -> (10 <= length (p_bytes p))%nat.
Proof. intros (_ & body & F & _). rewrite (framed_length _ _ _ F). lia. Qed.
(** the records of one ensemble that are left *)
Lemma loop_ensemble conf rdrs start nens total nalt ens_pos alt calt file c ps : forall pre rest fuel,
  file = pre ++ bytes_of ps ++ rest -> ps <> [] -> (c < nens)%nat ->
  Forall (good_piece conf) ps -> (forall p, In p ps -> In (p_id p) data_ids -> lookup rdrs (p_id p) = reader_for (p_id p) (fst (conf (p_id p))) (snd (conf (p_id p)))) ->
  let q := Z.of_nat (length (pre ++ bytes_of ps)) in
  (nth (c + start + 1) ens_pos (Z.of_nat (length file) + 1) = q /\
     ((c + start + 2 < total)%nat -> q < nth (c + start + 2) ens_pos (Z.of_nat (length file) + 1)) \/
   rest = [] /\ nth (c + start + 1) ens_pos (Z.of_nat (length file) + 1) = Z.of_nat (length file) + 1) ->
  rloop (fuel + length ps) file ens_pos start nens total rdrs nalt (Z.of_nat (length pre)) c alt calt =
  emits (kept c ps)
    (if (nth (c + start + 1) ens_pos (Z.of_nat (length file) + 1) =? q) then
       if (nens <=? S c)%nat then Events [] else rloop fuel file ens_pos start nens total rdrs nalt q (S c) alt calt
     else rloop fuel file ens_pos start nens total rdrs nalt q c alt calt).
Proof.
  induction ps as [|p ps IH]; intros pre rest fuel EF NE CN G LK q HQ; [congruence|]. inversion G as [|? ? Gp Gps]; subst.
  unfold q in *. cbn [bytes_of map concat] in *. fold (bytes_of ps) in *. rewrite <- !app_assoc in *.
  replace (fuel + length (p :: ps))%nat with (S (fuel + length ps)) by (cbn [length]; lia).
  rewrite (loop_piece conf rdrs p pre (bytes_of ps ++ rest)); [|exact Gp|apply LK; left; reflexivity]. cbn zeta.
  rewrite (kept_cons c p ps), emits_app. apply (f_equal (emits (kept c [p]))). pose proof (piece_pos _ _ Gp) as LP.
  destruct ps as [|p2 ps].
  - cbn [bytes_of map concat app length] in *. rewrite app_nil_r in *. change (kept c []) with (@nil event). rewrite emits_nil, Nat.add_0_r.
    destruct HQ as [[E D]|[-> E]].
    + rewrite advance_one by (try exact E; exact D). rewrite E, Z.eqb_refl. reflexivity.
    + rewrite advance_stay by (rewrite E, app_nil_r; lia). rewrite E. rewrite app_nil_r.
      destruct (Z.eqb_spec (Z.of_nat (length (pre ++ p_bytes p)) + 1) (Z.of_nat (length (pre ++ p_bytes p)))) as [X|_]; [lia|].
      destruct (Nat.leb_spec nens c); [lia|]. reflexivity.
  - set (ps' := p2 :: ps) in *. assert (LB : (0 < length (bytes_of ps'))%nat).
    { inversion Gps as [|? ? G2 _]; subst. pose proof (piece_pos _ _ G2). unfold ps', bytes_of. cbn [map concat]. rewrite app_length. lia. }
    rewrite advance_stay.
    2:{ destruct HQ as [[-> _]|[_ ->]]; rewrite !app_length; lia. }
    destruct (Nat.leb_spec nens c); [lia|].
    rewrite (app_assoc pre (p_bytes p) (bytes_of ps')) in HQ |- *.
    apply (IH (pre ++ p_bytes p) rest fuel); auto.
    + rewrite <- app_assoc. reflexivity.
    + unfold ps'. discriminate.
    + intros x Hx. apply LK. right. exact Hx.
Qed.
Lemma firstn_S_nth {A} (l : list A) e x : nth_error l e = Some x -> firstn (S e) l = firstn e l ++ [x].
Proof.
  revert e. induction l as [|y l IH]; intros [|e] H; cbn in H; try discriminate; [injection H as ->; reflexivity|].
  cbn [firstn app]. rewrite <- IH by exact H. reflexivity.
Qed.
Lemma starts_begins hd enss e d : (e < length enss)%nat -> nth e (starts (lens hd) enss) d = begins hd enss e.
Proof. intros H. rewrite starts_nth by exact H. unfold begins, lens. rewrite app_length. lia. Qed.
Lemma begins_S hd enss e ps : nth_error enss e = Some ps -> begins hd enss (S e) = begins hd enss e + lens ps.
Proof.
  intros H. unfold begins, lens. rewrite (firstn_S_nth _ _ _ H). rewrite map_app, concat_app, !app_length. cbn [map concat]. rewrite app_nil_r. lia.
Qed.
Lemma loop_all conf ids m rdrs start nens nalt alt calt hd enss file :
  file = bytes_of hd ++ concat (map bytes_of enss) ->
  (forall i ps, nth_error enss i = Some ps -> good_ens conf ids m (0 + Z.of_nat i) ps) ->
  (forall id, In id ids -> In id data_ids -> lookup rdrs id = reader_for id (fst (conf id)) (snd (conf id))) ->
  (nens + start <= length enss)%nat ->
  forall suf e fuel c, skipn e enss = suf -> (c + start = e)%nat -> (c < nens)%nat ->
  rloop (S fuel + pieces suf) file (starts (lens hd) enss) start nens (length enss) rdrs nalt (begins hd enss e) c alt calt =
  Events (columns c (firstn (nens - c) suf)).
Proof.
  intros EF G LK NE. induction suf as [|ps suf IH]; intros e fuel c ES EC CN.
  { exfalso. apply (f_equal (@length _)) in ES. rewrite skipn_length in ES. cbn in ES. lia. }
  assert (HE : nth_error enss e = Some ps).
  { rewrite <- (firstn_skipn e enss), ES. rewrite nth_error_app2 by (rewrite firstn_length; lia). rewrite firstn_length_le by lia. rewrite Nat.sub_diag. reflexivity. }
  assert (ES' : skipn (S e) enss = suf).
  { clear -ES. revert e ES. induction enss as [|x l IHl]; intros [|e] ES; cbn in ES |- *; try discriminate; [injection ES as _ <-; reflexivity|]. apply IHl, ES. }
  pose proof (G e ps HE) as (GI & (p0 & ps0 & GP & _) & GG & _).
  set (pre := bytes_of hd ++ concat (map bytes_of (firstn e enss))).
  assert (EF' : file = pre ++ bytes_of ps ++ concat (map bytes_of suf)).
  { rewrite EF. unfold pre. rewrite <- app_assoc. f_equal. rewrite <- (firstn_skipn e enss) at 1. rewrite ES, map_app, concat_app. reflexivity. }
  assert (PB : begins hd enss e = Z.of_nat (length pre)) by reflexivity.
  assert (QB : begins hd enss (S e) = Z.of_nat (length (pre ++ bytes_of ps))).
  { rewrite (begins_S _ _ _ _ HE), PB. unfold lens. rewrite app_length. lia. }
  assert (P : pieces (ps :: suf) = (pieces suf + length ps)%nat) by (unfold pieces; cbn; rewrite app_length; lia).
  rewrite P, Nat.add_assoc, PB.
  assert (LK' : forall p, In p ps -> In (p_id p) data_ids -> lookup rdrs (p_id p) = reader_for (p_id p) (fst (conf (p_id p))) (snd (conf (p_id p)))).
  { intros p Ip D. apply LK; [|exact D]. rewrite <- GI. apply filter_In. split; [apply in_map; exact Ip|].
    unfold numbered. apply zmem_In. unfold data_ids in D. unfold known_ids. cbn in *. intuition. }
  assert (LEN : length enss = (e + S (length suf))%nat).
  { apply (f_equal (@length _)) in ES. rewrite skipn_length in ES. cbn [length] in ES. assert (e < length enss)%nat by (apply nth_error_Some; congruence). lia. }
  rewrite (loop_ensemble conf rdrs start nens (length enss) nalt (starts (lens hd) enss) alt calt file c ps pre (concat (map bytes_of suf)) (S fuel + pieces suf));
    [|exact EF'|rewrite GP; discriminate|exact CN|exact GG|exact LK'|].
  - destruct suf as [|ps2 suf].
    + rewrite (nth_overflow (starts (lens hd) enss)) by (rewrite starts_length; cbn [length] in LEN; lia).
      assert (EL : Z.of_nat (length file) = Z.of_nat (length (pre ++ bytes_of ps))) by (rewrite EF'; cbn [map concat]; rewrite app_nil_r; reflexivity).
      destruct (Z.eqb_spec (Z.of_nat (length file) + 1) (Z.of_nat (length (pre ++ bytes_of ps)))) as [X|_]; [lia|].
      cbn [length] in LEN. replace (nens - c)%nat with 1%nat by lia. cbn [firstn columns]. rewrite app_nil_r.
      cbn [rloop Nat.add]. cbn zeta. rewrite <- EL, Nat2Z.id, skipn_all. cbn [length Nat.ltb Nat.leb emits]. rewrite app_nil_r. reflexivity.
    + replace (c + start + 1)%nat with (S e) by lia.
      rewrite starts_begins by (cbn [length] in LEN; lia). rewrite QB, Z.eqb_refl.
      destruct (Nat.leb_spec nens (S c)) as [L|L].
      * replace (nens - c)%nat with 1%nat by lia. cbn [firstn columns emits]. reflexivity.
      * rewrite <- QB. rewrite (IH (S e) fuel (S c)); [|exact ES'|lia|lia].
        replace (nens - c)%nat with (S (nens - S c)) by lia. cbn [firstn columns emits]. reflexivity.
  - replace (c + start + 1)%nat with (S e) by lia. replace (c + start + 2)%nat with (S (S e)) by lia. destruct suf as [|ps2 suf].
    + right. split; [reflexivity|]. apply nth_overflow. rewrite starts_length. cbn [length] in LEN. lia.
    + left. rewrite starts_begins by (cbn [length] in LEN; lia). split; [exact QB|]. intros L. rewrite starts_begins by exact L.
      assert (HE2 : nth_error enss (S e) = Some ps2).
      { rewrite <- (firstn_skipn (S e) enss), ES'. rewrite nth_error_app2 by (rewrite firstn_length; lia). rewrite firstn_length_le by lia. rewrite Nat.sub_diag. reflexivity. }
      rewrite (begins_S _ _ _ _ HE2), QB. destruct (G (S e) ps2 HE2) as (_ & (q0 & qs & -> & _) & GQ & _).
      inversion GQ as [|? ? G1 _]; subst. pose proof (piece_pos _ _ G1). unfold lens, bytes_of. cbn [map concat]. rewrite !app_length. lia.
Qed.

(** ** regular files: the last ensemble is whole *)
Lemma starts_diffs L enss : (forall ps, In ps enss -> lens ps = L) -> forall pos, diffs (starts pos enss) = repeat L (length enss - 1).
Proof.
  induction enss as [|ps enss IH]; intros H pos; [reflexivity|]. destruct enss as [|ps2 enss]; [reflexivity|].
  specialize (IH (fun x Hx => H x (or_intror Hx)) (pos + lens ps)).
  assert (E : diffs (starts pos (ps :: ps2 :: enss)) = L :: diffs (starts (pos + lens ps) (ps2 :: enss))).
  { unfold diffs. cbn [starts tl combine map fst snd]. rewrite (H ps (or_introl eq_refl)). f_equal. lia. }
  rewrite E, IH. cbn [length]. replace (S (S (length enss)) - 1)%nat with (S (S (length enss) - 1)) by lia. reflexivity.
Qed.
Lemma unique_repeat L n : unique (repeat L (S n)) = [L].
Proof.
  induction n as [|n IH]; [reflexivity|]. change (unique (repeat L (S (S n)))) with (insert L (unique (repeat L (S n)))). rewrite IH. cbn.
  rewrite Z.ltb_irrefl, Z.eqb_refl. reflexivity.
Qed.
Lemma starts_last enss : forall pos d, enss <> [] -> last (starts pos enss) d = pos + Z.of_nat (length (concat (map bytes_of (removelast enss)))).
Proof.
  induction enss as [|ps enss IH]; intros pos d N; [congruence|]. destruct enss as [|ps2 enss]; [cbn; lia|].
  change (starts pos (ps :: ps2 :: enss)) with (pos :: starts (pos + lens ps) (ps2 :: enss)).
  change (last (pos :: starts (pos + lens ps) (ps2 :: enss)) d) with (last (starts (pos + lens ps) (ps2 :: enss)) d).
  rewrite IH by discriminate. change (removelast (ps :: ps2 :: enss)) with (ps :: removelast (ps2 :: enss)). cbn [map concat]. rewrite app_length. unfold lens. lia.
Qed.
Lemma whole L hd enss : (forall ps, In ps enss -> lens ps = L) -> (2 <= length enss)%nat ->
  lastblock_iswhole (Z.of_nat (length (bytes_of hd ++ concat (map bytes_of enss)))) (starts (lens hd) enss) = Some true.
Proof.
  intros H N. unfold lastblock_iswhole. rewrite (starts_diffs L enss H). destruct (length enss - 1)%nat as [|n] eqn:EN; [lia|].
  rewrite unique_repeat. cbn [argmax_by]. f_equal. apply Z.eqb_eq.
  assert (NE : enss <> []) by (intros ->; cbn in N; lia). rewrite starts_last by exact NE.
  rewrite (app_removelast_last [] NE) at 1. rewrite map_app, concat_app, !app_length. cbn [map concat]. rewrite app_nil_r.
  assert (HL : lens (last enss []) = L) by (apply H; rewrite (app_removelast_last [] NE) at 2; apply in_or_app; right; left; reflexivity).
  unfold lens in *. lia.
Qed.
Lemma concat_pieces_length conf ids m e enss : (forall i ps, nth_error enss i = Some ps -> good_ens conf ids m (e + Z.of_nat i) ps) ->
  (pieces enss <= length (concat (map bytes_of enss)))%nat.
Proof.
  assert (B : forall ps, Forall (good_piece conf) ps -> (length ps <= length (bytes_of ps))%nat).
  { induction 1 as [|p ps G H IH]; [cbn; lia|]. unfold bytes_of in *. cbn [map concat length]. rewrite app_length. pose proof (piece_pos _ _ G). lia. }
  intros H. unfold pieces. revert e H. induction enss as [|ps enss IH]; intros e H; [cbn; lia|]. cbn [concat map]. rewrite !app_length.
  pose proof (H 0%nat ps eq_refl) as (_ & _ & G & _). pose proof (B ps G).
  specialize (IH (e + 1)). assert ((length (concat enss) <= length (concat (map bytes_of enss)))%nat); [|lia]. apply IH.
  intros i qs Hi. replace (e + 1 + Z.of_nat i) with (e + Z.of_nat (S i)) by lia. apply H. exact Hi.
Qed.
Lemma head_length conf hd : Forall (fun p => good_piece conf p /\ numbered (p_id p) = false) hd -> (length hd <= length (bytes_of hd))%nat.
Proof. induction 1 as [|p ps [G _] H IH]; [cbn; lia|]. unfold bytes_of in *. cbn [map concat length]. rewrite app_length. pose proof (piece_pos _ _ G). lia. Qed.
Lemma read_regular conf ids m hd enss file L dp rebuild existing start stop fuel :
  regular conf ids m hd enss file -> (2 <= length enss)%nat -> (forall ps, In ps enss -> lens ps = L) ->
  (rebuild = true \/ existing = None) -> (length file < fuel)%nat ->
  let upto := match stop with None => length enss | Some s => Nat.min s (length enss) end in
  (start < upto)%nat ->
  read_ad2cp fuel dp rebuild existing file start stop = Events (columns 0 (between start upto enss)).
Proof.
  intros R N2 HL RB FU upto SU. pose proof R as [RF RH RI RE R1 R2 RS].
  assert (G : forall i ps, nth_error enss i = Some ps -> good_ens conf ids m (0 + Z.of_nat i) ps) by (intros i ps Hi; rewrite Z.add_0_l; apply RE, Hi).
  assert (PC : (length hd + pieces enss < fuel)%nat).
  { pose proof (head_length conf hd RH). pose proof (concat_pieces_length conf ids m 0 enss G). rewrite RF, app_length in FU. lia. }
  unfold read_ad2cp. destruct (get_regular conf ids m hd enss file fuel dp R PC) as [G1 G2].
  assert (GI : get_index fuel dp rebuild existing file = Index (all_ents m 0 (lens hd) enss)).
  { destruct RB as [->| ->]; [apply G2|]. destruct rebuild; [apply G2|]. exact G1. }
  rewrite GI. unfold read_entries.
  rewrite firsts_first_pings, (firsts_all conf ids m enss 0 (lens hd) None G Logic.I).
  rewrite RF, (whole L hd enss HL N2).
  destruct (readers_regular conf ids m enss (lens hd) ltac:(intros ->; cbn in N2; lia) G) as (rdrs & -> & NA & LK).
  rewrite starts_length, Nat.sub_0_r.
  assert (EU : match stop with None => length enss | Some s => Nat.min s (length enss) end = upto) by reflexivity. rewrite EU.
  destruct (Nat.leb_spec upto start) as [X|_]; [lia|].
  assert (FR : forall nalt : Z -> nat, filter (fun p : Z * layout => negb (zmem (fst p) [26; 31] && Nat.eqb (nalt (fst p)) 0)) rdrs = rdrs).
  { intros nalt. clear -NA. induction rdrs as [|p r IH]; [reflexivity|]. cbn [filter]. rewrite NA by (left; reflexivity). cbn [andb negb]. rewrite IH; [reflexivity|].
    intros x Hx. apply NA. right. exact Hx. }
  rewrite FR. assert (UL : (upto <= length enss)%nat) by (unfold upto; destruct stop; lia).
  rewrite starts_begins by lia.
  assert (PS : (pieces (skipn start enss) <= pieces enss)%nat).
  { unfold pieces. rewrite <- (firstn_skipn start enss) at 2. rewrite concat_app, app_length. lia. }
  replace fuel with (S (fuel - S (pieces (skipn start enss))) + pieces (skipn start enss))%nat by lia.
  rewrite (loop_all conf ids m rdrs start (upto - start)%nat _ _ _ hd enss (bytes_of hd ++ concat (map bytes_of enss)) eq_refl G LK ltac:(lia) (skipn start enss) start); try reflexivity; try lia.
  rewrite Nat.sub_0_r. reflexivity.
Qed.
Lemma find_other m e t ps : e <> t -> forall pos l, find (fun x => eN x =? t) (ents m e pos ps ++ l) = find (fun x => eN x =? t) l.
Proof.
  intros D. induction ps as [|p ps IH]; intros pos l; [reflexivity|]. cbn [ents]. destruct (numbered (p_id p)); cbn [app]; [|apply IH].
  cbn [find eN entry_of]. destruct (Z.eqb_spec e t); [congruence|]. apply IH.
Qed.
Lemma find_all conf ids m enss : forall e pos i, (forall i ps, nth_error enss i = Some ps -> good_ens conf ids m (e + Z.of_nat i) ps) ->
  (i < length enss)%nat -> exists x, find (fun x => eN x =? e + Z.of_nat i) (all_ents m e pos enss) = Some x /\
    epos x = pos + Z.of_nat (length (concat (map bytes_of (firstn i enss)))).
Proof.
  induction enss as [|ps enss IH]; intros e pos i G L; [cbn in L; lia|]. cbn [all_ents]. destruct i as [|i].
  - destruct (G 0%nat ps eq_refl) as (_ & (p & ps' & -> & K) & _). cbn [ents]. rewrite K. cbn [app find eN entry_of Z.of_nat]. rewrite Z.add_0_r, Z.eqb_refl.
    eexists. split; [reflexivity|]. cbn. lia.
  - rewrite find_other by lia. destruct (IH (e + 1) (pos + lens ps) i) as (x & E & P).
    + intros j qs Hj. replace (e + 1 + Z.of_nat j) with (e + Z.of_nat (S j)) by lia. apply G. exact Hj.
    + cbn [length] in L. lia.
    + exists x. replace (e + Z.of_nat (S i)) with (e + 1 + Z.of_nat i) by lia. split; [exact E|]. rewrite P.
      cbn [firstn map concat]. rewrite app_length. unfold lens. lia.
Qed.
Lemma firstn_between {A} (lo hi : nat) (l : list A) : (lo <= hi)%nat -> firstn hi l = firstn lo l ++ between lo hi l.
Proof.
  intros H. unfold between. rewrite <- (firstn_skipn lo (firstn hi l)). rewrite firstn_firstn, Nat.min_l by exact H. f_equal. apply firstn_skipn_comm || idtac.
  rewrite skipn_firstn_comm. reflexivity.
Qed.
Lemma crop_regular conf ids m hd enss file fuel lo hi l : regular conf ids m hd enss file -> (length file < fuel)%nat ->
  get_index fuel false true None file = Index l -> (lo <= hi < length enss)%nat ->
  crop l file (Z.of_nat lo) (Z.of_nat hi) = Some (bytes_of hd ++ concat (map bytes_of (between lo hi enss))).
Proof.
  intros R FU GI LH. pose proof R as [RF RH RI RE R1 R2 RS].
  assert (G : forall i ps, nth_error enss i = Some ps -> good_ens conf ids m (0 + Z.of_nat i) ps) by (intros i ps Hi; rewrite Z.add_0_l; apply RE, Hi).
  assert (PC : (length hd + pieces enss < fuel)%nat).
  { pose proof (head_length conf hd RH). pose proof (concat_pieces_length conf ids m 0 enss G). rewrite RF, app_length in FU. lia. }
  destruct (get_regular conf ids m hd enss file fuel false R PC) as [G1 _]. rewrite G1 in GI. injection GI as <-.
  destruct (find_all conf ids m enss 0 (lens hd) lo G ltac:(lia)) as (a & Fa & Pa).
  destruct (find_all conf ids m enss 0 (lens hd) hi G ltac:(lia)) as (b & Fb & Pb).
  destruct (find_all conf ids m enss 0 (lens hd) 0 G ltac:(lia)) as (z & Fz & Pz).
  rewrite Z.add_0_l in Fa, Fb. unfold crop.
  destruct (all_ents m 0 (lens hd) enss) as [|e0 rest] eqn:EA; [discriminate|]. rewrite Fa, Fb, Pa, Pb.
  assert (E0 : epos e0 = lens hd).
  { destruct enss as [|ps enss']; [discriminate|]. destruct (G 0%nat ps eq_refl) as (_ & (p & ps' & -> & K) & _). cbn [all_ents ents] in EA. rewrite K in EA.
    injection EA as <- _. reflexivity. }
  rewrite E0. f_equal. unfold lens. rewrite Nat2Z.id, RF. rewrite firstn_exact. f_equal.
  set (A := concat (map bytes_of (firstn lo enss))). set (B := concat (map bytes_of (between lo hi enss))).
  assert (EH : concat (map bytes_of (firstn hi enss)) = A ++ B) by (unfold A, B; rewrite <- concat_app, <- map_app, <- firstn_between by lia; reflexivity).
  rewrite EH. set (C := concat (map bytes_of (skipn hi enss))).
  assert (EE : concat (map bytes_of enss) = A ++ B ++ C) by (rewrite app_assoc, <- EH; unfold C; rewrite <- concat_app, <- map_app, firstn_skipn; reflexivity).
  rewrite EE, (app_assoc (bytes_of hd)).
  replace (Z.to_nat (Z.of_nat (length (bytes_of hd)) + Z.of_nat (length A))) with (length (bytes_of hd ++ A)) by (rewrite app_length; lia).
  rewrite skipn_exact. replace (Z.to_nat _) with (length B) by (rewrite app_length; lia). apply firstn_exact.
Qed.
