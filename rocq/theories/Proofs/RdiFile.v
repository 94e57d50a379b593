(** Lemmas about Model.RdiFile: all ensembles of a file. *)
From Coq Require Import String.
From Coq Require Import ZArith QArith Qround List Bool Lia.
From Verif.Model Require Import Nortek RdiBlocks RdiFile.
From Verif.Model Require Ad2cp.
From Verif.Spec Require Rdi.
From Verif.Proofs Require Import RdiBlocks RdiEns.
Import ListNotations.
Open Scope string_scope.
Open Scope list_scope.
Open Scope Z_scope.

(** the settings of a fixed leader are those of the reader *)
Definition set_ok (fixed : bytes) (s : st) : Prop := forall nm v, In (nm, v) (Rdi.settings (fx fixed)) -> lookup nm (scfg s) = Some v.
(** the reader between two ensembles *)
Record waiting (n P : Z) (s : st) (e : ensemble) : Prop := Waiting {
  w_pos : pos s = P; w_fix : fixoffset s = 0; w_source : source s = 0; w_winriver : winrivprob s = false; w_vmdas : vmdas_search s = false;
  w_ens : ens s = Some e; w_cells : e_cells e = n; w_len : forall nm, In nm beam_vars -> length (get e nm) = Z.to_nat (4 * n);
  w_closed : closed (vars_read s); w_prog : lookup "sourceprog" (scfg s) = None }.

Lemma seek_ok p d : 0 <= p + d -> seek p d = Ret (p + d).
Proof. intros H. unfold seek. replace (p + d <? 0) with false by (symmetry; apply Z.ltb_ge; exact H). reflexivity. Qed.
Lemma blocks_at file P e n : Rdi.sound n e -> at_ file P (Rdi.encode e) -> at_ file (P + Rdi.head_size e) (Rdi.body e).
Proof.
  intros H A. rewrite encode_split in A. do 4 apply at_app_r in A. apply at_app_l in A. rewrite concat_le16_length, offsets_length in A. cbn [length Rdi.le16] in A.
  unfold Rdi.head_size, Rdi.len. match type of A with at_ _ ?q _ => replace (P + (6 + 2 * Z.of_nat (length (Rdi.blocks e)))) with q by lia end. exact A.
Qed.
Lemma is_var_in l : In 128 (map fst l) -> is_var l = 1.
Proof. intros H. unfold is_var. replace (existsb (Z.eqb 128) (map fst l)) with true; [reflexivity|]. symmetry. apply existsb_exists. exists 128. now split. Qed.

Lemma read_one_step file n P e s x fixed rest post : 0 < n -> Rdi.sound n x -> Rdi.blocks x = (0, fixed) :: rest ->
  at_ file P (Rdi.encode x ++ 127 :: 127 :: post) -> waiting n P s e -> ek e = -1 ->
  exists s', read_one file s = Ret (Some s') /\
    waiting n (P + Z.of_nat (length (Rdi.encode x))) s' (Ens 0 n (rev (effects (fx fixed) rest) ++ vals e)) /\
    incl (vars_read s) (vars_read s') /\ (forall nm, In nm (map fst (effects (fx fixed) rest)) -> In nm (vars_read s')) /\ set_ok fixed s'.
Proof.
  intros N So Bl A W K. destruct (Rdi.has_fixed _ _ So) as (fixed' & rest' & Bl' & Fs & Cs & V & Sr).
  rewrite Bl in Bl'. injection Bl' as <- <-. fold (fx fixed) in Fs, Cs, Sr.
  unfold read_one, search_buffer. rewrite (w_pos _ _ _ _ W), (search_found file P x n post (Some search_num) ltac:(reflexivity) So A). cbn [bind].
  rewrite (hdrseg_step file n x (at_pos (P + 2) s) So) by (exists P; split; [eapply at_app_l; exact A|reflexivity]). cbn [bind pos at_pos].
  set (s1 := with_nbyte _ _).
  assert (Hl : (2 <= length (Rdi.blocks x))%nat). { rewrite Bl. destruct rest as [|b r]; [destruct V|]. cbn [length]. lia. }
  unfold offsets. change (hdr_offsets s1) with (Rdi.offsets_from (Rdi.head_size x) (Rdi.blocks x)). rewrite offsets_length.
  rewrite (proj2 (Nat.leb_le _ _) Hl). cbn [check bind].
  change (nbyte s1 + 2) with (4 + Rdi.len (Rdi.blocks x) * 2 + 2). replace (4 + Rdi.len (Rdi.blocks x) * 2 + 2) with (Rdi.head_size x) by (unfold Rdi.head_size; lia).
  set (s2 := with_vmdas (vmdas_search s1) false s1).
  assert (P2 : pos s2 = P + Rdi.head_size x) by (unfold s2, s1, Rdi.head_size; cbn [pos with_vmdas with_nbyte with_hdr at_pos]; lia).
  pose proof (blocks_at file P x n So (at_app_l _ _ _ _ A)) as Ab. unfold Rdi.body in Ab. rewrite <- P2 in Ab. rewrite Bl, body_cons in Ab.
  destruct (Rdi.bytes_ok _ _ So) as (_ & _ & _ & By). rewrite Bl in By. pose proof (Forall_inv_tail By) as By2.
  pose proof (Rdi.kinds _ _ So) as Ki. rewrite Bl in Ki. cbn [map] in Ki. apply NoDup_cons_iff in Ki. destruct Ki as [Ki1 Ki2].
  assert (P0 : 0 <= pos s2) by (eapply at_nonneg; exact Ab).
  rewrite Bl. cbn [Rdi.offsets_from read_blocks]. rewrite (le16_read _ _ 0 fixed) by (lia || (eapply at_app_l; exact Ab)). cbn [bind hd].
  assert (Af : at_ file (pos (at_pos (pos s2 + 2) s2)) fixed).
  { apply at_app_l in Ab. unfold Rdi.block_bytes in Ab. apply at_app_r in Ab. exact Ab. }
  destruct (fixed_step file fixed (at_pos (pos s2 + 2) s2) Af Fs) as (s3 & E3 & [XF XP XE XV Xpv Xm Xn Xp Xs]).
  { intros e' E'. change (ens (at_pos (pos s2 + 2) s2)) with (ens s) in E'. rewrite (w_ens _ _ _ _ W) in E'. injection E' as <-. rewrite (w_cells _ _ _ _ W). symmetry. exact Cs. }
  unfold read_dat at 1, read_known at 1. cbn [Z.eqb Pos.eqb]. rewrite E3. cbn [bind negb]. cbn [pos at_pos] in XP.
  set (o' := Rdi.head_size x + Rdi.len (Rdi.block_bytes (0, fixed))).
  assert (Eo : o' = Rdi.head_size x + (2 + Z.of_nat (length fixed))) by (unfold o', Rdi.len; rewrite block_length; reflexivity).
  destruct rest as [|b2 r2] eqn:Er; [destruct V|]. rewrite <- Er in *.
  assert (Eof : exists os, Rdi.offsets_from o' rest = o' :: os) by (rewrite Er; cbn [Rdi.offsets_from]; eauto).
  destruct Eof as (os & Eof). rewrite Eof. rewrite seek_ok by lia. cbn [bind]. rewrite <- Eof.
  set (s4 := at_pos _ s3).
  assert (P4 : pos s4 = pos s2 + Z.of_nat (length (Rdi.block_bytes (0, fixed)))) by (unfold s4; cbn [pos at_pos]; rewrite block_length; cbn [snd]; lia).
  assert (F4 : frame s4 = frame s2) by exact XF.
  assert (R4 : ready (Rdi.cells (fx fixed)) (Rdi.firmware (fx fixed)) (inst_model_of (Rdi.version (fx fixed))) s4 e).
  { constructor; try assumption.
    - change (ens s4) with (ens s3). rewrite XE. apply W.
    - rewrite Cs. apply W.
    - rewrite Cs. apply W.
    - now left.
    - unfold frame in F4. assert (Z4 : source s4 = source s2) by congruence. rewrite Z4. apply W.
    - change (scfg s4) with (scfg s3). rewrite Xp. apply W.
    - change (vars_read s4) with (vars_read s3). rewrite XV. apply W. }
  destruct (blocks_loop file (fx fixed) ltac:(lia) rest o' s4 e R4) as (s5 & E5 & P5 & M5).
  - rewrite Er. discriminate.
  - exact Ki2.
  - intros _. exact K.
  - exact Sr.
  - exact By2.
  - rewrite P4. apply at_app_r in Ab. exact Ab.
  - unfold frame in F4. assert (Z4 : winrivprob s4 = winrivprob s2) by congruence. rewrite Z4. apply W.
  - unfold frame in F4. assert (Z4 : hdr_nbyte s4 = hdr_nbyte s2) by congruence. rewrite Z4. change (hdr_nbyte s2) with (Rdi.nbytes x).
    unfold Rdi.nbytes, Rdi.body. rewrite Bl, body_cons. unfold Rdi.len. rewrite app_length, Nat2Z.inj_add, block_length. cbn [snd]. lia.
  - rewrite E5. cbn [bind]. destruct M5 as (F5 & C5 & En5 & I5 & V5 & Cl5).
    assert (Fr : frame s5 = frame s2) by congruence. unfold frame in Fr.
    assert (vmdas_search s5 = false) as Vm by (transitivity (vmdas_search s2); [congruence|apply W]).
    assert (hdr_nbyte s5 = Rdi.nbytes x) as Hn by (transitivity (hdr_nbyte s2); [congruence|reflexivity]).
    assert (fixoffset s5 = 0) as Fo by (transitivity (fixoffset s2); [congruence|apply W]).
    assert (source s5 = 0) as Sc by (transitivity (source s2); [congruence|apply W]).
    assert (winrivprob s5 = false) as Wp by (transitivity (winrivprob s2); [congruence|apply W]).
    unfold vmdas_again. rewrite Vm, andb_false_r. cbn [bind].
    assert (Px : pos s5 = P + Rdi.nbytes x - 2).
    { rewrite P5, P4, P2. unfold Rdi.nbytes, Rdi.body. rewrite Bl, body_cons. unfold Rdi.len. rewrite app_length, Nat2Z.inj_add. lia. }
    assert (Eoff : hdr_nbyte s5 + 2 - (pos s5 - (P + 2 - 2)) = 4) by lia. rewrite Eoff. unfold check_offset. cbn [Z.eqb Pos.eqb negb andb]. rewrite Fo, seek_ok by lia. cbn [bind].
    eexists. split; [reflexivity|]. split; [|split; [eapply incl_tran; [|exact I5]; change (vars_read s4) with (vars_read s3); rewrite XV; apply incl_refl|split; [exact V5|]]].
    2: { intros nm v Hs. cbn [scfg at_pos]. rewrite C5. exact (Xs nm v Hs). }
    constructor; try assumption.
    + cbn [pos at_pos]. rewrite (encode_length _ _ So), Px. lia.
    + cbn [ens at_pos]. rewrite En5, K, (is_var_in _ V), (w_cells _ _ _ _ W). reflexivity.
    + reflexivity.
    + apply (get_len (effects (fx fixed) rest) (ek e) n (vals e) n).
      * intros nm v Hin Hb. unfold effects in Hin. apply in_concat in Hin. destruct Hin as (l & L1 & L2). apply in_map_iff in L1. destruct L1 as ([i y] & <- & _). rewrite <- Cs. eapply effect_len; eassumption.
      * intros nm Hb. pose proof (w_len _ _ _ _ W nm Hb) as G. rewrite <- (w_cells _ _ _ _ W) at 1. destruct e; exact G.
    + change (scfg (at_pos (pos s5 + (4 + 0)) s5)) with (scfg s5). rewrite C5. change (scfg s4) with (scfg s3). rewrite Xp. apply W.
Qed.

(** ** What one ensemble leaves *)
Definition after (n : Z) (fixed : bytes) (rest : list (Z * bytes)) (e : ensemble) : ensemble :=
  century (clean_data (Ens 0 n (rev (effects (fx fixed) rest) ++ vals e))).
Lemma get_put nm nm' v e : get (put nm v e) nm' = if String.eqb nm nm' then v else get e nm'.
Proof. unfold get, put. cbn [vals e_cells lookup]. destruct (String.eqb nm nm'); reflexivity. Qed.
Lemma century_ek e : ek (century e) = ek e /\ e_cells (century e) = e_cells e.
Proof. unfold century. destruct (get e "rtc") as [|[y|] l]; [now split| |now split]. destruct (Qle_bool 100 y); now split. Qed.
Lemma get_century nm e : nm <> "rtc" -> get (century e) nm = get e nm.
Proof.
  intros H. unfold century. destruct (get e "rtc") as [|[y|] l]; try reflexivity. destruct (Qle_bool 100 y); [reflexivity|]. rewrite get_put.
  destruct (String.eqb "rtc" nm) eqn:E; [apply String.eqb_eq in E; now subst|reflexivity].
Qed.
Lemma beam_not_rtc nm : In nm beam_vars -> nm <> "rtc".
Proof. intros H ->. apply mem_In in H. discriminate H. Qed.
Lemma after_len n fixed rest e : (forall nm, In nm beam_vars -> length (get (Ens 0 n (rev (effects (fx fixed) rest) ++ vals e)) nm) = Z.to_nat (4 * n)) ->
  forall nm, In nm beam_vars -> length (get (after n fixed rest e) nm) = Z.to_nat (4 * n).
Proof.
  intros H nm B. unfold after. rewrite get_century by (now apply beam_not_rtc). unfold clean_data. rewrite get_put.
  destruct (String.eqb "vel" nm) eqn:E; [|now apply H]. rewrite map_length. apply H. cbn. tauto.
Qed.

Lemma waiting_reset n P s e : waiting n P s e -> waiting n P (reset_k s) (set_k (-1) e).
Proof.
  intros W. constructor; try apply W.
  cbn [reset_k with_ens ens]. rewrite (w_ens _ _ _ _ W). reflexivity.
Qed.
Lemma fuel_two (file : bytes) : exists f, S (length file) = S f.
Proof. eauto. Qed.

Lemma buffer_step file n P e s x fixed rest post : 0 < n -> Rdi.sound n x -> Rdi.blocks x = (0, fixed) :: rest ->
  at_ file P (Rdi.encode x ++ 127 :: 127 :: post) -> waiting n P s e ->
  exists s', read_buffer file s = Ret (Some s') /\
    waiting n (P + Z.of_nat (length (Rdi.encode x))) s' (Ens 0 n (rev (effects (fx fixed) rest) ++ vals e)) /\
    incl (vars_read s) (vars_read s') /\ (forall nm, In nm (map fst (effects (fx fixed) rest)) -> In nm (vars_read s')) /\ set_ok fixed s'.
Proof.
  intros N So Bl A W. unfold read_buffer. pose proof (waiting_reset _ _ _ _ W) as W1.
  destruct (read_one_step file n P _ _ x fixed rest post N So Bl A W1 eq_refl) as (s' & E & W2 & I & V & St).
  cbn [read_rounds]. rewrite (w_ens _ _ _ _ W1). cbn [or_raise bind set_k ek]. change (-1 <? 0) with true. cbn iota. rewrite E. cbn [bind].
  rewrite (w_ens _ _ _ _ W2). cbn [or_raise bind ek]. change (0 <? 0) with false. cbn iota.
  exists s'. split; [reflexivity|]. split; [exact W2|]. split; [exact I|split; [exact V|exact St]].
Qed.
Lemma buffer_last file n P e s x : Rdi.sound n x -> (exists pre, file = pre ++ Rdi.encode x /\ P = Z.of_nat (length pre)) -> waiting n P s e ->
  read_buffer file s = Ret None.
Proof.
  intros So A W. unfold read_buffer. pose proof (waiting_reset _ _ _ _ W) as W1.
  cbn [read_rounds]. rewrite (w_ens _ _ _ _ W1). cbn [or_raise bind set_k ek]. change (-1 <? 0) with true. cbn iota.
  unfold read_one, search_buffer. rewrite (w_pos _ _ _ _ W1), (search_last file P x n (Some search_num) ltac:(reflexivity) So A). reflexivity.
Qed.
Lemma file_head xs last n : Rdi.sound n last -> Forall (Rdi.sound n) xs -> exists post, Rdi.file_of (xs ++ [last]) = 127 :: 127 :: post.
Proof.
  intros L H. destruct xs as [|x xs].
  - exists (skipn 2 (Rdi.encode last)). unfold Rdi.file_of. cbn [map concat app]. rewrite app_nil_r, encode_split. reflexivity.
  - unfold Rdi.file_of. cbn [map concat app]. rewrite encode_split. eexists. reflexivity.
Qed.
Lemma sound_blocks n x : Rdi.sound n x -> exists fixed rest, Rdi.blocks x = (0, fixed) :: rest.
Proof. intros H. destruct (Rdi.has_fixed _ _ H) as (f & r & E & _). eauto. Qed.

(** the columns of ensembles: the reader came with [e] and the variables [vars] *)
Inductive columns_from (n : Z) : list Rdi.pd0 -> ensemble -> list string -> list column -> Prop :=
  | columns_nil e vars : columns_from n [] e vars []
  | columns_cons x xs fixed rest e vars vars' c cs : Rdi.blocks x = (0, fixed) :: rest -> incl vars vars' ->
      (forall nm, In nm (map fst (effects (fx fixed) rest)) -> In nm vars') ->
      c = Col (clock (after n fixed rest e)) (map (fun nm => (nm, get (after n fixed rest e) nm)) vars') ->
      columns_from n xs (after n fixed rest e) vars' cs -> columns_from n (x :: xs) e vars (c :: cs).

(** after the ensembles [xs] *)
Definition final (xs : list Rdi.pd0) (s s' : st) : Prop :=
  (xs = [] /\ scfg s' = scfg s) \/ exists xs0 x fixed rest, xs = xs0 ++ [x] /\ Rdi.blocks x = (0, fixed) :: rest /\ set_ok fixed s'.
Lemma load_step file n last : 0 < n -> Rdi.sound n last -> forall xs m P s e, Forall (Rdi.sound n) xs ->
  (exists pre, file = pre ++ Rdi.file_of (xs ++ [last]) /\ P = Z.of_nat (length pre)) -> waiting n P s e ->
  exists cols s', load_loop file m s = Ret (cols, s') /\ columns_from n (firstn m xs) e (vars_read s) cols /\ final (firstn m xs) s s' /\ exists e', ens s' = Some e' /\ e_cells e' = n.
Proof.
  intros N La. induction xs as [|x xs IH]; intros m P s e H (pre & Ef & EP) W.
  - destruct m as [|m]; [exists [], s; split; [reflexivity|split; [constructor|split; [now left|exists e; split; apply W]]]|]. cbn [load_loop firstn].
    rewrite (buffer_last file n P e s last La); [|exists pre; split; [|exact EP]; rewrite Ef; unfold Rdi.file_of; cbn [map concat app]; now rewrite app_nil_r|exact W].
    cbn [bind]. exists [], s. split; [reflexivity|split; [constructor|split; [now left|exists e; split; apply W]]].
  - destruct m as [|m]; [exists [], s; split; [reflexivity|split; [constructor|split; [now left|exists e; split; apply W]]]|]. cbn [load_loop firstn].
    pose proof (Forall_inv H) as Hx. pose proof (Forall_inv_tail H) as Hxs.
    destruct (sound_blocks _ _ Hx) as (fixed & rest & Bl). destruct (file_head xs last n La Hxs) as (post & Ep).
    assert (Sp : Rdi.file_of ((x :: xs) ++ [last]) = Rdi.encode x ++ Rdi.file_of (xs ++ [last])) by reflexivity.
    destruct (buffer_step file n P e s x fixed rest post N Hx Bl) as (s' & E & W' & I & V & St); [|exact W|].
    + exists pre, []. rewrite app_nil_r, <- Ep, <- Sp. now split.
    + rewrite E. cbn [bind]. rewrite (w_ens _ _ _ _ W'). cbn [or_raise bind].
      fold (after n fixed rest e). set (s2 := with_ens (Some (after n fixed rest e)) (ens_bb s') s').
      assert (W2 : waiting n (P + Z.of_nat (length (Rdi.encode x))) s2 (after n fixed rest e)).
      { destruct W' as [A1 A2 A3 A4 A5 A6 A7 A8 A9 A10]. constructor; try assumption.
        - reflexivity.
        - unfold after. rewrite (proj2 (century_ek _)). reflexivity.
        - apply after_len. exact A8. }
      destruct (IH m (P + Z.of_nat (length (Rdi.encode x))) s2 (after n fixed rest e) Hxs) as (cols & s3 & E3 & C3 & F3 & E4); [|exact W2|].
      * exists (pre ++ Rdi.encode x). split; [rewrite <- app_assoc, <- Sp; exact Ef|rewrite app_length, Nat2Z.inj_add; lia].
      * rewrite E3. cbn [bind]. eexists. exists s3. split; [reflexivity|]. split; [exact (columns_cons n x (firstn m xs) fixed rest e _ _ _ cols Bl I V eq_refl C3)|]. split; [|exact E4].
        right. destruct F3 as [[F3 F4]|(xs0 & x' & fixed' & rest' & F3 & B' & S')].
        -- exists [], x, fixed, rest. rewrite F3. split; [reflexivity|]. split; [exact Bl|]. intros nm v Hs. rewrite F4. exact (St nm v Hs).
        -- exists (x :: xs0), x', fixed', rest'. rewrite F3. split; [reflexivity|]. now split.
Qed.

(** ** The opening of a file *)
Record opened (n : Z) (s : st) : Prop := Opened {
  o_fix : fixoffset s = 0; o_source : source s = 0; o_winriver : winrivprob s = false; o_vmdas : vmdas_search s = false; o_ens : ens s = None;
  o_prog : lookup "sourceprog" (scfg s) = None; o_n : lookup "n_cells" (scfg s) = Some (CZ n) }.
Lemma sound_id fixed b : Rdi.sound_block fixed b -> fst b <> 0 /\ fst b <> 1 /\ fst b <> 16 /\ fst b <> 8192.
Proof. intros (m & E & _). repeat split; intros H; rewrite H in E; discriminate E. Qed.
Lemma double_rest file fixed n base : forall l o s, Forall (Rdi.sound_block fixed) l -> Forall (fun b => 0 <= fst b < 65536 /\ Forall Rdi.is_byte (snd b)) l ->
  at_ file o (concat (map Rdi.block_bytes l)) -> opened n s -> forall fnd,
  exists s', double_loop file base base (Rdi.offsets_from o l) fnd s = Ret (fnd, s') /\ opened n s' /\
    match l with [] => pos s' = pos s | _ => o + 2 <= pos s' <= o + Z.of_nat (length (concat (map Rdi.block_bytes l))) end.
Proof.
  induction l as [|[id x] l IH]; intros o s So By A Op fnd; [exists s; split; [reflexivity|split; [exact Op|reflexivity]]|].
  rewrite body_cons in A |- *. pose proof (at_nonneg _ _ _ A) as P. cbn [Rdi.offsets_from double_loop].
  replace (o + base - base) with o by lia. rewrite (proj2 (Z.leb_le 0 o) P). cbn [check bind].
  rewrite (le16_read _ _ id x) by ((apply (Forall_inv By)) || (eapply at_app_l; exact A)). cbn [bind hd].
  destruct (sound_id _ _ (Forall_inv So)) as (N0 & N1 & N2 & N3). cbn [fst] in *.
  rewrite (proj2 (Z.eqb_neq _ _) N0), (proj2 (Z.eqb_neq _ _) N1), (proj2 (Z.eqb_neq _ _) N2), (proj2 (Z.eqb_neq _ _) N3).
  set (s1 := with_ids _ _).
  destruct (IH (o + Rdi.len (Rdi.block_bytes (id, x))) s1 (Forall_inv_tail So) (Forall_inv_tail By)) with (fnd := fnd) as (s' & E & O & B).
  - apply at_app_r in A. exact A.
  - destruct Op. constructor; assumption.
  - exists s'. split; [exact E|]. split; [exact O|]. unfold Rdi.len in B. rewrite app_length, Nat2Z.inj_add. rewrite block_length in B |- *. cbn [snd] in B |- *.
    destruct l as [|b l]; [|lia]. cbn [map concat length Z.of_nat]. rewrite B. unfold s1. cbn [pos with_ids at_pos]. lia.
Qed.
Lemma init_step file n x post : Rdi.sound n x -> file = Rdi.encode x ++ 127 :: 127 :: post ->
  exists s k, init file false false = Ret (s, k) /\ waiting n 0 s (new_ensemble n) /\
    exists s4, 2 <= pos s4 <= Z.of_nat (length (Rdi.encode x)) - 2 /\
      k = Qfloor (qz (Z.of_nat (length file)) / (qz (fst (spacing_loop file 50 0 0 s4)) / qz (snd (spacing_loop file 50 0 0 s4)) * (995 # 1000) + 2))%Q.
Proof.
  intros So Ef. assert (A : at_ file 0 (Rdi.encode x ++ 127 :: 127 :: post)) by (exists [], []; rewrite app_nil_r; split; [exact Ef|reflexivity]).
  destruct (Rdi.has_fixed _ _ So) as (fixed & rest & Bl & Fs & Cs & V & Sr). fold (fx fixed) in Fs, Cs, Sr.
  unfold init, read_hdr. change (pos (start false false)) with 0. rewrite (search_found file 0 x n post None Logic.I So A).
  rewrite (hdrseg_step file n x (at_pos (0 + 2) (start false false)) So) by (exists 0; split; [eapply at_app_l; exact A|reflexivity]). cbn [bind].
  set (s1 := with_nbyte _ _). unfold check_for_double_buffer, offsets.
  assert (Hl : (2 <= length (Rdi.blocks x))%nat). { rewrite Bl. destruct rest as [|b r]; [destruct V|]. cbn [length]. lia. }
  change (hdr_offsets s1) with (Rdi.offsets_from (Rdi.head_size x) (Rdi.blocks x)). rewrite offsets_length, (proj2 (Nat.leb_le _ _) Hl). cbn [check bind].
  assert (P1 : pos s1 = Rdi.head_size x) by (unfold s1, Rdi.head_size; cbn [pos with_nbyte with_hdr at_pos]; lia). rewrite P1.
  assert (Hh : hd 0 (Rdi.offsets_from (Rdi.head_size x) (Rdi.blocks x)) = Rdi.head_size x) by (rewrite Bl; reflexivity). rewrite Hh.
  pose proof (blocks_at file 0 x n So (at_app_l _ _ _ _ A)) as Ab. unfold Rdi.body in Ab. rewrite Z.add_0_l in Ab. rewrite Bl, body_cons in Ab.
  destruct (Rdi.bytes_ok _ _ So) as (_ & _ & _ & By). rewrite Bl in By.
  rewrite Bl. cbn [Rdi.offsets_from double_loop]. replace (Rdi.head_size x + Rdi.head_size x - Rdi.head_size x) with (Rdi.head_size x) by lia.
  pose proof (at_nonneg _ _ _ Ab) as P0. rewrite (proj2 (Z.leb_le 0 _) P0). cbn [check bind].
  rewrite (le16_read _ _ 0 fixed) by (lia || (eapply at_app_l; exact Ab)). cbn [bind hd Z.eqb].
  set (s2 := with_ids _ _).
  assert (P2 : pos s2 = Rdi.head_size x + 2) by reflexivity.
  assert (Af : at_ file (pos s2) fixed).
  { rewrite P2. apply at_app_l in Ab. unfold Rdi.block_bytes in Ab. apply at_app_r in Ab. exact Ab. }
  destruct (fixed_step file fixed s2 Af Fs) as (s3 & E3 & [XF XP XE XV Xpv Xm Xn Xp Xs]).
  { intros e E. discriminate E. }
  rewrite E3. cbn [bind]. unfold frame in XF.
  assert (O3 : opened n s3).
  { constructor.
    - transitivity (fixoffset s2); [congruence|reflexivity].
    - transitivity (source s2); [congruence|reflexivity].
    - transitivity (winrivprob s2); [congruence|reflexivity].
    - transitivity (vmdas_search s2); [congruence|reflexivity].
    - rewrite XE. reflexivity.
    - rewrite Xp. reflexivity.
    - rewrite Xn, Cs. reflexivity. }
  assert (Ar : at_ file (Rdi.head_size x + Rdi.len (Rdi.block_bytes (0, fixed))) (concat (map Rdi.block_bytes rest))) by (apply at_app_r in Ab; exact Ab).
  destruct (double_rest file (fx fixed) n (Rdi.head_size x) rest _ s3 Sr (Forall_inv_tail By) Ar O3 false) as (s4 & E4 & O4 & B4).
  rewrite E4. cbn [bind]. change (0 + 2 - 2) with 0. destruct (spacing_loop file 50 0 0 s4) as [rpos rounds] eqn:Esp. unfold cfg_z. rewrite (o_n _ _ O4). cbn [bind].
  eexists. eexists. split; [reflexivity|]. split; [|exists s4; split; [|rewrite Esp; reflexivity]].
  2: { destruct rest as [|b2 r2]; [destruct V|]. rewrite (encode_length _ _ So). unfold Rdi.nbytes, Rdi.body, Rdi.len in *. rewrite Bl, body_cons. rewrite app_length, Nat2Z.inj_add. unfold Rdi.head_size in *. lia. }
  destruct O4. constructor; try assumption; try reflexivity.
  - intros nm B. unfold get, new_ensemble, size_of. cbn [vals lookup e_cells]. apply mem_In in B. rewrite B. apply repeat_length.
  - intros g y G Hh' _. exfalso. revert G Hh'. clear. intros G H. cbn [vars_read with_vars] in H. destruct H as [H|[]].
    cbn in G. repeat (destruct G as [<-|G]; [discriminate H|]). destruct G.
Qed.

Lemma read_all n xs last m : 0 < n -> Rdi.sound n last -> Forall (Rdi.sound n) xs -> xs <> [] -> 0 < m ->
  exists cols s, read_rdi (Rdi.file_of (xs ++ [last])) (Some m) false false = Ret (cols, s) /\ (exists vars, columns_from n (firstn (Z.to_nat m) xs) (new_ensemble n) vars cols) /\
    exists xs0 x fixed rest, firstn (Z.to_nat m) xs = xs0 ++ [x] /\ Rdi.blocks x = (0, fixed) :: rest /\ set_ok fixed s /\ exists e, ens s = Some e /\ e_cells e = n.
Proof.
  intros N La H Ne M. destruct xs as [|x xs]; [congruence|]. destruct (file_head xs last n La (Forall_inv_tail H)) as (post & Ep).
  destruct (init_step (Rdi.file_of ((x :: xs) ++ [last])) n x post (Forall_inv H)) as (s & k & E & W & _).
  { rewrite <- Ep. reflexivity. }
  unfold read_rdi. rewrite E. cbn [bind].
  destruct (load_step (Rdi.file_of ((x :: xs) ++ [last])) n last N La (x :: xs) (Z.to_nat m) 0 s (new_ensemble n) H) as (cols & s' & E' & C & F & Ee); [exists []; now split|exact W|].
  rewrite E'. cbn [bind]. exists cols, s'. split; [|split; [exists (vars_read s); exact C|destruct F as [[F _]|(xs0 & x' & fixed & rest & F1 & F2 & F3)]; [destruct (Z.to_nat m) eqn:Em; [lia|discriminate F]|exists xs0, x', fixed, rest; now repeat split]]].
  destruct cols as [|c cols]; [|reflexivity]. destruct (Z.to_nat m) eqn:Em; [lia|]. inversion C.
Qed.
