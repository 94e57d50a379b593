(** Lemmas about Model.RdiFile: one ensemble. *)
From Coq Require Import String.
From Coq Require Import ZArith QArith List Bool Lia.
From Verif.Model Require Import Nortek RdiBlocks RdiFile.
From Verif.Model Require Ad2cp.
From Verif.Spec Require Rdi.
From Verif.Proofs Require Import RdiBlocks.
Import ListNotations.
Open Scope string_scope.
Open Scope list_scope.
Open Scope Z_scope.

(** what one block writes *)
Definition effect (fixed : bytes) (id : Z) (x : bytes) : list (string * list (option Q)) :=
  let n := Z.to_nat (4 * Rdi.cells fixed) in
  if id =? 128 then eff_var (inst_model_of (Rdi.version fixed)) (Rdi.firmware fixed) x
  else if id =? 256 then [("vel", scaled (1 # 1000) (Ad2cp.values Ad2cp.S16 n x))]
  else if id =? 512 then [("corr", scaled 1 (Ad2cp.values Ad2cp.U8 n x))]
  else if id =? 768 then [("amp", scaled 1 (Ad2cp.values Ad2cp.U8 n x))]
  else if id =? 1024 then [("prcnt_gd", scaled 1 (Ad2cp.values Ad2cp.U8 n x))]
  else if id =? 1280 then [("status", scaled 1 (Ad2cp.values Ad2cp.U8 n x))]
  else if id =? 1536 then eff_bottom (Rdi.firmware fixed) x
  else if id =? 16640 then alt_values (pp alt_items 0 x)
  else [].

Lemma some_inj {A} (a b : A) : Some a = Some b -> a = b.
Proof. congruence. Qed.
Lemma var_width fixed : exists n, Rdi.least_length fixed 128 = Some n /\
  Z.of_nat (42 + width (var_extra (inst_model_of (Rdi.version fixed)) (Rdi.firmware fixed))) <= n.
Proof.
  eexists. split; [reflexivity|]. rewrite Nat2Z.inj_add, (proj1 (var_extra_width _ _)). unfold inst_model_of, var_extra_nbyte.
  set (v := Rdi.version fixed). set (pv := Rdi.firmware fixed). cbn [existsb]. rewrite !orb_false_r.
  destruct (v =? 4) eqn:E4; [cbn [orb]; change (String.eqb "broadband" "broadband") with true; destruct (Qle_bool _ _); lia|].
  destruct (v =? 5) eqn:E5; [cbn [orb]; change (String.eqb "broadband" "broadband") with true; destruct (Qle_bool _ _); lia|].
  cbn [orb]. destruct ((v =? 14) || (v =? 23)).
  - change (String.eqb "ocean surveyor" "broadband") with false. change (String.eqb "ocean surveyor" "ocean surveyor") with true. cbn [orb].
    destruct (Qle_bool pv 23); lia.
  - rewrite ?other_bb, ?other_os. cbn [orb].
    destruct (Qle_bool 56 pv) eqn:A.
    + rewrite (Qle_bool_down (813 # 100) _ _ A), (Qle_bool_down (824 # 100) _ _ A), (Qle_bool_down (1605 # 100) _ _ A) by discriminate. lia.
    + destruct (Qle_bool (1605 # 100) pv) eqn:B.
      * rewrite (Qle_bool_down (813 # 100) _ _ B), (Qle_bool_down (824 # 100) _ _ B) by discriminate. lia.
      * destruct (Qle_bool (824 # 100) pv) eqn:C; [rewrite (Qle_bool_down (813 # 100) _ _ C) by discriminate; lia|destruct (Qle_bool (813 # 100) pv); lia].
Qed.

(** any block that the statements cover *)
Lemma known_step file x id fixed s e : ready (Rdi.cells fixed) (Rdi.firmware fixed) (inst_model_of (Rdi.version fixed)) s e ->
  0 < Rdi.cells fixed -> (id = 128 -> ek e = -1) -> at_ file (pos s) x -> Rdi.sound_block fixed (id, x) ->
  exists s', read_known file id s = Ret s' /\ stepped s e (if id =? 128 then 1 else 0) (effect fixed id x) s'.
Proof.
  intros R N K A (n & Ln & Lx). cbn [fst] in Ln. unfold Rdi.len in Lx. change (length (Rdi.block_bytes (id, x))) with (S (S (length x))) in Lx.
  pose proof (at_nonneg _ _ _ A) as P.
  unfold effect, read_known. destruct (id =? 128) eqn:I1.
  { apply Z.eqb_eq in I1. subst id. destruct (var_width fixed) as (m & Lm & W). rewrite Ln in Lm. injection Lm as <-.
    apply (var_step file x _ _ _ s e R); [now apply K|exact A|lia]. }
  unfold Rdi.least_length in Ln. rewrite I1 in Ln.
  destruct (id =? 256) eqn:I2.
  { apply Z.eqb_eq in I2. subst id. assert (En : n = 2 + 8 * Rdi.cells fixed) by (apply some_inj; rewrite <- Ln; reflexivity). subst n. apply (profile_step file x _ Ad2cp.S16 _ _ _ _ s e R A N); [cbn [Ad2cp.ksize]; lia|cbn; tauto|cbn; tauto]. }
  cbn [existsb] in Ln. rewrite orb_false_r in Ln.
  destruct (id =? 512) eqn:I3.
  { apply Z.eqb_eq in I3. subst id. assert (En : n = 2 + 4 * Rdi.cells fixed) by (apply some_inj; rewrite <- Ln; reflexivity). subst n. apply (profile_step file x _ Ad2cp.U8 _ _ _ _ s e R A N); [cbn [Ad2cp.ksize]; lia|cbn; tauto|cbn; tauto]. }
  destruct (id =? 768) eqn:I4.
  { apply Z.eqb_eq in I4. subst id. assert (En : n = 2 + 4 * Rdi.cells fixed) by (apply some_inj; rewrite <- Ln; reflexivity). subst n. apply (profile_step file x _ Ad2cp.U8 _ _ _ _ s e R A N); [cbn [Ad2cp.ksize]; lia|cbn; tauto|cbn; tauto]. }
  destruct (id =? 1024) eqn:I5.
  { apply Z.eqb_eq in I5. subst id. assert (En : n = 2 + 4 * Rdi.cells fixed) by (apply some_inj; rewrite <- Ln; reflexivity). subst n. apply (profile_step file x _ Ad2cp.U8 _ _ _ _ s e R A N); [cbn [Ad2cp.ksize]; lia|cbn; tauto|cbn; tauto]. }
  destruct (id =? 1280) eqn:I6.
  { apply Z.eqb_eq in I6. subst id. assert (En : n = 2 + 4 * Rdi.cells fixed) by (apply some_inj; rewrite <- Ln; reflexivity). subst n. apply (profile_step file x _ Ad2cp.U8 _ _ _ _ s e R A N); [cbn [Ad2cp.ksize]; lia|cbn; tauto|cbn; tauto]. }
  cbn [orb] in Ln.
  destruct (id =? 1536) eqn:I7.
  { apply Z.eqb_eq in I7. subst id. assert (En : n = if Qle_bool (53 # 10) (Rdi.firmware fixed) then 81 else 70) by (apply some_inj; rewrite <- Ln; reflexivity). subst n. apply (bottom_step file x _ _ _ s e R A). destruct (Qle_bool (53 # 10) (Rdi.firmware fixed)); lia. }
  destruct (id =? 16640) eqn:I8.
  { apply Z.eqb_eq in I8. subst id. assert (En : n = 9) by (apply some_inj; rewrite <- Ln; reflexivity). subst n. apply (alt_step file x _ _ _ s e R A). lia. }
  destruct (existsb (Z.eqb id) Rdi.auxiliary) eqn:Aux; [|discriminate].
  assert (In id Rdi.auxiliary) as Ia. { apply existsb_exists in Aux. destruct Aux as (y & Y & E). apply Z.eqb_eq in E. now subst. }
  clear Aux Ln Lx K I1 I2 I3 I4 I5 I6 I7 I8.
  assert (S1 : forall m, 0 <= m -> exists s', skip_Nbyte m s = Ret s' /\ stepped s e 0 [] s') by (intros m M; apply skip_step; [exact P|exact M|apply R|apply R]).
  assert (S2 : forall m, 0 <= m -> exists s', skip_Ncol m s = Ret s' /\ stepped s e 0 [] s').
  { intros m M. unfold skip_Ncol, cfg_z. rewrite (r_n _ _ _ _ _ R). cbn [bind]. apply S1. apply Z.mul_nonneg_nonneg; lia. }
  unfold Rdi.auxiliary in Ia. cbn [In] in Ia. repeat (destruct Ia as [<-|Ia]; [(apply S1; lia) || (apply S2; lia)|]). destruct Ia.
Qed.
Lemma not_nmea fixed x id : Rdi.sound_block fixed (id, x) -> (id =? 8226) = false.
Proof. intros (n & Ln & _). apply Z.eqb_neq. intros ->. cbn [fst] in Ln. discriminate Ln. Qed.
Lemma block_step file x id fixed s e : ready (Rdi.cells fixed) (Rdi.firmware fixed) (inst_model_of (Rdi.version fixed)) s e ->
  0 < Rdi.cells fixed -> (id = 128 -> ek e = -1) -> at_ file (pos s) x -> Rdi.sound_block fixed (id, x) ->
  exists s', read_dat file id s = Ret (true, s') /\ stepped s e (if id =? 128 then 1 else 0) (effect fixed id x) s'.
Proof.
  intros R N K A So. destruct (known_step file x id fixed s e R N K A So) as (s' & E & T). exists s'. split; [|exact T].
  unfold read_dat. now rewrite (not_nmea fixed x id So), E.
Qed.

(** the fixed leader at the head of an ensemble *)
Record fixed_stepped (s : st) (x : bytes) (s' : st) : Prop := FixedStepped {
  x_frame : frame s' = frame s; x_pos : pos s' = pos s + (nbyte s' - 2); x_ens : ens s' = ens s; x_vars : vars_read s' = vars_read s;
  x_pv : lookup "prog_ver" (scfg s') = Some (CQ (Rdi.firmware (fx x)));
  x_model : lookup "inst_model" (scfg s') = Some (CS (inst_model_of (Rdi.version (fx x))));
  x_n : lookup "n_cells" (scfg s') = Some (CZ (Rdi.cells (fx x)));
  x_prog : lookup "sourceprog" (scfg s') = lookup "sourceprog" (scfg s);
  x_set : forall nm v, In (nm, v) (Rdi.settings (fx x)) -> lookup nm (scfg s') = Some v }.
Lemma fixed_step file x s : at_ file (pos s) x -> Rdi.fixed_sound (fx x) ->
  (forall e, ens s = Some e -> e_cells e = Rdi.cells (fx x)) -> exists s', read_fixed file false s = Ret s' /\ fixed_stepped s x s'.
Proof.
  intros A F C. destruct (cfgseg_step file x s A F) as (new & nb & E & B & _ & L1 & L2 & L3 & L4 & L5). unfold read_fixed. rewrite E. cbn [bind].
  assert (G : fixed_stepped s x (with_nbyte (nb + 2) (with_cfg (new ++ scfg s) (scfg_bb s) (with_nbyte nb (at_pos (pos s + nb) s))))).
  { constructor; cbn [pos nbyte frame hdr_nbyte hdr_offsets fixoffset source winrivprob vmdas_search read_vmdas_done ens_bb id_positions scfg scfg_bb ens vars_read with_nbyte at_pos with_cfg]; try reflexivity; rewrite ?lookup_app, ?L1, ?L2, ?L3, ?L4; try reflexivity; [lia|]. intros nm v Hs. now rewrite lookup_app, (L5 nm v Hs). }
  change (nbyte (with_cfg (new ++ scfg s) (scfg_bb s) (with_nbyte nb (at_pos (pos s + nb) s)))) with nb.
  change (ens (with_nbyte (nb + 2) (with_cfg (new ++ scfg s) (scfg_bb s) (with_nbyte nb (at_pos (pos s + nb) s))))) with (ens s).
  destruct (ens s) as [e|] eqn:Ee.
  - unfold cfg_z. rewrite (x_n _ _ _ G). cbn [bind]. rewrite (C e eq_refl), Z.ltb_irrefl. eauto.
  - eauto.
Qed.

(** ** Effects *)
Definition moved (s : st) (e : ensemble) (dk : Z) (l : list (string * list (option Q))) (s' : st) : Prop :=
  frame s' = frame s /\ scfg s' = scfg s /\ ens s' = Some (Ens (ek e + dk) (e_cells e) (rev l ++ vals e)) /\
  incl (vars_read s) (vars_read s') /\ (forall nm, In nm (map fst l) -> In nm (vars_read s')) /\ closed (vars_read s').
Lemma stepped_moved s e dk l s' : stepped s e dk l s' -> moved s e dk l s'.
Proof. intros [A B _ D E F G]. repeat split; assumption. Qed.
Lemma moved_trans s e dk1 l1 s1 dk2 l2 s2 : moved s e dk1 l1 s1 -> moved s1 (Ens (ek e + dk1) (e_cells e) (rev l1 ++ vals e)) dk2 l2 s2 ->
  moved s e (dk1 + dk2) (l1 ++ l2) s2.
Proof.
  intros (A1 & B1 & D1 & E1 & F1 & G1) (A2 & B2 & D2 & E2 & F2 & G2). split; [congruence|]. split; [congruence|]. split.
  { rewrite D2. cbn [ek e_cells vals]. rewrite rev_app_distr, <- app_assoc, Z.add_assoc. reflexivity. }
  split; [eapply incl_tran; eassumption|]. split; [|exact G2]. intros nm H. rewrite map_app in H. apply in_app_or in H. destruct H; [apply E2; now apply F1|now apply F2].
Qed.
Lemma moved_pos s e dk l s' p : moved s e dk l s' -> moved s e dk l (at_pos p s').
Proof. intros (A & B & C & D & E & F). repeat split; assumption. Qed.

Lemma effect_len fixed id x nm v : In (nm, v) (effect fixed id x) -> In nm beam_vars -> length v = Z.to_nat (4 * Rdi.cells fixed).
Proof.
  intros H B. unfold effect in H.
  assert (K : forall n, mem n beam_vars = false -> nm <> n). { intros n M ->. apply mem_In in B. congruence. }
  repeat match type of H with context[if ?c then _ else _] => destruct c end;
  try (destruct H as [H|[]]; injection H as <- <-; unfold scaled; rewrite map_length; apply values_length).
  - exfalso. unfold eff_var in H. apply in_app_or in H. destruct H as [H|H].
    + cbn in H. repeat (destruct H as [H|H]; [injection H as E _; symmetry in E; revert E; now apply K|]). destruct H.
    + unfold var_values2 in H. repeat (apply in_app_or in H; destruct H as [H|H]);
      match type of H with In _ (match ?o with Some _ => _ | None => _ end) => destruct o end;
      try (destruct H as [H|[]]; injection H as E _; symmetry in E; revert E; now apply K); destruct H.
  - exfalso. unfold eff_bottom in H. apply in_app_or in H. destruct H as [H|H].
    + cbn in H. repeat (destruct H as [H|H]; [injection H as E _; symmetry in E; revert E; now apply K|]). destruct H.
    + destruct (Qle_bool _ _); [|destruct H]. cbn in H. destruct H as [H|[]]; injection H as E _; symmetry in E; revert E; now apply K.
  - exfalso. cbn in H. repeat (destruct H as [H|H]; [injection H as E _; symmetry in E; revert E; now apply K|]). destruct H.
  - destruct H.
Qed.
Lemma lookup_In {A} nm (l : list (string * A)) v : lookup nm l = Some v -> In (nm, v) l.
Proof. induction l as [|[x w] l IH]; [discriminate|]. cbn. destruct (String.eqb x nm) eqn:E; [apply String.eqb_eq in E; subst; intros [= ->]; now left|right; now apply IH]. Qed.
Lemma get_len l k n vs N : (forall nm v, In (nm, v) l -> In nm beam_vars -> length v = Z.to_nat (4 * N)) ->
  (forall nm, In nm beam_vars -> length (get (Ens k n vs) nm) = Z.to_nat (4 * N)) ->
  forall k' nm, In nm beam_vars -> length (get (Ens k' n (rev l ++ vs)) nm) = Z.to_nat (4 * N).
Proof.
  intros H G k' nm B. specialize (G nm B). unfold get in *. cbn [vals e_cells] in *. rewrite lookup_app.
  destruct (lookup nm (rev l)) as [v|] eqn:E; [|exact G]. apply lookup_In, in_rev in E. now apply (H nm).
Qed.
Lemma ready_moved N pv model s e dk l s' : ready N pv model s e -> moved s e dk l s' ->
  (forall nm v, In (nm, v) l -> In nm beam_vars -> length v = Z.to_nat (4 * N)) -> (ek e + dk = -1 \/ ek e + dk = 0) ->
  ready N pv model s' (Ens (ek e + dk) (e_cells e) (rev l ++ vals e)).
Proof.
  intros R (F & C & E & I & V & Cl) H K. constructor; rewrite ?C; try apply R; try assumption.
  - intros nm B. apply (get_len l (ek e) (e_cells e) (vals e) N); [exact H| |exact B].
    intros m M. pose proof (r_len _ _ _ _ _ R m M) as G. now destruct e.
  - assert (X : source s' = source s) by (unfold frame in F; congruence). rewrite X. apply R.
Qed.

(** ** The blocks of an ensemble *)
Definition effects (fixed : bytes) (l : list (Z * bytes)) : list (string * list (option Q)) :=
  concat (map (fun b => effect fixed (fst b) (snd b)) l).
Definition is_var (l : list (Z * bytes)) : Z := if existsb (Z.eqb 128) (map fst l) then 1 else 0.
Lemma le16_read file p id x : at_ file p (Rdi.block_bytes (id, x)) -> 0 <= id < 65536 -> read file p Ad2cp.U16 1 = Ret [id].
Proof.
  intros A B. rewrite (read_at _ _ _ _ _ A); [|lia|cbn; lia]. cbn [Ad2cp.values Rdi.block_bytes Rdi.le16 fst snd app Ad2cp.ksize firstn]. unfold Ad2cp.value. cbn [Ad2cp.ksigned andb Ad2cp.le].
  do 2 f_equal. pose proof (Z.div_mod id 256 ltac:(lia)). lia.
Qed.
Lemma body_cons b l : concat (map Rdi.block_bytes (b :: l)) = Rdi.block_bytes b ++ concat (map Rdi.block_bytes l).
Proof. reflexivity. Qed.
Lemma block_length b : Z.of_nat (length (Rdi.block_bytes b)) = 2 + Z.of_nat (length (snd b)).
Proof. unfold Rdi.block_bytes, Rdi.le16. cbn [app length]. lia. Qed.

Lemma blocks_loop file fixed : 0 < Rdi.cells fixed -> forall l o s e,
  ready (Rdi.cells fixed) (Rdi.firmware fixed) (inst_model_of (Rdi.version fixed)) s e ->
  l <> [] -> NoDup (map fst l) -> (In 128 (map fst l) -> ek e = -1) ->
  Forall (Rdi.sound_block fixed) l -> Forall (fun b => 0 <= fst b < 65536 /\ Forall Rdi.is_byte (snd b)) l ->
  at_ file (pos s) (concat (map Rdi.block_bytes l)) -> winrivprob s = false ->
  hdr_nbyte s = o + Z.of_nat (length (concat (map Rdi.block_bytes l))) + 2 ->
  exists s', read_blocks file (Rdi.offsets_from o l) o s = Ret s' /\ pos s' = pos s + Z.of_nat (length (concat (map Rdi.block_bytes l))) /\
    moved s e (is_var l) (effects fixed l) s'.
Proof.
  intros N. induction l as [|[id x] l IH]; intros o s e R Ne ND K So By A W Hn; [congruence|].
  rewrite body_cons in A, Hn |- *. inversion So as [|? ? So1 So2]; subst. inversion By as [|? ? By1 By2]; subst. inversion ND as [|? ? ND1 ND2]; subst.
  pose proof (at_nonneg _ _ _ A) as P. rewrite app_length, Nat2Z.inj_add, block_length in Hn |- *. cbn [snd] in Hn |- *.
  cbn [Rdi.offsets_from read_blocks]. rewrite (le16_read _ _ id x) by (apply By1 || (eapply at_app_l; exact A)). cbn [bind hd].
  assert (A' : at_ file (pos (at_pos (pos s + 2) s)) x).
  { apply at_app_l in A. unfold Rdi.block_bytes in A. apply at_app_r in A. exact A. }
  assert (R' : ready (Rdi.cells fixed) (Rdi.firmware fixed) (inst_model_of (Rdi.version fixed)) (at_pos (pos s + 2) s) e) by (destruct R; constructor; assumption).
  destruct (block_step file x id fixed (at_pos (pos s + 2) s) e R' N) as (s1 & E1 & T1); [intros ->; apply K; now left|exact A'|exact So1|].
  rewrite E1. cbn [bind negb]. pose proof (t_pos _ _ _ _ _ T1) as Ps. cbn [pos at_pos] in Ps.
  assert (M1 : moved s e (if id =? 128 then 1 else 0) (effect fixed id x) s1) by (apply stepped_moved in T1; exact T1).
  destruct l as [|b2 l].
  - cbn [Rdi.offsets_from]. assert (Fr := t_frame _ _ _ _ _ T1). unfold frame in Fr. cbn [at_pos hdr_nbyte winrivprob] in Fr.
    assert (Wp : winrivprob s1 = false) by congruence. assert (Hp : hdr_nbyte s1 = hdr_nbyte s) by congruence. rewrite Wp, Hp, Hn.
    cbn [map concat length Z.of_nat]. unfold seek. match goal with |- context[?a <? 0] => replace (a <? 0) with false by (symmetry; apply Z.ltb_ge; lia) end. cbn [bind].
    eexists. split; [reflexivity|]. split; [cbn [pos at_pos]; lia|]. apply moved_pos. unfold is_var, effects. cbn [map fst snd concat existsb]. rewrite app_nil_r, orb_false_r, (Z.eqb_sym 128 id). exact M1.
  - set (o' := o + Rdi.len (Rdi.block_bytes (id, x))). assert (Eo : o' = o + (2 + Z.of_nat (length x))) by (unfold o', Rdi.len; rewrite block_length; reflexivity).
    change (Rdi.offsets_from o' (b2 :: l)) with (o' :: Rdi.offsets_from (o' + Rdi.len (Rdi.block_bytes b2)) l). cbn iota.
    unfold seek. match goal with |- context[?a <? 0] => replace (a <? 0) with false by (symmetry; apply Z.ltb_ge; lia) end. cbn [bind].
    change (o' :: Rdi.offsets_from (o' + Rdi.len (Rdi.block_bytes b2)) l) with (Rdi.offsets_from o' (b2 :: l)).
    set (s2 := at_pos (pos s1 + (o' - (o + nbyte s1))) s1).
    assert (P2 : pos s2 = pos s + Z.of_nat (length (Rdi.block_bytes (id, x)))) by (unfold s2; cbn [pos at_pos]; rewrite block_length; cbn [snd]; lia).
    assert (M2 : moved s e (if id =? 128 then 1 else 0) (effect fixed id x) s2) by (apply moved_pos; exact M1).
    assert (Ra : ready (Rdi.cells fixed) (Rdi.firmware fixed) (inst_model_of (Rdi.version fixed)) s2 (Ens (ek e + (if id =? 128 then 1 else 0)) (e_cells e) (rev (effect fixed id x) ++ vals e))).
    { apply (ready_moved _ _ _ s e); [exact R|exact M2|intros nm v; apply effect_len|]. destruct (id =? 128) eqn:I; [|rewrite Z.add_0_r; apply R]. right. apply Z.eqb_eq in I. subst id. rewrite K by now left. reflexivity. }
    destruct (IH o' s2 _ Ra) as (s' & E' & P' & M').
    + discriminate.
    + exact ND2.
    + intros I. cbn [ek]. destruct (id =? 128) eqn:Iv; [apply Z.eqb_eq in Iv; subst id; contradiction|]. rewrite Z.add_0_r. apply K. now right.
    + exact So2.
    + exact By2.
    + rewrite P2. apply at_app_r in A. exact A.
    + destruct M2 as (Fr & _). unfold frame in Fr. congruence.
    + destruct M2 as (Fr & _). unfold frame in Fr. assert (hdr_nbyte s2 = hdr_nbyte s) by congruence. lia.
    + exists s'. split; [exact E'|]. split; [rewrite P', P2, block_length; cbn [snd]; lia|].
      assert (X : is_var ((id, x) :: b2 :: l) = (if id =? 128 then 1 else 0) + is_var (b2 :: l)).
      { unfold is_var. cbn [map fst]. change (existsb (Z.eqb 128) (id :: fst b2 :: map fst l)) with ((128 =? id) || existsb (Z.eqb 128) (fst b2 :: map fst l)).
        rewrite (Z.eqb_sym 128 id). destruct (id =? 128) eqn:Iv; [|cbn [orb]; destruct (existsb _ _); reflexivity]. cbn [orb].
        destruct (existsb (Z.eqb 128) (fst b2 :: map fst l)) eqn:Ex; [|reflexivity]. exfalso. apply existsb_exists in Ex. destruct Ex as (y & Y & Ey). apply Z.eqb_eq in Ey, Iv. subst. now apply ND1. }
      rewrite X. change (effects fixed ((id, x) :: b2 :: l)) with (effect fixed id x ++ effects fixed (b2 :: l)). eapply moved_trans; eassumption.
Qed.

(** ** The header *)
Lemma le16_word w : 0 <= w < 65536 -> Forall Rdi.is_byte (Rdi.le16 w).
Proof.
  intros B. unfold Rdi.le16, Rdi.is_byte. repeat constructor; try apply Z.mod_pos_bound; try lia; [apply Z.div_pos; lia|apply Z.div_lt_upper_bound; lia].
Qed.
Lemma u16_le16 w : Ad2cp.value Ad2cp.U16 (Rdi.le16 w) = w.
Proof. unfold Ad2cp.value, Rdi.le16. cbn [Ad2cp.ksigned andb Ad2cp.le]. pose proof (Z.div_mod w 256 ltac:(lia)). lia. Qed.
Lemma s16_le16 w : w < 32768 -> Ad2cp.value Ad2cp.S16 (Rdi.le16 w) = w.
Proof.
  intros B. unfold Ad2cp.value, Rdi.le16. cbn [Ad2cp.ksigned andb Ad2cp.le Ad2cp.ksize]. change (2 ^ (8 * Z.of_nat 2) / 2) with 32768.
  pose proof (Z.div_mod w 256 ltac:(lia)). replace (w mod 256 + 256 * (w / 256 + 256 * 0)) with w by lia. replace (32768 <=? w) with false by (symmetry; apply Z.leb_gt; lia). reflexivity.
Qed.
Lemma values_le16 l : forall rest, Ad2cp.values Ad2cp.U16 (length l) (concat (map Rdi.le16 l) ++ rest) = l.
Proof.
  induction l as [|w l IH]; intros rest; [reflexivity|]. cbn [length map concat Ad2cp.values]. rewrite <- app_assoc.
  change (firstn (Ad2cp.ksize Ad2cp.U16) (Rdi.le16 w ++ concat (map Rdi.le16 l) ++ rest)) with (Rdi.le16 w).
  change (skipn (Ad2cp.ksize Ad2cp.U16) (Rdi.le16 w ++ concat (map Rdi.le16 l) ++ rest)) with (concat (map Rdi.le16 l) ++ rest).
  rewrite u16_le16, IH. reflexivity.
Qed.
Lemma concat_le16_length l : length (concat (map Rdi.le16 l)) = (2 * length l)%nat.
Proof. induction l as [|w l IH]; [reflexivity|]. cbn [map concat length]. rewrite app_length, IH. cbn. lia. Qed.
Lemma offsets_length o l : length (Rdi.offsets_from o l) = length l.
Proof. revert o. induction l as [|b l IH]; intros o; [reflexivity|]. cbn. now rewrite IH. Qed.

Lemma nbytes_pos e : 0 < Rdi.nbytes e.
Proof. unfold Rdi.nbytes, Rdi.head_size, Rdi.len. lia. Qed.
Lemma encode_length n e : Rdi.sound n e -> Z.of_nat (length (Rdi.encode e)) = Rdi.nbytes e + 2.
Proof.
  intros H. unfold Rdi.encode, Rdi.unchecked, Rdi.nbytes, Rdi.head_size, Rdi.len. rewrite !app_length, concat_le16_length, offsets_length, (Rdi.two_reserved _ _ H), (Rdi.two_checksum _ _ H).
  cbn [length Rdi.le16]. lia.
Qed.
Lemma encode_split e : Rdi.encode e = [127; 127] ++ Rdi.le16 (Rdi.nbytes e) ++ [Rdi.spare e; Rdi.len (Rdi.blocks e)] ++
  concat (map Rdi.le16 (Rdi.offsets_from (Rdi.head_size e) (Rdi.blocks e))) ++ Rdi.body e ++ (Rdi.reserved e ++ Rdi.checksum e).
Proof. unfold Rdi.encode, Rdi.unchecked. rewrite <- !app_assoc. reflexivity. Qed.
Lemma check_valid file P e n rest : Rdi.sound n e -> at_ file P (Rdi.encode e ++ 127 :: 127 :: rest) -> checkheader file (P + 2) = Valid.
Proof.
  intros H A. unfold checkheader.
  assert (A2 : at_ file (P + 2) (Rdi.le16 (Rdi.nbytes e))).
  { apply at_app_l in A. rewrite encode_split in A. apply at_app_r in A. now apply at_app_l in A. }
  rewrite (read_at _ _ _ _ _ A2) by (cbn; lia). cbn [Ad2cp.values hd]. change (firstn (Ad2cp.ksize Ad2cp.S16) (Rdi.le16 (Rdi.nbytes e))) with (Rdi.le16 (Rdi.nbytes e)).
  rewrite s16_le16 by apply H. pose proof (nbytes_pos e) as Pn. rewrite (proj2 (Z.ltb_lt _ _) Pn).
  pose proof (encode_length _ _ H) as L. apply at_app_r in A. rewrite L in A. replace (P + 2 + Rdi.nbytes e) with (P + (Rdi.nbytes e + 2)) by lia.
  rewrite (f_read_at _ _ _ 2 A) by (cbn; lia). reflexivity.
Qed.
Lemma search_found file P e n rest limit : (match limit with Some m => 0 < m | None => True end) -> Rdi.sound n e -> at_ file P (Rdi.encode e ++ 127 :: 127 :: rest) ->
  search limit file P = Ret (Found (P + 2)).
Proof.
  intros Lm H A. unfold search. assert (A0 : at_ file P [127; 127]). { apply at_app_l in A. rewrite encode_split in A. now apply at_app_l in A. }
  rewrite (f_read_at _ _ _ 2 A0) by (cbn; lia). cbn [firstn Z.to_nat Pos.to_nat Pos.iter_op Nat.add].
  assert (B : below limit 0 = true) by (destruct limit; [apply Z.ltb_lt; exact Lm|reflexivity]).
  pose proof (check_valid _ _ _ _ _ H A) as V.
  destruct (skipn (Z.to_nat (P + 2)) file); cbn [search_loop]; rewrite B; cbn [negb Z.eqb Pos.eqb andb]; rewrite V; reflexivity.
Qed.
(** the last ensemble of the file *)
Lemma search_last file P e n limit : (match limit with Some m => 0 < m | None => True end) -> Rdi.sound n e -> 
  (exists pre, file = pre ++ Rdi.encode e /\ P = Z.of_nat (length pre)) -> search limit file P = Ret (Ended (Z.of_nat (length file))).
Proof.
  intros Lm H (pre & E & EP). assert (A : at_ file P (Rdi.encode e)) by (exists pre, []; rewrite app_nil_r; now split).
  unfold search. assert (A0 : at_ file P [127; 127]). { rewrite encode_split in A. now apply at_app_l in A. }
  rewrite (f_read_at _ _ _ 2 A0) by (cbn; lia). cbn [firstn Z.to_nat Pos.to_nat Pos.iter_op Nat.add].
  assert (B : below limit 0 = true) by (destruct limit; [apply Z.ltb_lt; exact Lm|reflexivity]).
  assert (V : checkheader file (P + 2) = AtEnd (Z.of_nat (length file))).
  { unfold checkheader. assert (A2 : at_ file (P + 2) (Rdi.le16 (Rdi.nbytes e))). { rewrite encode_split in A. apply at_app_r in A. now apply at_app_l in A. }
    rewrite (read_at _ _ _ _ _ A2) by (cbn; lia). cbn [Ad2cp.values hd]. change (firstn (Ad2cp.ksize Ad2cp.S16) (Rdi.le16 (Rdi.nbytes e))) with (Rdi.le16 (Rdi.nbytes e)).
    rewrite s16_le16 by apply H. pose proof (nbytes_pos e) as Pn. rewrite (proj2 (Z.ltb_lt _ _) Pn).
    pose proof (encode_length _ _ H) as L. assert (El : P + 2 + Rdi.nbytes e = Z.of_nat (length file)) by (subst file P; rewrite app_length; lia).
    rewrite El. unfold f_read. rewrite Nat2Z.id, skipn_all, firstn_nil. reflexivity. }
  destruct (skipn (Z.to_nat (P + 2)) file); cbn [search_loop]; rewrite B; cbn [negb Z.eqb Pos.eqb andb]; rewrite V; reflexivity.
Qed.

Lemma hdrseg_step file n e s : Rdi.sound n e -> (exists P, at_ file P (Rdi.encode e) /\ pos s = P + 2) ->
  read_hdrseg file s = Ret (with_nbyte (4 + Rdi.len (Rdi.blocks e) * 2)
    (with_hdr (Rdi.nbytes e) (Rdi.offsets_from (Rdi.head_size e) (Rdi.blocks e)) (at_pos (pos s + 4 + 2 * Rdi.len (Rdi.blocks e)) s))).
Proof.
  intros H (P & A & EP). unfold read_hdrseg. rewrite encode_split in A. apply at_app_r in A. cbn [length Z.of_nat] in A. change (Z.pos (Pos.of_succ_nat 1)) with 2 in A. rewrite <- EP in A.
  rewrite (parse_at _ _ _ _ A); [|cbn; lia|rewrite app_length; cbn [length Rdi.le16 width Ad2cp.ksize app]; lia]. cbn [bind].
  match goal with |- context[pp ?l 0 ?x] => set (raw := pp l 0 x) end.
  assert (R1 : raw1 raw "nbyte" = Rdi.nbytes e).
  { unfold raw, raw1, raws. cbn [pp lookup String.eqb Ascii.eqb Bool.eqb Ad2cp.values hd]. change (firstn _ _) with (Rdi.le16 (Rdi.nbytes e)). apply s16_le16, H. }
  assert (R2 : raw1 raw "ndat" = Rdi.len (Rdi.blocks e)).
  { unfold raw, raw1, raws. cbn [pp lookup String.eqb Ascii.eqb Bool.eqb Ad2cp.values hd]. change (firstn _ _) with [Rdi.len (Rdi.blocks e)]. unfold Ad2cp.value. cbn [Ad2cp.ksigned andb Ad2cp.le]. lia. }
  rewrite R1, R2. clear R1 R2 raw.
  assert (Np : 0 < Rdi.len (Rdi.blocks e)). { destruct (Rdi.has_fixed _ _ H) as (f & r & E & _). rewrite E. unfold Rdi.len. cbn [length]. lia. }
  apply at_app_r in A. apply at_app_r in A. cbn [length Z.of_nat Rdi.le16] in A.
  change (Z.of_nat (width [Rd "nbyte" Ad2cp.S16 1; Rd "spare" Ad2cp.U8 1; Rd "ndat" Ad2cp.U8 1])) with 4.
  change (Z.pos (Pos.of_succ_nat 1)) with 2 in A. replace (pos s + 2 + 2) with (pos s + 4) in A by lia.
  set (offs := Rdi.offsets_from (Rdi.head_size e) (Rdi.blocks e)) in *.
  assert (Lo : length (concat (map Rdi.le16 offs)) = Z.to_nat (2 * Rdi.len (Rdi.blocks e))).
  { rewrite concat_le16_length. unfold offs. rewrite offsets_length. unfold Rdi.len. lia. }
  assert (Fr : f_read file (pos s + 4) (2 * Rdi.len (Rdi.blocks e)) = concat (map Rdi.le16 offs)).
  { apply at_app_l in A. rewrite (f_read_at _ _ _ _ A); [apply firstn_all2; lia|]. lia. }
  rewrite Fr.
  destruct (concat (map Rdi.le16 offs)) as [|b0 bs] eqn:Eb; [cbn [length] in Lo; lia|]. rewrite <- Eb in *. rewrite Lo, Z2Nat.id by lia. rewrite Z.eqb_refl. cbn [bind].
  assert (Ev : Ad2cp.values Ad2cp.U16 (Z.to_nat (Rdi.len (Rdi.blocks e))) (concat (map Rdi.le16 offs)) = offs).
  { replace (Z.to_nat (Rdi.len (Rdi.blocks e))) with (length offs) by (unfold offs; rewrite offsets_length; unfold Rdi.len; lia). rewrite <- (app_nil_r (concat _)). apply values_le16. }
  rewrite Ev. reflexivity.
Qed.
