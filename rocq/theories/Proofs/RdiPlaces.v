(** The blocks of an ensemble are read where its header says. *)
From Coq Require Import String.
From Coq Require Import ZArith QArith List Bool Lia.
From Verif.Model Require Import Nortek RdiBlocks RdiFile.
From Verif.Model Require Ad2cp.
From Verif.Spec Require Rdi RdiGps.
Import ListNotations.
Open Scope string_scope.
Open Scope list_scope.
Open Scope Z_scope.

Fixpoint zwidth (l : list item) : Z :=
  match l with [] => 0 | Rd _ k n :: l' => Z.of_nat (n * Ad2cp.ksize k) + zwidth l' | Skip d :: l' => d + zwidth l' end.
Lemma parse_pos file l : forall p raw q, parse file l p = Ret (raw, q) -> q = p + zwidth l.
Proof.
  induction l as [|[nm k n|d] l IH]; intros p raw q H; cbn [parse zwidth] in *.
  - injection H as <- <-. lia.
  - destruct (read file p k n) as [v|]; [|discriminate]. cbn [bind] in H. destruct (parse file l _) as [[r q']|] eqn:E; [|discriminate]. cbn [bind] in H.
    injection H as <- <-. apply IH in E. lia.
  - unfold seek in H. destruct (p + d <? 0); [discriminate|]. cbn [bind] in H. apply IH in H. lia.
Qed.
Lemma zwidth_app l1 l2 : zwidth (l1 ++ l2) = zwidth l1 + zwidth l2.
Proof. induction l1 as [|[nm k n|d] l1 IH]; cbn [zwidth app]; lia. Qed.

Ltac step H := match type of H with
  | bind ?x _ = Ret _ => let v := fresh "v" in let w := fresh "w" in let E := fresh "E" in destruct x as [v|w] eqn:E; [|discriminate H]; cbn [bind] in H
  end.
Ltac pairs := repeat match goal with v : (_ * _)%type |- _ => destruct v end.
Ltac done_ := cbn [pos nbyte with_nbyte with_ens with_vars with_cfg with_vmdas with_source at_pos with_ids].

Definition placed (s s' : st) : Prop := nbyte s' = pos s' - pos s + 2.

Lemma cfgseg_placed file bb s s' : read_cfgseg file bb s = Ret s' -> nbyte s' = pos s' - pos s.
Proof.
  unfold read_cfgseg. intros H. step H. destruct v as [raw p1]. repeat (step H; pairs). apply parse_pos in E, E3.
  assert (W : zwidth fixed_items = 40) by reflexivity. assert (W2 : forall pv, zwidth (fixed_extra pv) = fixed_extra_nbyte pv).
  { intros pv. unfold fixed_extra, fixed_extra_nbyte. rewrite !zwidth_app. repeat destruct (Qle_bool _ _); reflexivity. }
  rewrite W2 in E3. match type of E3 with _ = _ + fixed_extra_nbyte ?x => set (pv := x) in * end. clearbody pv.
  assert (Hp : (pos s', nbyte s') = (z, 40 + fixed_extra_nbyte pv)).
  { apply (f_equal (fun x => match x with Ret a => (pos a, nbyte a) | Raise _ => (pos s', nbyte s') end)) in H. symmetry.
    destruct bb; exact H. }
  apply pair_equal_spec in Hp. destruct Hp as [-> ->]. lia.
Qed.

Ltac finish H := match type of H with Ret ?X = Ret ?s' => let Es := fresh "Es" in assert (Es : s' = X) by (symmetry; congruence); clear H; rewrite Es; clear Es end.

Lemma fixed_placed file bb s s' : read_fixed file bb s = Ret s' -> placed s s'.
Proof.
  unfold read_fixed, placed. intros H. step H. apply cfgseg_placed in E. destruct (ens (with_nbyte _ _)).
  - step H. destruct (e_cells e <? _); finish H; done_; lia.
  - finish H. done_. lia.
Qed.
Lemma fixed_sl_placed file s s' : read_fixed_sl file s = Ret s' -> placed s s'.
Proof.
  unfold read_fixed_sl, placed. intros H. step H. pairs. apply parse_pos in E. cbn in E. finish H. done_. lia.
Qed.
Lemma var_width model pv : zwidth (var_extra model pv) = var_extra_nbyte model pv.
Proof.
  unfold var_extra, var_extra_nbyte. destruct (String.eqb model "broadband"); [destruct (Qle_bool _ _); reflexivity|].
  destruct (String.eqb model "ocean surveyor"); [destruct (Qle_bool _ _); reflexivity|].
  cbn [zwidth]. rewrite !zwidth_app. repeat destruct (Qle_bool _ _); reflexivity.
Qed.
Lemma var_placed file bb s s' : read_var file bb s = Ret s' -> placed s s'.
Proof.
  unfold read_var, placed. intros H. step H. step H.
  assert (P0 : pos v0 = pos s). { destruct bb; [step E0; finish E0; reflexivity|finish E0; reflexivity]. }
  step H. step H. pairs. repeat (step H; pairs). apply parse_pos in E2, E6. rewrite var_width in E6. cbn in E2. finish H. done_. lia.
Qed.
Lemma profile_placed file nm k c w s s' : read_profile file nm k c w s = Ret s' -> placed s s'.
Proof.
  unfold read_profile, placed. intros H. step H. destruct v as [[e cf] tg]. repeat (step H; pairs). finish H. destruct w; done_; lia.
Qed.
Lemma bottom_placed file s s' : source s <> 2 -> read_bottom file s = Ret s' -> placed s s'.
Proof.
  unfold read_bottom, placed. intros Sr H. step H. cbn [source with_vars] in H. rewrite (proj2 (Z.eqb_neq _ _) Sr) in H. repeat (step H; pairs).
  apply parse_pos in E0, E3. assert (W : forall b, zwidth (bottom_extra v1 b) = bottom_extra_nbyte v1 b).
  { intros b. unfold bottom_extra, bottom_extra_nbyte. rewrite !zwidth_app. destruct (Qle_bool _ _), (_ && _), (Qle_bool _ _); reflexivity. }
  rewrite W in E3. cbn [bottom_items app zwidth] in E0. finish H. done_. cbn in E0. cbn [scfg with_vars] in E3 |- *. lia.
Qed.
Lemma alt_placed file s s' : read_alt file s = Ret s' -> placed s s'.
Proof. unfold read_alt, placed. intros H. repeat (step H; pairs). apply parse_pos in E0. cbn in E0. finish H. done_. lia. Qed.
Lemma vmdas_placed file s s' : read_vmdas file s = Ret s' -> placed s s'.
Proof. unfold read_vmdas, placed. intros H. repeat (step H; pairs). apply parse_pos in E0. cbn in E0. finish H. done_. lia. Qed.
Lemma winriver_placed file s s' : read_winriver file s = Ret s' -> placed s s'.
Proof. unfold read_winriver, placed. intros H. repeat (step H; pairs). finish H. done_. lia. Qed.
Lemma skip_placed n s s' : skip_Nbyte n s = Ret s' -> placed s s'.
Proof.
  unfold skip_Nbyte, placed, seek. intros H. step H. destruct (pos s + n <? 0); [discriminate|]. assert (v = pos s + n) by congruence. finish H. done_. lia.
Qed.
Lemma ncol_placed n s s' : skip_Ncol n s = Ret s' -> placed s s'.
Proof. unfold skip_Ncol. intros H. step H. eapply skip_placed; exact H. Qed.
Lemma nocode_placed id s s' : read_nocode id s = Ret s' -> placed s s'.
Proof.
  unfold read_nocode, skip_nocode. intros H.
  destruct (id =? 48); [discriminate|].
  destruct ((768 <=? id) && (id <? 784)); [destruct (id - 768 <? 10); [eapply skip_placed; exact H|discriminate]|].
  destruct ((12288 <=? id) && (id <? 12544)); [destruct ((id - 12288) / 16 <? 10); [eapply skip_placed; exact H|discriminate]|].
  step H. step H. eapply skip_placed; exact H.
Qed.
Lemma known_placed file id s s' : (id = 1536 -> source s <> 2) -> read_known file id s = Ret s' -> placed s s'.
Proof.
  intros Sr. unfold read_known.
  repeat match goal with |- (if ?c then _ else _) = _ -> _ => let I := fresh "I" in destruct c eqn:I; [intros H; clear - Sr I H|clear I] end;
  [eapply fixed_placed; exact H|eapply fixed_placed; exact H|eapply fixed_sl_placed; exact H|eapply var_placed; exact H|eapply var_placed; exact H|
   eapply profile_placed; exact H ..| | | | |].
  all: try (eapply profile_placed; exact H).
  all: try (eapply alt_placed; exact H).
  all: try (eapply vmdas_placed; exact H).
  all: try (eapply winriver_placed; exact H).
  - apply Z.eqb_eq in I. eapply bottom_placed; [exact (Sr I)|exact H].
  - destruct (zlookup id skip_table); [intros H; eapply skip_placed; exact H|].
    destruct (zlookup id ncol_table); intros H; [eapply ncol_placed; exact H|eapply nocode_placed; exact H].
Qed.
Lemma spid_read file p r q : nparse file [NNum "spid" 2] p = Ret (r, q) -> nraw r "spid" = f_read file p 2.
Proof. cbn [nparse]. intros H. step H. cbn [bind] in H. injection H as <- <-. reflexivity. Qed.
Lemma sentence_known spid : existsb (Z.eqb spid) [4; 5; 6; 7; 104; 105; 106; 107] = true -> sentence spid <> None.
Proof.
  unfold sentence. cbn [existsb]. intros H. destruct ((spid =? 4) || (spid =? 104)) eqn:A; [discriminate|]. destruct ((spid =? 5) || (spid =? 105)) eqn:B; [discriminate|].
  destruct ((spid =? 6) || (spid =? 106)) eqn:C; [discriminate|]. destruct ((spid =? 7) || (spid =? 107)) eqn:D; [discriminate|].
  apply orb_false_iff in A, B, C, D. destruct A as [A1 A2], B as [B1 B2], C as [C1 C2], D as [D1 D2]. rewrite A1, A2, B1, B2, C1, C2, D1, D2 in H. discriminate.
Qed.
Lemma pair_state (b : bool) (X s' : st) : Ret (b, X) = Ret (true, s') -> s' = X.
Proof. congruence. Qed.
Lemma winriver2_placed file s s' : existsb (Z.eqb (Ad2cp.le (f_read file (pos s) 2))) [4; 5; 6; 7; 104; 105; 106; 107] = true ->
  read_winriver2 file s = Ret (true, s') -> placed s s'.
Proof.
  intros K. pose proof (sentence_known _ K) as Sn. unfold read_winriver2, placed. intros H. step H. step H. destruct v0 as [r0 p0]. rewrite (spid_read _ _ _ _ E0) in H.
  destruct (f_read file (pos s) 2) as [|b bs] eqn:F; [exfalso; revert K; cbn; discriminate|]. destruct (sentence (Ad2cp.le (b :: bs))) as [[[least reader] vars]|]; [|congruence].
  step H. destruct v0 as [r1 p1]. step H. destruct (Ad2cp.le (nraw r1 "sz") <=? least).
  - step H. step H. apply pair_state in H. rewrite H. done_. lia.
  - step H. destruct v1 as [r2 p2]. destruct (utf8 0 0 0 _); [|discriminate]. step H. destruct v1 as [e' q]. apply pair_state in H. rewrite H. done_. lia.
Qed.

Lemma u16_le file p v : read file p Ad2cp.U16 1 = Ret v -> hd 0 v = Ad2cp.le (f_read file p 2).
Proof.
  unfold read. change (Z.of_nat (1 * Ad2cp.ksize Ad2cp.U16)) with 2. destruct (f_read file p 2) as [|a l] eqn:F; [discriminate|].
  destruct (Nat.eqb _ _) eqn:L; [|discriminate]. apply Nat.eqb_eq in L. intros H. injection H as <-. cbn in L. destruct l as [|b [|]]; [discriminate| |discriminate]. reflexivity.
Qed.
Lemma dat_placed file p s s' id : read file p Ad2cp.U16 1 = Ret id -> RdiGps.troublesome file p s = false ->
  read_dat file (hd 0 id) (at_pos (p + 2) s) = Ret (true, s') -> nbyte s' = pos s' - p.
Proof.
  intros R T. rewrite (u16_le _ _ _ R). unfold RdiGps.troublesome in T. apply orb_false_iff in T. destruct T as [T1 T2]. set (i := Ad2cp.le (f_read file p 2)) in *.
  unfold read_dat. destruct (i =? 8226).
  - cbn [andb] in T2. apply negb_false_iff in T2. intros H. apply winriver2_placed in H; [|exact T2]. unfold placed in H. cbn [pos at_pos] in H. lia.
  - intros H. step H. apply pair_state in H. subst s'. apply known_placed in E; [unfold placed in E; cbn [pos at_pos] in E; lia|].
    intros I. rewrite I in T1. cbn [Z.eqb Pos.eqb andb source at_pos] in T1 |- *. now apply Z.eqb_neq.
Qed.
Lemma read_blocks_cons file o offs bo s : read_blocks file (o :: offs) bo s =
  do v <- read file (pos s) Ad2cp.U16 1;
  do '(ok, s) <- read_dat file (hd 0 v) (at_pos (pos s + 2) s);
  if negb ok then Ret s
  else match offs with
  | next :: _ => do p <- seek (pos s) (next - (bo + nbyte s)); read_blocks file offs next (at_pos p s)
  | [] => if winrivprob s then Ret s else do p <- seek (pos s) (hdr_nbyte s - 2 - (bo + nbyte s)); Ret (at_pos p s)
  end.
Proof. reflexivity. Qed.
Lemma at_offsets_cons file base o offs s : RdiGps.at_offsets file base (o :: offs) s =
  if base + o <? 0 then Raise "OSError"
  else if RdiGps.troublesome file (base + o) s then Raise "troublesome"
  else
    do id <- read file (base + o) Ad2cp.U16 1;
    do '(decoded, s) <- read_dat file (hd 0 id) (at_pos (base + o + 2) s);
    if negb decoded then Ret s
    else match offs with
    | [] => if winrivprob s then Ret s else if base + hdr_nbyte s - 2 <? 0 then Raise "OSError" else Ret (at_pos (base + hdr_nbyte s - 2) s)
    | _ => RdiGps.at_offsets file base offs s
    end.
Proof. reflexivity. Qed.
Lemma at_places file base : forall offs o s, pos s = base + o -> 0 <= pos s ->
  RdiGps.at_offsets file base (o :: offs) s <> Raise "troublesome" ->
  read_blocks file (o :: offs) o s = RdiGps.at_offsets file base (o :: offs) s.
Proof.
  induction offs as [|o2 offs IH]; intros o s P P0 Tr; rewrite read_blocks_cons; rewrite at_offsets_cons in Tr |- *; rewrite <- P in *;
    rewrite (proj2 (Z.ltb_ge _ _) P0) in *; destruct (RdiGps.troublesome file (pos s) s) eqn:T; try congruence;
    destruct (read file (pos s) Ad2cp.U16 1) as [id|w] eqn:R; try reflexivity; cbn [bind] in *;
    destruct (read_dat file (hd 0 id) (at_pos (pos s + 2) s)) as [[ok s1]|w] eqn:D; try reflexivity; cbn [bind] in *; destruct ok; cbn [negb] in *; try reflexivity.
  - destruct (winrivprob s1); [reflexivity|]. rewrite (dat_placed _ _ _ _ _ R T D). unfold seek. replace (pos s1 + (hdr_nbyte s1 - 2 - (o + (pos s1 - pos s)))) with (base + hdr_nbyte s1 - 2) by lia.
    destruct (_ <? 0); reflexivity.
  - rewrite (dat_placed _ _ _ _ _ R T D). unfold seek. replace (pos s1 + (o2 - (o + (pos s1 - pos s)))) with (base + o2) by lia.
    destruct (base + o2 <? 0) eqn:N; cbn [bind].
    + rewrite at_offsets_cons, N. reflexivity.
    + assert (At : forall p, RdiGps.at_offsets file base (o2 :: offs) (at_pos p s1) = RdiGps.at_offsets file base (o2 :: offs) s1) by (intros p; rewrite !at_offsets_cons; reflexivity).
      apply Z.ltb_ge in N. rewrite (IH o2 (at_pos (base + o2) s1)); [apply At|reflexivity|exact N|]. rewrite At. exact Tr.
Qed.
