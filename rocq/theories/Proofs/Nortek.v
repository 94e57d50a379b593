(** Lemmas on the low-level parts of Nortek files. *)
From Coq Require Import String.
From Coq Require Import ZArith List Bool Lia.
From Verif.Model Require Import Nortek NortekFile.
From Verif.Spec Require Import Nortek.
Import ListNotations.
Open Scope Z_scope.

Lemma bcd_digits a b : 0 <= a <= 9 -> 0 <= b <= 9 -> bcd2char (16 * a + b) = 10 * a + b.
Proof.
  intros Ha Hb. unfold bcd2char. rewrite Z.min_l by lia.
  rewrite (Z.land_ones _ 4) by lia. rewrite Z.shiftr_div_pow2 by lia. change (2 ^ 4) with 16.
  replace (16 * a + b) with (b + a * 16) by ring. rewrite Z.mod_add, Z.div_add by lia.
  rewrite Z.mod_small, Z.div_small by lia. ring.
Qed.
Lemma bcd_range x : 0 <= x -> 0 <= bcd2char x <= 99.
Proof.
  intros H. unfold bcd2char. set (m := Z.min x 153). assert (0 <= m <= 153) by lia.
  rewrite (Z.land_ones _ 4) by lia. rewrite Z.shiftr_div_pow2 by lia. change (2 ^ 4) with 16.
  pose proof (Z.div_mod m 16 ltac:(lia)). pose proof (Z.mod_pos_bound m 16 ltac:(lia)).
  assert (0 <= m / 16) by (apply Z.div_pos; lia). lia.
Qed.

Lemma bit_spec val n k : (k < n)%nat -> nth k (int2binarray val n) false = Z.testbit val (Z.of_nat k).
Proof.
  intros H. unfold int2binarray.
  set (f := fun k => negb (Z.land val (2 ^ Z.of_nat k) =? 0)).
  rewrite (nth_indep _ false (f O)) by (rewrite map_length, seq_length; exact H).
  rewrite map_nth, seq_nth by exact H. unfold f. simpl (0 + k)%nat.
  destruct (Z.testbit val (Z.of_nat k)) eqn:E.
  - destruct (Z.eqb_spec (Z.land val (2 ^ Z.of_nat k)) 0) as [A|A]; [|reflexivity].
    apply (f_equal (fun z => Z.testbit z (Z.of_nat k))) in A. rewrite Z.land_spec, Z.pow2_bits_true, E, Z.bits_0 in A by lia. discriminate.
  - destruct (Z.eqb_spec (Z.land val (2 ^ Z.of_nat k)) 0) as [A|A]; [reflexivity|]. exfalso. apply A.
    apply Z.bits_inj'. intros n0 Hn. rewrite Z.land_spec, Z.bits_0.
    destruct (Z.eq_dec n0 (Z.of_nat k)) as [->|D]; [rewrite E; reflexivity|].
    rewrite Z.pow2_bits_false by (intros X; apply D; symmetry; exact X). apply andb_false_r.
Qed.

Lemma timctrl reg : read_timctrl reg =
  UsrCfg (if Z.testbit reg 1 then "continuous" else "single")%string true
         (Z.b2z (Z.testbit reg 5) + 2 * Z.b2z (Z.testbit reg 6) + 1)
         (if Z.testbit reg 7 then "end" else "middle")%string (Z.testbit reg 8) (Z.testbit reg 9).
Proof.
  unfold read_timctrl. rewrite !bit_spec by lia.
  change (Z.of_nat 1) with 1. change (Z.of_nat 2) with 2. change (Z.of_nat 5) with 5. change (Z.of_nat 6) with 6.
  change (Z.of_nat 7) with 7. change (Z.of_nat 8) with 8. change (Z.of_nat 9) with 9.
  destruct (Z.testbit reg 1), (Z.testbit reg 2), (Z.testbit reg 7), (Z.testbit reg 8), (Z.testbit reg 9); reflexivity.
Qed.

(** ** the checksum *)
Lemma checksum_spec e thisid byts stored : Nat.even (length byts) = true ->
  checksum_passes e true thisid byts stored = false <-> stored = 46476 + total (words e (thisid ++ byts)).
Proof.
  intros E. unfold checksum_passes. rewrite E. rewrite negb_false_iff, Z.eqb_eq. lia.
Qed.

(** ** findnext *)
Lemma first_word e b0 b1 : is_byte b0 -> is_byte b1 -> first_byte e (word e b0 b1) = b0.
Proof.
  unfold is_byte. intros H0 H1. destruct e; cbn [first_byte second_byte word].
  - replace (b0 + 256 * b1) with (b0 + b1 * 256) by ring. rewrite Z.mod_add by lia. apply Z.mod_small. lia.
  - rewrite Z.shiftr_div_pow2 by lia. change (2 ^ 8) with 256. replace (256 * b0 + b1) with (b1 + b0 * 256) by ring.
    rewrite Z.div_add by lia. rewrite Z.div_small by lia. lia.
Qed.
Lemma second_word e b0 b1 : is_byte b0 -> is_byte b1 -> second_byte e (word e b0 b1) = b1.
Proof.
  unfold is_byte. intros H0 H1. destruct e; cbn [first_byte second_byte word].
  - rewrite Z.shiftr_div_pow2 by lia. change (2 ^ 8) with 256. replace (b0 + 256 * b1) with (b0 + b1 * 256) by ring.
    rewrite Z.div_add by lia. rewrite Z.div_small by lia. lia.
  - replace (256 * b0 + b1) with (b1 + b0 * 256) by ring. rewrite Z.mod_add by lia. apply Z.mod_small. lia.
Qed.

Definition ok (ws : list Z) : Prop := exists w c, ws = w ++ [c] /\ c = (46476 + total w) mod 65536.
Lemma total_app a b : total (a ++ b) = total a + total b.
Proof. induction a as [|x a IH]; simpl; [reflexivity|rewrite IH; ring]. Qed.
(** [sum] and [cs] after the words [ws] *)
Definition follows (ws : list Z) (sum cs : Z) : Prop :=
  (ws = [] /\ sum = 46476 /\ cs = 0) \/ exists w, ws = w ++ [cs] /\ sum = 46476 + total w.
Lemma follows_ok ws sum cs : follows ws sum cs -> (cs =? sum mod 65536) = true <-> ok ws.
Proof.
  intros [(-> & -> & ->)|(w & -> & ->)].
  - split; [discriminate|]. intros (w & c0 & H & _). destruct w; discriminate.
  - rewrite Z.eqb_eq. split.
    + intros H. exists w, cs. split; [reflexivity|exact H].
    + intros (w' & c' & E & H). apply app_inj_tail in E. destruct E as [-> ->]. exact H.
Qed.
Lemma follows_next ws sum cs v : follows ws sum cs -> follows (ws ++ [v]) (sum + cs) v.
Proof.
  intros [(-> & -> & ->)|(w & -> & ->)]; right.
  - exists []. split; [reflexivity|]. reflexivity.
  - exists (w ++ [cs]). split; [reflexivity|]. rewrite total_app. cbn [total fold_right]. ring.
Qed.
Definition cand (e : endian) (do_cs : bool) (ws : list Z) (rest : bytes) (k : nat) (id : Z) : Prop :=
  nth_error rest (2 * k) = Some 165 /\ nth_error rest (S (2 * k)) = Some id /\
  (do_cs = true -> ok (ws ++ words e (firstn (2 * k) rest))).
Lemma words_app e a : forall b, Nat.Even (length a) -> words e (a ++ b) = words e a ++ words e b.
Proof.
  assert (H : forall n a b, (length a <= n)%nat -> Nat.Even (length a) -> words e (a ++ b) = words e a ++ words e b).
  { clear a. induction n as [|n IH]; intros a b L E.
    - destruct a; [reflexivity|simpl in L; lia].
    - destruct a as [|x [|y a]]; [reflexivity|destruct E as [k E]; simpl in E; lia|]. simpl. f_equal. apply IH; [simpl in L; lia|].
      destruct E as [k E]. exists (Nat.pred k). simpl in E. lia. }
  intros b. apply (H (length a)). lia.
Qed.
Lemma cand_next e do_cs ws b0 b1 rest k id :
  cand e do_cs ws (b0 :: b1 :: rest) (S k) id <-> cand e do_cs (ws ++ [word e b0 b1]) rest k id.
Proof.
  unfold cand. replace (2 * S k)%nat with (S (S (2 * k))) by lia. cbn [nth_error firstn words]. rewrite <- app_assoc. reflexivity.
Qed.
Lemma loop_spec e do_cs n : forall rest ws sum cs p, (length rest <= n)%nat -> Forall is_byte rest -> follows ws sum cs ->
  match findnext_loop e do_cs sum cs p rest with
  | Some (q, id) => exists k, q = (p + 2 * k)%nat /\ cand e do_cs ws rest k id /\ (forall j id', (j < k)%nat -> ~ cand e do_cs ws rest j id')
  | None => forall k id, ~ cand e do_cs ws rest k id
  end.
Proof.
  induction n as [|n IH]; intros rest ws sum cs p L B F.
  - destruct rest; [|simpl in L; lia]. simpl. intros k id (H & _). destruct (2 * k)%nat; discriminate.
  - destruct rest as [|b0 [|b1 rest]].
    + simpl. intros k id (H & _). destruct (2 * k)%nat; discriminate.
    + simpl. intros k id (_ & H & _). assert (X : nth_error [b0] (S (2 * k)) <> None) by congruence. apply nth_error_Some in X. simpl in X. lia.
    + inversion B as [|? ? B0 B']; subst. inversion B' as [|? ? B1 B2]; subst.
      cbn [findnext_loop]. rewrite first_word, second_word by assumption.
      assert (C0 : forall id, cand e do_cs ws (b0 :: b1 :: rest) 0 id <-> b0 = 165 /\ b1 = id /\ (do_cs = true -> ok ws)).
      { intros id. unfold cand. cbn. rewrite app_nil_r. split; intros (A1 & A2 & A3); repeat split; try congruence; exact A3. }
      destruct ((b0 =? 165) && (negb do_cs || (cs =? sum mod 65536))) eqn:E.
      * apply andb_true_iff in E. destruct E as [E1 E2]. apply Z.eqb_eq in E1. exists 0%nat. split; [lia|]. split.
        -- apply C0. repeat split; [exact E1|]. intros D. rewrite D in E2. simpl in E2. apply (follows_ok _ _ _ F). exact E2.
        -- intros j id' H. lia.
      * assert (N0 : forall id, ~ cand e do_cs ws (b0 :: b1 :: rest) 0 id).
        { intros id H. apply C0 in H. destruct H as (A1 & _ & A3). rewrite A1, Z.eqb_refl in E. simpl in E.
          apply orb_false_iff in E. destruct E as [E1 E2]. destruct do_cs; [|discriminate].
          apply (follows_ok _ _ _ F) in A3; [congruence|reflexivity]. }
        specialize (IH rest (ws ++ [word e b0 b1]) (sum + cs) (word e b0 b1) (S (S p)) ltac:(simpl in L; lia) B2 (follows_next _ _ _ _ F)).
        destruct (findnext_loop e do_cs (sum + cs) (word e b0 b1) (S (S p)) rest) as [[q id]|].
        -- destruct IH as (k & Eq & Ck & Min). exists (S k). split; [lia|]. split; [apply cand_next; exact Ck|].
           intros [|j] id' Hj; [apply N0|]. intros H. apply cand_next in H. apply (Min j id'); [lia|exact H].
        -- intros [|k] id'; [apply N0|]. intros H. apply cand_next in H. exact (IH k id' H).
Qed.

Lemma nth_error_skip {A} p k (l : list A) : nth_error (skipn p l) k = nth_error l (p + k).
Proof. revert l. induction p as [|p IH]; intros [|x l]; simpl; [reflexivity|reflexivity|destruct k; reflexivity|apply IH]. Qed.
Lemma cand_start e do_cs file p k id :
  cand e do_cs [] (skipn p file) k id <-> block_start e do_cs file p (p + 2 * k) id.
Proof.
  unfold cand, block_start, words_between. rewrite !nth_error_skip. replace (p + 2 * k - p)%nat with (2 * k)%nat by lia.
  replace (S (p + 2 * k)) with (p + S (2 * k))%nat by lia. cbn [app].
  split; [intros (A & B & C); repeat split; try assumption; exists k; reflexivity|intros (_ & A & B & C); repeat split; assumption].
Qed.
Lemma skipn_Forall {A} (P : A -> Prop) p l : Forall P l -> Forall P (skipn p l).
Proof. revert l. induction p as [|p IH]; intros l H; [exact H|]. destruct H; [constructor|apply IH; assumption]. Qed.
Lemma findnext_spec e do_cs file p : Forall is_byte file ->
  match findnext e do_cs file p with
  | Some (q, id) => block_start e do_cs file p q id /\ (forall q' id', (q' < q)%nat -> ~ block_start e do_cs file p q' id')
  | None => forall q id, ~ block_start e do_cs file p q id
  end.
Proof.
  intros B. unfold findnext.
  pose proof (loop_spec e do_cs (length (skipn p file)) (skipn p file) [] 46476 0 p (le_n _) (skipn_Forall _ p file B)
    ltac:(left; repeat split)) as H.
  destruct (findnext_loop e do_cs 46476 0 p (skipn p file)) as [[q id]|].
  - destruct H as (k & -> & C & M). split; [apply cand_start; exact C|].
    intros q' id' L S. pose proof S as ((j & ->) & _). apply cand_start in S. apply (M j id'); [lia|exact S].
  - intros q id S. pose proof S as ((j & ->) & _). apply cand_start in S. exact (H j id S).
Qed.

(** an unknown block with its checksum is passed over *)
Lemma unknown_block e header id body c0 c1 id' rest : Forall is_byte (header ++ 165 :: id :: body ++ [c0; c1] ++ 165 :: id' :: rest) ->
  Nat.Even (length body) -> intact e [165; id] body (word e c0 c1) ->
  (forall q id'', (q < length header + length body + 4)%nat ->
     ~ block_start e true (header ++ 165 :: id :: body ++ [c0; c1] ++ 165 :: id' :: rest) (length header) q id'') ->
  findnext e true (header ++ 165 :: id :: body ++ [c0; c1] ++ 165 :: id' :: rest) (length header) = Some ((length header + length body + 4)%nat, id').
Proof.
  intros B E I N. set (file := header ++ 165 :: id :: body ++ [c0; c1] ++ 165 :: id' :: rest) in *.
  assert (Sk : skipn (length header) file = (165 :: id :: body ++ [c0; c1]) ++ 165 :: id' :: rest).
  { unfold file. rewrite skipn_app, skipn_all, Nat.sub_diag. cbn [app skipn]. rewrite <- app_assoc. reflexivity. }
  assert (Ln : length (165 :: id :: body ++ [c0; c1]) = (length body + 4)%nat) by (cbn [length]; rewrite app_length; cbn [length]; lia).
  assert (St : block_start e true file (length header) (length header + length body + 4) id').
  { assert (Nth : forall k, nth_error file (length header + length body + 4 + k) = nth_error (165 :: id' :: rest) k).
    { intros k. rewrite <- Nat.add_assoc, <- Nat.add_assoc. rewrite <- nth_error_skip, Sk.
      rewrite nth_error_app2 by lia. f_equal. lia. }
    split; [|split; [|split]].
    - destruct E as [h Eh]. exists (S (S h)). lia.
    - rewrite <- (Nat.add_0_r (_ + 4)), Nth. reflexivity.
    - replace (S (length header + length body + 4)) with (length header + length body + 4 + 1)%nat by lia. rewrite Nth. reflexivity.
    - intros _. exists (words e (165 :: id :: body)), (word e c0 c1). split.
      + unfold words_between. replace (length header + length body + 4 - length header)%nat with (length (165 :: id :: body ++ [c0; c1])) by lia.
        rewrite Sk, firstn_app, firstn_all, Nat.sub_diag, firstn_O, app_nil_r.
        change (165 :: id :: body ++ [c0; c1]) with ((165 :: id :: body) ++ [c0; c1]). rewrite words_app; [reflexivity|].
        destruct E as [h Eh]. exists (S h). cbn [length]. lia.
      + exact I. }
  pose proof (findnext_spec e true file (length header) B) as F. destruct (findnext e true file (length header)) as [[q i]|].
  - destruct F as [F1 F2]. assert (q = length header + length body + 4)%nat as ->.
    { destruct (Nat.lt_trichotomy q (length header + length body + 4)) as [L|[L|L]]; [exfalso; exact (N q i L F1)|exact L|exfalso; exact (F2 _ _ L St)]. }
    destruct F1 as (_ & _ & F1 & _), St as (_ & _ & St & _). rewrite F1 in St. injection St as ->. reflexivity.
  - exfalso. exact (F _ _ St).
Qed.
Lemma detect_le file : Forall is_byte file -> detect_endian file = Some LE <-> exists rest, file = 165 :: 5 :: 24 :: 0 :: rest.
Proof.
  intros B. split.
  - destruct file as [|b0 [|b1 [|b2 [|b3 rest]]]]; try discriminate. unfold detect_endian. cbn [firstn unpack_HH].
    do 4 (let H := fresh in inversion B as [|? ? H B']; subst; clear B; rename B' into B). clear B. unfold is_byte in *.
    unfold is_hw_header at 1. cbn [fst snd word]. destruct ((b0 + 256 * b1 =? 1445) && (b2 + 256 * b3 =? 24)) eqn:E.
    + intros _. apply andb_true_iff in E. destruct E as [E1 E2]. apply Z.eqb_eq in E1, E2.
      assert (b1 = 5) by lia. assert (b0 = 165) by lia. assert (b3 = 0) by lia. assert (b2 = 24) by lia. subst. exists rest. reflexivity.
    + destruct (unpack_HH BE _) as [q|]; [|discriminate]. destruct (is_hw_header q); discriminate.
  - intros [rest ->]. reflexivity.
Qed.
(** the big-endian header is looked for in the second four bytes *)
Lemma detect_be file : Forall is_byte file -> detect_endian file = Some BE <->
  (4 <= length file)%nat /\ (forall rest, file <> 165 :: 5 :: 24 :: 0 :: rest) /\ exists a b c d rest, file = a :: b :: c :: d :: 5 :: 165 :: 0 :: 24 :: rest.
Proof.
  intros B. pose proof (detect_le file B) as L. split.
  - intros H. assert (NL : forall rest, file <> 165 :: 5 :: 24 :: 0 :: rest).
    { intros rest E. assert (detect_endian file = Some LE) by (apply L; exists rest; exact E). congruence. }
    unfold detect_endian in H. destruct file as [|b0 [|b1 [|b2 [|b3 rest]]]]; try discriminate. cbn [firstn unpack_HH skipn] in H.
    destruct (is_hw_header (word LE b0 b1, word LE b2 b3)); [discriminate|].
    destruct rest as [|b4 [|b5 [|b6 [|b7 rest]]]]; try discriminate. cbn [firstn unpack_HH] in H.
    destruct (is_hw_header (word BE b4 b5, word BE b6 b7)) eqn:E; [|discriminate].
    split; [cbn; lia|]. split; [exact NL|]. exists b0, b1, b2, b3, rest.
    do 8 (let H := fresh in inversion B as [|? ? H B']; subst; clear B; rename B' into B). clear B L NL H. unfold is_byte in *.
    unfold is_hw_header in E. cbn [fst snd word] in E. apply andb_true_iff in E. destruct E as [E1 E2]. apply Z.eqb_eq in E1, E2.
    assert (b4 = 5) by lia. assert (b5 = 165) by lia. assert (b6 = 0) by lia. assert (b7 = 24) by lia. subst. reflexivity.
  - intros (_ & NL & a & b & c & d & rest & ->). unfold detect_endian. cbn [firstn unpack_HH skipn].
    destruct (is_hw_header (word LE a b, word LE c d)) eqn:E; [|reflexivity]. exfalso.
    assert (X : detect_endian (a :: b :: c :: d :: 5 :: 165 :: 0 :: 24 :: rest) = Some LE) by (unfold detect_endian; cbn [firstn unpack_HH]; rewrite E; reflexivity).
    apply L in X. destruct X as [r X]. apply (NL r). exact X.
Qed.
