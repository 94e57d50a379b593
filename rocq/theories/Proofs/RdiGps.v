(** The sentences of WinRiver2. *)
From Coq Require Import String.
From Coq Require Import ZArith QArith Qabs Qpower List Bool Lia Lqa.
From Verif.Model Require Import Nortek RdiBlocks RdiFile.
From Verif.Model Require Ad2cp BinSpec.
From Verif.Spec Require Rdi RdiGps SigData.
From Verif.Proofs Require Import RdiBlocks.
From Verif.Proofs Require Binary64 FloatTime Calendar.
Import ListNotations.
Open Scope string_scope.
Open Scope list_scope.
Open Scope Z_scope.

(** ** Floats *)
Lemma float_bits_ieee eb mb b q : 0 < eb -> 0 <= mb -> RdiGps.ieee eb mb b q -> exists x, float_bits eb mb b = Some x /\ (x == q)%Q.
Proof.
  intros He Hm (sg & e & m & [E0 E1] & [M0 M1] & -> & Q).
  pose proof (Z.pow_pos_nonneg 2 mb ltac:(lia) ltac:(lia)) as Pm. pose proof (Z.pow_pos_nonneg 2 eb ltac:(lia) ltac:(lia)) as Pe.
  assert (Pa : 2 ^ (mb + eb) = 2 ^ mb * 2 ^ eb) by (apply Z.pow_add_r; lia).
  assert (D : ((if sg then 2 ^ (mb + eb) else 0) + e * 2 ^ mb + m) / 2 ^ mb = (if sg then 2 ^ eb else 0) + e).
  { rewrite Pa. symmetry. apply (Z.div_unique _ _ _ m); [left; lia|]. destruct sg; ring. }
  assert (Mo : ((if sg then 2 ^ (mb + eb) else 0) + e * 2 ^ mb + m) mod 2 ^ mb = m).
  { rewrite Pa. symmetry. apply (Z.mod_unique _ _ ((if sg then 2 ^ eb else 0) + e)); [left; lia|]. destruct sg; ring. }
  assert (D2 : ((if sg then 2 ^ (mb + eb) else 0) + e * 2 ^ mb + m) / 2 ^ (mb + eb) = (if sg then 1 else 0)).
  { rewrite Pa. symmetry. apply (Z.div_unique _ _ _ (e * 2 ^ mb + m)); [left; nia|]. destruct sg; ring. }
  assert (Me : ((if sg then 2 ^ eb else 0) + e) mod 2 ^ eb = e).
  { symmetry. apply (Z.mod_unique _ _ (if sg then 1 else 0)); [left; lia|]. destruct sg; ring. }
  unfold float_bits. rewrite D, Mo, D2, Me. rewrite (proj2 (Z.eqb_neq e (2 ^ eb - 1))) by lia.
  assert (S : ((if sg then 1 else 0) mod 2 =? 1) = sg) by (destruct sg; reflexivity). rewrite S.
  eexists. split; [reflexivity|]. rewrite Q. destruct (e =? 0) eqn:Z0.
  - apply Z.eqb_eq in Z0. subst e. rewrite Z.add_0_r. change (Z.max 0 1) with 1. unfold qz. destruct sg; ring.
  - apply Z.eqb_neq in Z0. replace (Z.max e 1 - (2 ^ (eb - 1) - 1) - mb) with (1 - (2 ^ (eb - 1) - 1) - mb + e - 1) by lia.
    rewrite (Z.add_comm m). unfold qz. destruct sg; ring.
Qed.

Open Scope Q_scope.
Lemma half_even_24 s : (let q := (Qnum s / QDen s)%Z in match (2 * (Qnum s mod QDen s) ?= QDen s)%Z with Lt => q | Gt => (q + 1)%Z | Eq => if Z.even q then q else (q + 1)%Z end) = BinSpec.half_even (Qnum s) (QDen s).
Proof. reflexivity. Qed.
Lemma scaled24 x : 0 < x -> let e := (Z.log2 (Qnum x) - Z.log2 (QDen x) - 23)%Z in inject_Z (2 ^ 22) <= x * 2 ^ (- e) < inject_Z (2 ^ 24).
Proof.
  intros P e. pose proof (Binary64.scaled x P) as S. cbv zeta in S. set (e52 := (Z.log2 (Qnum x) - Z.log2 (QDen x) - 52)%Z) in *.
  replace (- e52)%Z with (- e + 29)%Z in S by (unfold e, e52; lia). rewrite Binary64.pow2_plus in S. rewrite (Binary64.pow2_Z 29) in S by lia.
  set (y := x * 2 ^ (- e)). assert (Y : x * (2 ^ (- e) * inject_Z (2 ^ 29)) == y * inject_Z (2 ^ 29)) by (unfold y; ring). rewrite Y in S.
  assert (C : 0 < inject_Z (2 ^ 29)) by reflexivity. setoid_replace (inject_Z (2 ^ 51)) with (inject_Z (2 ^ 22) * inject_Z (2 ^ 29)) in S by reflexivity.
  setoid_replace (inject_Z (2 ^ 53)) with (inject_Z (2 ^ 24) * inject_Z (2 ^ 29)) in S by reflexivity.
  destruct S as [S1 S2]. split; [apply Qmult_le_r in S1; easy|]. apply Qmult_lt_r in S2; easy.
Qed.
Lemma nearest24_form x : 0 < x -> exists e s m, s == x * 2 ^ (- e) /\ inject_Z (2 ^ 23) <= s < inject_Z (2 ^ 24) /\
  m = BinSpec.half_even (Qnum s) (QDen s) /\ nearest24 x == inject_Z m * 2 ^ e.
Proof.
  intros P. pose proof (scaled24 x P) as S. cbv zeta in S. unfold nearest24. set (e := (Z.log2 (Qnum x) - Z.log2 (QDen x) - 23)%Z) in *.
  destruct (Qle_bool (qz (2 ^ 23)) (x * 2 ^ (- e))) eqn:L.
  - apply Qle_bool_iff in L. exists e, (x * 2 ^ (- e)). eexists. split; [reflexivity|]. split; [split; [exact L|apply S]|]. split; [reflexivity|]. reflexivity.
  - assert (L' : x * 2 ^ (- e) < inject_Z (2 ^ 23)). { apply Qnot_le_lt. intros H. apply Qle_bool_iff in H. unfold qz in L. congruence. }
    exists (e - 1)%Z, (x * 2 ^ (- (e - 1))). eexists. split; [reflexivity|].
    assert (T : x * 2 ^ (- (e - 1)) == x * 2 ^ (- e) * 2). { replace (- (e - 1))%Z with (- e + 1)%Z by lia. rewrite Binary64.pow2_plus. change (2 ^ 1) with 2. ring. }
    split; [rewrite T; setoid_replace (inject_Z (2 ^ 23)) with (inject_Z (2 ^ 22) * 2) by reflexivity; setoid_replace (inject_Z (2 ^ 24)) with (inject_Z (2 ^ 23) * 2) by reflexivity; lra|].
    split; [reflexivity|]. reflexivity.
Qed.
Lemma nearest24_rel x : 0 < x -> Qabs (nearest24 x - x) <= x * (1 # 16777216).
Proof.
  intros P. destruct (nearest24_form x P) as (e & s & m & Es & [S1 S2] & Em & ->). pose proof (FloatTime.unscale _ _ _ Es) as X. pose proof (Binary64.pow2_pos e) as Pe.
  pose proof (Binary64.half_even_Q s) as [H1 H2]. cbv zeta in *. rewrite <- Em in *. set (E := 2 ^ e) in *. set (M := inject_Z m) in *.
  assert (C : inject_Z (2 ^ 23) == 8388608) by reflexivity. rewrite C in S1. apply Qabs_Qle_condition. rewrite X.
  assert (A : M * E - s * E == (M - s) * E) by ring. rewrite A. split; nra.
Qed.
Lemma nearest24_comp x y : 0 < x -> x == y -> Qabs (nearest24 y - x) <= x * (1 # 16777216).
Proof. intros P E. assert (0 < y) by lra. pose proof (nearest24_rel y H) as R. rewrite E at 1. rewrite E. exact R. Qed.
Lemma to_float32_rel x q : x == q -> Qabs (to_float32 x - q) <= Qabs q * (1 # 16777216).
Proof.
  intros E. unfold to_float32. destruct (x ?= 0) eqn:C.
  - apply Qeq_alt in C. rewrite <- E, C. cbn. discriminate.
  - apply Qlt_alt in C. assert (P : 0 < - q) by lra. pose proof (nearest24_comp (- q) (- x) P ltac:(rewrite E; reflexivity)) as R.
    rewrite (Qabs_neg q) by lra. rewrite <- Qabs_opp. setoid_replace (- (- nearest24 (- x) - q)) with (nearest24 (- x) - - q) by ring. exact R.
  - apply Qgt_alt in C. assert (P : 0 < q) by lra. rewrite (Qabs_pos q) by lra. now apply nearest24_comp.
Qed.
Open Scope Z_scope.

(** ** Reading a sentence *)
Fixpoint npp (l : list nitem) (o : nat) (x : bytes) : list (string * bytes) :=
  match l with
  | [] => []
  | NNum nm n :: l' | NStr nm n :: l' => (nm, firstn n (skipn o x)) :: npp l' (o + n) x
  | NSkip d :: l' => npp l' (o + Z.to_nat d) x
  end.
Fixpoint nwidth (l : list nitem) : nat :=
  match l with [] => 0 | NNum _ n :: l' | NStr _ n :: l' => n + nwidth l' | NSkip d :: l' => Z.to_nat d + nwidth l' end%nat.
Fixpoint nforward (l : list nitem) : Prop :=
  match l with [] => True | NSkip d :: l' => 0 <= d /\ nforward l' | _ :: l' => nforward l' end.
Lemma npp_shift l : forall o m x, npp l (o + m) x = npp l m (skipn o x).
Proof.
  induction l as [|[nm n|nm n|d] l IH]; intros o m x; [reflexivity| | |]; cbn [npp]; try (f_equal; [now rewrite skipn_add|]); rewrite <- Nat.add_assoc; apply IH.
Qed.
Lemma f_read_len file p x n : at_ file p x -> (n <= length x)%nat -> f_read file p (Z.of_nat n) = firstn n x /\ length (firstn n x) = n.
Proof. intros A L. split; [rewrite (f_read_at file p x) by (trivial; lia); now rewrite Nat2Z.id|rewrite firstn_length; lia]. Qed.
Lemma nparse_at file l : forall p x, at_ file p x -> nforward l -> (nwidth l <= length x)%nat ->
  nparse file l p = Ret (npp l 0 x, p + Z.of_nat (nwidth l)).
Proof.
  induction l as [|[nm n|nm n|d] l IH]; intros p x A F W; cbn [nforward nwidth] in *.
  - cbn. now rewrite Z.add_0_r.
  - cbn [nparse]. destruct (f_read_len file p x n A ltac:(lia)) as [R Ln]. rewrite R, Ln, Nat.eqb_refl, orb_true_r. cbn [check bind].
    rewrite (IH _ (skipn n x)); [|apply at_skip; [exact A|lia]|exact F|rewrite skipn_length; lia]. cbn [bind npp skipn].
    rewrite <- npp_shift, Nat.add_0_r, Nat.add_0_l. do 2 f_equal. lia.
  - cbn [nparse]. destruct (f_read_len file p x n A ltac:(lia)) as [R Ln]. rewrite R, Ln.
    rewrite (IH _ (skipn n x)); [|apply at_skip; [exact A|lia]|exact F|rewrite skipn_length; lia]. cbn [bind npp skipn].
    rewrite <- npp_shift, Nat.add_0_r, Nat.add_0_l. do 2 f_equal. lia.
  - destruct F as [D F]. cbn [nparse]. pose proof (at_nonneg _ _ _ A). unfold seek. replace (p + d <? 0) with false by (symmetry; apply Z.ltb_ge; lia).
    cbn [bind]. replace d with (Z.of_nat (Z.to_nat d)) at 1 by lia.
    rewrite (IH _ (skipn (Z.to_nat d) x)); [|apply at_skip; [exact A|lia]|exact F|rewrite skipn_length; lia].
    cbn [npp]. rewrite <- npp_shift, Nat.add_0_r, Nat.add_0_l. do 2 f_equal. lia.
Qed.
Lemma ascii_utf8 l : Forall (fun b => b < 128) l -> forall lo hi, utf8 0 lo hi l = true.
Proof. induction 1 as [|b l B F IH]; intros lo hi; [reflexivity|]. cbn [utf8]. rewrite (proj2 (Z.ltb_lt _ _) B). apply IH. Qed.
Lemma byte_nth data o : RdiGps.byte (Rdi.block_bytes (8226, data)) (o + 3) = nth o data 0.
Proof.
  unfold RdiGps.byte. transitivity (Ad2cp.le (firstn 1 (skipn o data))); [symmetry; exact (le_uint 8226 data o 1)|]. destruct (skipn o data) as [|b l] eqn:E.
  - cbn. symmetry. apply nth_overflow. assert (length (skipn o data) = 0%nat) by now rewrite E. rewrite skipn_length in H. lia.
  - cbn [firstn Ad2cp.le]. rewrite <- (Nat.add_0_r o) at 1. rewrite <- nth_skipn_Z, E. cbn. lia.
Qed.
Lemma firstn_nth n : forall o (x : bytes), (o + n <= length x)%nat -> firstn n (skipn o x) = map (fun j => nth (o + j) x 0) (seq 0 n).
Proof.
  intros o x L. apply nth_ext with (d := 0) (d' := 0).
  - rewrite firstn_length, skipn_length, map_length, seq_length. lia.
  - intros j J. rewrite firstn_length, skipn_length in J. rewrite (nth_indep (map _ _) 0 (nth (o + 0) x 0)) by (rewrite map_length, seq_length; lia).
    rewrite (map_nth (fun j => nth (o + j) x 0) (seq 0 n) 0%nat), seq_nth by lia. cbn [Nat.add].
    rewrite <- nth_skipn_Z. generalize (skipn o x). intros y. assert (JN : (j < n)%nat) by lia. clear - JN. revert n j JN. induction y as [|b y IH]; intros [|n] [|j] JN; cbn; try lia; try reflexivity. apply IH. lia.
Qed.

Section Sentence.
Context (file : bytes) (s : st) (e : ensemble) (data : bytes) (least : Z) (reader : bytes -> Z -> ensemble -> outcome (ensemble * Z)) (vars : list string).
Notation block := (Rdi.block_bytes (8226, data)).
Lemma winriver2_at : ens s = Some e -> at_ file (pos s) data -> sentence (Rdi.uint block 3 2) = Some (least, reader, vars) ->
  least < Rdi.uint block 5 2 -> (18 <= length data)%nat -> (forall n, (15 <= n <= 20)%nat -> RdiGps.byte block n < 128) ->
  read_dat file 8226 s = match reader file (pos s + 18) e with
    | Ret (e', q) => Ret (true, with_nbyte (q - pos s + 2) (at_pos q (with_vars (iadd (vars_read s) vars) (with_ens (Some e') (ens_bb s)
        (with_source 3 true (with_cfg (("sourceprog", CS "WinRiver2") :: scfg s) (scfg_bb s) s))))))
    | Raise w => Raise w
    end.
Proof.
  intros En A Sn Le L As. unfold read_dat. cbn [Z.eqb Pos.eqb]. unfold read_winriver2.
  change (ens (with_source 3 true (with_cfg (("sourceprog", CS "WinRiver2") :: scfg s) (scfg_bb s) s))) with (ens s). rewrite En. cbn [or_raise bind].
  rewrite (nparse_at file [NNum "spid" 2] (pos s) data A I) by (cbn; lia). cbn [bind npp nwidth].
  change (nraw [("spid", firstn 2 (skipn 0 data))] "spid") with (firstn 2 (skipn 0 data)).
  assert (S0 : (match firstn 2 (skipn 0 data) with [] => None | b => sentence (Ad2cp.le b) end) = Some (least, reader, vars)).
  { assert (U : Rdi.uint block 3 2 = Ad2cp.le (firstn 2 (skipn 0 data))) by (symmetry; exact (le_uint 8226 data 0 2)). rewrite U in Sn. destruct (firstn 2 (skipn 0 data)) eqn:F; [|exact Sn].
    exfalso. assert (length (firstn 2 (skipn 0 data)) = 0%nat) by now rewrite F. rewrite firstn_length, skipn_length in H. lia. }
  rewrite S0. change (2 + 0)%nat with 2%nat.
  pose proof (at_skip file (pos s) data 2 A ltac:(lia)) as A2.
  rewrite (nparse_at file [NNum "sz" 2; NNum "dtime" 8] _ (skipn 2 data) A2) by first [exact I|cbn [nwidth]; rewrite skipn_length; lia]. cbn [bind npp nwidth].
  change (nraw (("sz", firstn 2 (skipn 0 (skipn 2 data))) :: [("dtime", firstn 8 (skipn (0 + 2) (skipn 2 data)))]) "sz") with (firstn 2 (skipn 0 (skipn 2 data))).
  assert (Lz : length (firstn 2 (skipn 0 (skipn 2 data))) = 2%nat) by (rewrite firstn_length, !skipn_length; lia). rewrite Lz. cbn [Nat.eqb negb check bind].
  assert (Sz : Ad2cp.le (firstn 2 (skipn 0 (skipn 2 data))) = Rdi.uint block 5 2) by (rewrite skipn_add; apply (le_uint 8226 data 2 2)).
  rewrite Sz, (proj2 (Z.leb_gt _ _) Le).
  pose proof (at_skip file (pos s) data 12 A ltac:(lia)) as A12. change (2 + (8 + 0))%nat with 10%nat. replace (pos s + Z.of_nat 2 + Z.of_nat 10) with (pos s + Z.of_nat 12) by lia.
  rewrite (nparse_at file [NStr "start" 6] _ (skipn 12 data) A12) by first [exact I|cbn [nwidth]; rewrite skipn_length; lia]. cbn [bind npp nwidth].
  change (nraw [("start", firstn 6 (skipn 0 (skipn 12 data)))] "start") with (firstn 6 (skipn 0 (skipn 12 data))).
  rewrite ascii_utf8.
  - replace (pos s + Z.of_nat 12 + Z.of_nat (6 + 0)) with (pos s + 18) by lia. destruct (reader file (pos s + 18) e) as [[e' q]|w]; reflexivity.
  - rewrite skipn_add. change (12 + 0)%nat with 12%nat. rewrite firstn_nth by lia. apply Forall_forall. intros b B. apply in_map_iff in B. destruct B as (j & <- & J). apply in_seq in J.
    rewrite <- byte_nth. apply As. lia.
Qed.
End Sentence.

(** ** The time *)
Lemma ten d : 0 <= d <= 9 -> d = 0 \/ d = 1 \/ d = 2 \/ d = 3 \/ d = 4 \/ d = 5 \/ d = 6 \/ d = 7 \/ d = 8 \/ d = 9.
Proof. lia. Qed.
Lemma int_digits a b : 0 <= a <= 9 -> 0 <= b <= 9 -> py_int [48 + a; 48 + b] = Ret (10 * a + b).
Proof. intros A B. apply ten in A, B. repeat (destruct A as [->|A]; [repeat (destruct B as [->|B]; [reflexivity|]); subst b; reflexivity|]). subst a. repeat (destruct B as [->|B]; [reflexivity|]); subst b; reflexivity. Qed.
Lemma frac_digits a b : 0 <= a <= 9 -> 0 <= b <= 9 -> exists f, py_float [46; 48 + a; 48 + b] = Ret f /\
  Z.quot (Qnum (f * 1000)) (QDen (f * 1000)) = 10 * (10 * a + b).
Proof.
  intros A B. apply ten in A, B. repeat (destruct A as [->|A]; [repeat (destruct B as [->|B]; [eexists; split; reflexivity|]); subst b; eexists; split; reflexivity|]).
  subst a. repeat (destruct B as [->|B]; [eexists; split; reflexivity|]); subst b; eexists; split; reflexivity.
Qed.
Lemma clock_text data h m sc cs : (29 <= length data)%nat -> RdiGps.time_of_day (Rdi.block_bytes (8226, data)) h m sc cs ->
  gga_clock (firstn 9 (skipn 19 data)) = Ret (((h * 60 + m) * 60 + sc) * 1000 + 10 * cs).
Proof.
  intros L ((h1 & h2 & [H1 D1] & [H2 D2] & ->) & (m1 & m2 & [H3 D3] & [H4 D4] & ->) & (s1 & s2 & [H5 D5] & [H6 D6] & ->) & D7 & (c1 & c2 & [H8 D8] & [H9 D9] & ->)).
  rewrite firstn_nth by lia. cbn [seq map Nat.add].
  pose proof (eq_trans (eq_sym (byte_nth data 19)) D1) as ED1.
  pose proof (eq_trans (eq_sym (byte_nth data 20)) D2) as ED2.
  pose proof (eq_trans (eq_sym (byte_nth data 21)) D3) as ED3.
  pose proof (eq_trans (eq_sym (byte_nth data 22)) D4) as ED4.
  pose proof (eq_trans (eq_sym (byte_nth data 23)) D5) as ED5.
  pose proof (eq_trans (eq_sym (byte_nth data 24)) D6) as ED6.
  pose proof (eq_trans (eq_sym (byte_nth data 25)) D7) as ED7.
  pose proof (eq_trans (eq_sym (byte_nth data 26)) D8) as ED8.
  pose proof (eq_trans (eq_sym (byte_nth data 27)) D9) as ED9.
  rewrite ED1, ED2, ED3, ED4, ED5, ED6, ED7, ED8, ED9.
  unfold gga_clock. cbn [firstn skipn]. rewrite !int_digits by assumption. cbn [bind].
  destruct (frac_digits c1 c2 H8 H9) as (f & -> & Q). cbn [bind]. rewrite Q. reflexivity.
Qed.

(** ** GGA *)
Lemma full_year_day e y mo d h mi sc hs : RdiGps.clock_of e y mo d h mi sc hs -> rtc_day (full_year e) = Date (RdiGps.whole_year y) mo d 0 0 0.
Proof.
  unfold RdiGps.clock_of. intros C. unfold full_year. rewrite C. cbn [map]. unfold RdiGps.whole_year.
  destruct (Qle_bool 100 (inject_Z y)) eqn:Q.
  - assert (100 <= y). { apply Qle_bool_iff in Q. change 100%Q with (inject_Z 100) in Q. rewrite <- Zle_Qle in Q. exact Q. }
    rewrite (proj2 (Z.ltb_ge _ _) H). unfold rtc_day. rewrite C. cbn [map nth inject_Z Qnum Qden]. now rewrite !Z.div_1_r.
  - assert (y < 100). { apply Z.lt_nge. intros G. assert (Qle_bool 100 (inject_Z y) = true); [|congruence]. apply Qle_bool_iff. change 100%Q with (inject_Z 100). rewrite <- Zle_Qle. lia. }
    rewrite (proj2 (Z.ltb_lt _ _) H). unfold rtc_day, get, put. cbn [vals lookup String.eqb Ascii.eqb Bool.eqb nth map inject_Z Qnum Qden Qplus Pos.mul].
    rewrite !Z.div_1_r. unfold midnight. f_equal. lia.
Qed.
Lemma full_year_ek e : ek (full_year e) = ek e.
Proof. unfold full_year. destruct (get e "rtc") as [|[y|] l]; try reflexivity. destruct (Qle_bool 100 y); reflexivity. Qed.

Lemma bytes8 o data b q : (o + 8 <= length data)%nat -> b = firstn 8 (skipn o data) -> RdiGps.double (Rdi.block_bytes (8226, data)) (o + 3) q ->
  exists x, float64_of b = Some x /\ (x == q)%Q.
Proof.
  intros L -> D. unfold float64_of, RdiGps.double in *. destruct (firstn 8 (skipn o data)) eqn:F.
  { exfalso. assert (length (firstn 8 (skipn o data)) = 0%nat) by now rewrite F. rewrite firstn_length, skipn_length in H. lia. }
  rewrite <- F. apply float_bits_ieee; [lia|lia|]. replace (Ad2cp.le (firstn 8 (skipn o data))) with (Rdi.uint (Rdi.block_bytes (8226, data)) (o + 3) 8); [exact D|].
  symmetry. exact (le_uint 8226 data o 8).
Qed.
Lemma bytes4 o data b q : (o + 4 <= length data)%nat -> b = firstn 4 (skipn o data) -> RdiGps.single (Rdi.block_bytes (8226, data)) (o + 3) q ->
  exists x, float32_of b = Some x /\ (x == q)%Q.
Proof.
  intros L -> D. unfold float32_of, RdiGps.single in *. destruct (firstn 4 (skipn o data)) eqn:F.
  { exfalso. assert (length (firstn 4 (skipn o data)) = 0%nat) by now rewrite F. rewrite firstn_length, skipn_length in H. lia. }
  rewrite <- F. apply float_bits_ieee; [lia|lia|]. replace (Ad2cp.le (firstn 4 (skipn o data))) with (Rdi.uint (Rdi.block_bytes (8226, data)) (o + 3) 4); [exact D|].
  symmetry. exact (le_uint 8226 data o 4).
Qed.
Lemma bytes1 o data : (o + 1 <= length data)%nat -> firstn 1 (skipn o data) = [RdiGps.byte (Rdi.block_bytes (8226, data)) (o + 3)].
Proof. intros L. rewrite firstn_nth by lia. cbn [seq map]. rewrite Nat.add_0_r, byte_nth. reflexivity. Qed.
Lemma letter o data c : (o + 1 <= length data)%nat -> is_letter c (firstn 1 (skipn o data)) = (RdiGps.byte (Rdi.block_bytes (8226, data)) (o + 3) =? c).
Proof. intros L. rewrite bytes1 by exact L. reflexivity. Qed.
Lemma signed_float b x q : (x == q)%Q -> exists y, negate_if b (stored32 (Some x)) = Some y /\ (Qabs (y - (if b then - q else q)) <= Qabs q * (1 # 16777216))%Q.
Proof.
  intros E. pose proof (to_float32_rel x q E) as R. destruct b; cbn [negate_if stored32 option_map]; eexists; (split; [reflexivity|]); [|exact R].
  rewrite <- Qabs_opp. setoid_replace (- (- to_float32 x - - q))%Q with (to_float32 x - q)%Q by ring. exact R.
Qed.

Lemma get_puts l : forall e nm, get (puts l e) nm = match lookup nm (rev l) with Some v => v | None => get e nm end.
Proof.
  induction l as [|[n v] l IH]; intros e nm; [reflexivity|]. change (puts ((n, v) :: l) e) with (puts l (put n v e)). rewrite IH. cbn [rev].
  assert (A : forall a b : list (string * list (option Q)), lookup nm (a ++ b) = match lookup nm a with Some x => Some x | None => lookup nm b end).
  { induction a as [|[k w] a IHa]; intros b; [reflexivity|]. cbn [app lookup]. destruct (String.eqb k nm); [reflexivity|apply IHa]. }
  rewrite A. destruct (lookup nm (rev l)); [reflexivity|]. unfold get, put. cbn [vals e_cells lookup]. destruct (String.eqb n nm); reflexivity.
Qed.
Lemma get_full_year e nm : nm <> "rtc" -> get (full_year e) nm = get e nm.
Proof.
  intros N. unfold full_year. destruct (get e "rtc") as [|[y|] l]; try reflexivity. destruct (Qle_bool 100 y); [reflexivity|].
  unfold get, put. cbn [vals e_cells lookup]. destruct (String.eqb_spec "rtc" nm); [congruence|reflexivity].
Qed.

Lemma thousandths a b n c : 1000 * a + b = 1000 * n + 10 * c -> (inject_Z a + inject_Z b * (1 # 1000) == inject_Z n + inject_Z c / 100)%Q.
Proof.
  intros E. assert (Q : (inject_Z 1000 * inject_Z a + inject_Z b == inject_Z 1000 * inject_Z n + inject_Z 10 * inject_Z c)%Q) by (rewrite <- !inject_Z_mult, <- !inject_Z_plus, E; reflexivity).
  change (inject_Z 1000) with 1000%Q in Q. change (inject_Z 10) with 10%Q in Q. unfold Qdiv. change (/ 100)%Q with (1 # 100). lra.
Qed.
Section Gga.
Context (file : bytes) (s : st) (e : ensemble) (data : bytes) (y mo d ch cm csec chs h m sc cs : Z).
Notation block := (Rdi.block_bytes (8226, data)).
Notation Y := (RdiGps.whole_year y).
Lemma gga_at n : at_ file (pos s) data -> k_ok e = true -> RdiGps.gga block -> RdiGps.time_of_day block h m sc cs -> RdiGps.clock_of e y mo d ch cm csec chs ->
  SigData.elapsed (Date Y mo d h m sc) n -> Y <= 9999 ->
  exists t, (t == inject_Z n + inject_Z cs / 100)%Q /\
  read_gga file (pos s + 18) e = Ret (puts (("time_gps", [Some t]) :: gga_values (npp gga_items 0 (skipn 28 data))) (full_year e), pos s + Z.of_nat 69).
Proof.
  intros A K (_ & _ & L & _) T C E Y9. change (length block) with (S (S (length data))) in L.
  pose proof (full_year_day e y mo d ch cm csec chs C) as Fd. destruct (Calendar.elapsed_okd _ _ E) as [Ok Ep].
  assert (V : valid_date (Date Y mo d 0 0 0) = true).
  { unfold Calendar.okd in Ok. unfold valid_date. cbn [year month day hour minute second] in *. rewrite !andb_true_iff, !Z.leb_le, !Z.ltb_lt. lia. }
  exists (qz (epoch (Date Y mo d 0 0 0)) + qz (((h * 60 + m) * 60 + sc) * 1000 + 10 * cs) * (1 # 1000))%Q. split.
  { rewrite <- Ep. unfold epoch, toordinal. cbn [year month day hour minute second]. unfold qz. generalize (days_before_year Y) (days_before_month Y mo). intros o1 o2.
    apply thousandths. lia. }
  unfold read_gga. pose proof (at_skip file (pos s) data 18 A ltac:(lia)) as A18. change (Z.of_nat 18) with 18 in A18.
  rewrite (nparse_at file [NSkip 1; NStr "time" 9] _ (skipn 18 data) A18) by first [cbn; lia|cbn [nwidth]; rewrite skipn_length; change (Z.to_nat 1) with 1%nat; lia]. cbn [bind npp nwidth].
  change (Z.to_nat 1) with 1%nat. change (0 + 1)%nat with 1%nat.
  change (nraw [("time", firstn 9 (skipn 1 (skipn 18 data)))] "time") with (firstn 9 (skipn 1 (skipn 18 data))). rewrite skipn_add. change (18 + 1)%nat with 19%nat.
  rewrite (clock_text data h m sc cs) by (trivial; lia). cbn [bind]. cbv zeta. rewrite Fd, V. cbn [check bind].
  replace (pos s + 18 + Z.of_nat (1 + (9 + 0))) with (pos s + Z.of_nat 28) by lia.
  pose proof (at_skip file (pos s) data 28 A ltac:(lia)) as A28.
  rewrite (nparse_at file gga_items _ (skipn 28 data) A28) by first [cbn; lia|change (nwidth gga_items) with 41%nat; rewrite skipn_length; lia].
  cbn [bind]. unfold k_ok in *. rewrite full_year_ek. rewrite K. cbn [check bind].
  assert (N : forall o, (o < 41)%nat -> Nat.eqb (length (firstn 1 (skipn o (skipn 28 data)))) 0 = false).
  { intros o O. apply Nat.eqb_neq. rewrite firstn_length, !skipn_length. lia. }
  change (nraw (npp gga_items 0 (skipn 28 data)) "fix") with (firstn 1 (skipn 19 (skipn 28 data))). change (nraw (npp gga_items 0 (skipn 28 data)) "n_sat") with (firstn 1 (skipn 20 (skipn 28 data))).
  rewrite !N by lia. cbn [negb andb check bind]. change (nwidth gga_items) with 41%nat. replace (pos s + Z.of_nat 28 + Z.of_nat 41) with (pos s + Z.of_nat 69) by lia. reflexivity.
Qed.
End Gga.

Lemma lies_at_at file p data : Rdi.lies_at file p data -> at_ file p data.
Proof. intros (pre & post & -> & ->). exists pre, post. split; reflexivity. Qed.
Lemma iadd_all vars news : (mem (hd "" news) vars = true -> forall v, In v news -> In v vars) -> forall v, In v news -> In v (iadd vars news).
Proof. intros H v V. unfold iadd. destruct (mem (hd "" news) vars); [now apply H|]. apply in_or_app. now right. Qed.
Lemma mem_in nm l : mem nm l = true -> In nm l.
Proof. unfold mem. rewrite existsb_exists. intros (x & I & E). apply String.eqb_eq in E. now subst. Qed.

Lemma spid_of spid least rd vars u : (forall z, z = spid \/ z = spid + 100 -> sentence z = Some (least, rd, vars)) -> (u = spid \/ u = spid + 100) -> sentence u = Some (least, rd, vars).
Proof. intros H U. now apply H. Qed.
Section Position.
Context (file : bytes) (s : st) (e : ensemble) (data : bytes).
Notation block := (Rdi.block_bytes (8226, data)).
Context (En : ens s = Some e) (Ek : ek e = -1 \/ ek e = 0) (A : Rdi.lies_at file (pos s) data).
Lemma k_fine : k_ok e = true.
Proof. unfold k_ok. destruct Ek as [-> | ->]; reflexivity. Qed.
Notation K := k_fine.
Lemma read_sentence spid least size rd vars : RdiGps.sentence_of spid least size block -> (20 <= size)%nat -> (forall z, z = spid \/ z = spid + 100 -> sentence z = Some (least, rd, vars)) ->
  forall e' q, rd file (pos s + 18) e = Ret (e', q) ->
  exists s', read_dat file 8226 s = Ret (true, s') /\ ens s' = Some e' /\ vars_read s' = iadd (vars_read s) vars.
Proof.
  intros (I & Le & L & As) Sz Se e' q R. change (length block) with (S (S (length data))) in L.
  rewrite (winriver2_at file s e data least rd vars En (lies_at_at _ _ _ A) (Se _ I) Le ltac:(lia) As), R.
  eexists. repeat split; reflexivity.
Qed.
Lemma byte_le o : (o + 1 <= length data)%nat -> Ad2cp.le (firstn 1 (skipn o data)) = RdiGps.byte block (o + 3).
Proof. intros L. transitivity (Ad2cp.le [RdiGps.byte block (o + 3)]); [f_equal; exact (bytes1 o data L)|]. generalize (RdiGps.byte block (o + 3)). intros b. change (b + 256 * 0 = b). lia. Qed.

Lemma position y mo d ch cm csec chs h m sc cs n lat lon :
  RdiGps.gga block -> RdiGps.time_of_day block h m sc cs -> RdiGps.clock_of e y mo d ch cm csec chs ->
  SigData.elapsed (Date (RdiGps.whole_year y) mo d h m sc) n -> RdiGps.whole_year y <= 9999 -> RdiGps.double block 32 lat -> RdiGps.double block 41 lon ->
  exists s' e' la lo t, read_dat file 8226 s = Ret (true, s') /\ ens s' = Some e' /\
    get e' "latitude_gps" = [Some la] /\ (Qabs (la - RdiGps.hemisphere block 40 83 lat) <= Qabs lat * (1 # 16777216))%Q /\
    get e' "longitude_gps" = [Some lo] /\ (Qabs (lo - RdiGps.hemisphere block 49 87 lon) <= Qabs lon * (1 # 16777216))%Q /\
    get e' "time_gps" = [Some t] /\ (t == inject_Z n + inject_Z cs / 100)%Q /\
    (RdiGps.byte block 50 < 128 -> get e' "fix_gps" = [Some (inject_Z (RdiGps.byte block 50))]) /\
    (RdiGps.byte block 51 < 128 -> get e' "n_sat_gps" = [Some (inject_Z (RdiGps.byte block 51))]) /\
    (forall q, RdiGps.single block 52 q -> exists x, get e' "hdop_gps" = [Some x] /\ (x == q)%Q) /\
    (forall q, RdiGps.single block 56 q -> exists x, get e' "elevation_gps" = [Some x] /\ (x == q)%Q) /\
    (forall q, RdiGps.single block 66 q -> exists x, get e' "rtk_age_gps" = [Some x] /\ (x == q)%Q) /\
    (forall nm, ~ In nm ("rtc" :: RdiGps.gga_vars) -> get e' nm = get e nm) /\
    ((In "time_gps" (vars_read s) -> incl RdiGps.gga_vars (vars_read s)) -> incl RdiGps.gga_vars (vars_read s')).
Proof.
  intros G T C E Y9 La Lo. destruct (gga_at file s e data y mo d ch cm csec chs h m sc cs n (lies_at_at _ _ _ A) K G T C E Y9) as (t & Et & R).
  destruct (read_sentence 4 43 71 read_gga RdiGps.gga_vars G ltac:(lia) ltac:(intros z [-> | ->]; reflexivity) _ _ R) as (s' & Rd & Es & Ev).
  destruct G as (_ & _ & L & _). change (length block) with (S (S (length data))) in L.
  destruct (bytes8 29 data _ lat ltac:(lia) eq_refl La) as (xa & Fa & Xa). destruct (bytes8 38 data _ lon ltac:(lia) eq_refl Lo) as (xo & Fo & Xo).
  destruct (signed_float (RdiGps.byte block 40 =? 83) xa lat Xa) as (la & Sa & Ba). destruct (signed_float (RdiGps.byte block 49 =? 87) xo lon Xo) as (lo & So & Bo).
  set (e' := puts _ _) in *. exists s', e', la, lo, t.
  assert (P : forall nm, get e' nm = match lookup nm (rev (("time_gps", [Some t]) :: gga_values (npp gga_items 0 (skipn 28 data)))) with Some v => v | None => get (full_year e) nm end) by (intros nm; apply get_puts).
  assert (Pla : get e' "latitude_gps" = [negate_if (is_letter 83 (firstn 1 (skipn 9 (skipn 28 data)))) (stored32 (float64_of (firstn 8 (skipn 1 (skipn 28 data)))))]) by (rewrite P; reflexivity).
  assert (Plo : get e' "longitude_gps" = [negate_if (is_letter 87 (firstn 1 (skipn 18 (skipn 28 data)))) (stored32 (float64_of (firstn 8 (skipn 10 (skipn 28 data)))))]) by (rewrite P; reflexivity).
  assert (Pt : get e' "time_gps" = [Some t]) by (rewrite P; reflexivity).
  assert (Pf : get e' "fix_gps" = [Some (qz (int8 (Ad2cp.le (firstn 1 (skipn 19 (skipn 28 data))))))]) by (rewrite P; reflexivity).
  assert (Pn : get e' "n_sat_gps" = [Some (qz (int8 (Ad2cp.le (firstn 1 (skipn 20 (skipn 28 data))))))]) by (rewrite P; reflexivity).
  assert (Ph : get e' "hdop_gps" = [float32_of (firstn 4 (skipn 21 (skipn 28 data)))]) by (rewrite P; reflexivity).
  assert (Pe : get e' "elevation_gps" = [float32_of (firstn 4 (skipn 25 (skipn 28 data)))]) by (rewrite P; reflexivity).
  assert (Pr : get e' "rtk_age_gps" = [float32_of (firstn 4 (skipn 35 (skipn 28 data)))]) by (rewrite P; reflexivity).
  rewrite (skipn_add 9 28), (skipn_add 1 28) in Pla. rewrite (skipn_add 18 28), (skipn_add 10 28) in Plo. rewrite (skipn_add 19 28) in Pf. rewrite (skipn_add 20 28) in Pn.
  rewrite (skipn_add 21 28) in Ph. rewrite (skipn_add 25 28) in Pe. rewrite (skipn_add 35 28) in Pr. cbn [Nat.add] in Pla, Plo, Pf, Pn, Ph, Pe, Pr.
  assert (I1 : is_letter 83 (firstn 1 (skipn 37 data)) = (RdiGps.byte block 40 =? 83)) by (apply (letter 37); lia).
  assert (I2 : is_letter 87 (firstn 1 (skipn 46 data)) = (RdiGps.byte block 49 =? 87)) by (apply (letter 46); lia).
  assert (B50 : Ad2cp.le (firstn 1 (skipn 47 data)) = RdiGps.byte block 50) by (apply (byte_le 47); lia).
  assert (B51 : Ad2cp.le (firstn 1 (skipn 48 data)) = RdiGps.byte block 51) by (apply (byte_le 48); lia).
  split; [exact Rd|]. split; [exact Es|]. split; [rewrite Pla, I1, Fa, Sa; reflexivity|]. split; [exact Ba|].
  split; [rewrite Plo, I2, Fo, So; reflexivity|]. split; [exact Bo|]. split; [exact Pt|]. split; [exact Et|].
  split; [intros H; rewrite Pf, B50; unfold int8; rewrite (proj2 (Z.ltb_lt _ _) H); reflexivity|].
  split; [intros H; rewrite Pn, B51; unfold int8; rewrite (proj2 (Z.ltb_lt _ _) H); reflexivity|].
  split; [intros q Q; destruct (bytes4 49 data _ q ltac:(lia) eq_refl Q) as (x & Fx & X); exists x; rewrite Ph, Fx; split; [reflexivity|exact X]|].
  split; [intros q Q; destruct (bytes4 53 data _ q ltac:(lia) eq_refl Q) as (x & Fx & X); exists x; rewrite Pe, Fx; split; [reflexivity|exact X]|].
  split; [intros q Q; destruct (bytes4 63 data _ q ltac:(lia) eq_refl Q) as (x & Fx & X); exists x; rewrite Pr, Fx; split; [reflexivity|exact X]|].
  split.
  - intros nm N. transitivity (get (full_year e) nm); [rewrite P|apply get_full_year; intros ->; apply N; now left]. replace (lookup nm _) with (@None (list (option Q))); [reflexivity|].
    symmetry. cbn [rev gga_values app lookup]. unfold RdiGps.gga_vars in N. cbn [In] in N.
    repeat match goal with |- context [String.eqb ?k nm] => destruct (String.eqb_spec k nm); [subst nm; exfalso; apply N; tauto|] end. reflexivity.
  - intros H v V. rewrite Ev. apply iadd_all; [|exact V]. intros M. apply H. apply mem_in in M. exact M.
Qed.

Lemma over_ground knots track : RdiGps.vtg block -> RdiGps.single block 32 knots -> RdiGps.single block 22 track ->
  exists s' e' v x, read_dat file 8226 s = Ret (true, s') /\ ens s' = Some e' /\
    get e' "speed_over_grnd_gps" = [Some v] /\ (Qabs (v - knots * (1852 # 3600)) <= Qabs knots * (1852 # 3600) * (1 # 10000))%Q /\
    get e' "dir_over_grnd_gps" = [Some x] /\ (x == track)%Q /\
    (forall nm, ~ In nm RdiGps.vtg_vars -> get e' nm = get e nm) /\
    ((In "speed_over_grnd_gps" (vars_read s) -> incl RdiGps.vtg_vars (vars_read s)) -> incl RdiGps.vtg_vars (vars_read s')).
Proof.
  intros G Kn Tr. pose proof G as (_ & _ & L & _). change (length block) with (S (S (length data))) in L.
  pose proof (at_skip file (pos s) data 18 (lies_at_at _ _ _ A) ltac:(lia)) as A18. change (Z.of_nat 18) with 18 in A18.
  destruct (bytes4 29 data _ knots ltac:(lia) eq_refl Kn) as (xk & Fk & Xk). destruct (bytes4 19 data _ track ltac:(lia) eq_refl Tr) as (xt & Ft & Xt).
  assert (R : read_vtg file (pos s + 18) e = Ret (puts [("speed_over_grnd_gps", [Some (xk / (1944 # 1000))%Q]); ("dir_over_grnd_gps", [Some xt])] e, pos s + 18 + Z.of_nat 22)).
  { unfold read_vtg. rewrite (nparse_at file vtg_items _ (skipn 18 data) A18) by first [cbn; lia|change (nwidth vtg_items) with 22%nat; rewrite skipn_length; lia]. cbn [bind].
    change (nraw (npp vtg_items 0 (skipn 18 data)) "speed_knot") with (firstn 4 (skipn 11 (skipn 18 data))).
    change (nraw (npp vtg_items 0 (skipn 18 data)) "true_track") with (firstn 4 (skipn 1 (skipn 18 data))).
    rewrite (skipn_add 11 18), (skipn_add 1 18). cbn [Nat.add]. rewrite Fk, Ft, K.
    replace (Nat.eqb (length (firstn 4 (skipn 29 data))) 0) with false by (symmetry; apply Nat.eqb_neq; rewrite firstn_length, skipn_length; lia). reflexivity. }
  destruct (read_sentence 5 22 42 read_vtg RdiGps.vtg_vars G ltac:(lia) ltac:(intros z [-> | ->]; reflexivity) _ _ R) as (s' & Rd & Es & Ev).
  do 2 eexists. exists (xk / (1944 # 1000))%Q, xt. split; [exact Rd|]. split; [exact Es|]. split; [reflexivity|]. split.
  { setoid_replace (xk / (1944 # 1000) - knots * (1852 # 3600))%Q with (knots * ((1000 # 1944) - (1852 # 3600)))%Q by (rewrite Xk; field).
    rewrite Qabs_Qmult, <- Qmult_assoc. rewrite (Qmult_comm (Qabs knots)), (Qmult_comm (Qabs knots)). apply Qmult_le_compat_r; [|apply Qabs_nonneg]. vm_compute. discriminate. }
  split; [reflexivity|]. split; [exact Xt|]. split.
  - intros nm N. rewrite get_puts. replace (lookup nm _) with (@None (list (option Q))); [reflexivity|].
    symmetry. cbn [rev app lookup]. unfold RdiGps.vtg_vars in N. cbn [In] in N.
    repeat match goal with |- context [String.eqb ?k nm] => destruct (String.eqb_spec k nm); [subst nm; exfalso; apply N; tauto|] end. reflexivity.
  - intros H v V. rewrite Ev. apply iadd_all; [|exact V]. intros M. apply H. apply mem_in in M. exact M.
Qed.
Lemma sounded depth : RdiGps.dbt block -> RdiGps.single block 27 depth ->
  exists s' e' v, read_dat file 8226 s = Ret (true, s') /\ ens s' = Some e' /\ get e' "dist_nmea" = [Some v] /\ (v == depth)%Q /\
    (forall nm, nm <> "dist_nmea" -> get e' nm = get e nm) /\ In "dist_nmea" (vars_read s').
Proof.
  intros G De. pose proof G as (_ & _ & L & _). change (length block) with (S (S (length data))) in L.
  pose proof (at_skip file (pos s) data 18 (lies_at_at _ _ _ A) ltac:(lia)) as A18. change (Z.of_nat 18) with 18 in A18.
  destruct (bytes4 24 data _ depth ltac:(lia) eq_refl De) as (x & Fx & X).
  assert (R : read_dbt file (pos s + 18) e = Ret (put "dist_nmea" [Some x] e, pos s + 18 + Z.of_nat 16)).
  { unfold read_dbt. rewrite (nparse_at file dbt_items _ (skipn 18 data) A18) by first [cbn; lia|change (nwidth dbt_items) with 16%nat; rewrite skipn_length; lia]. cbn [bind].
    change (nraw (npp dbt_items 0 (skipn 18 data)) "depth_m") with (firstn 4 (skipn 6 (skipn 18 data))). rewrite !skipn_add. cbn [Nat.add]. rewrite Fx, K. reflexivity. }
  destruct (read_sentence 6 20 36 read_dbt ["dist_nmea"] G ltac:(lia) ltac:(intros z [-> | ->]; reflexivity) _ _ R) as (s' & Rd & Es & Ev).
  do 2 eexists. exists x. split; [exact Rd|]. split; [exact Es|]. split; [reflexivity|]. split; [exact X|]. split.
  - intros nm N. unfold get, put. cbn [vals e_cells lookup]. destruct (String.eqb_spec "dist_nmea" nm); [congruence|reflexivity].
  - rewrite Ev. apply iadd_all; [|now left]. intros M v [<-|[]]. now apply mem_in in M.
Qed.
Lemma heading hd : RdiGps.hdt block -> RdiGps.double block 22 hd ->
  exists s' e' v, read_dat file 8226 s = Ret (true, s') /\ ens s' = Some e' /\ get e' "heading_gps" = [Some v] /\ (Qabs (v - hd) <= Qabs hd * (1 # 16777216))%Q /\
    (forall nm, nm <> "heading_gps" -> get e' nm = get e nm) /\ In "heading_gps" (vars_read s').
Proof.
  intros G De. pose proof G as (_ & _ & L & _). change (length block) with (S (S (length data))) in L.
  pose proof (at_skip file (pos s) data 18 (lies_at_at _ _ _ A) ltac:(lia)) as A18. change (Z.of_nat 18) with 18 in A18.
  destruct (bytes8 19 data _ hd ltac:(lia) eq_refl De) as (x & Fx & X).
  assert (R : read_hdt file (pos s + 18) e = Ret (put "heading_gps" [Some (to_float32 x)] e, pos s + 18 + Z.of_nat 10)).
  { unfold read_hdt. rewrite (nparse_at file [NSkip 1; NNum "heading" 8; NStr "tt" 1] _ (skipn 18 data) A18) by first [cbn; lia|cbn [nwidth]; change (Z.to_nat 1) with 1%nat; rewrite skipn_length; lia]. cbn [bind].
    change (nraw (npp [NSkip 1; NNum "heading" 8; NStr "tt" 1] 0 (skipn 18 data)) "heading") with (firstn 8 (skipn 1 (skipn 18 data))). rewrite !skipn_add. cbn [Nat.add]. rewrite Fx, K. reflexivity. }
  destruct (read_sentence 7 14 30 read_hdt ["heading_gps"] G ltac:(lia) ltac:(intros z [-> | ->]; reflexivity) _ _ R) as (s' & Rd & Es & Ev).
  do 2 eexists. exists (to_float32 x). split; [exact Rd|]. split; [exact Es|]. split; [reflexivity|]. split; [now apply to_float32_rel|]. split.
  - intros nm N. unfold get, put. cbn [vals e_cells lookup]. destruct (String.eqb_spec "heading_gps" nm); [congruence|reflexivity].
  - rewrite Ev. apply iadd_all; [|now left]. intros M v [<-|[]]. now apply mem_in in M.
Qed.
End Position.
