(** Lemmas about Model.RdiFile: the number of ensembles that is estimated. *)
From Coq Require Import String.
From Coq Require Import ZArith QArith Qround List Bool Lia Lqa.
From Verif.Model Require Import Nortek RdiBlocks RdiFile.
From Verif.Model Require Ad2cp.
From Verif.Spec Require Rdi.
From Verif.Proofs Require Import RdiBlocks RdiEns RdiFile.
Import ListNotations.
Open Scope string_scope.
Open Scope list_scope.
Open Scope Z_scope.

Fixpoint adjfree (l : bytes) : Prop := match l with a :: ((b :: _) as l') => ~ (a = 127 /\ b = 127) /\ adjfree l' | _ => True end.
Definition apart (l : bytes) : Prop := forall i j : nat, (i < j <= i + 2)%nat -> nth i l 0 = 127 -> nth j l 0 <> 127.
Lemma apart_tail a l : apart (a :: l) -> apart l.
Proof. intros H i j L E. apply (H (S i) (S j)); [lia|exact E]. Qed.
Lemma apart_adjfree l : apart l -> adjfree l.
Proof.
  induction l as [|a l IH]; intros H; [exact Logic.I|]. destruct l as [|b l]; [exact Logic.I|]. split; [|apply IH; eapply apart_tail; exact H].
  intros [-> ->]. apply (H 0%nat 1%nat); [lia|reflexivity|reflexivity].
Qed.
Lemma apart_skip a b l : apart (a :: b :: l) -> adjfree (a :: l).
Proof.
  intros H. assert (G : adjfree l) by (do 2 apply apart_tail in H; now apply apart_adjfree). destruct l as [|c l]; [exact Logic.I|]. split; [|exact G].
  intros [-> ->]. apply (H 0%nat 2%nat); [lia|reflexivity|reflexivity].
Qed.
Definition on_header (file : bytes) (p : Z) : outcome found :=
  match checkheader file p with Valid => Ret (Found p) | AtEnd q => Ret (Ended q) | Bad w => Raise w | Invalid => Ret (Ended (-1)) end.
Lemma pair_no a b : ~ (a = 127 /\ b = 127) -> (a =? 127) && (b =? 127) = false.
Proof. intros H. destruct (a =? 127) eqn:A; [|reflexivity]. destruct (b =? 127) eqn:B; [|reflexivity]. exfalso. apply H. split; now apply Z.eqb_eq. Qed.
Lemma loop_calm file tail : forall q cnt id0 id1 p, ~ (id0 = 127 /\ id1 = 127) -> adjfree (id0 :: q ++ [127]) -> checkheader file (p + Z.of_nat (length q) + 2) <> Invalid ->
  search_loop None file cnt id0 id1 (q ++ 127 :: 127 :: tail) p = on_header file (p + Z.of_nat (length q) + 2).
Proof.
  induction q as [|b q IH]; intros cnt id0 id1 p N A V.
  - cbn [app length Z.of_nat] in *. cbn [search_loop below negb]. rewrite (pair_no _ _ N). destruct A as [A _]. assert (A' : ~ (127 = 127 /\ id0 = 127)) by (intros [_ E]; now apply A).
    rewrite (pair_no _ _ A'). replace (p + 1 + 1) with (p + 0 + 2) by lia. cbn [Z.eqb Pos.eqb andb]. unfold on_header.
    destruct tail; cbn [search_loop below negb Z.eqb Pos.eqb andb]; destruct (checkheader file (p + 0 + 2)); try reflexivity; congruence.
  - cbn [app] in *. cbn [search_loop below negb]. rewrite (pair_no _ _ N). destruct A as [A1 A2].
    cbn [length] in V |- *. rewrite Nat2Z.inj_succ in V |- *. replace (p + Z.succ (Z.of_nat (length q)) + 2) with (p + 1 + Z.of_nat (length q) + 2) in V |- * by lia.
    apply IH; [intros [-> ->]; now apply A1|exact A2|exact V].
Qed.
Lemma quiet_apart e d : Rdi.quiet e -> (2 <= d)%nat -> apart (skipn d (Rdi.encode e ++ [127])).
Proof. intros Q D i j L. rewrite !nth_skipn_Z. apply Q; lia. Qed.
Lemma search_calm file pre x tail d n : Rdi.sound n x -> Rdi.quiet x -> file = pre ++ Rdi.encode x ++ 127 :: 127 :: tail -> (2 <= d <= length (Rdi.encode x) - 2)%nat ->
  checkheader file (Z.of_nat (length pre + length (Rdi.encode x)) + 2) <> Invalid ->
  search None file (Z.of_nat (length pre + d)) = on_header file (Z.of_nat (length pre + length (Rdi.encode x)) + 2).
Proof.
  intros So Q Ef D V. unfold search.
  assert (Ln : (2 <= length (Rdi.encode x))%nat) by (rewrite encode_split; cbn [app length]; lia).
  pose proof (quiet_apart x d Q ltac:(lia)) as Ap. rewrite skipn_app in Ap. replace (d - length (Rdi.encode x))%nat with 0%nat in Ap by lia. cbn [skipn] in Ap.
  assert (Ls : length (skipn d (Rdi.encode x)) = (length (Rdi.encode x) - d)%nat) by apply skipn_length.
  assert (Eq : file = (pre ++ firstn d (Rdi.encode x)) ++ skipn d (Rdi.encode x) ++ 127 :: 127 :: tail).
  { rewrite Ef, <- app_assoc. f_equal. rewrite app_assoc, firstn_skipn. reflexivity. }
  assert (Lp : length (pre ++ firstn d (Rdi.encode x)) = (length pre + d)%nat) by (rewrite app_length, firstn_length; lia).
  destruct (skipn d (Rdi.encode x)) as [|b0 [|b1 q]] eqn:Es; cbn [length] in Ls; [lia|lia|].
  assert (A : at_ file (Z.of_nat (length pre + d)) (b0 :: b1 :: q ++ 127 :: 127 :: tail)).
  { exists (pre ++ firstn d (Rdi.encode x)), []. rewrite app_nil_r. split; [exact Eq|now rewrite Lp]. }
  rewrite (f_read_at _ _ _ 2 A) by (cbn [length]; lia). cbn [firstn Z.to_nat Pos.to_nat Pos.iter_op Nat.add].
  assert (Sk : skipn (Z.to_nat (Z.of_nat (length pre + d) + 2)) file = q ++ 127 :: 127 :: tail).
  { replace (Z.to_nat (Z.of_nat (length pre + d) + 2)) with (length (pre ++ firstn d (Rdi.encode x)) + 2)%nat by lia.
    rewrite Eq at 1. rewrite <- skipn_add. rewrite skipn_app, skipn_all, Nat.sub_diag. reflexivity. }
  rewrite Sk. cbn [app] in Ap. replace (Z.of_nat (length pre + length (Rdi.encode x)) + 2) with (Z.of_nat (length pre + d) + 2 + Z.of_nat (length q) + 2) in V |- * by lia.
  apply loop_calm; [|eapply apart_skip; exact Ap|exact V].
  apply apart_adjfree in Ap. apply Ap.
Qed.

Lemma encode_long n x : Rdi.sound n x -> (Z.to_nat (Rdi.head_size x) <= length (Rdi.encode x) - 2)%nat /\ (2 <= Z.to_nat (Rdi.head_size x))%nat.
Proof. intros H. pose proof (encode_length _ _ H) as L. unfold Rdi.nbytes, Rdi.head_size, Rdi.len in *. lia. Qed.

(** one round of the estimation *)
Definition inside (s : st) (P : Z) (x : Rdi.pd0) : Prop := exists d : nat, (2 <= d <= length (Rdi.encode x) - 2)%nat /\ pos s = P + Z.of_nat d.
Lemma hdr_next file n pre x y post s : Rdi.sound n x -> Rdi.quiet x -> Rdi.sound n y -> file = pre ++ Rdi.encode x ++ Rdi.encode y ++ 127 :: 127 :: post ->
  inside s (Z.of_nat (length pre)) x -> exists s', read_hdr file s = (Some (Z.of_nat (length (pre ++ Rdi.encode x))), Ret (true, s')) /\ inside s' (Z.of_nat (length (pre ++ Rdi.encode x))) y.
Proof.
  intros Sx Q Sy Ef (d & D & Ps). unfold read_hdr. rewrite Ps.
  assert (A : at_ file (Z.of_nat (length (pre ++ Rdi.encode x))) (Rdi.encode y ++ 127 :: 127 :: post)) by (exists (pre ++ Rdi.encode x), []; rewrite app_nil_r, <- app_assoc; now split).
  pose proof (check_valid _ _ _ _ _ Sy A) as V. rewrite app_length in V.
  assert (Ey : exists t, Rdi.encode y ++ 127 :: 127 :: post = 127 :: 127 :: t) by (rewrite encode_split; cbn [app]; eauto). destruct Ey as (t & Ey).
  rewrite <- Nat2Z.inj_add. rewrite (search_calm file pre x t d n Sx Q); [|now rewrite <- Ey|exact D|rewrite V; discriminate].
  unfold on_header. rewrite V. rewrite (hdrseg_step file n y _ Sy); [|exists (Z.of_nat (length (pre ++ Rdi.encode x))); split; [eapply at_app_l; exact A|cbn [pos at_pos]; rewrite app_length; reflexivity]].
  cbn [bind]. eexists. split; [rewrite app_length; f_equal; f_equal; lia|].
  destruct (encode_long _ _ Sy) as [L1 L2]. exists (Z.to_nat (Rdi.head_size y)). split; [lia|]. cbn [pos with_nbyte with_hdr at_pos]. rewrite app_length. unfold Rdi.head_size in *. lia.
Qed.
Lemma hdr_last file n pre x y s : Rdi.sound n x -> Rdi.quiet x -> Rdi.sound n y -> file = pre ++ Rdi.encode x ++ Rdi.encode y ->
  inside s (Z.of_nat (length pre)) x -> read_hdr file s = (None, Ret (false, at_pos (Z.of_nat (length file)) s)).
Proof.
  intros Sx Q Sy Ef (d & D & Ps). unfold read_hdr. rewrite Ps.
  assert (Ey : exists t, Rdi.encode y = 127 :: 127 :: t) by (rewrite encode_split; cbn [app]; eauto). destruct Ey as (t & Ey).
  assert (V : checkheader file (Z.of_nat (length pre + length (Rdi.encode x)) + 2) = AtEnd (Z.of_nat (length file))).
  { unfold checkheader. assert (A2 : at_ file (Z.of_nat (length pre + length (Rdi.encode x)) + 2) (Rdi.le16 (Rdi.nbytes y))).
    { assert (A3 : at_ file (Z.of_nat (length (pre ++ Rdi.encode x))) (Rdi.encode y)) by (exists (pre ++ Rdi.encode x), []; rewrite app_nil_r, <- app_assoc; now split).
      rewrite app_length in A3. rewrite (encode_split y) in A3. apply at_app_r in A3. now apply at_app_l in A3. }
    rewrite (read_at _ _ _ _ _ A2) by (cbn; lia). cbn [Ad2cp.values hd]. change (firstn (Ad2cp.ksize Ad2cp.S16) (Rdi.le16 (Rdi.nbytes y))) with (Rdi.le16 (Rdi.nbytes y)).
    rewrite s16_le16 by apply Sy. pose proof (nbytes_pos y) as Pn. rewrite (proj2 (Z.ltb_lt _ _) Pn).
    pose proof (encode_length _ _ Sy) as L. assert (El : Z.of_nat (length pre + length (Rdi.encode x)) + 2 + Rdi.nbytes y = Z.of_nat (length file)) by (rewrite Ef, !app_length; lia).
    rewrite El. unfold f_read. rewrite Nat2Z.id, skipn_all, firstn_nil. reflexivity. }
  rewrite <- Nat2Z.inj_add. rewrite (search_calm file pre x t d n Sx Q); [|now rewrite <- Ey|exact D|rewrite V; discriminate].
  unfold on_header. rewrite V. reflexivity.
Qed.
Lemma hdr_eof file s : pos s = Z.of_nat (length file) -> read_hdr file s = (None, Raise "TypeError").
Proof. intros E. unfold read_hdr, search, f_read. rewrite E, Nat2Z.id, skipn_all, firstn_nil. reflexivity. Qed.

(** all rounds: [len] is the length of an ensemble *)
Lemma spacing file n last len : Rdi.sound n last -> forall xs x pre k s rounds, Forall (fun y => Rdi.sound n y /\ Rdi.quiet y /\ Z.of_nat (length (Rdi.encode y)) = len) (x :: xs) ->
  file = pre ++ Rdi.file_of (x :: xs ++ [last]) -> inside s (Z.of_nat (length pre)) x ->
  spacing_loop file k (Z.of_nat (length pre)) rounds s =
  (Z.of_nat (length pre) + Z.of_nat (Nat.min k (length xs)) * len, rounds + Z.of_nat (Nat.min k (length xs + 2))).
Proof.
  intros La. induction xs as [|y xs IH]; intros x pre k s rounds H Ef Is.
  - destruct k as [|k]; [cbn [spacing_loop Nat.min]; f_equal; lia|]. cbn [spacing_loop].
    destruct (Forall_inv H) as (Sx & Qx & Lx).
    rewrite (hdr_last file n pre x last s Sx Qx La); [|rewrite Ef; unfold Rdi.file_of; cbn [map concat app]; now rewrite app_nil_r|exact Is].
    destruct k as [|k]; [cbn [spacing_loop Nat.min length Nat.add]; f_equal; lia|]. cbn [spacing_loop]. rewrite hdr_eof by reflexivity.
    cbn [Nat.min length Nat.add]. f_equal; lia.
  - destruct k as [|k]; [cbn [spacing_loop Nat.min]; f_equal; lia|]. cbn [spacing_loop].
    destruct (Forall_inv H) as (Sx & Qx & Lx). pose proof (Forall_inv_tail H) as H'. destruct (Forall_inv H') as (Sy & Qy & Ly).
    assert (Hx : Forall (Rdi.sound n) xs) by (apply Forall_inv_tail in H'; eapply Forall_impl; [|exact H']; intros z Z; apply Z).
    destruct (file_head xs last n La Hx) as (post & Ep).
    assert (E2 : file = pre ++ Rdi.encode x ++ Rdi.encode y ++ 127 :: 127 :: post) by (rewrite Ef, <- Ep; reflexivity).
    destruct (hdr_next file n pre x y post s Sx Qx Sy E2 Is) as (s' & E & Is'). rewrite E.
    assert (E3 : file = (pre ++ Rdi.encode x) ++ Rdi.file_of (y :: xs ++ [last])) by (rewrite <- app_assoc; exact Ef).
    rewrite (IH y (pre ++ Rdi.encode x) k s' (rounds + 1) H' E3 Is'). rewrite app_length, Nat2Z.inj_add, Lx. cbn [length]. f_equal.
    + change (Nat.min (S k) (S (length xs))) with (S (Nat.min k (length xs))). lia.
    + change (S (length xs) + 2)%nat with (S (length xs + 2)). change (Nat.min (S k) (S (length xs + 2))) with (S (Nat.min k (length xs + 2))). lia.
Qed.

(** the number of ensembles estimated for [m] ensembles of [l] bytes *)
Definition estimate (m l : Z) : Z := Qfloor (qz (m * l) / (qz (Z.min 50 (m - 2) * l) / qz (Z.min 50 m) * (995 # 1000) + 2))%Q.
Lemma file_length n es len : Forall (fun y => Rdi.sound n y /\ Z.of_nat (length (Rdi.encode y)) = len) es -> Z.of_nat (length (Rdi.file_of es)) = Z.of_nat (length es) * len.
Proof.
  induction 1 as [|y es (_ & L) H IH]; [reflexivity|]. unfold Rdi.file_of in *. cbn [map concat length]. rewrite app_length, Nat2Z.inj_add, IH, L, Nat2Z.inj_succ. lia.
Qed.
Lemma read_none n xs last len : 0 < n -> Rdi.sound n last -> Z.of_nat (length (Rdi.encode last)) = len ->
  Forall (fun y => Rdi.sound n y /\ Rdi.quiet y /\ Z.of_nat (length (Rdi.encode y)) = len) xs -> xs <> [] ->
  let k := estimate (Z.of_nat (length xs) + 1) len in 0 < k ->
  exists cols s, read_rdi (Rdi.file_of (xs ++ [last])) None false false = Ret (cols, s) /\ exists vars, columns_from n (firstn (Z.to_nat k) xs) (new_ensemble n) vars cols.
Proof.
  intros N La Ll H Ne k K. destruct xs as [|x xs]; [congruence|]. assert (Hs : Forall (Rdi.sound n) (x :: xs)) by (eapply Forall_impl; [|exact H]; intros z Z; apply Z).
  destruct (file_head xs last n La (Forall_inv_tail Hs)) as (post & Ep).
  destruct (init_step (Rdi.file_of ((x :: xs) ++ [last])) n x post (Forall_inv Hs)) as (s & k' & E & W & s4 & B4 & Ek).
  { rewrite <- Ep. reflexivity. }
  rewrite (spacing _ n last len La xs x [] 50 s4 0 H) in Ek; [|reflexivity|].
  2: { exists (Z.to_nat (pos s4)). cbn [length]. lia. }
  rewrite (file_length n _ len) in Ek.
  2: { apply Forall_app. split; [eapply Forall_impl; [|exact H]; intros z (A & _ & B); now split|]. constructor; [now split|constructor]. }
  cbn [fst snd length] in Ek.
  assert (Kk : k' = k).
  { rewrite Ek. unfold k, estimate. rewrite app_length. cbn [length].
    replace (Z.of_nat (S (length xs) + 1)) with (Z.of_nat (S (length xs)) + 1) by lia.
    replace (Z.of_nat 0 + Z.of_nat (Nat.min 50 (length xs)) * len) with (Z.min 50 (Z.of_nat (S (length xs)) + 1 - 2) * len) by lia.
    replace (0 + Z.of_nat (Nat.min 50 (length xs + 2))) with (Z.min 50 (Z.of_nat (S (length xs)) + 1)) by lia. reflexivity. }
  unfold read_rdi. rewrite E. cbn [bind]. rewrite Kk.
  destruct (load_step (Rdi.file_of ((x :: xs) ++ [last])) n last N La (x :: xs) (Z.to_nat k) 0 s (new_ensemble n) Hs) as (cols & s' & E' & C & _); [exists []; now split|exact W|].
  rewrite E'. cbn [bind]. exists cols, s'. split; [|exists (vars_read s); exact C].
  destruct cols as [|c cols]; [|reflexivity]. destruct (Z.to_nat k) eqn:Em; [lia|]. inversion C.
Qed.
Lemma estimate_enough m l : 2 <= m -> 400 <= l -> m <= estimate m l.
Proof.
  intros M L. unfold estimate. set (a := Z.min 50 (m - 2)). set (b := Z.min 50 m).
  assert (A : 0 <= a <= b /\ 0 < b) by lia. set (D := (qz (a * l) / qz b * (995 # 1000) + 2)%Q).
  assert (Dpos : (0 < D /\ D <= qz l)%Q).
  { assert (F : (0 <= qz (a * l) / qz b)%Q /\ (qz (a * l) / qz b <= qz l)%Q).
    { split.
      - apply Qle_shift_div_l; [unfold qz, Qlt, inject_Z; cbn; lia|]. unfold qz, Qle, Qmult, inject_Z. cbn [Qnum Qden]. nia.
      - apply Qle_shift_div_r; [unfold qz, Qlt, inject_Z; cbn; lia|]. unfold qz, Qle, Qmult, inject_Z. cbn [Qnum Qden]. nia. }
    destruct F as [F1 F2]. assert (L' : (400 <= qz l)%Q) by (unfold qz, Qle, inject_Z; cbn [Qnum Qden]; lia). unfold D. generalize dependent (qz (a * l) / qz b)%Q. intros r R1 R2. split; lra. }
  rewrite <- (Qfloor_Z m) at 1. apply Qfloor_resp_le. destruct Dpos as [D1 D2]. apply Qle_shift_div_l; [exact D1|].
  assert (E : (qz (m * l) == inject_Z m * qz l)%Q) by (unfold qz; rewrite inject_Z_mult; reflexivity). rewrite E.
  assert (M' : (0 <= inject_Z m)%Q) by (unfold Qle, inject_Z; cbn [Qnum Qden]; lia). generalize dependent (inject_Z m). intros z Hz1 Hz2. nra.
Qed.
Lemma floor_lt q m : (q < inject_Z m)%Q -> Qfloor q < m.
Proof. intros H. pose proof (Qfloor_le q) as F. assert (inject_Z (Qfloor q) < inject_Z m)%Q by (eapply Qle_lt_trans; eassumption). unfold Qlt, inject_Z in H0. cbn [Qnum Qden] in H0. lia. Qed.
(** short ensembles: one in seventy is lost *)
Lemma estimate_short m : 70 <= m -> 0 < estimate m 102 < m - 1.
Proof.
  intros M. unfold estimate. replace (Z.min 50 (m - 2)) with 50 by lia. replace (Z.min 50 m) with 50 by lia.
  change (qz (50 * 102) / qz 50 * (995 # 1000) + 2)%Q with (qz 5100 / qz 50 * (995 # 1000) + 2)%Q.
  assert (E : (qz 5100 / qz 50 * (995 # 1000) + 2 == 10349 # 100)%Q) by reflexivity. rewrite (Qfloor_comp _ (qz (m * 102) / (10349 # 100))%Q) by (now rewrite E). split.
  - assert (1 <= Qfloor (qz (m * 102) / (10349 # 100))) as H; [|lia]. rewrite <- (Qfloor_Z 1). apply Qfloor_resp_le. apply Qle_shift_div_l; [reflexivity|]. unfold qz, Qle, Qmult, inject_Z. cbn [Qnum Qden]. lia.
  - apply floor_lt. apply Qlt_shift_div_r; [reflexivity|]. unfold qz, Qlt, Qmult, inject_Z. cbn [Qnum Qden]. lia.
Qed.
