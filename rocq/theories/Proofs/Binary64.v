(** The rounding of quotients to 53 bits. *)
From Coq Require Import ZArith QArith Qround Qpower Qabs Lia Lqa.
From Verif.Model Require Import BinSpec.
Open Scope Q_scope.

Lemma half_even_bound n d : (0 < d)%Z -> (2 * Z.abs (d * half_even n d - n) <= d)%Z.
Proof.
  intros D. pose proof (Z.div_mod n d ltac:(lia)) as E. pose proof (Z.mod_pos_bound n d D) as B.
  unfold half_even. set (q := (n / d)%Z) in *. set (r := (n mod d)%Z) in *.
  destruct (Z.compare_spec (2 * r) d); [destruct (Z.even q)| |]; nia.
Qed.
Lemma half_even_exact n d : (0 < d)%Z -> (n mod d = 0)%Z -> half_even n d = (n / d)%Z.
Proof. intros D E. unfold half_even. rewrite E. destruct (Z.compare_spec (2 * 0) d); lia. Qed.

Lemma pow2_pos e : 0 < 2 ^ e.
Proof. apply Qpower_0_lt. lra. Qed.
Lemma pow2_Z e : (0 <= e)%Z -> 2 ^ e == inject_Z (2 ^ e).
Proof. intros H. symmetry. exact (Zpower_Qpower 2 e H). Qed.
Lemma pow2_plus a b : 2 ^ (a + b) == 2 ^ a * 2 ^ b.
Proof. apply Qpower_plus. lra. Qed.
Lemma pow2_opp e : 2 ^ (- e) * 2 ^ e == 1.
Proof. rewrite <- pow2_plus. replace (- e + e)%Z with 0%Z by lia. reflexivity. Qed.

(** the scaled number lies between 2^51 and 2^53 *)
Lemma scaled x : 0 < x -> let e := (Z.log2 (Qnum x) - Z.log2 (QDen x) - 52)%Z in
  inject_Z (2 ^ 51) <= x * 2 ^ (- e) < inject_Z (2 ^ 53).
Proof.
  intros P e. assert (N : (0 < Qnum x)%Z) by (unfold Qlt in P; cbn in P; lia).
  pose proof (Z.log2_spec (Qnum x) N) as [A1 A2]. pose proof (Z.log2_spec (QDen x) ltac:(lia)) as [B1 B2].
  pose proof (Z.log2_nonneg (Qnum x)) as Pa. pose proof (Z.log2_nonneg (QDen x)) as Pb.
  set (a := Z.log2 (Qnum x)) in *. set (b := Z.log2 (QDen x)) in *.
  assert (Ea : inject_Z (2 ^ a) <= inject_Z (Qnum x)) by (rewrite <- Zle_Qle; lia).
  assert (Ea' : inject_Z (Qnum x) < inject_Z (2 ^ (a + 1))) by (rewrite <- Zlt_Qlt; lia).
  assert (Eb : inject_Z (2 ^ b) <= inject_Z (QDen x)) by (rewrite <- Zle_Qle; lia).
  assert (Eb' : inject_Z (QDen x) < inject_Z (2 ^ (b + 1))) by (rewrite <- Zlt_Qlt; lia).
  rewrite <- pow2_Z in Ea, Ea', Eb, Eb' by lia. rewrite pow2_plus in Ea', Eb'. change (2 ^ 1) with (2#1) in *.
  assert (X : x * inject_Z (QDen x) == inject_Z (Qnum x)).
  { unfold Qeq, Qmult, inject_Z. cbn. lia. }
  assert (Ee : 2 ^ (- e) == inject_Z (2 ^ 52) * (2 ^ b * 2 ^ (- a))).
  { unfold e. replace (- (a - b - 52))%Z with (52 + (b + - a))%Z by lia. rewrite !pow2_plus, (pow2_Z 52) by lia. reflexivity. }
  rewrite Ee. pose proof (pow2_opp a) as Oa. pose proof (pow2_pos a). pose proof (pow2_pos b). pose proof (pow2_pos (- a)) as Ha.
  set (A := 2 ^ a) in *. set (B := 2 ^ b) in *. set (I := 2 ^ (- a)) in *. set (D := inject_Z (QDen x)) in *. set (M := inject_Z (Qnum x)) in *.
  assert (L1 : 1 # 2 <= x * (B * I)).
  { apply Qnot_lt_le. intros Hc. assert (x * (B * I) * (A * D) < (1#2) * (A * D)) by (apply Qmult_lt_compat_r; [nra|easy]).
    assert (x * (B * I) * (A * D) == M * B * (I * A)) by (rewrite <- X; ring). rewrite Oa in H2. nra. }
  assert (L2 : x * (B * I) < 2).
  { apply Qnot_le_lt. intros Hc. assert (2 * (A * D) <= x * (B * I) * (A * D)) by (apply Qmult_le_compat_r; [easy|nra]).
    assert (x * (B * I) * (A * D) == M * B * (I * A)) by (rewrite <- X; ring). rewrite Oa in H2. nra. }
  setoid_replace (inject_Z (2 ^ 51)) with (inject_Z (2 ^ 52) * (1#2)) by reflexivity. change (inject_Z (2 ^ 53)) with (inject_Z (2 ^ 52) * 2).
  assert (C : 0 < inject_Z (2 ^ 52)) by reflexivity.
  setoid_replace (x * (inject_Z (2 ^ 52) * (B * I))) with (inject_Z (2 ^ 52) * (x * (B * I))) by ring.
  split; [rewrite Qmult_comm, (Qmult_comm _ (x * _)); apply Qmult_le_compat_r; [easy|now apply Qlt_le_weak]|].
  rewrite Qmult_comm, (Qmult_comm _ 2). apply Qmult_lt_compat_r; easy.
Qed.

(** what [binary64] does: with [x = s 2^e] and [2^52 <= s < 2^53], it rounds [s] to an integer *)
Lemma binary64_form x : 0 < x -> exists e s m, s == x * 2 ^ (- e) /\ inject_Z (2 ^ 52) <= s < inject_Z (2 ^ 53) /\
  m = half_even (Qnum s) (QDen s) /\ binary64 x == inject_Z m * 2 ^ e.
Proof.
  intros P. pose proof (scaled x P) as S. cbv zeta in S. unfold binary64.
  set (e := (Z.log2 (Qnum x) - Z.log2 (QDen x) - 52)%Z) in *.
  destruct (Qle_bool (inject_Z (2 ^ 52)) (x * 2 ^ (- e))) eqn:L.
  - apply Qle_bool_iff in L. exists e, (x * 2 ^ (- e)). eexists. split; [reflexivity|]. split; [split; [exact L|apply S]|]. split; reflexivity.
  - assert (L' : x * 2 ^ (- e) < inject_Z (2 ^ 52)).
    { apply Qnot_le_lt. intros H. apply Qle_bool_iff in H. congruence. }
    exists (e - 1)%Z, (x * 2 ^ (- (e - 1))). eexists. split; [reflexivity|]. split; [|split; reflexivity].
    replace (- (e - 1))%Z with (- e + 1)%Z by lia. rewrite pow2_plus. change (2 ^ 1) with (2#1).
    rewrite Qmult_assoc. change (inject_Z (2 ^ 52)) with (inject_Z (2 ^ 51) * (2#1)) at 1. change (inject_Z (2 ^ 53)) with (inject_Z (2 ^ 52) * (2#1)).
    split; [apply Qmult_le_compat_r; [apply S|easy]|apply Qmult_lt_compat_r; easy].
Qed.
Lemma half_even_Q s : let m := half_even (Qnum s) (QDen s) in - (1#2) <= inject_Z m - s <= 1#2.
Proof.
  intros m. pose proof (half_even_bound (Qnum s) (QDen s) ltac:(lia)) as B. fold m in B.
  unfold Qle, Qminus, Qplus, Qopp, inject_Z. cbn. split; nia.
Qed.
Definition ulp := 1 # (2 ^ 53)%positive.
Lemma ulp_52 : inject_Z (2 ^ 52) * ulp == 1 # 2.
Proof. reflexivity. Qed.
Lemma binary64_error x : 0 < x -> x * (1 - ulp) <= binary64 x <= x * (1 + ulp).
Proof.
  intros P. destruct (binary64_form x P) as (e & s & m & Es & [S1 S2] & Em & ->). pose proof (half_even_Q s) as [H1 H2]. cbv zeta in *. rewrite <- Em in *.
  assert (X : x == s * 2 ^ e). { rewrite Es, <- Qmult_assoc, pow2_opp. ring. }
  assert (U : 1 # 2 <= s * ulp). { rewrite <- ulp_52. apply Qmult_le_compat_r; easy. }
  pose proof (pow2_pos e). set (E := 2 ^ e) in *.
  assert (s * (1 - ulp) <= inject_Z m <= s * (1 + ulp)) as [G1 G2] by (clear - H1 H2 U; set (k := inject_Z m) in *; set (t := s * ulp) in *; assert (s * (1 - ulp) == s - t) as -> by (unfold t; ring); assert (s * (1 + ulp) == s + t) as -> by (unfold t; ring); split; lra).
  assert (Y1 : x * (1 - ulp) == s * (1 - ulp) * E) by (rewrite X; ring). assert (Y2 : x * (1 + ulp) == s * (1 + ulp) * E) by (rewrite X; ring).
  rewrite Y1, Y2. split; (apply Qmult_le_compat_r; [easy|now apply Qlt_le_weak]).
Qed.
Lemma binary64_pos x : 0 < x -> 0 < binary64 x.
Proof.
  intros P. eapply Qlt_le_trans; [|apply binary64_error; easy].
  assert (0 < 1 - ulp) by reflexivity. setoid_replace 0 with (0 * (1 - ulp)) by ring. apply Qmult_lt_compat_r; easy.
Qed.
(** whole numbers below 2^53 are exact *)
Lemma binary64_exact x z : 0 < x -> x == inject_Z z -> (z < 2 ^ 53)%Z -> binary64 x == x.
Proof.
  intros P Ex Z. destruct (binary64_form x P) as (e & s & m & Es & [S1 S2] & Em & ->).
  assert (X : x == s * 2 ^ e). { rewrite Es, <- Qmult_assoc, pow2_opp. ring. }
  assert (He : (e <= 0)%Z).
  { destruct (Z_le_gt_dec e 0) as [|G]; [easy|exfalso].
    assert (2 <= 2 ^ e). { rewrite pow2_Z by lia. change 2 with (inject_Z 2). rewrite <- Zle_Qle. change 2%Z with (2 ^ 1)%Z at 1. apply Z.pow_le_mono_r; lia. }
    assert (X2 : inject_Z (2 ^ 53) <= x).
    { rewrite X. change (inject_Z (2 ^ 53)) with (inject_Z (2 ^ 52) * 2). apply Qle_trans with (s * 2); [apply Qmult_le_compat_r; easy|].
      rewrite (Qmult_comm s), (Qmult_comm s). apply Qmult_le_compat_r; [easy|]. eapply Qle_trans; [|exact S1]. easy. }
    rewrite Ex in X2. rewrite <- Zle_Qle in X2. lia. }
  assert (Ws : s == inject_Z (z * 2 ^ (- e))).
  { rewrite Es, Ex, inject_Z_mult, pow2_Z by lia. reflexivity. }
  assert (Wn : Qnum s = (z * 2 ^ (- e) * QDen s)%Z).
  { unfold Qeq in Ws. cbn in Ws. rewrite Z.mul_1_r in Ws. exact Ws. }
  assert (M : inject_Z m == s).
  { rewrite Em. rewrite half_even_exact; [| lia| rewrite Wn; apply Z.mod_mul; lia].
    rewrite Wn, Z.div_mul by lia. symmetry. exact Ws. }
  rewrite M, X. reflexivity.
Qed.

(** ** The bins of two lines *)
Definition nq (n : nat) : Q := inject_Z (Z.of_nat n).
Lemma nq_pos n : (0 < n)%nat -> 0 < nq n.
Proof. intros H. unfold nq. change 0 with (inject_Z 0). rewrite <- Zlt_Qlt. lia. Qed.
Lemma nq_le a b : (a <= b)%nat <-> nq a <= nq b.
Proof. unfold nq. rewrite <- Zle_Qle. lia. Qed.
Lemma nq_lt a b : (a < b)%nat <-> nq a < nq b.
Proof. unfold nq. rewrite <- Zlt_Qlt. lia. Qed.
Lemma nq_mul a b : nq (a * b) == nq a * nq b.
Proof. unfold nq. rewrite Nat2Z.inj_mul, inject_Z_mult. reflexivity. Qed.
Lemma nq_S a : nq (S a) == nq a + 1.
Proof. unfold nq. rewrite Nat2Z.inj_succ. unfold Z.succ. rewrite inject_Z_plus. reflexivity. Qed.
Lemma div_pos a b : 0 < a -> 0 < b -> 0 < a / b.
Proof. intros. apply Qlt_shift_div_l; [easy|]. now rewrite Qmult_0_l. Qed.
Lemma floor_is x k : nq k <= x -> x < nq (S k) -> Z.to_nat (Qfloor x) = k.
Proof.
  intros A B. assert (Z.of_nat k <= Qfloor x)%Z. { rewrite Zle_Qle. fold (nq k).
    assert (H : (Z.of_nat k < Qfloor x + 1)%Z). { rewrite Zlt_Qlt. eapply Qle_lt_trans; [exact A|apply Qlt_floor]. }
    unfold nq. rewrite <- Zle_Qle. lia. }
  assert (Qfloor x < Z.of_nat (S k))%Z. { rewrite Zlt_Qlt. eapply Qle_lt_trans; [apply Qfloor_le|exact B]. }
  lia.
Qed.

(** bins whose number is whole *)
Lemma first_bin_whole l1 q n2 : (0 < q)%nat -> (0 < n2)%nat -> (Z.of_nat (q * n2) < 2 ^ 52)%Z -> (Z.of_nat l1 < 2 ^ 52)%Z -> (q <= l1)%nat ->
  first_bin l1 (q * n2) n2 = (l1 / q)%nat.
Proof.
  intros Hq Hn B2 B1 L. unfold first_bin. fold (nq l1). fold (nq (q * n2)). fold (nq n2).
  pose proof (nq_pos q Hq) as Pq. pose proof (nq_pos n2 Hn) as Pn.
  assert (E : nq (q * n2) / nq n2 == nq q). { rewrite nq_mul. field. intros E. rewrite E in Pn. discriminate. }
  assert (Eb : binary64 (nq (q * n2) / nq n2) == nq q).
  { transitivity (nq (q * n2) / nq n2); [|exact E]. apply binary64_exact with (Z.of_nat q); [now rewrite E|exact E|]. assert (1 * q <= n2 * q)%nat by (apply Nat.mul_le_mono_r; lia). lia. }
  set (d := binary64 (nq (q * n2) / nq n2)) in *.
  assert (Pd : 0 < d) by now rewrite Eb.
  assert (P1 : 0 < nq l1) by (apply nq_pos; lia).
  pose proof (binary64_error (nq l1 / d) (div_pos _ _ P1 Pd)) as [R1 R2].
  pose proof (Nat.div_mod l1 q ltac:(lia)) as DM. pose proof (Nat.mod_upper_bound l1 q ltac:(lia)) as MB.
  set (k := (l1 / q)%nat) in *. set (r := (l1 mod q)%nat) in *.
  assert (X : nq l1 / d == nq l1 / nq q) by now rewrite Eb.
  assert (El : nq l1 == nq q * nq k + nq r). { rewrite DM. unfold nq. rewrite Nat2Z.inj_add, inject_Z_plus, Nat2Z.inj_mul, inject_Z_mult. reflexivity. }
  assert (Xq : nq l1 / nq q * nq q == nq l1) by (field; intros E0; rewrite E0 in Pq; discriminate).
  set (x := nq l1 / nq q) in *.
  apply floor_is.
  - destruct (Nat.eq_dec r 0) as [R0|R0].
    + (* exact quotient *)
      assert (x == nq k). { apply Qmult_inj_r with (nq q); [intros E0; rewrite E0 in Pq; discriminate|]. rewrite Xq, El, R0. change (nq 0) with 0. ring. }
      assert (K1 : (1 <= k)%nat) by (apply Nat.div_le_lower_bound; lia).
      rewrite (binary64_exact (nq l1 / d) (Z.of_nat k)); [rewrite X, H; apply Qle_refl|apply div_pos; easy|rewrite X, H; reflexivity|].
      assert (k * 1 <= k * q)%nat by (apply Nat.mul_le_mono_l; lia). lia.
    + eapply Qle_trans; [|exact R1]. rewrite X.
      apply Qnot_lt_le. intros Hc. assert (Hc' : x * (1 - ulp) * nq q < nq k * nq q) by (apply Qmult_lt_compat_r; easy).
      assert (x * (1 - ulp) * nq q == nq l1 * (1 - ulp)) by (rewrite <- Xq; ring).
      assert (nq l1 * ulp < 1).
      { assert (nq l1 < inject_Z (2 ^ 53)) by (unfold nq; rewrite <- Zlt_Qlt; lia).
        setoid_replace 1 with (inject_Z (2 ^ 53) * ulp) by reflexivity. apply Qmult_lt_compat_r; easy. }
      assert (1 <= nq r). { change 1 with (nq 1). apply nq_le. lia. }
      nra.
  - eapply Qle_lt_trans; [exact R2|]. rewrite X.
    apply Qnot_le_lt. intros Hc. assert (Hc' : nq (S k) * nq q <= x * (1 + ulp) * nq q) by (apply Qmult_le_compat_r; [easy|now apply Qlt_le_weak]).
    assert (x * (1 + ulp) * nq q == nq l1 * (1 + ulp)) by (rewrite <- Xq; ring).
    assert (nq l1 * ulp < 1).
    { assert (nq l1 < inject_Z (2 ^ 53)) by (unfold nq; rewrite <- Zlt_Qlt; lia).
      setoid_replace 1 with (inject_Z (2 ^ 53) * ulp) by reflexivity. apply Qmult_lt_compat_r; easy. }
    assert (nq r + 1 <= nq q). { rewrite <- nq_S. apply nq_le. lia. }
    rewrite nq_S in Hc'. nra.
Qed.

(** lines of the same length: the bins of the first have as many samples as those of the second, or one less *)
Lemma first_bin_equal l n : (0 < n <= l)%nat -> (Z.of_nat l < 2 ^ 50)%Z -> first_bin l l n = n \/ first_bin l l n = (n - 1)%nat.
Proof.
  intros [Hn L] B. unfold first_bin. fold (nq l). fold (nq n).
  assert (Pl : 0 < nq l) by (apply nq_pos; lia). assert (Pn : 0 < nq n) by (apply nq_pos; lia).
  pose proof (binary64_error (nq l / nq n) (div_pos _ _ Pl Pn)) as [D1 D2].
  pose proof (binary64_pos (nq l / nq n) (div_pos _ _ Pl Pn)) as Pd.
  set (d := binary64 (nq l / nq n)) in *.
  assert (Y : nq l / nq n * nq n == nq l) by (field; intros E0; rewrite E0 in Pn; discriminate).
  assert (D1' : nq l * (1 - ulp) <= d * nq n).
  { setoid_replace (nq l * (1 - ulp)) with (nq l / nq n * (1 - ulp) * nq n) by (rewrite <- Y at 1; ring). apply Qmult_le_compat_r; [easy|now apply Qlt_le_weak]. }
  assert (D2' : d * nq n <= nq l * (1 + ulp)).
  { setoid_replace (nq l * (1 + ulp)) with (nq l / nq n * (1 + ulp) * nq n) by (rewrite <- Y at 1; ring). apply Qmult_le_compat_r; [easy|now apply Qlt_le_weak]. }
  pose proof (binary64_error (nq l / d) (div_pos _ _ Pl Pd)) as [R1 R2].
  assert (X : nq l / d * d == nq l) by (field; intros E0; rewrite E0 in Pd; discriminate).
  set (x := nq l / d) in *. set (v := binary64 x) in *.
  assert (Bn : nq n * (4 * ulp) < 1).
  { assert (nq n < inject_Z (2 ^ 50)) by (unfold nq; rewrite <- Zlt_Qlt; lia).
    apply Qlt_trans with (inject_Z (2 ^ 50) * (4 * ulp)); [apply Qmult_lt_compat_r; easy|reflexivity]. }
  assert (Px : 0 < x) by (apply div_pos; easy).
  assert (X1 : x * (1 - ulp) <= nq n).
  { apply Qnot_lt_le. intros Hc. assert (H : nq n * d < x * (1 - ulp) * d) by (apply Qmult_lt_compat_r; easy).
    setoid_replace (x * (1 - ulp) * d) with (x * d * (1 - ulp)) in H by ring. rewrite X in H. nra. }
  assert (X2 : nq n <= x * (1 + ulp)).
  { apply Qnot_lt_le. intros Hc. assert (H : x * (1 + ulp) * d < nq n * d) by (apply Qmult_lt_compat_r; easy).
    setoid_replace (x * (1 + ulp) * d) with (x * d * (1 + ulp)) in H by ring. rewrite X in H. nra. }
  assert (U : ulp < 1 # 100) by reflexivity. assert (U0 : 0 < ulp) by reflexivity. clear D1 D2 D1' D2' Y B. set (u := ulp) in *. clearbody u.
  set (m := nq n) in *. clearbody v x.
  assert (V1 : v < m + 1) by nra.
  assert (V2 : m - 1 < v) by nra.
  destruct (Qlt_le_dec v m) as [Hv|Hv].
  - right. apply floor_is; [|replace (S (n - 1)) with n by lia; exact Hv].
    assert (nq (n - 1) + 1 == m) by (rewrite <- nq_S; replace (S (n - 1)) with n by lia; reflexivity). lra.
  - left. apply floor_is; [exact Hv|]. rewrite nq_S. exact V1.
Qed.
