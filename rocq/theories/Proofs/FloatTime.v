(** Clock conversions in double precision. *)
From Coq Require Import ZArith QArith Qround Qpower Qabs Lia Lqa.
From Verif.Model Require Import Time BinSpec FloatTime.
From Verif.Spec Require Import Time.
From Verif.Proofs Require Import Time Binary64.
Open Scope Q_scope.

(** ** Rounding *)
Lemma pow2_lt_inv a b : 2 ^ a < 2 ^ b -> (a < b)%Z.
Proof.
  intros H. destruct (Z_lt_le_dec a b) as [|L]; [easy|exfalso].
  assert (2 ^ b <= 2 ^ a); [|lra]. replace a with (b + (a - b))%Z by lia. rewrite pow2_plus.
  assert (1 <= 2 ^ (a - b)). { rewrite pow2_Z by lia. change 1 with (inject_Z 1). rewrite <- Zle_Qle. pose proof (Z.pow_pos_nonneg 2 (a - b) eq_refl ltac:(lia)). lia. }
  pose proof (pow2_pos b). nra.
Qed.
Lemma pow2_le a b : (a <= b)%Z -> 2 ^ a <= 2 ^ b.
Proof. intros H. apply Qnot_lt_le. intros L. apply pow2_lt_inv in L. lia. Qed.
Lemma unscale x s e : s == x * 2 ^ (- e) -> x == s * 2 ^ e.
Proof. intros ->. rewrite <- Qmult_assoc, pow2_opp. ring. Qed.

Lemma dyadic x z j : 0 < x -> x == inject_Z z * 2 ^ j -> (z < 2 ^ 53)%Z -> binary64 x == x.
Proof.
  intros P Ex Z. destruct (binary64_form x P) as (e & s & m & Es & [S1 S2] & Em & ->).
  pose proof (unscale _ _ _ Es) as X.
  assert (He : (e <= j)%Z).
  { destruct (Z_le_gt_dec e j) as [|G]; [easy|exfalso].
    assert (Ez : inject_Z z == s * 2 ^ (e - j)).
    { pose proof (pow2_pos j). apply (Qmult_inj_r _ _ (2 ^ j)); [lra|]. rewrite <- Ex, X, <- Qmult_assoc, <- pow2_plus. replace (e - j + j)%Z with e by lia. reflexivity. }
    assert (2 <= 2 ^ (e - j)) by (change 2 with (2 ^ 1) at 1; apply pow2_le; lia).
    assert (inject_Z z < inject_Z (2 ^ 53)) by (rewrite <- Zlt_Qlt; lia).
    rewrite Ez in H0. change (inject_Z (2 ^ 53)) with (inject_Z (2 ^ 52) * 2) in H0. set (c := inject_Z (2 ^ 52)) in *. assert (0 < c) by reflexivity. nra. }
  assert (Ws : s == inject_Z (z * 2 ^ (j - e))).
  { rewrite Es, Ex, inject_Z_mult, <- Qmult_assoc, <- pow2_plus, <- pow2_Z by lia. replace (j + - e)%Z with (j - e)%Z by lia. reflexivity. }
  assert (Wn : Qnum s = (z * 2 ^ (j - e) * QDen s)%Z).
  { unfold Qeq in Ws. cbn in Ws. rewrite Z.mul_1_r in Ws. exact Ws. }
  assert (M : inject_Z m == s).
  { rewrite Em. rewrite half_even_exact; [| lia| rewrite Wn; apply Z.mod_mul; lia].
    rewrite Wn, Z.div_mul by lia. symmetry. exact Ws. }
  rewrite M, X. reflexivity.
Qed.

Lemma half_even_nearest s : nearest_int s (half_even (Qnum s) (QDen s)).
Proof.
  pose proof (half_even_Q s) as [H1 H2]. cbv zeta in *. split; [lra|]. split; [lra|]. intros T.
  destruct s as [n d]. cbn [Qnum Qden] in *. unfold half_even in *. pose proof (Z.div_mod n (Z.pos d) ltac:(lia)) as E. pose proof (Z.mod_pos_bound n (Z.pos d) ltac:(lia)) as B.
  set (q := (n / Z.pos d)%Z) in *. set (r := (n mod Z.pos d)%Z) in *.
  destruct (Z.compare_spec (2 * r) (Z.pos d)) as [C|C|C].
  - destruct (Z.even q) eqn:V; [exact V|]. rewrite Z.even_add, V. reflexivity.
  - exfalso. unfold Qeq, Qplus, Qminus, Qopp, inject_Z in T. cbn in T. destruct T; nia.
  - exfalso. unfold Qeq, Qplus, Qminus, Qopp, inject_Z in T. cbn in T. destruct T; nia.
Qed.
Lemma nearest_mono x y a b : nearest_int x a -> nearest_int y b -> x <= y -> (a <= b)%Z.
Proof.
  intros (A1 & A2 & A3) (B1 & B2 & B3) L. destruct (Z_le_gt_dec a b) as [|G]; [easy|exfalso].
  assert (inject_Z (b + 1) <= inject_Z a) by (rewrite <- Zle_Qle; lia). rewrite inject_Z_plus in H. change (inject_Z 1) with 1 in H.
  assert (Ea : inject_Z a == inject_Z (b + 1)) by (rewrite inject_Z_plus; change (inject_Z 1) with 1; lra).
  assert (E : a = (b + 1)%Z) by (unfold Qeq in Ea; cbn in Ea; lia).
  rewrite inject_Z_plus in Ea. change (inject_Z 1) with 1 in Ea.
  assert (V1 : Z.even a = true) by (apply A3; right; lra). assert (V2 : Z.even b = true) by (apply B3; left; lra).
  rewrite E, Z.even_add, V2 in V1. discriminate.
Qed.
Lemma binary64_mono x y : 0 < x -> x <= y -> binary64 x <= binary64 y.
Proof.
  intros P L. destruct (binary64_form x P) as (e & s & m & Es & [S1 S2] & Em & ->). destruct (binary64_form y ltac:(lra)) as (f & u & k & Eu & [U1 U2] & Ek & ->).
  pose proof (unscale _ _ _ Es) as X. pose proof (unscale _ _ _ Eu) as Y. pose proof (pow2_pos e) as Pe. pose proof (pow2_pos f) as Pf.
  pose proof (half_even_nearest s) as N1. pose proof (half_even_nearest u) as N2. rewrite <- Em in N1. rewrite <- Ek in N2.
  assert (C : 0 < inject_Z (2 ^ 52)) by reflexivity.
  assert (W : inject_Z (2 ^ 53) == inject_Z (2 ^ 52) * 2) by reflexivity.
  assert (Hef : (e <= f)%Z).
  { destruct (Z_le_gt_dec e f) as [|G]; [easy|exfalso]. assert (2 ^ f * 2 <= 2 ^ e). { change (2 ^ f * 2) with (2 ^ f * 2 ^ 1). rewrite <- pow2_plus. apply pow2_le. lia. }
    rewrite W in U2. set (c := inject_Z (2 ^ 52)) in *. assert (c * 2 ^ e <= s * 2 ^ e) by nra. assert (u * 2 ^ f < c * 2 * 2 ^ f) by nra. nra. }
  destruct (Z.eq_dec e f) as [<-|D].
  - assert (Hs : s <= u). { rewrite X, Y in L. apply Qmult_le_r in L; easy. }
    pose proof (nearest_mono _ _ _ _ N1 N2 Hs) as M. apply Qmult_le_compat_r; [now rewrite <- Zle_Qle|lra].
  - assert (M1 : (m <= 2 ^ 53)%Z).
    { apply (nearest_mono s (inject_Z (2 ^ 53)) _ _ N1); [|lra]. repeat split; lra. }
    assert (M2 : (2 ^ 52 <= k)%Z).
    { apply (nearest_mono (inject_Z (2 ^ 52)) u _ _); [|exact N2|lra]. repeat split; lra. }
    apply Qle_trans with (inject_Z (2 ^ 53) * 2 ^ e); [apply Qmult_le_compat_r; [now rewrite <- Zle_Qle|lra]|].
    apply Qle_trans with (inject_Z (2 ^ 52) * 2 ^ f); [|apply Qmult_le_compat_r; [now rewrite <- Zle_Qle|lra]].
    assert (2 ^ e * 2 <= 2 ^ f). { change (2 ^ e * 2) with (2 ^ e * 2 ^ 1). rewrite <- pow2_plus. apply pow2_le. lia. }
    rewrite W. set (c := inject_Z (2 ^ 52)) in *. nra.
Qed.
Lemma binary64_abs x k : 0 < x -> x <= 2 ^ k -> - 2 ^ (k - 54) <= binary64 x - x <= 2 ^ (k - 54).
Proof.
  intros P L. pose proof (pow2_pos (k - 54)) as Pk. destruct (Qeq_dec x (2 ^ k)) as [E|N].
  - assert (binary64 x == x) as ->; [|lra]. apply (dyadic x 1 k P); [rewrite E; ring|reflexivity].
  - assert (L' : x < 2 ^ k) by (apply Qle_lteq in L as [|]; tauto).
    destruct (binary64_form x P) as (e & s & m & Es & [S1 S2] & Em & ->). pose proof (unscale _ _ _ Es) as X. pose proof (pow2_pos e) as Pe.
    pose proof (half_even_Q s) as [H1 H2]. cbv zeta in *. rewrite <- Em in *.
    assert (He : (52 + e < k)%Z). { apply pow2_lt_inv. rewrite pow2_plus, (pow2_Z 52) by lia. rewrite X in L'. eapply Qle_lt_trans; [|exact L']. apply Qmult_le_compat_r; [easy|lra]. }
    assert (2 ^ (e - 1) <= 2 ^ (k - 54)) by (apply pow2_le; lia).
    assert (2 ^ (e - 1) == 2 ^ e * (1#2)). { unfold Z.sub. rewrite pow2_plus. reflexivity. }
    set (E := 2 ^ e) in *. rewrite X. set (K := 2 ^ (k - 54)) in *. set (M := inject_Z m) in *.
    assert (M * E - s * E == (M - s) * E) as -> by ring. nra.
Qed.

Lemma binary64_comp x y : 0 < x -> x == y -> binary64 x == binary64 y.
Proof. intros P E. apply Qle_antisym; apply binary64_mono; lra. Qed.
Lemma f64_pos x : 0 < x -> f64 x = binary64 x.
Proof. intros H. unfold f64. destruct (Qcompare_spec x 0); [lra|lra|reflexivity]. Qed.
Lemma f64_neg x : x < 0 -> f64 x = - binary64 (- x).
Proof. intros H. unfold f64. destruct (Qcompare_spec x 0); [lra|reflexivity|lra]. Qed.
Lemma f64_zero x : x == 0 -> f64 x = 0.
Proof. intros H. unfold f64. destruct (Qcompare_spec x 0); [reflexivity|lra|lra]. Qed.
Lemma f64_abs x k : - 2 ^ k <= x <= 2 ^ k -> - 2 ^ (k - 54) <= f64 x - x <= 2 ^ (k - 54).
Proof.
  intros [L U]. pose proof (pow2_pos (k - 54)). destruct (Q_dec x 0) as [[N|P]|E].
  - rewrite f64_neg by easy. pose proof (binary64_abs (- x) k ltac:(lra) ltac:(lra)). lra.
  - rewrite f64_pos by easy. now apply binary64_abs.
  - rewrite f64_zero by easy. lra.
Qed.
Lemma f64_mono x y : x <= y -> f64 x <= f64 y.
Proof.
  intros L. destruct (Q_dec x 0) as [[N|P]|E].
  - rewrite f64_neg by easy. pose proof (binary64_pos (- x) ltac:(lra)). destruct (Q_dec y 0) as [[N'|P']|E'].
    + rewrite f64_neg by easy. pose proof (binary64_mono (- y) (- x) ltac:(lra) ltac:(lra)). lra.
    + rewrite f64_pos by easy. pose proof (binary64_pos y P'). lra.
    + rewrite f64_zero by easy. lra.
  - rewrite !f64_pos by lra. now apply binary64_mono.
  - rewrite f64_zero by easy. destruct (Q_dec y 0) as [[N'|P']|E']; [lra| |rewrite f64_zero by easy; lra].
    rewrite f64_pos by easy. pose proof (binary64_pos y P'). lra.
Qed.
Lemma f64_whole z j : (0 <= z < 2 ^ 53)%Z -> f64 (inject_Z z * 2 ^ j) == inject_Z z * 2 ^ j.
Proof.
  intros H. pose proof (pow2_pos j). destruct (Z.eq_dec z 0) as [->|N]; [rewrite f64_zero; ring|].
  assert (0 < inject_Z z) by (change 0 with (inject_Z 0); rewrite <- Zlt_Qlt; lia).
  rewrite f64_pos by nra. apply (dyadic _ z j); [nra|reflexivity|lia].
Qed.
Lemma f64_nonneg x : 0 <= x -> 0 <= f64 x.
Proof. intros H. rewrite <- (f64_zero 0) by reflexivity. now apply f64_mono. Qed.
Lemma f64_le x z j : (0 <= z < 2 ^ 53)%Z -> x <= inject_Z z * 2 ^ j -> f64 x <= inject_Z z * 2 ^ j.
Proof. intros H L. rewrite <- (f64_whole z j H). now apply f64_mono. Qed.

(** ** Dates *)
Definition G9 : Q := inject_Z 1000000000.
Definition M6 : Q := inject_Z 1000000.
Lemma qround_near x z : - (1#2) < x - inject_Z z < 1#2 -> qround_half_even x = z.
Proof.
  intros H. apply (nearest_int_unique x); [apply qround_spec|]. repeat split; try lra; intros [T|T]; exfalso; lra.
Qed.
Lemma qtrunc_frac x : - (1) < x - inject_Z (qtrunc x) < 1.
Proof.
  destruct x as [n d]. unfold qtrunc. cbn [Qnum Qden]. pose proof (Z.quot_rem' n (Z.pos d)) as E. pose proof (Z.rem_bound_abs n (Z.pos d) ltac:(lia)) as B.
  set (q := Z.quot n (Z.pos d)) in *. set (r := Z.rem n (Z.pos d)) in *. unfold Qlt, Qminus, Qplus, Qopp, inject_Z. cbn. split; nia.
Qed.
Lemma epoch2date_near ep t : - (499999 # 1000000) <= ep * M6 - inject_Z t <= 499999 # 1000000 -> epoch2date_64 ep = t.
Proof.
  intros H. unfold epoch2date_64. pose proof (qtrunc_frac ep) as F. set (i := qtrunc ep) in *. change us_per_s with 1000000%Z. fold M6.
  assert (A : - 2 ^ 20 <= (ep - inject_Z i) * M6 <= 2 ^ 20).
  { assert (M6 <= 2 ^ 20) by discriminate. assert (0 < M6) by reflexivity. nra. }
  pose proof (f64_abs _ 20 A) as B. change (20 - 54)%Z with (-34)%Z in B.
  rewrite (qround_near _ (t - i * 1000000)); [lia|].
  assert (Z : inject_Z (t - i * 1000000) == inject_Z t - inject_Z i * M6).
  { unfold Z.sub. rewrite inject_Z_plus, inject_Z_opp, inject_Z_mult. reflexivity. }
  rewrite Z. set (y := f64 ((ep - inject_Z i) * M6)) in *.
  assert ((ep - inject_Z i) * M6 == ep * M6 - inject_Z i * M6) as E by ring. rewrite E in B.
  assert (P : 2 ^ (-34) <= 1 # 10000000) by discriminate. set (p := 2 ^ (-34)) in *. set (a := ep * M6) in *. set (b := inject_Z i * M6) in *. split; lra.
Qed.
Lemma scale6 t : inject_Z t / inject_Z us_per_s * M6 == inject_Z t.
Proof. change (inject_Z us_per_s) with M6. field. discriminate. Qed.
Lemma bound6 t c : (Z.abs t <= c * 1000000)%Z -> - inject_Z c <= inject_Z t / inject_Z us_per_s <= inject_Z c.
Proof.
  intros H. pose proof (scale6 t) as S. assert (P : 0 < M6) by reflexivity. set (y := inject_Z t / inject_Z us_per_s) in *.
  assert (L : inject_Z t <= inject_Z c * M6). { unfold M6. rewrite <- inject_Z_mult, <- Zle_Qle. lia. }
  assert (U : inject_Z (- c) * M6 <= inject_Z t). { unfold M6. rewrite <- inject_Z_mult, <- Zle_Qle. lia. }
  rewrite inject_Z_opp in U. rewrite <- S in L, U. apply Qmult_le_r in L; [|easy]. apply Qmult_le_r in U; [|easy]. split; easy.
Qed.
Lemma date2epoch_err t k : (0 <= k)%Z -> (Z.abs t <= 2 ^ k * 1000000)%Z ->
  - 2 ^ (k - 54) <= date2epoch_64 t - inject_Z t / inject_Z us_per_s <= 2 ^ (k - 54).
Proof. intros K H. unfold date2epoch_64. apply f64_abs. rewrite (pow2_Z k) by easy. now apply bound6. Qed.
Lemma date_roundtrip t : (Z.abs t <= 2 ^ 33 * 1000000)%Z -> epoch2date_64 (date2epoch_64 t) = t.
Proof.
  intros H. apply epoch2date_near. pose proof (date2epoch_err t 33 ltac:(lia) H) as E. change (33 - 54)%Z with (-21)%Z in E.
  rewrite <- (scale6 t). set (ep := date2epoch_64 t) in *. set (x := inject_Z t / inject_Z us_per_s) in *.
  assert (D : ep * M6 - x * M6 == (ep - x) * M6) by ring. rewrite D.
  assert (B : 2 ^ (-21) * M6 <= 499999 # 1000000) by discriminate. assert (P : 0 < M6) by reflexivity. set (p := 2 ^ (-21)) in *. nra.
Qed.
(** nanoseconds to seconds and back to nanoseconds *)
Lemma scale9 x : x / inject_Z ns_per_s * G9 == x.
Proof. change (inject_Z ns_per_s) with G9. field. discriminate. Qed.
Lemma dt642epoch_err n j k z i : (0 <= n <= 2 ^ j * 1000000000)%Z -> (n <= 2 ^ k)%Z -> (0 <= j)%Z -> (0 <= k)%Z ->
  (2 ^ j * 1000000000 = z * 2 ^ i)%Z -> (0 <= i)%Z -> (0 <= z < 2 ^ 53)%Z ->
  - (2 ^ (k - 54) + 2 ^ (j - 54) * G9) <= dt642epoch_64 n * G9 - inject_Z n <= 2 ^ (k - 54) + 2 ^ (j - 54) * G9.
Proof.
  intros [N0 Nj] Nk J K Ez I Hz. unfold dt642epoch_64.
  assert (P0 : 0 <= inject_Z n) by (change 0 with (inject_Z 0); now rewrite <- Zle_Qle).
  assert (A : - 2 ^ k <= inject_Z n <= 2 ^ k).
  { rewrite (pow2_Z k) by easy. assert (inject_Z n <= inject_Z (2 ^ k)) by now rewrite <- Zle_Qle. lra. }
  pose proof (f64_abs _ k A) as E1. pose proof (f64_nonneg _ P0) as Q0.
  assert (Q1 : f64 (inject_Z n) <= inject_Z z * 2 ^ i).
  { apply f64_le; [easy|]. rewrite (pow2_Z i), <- inject_Z_mult, <- Zle_Qle by easy. lia. }
  rewrite (pow2_Z i), <- inject_Z_mult, <- Ez, inject_Z_mult, <- pow2_Z in Q1 by easy. fold G9 in Q1.
  set (m := f64 (inject_Z n)) in *. pose proof (scale9 m) as S. set (q := m / inject_Z ns_per_s) in *.
  assert (P : 0 < G9) by reflexivity. pose proof (pow2_pos j) as Pj.
  assert (B : - 2 ^ j <= q <= 2 ^ j).
  { rewrite <- S in Q0, Q1. apply Qmult_le_r in Q1; [|easy]. setoid_replace 0 with (0 * G9) in Q0 by ring. apply Qmult_le_r in Q0; [|easy]. lra. }
  pose proof (f64_abs _ j B) as E2. set (r := f64 q) in *. set (a := 2 ^ (k - 54)) in *. set (b := 2 ^ (j - 54)) in *.
  assert (D : r * G9 - inject_Z n == (r - q) * G9 + (m - inject_Z n)) by (rewrite <- S; ring). rewrite D. nra.
Qed.
Ltac consts := repeat match goal with |- context [ (?a - 54)%Z ] => let v := eval compute in (a - 54)%Z in change (a - 54)%Z with v end.
Lemma dt642epoch_31 n : (0 <= n <= 2 ^ 31 * 1000000000)%Z -> - (24721#100) <= dt642epoch_64 n * G9 - inject_Z n <= 24721#100.
Proof.
  intros H. pose proof (dt642epoch_err n 31 61 1953125 40 H) as E. change (31 - 54)%Z with (-23)%Z in E. change (61 - 54)%Z with 7%Z in E.
  assert (B : 2 ^ 7 + 2 ^ (-23) * G9 <= 24721#100) by discriminate. set (b := 2 ^ 7 + 2 ^ (-23) * G9) in *.
  assert (- b <= dt642epoch_64 n * G9 - inject_Z n <= b) by (apply E; lia). lra.
Qed.
Lemma dt642epoch_32 n : (0 <= n <= 2 ^ 32 * 1000000000)%Z -> - (49442#100) <= dt642epoch_64 n * G9 - inject_Z n <= 49442#100.
Proof.
  intros H. pose proof (dt642epoch_err n 32 62 1953125 41 H) as E. change (32 - 54)%Z with (-22)%Z in E. change (62 - 54)%Z with 8%Z in E.
  assert (B : 2 ^ 8 + 2 ^ (-22) * G9 <= 49442#100) by discriminate. set (b := 2 ^ 8 + 2 ^ (-22) * G9) in *.
  assert (- b <= dt642epoch_64 n * G9 - inject_Z n <= b) by (apply E; lia). lra.
Qed.
Lemma dt642epoch_33 n : (0 <= n <= 2 ^ 33 * 1000000000)%Z -> - (98884#100) <= dt642epoch_64 n * G9 - inject_Z n <= 98884#100.
Proof.
  intros H. pose proof (dt642epoch_err n 33 63 1953125 42 H) as E. change (33 - 54)%Z with (-21)%Z in E. change (63 - 54)%Z with 9%Z in E.
  assert (B : 2 ^ 9 + 2 ^ (-21) * G9 <= 98884#100) by discriminate. set (b := 2 ^ 9 + 2 ^ (-21) * G9) in *.
  assert (- b <= dt642epoch_64 n * G9 - inject_Z n <= b) by (apply E; lia). lra.
Qed.
Lemma dt642epoch_nonneg n : (0 <= n)%Z -> 0 <= dt642epoch_64 n.
Proof.
  intros H. unfold dt642epoch_64. apply f64_nonneg. assert (0 <= f64 (inject_Z n)). { apply f64_nonneg. change 0 with (inject_Z 0). now rewrite <- Zle_Qle. }
  unfold Qdiv. apply Qmult_le_0_compat; [easy|discriminate].
Qed.
Lemma fmod1_nonneg ep : 0 <= ep -> fmod1 ep = ep - inject_Z (Qfloor ep) /\ qtrunc ep = Qfloor ep.
Proof.
  intros H. pose proof (qtrunc_nonneg ep H) as T. split; [|easy]. unfold fmod1. rewrite T. destruct (Qfloor_bounds ep) as [A B].
  assert (L : 0 <= ep - inject_Z (Qfloor ep)) by lra. apply Qle_bool_iff in L. now rewrite L.
Qed.
Lemma epoch2dt64_form ep : 0 <= ep ->
  epoch2dt64_64 ep = (Qfloor ep * 1000000000 + Qfloor (f64 ((ep - inject_Z (Qfloor ep)) * G9)))%Z.
Proof.
  intros H. unfold epoch2dt64_64. destruct (fmod1_nonneg ep H) as [-> ->]. change ns_per_s with 1000000000%Z. fold G9.
  rewrite (qtrunc_nonneg (f64 _)); [reflexivity|]. apply f64_nonneg. destruct (Qfloor_bounds ep). assert (0 < G9) by reflexivity. nra.
Qed.
Lemma epoch2dt64_err ep : 0 <= ep -> - (1 + (1 # 10000000)) <= inject_Z (epoch2dt64_64 ep) - ep * G9 <= 1 # 10000000.
Proof.
  intros H. rewrite epoch2dt64_form by easy. rewrite inject_Z_plus, inject_Z_mult. fold G9. destruct (Qfloor_bounds ep) as [A B]. set (i := Qfloor ep) in *.
  assert (P : 0 < G9) by reflexivity.
  assert (C : - 2 ^ 30 <= (ep - inject_Z i) * G9 <= 2 ^ 30). { assert (G9 <= 2 ^ 30) by discriminate. nra. }
  pose proof (f64_abs _ 30 C) as E. change (30 - 54)%Z with (-24)%Z in E. assert (K : 2 ^ (-24) <= 1 # 10000000) by discriminate.
  set (y := f64 ((ep - inject_Z i) * G9)) in *. destruct (Qfloor_bounds y) as [Y1 Y2].
  assert (D : (ep - inject_Z i) * G9 == ep * G9 - inject_Z i * G9) by ring. rewrite D in E. set (p := 2 ^ (-24)) in *. set (a := ep * G9) in *. set (b := inject_Z i * G9) in *.
  split; lra.
Qed.
Lemma Z_from_Q a b c : - (inject_Z c + (9#10)) <= inject_Z a - inject_Z b <= inject_Z c + (9#10) -> (Z.abs (a - b) <= c)%Z.
Proof.
  intros [L U]. assert (inject_Z (a - b) < inject_Z (c + 1)). { unfold Z.sub. rewrite !inject_Z_plus, inject_Z_opp. change (inject_Z 1) with 1. lra. }
  assert (inject_Z (- (c + 1)) < inject_Z (a - b)). { unfold Z.sub. rewrite inject_Z_opp, !inject_Z_plus, inject_Z_opp. change (inject_Z 1) with 1. lra. }
  rewrite <- Zlt_Qlt in *. lia.
Qed.
Lemma ns_roundtrip_31 n : (0 <= n <= 2 ^ 31 * 1000000000)%Z -> (Z.abs (epoch2dt64_64 (dt642epoch_64 n) - n) <= 248)%Z.
Proof.
  intros H. pose proof (dt642epoch_31 n H) as A. pose proof (epoch2dt64_err _ (dt642epoch_nonneg n ltac:(lia))) as B.
  apply Z_from_Q. change (inject_Z 248) with 248. set (a := dt642epoch_64 n * G9) in *. lra.
Qed.
Lemma ns_roundtrip_33 n : (0 <= n <= 2 ^ 33 * 1000000000)%Z -> (Z.abs (epoch2dt64_64 (dt642epoch_64 n) - n) <= 989)%Z.
Proof.
  intros H. pose proof (dt642epoch_33 n H) as A. pose proof (epoch2dt64_err _ (dt642epoch_nonneg n ltac:(lia))) as B.
  apply Z_from_Q. change (inject_Z 989) with 989. set (a := dt642epoch_64 n * G9) in *. lra.
Qed.
Lemma G9_M6 : G9 == M6 * 1000.
Proof. reflexivity. Qed.
Lemma dt642date_near n t : - (499998#1000) <= dt642epoch_64 n * G9 - inject_Z (t * 1000) <= 499998#1000 -> dt642date_64 n = t.
Proof.
  intros H. unfold dt642date_64. apply epoch2date_near. rewrite inject_Z_mult in H. change (inject_Z 1000) with 1000 in H. rewrite G9_M6 in H.
  set (e := dt642epoch_64 n) in *. assert (D : e * (M6 * 1000) == e * M6 * 1000) by ring. rewrite D in H. set (a := e * M6) in *. lra.
Qed.
Lemma displayed t : (0 <= t <= 2 ^ 32 * 1000000)%Z -> dt642date_64 (t * 1000) = t.
Proof. intros H. apply dt642date_near. pose proof (dt642epoch_32 (t * 1000) ltac:(lia)). lra. Qed.
Lemma epoch2dt64_whole z : (0 <= z)%Z -> epoch2dt64_64 (inject_Z z) = (z * 1000000000)%Z.
Proof.
  intros H. rewrite epoch2dt64_form by (change 0 with (inject_Z 0); now rewrite <- Zle_Qle). rewrite Qfloor_Z.
  rewrite f64_zero by (rewrite <- (Qmult_0_l G9); apply Qmult_comp; [ring|reflexivity]). change (Qfloor 0) with 0%Z. lia.
Qed.
Lemma epoch2dt64_monotone x y : 0 <= x -> x <= y -> (epoch2dt64_64 x <= epoch2dt64_64 y)%Z.
Proof.
  intros H L. rewrite !epoch2dt64_form by lra. pose proof (Qfloor_mono x y L) as F. destruct (Qfloor_bounds x) as [A B]. destruct (Qfloor_bounds y) as [A' B'].
  assert (P : 0 < G9) by reflexivity.
  destruct (Z.eq_dec (Qfloor x) (Qfloor y)) as [E|N].
  - rewrite <- E. apply Z.add_le_mono_l. apply Qfloor_mono, f64_mono. apply Qmult_le_compat_r; [lra|now apply Qlt_le_weak].
  - assert (U : f64 ((x - inject_Z (Qfloor x)) * G9) <= inject_Z 1000000000 * 2 ^ 0). { apply f64_le; [lia|]. change (inject_Z 1000000000) with G9. change (2 ^ 0) with 1. nra. }
    change (2 ^ 0) with 1 in U. rewrite Qmult_1_r in U. apply Qfloor_mono in U. rewrite Qfloor_Z in U.
    assert (0 <= Qfloor (f64 ((y - inject_Z (Qfloor y)) * G9)))%Z.
    { change 0%Z with (Qfloor 0). apply Qfloor_mono, f64_nonneg. nra. }
    lia.
Qed.
Lemma dt642epoch_monotone n m : (n <= m)%Z -> dt642epoch_64 n <= dt642epoch_64 m.
Proof.
  intros H. unfold dt642epoch_64. apply f64_mono. unfold Qdiv. apply Qmult_le_compat_r; [|discriminate]. apply f64_mono. now rewrite <- Zle_Qle.
Qed.
Lemma date2epoch_monotone n m : (n <= m)%Z -> date2epoch_64 n <= date2epoch_64 m.
Proof. intros H. unfold date2epoch_64. apply f64_mono. unfold Qdiv. apply Qmult_le_compat_r; [|discriminate]. now rewrite <- Zle_Qle. Qed.
Lemma date2epoch_range t k : (0 <= k)%Z -> (0 <= t <= 2 ^ k * 1000000)%Z -> 0 <= date2epoch_64 t <= inject_Z (2 ^ k).
Proof.
  intros K H. unfold date2epoch_64. destruct (bound6 t (2 ^ k) ltac:(lia)) as [_ U]. split.
  - apply f64_nonneg. unfold Qdiv. apply Qmult_le_0_compat; [change 0 with (inject_Z 0); now rewrite <- Zle_Qle|discriminate].
  - rewrite <- pow2_Z in * by easy. assert (E : 2 ^ k == inject_Z 1 * 2 ^ k) by ring. rewrite E in *. apply f64_le; [lia|easy].
Qed.
Lemma dataset t : (0 <= t <= 2 ^ 31 * 1000000)%Z -> dt642date_64 (epoch2dt64_64 (date2epoch_64 t)) = t.
Proof.
  intros H. destruct (date2epoch_range t 31 ltac:(lia) H) as [R0 R1]. pose proof (date2epoch_err t 31 ltac:(lia) ltac:(lia)) as E1. change (31 - 54)%Z with (-23)%Z in E1.
  pose proof (epoch2dt64_err _ R0) as E2. set (ep := date2epoch_64 t) in *. set (n := epoch2dt64_64 ep) in *.
  assert (Hn : (0 <= n <= 2 ^ 31 * 1000000000)%Z).
  { split; [apply (epoch2dt64_monotone 0 ep); lra|]. rewrite <- (epoch2dt64_whole (2 ^ 31)) by lia. now apply epoch2dt64_monotone. }
  pose proof (dt642epoch_31 n Hn) as E3. apply dt642date_near. rewrite inject_Z_mult. change (inject_Z 1000) with 1000.
  pose proof (scale6 t) as S. set (x := inject_Z t / inject_Z us_per_s) in *. rewrite <- S.
  assert (D : (ep - x) * G9 == ep * G9 - x * M6 * 1000) by (rewrite G9_M6; ring).
  assert (B : - (1193#10) <= (ep - x) * G9 <= 1193#10). { assert (2 ^ (-23) * G9 <= 1193#10) by discriminate. assert (0 < G9) by reflexivity. set (p := 2 ^ (-23)) in *. nra. }
  rewrite D in B. set (a := ep * G9) in *. set (b := x * M6) in *. set (c := dt642epoch_64 n * G9) in *. lra.
Qed.
Lemma recorded t : (0 <= t <= 2 ^ 31 * 1000000)%Z -> (Z.abs (epoch2dt64_64 (date2epoch_64 t) - t * 1000) <= 120)%Z.
Proof.
  intros H. destruct (date2epoch_range t 31 ltac:(lia) H) as [R0 R1]. pose proof (date2epoch_err t 31 ltac:(lia) ltac:(lia)) as E1. change (31 - 54)%Z with (-23)%Z in E1.
  pose proof (epoch2dt64_err _ R0) as E2. set (ep := date2epoch_64 t) in *. apply Z_from_Q. change (inject_Z 120) with 120. rewrite inject_Z_mult. change (inject_Z 1000) with 1000.
  pose proof (scale6 t) as S. set (x := inject_Z t / inject_Z us_per_s) in *. rewrite <- S.
  assert (D : (ep - x) * G9 == ep * G9 - x * M6 * 1000) by (rewrite G9_M6; ring).
  assert (B : - (11921#100) <= (ep - x) * G9 <= 11921#100). { assert (2 ^ (-23) * G9 <= 11921#100) by discriminate. assert (0 < G9) by reflexivity. set (p := 2 ^ (-23)) in *. nra. }
  rewrite D in B. set (a := ep * G9) in *. set (b := x * M6) in *. lra.
Qed.

(** ** MATLAB day numbers *)
Definition DD : Q := inject_Z us_per_day.
Lemma frac_range a b : (0 <= a <= b)%Z -> (0 < b)%Z -> 0 <= inject_Z a / inject_Z b <= 1.
Proof.
  intros [A B] C. assert (P : 0 < inject_Z b) by (change 0 with (inject_Z 0); now rewrite <- Zlt_Qlt). split.
  - apply Qle_shift_div_l; [easy|]. rewrite Qmult_0_l. change 0 with (inject_Z 0). now rewrite <- Zle_Qle.
  - apply Qle_shift_div_r; [easy|]. rewrite Qmult_1_l. now rewrite <- Zle_Qle.
Qed.
Lemma date2matlab_err t : (0 <= t + 366 * us_per_day < (2 ^ 20 - 1) * us_per_day)%Z ->
  0 <= date2matlab_64 t /\ - (10059#1000) <= date2matlab_64 t * DD - inject_Z (t + 366 * us_per_day) <= 10059#1000.
Proof.
  intros [L U]. rewrite <- date2matlab_val. fold DD. unfold date2matlab_64, date2matlab.
  assert (Ho : (0 <= (t + 366 * us_per_day) / us_per_day <= 2 ^ 20 - 2)%Z).
  { split; [apply Z.div_pos; [easy|reflexivity]|]. assert ((t + 366 * us_per_day) / us_per_day < 2 ^ 20 - 1)%Z; [|lia]. apply Z.div_lt_upper_bound; [reflexivity|]. lia. }
  assert (Hs : (0 <= (t mod us_per_day) / us_per_s <= 86400)%Z).
  { pose proof (Z.mod_pos_bound t us_per_day eq_refl) as B. split; [apply Z.div_pos; [easy|reflexivity]|]. apply Z.lt_le_incl, Z.div_lt_upper_bound; [reflexivity|]. change us_per_day with (us_per_s * 86400)%Z in B at 2. easy. }
  assert (Hm : (0 <= t mod us_per_s < 1000000)%Z) by (apply Z.mod_pos_bound; reflexivity).
  set (o := ((t + 366 * us_per_day) / us_per_day)%Z) in *. set (s := ((t mod us_per_day) / us_per_s)%Z) in *. set (u := (t mod us_per_s)%Z) in *. clearbody o s u. clear L U.
  destruct (frac_range s 86400 Hs eq_refl) as [S0 S1]. set (x := inject_Z s / inject_Z 86400) in *.
  assert (R : 0 <= inject_Z u / inject_Z us_per_day <= 2 ^ (-16)).
  { split; [apply Qle_shift_div_l; [reflexivity|]; rewrite Qmult_0_l; change 0 with (inject_Z 0); rewrite <- Zle_Qle; lia|].
    apply Qle_shift_div_r; [reflexivity|]. apply Qle_trans with (inject_Z 1000000); [rewrite <- Zle_Qle; lia|discriminate]. }
  set (y := inject_Z u / inject_Z us_per_day) in *. destruct R as [Y0 Y1].
  assert (O : 0 <= inject_Z o <= inject_Z (2 ^ 20 - 2)) by (change 0 with (inject_Z 0); rewrite <- !Zle_Qle; lia).
  change (inject_Z (2 ^ 20 - 2)) with (1048574#1) in O.
  assert (E1 : - 2 ^ (0 - 54) <= f64 x - x <= 2 ^ (0 - 54)) by (apply f64_abs; change (2 ^ 0) with 1; lra).
  assert (X1 : f64 x <= 1). { pose proof (f64_le x 1 0 ltac:(lia)) as F. change (inject_Z 1 * 2 ^ 0) with 1 in F. now apply F. }
  pose proof (f64_nonneg x S0) as X0. set (x' := f64 x) in *.
  assert (E2 : - 2 ^ (20 - 54) <= f64 (inject_Z o + x') - (inject_Z o + x') <= 2 ^ (20 - 54)) by (apply f64_abs; change (2 ^ 20) with (1048576#1); lra).
  assert (A1 : f64 (inject_Z o + x') <= 1048575#1). { pose proof (f64_le (inject_Z o + x') 1048575 0 ltac:(lia)) as F. change (inject_Z 1048575 * 2 ^ 0) with (1048575#1) in F. apply F. lra. }
  pose proof (f64_nonneg (inject_Z o + x') ltac:(lra)) as A0. set (a := f64 (inject_Z o + x')) in *.
  assert (E3 : - 2 ^ (-16 - 54) <= f64 y - y <= 2 ^ (-16 - 54)) by (apply f64_abs; split; [pose proof (pow2_pos (-16)); lra|easy]).
  assert (Y2 : f64 y <= 1). { pose proof (f64_le y 1 0 ltac:(lia)) as F. change (inject_Z 1 * 2 ^ 0) with 1 in F. apply F. eapply Qle_trans; [exact Y1|discriminate]. }
  pose proof (f64_nonneg y Y0) as Y3. set (y' := f64 y) in *.
  assert (E4 : - 2 ^ (20 - 54) <= f64 (a + y') - (a + y') <= 2 ^ (20 - 54)) by (apply f64_abs; change (2 ^ 20) with (1048576#1); lra).
  split; [apply f64_nonneg; lra|]. set (r := f64 (a + y')) in *.
  change (0 - 54)%Z with (-54)%Z in E1. change (20 - 54)%Z with (-34)%Z in *. change (-16 - 54)%Z with (-70)%Z in E3.
  assert (K : (2 ^ (-54) + 2 ^ (-34) + 2 ^ (-70) + 2 ^ (-34)) * DD <= 10059#1000) by discriminate.
  assert (D : r * DD - (inject_Z o + x + y) * DD == ((x' - x) + (a - (inject_Z o + x')) + (y' - y) + (r - (a + y'))) * DD) by ring. rewrite D.
  set (p := 2 ^ (-54) + 2 ^ (-34) + 2 ^ (-70) + 2 ^ (-34)) in *.
  assert (B : - p <= (x' - x) + (a - (inject_Z o + x')) + (y' - y) + (r - (a + y')) <= p) by (unfold p; lra).
  set (d := x' - x + (a - (inject_Z o + x')) + (y' - y) + (r - (a + y'))) in *. assert (P : 0 < DD) by reflexivity. clear - B P K. nra.
Qed.
Lemma matlab2date_near dn n : 0 <= dn -> - (10059#1000) <= dn * DD - inject_Z (n + 366 * us_per_day) <= 10059#1000 ->
  exists m, (Z.abs (m - n) <= 10)%Z /\ nearest_hundred m (matlab2date_64 dn).
Proof.
  intros P H. unfold matlab2date_64. destruct (fmod1_nonneg dn P) as [-> ->]. fold DD. destruct (Qfloor_bounds dn) as [F1 F2].
  set (i := Qfloor dn) in *. assert (PD : 0 < DD) by reflexivity.
  assert (A : - 2 ^ 37 <= (dn - inject_Z i) * DD <= 2 ^ 37). { assert (DD <= 2 ^ 37) by discriminate. nra. }
  pose proof (f64_abs _ 37 A) as E. change (37 - 54)%Z with (-17)%Z in E. assert (K : 2 ^ (-17) <= 1#1000) by discriminate.
  set (y := f64 ((dn - inject_Z i) * DD)) in *. destruct (qround_spec y) as (R1 & R2 & _). set (q := qround_half_even y) in *.
  set (T := (i * us_per_day + (q - 366 * us_per_day))%Z). exists T. split; [|apply round_hundred].
  apply Z_from_Q. change (inject_Z 10) with 10. unfold T. unfold Z.sub. rewrite !inject_Z_plus, inject_Z_opp, !inject_Z_mult. rewrite inject_Z_plus, inject_Z_mult in H. fold DD in *.
  change (inject_Z 366) with 366 in *. assert (D : (dn - inject_Z i) * DD == dn * DD - inject_Z i * DD) by ring. rewrite D in E.
  set (a := dn * DD) in *. set (b := inject_Z i * DD) in *. set (p := 2 ^ (-17)) in *. lra.
Qed.
Lemma matlab_64 t : (0 <= t + 366 * us_per_day < (2 ^ 20 - 1) * us_per_day)%Z ->
  (Z.abs (matlab2date_64 (date2matlab_64 t) - t) <= 60)%Z /\ ((100 | t)%Z -> matlab2date_64 (date2matlab_64 t) = t).
Proof.
  intros H. destruct (date2matlab_err t H) as [P E]. destruct (matlab2date_near _ t P E) as (m & M & q & Q1 & Q2 & _).
  split; [lia|]. intros [k ->]. lia.
Qed.
