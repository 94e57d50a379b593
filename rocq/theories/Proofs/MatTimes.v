(** Proofs about times in MATLAB files. *)
From Coq Require Import ZArith QArith Qround Lia Lqa.
From Verif.Model Require Import Time BinSpec FloatTime MatFile.
From Verif.Spec Require Import Time.
From Verif.Proofs Require Import Time FloatTime.
Open Scope Q_scope.

Lemma epoch2date_err ep : - (500001#1000000) <= inject_Z (epoch2date_64 ep) - ep * M6 <= 500001#1000000.
Proof.
  unfold epoch2date_64. pose proof (qtrunc_frac ep) as F. set (i := qtrunc ep) in *. change us_per_s with 1000000%Z. fold M6.
  assert (A : - 2 ^ 20 <= (ep - inject_Z i) * M6 <= 2 ^ 20).
  { assert (M6 <= 2 ^ 20) by discriminate. assert (0 < M6) by reflexivity. nra. }
  pose proof (f64_abs _ 20 A) as E. change (20 - 54)%Z with (-34)%Z in E.
  destruct (qround_spec (f64 ((ep - inject_Z i) * M6))) as (R1 & R2 & _).
  rewrite inject_Z_plus, inject_Z_mult. fold M6. set (y := f64 ((ep - inject_Z i) * M6)) in *.
  set (r := inject_Z (qround_half_even y)) in *.
  assert ((ep - inject_Z i) * M6 == ep * M6 - inject_Z i * M6) as E2 by ring. rewrite E2 in E.
  assert (P : 2 ^ (-34) <= 1 # 10000000) by discriminate. set (p := 2 ^ (-34)) in *. set (a := ep * M6) in *. set (b := inject_Z i * M6) in *. split; lra.
Qed.
Lemma shown_err n : (0 <= n <= 2 ^ 31 * 1000000000)%Z -> (Z.abs (1000 * dt642date_64 n - n) <= 747)%Z.
Proof.
  intros H. pose proof (dt642epoch_31 n H) as A. unfold dt642date_64. set (ep := dt642epoch_64 n) in *.
  pose proof (epoch2date_err ep) as B. apply Z_from_Q. rewrite inject_Z_mult. change (inject_Z 1000) with 1000. change (inject_Z 747) with 747.
  assert (E : ep * G9 == 1000 * (ep * M6)) by (unfold G9, M6; change (inject_Z 1000000000) with (1000 * inject_Z 1000000); ring).
  set (a := ep * M6) in *. set (g := ep * G9) in *. lra.
Qed.
Theorem mat_times n : (0 <= n <= 2 ^ 31 * 1000000000)%Z ->
  (Z.abs (time_from_file true (time_in_file true n) - n) <= 60747)%Z
  /\ (Z.abs (time_from_file false (time_in_file false n) - n) <= 747)%Z
  /\ ((1000 | n)%Z -> time_from_file false (time_in_file false n) = n)
  /\ ((100000 | n)%Z -> time_from_file true (time_in_file true n) = n).
Proof.
  intros H. unfold time_from_file, time_in_file. pose proof (shown_err n H) as S.
  assert (D : (1000 | n)%Z -> dt642date_64 n = (n / 1000)%Z).
  { intros [k ->]. rewrite displayed by lia. now rewrite Z.div_mul. }
  set (t := dt642date_64 n) in *.
  assert (T : (-1 <= t <= 2147483648000001)%Z) by (change (2 ^ 31)%Z with 2147483648%Z in H; lia).
  assert (R : (0 <= since_day_0 t + 366 * us_per_day < (2 ^ 20 - 1) * us_per_day)%Z).
  { unfold since_day_0, us_per_day, us_per_s. change (2 ^ 20 - 1)%Z with 1048575%Z. lia. }
  destruct (matlab_64 _ R) as [M1 M2].
  assert (E : epoch2date_64 (date2epoch_64 t) = t) by (apply date_roundtrip; change (2 ^ 33)%Z with 8589934592%Z; lia).
  rewrite E. split; [unfold since_1970; unfold since_day_0 in *; lia|]. split; [exact S|]. split.
  - intro K. rewrite (D K). destruct K as [k ->]. rewrite Z.div_mul by lia. lia.
  - intro K. assert (K3 : (1000 | n)%Z) by (destruct K as [k ->]; exists (k * 100)%Z; lia).
    rewrite M2.
    + unfold since_1970, since_day_0. rewrite (D K3). destruct K3 as [k ->]. rewrite Z.div_mul by lia. lia.
    + rewrite (D K3). destruct K as [k ->]. replace (k * 100000)%Z with (k * 100 * 1000)%Z by lia. rewrite Z.div_mul by lia.
      unfold since_day_0. exists (k + 719163 * 864000000)%Z. unfold us_per_day, us_per_s. lia.
Qed.
