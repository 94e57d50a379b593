From Coq Require Import ZArith QArith Qround Lia Lqa ZifyBool.
From Verif.Model Require Import Time.
From Verif.Spec Require Import Time.
Ltac Zify.zify_post_hook ::= Z.div_mod_to_equations.
Open Scope Z_scope.

Lemma qtrunc_nonneg x : (0 <= x)%Q -> qtrunc x = Qfloor x.
Proof.
  destruct x as [n d]; unfold qtrunc, Qfloor, Qle; simpl; intros H.
  rewrite Z.quot_div_nonneg; [reflexivity|lia|lia].
Qed.

Lemma inject_Z_succ z : (inject_Z (z + 1) == inject_Z z + 1)%Q.
Proof. rewrite inject_Z_plus. reflexivity. Qed.

Lemma Qfloor_bounds x : (inject_Z (Qfloor x) <= x)%Q /\ (x < inject_Z (Qfloor x) + 1)%Q.
Proof.
  split; [apply Qfloor_le|].
  pose proof (Qlt_floor x) as H. rewrite inject_Z_plus in H. exact H.
Qed.

Lemma Qfloor_unique x z : (inject_Z z <= x)%Q -> (x < inject_Z z + 1)%Q -> Qfloor x = z.
Proof.
  intros H1 H2. destruct (Qfloor_bounds x) as [H3 H4].
  assert (A : (inject_Z z < inject_Z (Qfloor x + 1))%Q) by (rewrite inject_Z_succ; lra).
  assert (B : (inject_Z (Qfloor x) < inject_Z (z + 1))%Q) by (rewrite inject_Z_succ; lra).
  rewrite <- Zlt_Qlt in A, B. lia.
Qed.

Lemma Qfloor_inject z : Qfloor (inject_Z z) = z.
Proof. apply Qfloor_Z. Qed.

Lemma Qfloor_add_Z x z : Qfloor (x + inject_Z z) = Qfloor x + z.
Proof.
  destruct (Qfloor_bounds x) as [H1 H2].
  apply Qfloor_unique; rewrite inject_Z_plus; lra.
Qed.

Lemma qmod1_bounds x : (0 <= qmod1 x)%Q /\ (qmod1 x < 1)%Q.
Proof. unfold qmod1; destruct (Qfloor_bounds x); split; lra. Qed.

Lemma ns_pos : (0 < inject_Z ns_per_s)%Q.
Proof. unfold ns_per_s, Qlt; simpl; lia. Qed.

Lemma qtrunc_whole x : whole x -> qtrunc x = Qfloor x.
Proof.
  intros [z Hz]. destruct x as [n d]. unfold qtrunc, Qfloor, Qeq in *; simpl in *.
  replace n with (z * Z.pos d) by lia.
  rewrite Z.quot_mul, Z.div_mul; lia.
Qed.

Lemma qtrunc_neg x : (x < 0)%Q -> ~ whole x -> qtrunc x = Qfloor x + 1.
Proof.
  destruct x as [n d]; unfold qtrunc, Qfloor, Qlt, whole, Qeq; simpl; intros H Hw.
  assert (Hm : n mod Z.pos d <> 0).
  { intros E. apply Hw. exists (n / Z.pos d).
    simpl. rewrite Z.mul_1_r.
    rewrite (Z.div_mod n (Z.pos d)) at 1 by lia. rewrite E. ring. }
  replace n with (- (- n)) at 1 by lia.
  rewrite Z.quot_opp_l by lia. rewrite Z.quot_div_nonneg by lia.
  rewrite Z.div_opp_l_nz by (rewrite ?Z.mod_opp_l_nz; lia). lia.
Qed.

Lemma frac_ns x : qtrunc (qmod1 x * inject_Z ns_per_s)%Q
                  = Qfloor (x * inject_Z ns_per_s) - Qfloor x * ns_per_s.
Proof.
  pose proof ns_pos as Hp. destruct (qmod1_bounds x) as [H1 H2].
  rewrite qtrunc_nonneg by (apply Qmult_le_0_compat; lra).
  transitivity (Qfloor (x * inject_Z ns_per_s + inject_Z (- (Qfloor x * ns_per_s)))).
  - apply Qfloor_comp. unfold qmod1. rewrite inject_Z_opp, inject_Z_mult. ring.
  - rewrite Qfloor_add_Z. lia.
Qed.

Lemma same_instant_floor x : same_instant (Qfloor (x * inject_Z 1000000000)) x.
Proof. unfold same_instant. apply Qfloor_bounds. Qed.

Lemma epoch2dt64_floor x : (0 <= x)%Q \/ whole x ->
  epoch2dt64 x = Qfloor (x * inject_Z 1000000000).
Proof.
  intros H. unfold epoch2dt64. rewrite frac_ns.
  assert (E : qtrunc x = Qfloor x)
    by (destruct H; [apply qtrunc_nonneg | apply qtrunc_whole]; assumption).
  rewrite E. unfold ns_per_s. lia.
Qed.

Lemma epoch2dt64_same_instant x : (0 <= x)%Q \/ whole x -> same_instant (epoch2dt64 x) x.
Proof. intros H. rewrite (epoch2dt64_floor x H). apply same_instant_floor. Qed.

Lemma epoch2dt64_before_1970 x : (x < 0)%Q -> ~ whole x ->
  same_instant (epoch2dt64 x - 1000000000) x.
Proof.
  intros H Hw. unfold epoch2dt64. rewrite frac_ns, (qtrunc_neg x H Hw).
  replace ((Qfloor x + 1) * ns_per_s + (Qfloor (x * inject_Z ns_per_s) - Qfloor x * ns_per_s)
            - 1000000000) with (Qfloor (x * inject_Z 1000000000)) by (unfold ns_per_s; lia).
  apply same_instant_floor.
Qed.

Lemma same_instant_unique n m x : same_instant n x -> same_instant m x -> n = m.
Proof.
  unfold same_instant; intros [A B] [C D].
  rewrite <- (Qfloor_unique _ n A B). apply Qfloor_unique; assumption.
Qed.

Lemma epoch2dt64_refuted : exists x, ~ same_instant (epoch2dt64 x) x.
Proof.
  exists (- (1 # 2))%Q. intros [H _]. vm_compute in H. apply H. reflexivity.
Qed.

Lemma dt642epoch_mul n : (dt642epoch n * inject_Z 1000000000 == inject_Z n)%Q.
Proof. unfold dt642epoch, ns_per_s. field. Qed.

Lemma dt642epoch_nonneg n : 0 <= n -> (0 <= dt642epoch n)%Q.
Proof.
  intros H. unfold dt642epoch, ns_per_s, Qdiv.
  apply Qmult_le_0_compat; [rewrite <- (Zle_Qle 0); exact H | unfold Qle; simpl; lia].
Qed.

Lemma epoch2dt64_dt642epoch n : 0 <= n -> epoch2dt64 (dt642epoch n) = n.
Proof.
  intros H. rewrite epoch2dt64_floor by (left; apply dt642epoch_nonneg; assumption).
  rewrite (Qfloor_comp _ _ (dt642epoch_mul n)). apply Qfloor_inject.
Qed.

Lemma dt642epoch_epoch2dt64 x : (0 <= x)%Q ->
  (dt642epoch (epoch2dt64 x) <= x)%Q /\ (x < dt642epoch (epoch2dt64 x) + (1 # 1000000000))%Q.
Proof.
  intros H. destruct (epoch2dt64_same_instant x (or_introl H)) as [A B].
  pose proof (dt642epoch_mul (epoch2dt64 x)) as E.
  set (d := dt642epoch (epoch2dt64 x)) in *. rewrite <- E in A, B.
  unfold inject_Z in A, B. split; lra.
Qed.

Lemma Qfloor_mono x y : (x <= y)%Q -> Qfloor x <= Qfloor y.
Proof. apply Qfloor_resp_le. Qed.

Lemma epoch2dt64_mono x y : (0 <= x)%Q -> (x <= y)%Q -> epoch2dt64 x <= epoch2dt64 y.
Proof.
  intros Hx Hxy. rewrite !epoch2dt64_floor by (left; lra).
  apply Qfloor_mono. unfold inject_Z. lra.
Qed.

Lemma dt642epoch_mono n m : n <= m -> (dt642epoch n <= dt642epoch m)%Q.
Proof.
  intros H. pose proof (dt642epoch_mul n) as A. pose proof (dt642epoch_mul m) as B.
  rewrite Zle_Qle in H. rewrite <- A, <- B in H. unfold inject_Z in H. lra.
Qed.

(** Rounding *)
Lemma qround_spec x : nearest_int x (qround_half_even x).
Proof.
  unfold nearest_int, qround_half_even. destruct (Qfloor_bounds x) as [H1 H2].
  set (f := Qfloor x) in *.
  destruct (Qcompare_spec (x - inject_Z f) (1 # 2)) as [E|E|E].
  - destruct (Z.even f) eqn:Ev.
    + repeat split; try lra. intros _. exact Ev.
    + rewrite inject_Z_succ. repeat split; try lra.
      intros _. rewrite Z.even_add, Ev. reflexivity.
  - repeat split; try lra.
  - rewrite inject_Z_succ. repeat split; try lra.
Qed.

Lemma nearest_int_unique x a b : nearest_int x a -> nearest_int x b -> a = b.
Proof.
  intros (A1 & A2 & A3) (B1 & B2 & B3).
  assert (H : (inject_Z a <= inject_Z (b + 1))%Q) by (rewrite inject_Z_succ; lra).
  assert (H' : (inject_Z b <= inject_Z (a + 1))%Q) by (rewrite inject_Z_succ; lra).
  rewrite <- Zle_Qle in H, H'.
  assert (D : a = b \/ a = b + 1 \/ b = a + 1) by lia.
  destruct D as [D|[D|D]]; [exact D| |]; subst; exfalso.
  - rewrite inject_Z_succ in *.
    assert (Ea : Z.even (b + 1) = true) by (apply A3; right; lra).
    assert (Eb : Z.even b = true) by (apply B3; left; lra).
    rewrite Z.even_add, Eb in Ea; discriminate.
  - rewrite inject_Z_succ in *.
    assert (Ea : Z.even (a + 1) = true) by (apply B3; right; lra).
    assert (Eb : Z.even a = true) by (apply A3; left; lra).
    rewrite Z.even_add, Eb in Ea; discriminate.
Qed.

Lemma qround_comp x y : (x == y)%Q -> qround_half_even x = qround_half_even y.
Proof.
  intros E. apply (nearest_int_unique x); [apply qround_spec|].
  destruct (qround_spec y) as (A & B & C). unfold nearest_int. repeat split; try lra.
  intros D. apply C. destruct D; [left|right]; lra.
Qed.

Lemma qround_inject z : qround_half_even (inject_Z z) = z.
Proof.
  apply (nearest_int_unique (inject_Z z)); [apply qround_spec|].
  unfold nearest_int. repeat split; lra.
Qed.

(** MATLAB date numbers *)
Lemma datenum_algebra (o s m a b : Q) : ~ (a == 0)%Q -> ~ (b == 0)%Q ->
  ((o + s / a + m / (a * b)) * (a * b) == o * (a * b) + s * b + m)%Q.
Proof. intros. field. split; assumption. Qed.

Lemma day_split t a b : 0 < a -> 0 < b ->
  t + 366 * (a * b) = (t + 366 * (a * b)) / (a * b) * (a * b) + t mod (a * b) / b * b + t mod b.
Proof.
  intros Ha Hb. assert (0 < a * b) by (apply Z.mul_pos_pos; assumption).
  rewrite Z.div_add by lia.
  assert (E1 : t = (a * b) * (t / (a * b)) + t mod (a * b)) by (apply Z.div_mod; lia).
  assert (E2 : t mod (a * b) = b * (t mod (a * b) / b) + t mod (a * b) mod b) by (apply Z.div_mod; lia).
  assert (E3 : t mod (a * b) mod b = t mod b).
  { symmetry. apply Znumtheory.Zmod_div_mod; try lia. exists a. ring. }
  rewrite E3 in E2. rewrite E1 at 1. rewrite E2 at 1. ring.
Qed.

Lemma date2matlab_val t : (date2matlab t * inject_Z us_per_day == inject_Z (t + 366 * us_per_day))%Q.
Proof.
  unfold date2matlab.
  set (o := (t + 366 * us_per_day) / us_per_day).
  set (s := t mod us_per_day / us_per_s).
  set (m := t mod us_per_s).
  assert (E : t + 366 * us_per_day = o * us_per_day + s * us_per_s + m).
  { apply day_split; reflexivity. }
  rewrite E, !inject_Z_plus, !inject_Z_mult.
  unfold us_per_day. rewrite inject_Z_mult. apply datenum_algebra; discriminate.
Qed.

Lemma us_day_pos : (0 < inject_Z us_per_day)%Q.
Proof. reflexivity. Qed.

Lemma div_us_day n : (inject_Z (n * us_per_day) / inject_Z us_per_day == inject_Z n)%Q.
Proof. rewrite inject_Z_mult. field. discriminate. Qed.

Lemma date2matlab_floor t : Qfloor (date2matlab t) = (t + 366 * us_per_day) / us_per_day.
Proof.
  pose proof (date2matlab_val t) as V. pose proof us_day_pos as P.
  set (n := t + 366 * us_per_day) in *.
  assert (E : n = us_per_day * (n / us_per_day) + n mod us_per_day)
    by (apply Z.div_mod; discriminate).
  pose proof (Z.mod_pos_bound n us_per_day ltac:(reflexivity)) as B.
  set (q := n / us_per_day) in *. set (r := n mod us_per_day) in *.
  assert (L1 : (inject_Z (q * us_per_day) <= inject_Z n)%Q) by (rewrite <- Zle_Qle; lia).
  assert (L2 : (inject_Z n < inject_Z ((q + 1) * us_per_day))%Q) by (rewrite <- Zlt_Qlt; lia).
  rewrite <- V in L1, L2. rewrite inject_Z_mult in L1, L2.
  apply Qfloor_unique.
  - apply Qmult_le_r in L1; [exact L1|exact P].
  - apply Qmult_lt_r in L2; [|exact P]. rewrite inject_Z_plus in L2. exact L2.
Qed.

Lemma round_hundred t :
  nearest_hundred t (t + (qround_half_even (inject_Z (t mod us_per_s) / inject_Z 100)%Q * 100
                          - t mod us_per_s)).
Proof.
  destruct (qround_spec (inject_Z (t mod us_per_s) / inject_Z 100)%Q) as (A & B & C).
  set (m := t mod us_per_s) in *.
  set (r := qround_half_even (inject_Z m / inject_Z 100)%Q) in *.
  set (x := (inject_Z m / inject_Z 100)%Q) in *.
  assert (Em : (inject_Z m == x * 100)%Q) by (unfold x; field).
  assert (A' : (inject_Z (m + -50) <= inject_Z (r * 100))%Q).
  { rewrite inject_Z_mult, inject_Z_plus, Em.
    change (inject_Z (-50)) with (-50)%Q. change (inject_Z 100) with 100%Q. lra. }
  assert (B' : (inject_Z (r * 100) <= inject_Z (m + 50))%Q).
  { rewrite inject_Z_mult, inject_Z_plus, Em.
    change (inject_Z 50) with 50%Q. change (inject_Z 100) with 100%Q. lra. }
  rewrite <- Zle_Qle in A', B'.
  exists (t / us_per_s * 10000 + r).
  assert (Et : t = us_per_s * (t / us_per_s) + m) by (apply Z.div_mod; discriminate).
  unfold us_per_s in *.
  repeat split; [lia|lia|].
  intros Tie. rewrite Z.even_add, Z.even_mul. rewrite Bool.orb_true_r.
  rewrite C; [reflexivity|].
  assert (D : m = r * 100 + 50 \/ m = r * 100 - 50) by lia.
  destruct D as [D|D]; [left|right]; clear - D Em; clearbody x; rewrite D in Em;
    unfold Z.sub in Em; rewrite inject_Z_plus, inject_Z_mult in Em;
    [change (inject_Z 50) with 50%Q in Em | change (inject_Z (- (50))) with (-50)%Q in Em];
    change (inject_Z 100) with 100%Q in Em; lra.
Qed.

Lemma matlab2date_spec dn : (0 <= dn)%Q ->
  nearest_hundred (qround_half_even (dn * inject_Z us_per_day) - 366 * us_per_day) (matlab2date dn).
Proof.
  intros H. unfold matlab2date. rewrite (qtrunc_nonneg _ H).
  assert (E : qround_half_even (qmod1 dn * inject_Z us_per_day)
              = qround_half_even (dn * inject_Z us_per_day) - Qfloor dn * us_per_day).
  { apply (nearest_int_unique (qmod1 dn * inject_Z us_per_day)); [apply qround_spec|].
    destruct (qround_spec (dn * inject_Z us_per_day)) as (A & B & C).
    set (z := qround_half_even (dn * inject_Z us_per_day)) in *.
    unfold nearest_int, qmod1. unfold Z.sub. rewrite inject_Z_plus, inject_Z_opp, inject_Z_mult.
    set (K := inject_Z us_per_day) in *.
    assert (Ex : ((dn - inject_Z (Qfloor dn)) * K == dn * K - inject_Z (Qfloor dn) * K)%Q) by ring.
    set (X := (dn * K)%Q) in *. set (Y := (inject_Z (Qfloor dn) * K)%Q) in *.
    repeat split; try lra.
    intros D. rewrite Z.even_add, Z.even_opp, Z.even_mul.
    replace (Z.even us_per_day) with true by reflexivity. rewrite Bool.orb_true_r.
    rewrite C; [reflexivity|]. destruct D; [left|right]; lra. }
  rewrite E.
  set (R := qround_half_even (dn * inject_Z us_per_day)).
  replace (Qfloor dn * us_per_day + (R - Qfloor dn * us_per_day - 366 * us_per_day))
    with (R - 366 * us_per_day) by lia.
  apply round_hundred.
Qed.

Lemma matlab_roundtrip t : - 366 * us_per_day <= t -> nearest_hundred t (matlab2date (date2matlab t)).
Proof.
  intros H. pose proof (date2matlab_val t) as V. pose proof us_day_pos as P.
  assert (Hn : (0 <= date2matlab t)%Q).
  { assert (L : (inject_Z 0 <= inject_Z (t + 366 * us_per_day))%Q) by (rewrite <- Zle_Qle; lia).
    rewrite <- V in L. rewrite <- (Qmult_0_l (inject_Z us_per_day)) in L.
    change (inject_Z 0) with 0%Q in L. rewrite <- (Qmult_0_l (inject_Z us_per_day)) in L.
    apply Qmult_le_r in L; [|exact P]. rewrite Qmult_0_l in L. exact L. }
  pose proof (matlab2date_spec _ Hn) as S.
  rewrite (qround_comp _ _ V), qround_inject in S.
  replace (t + 366 * us_per_day - 366 * us_per_day) with t in S by lia. exact S.
Qed.

Lemma date2matlab_mono a b : a < b -> (date2matlab a < date2matlab b)%Q.
Proof.
  intros H. pose proof (date2matlab_val a) as A. pose proof (date2matlab_val b) as B.
  pose proof us_day_pos as P.
  apply (Qmult_lt_r _ _ (inject_Z us_per_day)); [exact P|].
  rewrite A, B, <- Zlt_Qlt. lia.
Qed.

Lemma date2matlab_day a : (date2matlab (a + us_per_day) == date2matlab a + 1)%Q.
Proof.
  apply (Qmult_inj_r _ _ (inject_Z us_per_day)); [discriminate|].
  rewrite date2matlab_val, Qmult_plus_distr_l, date2matlab_val, Qmult_1_l.
  rewrite <- inject_Z_plus. replace (a + us_per_day + 366 * us_per_day)
    with (a + 366 * us_per_day + us_per_day) by lia. reflexivity.
Qed.

(** datetime lists *)
Lemma date2epoch_epoch2date t : epoch2date (date2epoch t) 0 = t.
Proof.
  unfold epoch2date, date2epoch. simpl.
  assert (E : (inject_Z t / inject_Z us_per_s * inject_Z us_per_s == inject_Z t)%Q)
    by (field; discriminate).
  rewrite (qround_comp _ _ E). apply qround_inject.
Qed.

Lemma epoch2date_offset ep h : epoch2date ep h = epoch2date ep 0 + h * 3600 * 1000000.
Proof.
  unfold epoch2date. simpl. destruct (Z.eqb_spec h 0) as [->|]; unfold us_per_s; lia.
Qed.

(** years *)
Lemma fullyear_2digit y : 0 <= y <= 99 ->
  (y < 90 -> fullyear y = 2000 + y) /\ (90 <= y -> fullyear y = 1900 + y).
Proof.
  unfold fullyear. intros H.
  destruct (Z.gtb_spec y 100); [lia|]. destruct (Z.ltb_spec y 90); lia.
Qed.

Lemma fullyear_inj a b : 0 <= a <= 99 -> 0 <= b <= 99 -> fullyear a = fullyear b -> a = b.
Proof.
  unfold fullyear. intros Ha Hb.
  destruct (Z.gtb_spec a 100); [lia|]. destruct (Z.gtb_spec b 100); [lia|].
  destruct (Z.ltb_spec a 90); destruct (Z.ltb_spec b 90); lia.
Qed.

Lemma fullyear_window y : 0 <= y <= 99 -> 1990 <= fullyear y <= 2089 /\ (fullyear y - y) mod 100 = 0.
Proof.
  unfold fullyear. intros Ha. destruct (Z.gtb_spec y 100); [lia|].
  destruct (Z.ltb_spec y 90); lia.
Qed.

Lemma fullyear_full y : 100 < y -> fullyear y = y.
Proof. unfold fullyear. intros H. destruct (Z.gtb_spec y 100); lia. Qed.
