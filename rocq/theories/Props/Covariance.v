(** Properties C127-C129: auto- and cross-covariance of the bins. *)
From Coq Require Import Reals List ZArith Arith Lra Lia.
From Verif.Model Require Import Covariance.
From Verif.Spec Require Import Reshape Stats Covariance.
From Verif.Proofs Require Covariance Despike.
Import ListNotations.
Open Scope R_scope.

Ltac calc := cbn; unfold Pos.to_nat; cbn; first [lra|field].

(** ** C127: the auto-covariance *)
Theorem C127_values_partial : forall xs n, (4 <= n)%nat -> (n mod 4 <= 1)%nat -> n <> 5%nat -> (2 * n <= length xs)%nat ->
  exists out, calc_acov n None (map Some xs) = inr out /\ length out = (length xs / n)%nat /\
    forall i d, (i < length xs / n)%nat -> (d < n / 4)%nat -> cell out i d = Some (Some (one_sided xs n i d)).
Proof. intros xs n N M N5 L. apply Covariance.acov_values; try assumption. lia. Qed.
(** at lag zero it is [n] times the variance of the bin, also when there is only one bin *)
Theorem C127_lag_zero : forall xs n out i, (4 <= n <= length xs)%nat -> calc_acov n None (map Some xs) = inr out -> (i < length xs / n)%nat ->
  cell out i 0 = Some (Some (INR n * bin_variance xs n i)).
Proof. intros xs n out i [N L]. now apply Covariance.acov_lag0. Qed.
(** neither an offset nor a change of unit matters, when there are two bins *)
Theorem C127_affine : forall xs n k m out out' i d, (4 <= n)%nat -> (2 * n <= length xs)%nat -> calc_acov n None (map Some xs) = inr out ->
  calc_acov n None (map Some (map (fun v => k * v + m) xs)) = inr out' -> (i < length xs / n)%nat -> (d < n / 4)%nat ->
  exists v, cell out i d = Some (Some v) /\ cell out' i d = Some (Some (k * k * v)).
Proof.
  intros xs n k m out out' i d N L E E' I D. assert (NE : n <> 5%nat /\ (n mod 4 <= 1)%nat).
  { split; [intros C|destruct (le_lt_dec (n mod 4) 1); [assumption|]]; rewrite Covariance.acov_raises in E by (try lia; auto; left; lia); discriminate. }
  destruct NE as [N5 M]. destruct (C127_values_partial xs n N M N5 L) as (o & Eo & _ & H). rewrite E in Eo. injection Eo as <-.
  destruct (C127_values_partial (map (fun v => k * v + m) xs) n N M N5 ltac:(now rewrite map_length)) as (o' & Eo' & _ & H'). rewrite E' in Eo'. injection Eo' as <-. rewrite map_length in H'.
  exists (one_sided xs n i d). split; [now apply H|]. rewrite H' by assumption. do 2 f_equal. apply Covariance.one_sided_affine; try assumption; try lia; [apply Nat.div_le_lower_bound; lia|].
  pose proof (Nat.div_le_upper_bound n 4 n). lia.
Qed.
Definition ex_x : list R := [0; 0; 0; 0; 0; 0; 0; 8].
Example C127_hyp : exists xs n out i d, (4 <= n)%nat /\ (n mod 4 <= 1)%nat /\ n <> 5%nat /\ (2 * n <= length xs)%nat /\ calc_acov n None (map Some xs) = inr out /\
  (i < length xs / n)%nat /\ (d < n / 4)%nat /\ cell out i d = Some (Some 216).
Proof.
  (* bin 0, lag 1 *)
  set (xs := ex_x ++ [32; 0; 0; 0; 0; 0; 0; 0]).
  destruct (C127_values_partial xs 8 ltac:(lia) ltac:(cbn; lia) ltac:(lia) ltac:(cbn; lia)) as (out & E & L & H).
  exists xs, 8%nat, out, 0%nat, 1%nat. repeat (split; [first [exact E|cbn; lia]|]). rewrite H by (cbn; lia).
  do 2 f_equal. unfold one_sided. cbn [Nat.eqb]. unfold cov, bin_avg, at_or, xs, ex_x. calc.
Qed.
(** Wrong as a covariance: not the mean of the products but their sum *)
Theorem C127_variance_refuted : exists xs n out i, (2 * n <= length xs)%nat /\ calc_acov n None (map Some xs) = inr out /\ (i < length xs / n)%nat /\
  0 < bin_variance xs n i /\ cell out i 0 <> Some (Some (bin_variance xs n i)).
Proof.
  destruct (C127_values_partial ex_x 4 ltac:(lia) ltac:(cbn; lia) ltac:(lia) ltac:(cbn; lia)) as (out & E & L & H).
  assert (V : bin_variance ex_x 4 1 = 12) by (unfold bin_variance, bin_avg, ex_x; calc).
  exists ex_x, 4%nat, out, 1%nat. split; [cbn; lia|]. split; [exact E|]. split; [cbn; lia|]. split; [lra|].
  rewrite (C127_lag_zero ex_x 4 out 1 ltac:(cbn; lia) E ltac:(cbn; lia)). rewrite V. intros C. injection C as C. cbn in C. lra.
Qed.
(** bin sizes that are 2 or 3 modulo 4 cannot be used, nor 5 *)
Theorem C127_bin_sizes_raise : forall xs n, (4 <= n <= length xs)%nat -> (2 <= n mod 4)%nat \/ n = 5%nat -> calc_acov n None (map Some xs) = inl Broadcast.
Proof. intros xs n [N L]. now apply Covariance.acov_raises. Qed.
(** nor can another bin size than the binner's be asked for, if it gives another number of bins *)
Theorem C127_argument_raises : forall xs n m, (1 <= n <= length xs)%nat -> (length xs / m <> length xs / n)%nat -> exists e, calc_acov n (Some m) (map Some xs) = inl e.
Proof. exact Covariance.acov_argument. Qed.
Example C127_sizes_hyp : exists xs : list R, (4 <= 6 <= length xs)%nat /\ (2 <= 6 mod 4)%nat /\ (length xs / 4 <> length xs / 8)%nat.
Proof. exists ex_x. cbn. lia. Qed.
(** with a single bin an offset changes the result: the zeros put behind the record stand for samples *)
Theorem C127_offset_refuted : exists xs n m out out' d v v', calc_acov n None (map Some xs) = inr out /\
  calc_acov n None (map Some (map (fun x => x + m) xs)) = inr out' /\ cell out 0 d = Some (Some v) /\ cell out' 0 d = Some (Some v') /\ v <> v'.
Proof.
  set (ys := map (fun x => x + 1) ex_x).
  destruct (Covariance.acov_rows ex_x 8 ltac:(lia) ltac:(cbn; lia) ltac:(cbn; lia) ltac:(lia)) as (out & E & L & H).
  destruct (Covariance.acov_rows ys 8 ltac:(lia) ltac:(cbn; lia) ltac:(cbn; lia) ltac:(lia)) as (out' & E' & L' & H').
  exists ex_x, 8%nat, 1, out, out', 1%nat, (-8), (-15). split; [exact E|]. split; [exact E'|]. unfold cell. rewrite H, H' by (cbn; lia).
  rewrite !Covariance.tab_nth_error by (cbn; lia). split; [|split; [|lra]]; do 2 f_equal; unfold Covariance.sidex, Covariance.xc, bin_avg, at_or, ys, ex_x; calc.
Qed.

(** ** C128: the cross-covariance; the value at index [k] belongs to the lag [k - (npt - 1) // 2] *)
Theorem C128_values_partial : forall xs ys n npt, (2 <= n <= length xs)%nat -> length ys = length xs -> (1 <= npt <= 2 * n + 1)%nat ->
  exists out, calc_xcov n None npt false (map Some xs) (map Some ys) = inr out /\ length out = (length xs / n)%nat /\
    forall i k, (i < length xs / n)%nat -> (k < npt)%nat -> let d := (Z.of_nat k - Z.of_nat ((npt - 1) / 2))%Z in
      (exists v, cell out i k = Some (Some v)) /\ (inside xs n i d -> cell out i k = Some (Some (cov xs ys n i d))).
Proof.
  intros xs ys n npt [N L] LL NP. destruct (Covariance.xcov_rows xs ys n npt N L LL NP false) as (out & E & Lo & H). exists out. split; [exact E|]. split; [exact Lo|].
  intros i k I K d. unfold cell. rewrite H by exact I. cbv zeta. rewrite Covariance.tab_nth_error by exact K. split; [eauto|]. intros In. do 2 f_equal. apply Covariance.xc_cov; [lia|exact In].
Qed.
Theorem C128_affine : forall xs ys n npt k1 m1 k2 m2 out out' i k, (2 <= n <= length xs)%nat -> length ys = length xs -> (1 <= npt <= 2 * n + 1)%nat ->
  calc_xcov n None npt false (map Some xs) (map Some ys) = inr out ->
  calc_xcov n None npt false (map Some (map (fun v => k1 * v + m1) xs)) (map Some (map (fun v => k2 * v + m2) ys)) = inr out' ->
  (i < length xs / n)%nat -> (k < npt)%nat -> inside xs n i (Z.of_nat k - Z.of_nat ((npt - 1) / 2)) ->
  exists v, cell out i k = Some (Some v) /\ cell out' i k = Some (Some (k1 * k2 * v)).
Proof.
  intros xs ys n npt k1 m1 k2 m2 out out' i k N LL NP E E' I K In. destruct (C128_values_partial xs ys n npt N LL NP) as (o & Eo & _ & H). rewrite E in Eo. injection Eo as <-.
  destruct (C128_values_partial (map (fun v => k1 * v + m1) xs) (map (fun v => k2 * v + m2) ys) n npt ltac:(now rewrite map_length) ltac:(now rewrite !map_length) NP) as (o' & Eo' & _ & H').
  rewrite E' in Eo'. injection Eo' as <-. rewrite map_length in H'. eexists. split; [now apply H|]. rewrite (proj2 (H' i k I K)) by (unfold inside in *; now rewrite map_length).
  do 2 f_equal. apply Covariance.cov_affine; try assumption; lia.
Qed.
Example C128_hyp : exists xs ys n npt i k out, (2 <= n <= length xs)%nat /\ length ys = length xs /\ (1 <= npt <= 2 * n + 1)%nat /\ calc_xcov n None npt false (map Some xs) (map Some ys) = inr out /\
  (i < length xs / n)%nat /\ (k < npt)%nat /\ inside xs n i (Z.of_nat k - Z.of_nat ((npt - 1) / 2)) /\ cell out i k = Some (Some (- (1 / 2))).
Proof.
  set (xs := [0; 1; 0; 0; 0; 0]). set (ys := [0; 0; 0; 1; 0; 0]).
  destruct (C128_values_partial xs ys 2 3 ltac:(cbn; lia) eq_refl ltac:(lia)) as (out & E & L & H).
  assert (In : inside xs 2 1 (Z.of_nat 0 - Z.of_nat ((3 - 1) / 2))) by (split; cbn; lia).
  exists xs, ys, 2%nat, 3%nat, 1%nat, 0%nat, out. split; [cbn; lia|]. split; [reflexivity|]. split; [lia|]. split; [exact E|]. split; [cbn; lia|]. split; [lia|]. split; [exact In|].
  rewrite (proj2 (H 1%nat 0%nat ltac:(cbn; lia) ltac:(lia)) In). do 2 f_equal. unfold cov, bin_avg, at_or, xs, ys. calc.
Qed.
(** Wrong: the coordinate [dt] is not the lag *)
Theorem C128_dt_refuted : exists xs ys n npt i k dt out, calc_xcov n None npt false (map Some xs) (map Some ys) = inr out /\ length ys = length xs /\ (i < length xs / n)%nat /\
  nth_error (xcov_dt npt) k = Some dt /\ inside xs n i (Z.of_nat dt) /\ cell out i k <> Some (Some (cov xs ys n i (Z.of_nat dt))).
Proof.
  set (xs := [0; 1; 0; 0; 0; 0]). set (ys := [0; 0; 0; 1; 0; 0]).
  destruct (C128_values_partial xs ys 2 3 ltac:(cbn; lia) eq_refl ltac:(lia)) as (out & E & L & H).
  assert (In : inside xs 2 1 (Z.of_nat 0 - Z.of_nat ((3 - 1) / 2))) by (split; cbn; lia).
  exists xs, ys, 2%nat, 3%nat, 1%nat, 0%nat, 0%nat, out. split; [exact E|]. split; [reflexivity|]. split; [cbn; lia|]. split; [reflexivity|]. split; [split; cbn; lia|].
  rewrite (proj2 (H 1%nat 0%nat ltac:(cbn; lia) ltac:(lia)) In). intros C. injection C as C. unfold cov, bin_avg, at_or, xs, ys in C. cbn in C. unfold Pos.to_nat in C. cbn in C. lra.
Qed.
(** ... and at the ends of the record an offset changes the result *)
Theorem C128_offset_refuted : exists xs ys n npt m out out' i k v v', length ys = length xs /\ calc_xcov n None npt false (map Some xs) (map Some ys) = inr out /\
  calc_xcov n None npt false (map Some (map (fun x => x + m) xs)) (map Some ys) = inr out' /\ cell out i k = Some (Some v) /\ cell out' i k = Some (Some v') /\ v <> v'.
Proof.
  set (xs := [0; 0]). set (ys := [0; 2]). set (xs' := map (fun x => x + 1) xs).
  destruct (Covariance.xcov_rows xs ys 2 3 ltac:(lia) ltac:(cbn; lia) eq_refl ltac:(lia) false) as (out & E & _ & H).
  destruct (Covariance.xcov_rows xs' ys 2 3 ltac:(lia) ltac:(cbn; lia) eq_refl ltac:(lia) false) as (out' & E' & _ & H').
  exists xs, ys, 2%nat, 3%nat, 1, out, out', 0%nat, 0%nat, 0, 1. split; [reflexivity|]. split; [exact E|]. split; [exact E'|]. unfold cell. rewrite H, H' by (cbn; lia). cbv zeta.
  rewrite !Covariance.tab_nth_error by lia. split; [|split; [|lra]]; do 2 f_equal; unfold Covariance.xc, bin_avg, at_or, xs', xs, ys; calc.
Qed.

(** ** C129: the normed cross-covariance *)
Theorem C129_zero_lag : forall xs ys n npt i, (2 <= n <= length xs)%nat -> length ys = length xs -> (1 <= npt <= 2 * n + 1)%nat -> (i < length xs / n)%nat ->
  0 < bin_variance xs n i -> 0 < bin_variance ys n i ->
  exists out r, calc_xcov n None npt true (map Some xs) (map Some ys) = inr out /\ cell out i ((npt - 1) / 2) = Some (Some r) /\
    -1 <= r <= 1 /\ r * (sqrt (bin_variance xs n i) * sqrt (bin_variance ys n i)) * INR n = cov xs ys n i 0.
Proof.
  intros xs ys n npt i [N L] LL NP I Vx Vy. destruct (Covariance.xcov_rows xs ys n npt N L LL NP true) as (out & E & _ & H). cbv zeta in H.
  set (sx := sqrt (bin_variance xs n i)). set (sy := sqrt (bin_variance ys n i)).
  assert (Px : 0 < sx) by now apply sqrt_lt_R0. assert (Py : 0 < sy) by now apply sqrt_lt_R0. assert (Nn : 0 < INR n) by (apply lt_0_INR; lia).
  assert (P : 0 < sx * sy) by now apply Rmult_lt_0_compat. assert (Pn : 0 < sx * sy * INR n) by now apply Rmult_lt_0_compat.
  assert (Ex : sx * sx = bin_variance xs n i) by (apply sqrt_sqrt; lra). assert (Ey : sy * sy = bin_variance ys n i) by (apply sqrt_sqrt; lra).
  exists out, (cov xs ys n i 0 / (sx * sy * INR n)). split; [exact E|].
  assert (K : ((npt - 1) / 2 < npt)%nat) by (apply Nat.div_lt_upper_bound; lia). split; [|split].
  - unfold cell. rewrite H by exact I. rewrite nth_error_map, Covariance.tab_nth_error by exact K. cbn [option_map]. f_equal. rewrite Z.sub_diag. fold sx sy.
    unfold Stats.odiv. destruct (Req_EM_T (sx * sy * INR n) 0); [lra|]. do 2 f_equal. apply Covariance.xc_cov; [lia|].
    pose proof (Nat.mul_div_le (length xs) n ltac:(lia)). split; [lia|nia].
  - pose proof (Covariance.cov_bound xs ys n i ltac:(lia)) as B. rewrite <- Ex, <- Ey in B. set (c := cov xs ys n i 0) in *. set (w := sx * sy * INR n) in *.
    assert (B' : c * c <= w * w) by (unfold w; nra). assert (c <= w) by nra. assert (- w <= c) by nra. split.
    + apply Rmult_le_reg_r with w; [exact Pn|]. unfold Rdiv. rewrite Rmult_assoc, Rinv_l by lra. lra.
    + apply Rmult_le_reg_r with w; [exact Pn|]. unfold Rdiv. rewrite Rmult_assoc, Rinv_l by lra. lra.
  - field. split; [lra|]. split; lra.
Qed.
(** a signal with itself: one *)
Theorem C129_self : forall xs n npt i, (2 <= n <= length xs)%nat -> (1 <= npt <= 2 * n + 1)%nat -> (i < length xs / n)%nat -> 0 < bin_variance xs n i ->
  exists out, calc_xcov n None npt true (map Some xs) (map Some xs) = inr out /\ cell out i ((npt - 1) / 2) = Some (Some 1).
Proof.
  intros xs n npt i N NP I V. destruct (C129_zero_lag xs xs n npt i N eq_refl NP I V V) as (out & r & E & C & _ & Hr). exists out. split; [exact E|]. rewrite C. do 2 f_equal.
  rewrite sqrt_sqrt in Hr by lra. rewrite Covariance.cov_zero in Hr by lia. assert (Nn : 0 < INR n) by (apply lt_0_INR; lia).
  apply Rmult_eq_reg_r with (bin_variance xs n i * INR n); [lra|nra].
Qed.
Example C129_hyp : (2 <= 2 <= length [0; 1; 11; 0])%nat /\ (1 <= 2 <= 2 * 2 + 1)%nat /\ (0 < length [0; 1; 11; 0] / 2)%nat /\ 0 < bin_variance [0; 1; 11; 0] 2 0 /\ 0 < bin_variance [0; 1; 0; 0] 2 0.
Proof. split; [cbn; lia|]. split; [lia|]. split; [cbn; lia|]. split; unfold bin_variance, bin_avg; calc. Qed.
(** Wrong at other lags: the deviations there are not those the norm is made of *)
Theorem C129_bound_refuted : exists xs ys n npt i k out r, length ys = length xs /\ calc_xcov n None npt true (map Some xs) (map Some ys) = inr out /\
  inside xs n i (Z.of_nat k - Z.of_nat ((npt - 1) / 2)) /\ cell out i k = Some (Some r) /\ 1 < r.
Proof.
  set (xs := [0; 1; 11; 0]). set (ys := [0; 1; 0; 0]).
  destruct (Covariance.xcov_rows xs ys 2 2 ltac:(lia) ltac:(cbn; lia) eq_refl ltac:(lia) true) as (out & E & _ & H). cbv zeta in H.
  exists xs, ys, 2%nat, 2%nat, 0%nat, 1%nat, out, 10. split; [reflexivity|]. split; [exact E|]. split; [split; cbn; lia|]. split; [|lra].
  unfold cell. rewrite H by (cbn; lia). rewrite nth_error_map, Covariance.tab_nth_error by lia. cbn [option_map]. f_equal.
  assert (Vx : bin_variance xs 2 0 = (1 / 2) * (1 / 2)) by (unfold bin_variance, bin_avg, xs; calc).
  assert (Vy : bin_variance ys 2 0 = (1 / 2) * (1 / 2)) by (unfold bin_variance, bin_avg, ys; calc).
  rewrite Vx, Vy, sqrt_square by lra. unfold Stats.odiv. destruct (Req_EM_T (1 / 2 * (1 / 2) * INR 2) 0) as [C|C]; [cbn in C; lra|]. do 2 f_equal.
  unfold Covariance.xc, bin_avg, at_or, xs, ys. calc.
Qed.

(** All the theorems of this file, for one listing of axioms. *)
Definition all_theorems :=
  (@C127_values_partial,
   @C127_lag_zero,
   @C127_affine,
   @C127_variance_refuted,
   @C127_bin_sizes_raise,
   @C127_argument_raises,
   @C127_offset_refuted,
   @C128_values_partial,
   @C128_affine,
   @C128_dt_refuted,
   @C128_offset_refuted,
   @C129_zero_lag,
   @C129_self,
   @C129_bound_refuted).
Print Assumptions all_theorems.
