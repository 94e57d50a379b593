From Coq Require Import Reals List ZArith Lra Lia.
From Verif.Model Require Import Stats Psd.
From Verif.Spec Require Import Stats Psd.
From Verif.Proofs Require Import Stats Psd PsdProps.
Import ListNotations.
Open Scope R_scope.

Lemma total_swap n m (f : nat -> nat -> R) : total n (fun i => total m (fun j => f i j)) = total m (fun j => total n (fun i => f i j)).
Proof.
  induction n as [|n IH]; cbn [total].
  - induction m as [|m IHm]; cbn [total]; [reflexivity|]. rewrite <- IHm. ring.
  - rewrite IH. now rewrite total_add.
Qed.

(** ** orthogonality of the harmonics *)
Lemma telescope t n : 2 * sin (t / 2) * total n (fun k => cos (INR k * t)) = sin ((INR n - 1/2) * t) + sin (t / 2).
Proof.
  induction n as [|n IH].
  - cbn [total INR]. replace ((0 - 1/2) * t) with (- (t / 2)) by field. rewrite sin_neg. ring.
  - cbn [total]. rewrite Rmult_plus_distr_l, IH, S_INR.
    assert (E : 2 * sin (t / 2) * cos (INR n * t) = sin ((INR n + 1 - 1/2) * t) - sin ((INR n - 1/2) * t)).
    { replace ((INR n + 1 - 1/2) * t) with (INR n * t + t / 2) by field.
      replace ((INR n - 1/2) * t) with (INR n * t - t / 2) by field. rewrite sin_plus, sin_minus. ring. }
    rewrite E. ring.
Qed.
Lemma cos_period' x (m : nat) : cos (x + 2 * INR m * PI) = cos x.
Proof. apply cos_period. Qed.
Lemma harmonic_sum n m : (0 < m < n)%nat -> total n (fun k => cos (INR k * (2 * PI * INR m / INR n))) = 0.
Proof.
  intros H. assert (Pn : 0 < INR n) by (apply lt_0_INR; lia). assert (Pm : 0 < INR m) by (apply lt_0_INR; lia).
  assert (Lt : INR m < INR n) by (apply lt_INR; lia).
  set (t := 2 * PI * INR m / INR n). pose proof (telescope t n) as T.
  assert (E : sin ((INR n - 1/2) * t) = - sin (t / 2)).
  { replace ((INR n - 1/2) * t) with (- (t / 2) + 2 * INR m * PI) by (unfold t; field; lra). rewrite sin_period. apply sin_neg. }
  rewrite E in T. assert (Z : 2 * sin (t / 2) * total n (fun k => cos (INR k * t)) = 0) by lra.
  assert (S0 : 0 < sin (t / 2)).
  { pose proof PI_RGT_0. replace (t / 2) with (PI * (INR m / INR n)) by (unfold t; field; lra).
    assert (0 < INR m / INR n) by (apply Rdiv_lt_0_compat; lra).
    assert (INR m / INR n < 1) by (apply (Rmult_lt_reg_r (INR n)); [lra|]; unfold Rdiv; rewrite Rmult_assoc, Rinv_l by lra; lra).
    apply sin_gt_0; [apply Rmult_lt_0_compat; lra|]. rewrite <- (Rmult_1_r PI) at 2. apply Rmult_lt_compat_l; lra. }
  apply Rmult_integral in Z as [Z|Z]; [lra|exact Z].
Qed.

(** ** Parseval *)
Definition power (x : list R) (k : nat) : R := fourier_re x k * fourier_re x k + fourier_im x k * fourier_im x k.

Lemma total_mul n m (f g : nat -> R) : total n f * total m g = total n (fun i => total m (fun j => f i * g j)).
Proof.
  induction n as [|n IH]; cbn [total]; [ring|]. rewrite Rmult_plus_distr_r, IH. f_equal. now rewrite total_scal.
Qed.
Lemma power_double x k : power x k = total (length x) (fun i => total (length x) (fun j => nth i x 0 * nth j x 0 * cos (2 * PI * ((INR i - INR j) * INR k / INR (length x))))).
Proof.
  unfold power, fourier_re, fourier_im. rewrite !total_mul, <- total_add. apply total_ext. intros i _. rewrite <- total_add. apply total_ext. intros j _.
  replace (2 * PI * ((INR i - INR j) * INR k / INR (length x))) with (2 * PI * (INR i * INR k / INR (length x)) - 2 * PI * (INR j * INR k / INR (length x))) by (unfold Rdiv; ring).
  rewrite cos_minus. ring.
Qed.
Lemma total_single n i f : (i < n)%nat -> total n (fun j => if (j =? i)%nat then f j else 0) = f i.
Proof.
  induction n as [|n IH]; intros H; [lia|]. cbn [total]. destruct (Nat.eqb_spec n i) as [->|N].
  - rewrite (total_ext _ _ (fun _ => 0)); [rewrite total_const; ring|]. intros k Hk. destruct (Nat.eqb_spec k i); [lia|easy].
  - rewrite IH by lia. ring.
Qed.
Lemma parseval x : total (length x) (fun k => power x k) = INR (length x) * total (length x) (fun j => nth j x 0 * nth j x 0).
Proof.
  set (n := length x). destruct (Nat.eq_dec n 0) as [Z|N]; [rewrite Z; cbn; ring|].
  assert (Pn : 0 < INR n) by (apply lt_0_INR; lia).
  rewrite (total_ext n _ (fun k => total n (fun i => total n (fun j => nth i x 0 * nth j x 0 * cos (2 * PI * ((INR i - INR j) * INR k / INR n)))))) by (intros; apply power_double).
  rewrite total_swap. rewrite <- total_scal. apply total_ext. intros i Hi. rewrite total_swap.
  rewrite (total_ext n _ (fun j => if (j =? i)%nat then INR n * (nth j x 0 * nth j x 0) else 0)); [now apply total_single|].
  intros j Hj. rewrite total_scal. destruct (Nat.eqb_spec j i) as [->|Nij].
  - rewrite (total_ext n _ (fun _ => 1)); [rewrite total_const; ring|]. intros k _. replace (2 * PI * ((INR i - INR i) * INR k / INR n)) with 0 by (unfold Rdiv; ring). apply cos_0.
  - destruct (lt_dec j i) as [L|L].
    + rewrite (total_ext n _ (fun k => cos (INR k * (2 * PI * INR (i - j) / INR n)))); [rewrite harmonic_sum by lia; ring|].
      intros k _. f_equal. rewrite minus_INR by lia. unfold Rdiv. ring.
    + rewrite (total_ext n _ (fun k => cos (INR k * (2 * PI * INR (j - i) / INR n)))); [rewrite harmonic_sum by lia; ring|].
      intros k _. rewrite <- cos_neg. f_equal. rewrite minus_INR by lia. unfold Rdiv. ring.
Qed.

(** ** symmetry *)
Lemma power_mirror x k : (k <= length x)%nat -> (0 < length x)%nat -> power x (length x - k) = power x k.
Proof.
  intros H P. assert (Pn : 0 < INR (length x)) by (apply lt_0_INR; lia). unfold power.
  assert (A : fourier_re x (length x - k) = fourier_re x k).
  { apply total_ext. intros j _. f_equal. rewrite minus_INR by easy.
    replace (2 * PI * (INR j * (INR (length x) - INR k) / INR (length x))) with (- (2 * PI * (INR j * INR k / INR (length x))) + 2 * INR j * PI) by (field; lra).
    rewrite cos_period. apply cos_neg. }
  assert (B : fourier_im x (length x - k) = - fourier_im x k).
  { unfold fourier_im. replace (- total _ _) with (-1 * total (length x) (fun j => nth j x 0 * sin (2 * PI * (INR j * INR k / INR (length x))))) by ring.
    rewrite <- total_scal. apply total_ext. intros j _. rewrite minus_INR by easy.
    replace (2 * PI * (INR j * (INR (length x) - INR k) / INR (length x))) with (- (2 * PI * (INR j * INR k / INR (length x))) + 2 * INR j * PI) by (field; lra).
    rewrite sin_period, sin_neg. ring. }
  rewrite A, B. ring.
Qed.
Lemma power_0 x : total (length x) (fun j => nth j x 0) = 0 -> power x 0 = 0.
Proof.
  intros H. unfold power. assert (A : fourier_re x 0 = 0).
  { rewrite <- H. apply total_ext. intros j _. cbn [INR]. replace (2 * PI * (INR j * 0 / INR (length x))) with 0 by (unfold Rdiv; ring). rewrite cos_0. ring. }
  assert (B : fourier_im x 0 = 0).
  { unfold fourier_im. rewrite (total_ext _ _ (fun _ => 0)); [rewrite total_const; ring|]. intros j _. cbn [INR].
    replace (2 * PI * (INR j * 0 / INR (length x))) with 0 by (unfold Rdiv; ring). rewrite sin_0. ring. }
  rewrite A, B. ring.
Qed.
Lemma total_app n m f : total (n + m) f = total n f + total m (fun k => f (n + k)%nat).
Proof. induction m as [|m IH]; [rewrite Nat.add_0_r; cbn; ring|]. rewrite Nat.add_succ_r. cbn [total]. rewrite IH. ring. Qed.
Lemma total_rev n f : total n f = total n (fun k => f (n - 1 - k)%nat).
Proof.
  induction n as [|n IH]; [reflexivity|]. cbn [total]. rewrite IH. rewrite (total_S n (fun k => f (n - 0 - k)%nat)) || idtac.
  change (total n (fun k => f (S n - 1 - k)%nat) + f (S n - 1 - n)%nat) with (total (S n) (fun k => f (S n - 1 - k)%nat)).
  rewrite (total_S n (fun k => f (S n - 1 - k)%nat)). rewrite Rplus_comm. f_equal; [f_equal; lia|]. apply total_ext. intros k Hk. f_equal. lia.
Qed.

(** one-sided sums: frequencies 1 .. n/2 *)
Lemma one_sided_odd x h : length x = (2 * h + 1)%nat -> total (length x) (fun j => nth j x 0) = 0 ->
  2 * total h (fun k => power x (S k)) = INR (length x) * total (length x) (fun j => nth j x 0 * nth j x 0).
Proof.
  intros L Z. rewrite <- parseval. rewrite L at 1. replace (2 * h + 1)%nat with (S (h + h)) by lia.
  rewrite total_S. cbv beta. rewrite power_0, total_app by easy. cbv beta. rewrite (total_rev h (fun k => power x (S (h + k)))).
  rewrite (total_ext h (fun k => power x (S (h + (h - 1 - k)))) (fun k => power x (S k))); [ring|].
  intros k Hk. rewrite <- (power_mirror x (S k)) by lia. f_equal. lia.
Qed.
Lemma one_sided_even x h : length x = (2 * h)%nat -> (1 <= h)%nat -> total (length x) (fun j => nth j x 0) = 0 ->
  2 * total h (fun k => power x (S k)) = INR (length x) * total (length x) (fun j => nth j x 0 * nth j x 0) + power x h.
Proof.
  intros L H Z. rewrite <- parseval. rewrite L at 1. destruct h as [|g]; [lia|]. replace (2 * S g)%nat with (S (S g + g)) by lia.
  rewrite (total_S (S g + g)). cbv beta. rewrite power_0, total_app by easy. cbv beta. rewrite (total_rev g (fun k => power x (S (S g + k)))).
  rewrite (total_ext g (fun k => power x (S (S g + (g - 1 - k)))) (fun k => power x (S k))).
  - cbn [total]. ring.
  - intros k Hk. rewrite <- (power_mirror x (S k)) by lia. f_equal. lia.
Qed.

(** ** the integral of the periodogram *)
Lemma psd_single a n fs p : length a = n -> (2 <= n)%nat -> 0 < fs -> psd (map Some a) n fs Ones None = inr p ->
  exists r, residual a r /\ length p = (n / 2)%nat /\
    forall k, (k < n / 2)%nat -> nth_error p k = Some (Some (2 / (INR n * fs) * power r (S k))).
Proof.
  intros L N F E. assert (Pn : 0 < INR n) by (apply lt_0_INR; lia).
  assert (E1 : stepsize (length a) n None None = inr (0, 1, n)%nat).
  { rewrite L. unfold stepsize. destruct (Nat.ltb_spec n n); [lia|]. cbv zeta. now rewrite Nat.eqb_refl. }
  assert (Q : sum_squares (repeat 1 n) = INR n).
  { unfold sum_squares. rewrite repeat_length. rewrite (total_ext n _ (fun _ => 1)); [rewrite total_const; ring|].
    intros k Hk. rewrite (nth_indep _ 0 1) by (rewrite repeat_length; easy). rewrite nth_repeat. ring. }
  rewrite (psd_form a n fs Ones None 0%nat 1%nat n (repeat 1 n) [0%nat] E1 eq_refl eq_refl) in E.
  assert (Ep : p = map (fun k => option_map (fun c => Rabs c * psum a (repeat 1 n) n k [0%nat]) (weight (repeat 1 n) 1 fs)) (seq 1 (n / 2))) by congruence.
  clear E. subst p. destruct (res_ok a ltac:(lia)) as [_ Rs]. exists (res a). split; [easy|]. split; [now rewrite map_length, seq_length|].
  intros k Hk. rewrite nth_error_map, (nth_error_nth' (seq 1 (n / 2)) 0%nat) by (rewrite seq_length; lia). rewrite seq_nth by lia. cbn [option_map].
  rewrite weight_some by (rewrite Q; cbn [INR]; apply Rgt_not_eq; rewrite Rmult_1_r; now apply Rmult_lt_0_compat). cbn [option_map]. do 2 f_equal.
  rewrite Q. cbn [INR]. rewrite Rmult_1_r. rewrite Rabs_pos_eq by (apply Rlt_le, Rdiv_lt_0_compat; [lra|now apply Rmult_lt_0_compat]). f_equal.
  unfold psum. cbn [map rsum fold_right]. rewrite Rplus_0_r. unfold seg. rewrite dft_fourier.
  assert (Sm : samples a 0 n = a) by (unfold samples; cbn; apply firstn_all2; lia). rewrite Sm.
  assert (Mw : map2 Rmult (res a) (repeat 1 n) = res a).
  { assert (Lr : length (res a) = n) by (destruct Rs as [-> _]; easy). rewrite <- Lr. clear. induction (res a) as [|y l IH]; [reflexivity|].
    cbn. rewrite IH. f_equal. ring. }
  rewrite Mw. unfold power, cabs2. cbn. ring.
Qed.

Definition values (p : list (option R)) : list R := present p.
Lemma vals_all p f n : length p = n -> (forall k, (k < n)%nat -> nth_error p k = Some (Some (f k))) -> sum_list (present p) = total n f.
Proof.
  intros L H. assert (E : p = map (fun k => Some (f k)) (seq 0 n)).
  { revert n f L H. induction p as [|o p IH]; intros [|n] f L H; cbn in L; try discriminate; [reflexivity|].
    pose proof (H 0%nat ltac:(lia)) as H0. cbn in H0. injection H0 as ->. cbn [seq map]. f_equal.
    rewrite <- seq_shift, map_map. apply (IH n (fun k => f (S k))); [lia|]. intros k Hk. apply (H (S k)). lia. }
  rewrite E. unfold sum_list. rewrite <- rsum_total, <- vals_present. rewrite <- (rsum_seq f n). f_equal.
  clear. generalize (seq 0 n). intros l. induction l; cbn; congruence.
Qed.
Theorem variance_odd a h fs p : length a = (2 * h + 1)%nat -> (1 <= h)%nat -> 0 < fs ->
  psd (map Some a) (length a) fs Ones None = inr p ->
  exists r, residual a r /\ sum_list (present p) * (fs / INR (length a)) = total (length a) (fun j => nth j r 0 * nth j r 0) / INR (length a).
Proof.
  intros L H F E. destruct (psd_single a (length a) fs p eq_refl ltac:(lia) F E) as (r & Rs & Lp & V). exists r. split; [easy|].
  assert (Pn : 0 < INR (length a)) by (apply lt_0_INR; lia).
  assert (Hh : (length a / 2 = h)%nat) by (rewrite L; symmetry; apply (Nat.div_unique _ 2 h 1); lia). rewrite Hh in *.
  rewrite (vals_all p _ _ Lp V), total_scal. pose proof Rs as (Lr & T & _). rewrite <- Lr.
  pose proof (one_sided_odd r h ltac:(lia) T) as O. rewrite Lr in *.
  replace (total h (fun k => power r (S k))) with (INR (length a) * total (length a) (fun j => nth j r 0 * nth j r 0) / 2) by lra.
  field. lra.
Qed.
Theorem variance_even a h fs p : length a = (2 * h)%nat -> (1 <= h)%nat -> 0 < fs ->
  psd (map Some a) (length a) fs Ones None = inr p ->
  exists r, residual a r /\ sum_list (present p) * (fs / INR (length a)) =
    total (length a) (fun j => nth j r 0 * nth j r 0) / INR (length a) +
    (fourier_re r h / INR (length a)) * (fourier_re r h / INR (length a)).
Proof.
  intros L H F E. destruct (psd_single a (length a) fs p eq_refl ltac:(lia) F E) as (r & Rs & Lp & V). exists r. split; [easy|].
  assert (Pn : 0 < INR (length a)) by (apply lt_0_INR; lia).
  assert (Hh : (length a / 2 = h)%nat) by (rewrite L; symmetry; apply (Nat.div_unique _ 2 h 0); lia). rewrite Hh in *.
  rewrite (vals_all p _ _ Lp V), total_scal. pose proof Rs as (Lr & T & _).
  pose proof (one_sided_even r h ltac:(lia) H T) as O. rewrite Lr in *.
  assert (Im : fourier_im r h = 0).
  { unfold fourier_im. rewrite (total_ext _ _ (fun _ => 0)); [rewrite total_const; ring|]. intros j _. rewrite Lr, L.
    replace (2 * PI * (INR j * INR h / INR (2 * h))) with (INR j * PI).
    - assert (S0 : forall m, sin (INR m * PI) = 0). { intros m. apply sin_eq_0_1. exists (Z.of_nat m). now rewrite <- INR_IZR_INZ. } rewrite S0. ring.
    - rewrite mult_INR. cbn [INR]. field. apply not_0_INR. lia. }
  unfold power in O at 2. rewrite Im in O.
  replace (total h (fun k => power r (S k))) with ((INR (length a) * total (length a) (fun j => nth j r 0 * nth j r 0) + (fourier_re r h * fourier_re r h + 0 * 0)) / 2) by lra.
  field. lra.
Qed.
