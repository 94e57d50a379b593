From Coq Require Import QArith Reals List ZArith Bool Lra Lia.
From Verif.Model Require Import Linalg Angles Reshape Stats Vel.
From Verif.Spec Require Import Euler Stats Vel.
From Verif.Proofs Require Import Angles Stats Coherence.
From Verif.Proofs Require PsdProps.
Import ListNotations.
Open Scope R_scope.

(** ** speed and direction *)
Lemma mag_sq u v : u_mag u v * u_mag u v = u * u + v * v.
Proof. unfold u_mag. apply sqrt_sqrt. nra. Qed.
Lemma dir_range e u v : 0 <= u_dir e u v < 360.
Proof.
  unfold u_dir. destruct e; [apply conv_range_plain|]. pose proof (atan2_range v u) as [A B].
  assert (-180 < rad2deg (atan2 v u) <= 180).
  { rewrite <- r180. replace (- rad2deg PI) with (rad2deg (- PI)) by apply rad2deg_neg.
    replace (-180) with (rad2deg (- PI)) by (rewrite rad2deg_neg, r180; ring). split; [now apply rad2deg_lt|now apply rad2deg_le]. }
  destruct (Rlt_dec _ 0); lra.
Qed.
Lemma polar u v : u = u_mag u v * cos (atan2 v u) /\ v = u_mag u v * sin (atan2 v u).
Proof. unfold u_mag. destruct (atan2_polar v u) as [A B]. split; symmetry; assumption. Qed.
Lemma dir_earth u v : u_mag u v * sin (deg2rad (u_dir true u v)) = u /\ u_mag u v * cos (deg2rad (u_dir true u v)) = v.
Proof.
  unfold u_dir. destruct (cong_trig _ _ (conv_cong (rad2deg (atan2 v u)) false)) as [C S]. rewrite C, S.
  replace (deg2rad (90 - rad2deg (atan2 v u))) with (PI / 2 - atan2 v u).
  - rewrite sin_shift, cos_shift. destruct (polar u v) as [A B]. split; lra.
  - unfold Rminus. rewrite deg2rad_add, d90, deg2rad_neg, rad2deg2rad. reflexivity.
Qed.
Lemma dir_other u v : u_mag u v * cos (deg2rad (u_dir false u v)) = u /\ u_mag u v * sin (deg2rad (u_dir false u v)) = - v.
Proof.
  unfold u_dir. set (a := rad2deg (atan2 v u)).
  assert (E : cong 360 (if Rlt_dec (- a) 0 then - a + 360 else - a) (- a)).
  { destruct (Rlt_dec _ 0); [exists 1%Z; lra|apply cong_refl]. }
  destruct (cong_trig _ _ E) as [C S]. rewrite C, S, deg2rad_neg, cos_neg, sin_neg. unfold a. rewrite rad2deg2rad.
  destruct (polar u v) as [A B]. split; lra.
Qed.

(** ** fluctuations *)
Lemma fluct_ok dt a : (1 <= length a)%nat -> (dt = true -> (2 <= length a)%nat) ->
  exists r, fluct dt (map Some a) = map Some r /\ fluctuation dt a r.
Proof.
  intros L D. destruct dt; cbn [fluct fluctuation].
  - apply detrend_residual. now apply D.
  - assert (N : a <> []) by (intros ->; cbn in L; lia). pose proof (INR_len_pos a N) as P.
    exists (map (fun x => x - rsum a / INR (length a)) a). unfold demean_row. rewrite nanmean_some by now rewrite vals_some.
    rewrite vals_some. split; [now rewrite !map_map|]. split; [now rewrite map_length|]. exists (rsum a / INR (length a)). split.
    + unfold sum_list. rewrite <- rsum_total. field. lra.
    + intros k Hk. rewrite (nth_indep _ 0 (0 - rsum a / INR (length a))) by now rewrite map_length.
      now rewrite (map_nth (fun x => x - rsum a / INR (length a))).
Qed.
Lemma fluct_len dt a r : fluctuation dt a r -> length r = length a.
Proof. destruct dt; intros H; apply H. Qed.
Lemma list_ext (l m : list R) : length l = length m -> (forall k, (k < length l)%nat -> nth k l 0 = nth k m 0) -> l = m.
Proof. intros L H. apply (nth_ext l m 0 0 L H). Qed.
Lemma fluct_unique dt a r r' : (1 <= length a)%nat -> fluctuation dt a r -> fluctuation dt a r' -> r = r'.
Proof.
  intros L. destruct dt; cbn [fluctuation]; [apply residual_unique|]. intros (L1 & m & M & V) (L2 & m' & M' & V').
  assert (P : 0 < INR (length a)) by (apply lt_0_INR; lia). assert (m = m') by (apply (Rmult_eq_reg_r (INR (length a))); lra). subst m'.
  apply list_ext; [congruence|]. intros k Hk. rewrite V, V' by lia. reflexivity.
Qed.
Lemma mean_square_some r : r <> [] -> mean_square (map Some r) = Some (second_moment r r).
Proof.
  intros N. unfold mean_square. rewrite map_map. cbn [omul]. rewrite <- (map_map (fun x => x * x) Some), nanmean_some by (rewrite vals_some; destruct r; easy).
  rewrite vals_some, map_length. unfold second_moment. now rewrite (rsum_map _ _ 0).
Qed.
Lemma map2_some_mul x : forall y, map2 omul (map Some x) (map Some y) = map Some (map2 Rmult x y).
Proof. induction x as [|a x IH]; intros [|b y]; cbn; congruence. Qed.
Lemma rsum_map2 x : forall y, length y = length x -> rsum (map2 Rmult x y) = total (length x) (fun k => nth k x 0 * nth k y 0).
Proof.
  induction x as [|a x IH]; intros [|b y] H; try discriminate H; [reflexivity|]. cbn [map2 length rsum fold_right]. rewrite total_S. cbn [nth].
  fold (rsum (map2 Rmult x y)). rewrite IH by (cbn in H; lia). reflexivity.
Qed.
Lemma mean_product x y : x <> [] -> length y = length x -> nanmean (map2 omul (map Some x) (map Some y)) = Some (second_moment x y).
Proof.
  intros N L. rewrite map2_some_mul, nanmean_some; rewrite vals_some.
  - unfold second_moment. now rewrite map2_len, rsum_map2 by easy.
  - destruct x, y; easy.
Qed.

(** ** bins *)
Lemma fluct_bins_over dt arr q : fluct_bins dt arr q = over_bins (fluct dt) arr 0 q.
Proof. now destruct dt. Qed.
Lemma samples_map {A B} (f : A -> B) l i n : samples (map f l) i n = map f (samples l i n).
Proof. unfold samples. now rewrite skipn_map, firstn_map. Qed.
Lemma bin_len' (a : list R) n i : (1 <= n)%nat -> (i < length a / n)%nat -> length (samples a (i * n) n) = n.
Proof.
  intros N Hi. pose proof (bin_len (map Some a) n i N) as H. rewrite map_length, samples_map, map_length in H. now apply H.
Qed.
Lemma fluct_bins_ok dt a n : (1 <= n <= length a)%nat -> (dt = true -> (2 <= n)%nat) ->
  exists rows, fluct_bins dt (map Some a) (inject_Z (Z.of_nat n)) = inr (map (map Some) rows) /\ length rows = (length a / n)%nat /\
    forall i, (i < length a / n)%nat -> exists r, nth_error rows i = Some r /\ length r = n /\ fluctuation dt (samples a (i * n) n) r.
Proof.
  intros H D. rewrite fluct_bins_over. destruct (over_bins_whole (fluct dt) (map Some a) n) as (out & E & L & V); [now rewrite map_length|].
  rewrite map_length in *. rewrite E. exists (map vals out).
  assert (W : forall i, (i < length a / n)%nat -> exists r, nth_error out i = Some (map Some r) /\ length r = n /\ fluctuation dt (samples a (i * n) n) r).
  { intros i Hi. rewrite V, samples_map by easy. pose proof (bin_len' a n i ltac:(lia) Hi) as Ln.
    destruct (fluct_ok dt (samples a (i * n) n)) as (r & -> & F); [lia|intros T; rewrite Ln; now apply D|].
    exists r. split; [easy|]. split; [|easy]. now rewrite (fluct_len _ _ _ F). }
  split; [|split; [now rewrite map_length|]].
  - f_equal. rewrite map_map. rewrite <- (map_id out) at 1. apply map_ext_in. intros x Hx. apply In_nth_error in Hx as (i & Hi).
    assert (Hl : (i < length a / n)%nat) by (rewrite <- L; apply nth_error_Some; congruence).
    destruct (W i Hl) as (r & Er & _). rewrite Er in Hi. injection Hi as <-. now rewrite vals_some.
  - intros i Hi. destruct (W i Hi) as (r & Er & F). exists r. rewrite nth_error_map, Er. cbn [option_map]. now rewrite vals_some.
Qed.
Lemma nonempty {A} (l : list A) n : length l = n -> (1 <= n)%nat -> l <> [].
Proof. intros H N ->. cbn in H. lia. Qed.

Lemma tke_ok dt a noise n : (1 <= n <= length a)%nat -> (dt = true -> (2 <= n)%nat) ->
  exists out, calc_tke (map Some a) noise dt (inject_Z (Z.of_nat n)) = inr out /\ length out = (length a / n)%nat /\
    forall i, (i < length a / n)%nat -> exists r, fluctuation dt (samples a (i * n) n) r /\
      nth_error out i = Some (Some (second_moment r r - match noise with Some s => s * s | None => 0 end)).
Proof.
  intros H D. destruct (fluct_bins_ok dt a n H D) as (rows & E & L & V). unfold calc_tke. rewrite E. eexists. split; [reflexivity|].
  split; [now rewrite !map_length|]. intros i Hi. destruct (V i Hi) as (r & Er & Lr & F). exists r. split; [easy|].
  rewrite !nth_error_map, Er. cbn [option_map]. rewrite mean_square_some by (apply (nonempty r n); lia).
  destruct noise; cbn [osub]; [reflexivity|]. now rewrite Rminus_0_r.
Qed.
Lemma map2_nth_error {A B D} (f : A -> B -> D) l : forall m i, nth_error (map2 f l m) i =
  match nth_error l i, nth_error m i with Some x, Some y => Some (f x y) | _, _ => None end.
Proof. induction l as [|a l IH]; intros [|b m] [|i]; cbn; try easy; try apply IH; now destruct (nth_error l i). Qed.
Lemma stress_ok dt a b n : length b = length a -> (1 <= n <= length a)%nat -> (dt = true -> (2 <= n)%nat) ->
  exists out, calc_stress (map Some a) (map Some b) dt (inject_Z (Z.of_nat n)) = inr out /\ length out = (length a / n)%nat /\
    forall i, (i < length a / n)%nat -> exists x y, fluctuation dt (samples a (i * n) n) x /\ fluctuation dt (samples b (i * n) n) y /\
      length x = n /\ length y = n /\ nth_error out i = Some (Some (second_moment x y)).
Proof.
  intros Lb H D. destruct (fluct_bins_ok dt a n H D) as (ra & Ea & La & Va). destruct (fluct_bins_ok dt b n) as (rb & Eb & Lb' & Vb); [lia|easy|].
  rewrite Lb in *. unfold calc_stress. rewrite Ea, Eb. eexists. split; [reflexivity|]. split; [rewrite map2_len; now rewrite !map_length, La|].
  intros i Hi. destruct (Va i Hi) as (x & Ex & Lx & Fx). destruct (Vb i Hi) as (y & Ey & Ly & Fy). exists x, y. do 4 (split; [easy|]).
  rewrite map2_nth_error, !nth_error_map, Ex, Ey. cbn [option_map]. rewrite mean_product; [easy|apply (nonempty x n); lia|congruence].
Qed.
Lemma stress_components dt u v w n : length v = length u -> length w = length u -> (1 <= n <= length u)%nat -> (dt = true -> (2 <= n)%nat) ->
  exists uv uw vw, stress_vec (map Some u) (map Some v) (map Some w) dt (inject_Z (Z.of_nat n)) = [inr uv; inr uw; inr vw] /\
    forall i, (i < length u / n)%nat -> exists x y z, fluctuation dt (samples u (i * n) n) x /\ fluctuation dt (samples v (i * n) n) y /\
      fluctuation dt (samples w (i * n) n) z /\ nth_error uv i = Some (Some (second_moment x y)) /\
      nth_error uw i = Some (Some (second_moment x z)) /\ nth_error vw i = Some (Some (second_moment y z)).
Proof.
  intros Lv Lw H D. destruct (fluct_bins_ok dt u n H D) as (ra & Ea & La & Va). destruct (fluct_bins_ok dt v n) as (rb & Eb & Lb & Vb); [lia|easy|].
  destruct (fluct_bins_ok dt w n) as (rc & Ec & Lc & Vc); [lia|easy|].
  rewrite Lv, Lw in *. unfold stress_vec, calc_stress. rewrite Ea, Eb, Ec. do 3 eexists. split; [reflexivity|].
  intros i Hi. destruct (Va i Hi) as (x & Ex & Lx & Fx). destruct (Vb i Hi) as (y & Ey & Ly & Fy). destruct (Vc i Hi) as (z & Ez & Lz & Fz). exists x, y, z. do 3 (split; [easy|]).
  rewrite !map2_nth_error, !nth_error_map, Ex, Ey, Ez. cbn [option_map].
  rewrite !mean_product by (try congruence; apply (nonempty _ n); lia). easy.
Qed.
Lemma e_coh_ok upvp upwp vpwp : let e := e_coh upvp upwp vpwp in
  0 <= e /\ e^2 = upvp^2 + upwp^2 + vpwp^2 /\ Rabs upvp <= e /\ Rabs upwp <= e /\ Rabs vpwp <= e.
Proof.
  cbv zeta. assert (P : 0 <= e_coh upvp upwp vpwp) by apply sqrt_pos.
  assert (E : e_coh upvp upwp vpwp ^ 2 = upvp^2 + upwp^2 + vpwp^2) by (unfold e_coh; rewrite pow2_sqrt by nra; ring).
  split; [easy|]. split; [easy|]. set (e := e_coh _ _ _) in *.
  repeat split; apply Rsqr_incr_0; try easy; try apply Rabs_pos; rewrite <- Rsqr_abs; unfold Rsqr; nra.
Qed.
Lemma e_coh_zero upvp upwp vpwp : e_coh upvp upwp vpwp = 0 <-> upvp = 0 /\ upwp = 0 /\ vpwp = 0.
Proof.
  destruct (e_coh_ok upvp upwp vpwp) as (P & E & _). split.
  - intros Z. rewrite Z in E. assert (upvp * upvp = 0 /\ upwp * upwp = 0 /\ vpwp * vpwp = 0) as (A & B & C) by nra.
    apply Rsqr_0_uniq in A, B, C. easy.
  - intros (-> & -> & ->). unfold e_coh. replace (_ + _) with 0 by ring. apply sqrt_0.
Qed.
Lemma moment_nonneg r : r <> [] -> 0 <= second_moment r r.
Proof.
  intros N. pose proof (INR_len_pos r N). unfold second_moment. apply Rmult_le_pos; [|now apply Rlt_le, Rinv_0_lt_compat].
  apply total_nonneg. intros k _. nra.
Qed.
Lemma total_scal_r n c f : total n (fun k => f k * c) = total n f * c.
Proof. rewrite <- (Rmult_comm c), <- total_scal. apply total_ext. intros. ring. Qed.
Lemma cauchy_total n f g : total n (fun k => f k * g k) * total n (fun k => f k * g k) <= total n (fun k => f k * f k) * total n (fun k => g k * g k).
Proof.
  set (P := total n (fun k => f k * g k)). set (F := total n (fun k => f k * f k)). set (G := total n (fun k => g k * g k)).
  assert (Q : forall c d, 0 <= c * c * F + 2 * c * d * P + d * d * G).
  { intros c d. replace (c * c * F + 2 * c * d * P + d * d * G) with (total n (fun k => (c * f k + d * g k) * (c * f k + d * g k))).
    - apply total_nonneg. intros. apply Rle_0_sqr.
    - unfold F, P, G. rewrite <- !total_scal, <- !total_add. apply total_ext. intros. ring. }
  assert (G0 : 0 <= G) by (apply total_nonneg; intros; nra). assert (F0 : 0 <= F) by (apply total_nonneg; intros; nra).
  destruct (Req_EM_T G 0) as [Z|NZ].
  - assert (P = 0). { destruct (Req_EM_T P 0); [easy|]. pose proof (Q 1 (- (F + 1) / (2 * P))) as H. rewrite Z in H. exfalso.
      replace (1 * 1 * F + 2 * 1 * (- (F + 1) / (2 * P)) * P + (- (F + 1) / (2 * P)) * (- (F + 1) / (2 * P)) * 0) with (-1) in H by (field; easy). lra. }
    rewrite H. nra.
  - pose proof (Q G (- P)) as H. assert (0 <= G * (F * G - P * P)) by nra.
    assert (0 <= F * G - P * P); [|lra]. apply (Rmult_le_reg_l G); lra.
Qed.
Lemma moment_cauchy x y : x <> [] -> length y = length x -> second_moment x y * second_moment x y <= second_moment x x * second_moment y y.
Proof.
  intros N L. pose proof (INR_len_pos x N) as P. unfold second_moment. rewrite L.
  pose proof (cauchy_total (length x) (fun k => nth k x 0) (fun k => nth k y 0)) as C. set (n := INR (length x)) in *.
  set (A := total _ _) in *. set (B := total _ (fun k => nth k x 0 * nth k x 0)) in *. set (D := total _ (fun k => nth k y 0 * nth k y 0)) in *.
  apply (Rmult_le_reg_r (n * n)); [nra|]. replace (A / n * (A / n) * (n * n)) with (A * A) by (field; lra).
  replace (B / n * (D / n) * (n * n)) with (B * D) by (field; lra). exact C.
Qed.

Lemma stress_bound dt a b n ta tb s : length b = length a -> (1 <= n <= length a)%nat -> (dt = true -> (2 <= n)%nat) ->
  calc_tke (map Some a) None dt (inject_Z (Z.of_nat n)) = inr ta -> calc_tke (map Some b) None dt (inject_Z (Z.of_nat n)) = inr tb ->
  calc_stress (map Some a) (map Some b) dt (inject_Z (Z.of_nat n)) = inr s ->
  forall i, (i < length a / n)%nat -> exists x y z, nth_error ta i = Some (Some x) /\ nth_error tb i = Some (Some y) /\ nth_error s i = Some (Some z) /\
    0 <= x /\ 0 <= y /\ z * z <= x * y.
Proof.
  intros Lb H D Ea Eb Es i Hi.
  destruct (tke_ok dt a None n H D) as (oa & Ea' & _ & Va). destruct (tke_ok dt b None n) as (ob & Eb' & _ & Vb); [lia|easy|].
  destruct (stress_ok dt a b n Lb H D) as (os & Es' & _ & Vs). rewrite Lb in *.
  assert (oa = ta) by congruence. assert (ob = tb) by congruence. assert (os = s) by congruence. subst oa ob os.
  destruct (Va i Hi) as (r & Fr & Er). destruct (Vb i Hi) as (q & Fq & Eq). destruct (Vs i Hi) as (x & y & Fx & Fy & Lx & Ly & Exy).
  assert (Li : (1 <= length (samples a (i * n) n))%nat) by (rewrite bin_len'; lia).
  assert (Li' : (1 <= length (samples b (i * n) n))%nat) by (rewrite bin_len'; [lia|lia|now rewrite Lb]).
  assert (r = x) by now apply (fluct_unique dt (samples a (i * n) n)). assert (q = y) by now apply (fluct_unique dt (samples b (i * n) n)). subst r q.
  rewrite Rminus_0_r in Er, Eq. do 3 eexists. do 3 (split; [eassumption|]).
  assert (Nx : x <> []) by (apply (nonempty x n); lia). assert (Ny : y <> []) by (apply (nonempty y n); lia).
  split; [now apply moment_nonneg|]. split; [now apply moment_nonneg|]. apply moment_cauchy; [easy|congruence].
Qed.

(** ** adding a constant or a trend *)
Lemma fluct_shift dt a b alpha beta r : (1 <= length a)%nat -> length b = length a -> (dt = false -> beta = 0) ->
  (forall k, (k < length a)%nat -> nth k b 0 = nth k a 0 + alpha + beta * INR k) -> fluctuation dt a r -> fluctuation dt b r.
Proof.
  intros N L D V. destruct dt; cbn [fluctuation].
  - intros (L1 & S1 & S2 & al & be & E). split; [congruence|]. split; [easy|]. split; [easy|]. exists (al + alpha), (be + beta).
    intros k Hk. rewrite L in Hk. rewrite V, E by easy. ring.
  - rewrite D in * by easy. intros (L1 & m & M & E). split; [congruence|]. exists (m + alpha). rewrite L. split.
    + rewrite Rmult_plus_distr_r, M. unfold sum_list. rewrite L, <- (Rmult_comm (INR (length a))), <- total_const, <- total_add.
      apply total_ext. intros k Hk. rewrite V by easy. ring.
    + intros k Hk. rewrite E, V by easy. ring.
Qed.
Lemma nth_samples' (l : list R) i n j : (j < n)%nat -> nth j (samples l i n) 0 = nth (i + j) l 0.
Proof. apply PsdProps.nth_samples. Qed.
Lemma bin_shift a b n i alpha beta : (1 <= n)%nat -> length b = length a -> (i < length a / n)%nat ->
  (forall k, (k < length a)%nat -> nth k b 0 = nth k a 0 + alpha + beta * INR k) ->
  forall k, (k < n)%nat -> nth k (samples b (i * n) n) 0 = nth k (samples a (i * n) n) 0 + (alpha + beta * INR (i * n)) + beta * INR k.
Proof.
  intros N L Hi V k Hk. rewrite !nth_samples' by easy. rewrite V, plus_INR; [ring|].
  pose proof (bin_len' a n i N Hi) as Ln. unfold samples in Ln. rewrite firstn_length, skipn_length in Ln. lia.
Qed.
Lemma fluct_bins_shift dt a b n alpha beta : (1 <= n <= length a)%nat -> (dt = true -> (2 <= n)%nat) -> length b = length a -> (dt = false -> beta = 0) ->
  (forall k, (k < length a)%nat -> nth k b 0 = nth k a 0 + alpha + beta * INR k) ->
  fluct_bins dt (map Some b) (inject_Z (Z.of_nat n)) = fluct_bins dt (map Some a) (inject_Z (Z.of_nat n)).
Proof.
  intros H D L B V. destruct (fluct_bins_ok dt a n H D) as (ra & Ea & La & Va). destruct (fluct_bins_ok dt b n) as (rb & Eb & Lb & Vb); [lia|easy|].
  rewrite Ea, Eb. rewrite L in *. do 2 f_equal. apply nth_error_ext'. { congruence. } intros i Hi. rewrite Lb in Hi.
  destruct (Va i Hi) as (x & -> & Lx & Fx). destruct (Vb i Hi) as (y & -> & Ly & Fy). f_equal.
  assert (La' : length (samples a (i * n) n) = n) by (apply bin_len'; lia). assert (Lb' : length (samples b (i * n) n) = n) by (apply bin_len'; [lia|now rewrite L]).
  apply (fluct_unique dt (samples b (i * n) n)); [lia|easy|].
  eapply (fluct_shift dt (samples a (i * n) n)); [lia|congruence|exact B| |exact Fx]. rewrite La'.
  apply bin_shift; [lia|easy|easy|exact V].
Qed.
Lemma tke_shift dt a b n noise alpha beta : (1 <= n <= length a)%nat -> (dt = true -> (2 <= n)%nat) -> length b = length a -> (dt = false -> beta = 0) ->
  (forall k, (k < length a)%nat -> nth k b 0 = nth k a 0 + alpha + beta * INR k) ->
  calc_tke (map Some b) noise dt (inject_Z (Z.of_nat n)) = calc_tke (map Some a) noise dt (inject_Z (Z.of_nat n)).
Proof. intros. unfold calc_tke. now rewrite (fluct_bins_shift dt a b n alpha beta). Qed.
Lemma stress_shift dt a b a' b' n alpha beta alpha' beta' : (1 <= n <= length a)%nat -> (dt = true -> (2 <= n)%nat) -> (dt = false -> beta = 0 /\ beta' = 0) ->
  length b = length a -> length a' = length a -> length b' = length a ->
  (forall k, (k < length a)%nat -> nth k a' 0 = nth k a 0 + alpha + beta * INR k) ->
  (forall k, (k < length a)%nat -> nth k b' 0 = nth k b 0 + alpha' + beta' * INR k) ->
  calc_stress (map Some a') (map Some b') dt (inject_Z (Z.of_nat n)) = calc_stress (map Some a) (map Some b) dt (inject_Z (Z.of_nat n)).
Proof.
  intros H D B Lb La' Lb' Va Vb. unfold calc_stress. rewrite (fluct_bins_shift dt a a' n alpha beta H D La'); [|intros E; now apply B|exact Va].
  rewrite (fluct_bins_shift dt b b' n alpha' beta'); [reflexivity|lia|exact D|congruence|intros E; now apply B|rewrite Lb; exact Vb].
Qed.

(** ** missing samples *)
Lemma missing_witness :
  let u := [Some 1; Some (-1); Some 0; Some 0] in let v := [Some 1; Some (-1); None; None] in
  calc_tke u None false (inject_Z 4) = inr [Some (1/2)] /\ calc_tke v None false (inject_Z 4) = inr [Some 1] /\
  calc_stress u v false (inject_Z 4) = inr [Some 1].
Proof.
  cbv zeta.
  assert (Fu : fluct_bins false [Some 1; Some (-1); Some 0; Some 0] (inject_Z 4) = inr [[Some 1; Some (-1); Some 0; Some 0]]).
  { change (inr [demean_row [Some 1; Some (-1); Some 0; Some 0]] = (inr [[Some 1; Some (-1); Some 0; Some 0]] : reshape_err + list (list (option R)))).
    unfold demean_row, nanmean. cbn. repeat (f_equal; try field). }
  assert (Fv : fluct_bins false [Some 1; Some (-1); None; None] (inject_Z 4) = inr [[Some 1; Some (-1); None; None]]).
  { change (inr [demean_row [Some 1; Some (-1); None; None]] = (inr [[Some 1; Some (-1); None; None]] : reshape_err + list (list (option R)))).
    unfold demean_row, nanmean. cbn. repeat (f_equal; try field). }
  unfold calc_tke, calc_stress. rewrite Fu, Fv. unfold mean_square, nanmean. cbn. repeat split; do 3 f_equal; field.
Qed.

(** ** turbulence intensity *)
Lemma ti_thresh_ignored arr noise t t' dt q : calc_ti arr noise t dt q = calc_ti arr noise t' dt q.
Proof.
  unfold calc_ti, masked_ti. destruct (fluct_bins dt arr q) as [e|rows]; [easy|]. destruct (bin_mean arr q) as [e|means]; [easy|]. f_equal.
  revert means. induction rows as [|r rows IH]; intros [|m means]; cbn; try easy. now rewrite IH.
Qed.
Lemma mask_ok a noise thresh dt n : (1 <= n <= length a)%nat -> (dt = true -> (2 <= n)%nat) ->
  exists out, masked_ti (map Some a) noise thresh dt (inject_Z (Z.of_nat n)) = inr out /\ length out = (length a / n)%nat /\
  forall i, (i < length a / n)%nat -> exists r m v masked, fluctuation dt (samples a (i * n) n) r /\
    m * INR n = sum_list (samples a (i * n) n) /\ nth_error out i = Some (masked, v) /\ (masked = true <-> m < thresh) /\
    let s := second_moment r r - noise * noise in
    (v = None <-> s < 0 \/ m = 0) /\ (0 <= s -> m <> 0 -> v = Some (sqrt s / m)).
Proof.
  intros H D. destruct (fluct_bins_ok dt a n H D) as (rows & E & L & V). destruct (bin_mean_ok (map Some a) n) as (ms & Em & Lm & Vm); [now rewrite map_length|].
  rewrite map_length in *. unfold masked_ti. rewrite E, Em. eexists. split; [reflexivity|]. split; [rewrite map2_len; rewrite !map_length; lia|].
  intros i Hi. destruct (V i Hi) as (r & Er & Lr & F). destruct (Vm i Hi) as (om & Eo & Mo). rewrite samples_map in Mo.
  pose proof (bin_len' a n i ltac:(lia) Hi) as Ls. assert (Ps : present (map Some (samples a (i * n) n)) = samples a (i * n) n) by now rewrite <- vals_present, vals_some.
  destruct om as [m|]; cbn [is_mean] in Mo; rewrite Ps in Mo; [|exfalso; rewrite Mo in Ls; cbn in Ls; lia]. destruct Mo as [_ Mo]. rewrite Ls in Mo.
  rewrite map2_nth_error, !nth_error_map, Er, Eo. cbn [option_map]. rewrite mean_square_some by (apply (nonempty r n); lia).
  do 4 eexists. split; [exact F|]. split; [exact Mo|]. split; [reflexivity|]. split; [destruct (Rlt_dec m thresh); easy|]. cbv zeta. cbn [osub nsqrt].
  destruct (Rlt_dec _ 0) as [Lt|Ge]; cbn [odiv]; [split; [split; [now left|easy]|intros; lra]|].
  destruct (Req_EM_T m 0) as [Z|NZ]; (split; [split; [try discriminate|intros [?|?]; try lra]|intros; try lra; try easy]); try easy. now right.
Qed.
Lemma ti_ok a noise thresh dt n : (1 <= n <= length a)%nat -> (dt = true -> (2 <= n)%nat) ->
  exists out, calc_ti (map Some a) noise thresh dt (inject_Z (Z.of_nat n)) = inr out /\ length out = (length a / n)%nat /\
  forall i, (i < length a / n)%nat -> exists r m v, fluctuation dt (samples a (i * n) n) r /\
    m * INR n = sum_list (samples a (i * n) n) /\ nth_error out i = Some v /\
    let s := second_moment r r - noise * noise in
    (v = None <-> s < 0 \/ m = 0) /\ (0 <= s -> m <> 0 -> v = Some (sqrt s / m)).
Proof.
  intros H D. destruct (mask_ok a noise thresh dt n H D) as (out & E & L & V). unfold calc_ti. rewrite E. eexists. split; [reflexivity|].
  split; [now rewrite map_length|]. intros i Hi. destruct (V i Hi) as (r & m & v & k & F & M & N & _ & C). exists r, m, v. rewrite nth_error_map, N. easy.
Qed.
Lemma ti_witness : calc_ti [Some 1; Some 3] 0 100 false (inject_Z 2) = inr [Some (1/2)].
Proof.
  unfold calc_ti, masked_ti.
  change (fluct_bins false [Some 1; Some 3] (inject_Z 2)) with (inr [demean_row [Some 1; Some 3]] : reshape_err + list (list (option R))).
  change (bin_mean [Some 1; Some 3] (inject_Z 2)) with (inr [nanmean [Some 1; Some 3]] : reshape_err + list (option R)).
  assert (E : nanmean [Some 1; Some 3] = Some 2) by (unfold nanmean; cbn; f_equal; field).
  unfold demean_row. rewrite E. cbn [map osub map2 snd]. unfold mean_square. cbn [map omul]. unfold nanmean. cbn [vals rsum fold_right length].
  cbn [osub nsqrt]. replace (((1 - 2) * (1 - 2) + ((3 - 2) * (3 - 2) + 0)) / INR 2 - 0 * 0) with 1 by (cbn; field).
  destruct (Rlt_dec 1 0); [lra|]. rewrite sqrt_1. cbn [odiv]. destruct (Req_EM_T 2 0); [lra|]. reflexivity.
Qed.
