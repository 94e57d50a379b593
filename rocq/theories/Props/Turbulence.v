(** Properties C39-C43 and C89-C96: speed, direction, second moments and dissipation. *)
From Coq Require Import QArith Qround Reals List ZArith Lra Lia.
From Verif.Model Require Import Linalg Angles Reshape Stats Vel Dissipation.
From Verif.Spec Require Import Stats Vel Dissipation.
From Verif.Proofs Require Stats Vel Dissipation Structure.
Import ListNotations.
Open Scope R_scope.

(** ** C39 *)
Theorem C39_speed : forall u v, 0 <= u_mag u v /\ u_mag u v * u_mag u v = u * u + v * v.
Proof. intros u v. split; [apply sqrt_pos|exact (Vel.mag_sq u v)]. Qed.
Theorem C39_direction_range : forall earth u v, 0 <= u_dir earth u v < 360.
Proof. exact Vel.dir_range. Qed.
Theorem C39_earth_compass_direction : forall east north,
  u_mag east north * sin (deg2rad (u_dir true east north)) = east /\
  u_mag east north * cos (deg2rad (u_dir true east north)) = north.
Proof. exact Vel.dir_earth. Qed.
Theorem C39_clockwise_from_first_axis : forall x y,
  u_mag x y * cos (deg2rad (u_dir false x y)) = x /\ u_mag x y * sin (deg2rad (u_dir false x y)) = - y.
Proof. exact Vel.dir_other. Qed.
Example C39_hyp : u_mag 3 4 = 5.
Proof. unfold u_mag. replace (3 * 3 + 4 * 4) with (5 * 5) by ring. apply sqrt_square. lra. Qed.

(** ** C40: the value. Missing: the threshold. *)
Theorem C40_value_partial : forall a noise thresh dt n, (1 <= n <= length a)%nat -> (dt = true -> (2 <= n)%nat) ->
  exists out, calc_ti (map Some a) noise thresh dt (inject_Z (Z.of_nat n)) = inr out /\ length out = (length a / n)%nat /\
  forall i, (i < length a / n)%nat -> exists r m v, fluctuation dt (samples a (i * n) n) r /\
    m * INR n = sum_list (samples a (i * n) n) /\ nth_error out i = Some v /\
    let s := second_moment r r - noise * noise in
    (v = None <-> s < 0 \/ m = 0) /\ (0 <= s -> m <> 0 -> v = Some (sqrt s / m)).
Proof. exact Vel.ti_ok. Qed.
(** the masked array made on the way is right *)
Theorem C40_mask_before_return : forall a noise thresh dt n, (1 <= n <= length a)%nat -> (dt = true -> (2 <= n)%nat) ->
  exists out, masked_ti (map Some a) noise thresh dt (inject_Z (Z.of_nat n)) = inr out /\ length out = (length a / n)%nat /\
  forall i, (i < length a / n)%nat -> exists r m v masked, fluctuation dt (samples a (i * n) n) r /\
    m * INR n = sum_list (samples a (i * n) n) /\ nth_error out i = Some (masked, v) /\ (masked = true <-> m < thresh) /\
    let s := second_moment r r - noise * noise in
    (v = None <-> s < 0 \/ m = 0) /\ (0 <= s -> m <> 0 -> v = Some (sqrt s / m)).
Proof. exact Vel.mask_ok. Qed.
(** but what is returned does not depend on the threshold *)
Theorem C40_threshold_ignored : forall arr noise t t' dt q, calc_ti arr noise t dt q = calc_ti arr noise t' dt q.
Proof. exact Vel.ti_thresh_ignored. Qed.
Theorem C40_threshold_refuted : exists a thresh m v, calc_ti (map Some a) 0 thresh false (inject_Z 2) = inr [Some v] /\
  m * INR (length a) = sum_list a /\ m < thresh.
Proof.
  exists [1; 3], 100, 2, (1/2). split; [exact Vel.ti_witness|]. split; [cbn; ring|lra].
Qed.

(** ** C41 *)
Theorem C41_tke : forall dt a noise n, (1 <= n <= length a)%nat -> (dt = true -> (2 <= n)%nat) ->
  exists out, calc_tke (map Some a) noise dt (inject_Z (Z.of_nat n)) = inr out /\ length out = (length a / n)%nat /\
    forall i, (i < length a / n)%nat -> exists r, fluctuation dt (samples a (i * n) n) r /\
      nth_error out i = Some (Some (second_moment r r - match noise with Some s => s * s | None => 0 end)).
Proof. exact Vel.tke_ok. Qed.
Theorem C41_stress : forall dt a b n, length b = length a -> (1 <= n <= length a)%nat -> (dt = true -> (2 <= n)%nat) ->
  exists out, calc_stress (map Some a) (map Some b) dt (inject_Z (Z.of_nat n)) = inr out /\ length out = (length a / n)%nat /\
    forall i, (i < length a / n)%nat -> exists x y, fluctuation dt (samples a (i * n) n) x /\ fluctuation dt (samples b (i * n) n) y /\
      length x = n /\ length y = n /\ nth_error out i = Some (Some (second_moment x y)).
Proof. exact Vel.stress_ok. Qed.
(** the three stresses are those of (u, v), (u, w), (v, w) in this order *)
Theorem C41_stress_components : forall dt u v w n, length v = length u -> length w = length u -> (1 <= n <= length u)%nat -> (dt = true -> (2 <= n)%nat) ->
  exists uv uw vw, stress_vec (map Some u) (map Some v) (map Some w) dt (inject_Z (Z.of_nat n)) = [inr uv; inr uw; inr vw] /\
    forall i, (i < length u / n)%nat -> exists x y z, fluctuation dt (samples u (i * n) n) x /\ fluctuation dt (samples v (i * n) n) y /\
      fluctuation dt (samples w (i * n) n) z /\ nth_error uv i = Some (Some (second_moment x y)) /\
      nth_error uw i = Some (Some (second_moment x z)) /\ nth_error vw i = Some (Some (second_moment y z)).
Proof. exact Vel.stress_components. Qed.
Theorem C41_nonnegative_and_cauchy_schwarz : forall dt a b n ta tb s, length b = length a -> (1 <= n <= length a)%nat -> (dt = true -> (2 <= n)%nat) ->
  calc_tke (map Some a) None dt (inject_Z (Z.of_nat n)) = inr ta -> calc_tke (map Some b) None dt (inject_Z (Z.of_nat n)) = inr tb ->
  calc_stress (map Some a) (map Some b) dt (inject_Z (Z.of_nat n)) = inr s ->
  forall i, (i < length a / n)%nat -> exists x y z, nth_error ta i = Some (Some x) /\ nth_error tb i = Some (Some y) /\ nth_error s i = Some (Some z) /\
    0 <= x /\ 0 <= y /\ z * z <= x * y.
Proof. exact Vel.stress_bound. Qed.
Theorem C41_total : forall x y z, total_tke [Some x; Some y; Some z] = (x + y + z) / 2.
Proof. intros. unfold total_tke. cbn. field. Qed.
(** adding a constant, or with detrend a straight line, changes nothing *)
Theorem C41_tke_trend : forall dt a b n noise alpha beta, (1 <= n <= length a)%nat -> (dt = true -> (2 <= n)%nat) -> length b = length a -> (dt = false -> beta = 0) ->
  (forall k, (k < length a)%nat -> nth k b 0 = nth k a 0 + alpha + beta * INR k) ->
  calc_tke (map Some b) noise dt (inject_Z (Z.of_nat n)) = calc_tke (map Some a) noise dt (inject_Z (Z.of_nat n)).
Proof. exact Vel.tke_shift. Qed.
Theorem C41_stress_trend : forall dt a b a' b' n alpha beta alpha' beta', (1 <= n <= length a)%nat -> (dt = true -> (2 <= n)%nat) -> (dt = false -> beta = 0 /\ beta' = 0) ->
  length b = length a -> length a' = length a -> length b' = length a ->
  (forall k, (k < length a)%nat -> nth k a' 0 = nth k a 0 + alpha + beta * INR k) ->
  (forall k, (k < length a)%nat -> nth k b' 0 = nth k b 0 + alpha' + beta' * INR k) ->
  calc_stress (map Some a') (map Some b') dt (inject_Z (Z.of_nat n)) = calc_stress (map Some a) (map Some b) dt (inject_Z (Z.of_nat n)).
Proof. exact Vel.stress_shift. Qed.
Example C41_hyp : fluctuation false [1; 3] [-1; 1] /\ second_moment [-1; 1] [-1; 1] = 1.
Proof.
  split; [|unfold second_moment; cbn; field]. cbn [fluctuation]. split; [reflexivity|]. exists 2. split; [cbn; ring|].
  intros [|[|k]] Hk; cbn in *; try lra. lia.
Qed.
(** with missing samples the two moments are taken over different samples *)
Theorem C41_missing_samples_refuted : exists u v x y z,
  calc_tke u None false (inject_Z 4) = inr [Some x] /\ calc_tke v None false (inject_Z 4) = inr [Some y] /\
  calc_stress u v false (inject_Z 4) = inr [Some z] /\ x * y < z * z.
Proof.
  exists [Some 1; Some (-1); Some 0; Some 0], [Some 1; Some (-1); None; None], (1/2), 1, 1.
  destruct Vel.missing_witness as (A & B & C). split; [exact A|]. split; [exact B|]. split; [exact C|lra].
Qed.

(** ** C89 *)
Theorem C89_total_partial : forall l v, l = map Some v -> total_tke l = rsum v / 2.
Proof. intros l v ->. unfold total_tke. now rewrite Stats.vals_some. Qed.
Theorem C89_missing_component_refuted : exists l, In None l /\ total_tke l = 0 /\ exists l' x y, l' = [None; Some x; Some y] /\ total_tke l' = (x + y) / 2.
Proof.
  exists [None; None; None]. split; [now left|]. split; [unfold total_tke; cbn; field|]. exists [None; Some 1; Some 2], 1, 2. split; [reflexivity|].
  unfold total_tke. cbn. field.
Qed.

(** ** C114 *)
Theorem C114_coherent_energy : forall upvp upwp vpwp, let e := e_coh upvp upwp vpwp in
  0 <= e /\ e^2 = upvp^2 + upwp^2 + vpwp^2 /\ Rabs upvp <= e /\ Rabs upwp <= e /\ Rabs vpwp <= e.
Proof. exact Vel.e_coh_ok. Qed.
Theorem C114_zero : forall upvp upwp vpwp, e_coh upvp upwp vpwp = 0 <-> upvp = 0 /\ upwp = 0 /\ vpwp = 0.
Proof. exact Vel.e_coh_zero. Qed.
(** it is not the root of the mean square, but sqrt 3 times it *)
Theorem C114_not_rms_refuted : exists upvp upwp vpwp, e_coh upvp upwp vpwp <> sqrt ((upvp^2 + upwp^2 + vpwp^2) / 3).
Proof.
  exists 1, 1, 1. unfold e_coh. intros E. apply sqrt_inj in E; lra.
Qed.
Example C114_hyp : e_coh 2 1 2 = 3.
Proof. unfold e_coh. replace (1 * 1 + 2 * 2 + 2 * 2) with (3 * 3) by ring. apply sqrt_square. lra. Qed.

(** ** C42: [noise_at] is 0 without noise. Missing: noise with a spectrum per rad/s. *)
Theorem C42_recovers_hz : forall fs lo hi freq noise psd U i row u eps,
  0 < eps -> 0 < u -> 0 <= lo -> match noise with Some s => length s = length psd | None => True end ->
  nth_error psd i = Some row -> nth_error U i = Some u -> length row = length freq ->
  (exists j, (j < length freq)%nat /\ lo < nth j freq 0 < hi) ->
  (forall j, (j < length freq)%nat -> lo < nth j freq 0 < hi ->
     nth j row 0 = inertial_hz eps u (nth j freq 0) + white true fs (match noise with Some s => nth i s 0 | None => 0 end)) ->
  nth_error (lt83 fs true lo hi freq noise psd U) i = Some (Some eps).
Proof. intros fs lo hi. exact (Dissipation.lt83_recovers fs true lo hi). Qed.
Theorem C42_recovers_rad_partial : forall fs lo hi freq psd U i row u eps,
  0 < eps -> 0 < u -> 0 <= lo -> nth_error psd i = Some row -> nth_error U i = Some u -> length row = length freq ->
  (exists j, (j < length freq)%nat /\ lo < nth j freq 0 < hi) ->
  (forall j, (j < length freq)%nat -> lo < nth j freq 0 < hi -> nth j row 0 = inertial_omega eps u (nth j freq 0)) ->
  nth_error (lt83 fs false lo hi freq None psd U) i = Some (Some eps).
Proof.
  intros fs lo hi freq psd U i row u eps He Hu Hl Hr Hu' L X V. eapply (Dissipation.lt83_recovers fs false lo hi freq None); eauto.
  intros j Hj B. rewrite V by assumption. cbn. unfold Rdiv. ring.
Qed.
Theorem C42_nonnegative : forall fs hz lo hi freq noise psd U i row u, 0 < u -> 0 <= lo -> match noise with Some s => length s = length psd | None => True end ->
  nth_error psd i = Some row -> nth_error U i = Some u -> length row = length freq ->
  (exists j, (j < length freq)%nat /\ lo < nth j freq 0 < hi) ->
  exists e, nth_error (lt83 fs hz lo hi freq noise psd U) i = Some (Some e) /\ 0 <= e.
Proof. exact Dissipation.lt83_nonneg. Qed.
Theorem C42_scales : forall fs hz lo hi freq psd U c, 0 < c ->
  lt83 fs hz lo hi freq None (map (map (Rmult c)) psd) U = map (option_map (Rmult (Rpower c (3/2)))) (lt83 fs hz lo hi freq None psd U).
Proof. exact Dissipation.lt83_scale. Qed.
Theorem C42_empty_range : forall fs hz lo hi freq noise psd U i e, (forall j, (j < length freq)%nat -> ~ lo < nth j freq 0 < hi) ->
  nth_error (lt83 fs hz lo hi freq noise psd U) i = Some e -> e = None.
Proof. exact Dissipation.lt83_empty_all. Qed.
Example C42_hyp : lt83 1 false 0 2 [1] None [[inertial_omega 5 3 1]] [3] = [Some 5] /\
  nth_error (lt83 8 true 0 2 [1; 7] (Some [2]) [[inertial_hz 5 3 1 + white true 8 2; -1]] [3]) 0 = Some (Some 5).
Proof.
  split.
  - assert (H : nth_error (lt83 1 false 0 2 [1] None [[inertial_omega 5 3 1]] [3]) 0 = Some (Some 5)); [|cbn [nth_error] in H; unfold lt83 in *; cbn [sub_noise map2 map floor_psd] in *; congruence].
    eapply C42_recovers_rad_partial; try reflexivity; try lra; [exists 0%nat; cbn; split; [lia|lra]|]. intros [|j] Hj B; [reflexivity|cbn in Hj; lia].
  - eapply C42_recovers_hz; try reflexivity; try lra; [exists 0%nat; cbn; split; [lia|lra]|].
    intros [|[|j]] Hj B; [reflexivity|cbn in B; lra|cbn in Hj; lia].
Qed.
(** white noise per rad/s is not removed: the divisor is the Nyquist frequency in Hz *)
Theorem C42_rad_noise_refuted : exists fs freq noise e,
  lt83 fs false 0 2 freq (Some [noise]) [[inertial_omega 1 1 (nth 0 freq 0) + white false fs noise]] [1] = [Some e] /\ e < 1.
Proof. exists 1, [1], (1/2). destruct Dissipation.lt83_rad_noise_wrong as (e & H & L). exists e. split; [exact H|exact L]. Qed.

(** ** C43: what the fit recovers. Missing: the law itself. *)
Theorem C43_square_law_partial : forall b r0 r1 bm z eps N, (0 < b)%Q -> (0 <= r0)%Q -> (Qfloor (r0 / b) + 2 <= Qceiling (r1 / b) <= Z.of_nat z)%Z -> 0 < eps -> 0 <= N ->
  (forall k, used_separation b r0 r1 k -> let r := INR k * Q2R b in difference_is bm z k ((21/10) * Rpower eps (2/3) * (r * r / 3) + N)) ->
  sf_epsilon b r0 r1 bm z = Some eps /\ sf_noise b r0 r1 bm z = Some (sqrt (N / 2)).
Proof.
  intros b r0 r1 bm z eps N Hb Hr H He HN V. apply Structure.sf_recovers'; try assumption. intros k Hk. apply Structure.D_difference, V, Hk.
Qed.
Theorem C43_two_thirds_law_refuted : exists b r0 r1 bm z eps e, (0 < b)%Q /\ (Qfloor (r0 / b) + 2 <= Qceiling (r1 / b) <= Z.of_nat z)%Z /\
  (forall k, used_separation b r0 r1 k -> difference_is bm z k (structure eps 0 (INR k * Q2R b))) /\
  sf_epsilon b r0 r1 bm z = Some e /\ e < eps.
Proof.
  destruct Structure.sf_law_refuted as (A & e & B & C). exists 1%Q, (1#2)%Q, 2%Q, Structure.wit_bm, 2%nat, 1, e.
  split; [reflexivity|]. split; [cbv; split; discriminate|]. split; [|split; [exact B|exact C]].
  intros k Hk. apply Structure.difference_D, A. apply Structure.used_seps; [reflexivity|discriminate|exact Hk].
Qed.

(** ** C91 *)
Theorem C91_separations_partial : forall b r0 r1 k, (0 < b)%Q -> (0 <= r0)%Q ->
  let r := (inject_Z (Z.of_nat k) * b)%Q in
  (used_separation b r0 r1 k -> (r0 < r /\ r < r1 + b)%Q) /\ ((r0 < r)%Q -> (r <= r1)%Q -> used_separation b r0 r1 k).
Proof.
  intros b r0 r1 k Hb Hr. cbv zeta. split.
  - intros H. apply (Structure.seps_range b r0 r1 k Hb Hr). now apply Structure.used_seps.
  - intros H1 H2. apply Structure.used_seps; [exact Hb|exact Hr|]. now apply Structure.seps_complete.
Qed.
(** only the cells at these separations matter, and each of them is needed *)
Theorem C91_only_these : forall b r0 r1 bm bm' z, (0 < b)%Q -> (0 <= r0)%Q ->
  (forall k, used_separation b r0 r1 k -> nth (z - k) bm [] = nth (z - k) bm' []) -> nth z bm [] = nth z bm' [] ->
  sf_epsilon b r0 r1 bm z = sf_epsilon b r0 r1 bm' z /\ sf_noise b r0 r1 bm z = sf_noise b r0 r1 bm' z.
Proof. exact Structure.fit_same. Qed.
Theorem C91_all_these : forall b r0 r1 bm z k, (0 < b)%Q -> (0 <= r0)%Q -> used_separation b r0 r1 k ->
  both (nth (z - k) bm []) (nth z bm []) = [] -> sf_epsilon b r0 r1 bm z = None /\ sf_noise b r0 r1 bm z = None.
Proof. exact Structure.fit_needs. Qed.
Example C91_these_hyp : used_separation (1#2) 1 2 3 /\ ~ used_separation (1#2) 1 2 2 /\ both [Some 1; None] [None; Some 2] = [].
Proof. split; [split; vm_compute; [reflexivity|discriminate]|]. split; [intros [H _]; vm_compute in H; discriminate H|reflexivity]. Qed.
(** the smallest separation asked for is left out; one larger than asked for can be used *)
Theorem C91_range_refuted :
  (exists b r0 r1 k, (r0 == inject_Z (Z.of_nat k) * b)%Q /\ (0 < b)%Q /\ (r0 <= r1)%Q /\ ~ used_separation b r0 r1 k) /\
  (exists b r0 r1 k, (r1 < inject_Z (Z.of_nat k) * b)%Q /\ (0 < b)%Q /\ used_separation b r0 r1 k).
Proof.
  split.
  - exists (1#2)%Q, 1%Q, 5%Q, 2%nat. split; [reflexivity|]. split; [reflexivity|]. split; [discriminate|]. intros [H _]. vm_compute in H. discriminate H.
  - exists (3#5)%Q, 1%Q, 5%Q, 9%nat. split; [reflexivity|]. split; [reflexivity|]. split; vm_compute; [reflexivity|discriminate].
Qed.

(** ** C90 *)
Theorem C90_adv_structure_function : forall U fs lo hi up eps, 0 < U -> 0 < fs -> 0 < eps -> (1 <= lo < hi)%nat -> (hi <= length up)%nat ->
  (forall L, (lo <= L < hi)%nat -> mean_square_increment up L = structure eps 0 (U / fs * INR L)) ->
  adv_sf U fs lo hi (map Some up) = inr (Some eps).
Proof. exact Structure.adv_sf_recovers_complete. Qed.
Theorem C90_raises : forall U fs lo hi up, adv_sf U fs lo hi up = inl tt <-> (lo < hi)%nat /\ (lo = 0%nat \/ (length up < hi)%nat).
Proof. exact Structure.adv_sf_raises. Qed.
Example C90_hyp : mean_square_increment [0; sqrt (structure 1 0 (1 / 1 * INR 1))] 1 = structure 1 0 (1 / 1 * INR 1).
Proof.
  unfold mean_square_increment. cbn [length Nat.sub total nth Nat.add INR].
  assert (P : 0 <= structure 1 0 (1 / 1 * 1)) by (unfold structure; pose proof (Dissipation.Rpower_pos 1 (2/3)); pose proof (Dissipation.Rpower_pos (1 / 1 * 1) (2/3)); nra).
  set (s := structure _ _ _) in *. replace (_ / 1) with (sqrt s * sqrt s) by field. apply sqrt_sqrt. exact P.
Qed.

(** ** C92 *)
Theorem C92_cascade_slope : forall lo hi freq row m b i j, 0 <= lo -> length row = length freq -> (i < length freq)%nat -> (j < length freq)%nat ->
  lo < nth i freq 0 < hi -> lo < nth j freq 0 < hi -> nth i freq 0 <> nth j freq 0 ->
  (forall k, (k < length freq)%nat -> lo < nth k freq 0 < hi -> nth k row 0 = Rpower 10 b * Rpower (nth k freq 0) m) ->
  cascade_slope lo hi freq row = Some (m, b).
Proof. exact Structure.cascade_exact. Qed.
Example C92_hyp : cascade_slope 0 9 [1; 2] [Rpower 10 3 * Rpower 1 (-5/3); Rpower 10 3 * Rpower 2 (-5/3)] = Some (-5/3, 3).
Proof.
  apply (C92_cascade_slope 0 9 [1; 2] _ (-5/3) 3 0 1); cbn; try lia; try lra. intros [|[|k]] Hk B; [reflexivity|reflexivity|lia].
Qed.

(** ** C93 *)
Theorem C93_friction_velocity : forall H z us (neg : bool), z <> [] -> 0 < us -> 0 < H -> (forall d, In d z -> d < H) ->
  ustar H z (map (fun d => (if neg then -1 else 1) * (us * us) * (1 - d / H)) z) = Some us.
Proof. exact Structure.ustar_exact. Qed.
Example C93_hyp : ustar 10 [1; 2] [- (3 * 3) * (1 - 1 / 10); - (3 * 3) * (1 - 2 / 10)] = Some 3.
Proof.
  rewrite <- (C93_friction_velocity 10 [1; 2] 3 true); [f_equal; cbn [map]; apply (f_equal2 cons); [ring|apply (f_equal2 cons); [ring|reflexivity]]|discriminate|lra|lra|].
  intros d [<-|[<-|[]]]; lra.
Qed.

(** ** C94 *)
Theorem C94_noise_level : forall fs pct freq row N (hz : bool),
  let lo := (if hz then 1 else 2 * PI) * (pct * (fs / 2)) in let hi := (if hz then 1 else 2 * PI) * (fs / 2) in
  0 <= N -> 0 <= pct -> 0 < fs -> length row = length freq -> (exists j, (j < length freq)%nat /\ lo <= nth j freq 0 <= hi) ->
  (forall j, (j < length freq)%nat -> lo <= nth j freq 0 <= hi -> nth j row 0 = N) ->
  exists s, doppler_noise fs pct hz freq row = Some s /\ 0 <= s /\ N * lo <= s * s <= N * hi.
Proof. exact Structure.doppler_white. Qed.
Theorem C94_units_agree : forall fs pct freq row,
  doppler_noise fs pct false (map (Rmult (2 * PI)) freq) (map (fun p => p / (2 * PI)) row) = doppler_noise fs pct true freq row.
Proof. exact Structure.doppler_units. Qed.
Example C94_hyp : exists s, doppler_noise 2 (1/2) true [1/4; 3/4] [9; 4] = Some s /\ 0 <= s /\ 4 * (1 * (1/2 * (2/2))) <= s * s <= 4 * (1 * (2/2)).
Proof.
  apply (C94_noise_level 2 (1/2) [1/4; 3/4] [9; 4] 4 true); try lra; [reflexivity|exists 1%nat; cbn; split; [lia|lra]|].
  intros [|[|j]] Hj B; cbn in *; [lra|lra|lia].
Qed.

(** ** C95 *)
Theorem C95_length_scale : forall acov U fs k, 0 < nth 0 acov 0 -> (k < length acov)%nat ->
  nth k acov 0 <= nth 0 acov 0 * exp (-1) -> (forall j, (j < k)%nat -> nth j acov 0 > nth 0 acov 0 * exp (-1)) ->
  l_int acov U fs = U * (INR k / fs).
Proof. exact Structure.l_int_first. Qed.
Theorem C95_never_reached : forall acov U fs, 0 < nth 0 acov 0 -> (forall j, (j < length acov)%nat -> nth j acov 0 > nth 0 acov 0 * exp (-1)) ->
  l_int acov U fs = 0.
Proof. exact Structure.l_int_never. Qed.
Example C95_hyp : l_int [4; 0] 6 2 = 6 * (INR 1 / 2).
Proof.
  pose proof (exp_pos (-1)). apply C95_length_scale; cbn; try lra; [lia|]. intros [|j] Hj; [|lia]. cbn.
  assert (exp (-1) < 1) by (rewrite <- exp_0; apply exp_increasing; lra). lra.
Qed.

(** ** C96: per rad/s. Missing: per Hz the estimate is too small by 2 pi. *)
Theorem C96_te01_rad_partial : forall lo hi freq pu pv pw I U eps, 0 <= lo -> 0 < I -> 0 < U -> 0 < eps ->
  length pu = length freq -> length pv = length freq -> length pw = length freq ->
  (exists j, (j < length freq)%nat /\ lo < nth j freq 0 < hi) ->
  (forall j, (j < length freq)%nat -> lo < nth j freq 0 < hi -> nth j pu 0 + nth j pv 0 = te01_h I eps U (nth j freq 0) /\ nth j pw 0 = te01_v I eps U (nth j freq 0)) ->
  te01 lo hi freq pu pv pw I U = Some eps.
Proof. exact Structure.te01_rad. Qed.
Theorem C96_te01_hz_bias : forall lo hi freq pu pv pw I U eps, 0 <= lo -> 0 < I -> 0 < U -> 0 < eps ->
  length pu = length freq -> length pv = length freq -> length pw = length freq ->
  (exists j, (j < length freq)%nat /\ lo < nth j freq 0 < hi) ->
  (forall j, (j < length freq)%nat -> lo < nth j freq 0 < hi ->
     nth j pu 0 + nth j pv 0 = 2 * PI * te01_h I eps U (2 * PI * nth j freq 0) /\ nth j pw 0 = 2 * PI * te01_v I eps U (2 * PI * nth j freq 0)) ->
  te01 lo hi freq pu pv pw I U = Some (eps / (2 * PI)).
Proof. exact Structure.te01_hz. Qed.
Example C96_hyp : te01 0 2 [1] [te01_h 1 5 3 1] [0] [te01_v 1 5 3 1] 1 3 = Some 5.
Proof.
  apply C96_te01_rad_partial; try lra; try reflexivity; [exists 0%nat; cbn; split; [lia|lra]|]. intros [|j] Hj B; [cbn; split; [ring|reflexivity]|cbn in Hj; lia].
Qed.
Theorem C96_hz_refuted : exists freq pu pv pw I U eps,
  nth 0 pu 0 + nth 0 pv 0 = 2 * PI * te01_h I eps U (2 * PI * nth 0 freq 0) /\ nth 0 pw 0 = 2 * PI * te01_v I eps U (2 * PI * nth 0 freq 0) /\
  exists e, te01 0 2 freq pu pv pw I U = Some e /\ e < eps.
Proof.
  exists [1], [2 * PI * te01_h 1 1 1 (2 * PI * 1)], [0], [2 * PI * te01_v 1 1 1 (2 * PI * 1)], 1, 1, 1. cbn [nth].
  split; [ring|]. split; [reflexivity|]. exists (1 / (2 * PI)). split.
  - apply C96_te01_hz_bias; try lra; try reflexivity; [exists 0%nat; cbn; split; [lia|lra]|]. intros [|j] Hj B; [cbn; split; [ring|reflexivity]|cbn in Hj; lia].
  - assert (3 < PI) by (pose proof PI2_3_2; lra). apply (Rmult_lt_reg_r (2 * PI)); [lra|]. unfold Rdiv. rewrite Rmult_assoc, Rinv_l; lra.
Qed.

(** All the theorems of this file, for one listing of axioms. *)
Definition all_theorems :=
  (@C39_speed,
   @C39_direction_range,
   @C39_earth_compass_direction,
   @C39_clockwise_from_first_axis,
   @C40_value_partial,
   @C40_mask_before_return,
   @C40_threshold_ignored,
   @C40_threshold_refuted,
   @C41_tke,
   @C41_stress,
   @C41_stress_components,
   @C41_nonnegative_and_cauchy_schwarz,
   @C41_total,
   @C41_tke_trend,
   @C41_stress_trend,
   @C41_missing_samples_refuted,
   @C89_total_partial,
   @C89_missing_component_refuted,
   @C114_coherent_energy,
   @C114_zero,
   @C114_not_rms_refuted,
   @C42_recovers_hz,
   @C42_recovers_rad_partial,
   @C42_nonnegative,
   @C42_scales,
   @C42_empty_range,
   @C42_rad_noise_refuted,
   @C43_square_law_partial,
   @C43_two_thirds_law_refuted,
   @C91_separations_partial,
   @C91_only_these,
   @C91_all_these,
   @C91_range_refuted,
   @C90_adv_structure_function,
   @C90_raises,
   @C92_cascade_slope,
   @C93_friction_velocity,
   @C94_noise_level,
   @C94_units_agree,
   @C95_length_scale,
   @C95_never_reached,
   @C96_te01_rad_partial,
   @C96_te01_hz_bias,
   @C96_hz_refuted).
Print Assumptions all_theorems.
