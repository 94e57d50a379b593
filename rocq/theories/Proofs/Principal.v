From Coq Require Import Reals List Ratan Lra Lia ZArith.
From Verif.Model Require Import Linalg Angles Principal.
From Verif.Spec Require Import Linalg Euler Principal.
From Verif.Proofs Require Import Angles Euler.
Import ListNotations.
Open Scope R_scope.

Lemma somes_valid l : somes (map to_complex l) = valid l.
Proof. induction l as [|[[e|] [n|]] l IH]; cbn [map somes to_complex valid]; rewrite ?IH; reflexivity. Qed.

Lemma polar_eq a b : exists r t, 0 <= r /\ a = r * cos t /\ b = r * sin t /\ r = sqrt (a * a + b * b).
Proof.
  exists (sqrt (a * a + b * b)), (atan2 b a). destruct (atan2_polar b a) as [C S'].
  split; [apply sqrt_pos|]. auto.
Qed.

Definition dbl (p : R * R) : R * R :=
  ((fst p * fst p - snd p * snd p) / sqrt (fst p * fst p + snd p * snd p),
   2 * fst p * snd p / sqrt (fst p * fst p + snd p * snd p)).

Lemma dbl_spin a b : cmul (a, b) (cis (angle (a, b))) = dbl (a, b).
Proof.
  unfold cmul, cis, angle, dbl. cbn [fst snd].
  destruct (atan2_polar b a) as [C S']. set (r := sqrt (a * a + b * b)) in *. set (t := atan2 b a) in *.
  destruct (Req_EM_T r 0) as [Z|Z].
  - assert (Ha : a = 0) by (rewrite <- C, Z; ring). assert (Hb : b = 0) by (rewrite <- S', Z; ring).
    clearbody r t. rewrite Ha, Hb.
    unfold Rdiv. apply f_equal2; ring.
  - assert (Ec : cos t = a / r) by (rewrite <- C; field; exact Z).
    assert (Es : sin t = b / r) by (rewrite <- S'; field; exact Z). rewrite Ec, Es.
    apply f_equal2; field; exact Z.
Qed.

Lemma dbl_neg a b : dbl (- a, - b) = dbl (a, b).
Proof.
  unfold dbl. cbn [fst snd]. replace (- a * - a) with (a * a) by ring. replace (- b * - b) with (b * b) by ring.
  replace (2 * - a * - b) with (2 * a * b) by ring. reflexivity.
Qed.

Lemma double_angle_dbl z : double_angle z = dbl z.
Proof.
  destruct z as [a b]. unfold double_angle. cbn [fst snd]. destruct (Rle_dec b 0).
  - replace (-1 * a) with (- a) by ring. replace (-1 * b) with (- b) by ring. rewrite dbl_spin. apply dbl_neg.
  - apply dbl_spin.
Qed.

Lemma dbl_polar r t : 0 <= r -> dbl (r * cos t, r * sin t) = (r * cos (2 * t), r * sin (2 * t)).
Proof.
  intros Hr. unfold dbl. cbn [fst snd].
  assert (E : sqrt (r * cos t * (r * cos t) + r * sin t * (r * sin t)) = r).
  { apply sqrt_lem_1; [|exact Hr|].
    - pose proof (sq_nonneg (r * cos t)); pose proof (sq_nonneg (r * sin t)); lra.
    - pose proof (sc t) as Q. transitivity (r * r * (sin t * sin t + cos t * cos t)); [rewrite Q|]; ring. }
  rewrite E, cos_2a, sin_2a. destruct (Req_EM_T r 0) as [->|Z].
  - unfold Rdiv. apply f_equal2; ring.
  - apply f_equal2; field; exact Z.
Qed.

Lemma csum_by l : csum l = (sum_by fst l, sum_by snd l).
Proof. induction l as [|z l IH]; [reflexivity|]. cbn [csum]. rewrite IH. reflexivity. Qed.

Lemma sum_map f g l : sum_by f (map g l) = sum_by (fun p => f (g p)) l.
Proof. induction l as [|z l IH]; [reflexivity|]. cbn [map sum_by fold_right]. unfold sum_by in IH. rewrite IH. reflexivity. Qed.

Lemma has_axis_sum l : has_axis l <-> sum_by fst (map dbl l) <> 0 \/ sum_by snd (map dbl l) <> 0.
Proof. rewrite !sum_map. reflexivity. Qed.

Lemma len_pos {A} (l : list A) : l <> [] -> 0 < INR (length l).
Proof. destruct l; [congruence|]. intros _. apply lt_0_INR. cbn [length]. lia. Qed.

(** the angle of a mean is the angle of the sum *)
Lemma atan2_scale k y x : 0 < k -> atan2 (k * y) (k * x) = atan2 y x.
Proof.
  intros Hk. destruct (atan2_polar y x) as [C S']. set (r := sqrt (x * x + y * y)) in *.
  destruct (Req_EM_T r 0) as [Z|Z].
  - rewrite <- C, <- S', Z. rewrite !Rmult_0_l, Rmult_0_r. reflexivity.
  - assert (P : 0 < r) by (pose proof (sqrt_pos (x * x + y * y)); fold r in H; lra).
    rewrite <- C at 1. rewrite <- S' at 1. rewrite <- !Rmult_assoc.
    apply atan2_of_polar; [apply Rmult_lt_0_compat; assumption|apply atan2_range].
Qed.

Lemma angle_mean l m : cmean l = Some m -> angle m = atan2 (sum_by snd l) (sum_by fst l) /\ l <> [].
Proof.
  intros H. assert (N : l <> []) by (destruct l; [discriminate|discriminate]).
  assert (E : m = (fst (csum l) / INR (length l), snd (csum l) / INR (length l))) by (destruct l; [discriminate|injection H as <-; reflexivity]).
  split; [|exact N]. rewrite E. unfold angle. cbn [fst snd]. rewrite csum_by. cbn [fst snd]. unfold Rdiv.
  rewrite !(Rmult_comm _ (/ INR (length l))). apply atan2_scale. apply Rinv_0_lt_compat, len_pos, N.
Qed.

Lemma cmean_some l : l <> [] -> exists m, cmean l = Some m.
Proof. destruct l; [congruence|]. intros _. eexists. reflexivity. Qed.

Definition raw (vel : list sample) (tm : bool) : R :=
  let l := valid vel in
  if tm then 90 - rad2deg (atan2 (sum_by snd (map dbl l)) (sum_by fst (map dbl l)) / 2)
  else 90 - rad2deg (atan2 (sum_by snd l) (sum_by fst l)).

Lemma heading_raw vel tm : valid vel <> [] -> calc_principal_heading vel tm = Some (round4 (raw vel tm)).
Proof.
  intros N. unfold calc_principal_heading, raw. rewrite somes_valid.
  destruct tm.
  - rewrite (map_ext _ _ double_angle_dbl). destruct (cmean_some (map dbl (valid vel))) as [m E].
    { destruct (valid vel); [congruence|discriminate]. }
    rewrite E. cbn [option_map]. destruct (angle_mean _ _ E) as [-> _]. reflexivity.
  - destruct (cmean_some (valid vel) N) as [m E]. rewrite E. cbn [option_map].
    destruct (angle_mean _ _ E) as [-> _]. reflexivity.
Qed.

Lemma heading_none vel tm : calc_principal_heading vel tm = None <-> valid vel = [].
Proof.
  split.
  - intros H. destruct (valid vel) eqn:E; [reflexivity|]. exfalso.
    rewrite heading_raw in H; [discriminate|]. rewrite E. discriminate.
  - intros E. unfold calc_principal_heading. rewrite somes_valid, E. destruct tm; reflexivity.
Qed.

Lemma heading_inv vel tm h : calc_principal_heading vel tm = Some h ->
  valid vel <> [] /\ h = round4 (raw vel tm).
Proof.
  intros H. assert (N : valid vel <> []).
  { intros E. apply (heading_none vel tm) in E. congruence. }
  split; [exact N|]. rewrite (heading_raw vel tm N) in H. congruence.
Qed.

(** ** reversal *)
Lemma dbl_reversed vel vel' : Forall2 (fun x y => y = x \/ y = reversed x) vel vel' ->
  map dbl (valid vel') = map dbl (valid vel).
Proof.
  intros H. induction H as [|x y l l' [->| ->] H IH]; [reflexivity| |].
  - destruct x as [[e|] [n|]]; cbn [valid map]; rewrite ?IH; reflexivity.
  - destruct x as [[e|] [n|]]; unfold reversed; cbn [valid map fst snd option_map]; rewrite ?IH; try reflexivity.
    rewrite dbl_neg. reflexivity.
Qed.

Lemma reversal vel vel' : Forall2 (fun x y => y = x \/ y = reversed x) vel vel' ->
  calc_principal_heading vel' true = calc_principal_heading vel true.
Proof.
  intros H. unfold calc_principal_heading. rewrite !somes_valid, !(map_ext _ _ double_angle_dbl).
  rewrite (dbl_reversed vel vel' H). reflexivity.
Qed.

(** ** axis of a bidirectional flow *)
Lemma sum_nonneg f l : (forall p, 0 <= f p) -> 0 <= sum_by f l.
Proof. intros H. induction l; cbn; [lra|]. specialize (H a). unfold sum_by in IHl. lra. Qed.

Lemma sum_lin (P : R * R -> Prop) f g c l : (forall p, P p -> f p = g p * c) -> Forall P l ->
  sum_by f l = sum_by g l * c.
Proof.
  intros H F. induction F as [|x l Hx F IH]; cbn [sum_by fold_right]; [ring|]. unfold sum_by in IH. rewrite IH, (H x Hx). ring.
Qed.

Definition speed (p : R * R) : R := sqrt (fst p * fst p + snd p * snd p).

Lemma sum_speed_pos l : (exists p, In p l /\ p <> (0, 0)) -> 0 < sum_by speed l.
Proof.
  intros (p & I & N). induction l as [|q l IH]; [destruct I|]. cbn [sum_by fold_right].
  assert (S0 : forall z, 0 <= speed z) by (intros; apply sqrt_pos).
  pose proof (sum_nonneg speed l S0) as Sl. unfold sum_by in *. destruct I as [->|I].
  - assert (0 < speed p); [|lra]. apply sqrt_lt_R0. destruct p as [a b]. cbn [fst snd]. apply sum_sq_pos.
    destruct (Req_EM_T a 0) as [->|]; [right; intros ->; congruence|left; assumption].
  - specialize (IH I). specialize (S0 q). lra.
Qed.

Lemma round_near m raw0 h : (exists k : Z, raw0 = h + m * IZR k) -> near m (5 / 100000) (round4 raw0) h.
Proof. intros [k E]. exists k. rewrite <- E. apply round4_err. Qed.

(** dividing the angle of [(T cos 2a, T sin 2a)] by two gives [a] modulo [PI] *)
Lemma half_angle T a : 0 < T -> exists k : Z, atan2 (T * sin a) (T * cos a) = a + 2 * PI * IZR k.
Proof.
  intros HT. destruct (atan2_polar (T * sin a) (T * cos a)) as [C S'].
  assert (E : sqrt (T * cos a * (T * cos a) + T * sin a * (T * sin a)) = T).
  { apply sqrt_lem_1; [|lra|].
    - pose proof (sq_nonneg (T * cos a)); pose proof (sq_nonneg (T * sin a)); lra.
    - pose proof (sc a) as Q. transitivity (T * T * (sin a * sin a + cos a * cos a)); [rewrite Q|]; ring. }
  rewrite E in C, S'. apply Rmult_eq_reg_l in C; [|lra]. apply Rmult_eq_reg_l in S'; [|lra].
  apply angle_mod; assumption.
Qed.

Lemma bidirectional vel deg : 
  Forall (fun p => exists t, p = (t * sin (deg2rad deg), t * cos (deg2rad deg))) (valid vel) ->
  (exists p, In p (valid vel) /\ p <> (0, 0)) ->
  exists h, calc_principal_heading vel true = Some h /\ near 180 (5 / 100000) h deg.
Proof.
  intros F E. assert (N : valid vel <> []) by (intros Z; rewrite Z in E; destruct E as (p & [] & _)).
  exists (round4 (raw vel true)). split; [apply heading_raw, N|]. apply round_near. unfold raw.
  set (a := deg2rad (90 - deg)). set (T := sum_by speed (valid vel)).
  assert (HT : 0 < T) by (apply sum_speed_pos, E).
  assert (D : forall p, (exists t, p = (t * sin (deg2rad deg), t * cos (deg2rad deg))) ->
    dbl p = (speed p * cos (2 * a), speed p * sin (2 * a))).
  { intros p [t ->]. assert (Ea : a = PI / 2 - deg2rad deg) by (unfold a, deg2rad; field).
    assert (C1 : cos a = sin (deg2rad deg)) by (rewrite Ea; apply cos_shift).
    assert (C2 : sin a = cos (deg2rad deg)) by (rewrite Ea; apply sin_shift).
    rewrite <- C1, <- C2. unfold speed. cbn [fst snd].
    assert (Q : sqrt (t * cos a * (t * cos a) + t * sin a * (t * sin a)) = Rabs t).
    { replace (t * cos a * (t * cos a) + t * sin a * (t * sin a)) with (Rsqr t * (sin a * sin a + cos a * cos a)) by (unfold Rsqr; ring).
      rewrite sc, Rmult_1_r. apply sqrt_Rsqr_abs. }
    rewrite Q. unfold Rabs. destruct (Rcase_abs t).
    - replace (t * cos a) with (- (- t * cos a)) by ring. replace (t * sin a) with (- (- t * sin a)) by ring.
      rewrite dbl_neg. apply dbl_polar. lra.
    - apply dbl_polar. lra. }
  rewrite !sum_map.
  rewrite (sum_lin _ (fun p => fst (dbl p)) speed (cos (2 * a)) _ (fun p H => f_equal fst (D p H)) F).
  rewrite (sum_lin _ (fun p => snd (dbl p)) speed (sin (2 * a)) _ (fun p H => f_equal snd (D p H)) F).
  fold T. destruct (half_angle T (2 * a) HT) as [k ->].
  exists (- k)%Z. rewrite opp_IZR. unfold a, rad2deg, deg2rad. field. exact PI_nz.
Qed.

(** ** direction of the mean vector *)
Lemma mean_direction vel deg T : 0 < T ->
  sum_by fst (valid vel) = T * sin (deg2rad deg) -> sum_by snd (valid vel) = T * cos (deg2rad deg) ->
  exists h, calc_principal_heading vel false = Some h /\ near 360 (5 / 100000) h deg.
Proof.
  intros HT E1 E2. assert (N : valid vel <> []).
  { intros Z. rewrite Z in E1, E2. unfold sum_by in E1, E2. cbn [fold_right] in E1, E2.
    pose proof (sc (deg2rad deg)) as Q.
    assert (S0 : sin (deg2rad deg) = 0) by (apply (Rmult_eq_reg_l T); lra).
    assert (C0 : cos (deg2rad deg) = 0) by (apply (Rmult_eq_reg_l T); lra). rewrite S0, C0 in Q. lra. }
  exists (round4 (raw vel false)). split; [apply heading_raw, N|]. apply round_near. unfold raw.
  rewrite E1, E2. set (a := deg2rad (90 - deg)).
  assert (Ea : a = PI / 2 - deg2rad deg) by (unfold a, deg2rad; field).
  rewrite <- cos_shift, <- sin_shift, <- Ea. destruct (half_angle T a HT) as [k ->].
  exists (- k)%Z. rewrite opp_IZR. unfold a, rad2deg, deg2rad. field. exact PI_nz.
Qed.

(** ** rotation of the flow *)
Lemma valid_turned phi l : valid (map (turned_sample phi) l) = map (turned phi) (valid l).
Proof. induction l as [|[[e|] [n|]] l IH]; cbn [map valid turned_sample]; rewrite ?IH; reflexivity. Qed.

Lemma turned_polar phi r t : turned phi (r * cos t, r * sin t) = (r * cos (t - deg2rad phi), r * sin (t - deg2rad phi)).
Proof. unfold turned. cbn [fst snd]. rewrite cos_minus, sin_minus. apply f_equal2; ring. Qed.

Lemma dbl_turned phi p : dbl (turned phi p) = turned (2 * phi) (dbl p).
Proof.
  destruct p as [a b]. destruct (polar_eq a b) as (r & t & Hr & -> & -> & _).
  rewrite turned_polar, !dbl_polar, turned_polar by exact Hr.
  replace (2 * (t - deg2rad phi)) with (2 * t - deg2rad (2 * phi)) by (unfold deg2rad; field). reflexivity.
Qed.

Lemma sum_turned phi l :
  (sum_by fst (map (turned phi) l), sum_by snd (map (turned phi) l)) = turned phi (sum_by fst l, sum_by snd l).
Proof.
  rewrite !sum_map. unfold turned. cbn [fst snd].
  induction l as [|p l IH]; cbn [sum_by fold_right].
  - apply f_equal2; ring.
  - unfold sum_by in IH. injection IH as I1 I2. rewrite I1, I2. apply f_equal2; ring.
Qed.

Lemma atan2_turned phi x y : x <> 0 \/ y <> 0 -> exists k : Z,
  atan2 (snd (turned phi (x, y))) (fst (turned phi (x, y))) = atan2 y x - deg2rad phi + 2 * PI * IZR k.
Proof.
  intros N. destruct (atan2_polar y x) as [C S']. set (t := atan2 y x) in *.
  set (r := sqrt (x * x + y * y)) in *. assert (Hr : 0 < r) by (apply sqrt_lt_R0, sum_sq_pos, N).
  replace (turned phi (x, y)) with (turned phi (r * cos t, r * sin t)) by (rewrite C, S'; reflexivity).
  rewrite turned_polar. cbn [fst snd]. destruct (half_angle r (t - deg2rad phi) Hr) as [k E]. exists k. exact E.
Qed.

Lemma near_round m a b phi : (exists k : Z, a = b + phi + m * IZR k) -> near m (1 / 10000) (round4 a) (round4 b + phi).
Proof.
  intros [k E]. exists k. pose proof (round4_err a) as A. pose proof (round4_err b) as B.
  rewrite E in *. unfold Rabs in *. repeat destruct (Rcase_abs _); lra.
Qed.

Lemma turns_tidal vel phi h : has_axis (valid vel) -> calc_principal_heading vel true = Some h ->
  exists h', calc_principal_heading (map (turned_sample phi) vel) true = Some h' /\ near 180 (1 / 10000) h' (h + phi).
Proof.
  intros X H. apply heading_inv in H. destruct H as [N ->].
  exists (round4 (raw (map (turned_sample phi) vel) true)). split.
  - apply heading_raw. rewrite valid_turned. destruct (valid vel); [congruence|discriminate].
  - apply near_round. unfold raw. rewrite valid_turned, map_map, (map_ext _ _ (dbl_turned phi)), <- map_map.
    pose proof (sum_turned (2 * phi) (map dbl (valid vel))) as E. apply has_axis_sum in X.
    set (x := sum_by fst (map dbl (valid vel))) in *. set (y := sum_by snd (map dbl (valid vel))) in *.
    assert (E1 := f_equal fst E). assert (E2 := f_equal snd E). cbn [fst snd] in E1, E2.
    destruct (atan2_turned (2 * phi) x y X) as [k Ek].
    assert (A : atan2 (sum_by snd (map (turned (2 * phi)) (map dbl (valid vel)))) (sum_by fst (map (turned (2 * phi)) (map dbl (valid vel))))
              = atan2 y x - deg2rad (2 * phi) + 2 * PI * IZR k).
    { rewrite <- Ek. f_equal; [exact E2|exact E1]. }
    rewrite A. exists (- k)%Z. rewrite opp_IZR. unfold rad2deg, deg2rad. field. exact PI_nz.
Qed.

Lemma turns_plain vel phi h : has_mean_direction (valid vel) -> calc_principal_heading vel false = Some h ->
  exists h', calc_principal_heading (map (turned_sample phi) vel) false = Some h' /\ near 360 (1 / 10000) h' (h + phi).
Proof.
  intros X H. apply heading_inv in H. destruct H as [N ->].
  exists (round4 (raw (map (turned_sample phi) vel) false)). split.
  - apply heading_raw. rewrite valid_turned. destruct (valid vel); [congruence|discriminate].
  - apply near_round. unfold raw. rewrite valid_turned.
    pose proof (sum_turned phi (valid vel)) as E. unfold has_mean_direction in X.
    set (x := sum_by fst (valid vel)) in *. set (y := sum_by snd (valid vel)) in *.
    assert (E1 := f_equal fst E). assert (E2 := f_equal snd E). cbn [fst snd] in E1, E2.
    destruct (atan2_turned phi x y X) as [k Ek].
    assert (A : atan2 (sum_by snd (map (turned phi) (valid vel))) (sum_by fst (map (turned phi) (valid vel)))
              = atan2 y x - deg2rad phi + 2 * PI * IZR k).
    { rewrite <- Ek. f_equal; [exact E2|exact E1]. }
    rewrite A. exists (- k)%Z. rewrite opp_IZR. unfold rad2deg, deg2rad. field. exact PI_nz.
Qed.

(** ** ranges *)
Lemma round4_mono_bounds x (lo hi : Z) : IZR lo <= x <= IZR hi -> IZR lo <= round4 x <= IZR hi.
Proof.
  intros H. unfold round4.
  assert (B : (lo * 10000 <= rint (x * 10000) <= hi * 10000)%Z).
  { assert (E' : - (1/2) <= IZR (rint (x * 10000)) - x * 10000 <= 1/2).
    { pose proof (rint_err (x * 10000)) as E0. unfold Rabs in E0. destruct (Rcase_abs _) in E0; lra. }
    split.
    - assert ((lo * 10000 - 1 < rint (x * 10000))%Z); [|lia]. apply lt_IZR. rewrite minus_IZR, mult_IZR. lra.
    - assert ((rint (x * 10000) < hi * 10000 + 1)%Z); [|lia]. apply lt_IZR. rewrite plus_IZR, mult_IZR. lra. }
  destruct B as [B1 B2]. apply IZR_le in B1, B2. rewrite mult_IZR in B1, B2. lra.
Qed.

Lemma range_tidal vel h : calc_principal_heading vel true = Some h -> 0 <= h <= 180.
Proof.
  intros H. apply heading_inv in H. destruct H as [N ->]. apply (round4_mono_bounds _ 0 180). unfold raw.
  set (y := sum_by snd _). set (x := sum_by fst _). destruct (atan2_range y x) as [A B].
  apply rad2deg_lt in A. apply rad2deg_le in B. rewrite rad2deg_neg, r180 in A. rewrite r180 in B.
  replace (rad2deg (atan2 y x / 2)) with (rad2deg (atan2 y x) / 2) by (unfold rad2deg; field; exact PI_nz). lra.
Qed.

Lemma range_plain vel h : calc_principal_heading vel false = Some h -> -90 <= h <= 270.
Proof.
  intros H. apply heading_inv in H. destruct H as [N ->]. apply (round4_mono_bounds _ (-90) 270). unfold raw.
  set (y := sum_by snd _). set (x := sum_by fst _). destruct (atan2_range y x) as [A B].
  apply rad2deg_lt in A. apply rad2deg_le in B. rewrite rad2deg_neg, r180 in A. rewrite r180 in B. lra.
Qed.

(** a flow to the north-west gets a negative heading *)
Lemma range_plain_refuted : exists vel h, calc_principal_heading vel false = Some h /\ h < 0.
Proof.
  destruct (mean_direction [(Some (-1), Some 1)] (-45) (sqrt 2)) as (h & H & [k K]).
  - apply sqrt_lt_R0; lra.
  - cbn [valid sum_by fold_right fst snd]. replace (deg2rad (-45)) with (- (PI / 4)) by (unfold deg2rad; field).
    rewrite sin_neg, sin_PI4. assert (0 < sqrt 2) by (apply sqrt_lt_R0; lra). field. lra.
  - cbn [valid sum_by fold_right fst snd]. replace (deg2rad (-45)) with (- (PI / 4)) by (unfold deg2rad; field).
    rewrite cos_neg, cos_PI4. assert (0 < sqrt 2) by (apply sqrt_lt_R0; lra). field. lra.
  - exists [(Some (-1), Some 1)], h. split; [exact H|]. pose proof (range_plain _ _ H) as [L U].
    assert (k = 0%Z).
    { assert (A : -45 + 360 * IZR k <= 270 + 1) by (unfold Rabs in K; destruct (Rcase_abs _) in K; lra).
      assert (B : -90 - 1 <= -45 + 360 * IZR k) by (unfold Rabs in K; destruct (Rcase_abs _) in K; lra).
      assert ((k < 1)%Z) by (apply lt_IZR; lra). assert ((-1 < k)%Z) by (apply lt_IZR; lra). lia. }
    subst k. rewrite Rmult_0_r, Rplus_0_r in K. unfold Rabs in K; destruct (Rcase_abs _) in K; lra.
Qed.
