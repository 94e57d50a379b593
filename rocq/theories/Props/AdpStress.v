(** Properties C44, C45, C97, C115: beam-variance stresses and shear of an ADCP. *)
From Coq Require Import Reals List Bool Lra Lia.
From Verif.Model Require Import Linalg Stats BeamStress.
From Verif.Spec Require Import Stats BeamStress.
From Verif.Proofs Require BeamStress.
Import ListNotations.
Open Scope R_scope.

(** ** C44: a Signature, four beams. Missing: v'w' of a TRDI, v'v' and w'w' of five beams. *)
Theorem C44_signature_4beam_partial : forall o angle noise n m beams, o <> Neither ->
  sin (deg2rad angle) <> 0 -> cos (deg2rad angle) <> 0 -> (1 <= n)%nat ->
  homogeneous Signature o (deg2rad angle) 4 n m beams ->
  stress_4beam Signature o (Some angle) None noise (map (map Some) beams) = inr (Some (uw m), Some (vw m)).
Proof. intros o angle noise n m beams Ho. exact (BeamStress.four Signature o angle noise n m beams ltac:(discriminate) Ho). Qed.
(** a TRDI: the second stress has the opposite sign, whatever the data *)
Theorem C44_trdi_4beam_partial : forall o angle noise n m beams, o <> Neither ->
  sin (deg2rad angle) <> 0 -> cos (deg2rad angle) <> 0 -> (1 <= n)%nat ->
  homogeneous Trdi o (deg2rad angle) 4 n m beams ->
  stress_4beam Trdi o (Some angle) None noise (map (map Some) beams) = inr (Some (uw m), Some (- vw m)).
Proof. intros o angle noise n m beams Ho. exact (BeamStress.four Trdi o angle noise n m beams ltac:(discriminate) Ho). Qed.
(** five beams without tilt: u'u', u'w' right, the others as stated *)
Theorem C44_5beam_partial : forall i o angle noise upvp n m beams, i <> OtherInst -> o <> Neither ->
  sin (deg2rad angle) <> 0 -> cos (deg2rad angle) <> 0 -> (1 <= n)%nat ->
  homogeneous i o (deg2rad angle) 5 n m beams ->
  let s := sin (deg2rad angle) in let c := cos (deg2rad angle) in let vw' := match i with Trdi => - vw m | _ => vw m end in
  stress_5beam i o (Some angle) None noise 0 0 upvp beams =
  inr (uu m - noise * noise, (uu m + vv m) / 2 + c / s * (uw m - vw') - noise * noise,
       -2 * uw m - 2 * s^5 * c * (ww m - noise * noise), uw m, vw').
Proof. exact BeamStress.five. Qed.
Example C44_hyp : homogeneous Signature Up (deg2rad 25) 4 2 (BeamStress.moments_of [1; -1] [0; 0] [1; -1])
    (BeamStress.beams_of Signature Up (deg2rad 25) 4 [1; -1] [0; 0] [1; -1]) /\ uw (BeamStress.moments_of [1; -1] [0; 0] [1; -1]) = 1.
Proof.
  split; [exact (BeamStress.beams_of_homogeneous Signature Up (deg2rad 25) 4 [1; -1] [0; 0] [1; -1] eq_refl eq_refl)|].
  unfold BeamStress.moments_of. cbn [uw]. unfold cov, average. cbn [length total nth INR]. field.
Qed.
Lemma angle_ok : sin (deg2rad 45) <> 0 /\ cos (deg2rad 45) <> 0 /\ 0 < sin (deg2rad 45) /\ 0 < cos (deg2rad 45).
Proof.
  assert (E : deg2rad 45 = PI / 4) by (unfold deg2rad; field). rewrite E. pose proof PI_RGT_0.
  assert (0 < sin (PI / 4)) by (apply sin_gt_0; lra). assert (0 < cos (PI / 4)) by (apply cos_gt_0; lra). repeat split; lra.
Qed.
Theorem C44_trdi_vw_refuted : exists o angle n m beams x, homogeneous Trdi o (deg2rad angle) 4 n m beams /\ (1 <= n)%nat /\
  stress_4beam Trdi o (Some angle) None 0 (map (map Some) beams) = inr (Some (uw m), Some x) /\ x <> vw m.
Proof.
  destruct angle_ok as (A & B & _). exists Down, 45, 2%nat, (BeamStress.moments_of [0; 0] [1; -1] [1; -1]), (BeamStress.beams_of Trdi Down (deg2rad 45) 4 [0; 0] [1; -1] [1; -1]), (- vw (BeamStress.moments_of [0; 0] [1; -1] [1; -1])).
  assert (H := BeamStress.beams_of_homogeneous Trdi Down (deg2rad 45) 4 [0; 0] [1; -1] [1; -1] eq_refl eq_refl).
  split; [exact H|]. split; [lia|]. split; [apply (C44_trdi_4beam_partial Down 45 0 2); [discriminate|exact A|exact B|lia|exact H]|].
  assert (E : vw (BeamStress.moments_of [0; 0] [1; -1] [1; -1]) = 1) by (unfold BeamStress.moments_of; cbn [vw]; unfold cov, average; cbn [length total nth INR]; field).
  rewrite E. lra.
Qed.
(** motion along x only: half of u'u' is reported as v'v' *)
Theorem C44_vv_refuted : exists o angle n m beams a b c d x, homogeneous Signature o (deg2rad angle) 5 n m beams /\ (1 <= n)%nat /\
  stress_5beam Signature o (Some angle) None 0 0 0 0 beams = inr (a, x, b, c, d) /\ vv m = 0 /\ x = 1/2.
Proof.
  destruct angle_ok as (A & B & _). exists Up, 45, 2%nat, (BeamStress.moments_of [1; -1] [0; 0] [0; 0]), (BeamStress.beams_of Signature Up (deg2rad 45) 5 [1; -1] [0; 0] [0; 0]).
  assert (H := BeamStress.beams_of_homogeneous Signature Up (deg2rad 45) 5 [1; -1] [0; 0] [0; 0] eq_refl eq_refl).
  do 5 eexists. split; [exact H|]. split; [lia|].
  split; [apply (C44_5beam_partial Signature Up 45 0 0 2); [discriminate|discriminate|exact A|exact B|lia|exact H]|].
  unfold BeamStress.moments_of. cbn [uu vv uw vw]. unfold cov, average. cbn [length total nth INR].
  split; [field|]. set (s := sin _) in *. set (c := cos _) in *. field. exact A.
Qed.
(** vertical motion only: w'w' is reported negative *)
Theorem C44_ww_refuted : exists o angle n m beams a b c d x, homogeneous Signature o (deg2rad angle) 5 n m beams /\ (1 <= n)%nat /\
  stress_5beam Signature o (Some angle) None 0 0 0 0 beams = inr (a, b, x, c, d) /\ ww m = 1 /\ x < 0.
Proof.
  destruct angle_ok as (A & B & P & Q). exists Up, 45, 2%nat, (BeamStress.moments_of [0; 0] [0; 0] [1; -1]), (BeamStress.beams_of Signature Up (deg2rad 45) 5 [0; 0] [0; 0] [1; -1]).
  assert (H := BeamStress.beams_of_homogeneous Signature Up (deg2rad 45) 5 [0; 0] [0; 0] [1; -1] eq_refl eq_refl).
  do 5 eexists. split; [exact H|]. split; [lia|].
  split; [apply (C44_5beam_partial Signature Up 45 0 0 2); [discriminate|discriminate|exact A|exact B|lia|exact H]|].
  unfold BeamStress.moments_of. cbn [ww uw]. unfold cov, average. cbn [length total nth INR].
  split; [field|]. set (s := sin _) in *. set (c := cos _) in *. pose proof (pow_lt s 5 P) as S5. assert (0 < s^5 * c) by now apply Rmult_lt_0_compat.
  match goal with |- ?e < 0 => replace e with (-2 * (s^5 * c)) by field end. lra.
Qed.

(** ** C45 *)
Theorem C45_exact_for_lines_partial : forall st m c z0 h n, (2 <= n)%nat -> h <> 0 -> st <> OtherStyle ->
  let z := map (fun k => z0 + INR k * h) (seq 0 n) in let u := map (fun x => m * x + c) z in
  exists rng, calc_dvdz st u z = Some (repeat m (length rng), rng) /\ calc_dudz st false u z = Some (repeat m (length rng), rng) /\ incl rng z.
Proof. exact BeamStress.shear_line. Qed.
Theorem C45_first_difference_any_spacing : forall m c z, (forall d, In d (diff z) -> d <> 0) ->
  diffz_first (map (fun x => m * x + c) z) z = repeat m (length z - 1).
Proof. exact BeamStress.first_any. Qed.
Theorem C45_sizes : forall st dat z out rng, length dat = length z -> (2 <= length z)%nat -> calc_dvdz st dat z = Some (out, rng) -> length out = length rng.
Proof. exact BeamStress.shear_sizes. Qed.
Example C45_hyp : calc_dvdz CenteredExtended [1; 3; 5] [0; 1; 2] <> None.
Proof. discriminate. Qed.
(** a down-looking instrument gets an exception instead, whatever the profile *)
Theorem C45_down_raises : forall st dat z, calc_dudz st true dat z = None.
Proof. intros st dat z. unfold calc_dudz. destruct (diff_func st dat z); reflexivity. Qed.
Theorem C45_down_refuted : exists st dat z out, calc_dudz st false dat z = Some (out, z) /\ calc_dudz st true dat z <> Some (map Ropp out, z).
Proof. exists CenteredExtended, [1; 3], [0; 1], (diffz_extended [1; 3] [0; 1]). split; [reflexivity|discriminate]. Qed.

(** ** C97: the angle of the caller is used when the dataset has none. False otherwise. *)
Theorem C97_argument_used_partial : forall o angle noise n m beams, o <> Neither ->
  sin (deg2rad angle) <> 0 -> cos (deg2rad angle) <> 0 -> (1 <= n)%nat ->
  homogeneous Signature o (deg2rad angle) 4 n m beams ->
  stress_4beam Signature o None (Some angle) noise (map (map Some) beams) = inr (Some (uw m), Some (vw m)).
Proof. exact C44_signature_4beam_partial. Qed.
(** with beams at 45 degrees and that angle given, an attribute of 15 degrees doubles the stress *)
Theorem C97_argument_ignored_refuted : exists m beams, homogeneous Signature Up (deg2rad 45) 4 2 m beams /\ uw m = 1 /\
  stress_4beam Signature Up None (Some 45) 0 (map (map Some) beams) = inr (Some 1, Some 0) /\
  stress_4beam Signature Up (Some 15) (Some 45) 0 (map (map Some) beams) = inr (Some 2, Some 0).
Proof.
  destruct C44_hyp as [_ U]. destruct angle_ok as (A & B & P & Q).
  assert (V : vw (BeamStress.moments_of [1; -1] [0; 0] [1; -1]) = 0) by (unfold BeamStress.moments_of; cbn [vw]; unfold cov, average; cbn [length total nth INR]; field).
  exists (BeamStress.moments_of [1; -1] [0; 0] [1; -1]), (BeamStress.beams_of Signature Up (deg2rad 45) 4 [1; -1] [0; 0] [1; -1]).
  assert (H := BeamStress.beams_of_homogeneous Signature Up (deg2rad 45) 4 [1; -1] [0; 0] [1; -1] eq_refl eq_refl).
  assert (E := C44_signature_4beam_partial Up 45 0 2 _ _ ltac:(discriminate) A B ltac:(lia) H). rewrite U, V in E.
  split; [exact H|]. split; [exact U|]. split; [exact E|].
  assert (D : 4 * sin (deg2rad 45) * cos (deg2rad 45) = 2).
  { replace (4 * sin (deg2rad 45) * cos (deg2rad 45)) with (2 * (2 * sin (deg2rad 45) * cos (deg2rad 45))) by ring.
    rewrite <- sin_2a. replace (2 * deg2rad 45) with (PI / 2) by (unfold deg2rad; field). rewrite sin_PI2. ring. }
  assert (F : 4 * sin (deg2rad 15) * cos (deg2rad 15) = 1).
  { replace (4 * sin (deg2rad 15) * cos (deg2rad 15)) with (2 * (2 * sin (deg2rad 15) * cos (deg2rad 15))) by ring.
    rewrite <- sin_2a. replace (2 * deg2rad 15) with (PI / 6) by (unfold deg2rad; field). rewrite sin_PI6. field. }
  rewrite (BeamStress.other_angle Signature Up 45 15 0 _ 1 0); [rewrite D, F; do 3 f_equal; f_equal; field|rewrite D; lra|rewrite F; lra|exact E].
Qed.

(** ** C115: an up-looking Signature that pitches by up to one radian. The error of u'u' is of the
    second order. Missing: the other four. *)
Theorem C115_uu_partial : forall angle noise pitch upvp n m beams,
  sin (deg2rad angle) <> 0 -> cos (deg2rad angle) <> 0 -> (1 <= n)%nat -> Rabs (deg2rad pitch) <= 1 ->
  homogeneous_pitched (deg2rad pitch) (deg2rad angle) n m beams ->
  exists x a b c d, stress_5beam_tilted Signature Up (Some angle) None noise pitch 0 upvp beams = inr (x, a, b, c, d) /\
    Rabs (x - (uu m - noise * noise)) <= (3 * Rabs (uu m - ww m) + 4 * Rabs (uw m)) * (deg2rad pitch * deg2rad pitch).
Proof.
  intros angle noise pitch upvp n m beams A B N P H. destruct (BeamStress.five_pitched angle noise pitch upvp n m beams A B N H) as (v & w & E).
  do 5 eexists. split; [exact E|]. now apply BeamStress.upup_first_order.
Qed.
Lemma moments_u : has_moments {| uu := 1; vv := 0; ww := 0; uv := 0; uw := 0; vw := 0 |} [1; -1] [0; 0] [0; 0].
Proof. unfold has_moments, cov, average. cbn [uu vv ww uv uw vw length total nth INR]. repeat split; field. Qed.
Lemma moments_uv : has_moments {| uu := 1; vv := 1; ww := 0; uv := 1; uw := 0; vw := 0 |} [1; -1] [1; -1] [0; 0].
Proof. unfold has_moments, cov, average. cbn [uu vv ww uv uw vw length total nth INR]. repeat split; field. Qed.
Example C115_hyp : exists pitch beams, 0 < deg2rad pitch <= 1 /\
  homogeneous_pitched (deg2rad pitch) (deg2rad 45) 2 {| uu := 1; vv := 1; ww := 0; uv := 1; uw := 0; vw := 0 |} beams.
Proof.
  exists (180 / PI). eexists. pose proof PI_RGT_0. split; [unfold deg2rad; replace (180 / PI * PI / 180) with 1 by (field; lra); lra|].
  exact (BeamStress.pitched_beams_homogeneous _ (deg2rad 45) [1; -1] [1; -1] [0; 0] _ eq_refl eq_refl moments_uv).
Qed.
(** motion along x only: u'w' is 0, and what is reported is at least half the pitch however small;
    motion along the diagonal, the exact u'v' used: the same for v'w' *)
Theorem C115_uw_refuted : exists angle n m, uw m = 0 /\ (1 <= n)%nat /\ forall pitch, 0 < deg2rad pitch <= 1/4 -> exists beams a b c x d,
  homogeneous_pitched (deg2rad pitch) (deg2rad angle) n m beams /\
  stress_5beam_tilted Signature Up (Some angle) None 0 pitch 0 (uv m) beams = inr (a, b, c, x, d) /\ deg2rad pitch / 2 <= x.
Proof.
  destruct angle_ok as (A & B & _ & P). exists 45, 2%nat, {| uu := 1; vv := 0; ww := 0; uv := 0; uw := 0; vw := 0 |}. split; [reflexivity|]. split; [lia|].
  intros pitch Hp. pose proof (BeamStress.pitched_beams_homogeneous (deg2rad pitch) (deg2rad 45) [1; -1] [0; 0] [0; 0] _ eq_refl eq_refl moments_u) as H.
  destruct (BeamStress.five_pitched 45 0 pitch 0 2 _ _ A B ltac:(lia) H) as (v & w & E).
  do 6 eexists. split; [exact H|]. split; [exact E|]. now apply BeamStress.upwp_wrong.
Qed.
Theorem C115_vw_refuted : exists angle n m, vw m = 0 /\ (1 <= n)%nat /\ forall pitch, 0 < deg2rad pitch <= 1/4 -> exists beams a b c d x,
  homogeneous_pitched (deg2rad pitch) (deg2rad angle) n m beams /\
  stress_5beam_tilted Signature Up (Some angle) None 0 pitch 0 (uv m) beams = inr (a, b, c, d, x) /\ deg2rad pitch / 2 <= x.
Proof.
  destruct angle_ok as (A & B & _ & P). exists 45, 2%nat, {| uu := 1; vv := 1; ww := 0; uv := 1; uw := 0; vw := 0 |}. split; [reflexivity|]. split; [lia|].
  intros pitch Hp. pose proof (BeamStress.pitched_beams_homogeneous (deg2rad pitch) (deg2rad 45) [1; -1] [1; -1] [0; 0] _ eq_refl eq_refl moments_uv) as H.
  destruct (BeamStress.five_pitched 45 0 pitch 1 2 _ _ A B ltac:(lia) H) as (v & w & E).
  do 6 eexists. split; [exact H|]. split; [exact E|]. now apply BeamStress.vpwp_wrong.
Qed.

(** All the theorems of this file, for one listing of axioms. *)
Definition all_theorems :=
  (@C44_signature_4beam_partial,
   @C44_trdi_4beam_partial,
   @C44_5beam_partial,
   @C44_trdi_vw_refuted,
   @C44_vv_refuted,
   @C44_ww_refuted,
   @C45_exact_for_lines_partial,
   @C45_first_difference_any_spacing,
   @C45_sizes,
   @C45_down_raises,
   @C45_down_refuted,
   @C97_argument_used_partial,
   @C97_argument_ignored_refuted,
   @C115_uu_partial,
   @C115_uw_refuted,
   @C115_vw_refuted).
Print Assumptions all_theorems.
