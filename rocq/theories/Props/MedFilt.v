(** C150-C152: median filters of orientations and of the surface. *)
From Coq Require Import Reals List Bool Arith Lia Lra.
From Verif.Model Require Import Linalg Euler MedFilt.
From Verif.Spec Require Import Linalg MedFilt.
From Verif.Proofs Require MedFilt.
Import ListNotations.
Open Scope R_scope.

(** C150. Away from the ends, by half the kernel, every filtered sample is a median of the [n] samples around it, so one
    that was recorded; it lies in every range that holds more than half of them. *)
Theorem C150_median_partial : forall l n out i, medfilt l n = Some out -> inside n l i -> is_median (centred n l i) (nth i out 0).
Proof. exact Proofs.MedFilt.medfilt_inside. Qed.
Theorem C150_outliers_partial : forall l n out i lo hi, medfilt l n = Some out -> inside n l i ->
  (n < 2 * between lo hi (centred n l i))%nat -> lo <= nth i out 0 <= hi.
Proof. exact Proofs.MedFilt.medfilt_outliers. Qed.
(** An even kernel is refused; the length is kept; a constant record longer than half the kernel is not changed. *)
Theorem C150_kernel : forall l n, medfilt l n = None <-> Nat.even n = true.
Proof. exact Proofs.MedFilt.medfilt_even. Qed.
Theorem C150_length : forall l n out, medfilt l n = Some out -> length out = length l.
Proof. exact Proofs.MedFilt.medfilt_length. Qed.
Theorem C150_constant : forall c m n, Nat.even n = false -> (n / 2 < m)%nat -> medfilt (repeat c m) n = Some (repeat c m).
Proof. exact Proofs.MedFilt.medfilt_constant. Qed.
(** one spike among steady samples *)
Example C150_case : (exists out, medfilt [1; 1; 90; 1; 1] 3 = Some out) /\ inside 3 [1; 1; 90; 1; 1] 2
  /\ (3 < 2 * between 1%R 1%R (centred 3 [1; 1; 90; 1; 1]%R 2))%nat.
Proof.
  split; [eexists; reflexivity|]. split; [split; cbn; lia|]. unfold between, centred. cbn -[Nat.mul].
  destruct (Rle_dec 1 1) as [_|N]; [|exfalso; lra]. destruct (Rle_dec 1 90) as [_|N]; [|exfalso; lra]. destruct (Rle_dec 90 1) as [N|_]; [exfalso; lra|]. cbn. lia.
Qed.
(** At the ends the record is continued with zeros. The first sample of every positive record becomes the least of the
    first [n / 2 + 1], and a value can come out that was never recorded. *)
Theorem C150_first_refuted : forall l n out, medfilt l n = Some out -> Forall (fun y => 0 < y) l -> (n / 2 < length l)%nat ->
  is_least (firstn (n / 2 + 1) l) (nth 0 out 0).
Proof. exact Proofs.MedFilt.medfilt_first. Qed.
Theorem C150_invented_refuted : exists l n out x, medfilt l n = Some out /\ In x out /\ ~ In x l.
Proof.
  exists [5; -3], 3%nat, [0; 0], 0. split; [exact Proofs.MedFilt.medfilt_invented|]. split; [left; reflexivity|]. intros [H|[H|[]]]; lra.
Qed.
Example C150_first_case : (exists out, medfilt [9; 8; 1; 8; 9] 5 = Some out) /\ Forall (fun y => 0 < y) [9; 8; 1; 8; 9] /\ (5 / 2 < length [9; 8; 1; 8; 9]%R)%nat
  /\ is_least (firstn (5 / 2 + 1)%nat [9; 8; 1; 8; 9]) 1.
Proof.
  split; [eexists; reflexivity|]. split; [repeat constructor; lra|]. split; [cbn; lia|]. split; [cbn; tauto|]. cbn. intros y H. intuition lra.
Qed.

(** C151. With an attitude sensor the quaternions are filtered component by component; if none of the results is zero
    filtering succeeds, and each matrix is the rotation given by the filtered quaternion. Without one the angles are
    filtered and the matrix of the unfiltered ones is taken away. *)
Theorem C151_quaternions_partial : forall d w x y z n d', has_imu d = Some true -> quaternions d = Some (w, x, y, z) -> medfilt_orient d n = inr d' ->
  exists w' x' y' z' m, medfilt w n = Some w' /\ medfilt x n = Some x' /\ medfilt y n = Some y' /\ medfilt z n = Some z' /\
    quaternions d' = Some (w', x', y', z') /\ orientmat d' = Some m /\ angles d' = angles d /\ length m = length w /\
    forall i, (i < length w)%nat -> quaternion2orient (nth i w' 0) (nth i x' 0) (nth i y' 0) (nth i z' 0) = Some (nth i m []) /\ proper_rotation (nth i m []).
Proof. exact Proofs.MedFilt.imu_result. Qed.
Theorem C151_success_partial : forall d w x y z n, has_imu d = Some true -> quaternions d = Some (w, x, y, z) -> Nat.even n = false ->
  (forall w' x' y' z' i, medfilt w n = Some w' -> medfilt x n = Some x' -> medfilt y n = Some y' -> medfilt z n = Some z' -> (i < length w)%nat ->
     ~ (nth i w' 0 = 0 /\ nth i x' 0 = 0 /\ nth i y' 0 = 0 /\ nth i z' 0 = 0)) ->
  exists d', medfilt_orient d n = inr d'.
Proof. exact Proofs.MedFilt.imu_ok. Qed.
Theorem C151_angles : forall d p r h n d', has_imu d = Some false -> angles d = Some (p, r, h) -> medfilt_orient d n = inr d' ->
  exists p' r' h', medfilt p n = Some p' /\ medfilt r n = Some r' /\ medfilt h n = Some h' /\ angles d' = Some (p', r', h') /\ orientmat d' = None
    /\ quaternions d' = quaternions d.
Proof. exact Proofs.MedFilt.angles_result. Qed.
Example C151_case : let d := Orientation (Some true) (Some (repeat 1 4, repeat 0 4, repeat 0 4, repeat 0 4)) None None in
  has_imu d = Some true /\ exists d', medfilt_orient d 3 = inr d'.
Proof.
  cbv zeta. split; [reflexivity|]. eapply Proofs.MedFilt.imu_ok; try reflexivity.
  intros w' x' y' z' i Ew _ _ _ L. rewrite (Proofs.MedFilt.medfilt_constant 1 4 3 eq_refl ltac:(cbn; lia)) in Ew. injection Ew as <-.
  intros (H & _). cbn in L. destruct i as [|[|[|[|i]]]]; cbn in H; lra || lia.
Qed.
Example C151_angles_case : exists d', medfilt_orient (Orientation (Some false) None (Some ([1; 2; 3], [1; 2; 3], [4; 5; 6])) (Some [])) 3 = inr d'.
Proof. eexists. reflexivity. Qed.
(** [q] and [-q] are the same orientation; a record that begins so cannot be filtered with a kernel of 3. *)
Theorem C151_opposite_refuted : forall d w x y z ws xs ys zs, has_imu d = Some true ->
  quaternions d = Some (w :: - w :: ws, x :: - x :: xs, y :: - y :: ys, z :: - z :: zs) -> medfilt_orient d 3 = inl Zero_quaternion.
Proof. exact Proofs.MedFilt.opposite_quaternions. Qed.
(** Filtering angles a second time raises: there is no matrix left to take away. *)
Theorem C151_twice_refuted : forall d n d', has_imu d = Some false -> medfilt_orient d n = inr d' -> medfilt_orient d' n = inl Nothing_to_drop.
Proof. exact Proofs.MedFilt.twice. Qed.

(** C152. Where all estimates of the surface are valid, its filtered distance is a median of those around it. *)
Theorem C152_median_partial : forall other l n out i, filter_surface other (map Some l) (Some n) = Some out -> Nat.even n = false -> inside n l i ->
  Forall (fun y => 0 < y) l -> exists x, nth_error out i = Some (Some x) /\ is_median (centred n l i) x.
Proof. exact Proofs.MedFilt.surface_inside. Qed.
Example C152_case : exists out, filter_surface (fun _ => None) (map Some [9; 8; 1; 8; 9]) (Some 3%nat) = Some out /\ inside 3 [9; 8; 1; 8; 9] 2.
Proof. eexists. split; [reflexivity|split; cbn; lia]. Qed.
(** The first one is the least of the first half kernel. *)
Theorem C152_first_refuted : forall other l n out, filter_surface other (map Some l) (Some n) = Some out -> Nat.even n = false -> (n / 2 < length l)%nat ->
  Forall (fun y => 0 < y) l -> exists x, nth_error out 0 = Some (Some x) /\ is_least (firstn (n / 2 + 1) l) x.
Proof. exact Proofs.MedFilt.surface_first. Qed.
(** [thresh] is compared with the fraction of missing samples: below 1 windows with a larger one are blanked, from 1 on,
    as for the surface, it has no effect at all, whatever the gap. *)
Theorem C152_fraction : forall other l n thresh out i, 0 < thresh -> medfiltnan other l n thresh = Some out -> (i < length l)%nat ->
  thresh * INR n < INR (missing_near n l i) -> nth_error out i = Some None.
Proof. exact Proofs.MedFilt.masked. Qed.
Theorem C152_gap_refuted : forall other l n thresh, 1 <= thresh -> medfiltnan other l n thresh = medfiltnan other l n 0.
Proof. exact Proofs.MedFilt.no_effect. Qed.
Example C152_fraction_case : (exists out, medfiltnan (fun _ => Some 7) [Some 1; None; None] 3 (1 / 2) = Some out)
  /\ 1 / 2 * INR 3 < INR (missing_near 3 [Some 1; None; None] 1).
Proof. split; [eexists; reflexivity|]. cbn. lra. Qed.

(** All the theorems of this file, for one listing of axioms. *)
Definition all_theorems :=
  (@C150_median_partial,
   @C150_outliers_partial,
   @C150_kernel,
   @C150_length,
   @C150_constant,
   @C150_first_refuted,
   @C150_invented_refuted,
   @C151_quaternions_partial,
   @C151_success_partial,
   @C151_angles,
   @C151_opposite_refuted,
   @C151_twice_refuted,
   @C152_median_partial,
   @C152_first_refuted,
   @C152_fraction,
   @C152_gap_refuted).
Print Assumptions all_theorems.
