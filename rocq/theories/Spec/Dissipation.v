(** The inertial subrange laws behind the dissipation estimates. *)
From Coq Require Import QArith Qround Reals List.
Import ListNotations.
From Verif.Spec Require Import Stats.
Open Scope R_scope.

(** spectrum of isotropic turbulence carried past the sensor at speed [U], per rad/s:
    alpha eps^(2/3) U^(2/3) omega^(-5/3), alpha = 1/2 *)
Definition inertial_omega (eps U w : R) : R :=
  1/2 * Rpower eps (2/3) * Rpower U (2/3) * Rpower w (- (5/3)).
(** the same variance per Hz: S(f) df = S(omega) d omega, omega = 2 pi f *)
Definition inertial_hz (eps U f : R) : R := 2 * PI * inertial_omega eps U (2 * PI * f).
Definition inertial (hz : bool) (eps U f : R) : R :=
  if hz then inertial_hz eps U f else inertial_omega eps U f.
(** white noise of standard deviation [s], spread evenly up to the Nyquist frequency *)
Definition white (hz : bool) (fs s : R) : R :=
  if hz then s * s / (fs / 2) else s * s / (2 * PI * (fs / 2)).
(** mean square difference of samples [L] apart *)
Definition mean_square_increment (a : list R) (L : nat) : R :=
  total (length a - L) (fun k => (nth (k + L) a 0 - nth k a 0) * (nth (k + L) a 0 - nth k a 0)) / INR (length a - L).
(** the pairs of samples of two cells, at the times at which both have one, and the mean of their squared differences *)
Fixpoint both (a b : list (option R)) : list (R * R) :=
  match a, b with Some x :: a', Some y :: b' => (x, y) :: both a' b' | _ :: a', _ :: b' => both a' b' | _, _ => nil end.
Definition mean_square_difference (l : list (R * R)) : R :=
  fold_right Rplus 0 (map (fun p => (fst p - snd p) * (fst p - snd p)) l) / INR (length l).
(** second-order structure function at separation [r] with noise offset [N] *)
Definition structure (eps N r : R) : R := (21/10) * Rpower eps (2/3) * Rpower r (2/3) + N.
(** the spectra of TE01 equation 6, per rad/s, for the value [I] of their integral A13:
    horizontal (two components summed) and vertical *)
Definition te01_h (I eps U w : R) : R := 21/55 * (3/2) * I * Rpower eps (2/3) * Rpower U (2/3) * Rpower w (- (5/3)).
Definition te01_v (I eps U w : R) : R := 12/55 * (3/2) * I * Rpower eps (2/3) * Rpower U (2/3) * Rpower w (- (5/3)).
(** the separations k*b (k cells of size [b]) that the fit over [r0, r1] uses, see C91 *)
Definition used_separation (b r0 r1 : Q) (k : nat) : Prop :=
  (Qfloor (r0 / b) < Z.of_nat k <= Qceiling (r1 / b))%Z.
(** cells [z - k] and [z] differ, on the mean over the times, by [D] (squared) *)
Definition difference_is (bm : list (list (option R))) (z k : nat) (D : R) : Prop :=
  let l := both (nth (z - k) bm nil) (nth z bm nil) in (k <= z)%nat /\ l <> nil /\ mean_square_difference l = D.
