(** Beam geometry and second moments. *)
From Coq Require Import Reals List.
From Verif.Model Require Import BeamStress.
From Verif.Spec Require Import Stats.
Import ListNotations.
Open Scope R_scope.

(** covariance of two series of the same length *)
Definition average (x : list R) : R := total (length x) (fun k => nth k x 0) / INR (length x).
Definition cov (x y : list R) : R :=
  total (length x) (fun k => (nth k x 0 - average x) * (nth k y 0 - average y)) / INR (length x).

(** direction of beam [j] (0..4) in a level frame with z upwards, for beam angle [th]: the rows of the
    inverse of the beam matrices (TRDI convex: rotate/rdi.py:95-98 gives u = (b1-b2)/(2 sin th),
    v = (b4-b3)/(2 sin th), w = sum/(4 cos th); Signature: x from beam 3 to 1, y from 2 to 4, positive
    away from the head), followed by the change of sign of the mounting (an up-looking TRDI negates x
    and z, rotate/rdi.py:125-135; a down-looking Signature y and z, rotate/signature.py:93-96). *)
Definition inst_beam (i : inst) (th : R) (j : nat) : R * R * R :=
  let s := sin th in let c := cos th in
  match i, j with
  | Trdi, 0%nat => (s, 0, c) | Trdi, 1%nat => (- s, 0, c) | Trdi, 2%nat => (0, - s, c) | Trdi, 3%nat => (0, s, c)
  | _, 0%nat => (s, 0, c) | _, 1%nat => (0, - s, c) | _, 2%nat => (- s, 0, c) | _, 3%nat => (0, s, c)
  | _, _ => (0, 0, 1)
  end.
Definition beam (i : inst) (o : facing) (th : R) (j : nat) : R * R * R :=
  let '(x, y, z) := inst_beam i th j in
  match i, o with
  | Trdi, Up => (- x, y, - z)
  | Trdi, _ => (x, y, z)
  | _, Down => (x, - y, - z)
  | _, _ => (x, y, z)
  end.
(** beam [j] measures the projection of the velocity ([u], [v], [w]) at its own cell *)
Definition projects (i : inst) (o : facing) (th : R) (j : nat) (u v w b : list R) : Prop :=
  length v = length u /\ length w = length u /\ length b = length u /\
  let '(x, y, z) := beam i o th j in
  forall k, (k < length u)%nat -> nth k b 0 = x * nth k u 0 + y * nth k v 0 + z * nth k w 0.
(** the second moments of the velocity *)
Record moments := { uu : R; vv : R; ww : R; uv : R; uw : R; vw : R }.
Definition has_moments (m : moments) (u v w : list R) : Prop :=
  cov u u = uu m /\ cov v v = vv m /\ cov w w = ww m /\ cov u v = uv m /\ cov u w = uw m /\ cov v w = vw m.
(** every beam sees velocities with the same second moments *)
Definition homogeneous (i : inst) (o : facing) (th : R) (n_beams n : nat) (m : moments) (beams : list (list R)) : Prop :=
  length beams = n_beams /\
  forall j, (j < n_beams)%nat -> exists u v w, length u = n /\ has_moments m u v w /\ projects i o th j u v w (nth j beams []).

(** an up-looking Signature with its nose up by [p] (radians): the x axis of the instrument is at
    (cos p, 0, sin p), its z axis at (- sin p, 0, cos p) (rotate/base.py:268: the vertical component of
    the x axis is the sine of the pitch) *)
Definition pitched_beam (p th : R) (j : nat) : R * R * R :=
  let '(x, y, z) := inst_beam Signature th j in (cos p * x - sin p * z, y, sin p * x + cos p * z).
Definition homogeneous_pitched (p th : R) (n : nat) (m : moments) (beams : list (list R)) : Prop :=
  length beams = 5%nat /\
  forall j, (j < 5)%nat -> exists u v w, length u = n /\ has_moments m u v w /\
    length v = n /\ length w = n /\ length (nth j beams []) = n /\
    let '(x, y, z) := pitched_beam p th j in
    forall k, (k < n)%nat -> nth k (nth j beams []) 0 = x * nth k u 0 + y * nth k v 0 + z * nth k w 0.
