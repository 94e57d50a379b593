(** Geometry against which the orientation matrices are judged. *)
From Coq Require Import Reals List.
From Verif.Model Require Import Linalg.
From Verif.Spec Require Import Linalg.
Import ListNotations.
Open Scope R_scope.

(** equal up to a whole number of turns of [m] *)
Definition cong (m a b : R) : Prop := exists k : Z, a = b + m * IZR k.

(** unit vector (east, north) of a direction given counter-clockwise from East / clockwise
    from North, in degrees *)
Definition dir_ccw_east (deg : R) : R * R := (cos (deg2rad deg), sin (deg2rad deg)).
Definition dir_cw_north (deg : R) : R * R := (sin (deg2rad deg), cos (deg2rad deg)).

(** quaternions (w,x,y,z) *)
Definition quat := (R * R * R * R)%type.
Definition qmul (p q : quat) : quat :=
  let '(a1, b1, c1, d1) := p in
  let '(a2, b2, c2, d2) := q in
  (a1*a2 - b1*b2 - c1*c2 - d1*d2,
   a1*b2 + b1*a2 + c1*d2 - d1*c2,
   a1*c2 - b1*d2 + c1*a2 + d1*b2,
   a1*d2 + b1*c2 - c1*b2 + d1*a2).
Definition qconj (q : quat) : quat := let '(a, b, c, d) := q in (a, - b, - c, - d).
Definition qnorm2 (q : quat) : R := let '(a, b, c, d) := q in a*a + b*b + c*c + d*d.
Definition qvec (v : vec) : quat := (0, comp v 0, comp v 1, comp v 2).

(** Janus geometry: beams tilted by [theta] from the vertical in the +x, -x, -y, +y directions
    for a convex head, the opposite ones for a concave head *)
Definition beam_dirs (theta : R) (convex : bool) : list vec :=
  let s := if convex then sin theta else - sin theta in
  let c := cos theta in
  [[s; 0; c]; [- s; 0; c]; [0; - s; c]; [0; s; c]].
(** along-beam velocities of a flow that is the same in all beams *)
Definition radial (theta : R) (convex : bool) (u v w : R) : vec :=
  map (fun b => dot3 b [u; v; w]) (beam_dirs theta convex).
Definition add4 (a b : vec) : vec :=
  [comp a 0 + comp b 0; comp a 1 + comp b 1; comp a 2 + comp b 2; comp a 3 + comp b 3].

(** heading, pitch, roll of one time; [None] is NaN *)
Definition hpr := (option R * option R * option R)%type.
Definition known (t : hpr) : Prop := exists h p r, t = (Some h, Some p, Some r).
Definition unknown (t : hpr) : Prop := t = (None, None, None).
