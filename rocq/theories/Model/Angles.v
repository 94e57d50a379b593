(** Angle helpers: numpy's arctan2, Python's % on floats, rounding, and
    [convert_degrees] (tools/misc.py:318-346). Floats are idealised as real numbers:
    no signed zero, no rounding error ([-1e-17 % 360] is 360.0 in floats, 360 - 1e-17 here). *)
From Coq Require Import Reals List Ratan.
Import ListNotations.
Open Scope R_scope.

Definition rad2deg (x : R) : R := x * 180 / PI.

(** [numpy.arctan2(y, x)], also [numpy.angle(x + 1j*y)] *)
Definition atan2 (y x : R) : R :=
  if Rlt_dec 0 x then atan (y / x)
  else if Rlt_dec x 0 then
    (if Rle_dec 0 y then atan (y / x) + PI else atan (y / x) - PI)
  else if Rlt_dec 0 y then PI / 2
  else if Rlt_dec y 0 then - (PI / 2)
  else 0.

(** floor and Python's [x % m] for [m > 0]: [x - m*floor(x/m)] *)
Definition rfloor (x : R) : Z := Int_part x.
Definition rmod (x m : R) : R := x - m * IZR (rfloor (x / m)).

(** tools/misc.py:343-346, one element of the array *)
Definition convert_degrees (deg : R) (tidal_mode : bool) : R :=
  let out := rmod (- (deg - 90)) 360 in
  if tidal_mode then (if Rlt_dec 180 out then out - 360 else out) else out.

(** [numpy.round(x, 4)]: nearest multiple of 1e-4, ties to even *)
Definition rint (x : R) : Z :=
  let f := rfloor x in
  let r := x - IZR f in
  if Rlt_dec r (1/2) then f
  else if Rlt_dec (1/2) r then (f + 1)%Z
  else if Z.even f then f else (f + 1)%Z.
Definition round4 (x : R) : R := IZR (rint (x * 10000)) / 10000.
