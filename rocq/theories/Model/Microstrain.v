(** Model of dolfyn/io/nortek.py:1011-1036 [sci_microstrain]: the axes of the IMU of a Vector, for one
    sample. *)
From Coq Require Import ZArith Reals List Bool.
From Verif.Model Require Import Linalg.
Import ListNotations.
Open Scope R_scope.

(** nortek.py:1016-1022: rows 2 and 0 become row 0 and minus row 2; a row of a vector is a number, a row
    of an orientation matrix a list *)
Definition remap {A} (neg : A -> A) (rows : list A) : list A :=
  match rows with [x; y; z] => [neg z; y; x] | _ => rows end.
Definition remap_vec (v : vec) : vec := remap Ropp v.
(** nortek.py:1026-1029: column 2 changes sign, columns 0 and 1 change places *)
Definition ned2enu (row : vec) : vec := match row with [n; e; d] => [e; n; - d] | _ => row end.
Definition remap_omat (M : mat) : mat := map ned2enu (remap (map Ropp) M).
(** nortek.py:1030-1036 *)
Definition sci_accel (ahrsid : Z) (fs : R) (v : vec) : vec :=
  let v := map (Rmult (980665 / 100000)) (remap_vec v) in
  if (Z.eqb ahrsid 195 || Z.eqb ahrsid 211)%bool then map (Rmult fs) v else v.
Definition sci_angrt (ahrsid : Z) (fs : R) (v : vec) : vec :=
  if (Z.eqb ahrsid 195 || Z.eqb ahrsid 211)%bool then map (Rmult fs) (remap_vec v) else remap_vec v.
