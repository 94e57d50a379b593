(** Averages over the two beam sets of a Signature (io/nortek2_lib.py:10-33, io/nortek2.py:605-640),
    and the distances of the cells. Floats are idealised as real numbers. *)
From Coq Require Import ZArith Reals List.
From Verif.Model Require Import Linalg Angles Stats.
Import ListNotations.
Open Scope R_scope.

(** io/nortek2_lib.py:10-18 [_reduce_by_average], one variable; [None]: not in the data. The second
    variable is always removed, the first one returned. Arrays of the same length. *)
Definition reduce_by_average (x0 x1 : option (list R)) : option (list R) :=
  match x0, x1 with
  | Some a, Some b => Some (map2 (fun x y => (x + y) / 2) a b)
  | None, Some b => Some b
  | x, None => x
  end.
(** io/nortek2_lib.py:29-31: [np.angle(exp(1j*a*f) + exp(1j*b*f)) / f], f = pi/180 *)
Definition angle_mean (a b : R) : R :=
  rad2deg (atan2 (sin (deg2rad a) + sin (deg2rad b)) (cos (deg2rad a) + cos (deg2rad b))).
(** io/nortek2_lib.py:21-33 [_reduce_by_average_angle] *)
Definition reduce_by_average_angle (x0 x1 : option (list R)) : option (list R) :=
  match x0, x1 with
  | Some a, Some b => Some (map2 angle_mean a b)
  | None, Some b => Some b
  | x, None => x
  end.

(** io/nortek2.py:614-639, io/nortek.py:1094: [(np.arange(n)+1)*cell_size + blank_dist] *)
Definition nortek_range (n : nat) (cell_size blank_dist : R) : list R :=
  map (fun k => (INR k + 1) * cell_size + blank_dist) (seq 0 n).
(** io/rdi.py:1307-1309, 1315-1317: [bin1_dist_m + np.arange(n)*cell_size] *)
Definition rdi_range (n : nat) (cell_size bin1_dist : R) : list R :=
  map (fun k => bin1_dist + INR k * cell_size) (seq 0 n).
(** Python's [round(x, 2)]: nearest hundredth, ties to even *)
Definition round2 (x : R) : R := IZR (rint (x * 100)) / 100.
(** io/nortek.py:1082-1093: cell size and blanking distance of an AWAC from the counts of the
    configuration; an unknown frequency is a KeyError *)
Definition awac_coef (khz : Z) : option R :=
  if Z.eqb khz 2000 then Some (239 / 10000) else if Z.eqb khz 1000 then Some (478 / 10000)
  else if Z.eqb khz 600 then Some (797 / 10000) else if Z.eqb khz 400 then Some (1195 / 10000) else None.
Definition awac_cells (khz : Z) (n bin_length blank : nat) : option (list R * R * R) :=
  match awac_coef khz with
  | None => None
  | Some k =>
    let c := cos (25 * (PI / 180)) in
    let cs := round2 (INR bin_length / 256 * k * c) in
    let bd := round2 (INR blank * (229 / 10000) * c - cs) in
    Some (nortek_range n cs bd, cs, bd)
  end.
