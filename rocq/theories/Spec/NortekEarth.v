(** The velocities of Nortek's instruments in earth coordinates, as the manufacturer's Transform.m computes them
    (/repo/refs/Transform.m). *)
From Coq Require Import String.
From Coq Require Import ZArith QArith Qreals Reals List Bool.
From Verif.Model Require Import Nortek NortekFile ReadVector.
From Verif.Spec Require Import Nortek NortekGuess NortekData ReadVector.
From Verif.Spec Require Linalg.
Import ListNotations.
Open Scope R_scope.

Definition product (M : list (list R)) (v : list R) : list R :=
  map (fun row => fold_right Rplus 0 (map (fun p => fst p * snd p) (combine row v))) M.
(** angles in degrees *)
Definition heading_matrix (h : R) : list (list R) :=
  let hh := PI * (h - 90) / 180 in [[cos hh; sin hh; 0]; [- sin hh; cos hh; 0]; [0; 0; 1]].
Definition tilt_matrix (p r : R) : list (list R) :=
  let pp := PI * p / 180 in let rr := PI * r / 180 in
  [[cos pp; - sin pp * sin rr; - cos rr * sin pp]; [0; cos rr; - sin rr]; [sin pp; sin rr * cos pp; cos pp * cos rr]].
(** an instrument that points down has rows 2 and 3 of the beam matrix, and so the components y and z, with changed sign *)
Definition mounted (down : bool) (v : list R) : list R :=
  match down, v with true, [x; y; z] => [x; - y; - z] | _, _ => v end.
Definition enu (down : bool) (h p r : R) (xyz : list R) : list R :=
  product (heading_matrix h) (product (tilt_matrix p r) (mounted down xyz)).
(** from the frame of the file; [T] is the beam matrix *)
Definition to_earth (frame : string) (T : list (list R)) (down : bool) (h p r : R) (v : list R) : list R :=
  if String.eqb frame "beam" then enu down h p r (product T v) else if String.eqb frame "inst" then enu down h p r v else v.
Definition reals (M : list (list Q)) : list (list R) := map (map Q2R) M.

(** ** AWAC profiles *)
(** two bytes, from the one with this number *)
Definition unsigned_at (e : endian) (b : bytes) (i : nat) (v : Z) : Prop :=
  exists b0 b1, nth_error b i = Some b0 /\ nth_error b (S i) = Some b1 /\ holds_unsigned e b0 b1 v.
Definition signed_at (e : endian) (b : bytes) (i : nat) (v : Z) : Prop :=
  exists b0 b1, nth_error b i = Some b0 /\ nth_error b (S i) = Some b1 /\ holds_signed e b0 b1 v.
(** heading, pitch and roll in tenths of a degree, the status byte and its first bit, the velocities of cell [j] in mm/s *)
Definition attitude_is (e : endian) (b : bytes) (h p r : Z) : Prop := unsigned_at e b 16 h /\ signed_at e b 18 p /\ signed_at e b 20 r.
Definition points_down (b : bytes) (down : bool) : Prop := exists s, nth_error b 23 = Some s /\ Z.testbit s 0 = down.
Definition velocity_is (e : endian) (bins : nat) (b : bytes) (j : nat) (v : list Z) : Prop :=
  exists v0 v1 v2, v = [v0; v1; v2] /\ signed_at e b (116 + 2 * j) v0 /\ signed_at e b (116 + 2 * (bins + j)) v1 /\ signed_at e b (116 + 2 * (2 * bins + j)) v2.
Definition tenths (x : Z) : R := IZR x / 10.
Definition metres (v : list Z) : list R := map (fun x => IZR x / 1000) v.
(** a file of profiles with three beams whose matrix can be inverted; three profiles or more, evenly spaced if there are many *)
Record awac_file (e : endian) (cs : bool) (bins : nat) (header : bytes) (bs : list blk) (tail : bytes) (g : vec_cfg) : Prop := {
  af_header : (22 <= length header)%nat;
  af_tail : (length tail < 2)%nat;
  af_bins : (0 < bins)%nat;
  af_matrix : three_by_three (g_beam2inst g) /\ Linalg.det3 (reals (g_beam2inst g)) <> 0;
  af_blocks : Forall (awac_block bins 3) bs;
  af_bytes : Forall (fun b => Forall is_byte (body b)) bs;
  af_sums : Forall (verified (Reader e cs Awac bins 3 None)) bs;
  af_sizes : Forall (sized e) bs;
  af_three : (3 <= number 32 bs)%nat;
  af_even : evenly 32 bs (file_of header bs tail) }.
(** A profile: [i] is its number (from 0), [h], [p], [r] its heading, pitch and roll, [v] the velocities of cell [j] *)
Definition profile_at (e : endian) (bins : nat) (bs : list blk) (i : nat) (b : bytes) (h p r : Z) (j : nat) (v : list Z) : Prop :=
  nth_error (profiles bs) i = Some b /\ attitude_is e b h p r /\ (j < bins)%nat /\ velocity_is e bins b j v.
