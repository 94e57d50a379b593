(** The velocities of Signature files in earth coordinates, as the manufacturer's signatureAD2CP_beam2xyz_enu.m computes
    them (/repo/refs). *)
From Coq Require Import String.
From Coq Require Import ZArith Reals List Bool.
From Verif.Model Require Import Ad2cp Ad2cpIndex SigData.
From Verif.Spec Require Import Ad2cpIndex SigData ReadSig.
From Verif.Spec Require NortekEarth.
Import ListNotations.
Open Scope R_scope.

Definition product := NortekEarth.product.
Definition entry3 (A : list (list R)) (i j : nat) : R := nth j (nth i A []) 0.
(** from the matrix for x, y, z to the one for x, y and two estimates of z *)
Definition two_vertical (A : list (list R)) : list (list R) :=
  [[entry3 A 0 0; entry3 A 0 1; entry3 A 0 2 / 2; entry3 A 0 2 / 2];
   [entry3 A 1 0; entry3 A 1 1; entry3 A 1 2 / 2; entry3 A 1 2 / 2];
   [entry3 A 2 0; entry3 A 2 1; entry3 A 2 2; 0];
   [entry3 A 2 0; entry3 A 2 1; 0; entry3 A 2 2]].
(** xyz to enu, from heading, pitch and roll in degrees *)
Definition attitude_matrix (h p r : R) : list (list R) :=
  map (fun row => map (fun j => fold_right Rplus 0 (map (fun q => fst q * snd q) (combine row (map (fun l => nth j l 0) (NortekEarth.tilt_matrix p r))))) (seq 0 3))
      (NortekEarth.heading_matrix h).
(** an instrument that points down *)
Definition signs (down : bool) (v : list R) : list R := if down then match v with x :: rest => x :: map Ropp rest | [] => [] end else v.
Definition enu4 (A : list (list R)) (down : bool) (v : list R) : list R := product (two_vertical A) (signs down v).
Definition enu3 (A : list (list R)) (down : bool) (v : list R) : list R := product A (signs down v).
(** velocities from the frame of the file; [T] is the beam matrix *)
Definition to_earth4 (frame : string) (T A : list (list R)) (down : bool) (v : list R) : list R :=
  if String.eqb frame "beam" then enu4 A down (product T v) else if String.eqb frame "inst" then enu4 A down v else v.

(** ** files *)
Definition frame_codes : list (Z * string) := [(0, "earth"); (1, "inst"); (2, "beam")]%Z%string.
(** bursts of [nb] beams and [nc] cells, and no other data; all pings of the part that is read have the same status *)
Record bursts (conf : Z -> Z * Z) (ids : list Z) (enss : list (list piece)) (file : Nortek.bytes) (start : nat) (stop : option nat)
    (nb nc : nat) (frame orientation : string) : Prop := {
  b_file : sig_file conf ids enss file;
  b_range : (start < upto enss stop)%nat;
  b_ids : In 21%Z ids /\ forall id, In id ids -> In id data_ids -> id = 21%Z;
  b_velocity : Z.testbit (fst (conf 21%Z)) 5 = true;
  b_beams : exists code, snd (conf 21%Z) = (Z.of_nat nc + 1024 * (code + 4 * Z.of_nat nb))%Z /\ (Z.of_nat nc < 1024)%Z /\ In (code, frame) frame_codes;
  b_status : exists low a o w an wn, (0 <= low < 2 ^ 22)%Z /\ In (a, an) orient_status /\ In (o, orientation) nortek_orient /\ In (w, wn) wake /\
    forall k p, in_ping enss start stop k p -> p_id p = 21%Z -> has conf p "status" [status_codes low a o w] }.

(** the matrix of a ping, xyz to enu: the one that was recorded, or else the one of the recorded angles (hundredths of a degree) *)
Definition hundredths (n : Z) : R := IZR n / 100.
Definition rows_of_three (l : list R) : list (list R) := [firstn 3 l; firstn 3 (skipn 3 l); skipn 6 l].
Definition ping_matrix (conf : Z -> Z * Z) (p : piece) (A : list (list R)) : Prop :=
  (exists raws xs, has conf p "orientmat" raws /\ map f32 raws = map Some xs /\ A = rows_of_three xs) \/
  ((forall raws, ~ has conf p "orientmat" raws) /\ exists h pt rl, has conf p "heading" [h] /\ has conf p "pitch" [pt] /\ has conf p "roll" [rl] /\
     A = attitude_matrix (hundredths h) (hundredths pt) (hundredths rl)).
(** the velocities of cell [j]: counts of 10^s m/s, beam after beam *)
Definition ping_velocity (conf : Z -> Z * Z) (p : piece) (nb nc j : nat) (v : list R) : Prop :=
  exists raws s, has conf p "vel" raws /\ has conf p "vel_scale" [s] /\ (j < nc)%nat /\ v = map (fun b => IZR (nth (b * nc + j) raws 0%Z) * powerRZ 10 s) (seq 0 nb).
(** counts of 9.81/16384 m/s^2 and of 0.1 uT *)
Definition ping_accel (conf : Z -> Z * Z) (p : piece) (a : list R) : Prop := exists raws, has conf p "accel" raws /\ a = map (fun n => IZR n * (981 / 100 / 16384)) raws.
Definition ping_mag (conf : Z -> Z * Z) (p : piece) (a : list R) : Prop := exists raws, has conf p "mag" raws /\ a = map (fun n => IZR n * (1 / 10)) raws.
(** no recorded matrix; the vertical beams of the instrument are not horizontal *)
Definition upright (conf : Z -> Z * Z) (p : piece) : Prop :=
  (forall raws, ~ has conf p "orientmat" raws) /\ exists h pt rl, has conf p "heading" [h] /\ has conf p "pitch" [pt] /\ has conf p "roll" [rl] /\
    cos (PI * hundredths pt / 180) * cos (PI * hundredths rl / 180) <> 0.
