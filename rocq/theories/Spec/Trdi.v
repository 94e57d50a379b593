(** The velocities of TRDI instruments as the manual "ADCP Coordinate Transformation" (2008) computes them. *)
From Coq Require Import String.
From Coq Require Import ZArith Reals List Bool.
From Verif.Model Require Import Nortek Linalg.
From Verif.Spec Require Rdi.
Import ListNotations.
Open Scope R_scope.

(** the velocity of a beam in a cell (both counted from 0), in m/s, recorded in mm/s; -32768 stands for none *)
Definition recorded (b : bytes) (cell beam : nat) : Z := Rdi.sint b (3 + 8 * cell + 2 * beam) 2.
Definition valid (b : bytes) (cell : nat) : Prop := forall beam, (beam < 4)%nat -> recorded b cell beam <> (-32768)%Z.
Definition velocity (b : bytes) (cell beam : nat) : R := IZR (recorded b cell beam) / 1000.
Definition bottom (b : bytes) (beam : nat) : R := IZR (Rdi.sint b (25 + 2 * beam) 2) / 1000.
(** attitude in degrees from the variable leader *)
Definition heading (b : bytes) : R := IZR (Rdi.uint b 19 2) / 100.
Definition pitch (b : bytes) : R := IZR (Rdi.sint b 21 2) / 100.
Definition roll (b : bytes) : R := IZR (Rdi.sint b 23 2) / 100.

(** beams to instrument: beams at an angle of [th] degrees from the vertical; the fourth is the error velocity *)
Definition instrument_velocity (th : R) (convex : bool) (b1 b2 b3 b4 : R) : vec :=
  let a := 1 / (2 * sin (deg2rad th)) in
  let c := if convex then 1 else -1 in
  [c * a * (b1 - b2); c * a * (b4 - b3); 1 / (4 * cos (deg2rad th)) * (b1 + b2 + b3 + b4); a / sqrt 2 * (b1 + b2 - b3 - b4)].
(** instrument to earth, in degrees: east, north, up. Upward looking instruments: 180 degrees are added to the roll;
    the pitch is that of gimbals *)
Definition earth_velocity (h p r : R) (up : bool) (x y z : R) : vec :=
  let ch := cos (deg2rad h) in let sh := sin (deg2rad h) in
  let rr := if up then r + 180 else r in
  let cr := cos (deg2rad rr) in let sr := sin (deg2rad rr) in
  let pp := atan (tan (deg2rad p) * cos (deg2rad r)) in
  let cp := cos pp in let sp := sin pp in
  [(ch * cr + sh * sp * sr) * x + sh * cp * y + (ch * sr - sh * sp * cr) * z;
   (- sh * cr + ch * sp * sr) * x + ch * cp * y - (sh * sr + ch * sp * cr) * z;
   - cp * sr * x + sp * y + cp * cr * z].
(** ship to earth: the tilts have been applied already *)
Definition turned (h : R) (x y z : R) : vec :=
  [cos (deg2rad h) * x + sin (deg2rad h) * y; - sin (deg2rad h) * x + cos (deg2rad h) * y; z].

(** what the fixed leader says *)
Definition frame (fixed : bytes) : string := nth (Rdi.code fixed 26 3 2) ["beam"; "inst"; "ship"; "earth"]%string ""%string.
Definition tilts_applied (fixed : bytes) : bool := Rdi.bit fixed 26 2.
Definition upward (fixed : bytes) : bool := Rdi.bit fixed 5 7.
Definition convex (fixed : bytes) : bool := Rdi.bit fixed 5 3.
Definition beam_angle (fixed : bytes) : Z :=
  if QArith_base.Qle_bool (QArith_base.Qmake 1627 100) (Rdi.firmware fixed) then Rdi.uint fixed 59 1 else nth (Rdi.code fixed 6 0 2) [15; 20; 30]%Z 0%Z.
Definition four_beams (fixed : bytes) : Prop := (4 <= Rdi.uint fixed 9 1 + (if Rdi.bit fixed 6 4 then 1 else 0))%Z.
Definition variation (fixed : bytes) : Z := Rdi.sint fixed 29 2.
(** an instrument with four beams at an angle *)
Definition usual (fixed : bytes) : Prop := four_beams fixed /\ (0 < beam_angle fixed < 90)%Z.
(** the velocities in earth coordinates, by the frame of the file *)
Definition in_earth (fixed leader : bytes) (v1 v2 v3 v4 : R) : vec :=
  let to_earth := earth_velocity (heading leader) (pitch leader) (roll leader) (upward fixed) in
  if String.eqb (frame fixed) "beam" then
    match instrument_velocity (IZR (beam_angle fixed)) (convex fixed) v1 v2 v3 v4 with
    | [x; y; z; e] => to_earth x y z ++ [e]
    | _ => []
    end
  else if String.eqb (frame fixed) "inst" then to_earth v1 v2 v3 ++ [v4]
  else if String.eqb (frame fixed) "ship" then
    (if tilts_applied fixed then turned (heading leader) v1 v2 v3 else to_earth v1 v2 v3) ++ [v4]
  else [v1; v2; v3; v4].

(** ** Files *)
(** Ensemble number [i] (from 0) of the first [m] consists of the fixed leader [fixed] and the blocks [rest]. *)
Definition ensemble_at (xs : list Rdi.pd0) (m : Z) (i : nat) (fixed : bytes) (rest : list (Z * bytes)) : Prop :=
  (Z.of_nat i < m)%Z /\ exists x, nth_error xs i = Some x /\ Rdi.blocks x = (0%Z, fixed) :: rest.
(** the variable leader has a year that can be told *)
Definition dated (fixed leader : bytes) : Prop :=
  Rdi.year_sound (Rdi.block_bytes (0%Z, fixed)) (Rdi.block_bytes (128%Z, leader)).
Definition time (fixed leader : bytes) : option (date * Z) :=
  Rdi.time_of (Rdi.block_bytes (0%Z, fixed)) (Rdi.block_bytes (128%Z, leader)).
(** At most [m] ensembles are read of the file made of [xs] and [last] (which is lost, C77). The first one has a time, some
    have velocities, and the last one that is read has the settings [fixed]. *)
Record readable (n : Z) (xs : list Rdi.pd0) (last : Rdi.pd0) (m : Z) (fixed : bytes) : Prop := {
  cells_ok : (0 < n)%Z;
  some_asked : (0 < m)%Z;
  all_sound : Forall (Rdi.sound n) xs /\ Rdi.sound n last;
  first_time : exists fixed0 rest leader, ensemble_at xs m 0 fixed0 rest /\ In (128%Z, leader) rest /\ dated fixed0 leader /\ time fixed0 leader <> None;
  with_velocities : exists i f rest data, ensemble_at xs m i f rest /\ In (256%Z, data) rest;
  last_settings : exists rest, ensemble_at xs m (Nat.min (Z.to_nat m) (length xs) - 1) fixed rest;
  usual_settings : usual (Rdi.block_bytes (0%Z, fixed)) }.
