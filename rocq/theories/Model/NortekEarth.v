(** Model of the end of dolfyn/io/nortek.py:79-105 [read_nortek]: from the variables of the dataset (Model.ReadAwac,
    Model.ReadVector) to the dataset of Model.Rotate with its orientation matrices, ready for [rotate2]. Its velocities are
    real numbers: the argument [nan] stands for NaN. What is said of a velocity for every [nan] is said of a velocity that is
    no NaN and was computed from none. Variables that are never rotated are left out; that each variable gets its axes is
    C142. *)
From Coq Require Import String.
From Coq Require Import ZArith QArith Qreals Reals List Bool.
From Verif.Model Require Import Nortek NortekFile HandleNan ReadVector ReadAwac.
From Verif.Model Require Linalg Rotate Euler.
Import ListNotations.
Open Scope string_scope.
Open Scope list_scope.
Open Scope nat_scope.

Definition find_var (d : dataset) (name : string) : option nvar := find (fun v => String.eqb (vname v) name) (d_vars d).
(** entry [i] of line [k]; [None] is NaN *)
Definition entry (d : dataset) (name : string) (k i : nat) : option Q :=
  match find_var d name with Some v => nth i (nth k (lines v) []) None | None => None end.
Definition real (x : option Q) : option R := option_map Q2R x.
Definition num (nan : R) (x : option R) : R := match x with Some q => q | None => nan end.
(** nortek.py:94-99, rotate/vector.py:189-206 [_calc_omat]; [None]: no time has an attitude (IndexError) *)
Definition attitude (d : dataset) (i : nat) : Euler.triple :=
  (real (entry d "heading" 0 i), real (entry d "pitch" 0 i), real (entry d "roll" 0 i)).
Definition calc_omat (nan : R) (d : dataset) (down : nat -> bool) : option (list Linalg.mat) :=
  option_map (fun l => map (fun p : nat * Euler.triple =>
                              let '(i, (h, p, r)) := p in Euler.nortek_omat (num nan h) (num nan p) (num nan r) (down i))
                           (combine (seq 0 (length l)) l))
             (Euler.fill_tail (map (attitude d) (seq 0 (length (d_time d))))).
(** 'beam2inst_orientmat' *)
Definition matrix (nan : R) (d : dataset) : Linalg.mat :=
  match find_var d "beam2inst_orientmat" with Some v => map (map (fun x => num nan (real x))) (lines v) | None => [] end.
(** 'vel': three beams of [bins] cells *)
Definition velocities (nan : R) (d : dataset) (bins : nat) : Rotate.var :=
  Rotate.Var 3 (map (fun i => map (fun j => map (fun k => num nan (real (entry d "vel" (k * bins + j) i))) (seq 0 3)) (seq 0 bins))
                    (seq 0 (length (d_time d)))).
(** nortek.py:90-104; [model] is 'awac' or 'vector', [frame] what lines 265-267 make of the header, [rotmat] and [declin]
    what lines 80-88 find in the userdata file *)
Definition earth_ready (nan : R) (model frame : string) (bins : nat) (down : nat -> bool) (rotmat : option Linalg.mat) (declin : option R)
    (d : dataset) : option Rotate.res :=
  let beams := ["1"; "2"; "3"] in
  option_map (fun omat =>
    let D := Rotate.Ds ("nortek " ++ model) model frame beams None beams "" (matrix nan d) omat
               (Some (map (fun i => num nan (real (entry d "heading" 0 i))) (seq 0 (length (d_time d))))) None false None None ["vel"]
               [("vel", velocities nan d bins)] in
    Rotate.bind (Rotate.set_coords D frame) (fun D =>
    Rotate.bind (match rotmat with Some M => Rotate.set_inst2head_rotmat D M | None => Rotate.Ok D end) (fun D =>
    match declin with Some a => Rotate.set_declination D a | None => Rotate.Ok D end)))
  (calc_omat nan d down).
(** nortek.py:18-107 for an AWAC: its datasets have no 'orientation_down'. [None] and [Some (Err _ _)] are exceptions. *)
Definition open_awac (nan : R) (frame : string) (rotmat : option Linalg.mat) (declin : option R) (g : vec_cfg) (r : reader) (file : bytes) (start : nat) :
    option Rotate.res :=
  match read_nortek_awac g r file start with
  | Some d => earth_ready nan "awac" frame (rbins r) (fun _ => false) rotmat declin d
  | None => None
  end.
(** rotate/vector.py:198-203: 'orientation_down' *)
Definition is_down (d : dataset) (i : nat) : bool :=
  match entry d "orientation_down" 0 i with Some q => negb (Qeq_bool q 0) | None => false end.
(** nortek.py:18-107 for a Vector without an IMU. (An IMU may send the orientation matrix, and its vectors are rotated too.) *)
Definition open_vector (nan : R) (frame : string) (rotmat : option Linalg.mat) (declin : option R) (g : vec_cfg) (r : reader) (file : bytes) (start : nat) :
    option Rotate.res :=
  match read_nortek_vector g r file start with
  | Some d => earth_ready nan "vector" frame 1 (is_down d) rotmat declin d
  | None => None
  end.
