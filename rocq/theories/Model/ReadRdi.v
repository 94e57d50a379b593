(** Model of reading a TRDI file as a whole, dolfyn/io/rdi.py:17-130: from the bytes of the file to the dataset with its
    orientation matrices, ready for [rotate2]. Reading is that of Model/RdiFile.v; the dataset is that of Model/Rotate.v,
    whose velocities are real numbers: the argument [nan] stands for NaN. What is said of a velocity for every [nan] is
    said of a velocity that is no NaN and was computed from none.
    Left out: the second profile, the surface layer, GPS (C79) and all variables that are never rotated; that each
    variable gets its axes is C142. *)
From Coq Require Import String.
From Coq Require Import ZArith QArith Qreals Reals List Bool.
From Verif.Model Require Import Nortek RdiBlocks RdiFile.
From Verif.Model Require Linalg Rotate Euler RdiPost Time.
Import ListNotations.
Open Scope string_scope.
Open Scope list_scope.
Open Scope Z_scope.

Definition num (nan : R) (x : option Q) : R := match x with Some q => Q2R q | None => nan end.
(** io/rdi.py:341-357, 1341-1345: a profile of [n] cells and four beams (or the bottom track: one cell); NaN until it
    was first read *)
Definition profile_of (nan : R) (n : nat) (row : option (list (option Q))) : list Linalg.vec :=
  map (fun k => map (fun b => num nan (match row with Some l => nth (4 * k + b) l None | None => None end)) (seq 0 4)) (seq 0 n).
Definition profiles (nan : R) (n : nat) (cols : list column) (nm : string) : Rotate.var :=
  Rotate.Var 4 (map (profile_of nan n) (variable cols nm)).
Definition scalar (nan : R) (nm : string) (c : column) : R :=
  match lookup nm (cvals c) with Some (x :: _) => num nan x | _ => nan end.
(** io/rdi.py:1322-1329 [finalize]: a variable stays if it was ever read *)
Definition was_read (cols : list column) (nm : string) : bool :=
  existsb (fun c => match lookup nm (cvals c) with Some _ => true | None => false end) cols.
(** io/rdi.py:82-89, time.py:13-31: nanoseconds since 1970; [None] is NaT *)
Definition time_of_column (c : column) : option Z :=
  option_map (fun t => Time.epoch2dt64 (inject_Z (epoch (fst t)) + inject_Z (snd t) * (1 # 100))%Q) (ctime c).

Record dataset := Dataset { r_time : list (option Z); r_range : list Q; r_ds : Rotate.ds }.
Definition of_res (r : Rotate.res) : outcome Rotate.ds :=
  match r with Rotate.Ok d => Ret d | Rotate.Err _ _ => Raise "exception in a rotation" end.
(** io/rdi.py:63-130 once the file was read. [userdata]: the declination in the userdata file.
    Lines 71-72 and 130: without a time for the first ensemble there is no dataset in the list of datasets.
    Line 92, io/base.py:125-129 and 250: axis 'dir' has between three and four places, the velocities have four.
    Lines 93-110: frame, beam matrix, orientation matrices; line 113: declination *)
Definition finish (nan : R) (userdata : option R) (cols : list column) (s : st) : outcome dataset :=
  do c0 <- or_raise (hd_error cols) "UnboundLocalError";
  do _ <- or_raise (ctime c0) "IndexError";
  let a := attributes s in
  do model <- cfg_s a "inst_model"; do cs <- cfg_s a "coord_sys"; do angle <- cfg_z a "beam_angle";
  do pattern <- cfg_s a "beam_pattern"; do orient <- cfg_s a "orientation"; do tilts <- cfg_s a "use_pitchroll";
  do magvar <- cfg_q a "magnetic_var_deg"; do nb <- cfg_z a "n_beams"; do nc <- cfg_z a "n_cells";
  do _ <- check (4 <=? nb) "ValueError";
  let data := (if was_read cols "vel" then [("vel", profiles nan (Z.to_nat nc) cols "vel")] else []) ++
              (if was_read cols "vel_bt" then [("vel_bt", profiles nan 1 cols "vel_bt")] else []) in
  let rotated := "vel" :: (if was_read cols "vel_bt" then ["vel_bt"] else []) in
  let headings := map (scalar nan "heading") cols in
  let level := String.eqb cs "ship" && String.eqb tilts "yes" in
  let omat := fun c => Euler.rdi_orientmat (scalar nan "heading" c) (scalar nan "pitch" c) (scalar nan "roll" c) (String.eqb orient "up") level in
  let beams := ["1"; "2"; "3"; "4"] in
  let d := Rotate.Ds ("trdi " ++ model) model cs beams None beams orient
             (Euler.rdi_beam_mat (Linalg.deg2rad (IZR angle)) (String.eqb pattern "convex")) (map omat cols) (Some headings) None false None
             userdata rotated data in
  do d <- of_res (Rotate.set_coords d cs);
  do d <- of_res (RdiPost.set_rdi_declination (Q2R magvar) d);
  Ret (Dataset (map time_of_column cols) (range_coordinate s) d).
(** io/rdi.py:17-130 *)
Definition read_trdi (nan : R) (userdata : option R) (file : bytes) (nens : option Z) : outcome dataset :=
  do '(cols, s) <- read_rdi file nens false false;
  finish nan userdata cols s.
