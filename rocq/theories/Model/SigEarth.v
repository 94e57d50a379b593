(** Model of the end of dolfyn/io/nortek2.py:65-107 [read_signature]: from the pings and variables of a file
    (Model.ReadSig) to the dataset of Model.Rotate with its attributes and orientation matrices, ready for [rotate2].
    Its numbers are reals: the argument [nan] stands for NaN. What is said of a value for every [nan] is said of a value
    that is no NaN and was computed from none. Variables that are never rotated are left out. *)
From Coq Require Import String.
From Coq Require Import ZArith Reals List Bool.
From Verif.Model Require Import Ad2cp Ad2cpIndex SigData ReadSig.
From Verif.Model Require Linalg Rotate Euler.
Import ListNotations.
Open Scope string_scope.
Open Scope list_scope.
Open Scope nat_scope.

(** nortek2.py:473-478: number of beams and axes in the beam words of an id; [None]: no such id, or no pings *)
Definition beam_word (dat : list (Z * dict SigData.var)) (id : Z) : option beams_cy :=
  match find_id dat id with
  | None => None
  | Some d => match collapse (ints d "beam_config") (if zmem id [24; 26]%Z then [0]%Z else []) with
              | Some w => Some (beams_cy_int2dict w 21)
              | None => None
              end
  end.
Definition beams_of (dat : list (Z * dict SigData.var)) (id : Z) : nat :=
  match beam_word dat id with Some w => match n_beams w with Some n => Z.to_nat n | None => 0 end | None => 0 end.
(** nortek2.py:562-564; no axes: KeyError *)
Definition frame_of (c : option axes) : option string :=
  match c with Some XYZ => Some "inst" | Some ENU => Some "earth" | Some Beam => Some "beam" | _ => None end.
Definition has_id (dat : list (Z * dict SigData.var)) (id : Z) : bool := match find_id dat id with Some _ => true | None => false end.
Definition has_key (keys : list string) (k : string) : bool := existsb (String.eqb k) keys.
(** nortek2.py:555-574: the variables that are rotated, with their first dimension *)
Definition rotated (dat : list (Z * dict SigData.var)) (keys : list string) : list (string * nat) :=
  (if has_id dat 21 then [("vel", beams_of dat 21)] else []) ++
  concat (map (fun ky => map (fun k => (k, 3)) (filter (fun k => String.eqb k ky || prefix (ky ++ "_") k) keys)) ["accel"; "angrt"; "mag"]) ++
  (if has_key keys "vel_bt" then [("vel_bt", beams_of dat 23)] else []) ++
  (if has_key keys "vel_avg" then [("vel_avg", beams_of dat 22)] else []).
(** io/base.py:126-135: 'beam' and 'dir' have three or four labels. io/base.py:184-208: 'dirIMU' is there if a variable
    of three rows does not go on 'dir' ('mag' and 'accel' are always there). *)
Definition label_count (dat : list (Z * dict SigData.var)) : nat := Nat.max (Nat.min (beams_of dat (if has_id dat 22 then 22 else 21)%Z) 4) 3.
Definition has_dirIMU (dat : list (Z * dict SigData.var)) : bool := Nat.eqb (label_count dat) 4 || existsb (has_id dat) [22; 24; 28]%Z.
Record attributes := Attributes { a_frame : string; a_orientation : string; a_rotated : list (string * nat); a_labels : nat; a_imu : bool }.
(** nortek2.py:435-577 [_reorg], the attributes; [None] is an exception *)
Definition reorg_attrs (dat : list (Z * dict SigData.var)) : option attributes :=
  match reorg_vars dat tags [] with
  | None => None
  | Some out =>
    match reorg_end dat out, beam_word dat (if has_id dat 21 then 21 else 22)%Z with
    | Some (dv, st), Some w =>
      match frame_of (cy w) with
      | Some f => Some (Attributes f (SigData.orientation st) (rotated dat (map fst dv)) (label_count dat) (has_dirIMU dat))
      | None => None
      end
    | _, _ => None
    end
  end.

Definition number_or (nan : R) (x : num) : R := match SigData.real x with Some r => r | None => nan end.
Definition variable (d : dict SigData.var) (nm : string) : SigData.var := match get d nm with Some v => v | None => [] end.
(** one ping of a variable with [n] rows: for each cell its [n] components *)
Definition cells_of (nan : R) (n : nat) (c : column) : list Linalg.vec :=
  let nc := length c / n in
  map (fun j => map (fun b => number_or nan (nth (b * nc + j) c (Flt None))) (seq 0 n)) (seq 0 nc).
Definition matrix3 (nan : R) (c : column) : Linalg.mat :=
  map (fun i => map (fun j => number_or nan (nth (3 * i + j) c (Flt None))) (seq 0 3)) (seq 0 3).
Definition angle (nan : R) (d : dict SigData.var) (nm : string) (k : nat) : R := number_or nan (nth 0 (nth k (variable d nm) []) (Flt None)).
(** nortek2.py:101-103 *)
Definition orientmats (nan : R) (d : dict SigData.var) : list Linalg.mat :=
  match get d "orientmat" with
  | Some m => map (matrix3 nan) m
  | None => map (fun k => Euler.nortek_euler2orient (angle nan d "heading" k) (angle nan d "pitch" k) (angle nan d "roll" k)) (seq 0 (length (variable d "heading")))
  end.
(** nortek2.py:97-106; [model] is the name in the configuration, [declin] what lines 91-96 find in the userdata file *)
Definition sig_ready (nan : R) (model : string) (declin : option R) (a : attributes) (r : reduced) : Rotate.res :=
  let labels := firstn (a_labels a) ["1"; "2"; "3"; "4"] in
  let d := data_vars r in
  let D := Rotate.Ds (Rotate.lower ("Nortek " ++ model)) (Rotate.lower model) (a_frame a) labels (if a_imu a then Some ["1"; "2"; "3"] else None) labels
             (a_orientation a) (tmat r) (orientmats nan d)
             (Some (map (fun k => angle nan d "heading" k) (seq 0 (length (variable d "heading"))))) None false None None (map fst (a_rotated a))
             (map (fun p => (fst p, Rotate.Var (snd p) (map (cells_of nan (snd p)) (variable d (fst p))))) (a_rotated a)) in
  Rotate.bind (Rotate.set_coords D (a_frame a)) (fun D =>
  match declin with Some u => Rotate.set_declination D u | None => Rotate.Ok D end).
(** nortek2.py:18-107 [read_signature]; [None] and [Some (Err _ _)] are exceptions *)
Definition open_signature (nan : R) (model : string) (declin : option R) (fuel : nat) (fh : filehead) (strings dp rebuild : bool)
    (existing : option (list entry)) (file : Nortek.bytes) (start : nat) (stop : option nat) : option Rotate.res :=
  match read_pings fuel dp rebuild existing file start stop, read_signature fuel fh strings dp rebuild existing file start stop with
  | Pings dual recs, Dataset r =>
    match prepared dual strings recs with
    | Some dat => match reorg_attrs dat with Some a => Some (sig_ready nan model declin a r) | None => None end
    | None => None
    end
  | _, _ => None
  end.
