(** Model of dolfyn/io/nortek.py:18-107 [read_nortek] for an AWAC, from the bytes of a file whose header has been read to
    the variables of the dataset. Not modelled: user data (Model.UserData), attributes, the ranges of the cells
    (Model.Reduce), the names of dimensions (Model.CreateDataset), the orientation matrix computed from heading, pitch and
    roll (Model.NortekEarth), AnaIn1 in the group 'sys'. Floats are exact rationals. *)
From Coq Require Import String.
From Coq Require Import ZArith QArith List Bool.
From Verif.Model Require Import Nortek NortekFile NortekGuess NortekData HandleNan Gaps ReadVector.
From Verif.Model Require RdiBlocks.
Import ListNotations.
Open Scope Z_scope.

(** nortek.py:1054-1075, nortek_defs.py:319-340: 'vel' and 'amp' have three beams, of which the first [beams] are
    written; one line for a beam and a cell *)
Definition cells (bins : nat) (f : nat -> nat -> series) : list series :=
  flat_map (fun k => map (f k) (seq 0 bins)) [0; 1; 2]%nat.
Definition vel_cell (e : endian) (beams bins k j : nat) (byts : bytes) : option Q :=
  if Nat.ltb k beams then nth_error (awac_vel e beams bins byts k) j else None.
Definition amp_cell (beams bins k j : nat) (byts : bytes) : Z :=
  if Nat.ltb k beams then nth j (awac_amp beams bins byts k) 0 else 0.
(** nortek.py:1054-1077 [read_awac_profile], 1079-1081 [sci_awac_profile], nortek_defs.py:237-340. 'status' is an array
    of floats, 'error' and 'amp' are arrays of integers *)
Definition awac_vars (e : endian) (beams bins : nat) (l : list (option bytes)) : list nvar :=
  let d := decoded (decode_awac e) l in
  [NVar "error" 1 [ints_of a_error d]; NVar "batt" 1 [floats_of a_batt d]; NVar "c_sound" 1 [floats_of a_c_sound d];
   NVar "heading" 1 [floats_of a_heading d]; NVar "pitch" 1 [floats_of a_pitch d]; NVar "roll" 1 [floats_of a_roll d];
   NVar "pressure" 1 [floats_of a_pressure d]; NVar "status" 1 [floats_of (fun x => inject_Z (a_status x)) d];
   NVar "temp" 1 [floats_of a_temp d];
   NVar "vel" 3 (cells bins (fun k j => decoded (vel_cell e beams bins k j) l));
   NVar "amp" 3 (cells bins (fun k j => ints_of (amp_cell beams bins k j) l))].
(** nortek.py:1053: whole seconds; what was not written is NaN *)
Definition awac_times (l : list (option bytes)) : series :=
  decoded (fun b => option_map (fun dt => inject_Z (RdiBlocks.epoch dt)) (rd_time (skipn 2 b))) l.

(** nortek.py:55-77; [None] is an exception: no profile, and then no 'time', or more beams than there are lines for *)
Definition finish_awac (g : vec_cfg) (r : reader) (s : state) : option dataset :=
  if negb (existsb is_some (data s)) || Nat.ltb 3 (rbeams r) then None
  else
    let mat := NVar "beam2inst_orientmat" 2 (map (map Some) (g_beam2inst g)) in
    match handle_nan (NData (awac_times (data s)) (mat :: awac_vars (rendian r) (rbeams r) (rbins r) (data s))) with
    | None => None
    | Some nd => option_map (fun t => Dataset t (nvars nd)) (dated_times (g_fs g) (ntime nd))
    end.
(** the whole, with the room that [init_AWAC] makes: nortek.py:325-330 *)
Definition read_nortek_awac (g : vec_cfg) (r : reader) (file : bytes) (start : nat) : option dataset :=
  match read_with (guess_awac r file start) r file start with Done s => finish_awac g r s | _ => None end.
