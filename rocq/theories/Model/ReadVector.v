(** Model of dolfyn/io/nortek.py:18-107 [read_nortek] for a Vector, from the arrays filled by the reading loop
    (Model.NortekFile) to the variables of the dataset. The header has been read: its results are in [vec_cfg].
    Not modelled: user data (a file beside the data, Model.UserData), attributes, the names of dimensions
    (Model.CreateDataset), the orientation matrix computed from heading, pitch and roll (Model.NortekEarth). Floats are
    exact rationals. *)
From Coq Require Import String.
From Coq Require Import ZArith QArith List Bool.
From Verif.Model Require Import Nortek NortekFile NortekGuess NortekData Gaps HandleNan Microstrain Time.
From Verif.Model Require RdiBlocks.
Import ListNotations.
Open Scope Z_scope.

(** config['fs'], config['n_burst'], config['vel_scale_mm'] and config['beam2inst_orientmat'] *)
Record vec_cfg := VecCfg { g_fs : Q; g_burst : nat; g_scale : Q; g_beam2inst : list (list Q) }.

(** nortek_defs.py:65-73 [_empty_array]: what was not written is NaN in an array of floats and 0 in an array of
    integers, which cannot hold NaN *)
Definition floats_of {A} (f : A -> Q) (l : list (option A)) : series := map (option_map f) l.
Definition ints_of {A} (f : A -> Z) (l : list (option A)) : series :=
  map (fun x => Some (match x with Some a => inject_Z (f a) | None => 0%Q end)) l.
Definition decoded {A B} (f : A -> option B) (l : list (option A)) : list (option B) :=
  map (fun x => match x with Some a => f a | None => None end) l.

(** nortek.py:766-785 [sci_vec_data]; the pressure is the quotient of two arrays of integers *)
Definition vec_vars (e : endian) (g : vec_cfg) (l : list (option bytes)) : list nvar :=
  let d := decoded (decode_vec e (g_scale g)) l in
  let comp {A} (z : A) f k (x : vec_sample) := nth k (f x) z in
  [NVar "vel" 2 (map (fun k => floats_of (comp 0%Q v_vel k) d) [0; 1; 2]%nat);
   NVar "amp" 2 (map (fun k => ints_of (comp 0%Z v_amp k) d) [0; 1; 2]%nat);
   NVar "corr" 2 (map (fun k => ints_of (comp 0%Z v_corr k) d) [0; 1; 2]%nat);
   NVar "pressure" 1 [map (fun x => Some (match x with Some a => v_pressure a | None => 0%Q end)) d]].

(** tools/misc.py:222-271 [interpgaps] with times some of which may be missing; cf. [Gaps.interpgaps] *)
Definition line_time_o (t : series) (i j k : nat) (x y : Q) : option Q :=
  match nthq t i, nthq t j, nthq t k with
  | Some ti, Some tj, Some tk => Some ((y - x) * ((tk - ti) / (tj - ti)) + x)%Q
  | _, _, _ => None
  end.
Definition fill_one_o (t : series) (a : series) (i j : nat) : series :=
  if Nat.ltb 1 (j - i) then
    set_range a (i + 1) (map (fun k => line_time_o t i j k (val_or0 (nthq a i)) (val_or0 (nthq a j))) (seq (i + 1) (j - i - 1)))
  else a.
Fixpoint fill_loop_o (t : series) (a : series) (gd : list nat) : series :=
  match gd with
  | i :: ((j :: _) as rest) => fill_loop_o t (fill_one_o t a i j) rest
  | _ => a
  end.
Definition interpgaps_o (t : series) (a : series) : series := fill_loop_o t a (good_idx a).

(** nortek.py:857-892: burst by burst *)
Fixpoint by_burst {A B} (fuel nburst : nat) (f : list A -> list B) (l : list A) : list B :=
  match fuel, l with
  | O, _ | _, [] => []
  | S fuel, _ => f (firstn nburst l) ++ by_burst fuel nburst f (skipn nburst l)
  end.
(** nortek.py:845-898 [sci_vec_sysdata]; rd_time gives whole seconds *)
Definition sys_times (e : endian) (l : list (option bytes)) : series :=
  decoded (fun b => match decode_sys e b with
                    | Some d => option_map (fun dt => inject_Z (RdiBlocks.epoch dt)) (s_date d)
                    | None => None end) l.
Definition sys_vars (e : endian) (g : vec_cfg) (l : list (option bytes)) (t : series) : list nvar :=
  let d := decoded (decode_sys e) l in
  let nburst := match g_burst g with O => length l | n => n end in
  let smooth f := interpgaps_o t (floats_of f d) in
  [NVar "batt" 1 [smooth s_batt]; NVar "c_sound" 1 [smooth s_c_sound]; NVar "heading" 1 [smooth s_heading];
   NVar "pitch" 1 [smooth s_pitch]; NVar "roll" 1 [smooth s_roll]; NVar "temp" 1 [smooth s_temp];
   NVar "error" 1 [ints_of s_error d]; NVar "status" 1 [ints_of s_status d];
   NVar "orientation_down" 1 [map (fun b : bool => Some (if b then 1 else 0)%Q)
     (by_burst (length l / nburst + 1) nburst (fun b => orientation_down (map (option_map s_status) b)) d)]].

(** nortek.py:977-1003: 32-bit floats; an infinite one is taken for NaN *)
Definition dword (e : endian) (b0 b1 b2 b3 : Z) : Z :=
  match e with LE => word LE b0 b1 + 65536 * word LE b2 b3 | BE => 65536 * word BE b0 b1 + word BE b2 b3 end.
Definition float_of (b : Z) : option Q :=
  let e := (b / 2 ^ 23) mod 256 in
  let m := b mod 2 ^ 23 in
  let s := if (b / 2 ^ 31) mod 2 =? 1 then (-1)%Q else 1%Q in
  if e =? 255 then None
  else if e =? 0 then Some (s * inject_Z m * Qpower 2 (-149))%Q
  else Some (s * inject_Z (2 ^ 23 + m) * Qpower 2 (e - 150))%Q.
Fixpoint floats (e : endian) (bs : bytes) : list (option Q) :=
  match bs with
  | b0 :: b1 :: b2 :: b3 :: bs' => float_of (dword e b0 b1 b2 b3) :: floats e bs'
  | _ => []
  end.
Record imu_sample := Imu { i_accel : list (option Q); i_angrt : list (option Q); i_mag : list (option Q);
  i_omat : list (list (option Q)) }.
Definition decode_imu (e : endian) (m : Z * bytes) : imu_sample :=
  let three := fun k => firstn 3 (skipn k (floats e (snd m))) in
  if fst m =? 195 then Imu (three 3%nat) (three 0%nat) [] [three 6%nat; three 9%nat; three 12%nat]
  else if fst m =? 204 then Imu (three 0%nat) (three 3%nat) (three 6%nat) [three 9%nat; three 12%nat; three 15%nat]
  else Imu (three 3%nat) (three 0%nat) (three 6%nat) [].
(** nortek.py:1011-1036 [sci_microstrain], cf. Model.Microstrain *)
Definition oneg : option Q -> option Q := option_map Qopp.
Definition oscale (q : Q) : option Q -> option Q := option_map (Qmult q).
Definition sci_imu (fs : Q) (id : Z) (m : imu_sample) : imu_sample :=
  let k := if (id =? 195) || (id =? 211) then fs else 1%Q in
  let enu := fun row => match row with [n; e; d] => [e; n; oneg d] | _ => row end in
  Imu (map (fun x => oscale k (oscale (980665 # 100000) x)) (remap oneg (i_accel m))) (map (oscale k) (remap oneg (i_angrt m)))
      (remap oneg (i_mag m)) (map enu (remap (map oneg) (i_omat m))).
(** nortek.py:930-975: the variables there are, by the identifier of the first message; all messages of a file are
    taken to have the same *)
Fixpoint first_of {A} (l : list (option A)) : option A :=
  match l with [] => None | Some x :: _ => Some x | None :: l' => first_of l' end.
Definition imu_vars (e : endian) (g : vec_cfg) (l : list (option (Z * bytes))) : list nvar :=
  match first_of l with
  | None => []
  | Some (id, _) =>
    let d := map (option_map (fun m => sci_imu (g_fs g) id (decode_imu e m))) l in
    let row := fun f k => map (fun x => match x with Some m => nth k (f m) None | None => None end) d in
    let rows := fun name f => NVar name 2 (map (row f) [0; 1; 2]%nat) in
    let accel := rows "accel"%string i_accel in
    let angrt := rows "angrt"%string i_angrt in
    let mag := rows "mag"%string i_mag in
    let omat := NVar "orientmat" 3 (map (row (fun m => concat (i_omat m))) (seq 0 9)) in
    if id =? 195 then [accel; angrt; omat] else if id =? 204 then [accel; angrt; mag; omat] else [angrt; accel; mag]
  end.

(** nortek.py:55-57: the arrays of a file with system data; [None]: there is no 'time' to look at (io/base.py:84) *)
Definition vector_data (g : vec_cfg) (e : endian) (s : state) : option ndata :=
  let mat := NVar "beam2inst_orientmat" 2 (map (map Some) (g_beam2inst g)) in
  let vec := if existsb is_some (data s) then vec_vars e g (data s) else [] in
  if existsb is_some (sysd s) then
    let t := sample_times (g_fs g) (g_burst g) (sys_times e (sysd s)) in
    Some (NData t (mat :: vec ++ sys_vars e g (sysd s) t ++ imu_vars e g (imus s)))
  else None.

(** nortek.py:62-77: zero times count as missing; the missing ones are filled, and the times become dates *)
Definition missing_zero (x : option Q) : option Q := match x with Some q => if Qeq_bool q 0 then None else x | None => None end.
Definition dated_times (fs : Q) (t : series) : option (list Z) :=
  let t := map missing_zero t in
  option_map (map (fun x => epoch2dt64 (val_or0 x)))
    (if existsb (fun x => negb (is_some x)) t then fill_time_gaps t fs else Some t).
(** times in nanoseconds since 1970, and the variables *)
Record dataset := Dataset { d_time : list Z; d_vars : list nvar }.
(** nortek.py:18-107 [read_nortek] once the file was read *)
Definition finish (g : vec_cfg) (e : endian) (s : state) : option dataset :=
  match vector_data g e s with
  | None => None
  | Some nd => match handle_nan nd with
               | None => None
               | Some nd' => option_map (fun t => Dataset t (nvars nd')) (dated_times (g_fs g) (ntime nd'))
               end
  end.
(** [None] is an exception *)
Definition read_dataset (g : vec_cfg) (r : reader) (file : bytes) (start n_samp_guess : nat) : option dataset :=
  match readfile r file start n_samp_guess with Some s => finish g (rendian r) s | None => None end.
(** the whole, with the room that [init_ADV] makes: nortek.py:303-306 *)
Definition read_nortek_vector (g : vec_cfg) (r : reader) (file : bytes) (start : nat) : option dataset :=
  match read_vector r file start (Z.to_nat (Qround.Qfloor (g_fs g))) with Done s => finish g (rendian r) s | _ => None end.
