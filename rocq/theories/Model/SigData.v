(** Model of the conversion and the reorganisation of Signature data: dolfyn/io/nortek2.py:76-98, 392-722,
    dolfyn/io/nortek2_defs.py:12-19, 143-165 and the conversions of its tables, dolfyn/io/nortek2_lib.py:10-33, 76-94.
    Floats are idealised as real numbers; units, names and other metadata, warnings and the configuration
    attributes that no other step uses are not modelled. *)
From Coq Require Import String Ascii.
From Coq Require Import ZArith QArith Reals List Bool.
From Verif.Model Require Nortek Time Gaps RdiBlocks Ad2cp Linalg.
From Verif.Model Require Import Reduce.
Import Ad2cp.
Import ListNotations.
Open Scope Z_scope.

(** ** Arrays *)
(** an element of an integer or of a float array; [None] is NaN (the infinities are not kept apart) *)
Inductive num := Int (n : Z) | Flt (x : option R).
Definition real (x : num) : option R := match x with Int n => Some (IZR n) | Flt x => x end.
(** one ping of a variable, its elements row by row; a variable: its pings *)
Definition column := list num.
Definition var := list column.

(** Python dictionaries, in the order of insertion *)
Definition dict (A : Type) := list (string * A).
Fixpoint get {A} (d : dict A) (k : string) : option A :=
  match d with [] => None | (k', v) :: d' => if String.eqb k' k then Some v else get d' k end.
Fixpoint set {A} (d : dict A) (k : string) (v : A) : dict A :=
  match d with [] => [(k, v)] | (k', v') :: d' => if String.eqb k' k then (k, v) :: d' else (k', v') :: set d' k v end.
Definition pop {A} (d : dict A) (k : string) : dict A := filter (fun p => negb (String.eqb (fst p) k)) d.

(** ** nortek2_defs.py: what is read *)
(** the number a 32-bit float denotes *)
Definition f32 (b : Z) : option R :=
  let e := (b / 2 ^ 23) mod 256 in
  let m := b mod 2 ^ 23 in
  let s := if (b / 2 ^ 31) mod 2 =? 1 then (-1)%R else 1%R in
  if e =? 255 then None
  else if e =? 0 then Some (s * IZR m * powerRZ 2 (-149))%R
  else Some (s * IZR (2 ^ 23 + m) * powerRZ 2 (e - 150))%R.
Definition number (k : kind) (v : Z) : num := match k with F32 => Flt (f32 v) | _ => Int v end.
(** nortek2_defs.py:12-19 [_nans], 65-72 [init_data]: a column in which nothing was stored *)
Definition blank (f : field) : column := repeat (match fkind f with F32 => Flt None | _ => Int 0 end) (fN f).
(** nortek2_defs.py:65-78 [init_data], [read_into]: the variables of one id; [None] is a column in which
    nothing was stored.  The array of the samples of raw altimeter pings is unsigned (nortek2.py:321-324) while
    they are read as signed numbers. *)
Definition stored (id : Z) (f : field) (v : Z) : num :=
  if ((id =? 26) || (id =? 31)) && String.eqb (fname f) "samp_alt" then Int (v mod 65536) else number (fkind f) v.
Definition table (id : Z) (l : layout) (pings : list (option (list (list Z)))) : dict var :=
  map (fun p => let f := snd p in
         (fname f, map (fun c => match c with Some vals => map (stored id f) (nth (fst p) vals []) | None => blank f end) pings))
      (combine (seq 0 (length l)) l).

(** ** nortek2_defs.py:143-165 [_LinFunc] *)
Definition linfunc (sc off : R) (x : num) : num := Flt (option_map (fun r => ((r + off) * sc)%R) (real x)).
(** the fourth column of the tables, nortek2_defs.py:178-277 and 280-368: scale and offset; [None]: no
    conversion.  The conversions to float32 without scale are kept: 1, 0. *)
Definition grav : R := (981 / 100)%R.
Definition sci_burst : list (string * (R * R)) :=
  [("c_sound", (1 / 10, 0)); ("temp", (1 / 100, 0)); ("pressure", (1 / 1000, 0)); ("heading", (1 / 100, 0)); ("pitch", (1 / 100, 0));
   ("roll", (1 / 100, 0)); ("cell_size", (1 / 1000, 0)); ("blank_dist", (1 / 100, 0)); ("temp_press", (2 / 10, -20));
   ("batt", (1 / 10, 0)); ("mag", (1 / 10, 0)); ("accel", (1 / 16384 * grav, 0)); ("ambig_vel", (1 / 1000, 0)); ("power_level_dB", (1, 0));
   ("temp_clock", (1 / 100, 0)); ("amp", (5 / 10, 0)); ("le_dist_alt", (1, 0)); ("le_quality_alt", (1 / 100, 0)); ("ast_dist_alt", (1, 0));
   ("ast_quality_alt", (1 / 100, 0)); ("ast_offset_time_alt", (1 / 10000, 0)); ("dsamp_alt", (1 / 10000, 0)); ("angrt", (PI / 180, 0));
   ("pitch_std", (1 / 100, 0)); ("roll_std", (1 / 100, 0)); ("heading_std", (1 / 100, 0)); ("press_std", (1 / 10, 0)); ("dist", (1 / 1000, 0));
   ("echo", (1 / 100, 0))]%string%R.
(** the bottom-track table has no conversion for 'mag' (line 250) and no 'temp_press'; the echosounder has its
    own blanking distance (line 298) *)
Definition sci_func (id : Z) (nm : string) : option (R * R) :=
  if (id =? 23) && String.eqb nm "mag" then None
  else if (id =? 28) && String.eqb nm "blank_dist" then Some (1 / 1000, 0)%R
  else get sci_burst nm.
(** nortek2_defs.py:112-117 [sci_data] *)
Definition sci_one (id : Z) (p : string * var) : string * var :=
  (fst p, match sci_func id (fst p) with Some (sc, off) => map (map (linfunc sc off)) (snd p) | None => snd p end).
(** nortek2.py:392-401 [sci_data], one id: velocities times ten to the power of the scale of their ping *)
Definition vel_scaled (d : dict var) : dict var :=
  match get d "vel", get d "vel_scale" with
  | Some v, Some s =>
    set d "vel" (map (fun p => map (fun x => match real x, real (nth 0 (snd p) (Int 0)) with
                                             | Some r, Some k => Flt (Some (r * Rpower 10 k)%R)
                                             | _, _ => Flt None end) (fst p)) (combine v s))
  | _, _ => d
  end.
Definition sci_data (id : Z) (d : dict var) : dict var := vel_scaled (map (sci_one id) d).

(** ** Times *)
(** nortek2_lib.py:76-94 [_calc_time], one ping: the year with 1900 added, the month counted from zero.
    [Some 0]: all the rest is zero.  [None]: NaN, for a date that datetime() refuses. *)
Definition calc_time1 (y mo d h mi s u : Z) : option Q :=
  if forallb (Z.eqb 0) [mo; d; h; mi; s; u] then Some (inject_Z 0)
  else
    let dt := Nortek.Date y (mo + 1) d h mi s in
    if Nortek.valid_date dt && (0 <=? u) && (u <? 1000000)
    then Some (inject_Z (RdiBlocks.epoch dt) + inject_Z u / inject_Z 1000000)%Q else None.
Definition first_int (c : column) : Z := match c with Int n :: _ => n | _ => 0 end.
Definition ints (d : dict var) (k : string) : list Z := match get d k with Some v => map first_int v | None => [] end.
(** nortek2.py:469-476 *)
Definition calc_time (d : dict var) : list (option Q) :=
  map (fun k => let f := fun nm => nth k (ints d nm) 0 in
         calc_time1 (f "year" + 1900)%string (f "month")%string (f "day")%string (f "hour")%string (f "minute")%string (f "second")%string
           (f "usec100" * 100)%string)
      (seq 0 (length (ints d "year"))).
(** nortek2.py:78-89: zero is NaN; gaps are filled if there are any; [None] is an exception *)
Definition times_out (fs : Q) (t : list (option Q)) : option (list (option Q)) :=
  let t' := map (fun x => match x with Some q => if Qeq_bool q 0 then None else Some q | None => None end) t in
  if existsb (fun x => match x with None => true | Some _ => false end) t' then Gaps.fill_time_gaps t' fs else Some t'.

(** ** nortek2.py:435-555 [_reorg], the variables *)
Definition tags : list (Z * string) :=
  [(21, ""); (22, "_avg"); (23, "_bt"); (24, "_b5"); (26, "raw"); (28, "_echo"); (31, "raw_avg")]%string.
Definition always : list string :=
  ["c_sound"; "temp"; "pressure"; "heading"; "pitch"; "roll"; "mag"; "accel"; "batt"; "temp_clock"; "error"; "status"; "ensemble"]%string.
Definition if_there : list string :=
  ["vel"; "amp"; "corr"; "prcnt_gd"; "echo"; "dist"; "orientmat"; "angrt"; "quaternions"; "pressure_alt"; "le_dist_alt"; "le_quality_alt";
   "status_alt"; "ast_dist_alt"; "ast_quality_alt"; "ast_offset_time_alt"; "nsamp_alt"; "dsamp_alt"; "samp_alt"; "status0"; "fom"; "temp_press";
   "press_std"; "pitch_std"; "roll_std"; "heading_std"; "xmit_energy"]%string.
(** lines 488-497: a missing variable is a KeyError; the ensembles are counted from one *)
Definition plus_one (v : var) : var := map (map (fun x => match x with Int n => Int (n + 1) | y => y end)) v.
Fixpoint copy_always (tag : string) (d : dict var) (names : list string) (out : dict var) : option (dict var) :=
  match names with
  | [] => Some out
  | nm :: names' =>
    match get d nm with
    | None => None
    | Some v => copy_always tag d names' (set out (nm ++ tag) (if String.eqb nm "ensemble" then plus_one v else v))
    end
  end.
(** lines 499-508 *)
Definition copy_there (tag : string) (d : dict var) (names : list string) (out : dict var) : dict var :=
  fold_left (fun out nm => match get d nm with Some v => set out (nm ++ tag)%string v | None => out end) names out.
Definition find_id (dat : list (Z * dict var)) (id : Z) : option (dict var) :=
  match find (fun p => fst p =? id) dat with Some p => Some (snd p) | None => None end.
Fixpoint reorg_vars (dat : list (Z * dict var)) (ts : list (Z * string)) (out : dict var) : option (dict var) :=
  match ts with
  | [] => Some out
  | (id, tag) :: ts' =>
    match find_id dat id with
    | None => reorg_vars dat ts' out
    | Some d =>
      match copy_always tag d always out with
      | None => None
      | Some out' => reorg_vars dat ts' (copy_there tag d if_there out')
      end
    end
  end.
(** lines 469-476: the times; line 410: those of the raw altimeter pings get a new name and go to the end *)
Definition time_names : list (Z * string) :=
  [(21, "time"); (22, "time_avg"); (23, "time_bt"); (24, "time_b5"); (28, "time_echo"); (26, "time_altraw"); (31, "time_altraw_avg")]%string.
Definition reorg_times (dat : list (Z * dict var)) : dict (list (option Q)) :=
  concat (map (fun p => match find_id dat (fst p) with Some d => [(snd p, calc_time d)] | None => [] end) time_names).

Definition endswith (s suf : string) : bool :=
  (String.length suf <=? String.length s)%nat &&
  String.eqb (substring (String.length s - String.length suf) (String.length suf) s) suf.
(** nortek2.py:404-432 [_altraw_reorg], the variables; [None] is a KeyError *)
Definition altraw_reorg (tag : string) (out : dict var) : option (dict var) :=
  let out1 := filter (fun p => negb (endswith (fst p) ("raw" ++ tag) && negb (endswith (fst p) ("_altraw" ++ tag)))%string) out in
  match get out1 ("samp_altraw" ++ tag)%string with
  | None => None
  | Some s =>
    let out2 := set out1 ("samp_altraw" ++ tag)%string (map (map (linfunc (1 / 2 ^ 8)%R 0%R)) s) in
    match get out2 ("status_altraw" ++ tag)%string, get out2 ("status_alt" ++ tag)%string with
    | Some _, Some st =>
      (* lines 417-425, nortek2_lib.py:421-432: bits 7-9 of the status are the power level; only four of its values have a name *)
      match collapse (map (fun c => bits (first_int c) 7 10) st) [] with
      | Some pw => if pw <=? 3 then Some (pop (pop out2 ("status_altraw" ++ tag)%string) ("status_alt" ++ tag)%string) else None
      | None => None
      end
    | _, _ => None
    end
  end.
Definition contains (sub s : string) : bool := match index 0 sub s with Some _ => true | None => false end.
(** lines 517-542: the names of the codes in the status word of the first record that has a 'status0', in the
    order of [tags]; a code without a name is a KeyError *)
Definition name_of (names : list (Z * string)) (codes : list Z) : option string :=
  match collapse codes [] with
  | Some c => match find (fun p => fst p =? c) names with Some p => Some (snd p) | None => None end
  | None => None
  end.
Definition wake : list (Z * string) := [(0, "bad power"); (1, "power on"); (2, "break"); (3, "clock")]%string.
Definition nortek_orient : list (Z * string) :=
  [(0, "horizontal"); (1, "horizontal"); (2, "horizontal"); (3, "horizontal"); (4, "up"); (5, "down"); (7, "AHRS")]%string.
Definition orient_status : list (Z * string) := [(0, "fixed"); (1, "auto_UD"); (3, "AHRS-3D")]%string.
Record status_attrs := Status { wakeup_state : string; orientation : string; orient_detection : string }.
Definition decode_status (status : list Z) : option status_attrs :=
  match name_of wake (map (fun v => bits v 28 32) status), name_of nortek_orient (map (fun v => bits v 25 28) status),
        name_of orient_status (map (fun v => bits v 22 25) status) with
  | Some w, Some o, Some d => Some (Status w o d)
  | _, _, _ => None
  end.
Definition status_of (out : dict var) : option status_attrs :=
  match find (fun p => contains "status0" (fst p)) out with
  | None => None
  | Some p =>
    (* 'status0' with its tag; the tags have no zero *)
    match get out ("status" ++ substring 7 (String.length (fst p) - 7) (fst p))%string with
    | Some v => decode_status (map first_int v)
    | None => None
    end
  end.
(** lines 511-550: raw altimeter pings, the status, and the 'status0' variables are removed *)
Definition reorg_end (dat : list (Z * dict var)) (out : dict var) : option (dict var * status_attrs) :=
  match (match find_id dat 26 with Some _ => altraw_reorg "" out | None => Some out end) with
  | None => None
  | Some out1 =>
    match (match find_id dat 31 with Some _ => altraw_reorg "_avg" out1 | None => Some out1 end) with
    | None => None
    | Some out2 =>
      match status_of out2 with
      | None => None
      | Some st => Some (filter (fun p => negb (contains "status0" (fst p))) out2, st)
      end
    end
  end.

(** ** nortek2.py:572-583 [_clean_dp_skips] *)
(** the columns of one id whose version is not zero *)
Definition clean_one (d : dict var) : option (dict var) :=
  match get d "ver" with
  | None => None
  | Some ver =>
    let keep := map (fun c => negb (first_int c =? 0)) ver in
    Some (map (fun p => (fst p, map fst (filter snd (combine (snd p) keep)))) d)
  end.
(** [strings]: whether string records (0xa0) were read: their dictionary has no 'ver' *)
Fixpoint clean_all (dat : list (Z * dict var)) : option (list (Z * dict var)) :=
  match dat with
  | [] => Some []
  | (id, d) :: dat' => match clean_one d, clean_all dat' with Some d', Some r => Some ((id, d') :: r) | _, _ => None end
  end.
Definition clean_dp_skips (strings : bool) (dat : list (Z * dict var)) : option (list (Z * dict var)) :=
  if strings then None else clean_all dat.

(** ** nortek2.py:586-665 [_reduce] *)
(** what is used of the configuration at the start of the file *)
Record filehead := Filehead {
  burst_SR : Q;          (* GETBURST,SR: sampling rate, in Hz *)
  plan_MIAVG : Q;        (* GETPLAN,MIAVG: time between two averages, in seconds *)
  XFBURST : Linalg.mat; XFAVG : Linalg.mat }.
(** nortek2_lib.py:10-33: averaging of the plain variables and of the angles; [None]: arrays that do not fit
    together (numpy would also accept a single ping) *)
Definition pair_num (f : R -> R -> R) (x y : num) : num :=
  Flt (match real x, real y with Some a, Some b => Some (f a b) | _, _ => None end).
Definition average (f : R -> R -> R) (d : dict var) (ky0 ky1 : string) : option (dict var) :=
  match get d ky1 with
  | None => Some d
  | Some b =>
    match get d ky0 with
    | None => Some (set (pop d ky1) ky0 b)
    | Some a =>
      if Nat.eqb (length a) (length b) then Some (set (pop d ky1) ky0 (map (fun p => map (fun q => pair_num f (fst q) (snd q)) (combine (fst p) (snd p))) (combine a b)))
      else None
    end
  end.
Fixpoint averages (f : R -> R -> R) (names : list string) (d : dict var) : option (dict var) :=
  match names with
  | [] => Some d
  | nm :: names' => match average f d nm (nm ++ "_b5")%string with Some d' => averages f names' d' | None => None end
  end.
Definition plain_names : list string := ["c_sound"; "temp"; "pressure"; "temp_press"; "temp_clock"; "batt"]%string.
Definition angle_names : list string := ["heading"; "pitch"; "roll"]%string.
(** line 646: [np.rollaxis(m, 1)] of an array of 3 x 3 x time *)
Definition swap_axes (c : column) : column := map (fun k => nth (3 * (k mod 3) + k / 3)%nat c (Flt None)) (seq 0 9).
Record reduced := Reduced { data_vars : dict var; times : dict (list (option Q)); fs : Q; has_imu : bool; tmat : Linalg.mat }.
(** [None] is an exception: 'orientmat_avg' missing, or neither 'vel' nor 'vel_avg' there (tmat unbound) *)
Definition reduce (fh : filehead) (dv : dict var) (dc : dict (list (option Q))) : option reduced :=
  match averages (fun x y => (x + y) / 2)%R plain_names dv with
  | None => None
  | Some dv =>
    match averages angle_mean angle_names dv with
    | None => None
    | Some dv =>
      let rate := match get dv "vel" with Some _ => Some (burst_SR fh, XFBURST fh) | None => None end in
      let step := match get dv "vel_avg" with
        | None => Some (dv, rate)
        | Some _ =>
          match get dv "orientmat" with
          | Some _ => Some (dv, Some (plan_MIAVG fh, XFAVG fh))
          | None => match get dv "orientmat_avg" with
                    | Some m => Some (set (pop dv "orientmat_avg") "orientmat" m, Some (plan_MIAVG fh, XFAVG fh))
                    | None => None
                    end
          end
        end in
      match step with
      | Some (dv, Some (f, tm)) =>
        let dv := match get dv "echo_echo" with Some e => set (pop dv "echo_echo") "echo" e | None => dv end in
        let '(dv, imu) := match get dv "orientmat" with Some m => (set dv "orientmat" (map swap_axes m), true) | None => (dv, false) end in
        let dc := match get dc "time" with
                  | Some _ => dc
                  | None => match rev dc with (_, t) :: _ => dc ++ [("time"%string, t)] | [] => dc end
                  end in
        Some (Reduced dv dc f imu tm)
      | _ => None
      end
    end
  end.

(** ** nortek2.py:68-89: from the pings to the variables and times *)
(** nortek2.py:243-251: the ensembles are those from the start of the file; for raw altimeter pings, whose ensembles
    are found while reading, the number of the ping stands for it *)
Definition record_of (p : Z * layout * list (option (list (list Z)))) : Z * dict var :=
  let '(id, l, pings) := p in
  (id, sci_data id (set (table id l pings) "ensemble" (map (fun k => [Int (Z.of_nat k)]) (seq 0 (length pings))))).
Definition prepared (dual strings : bool) (recs : list (Z * layout * list (option (list (list Z))))) : option (list (Z * dict var)) :=
  let dat := map record_of recs in
  if dual then clean_dp_skips strings dat else Some dat.
Definition signature (fh : filehead) (dual strings : bool) (recs : list (Z * layout * list (option (list (list Z))))) : option reduced :=
  match prepared dual strings recs with
  | None => None
  | Some dat =>
    match reorg_vars dat tags [] with
    | None => None
    | Some out => match reorg_end dat out with None => None | Some (dv, _) => reduce fh dv (reorg_times dat) end
    end
  end.

(** ** nortek2.py:668-722 [split_dp_datasets] *)
(** [s.split('_')[-1]] *)
Fixpoint last_part (acc s : string) : string :=
  match s with
  | EmptyString => acc
  | String c s' => if Ascii.eqb c "_" then last_part "" s' else last_part (acc ++ String c "") s'
  end.
(** the time axis of a variable of a Signature file, io/base.py:118, 140-236 *)
Definition time_axis (key : string) : string :=
  if contains "_altraw_avg" key then "time_altraw_avg"%string
  else if existsb (fun t => contains t key) ["_avg"; "_b5"; "_echo"; "_bt"; "_gps"; "_altraw"; "_sl"]%string then ("time_" ++ last_part "" key)%string
  else if String.eqb key "echo" then "time_echo"%string else "time"%string.
Definition other_times (ts : dict nat) : option (list string) :=
  match get ts "time" with
  | None => None
  | Some n => Some (map fst (filter (fun p => negb (Nat.eqb (snd p) n) && negb (endswith (fst p) "altraw")) ts))
  end.
(** what is left out of the first dataset and put into the second one: the variables on a time axis with
    another number of pings; the name of the orientation matrix of the second; [None] is an exception: no such
    time axis, or no such matrix.  The attributes are not modelled. *)
Definition split_dp (ts : dict nat) (dv : dict var) : option (dict var * dict var) :=
  match other_times ts with
  | Some ((t0 :: _) as other) =>
    let mine := fun p : string * var => existsb (String.eqb (time_axis (fst p))) other in
    let dv2 := filter mine dv in
    let om := ("orientmat_" ++ last_part "" t0)%string in
    match get dv2 om with
    | Some m => Some (filter (fun p => negb (mine p)) dv, map (fun p => (if String.eqb (fst p) om then "orientmat"%string else fst p, snd p)) dv2)
    | None => None
    end
  | _ => None
  end.
