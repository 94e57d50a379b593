(** Model of the block readers of dolfyn/io/rdi.py and dolfyn/io/rdi_defs.py (TRDI files).
    Numbers are exact rationals, [None] is NaN; arrays of an ensemble are flattened, cell by cell and beam by
    beam; [n_avg] is 1, its value in [read_rdi]. Logging is left out. Numbers are not rounded to the type of the
    array that takes them, except the 64-bit floats of the WinRiver2 blocks, stored as 32-bit floats. *)
From Coq Require Import String.
From Coq Require Import ZArith QArith List Bool.
From Verif.Model Require Import Nortek.
From Verif.Model Require Ad2cp.
Import ListNotations.
Open Scope string_scope.
Open Scope list_scope.
Open Scope Z_scope.

(** the value of a call, or an exception *)
Inductive outcome (A : Type) := Ret (a : A) | Raise (why : string).
Arguments Ret {A}. Arguments Raise {A}.
Definition bind {A B} (x : outcome A) (f : A -> outcome B) : outcome B :=
  match x with Ret a => f a | Raise w => Raise w end.
Notation "'do' x <- e ; f" := (bind e (fun x => f)) (at level 200, x name, e at level 100, f at level 200).
Notation "'do' ' x <- e ; f" := (bind e (fun x => f)) (at level 200, x strict pattern, e at level 100, f at level 200).
Definition or_raise {A} (o : option A) (why : string) : outcome A :=
  match o with Some a => Ret a | None => Raise why end.
Definition check (b : bool) (why : string) : outcome unit := if b then Ret tt else Raise why.

Fixpoint lookup {A} (nm : string) (l : list (string * A)) : option A :=
  match l with [] => None | (x, v) :: l' => if String.eqb x nm then Some v else lookup nm l' end.
Definition mem (nm : string) (l : list string) : bool := existsb (String.eqb nm) l.

(** ** Reading: rdi_lib.py:44-126 [bin_reader] *)
Definition len (file : bytes) : Z := Z.of_nat (length file).
(** f.read(n) at position p: at most n bytes *)
Definition f_read (file : bytes) (p n : Z) : bytes := firstn (Z.to_nat n) (skipn (Z.to_nat p) file).
(** rdi_lib.py:80-89 [read] followed by a use that fails on None: TypeError at the end of the file,
    struct.error when there are too few bytes *)
Definition read (file : bytes) (p : Z) (k : Ad2cp.kind) (n : nat) : outcome (list Z) :=
  let want := (n * Ad2cp.ksize k)%nat in
  let val := f_read file p (Z.of_nat want) in
  match val with
  | [] => Raise "TypeError"
  | _ => if Nat.eqb (length val) want then Ret (Ad2cp.values k n val) else Raise "struct.error"
  end.
(** rdi_lib.py:65-66 [seek] relative to the position *)
Definition seek (p d : Z) : outcome Z := if p + d <? 0 then Raise "OSError" else Ret (p + d).

(** the reads of one function, in order: [Rd] with the name of the variable they are assigned to *)
Inductive item := Rd (nm : string) (k : Ad2cp.kind) (n : nat) | Skip (d : Z).
Fixpoint parse (file : bytes) (l : list item) (p : Z) : outcome (list (string * list Z) * Z) :=
  match l with
  | [] => Ret ([], p)
  | Rd nm k n :: l' =>
    do v <- read file p k n;
    do '(raw, q) <- parse file l' (p + Z.of_nat (n * Ad2cp.ksize k));
    Ret ((nm, v) :: raw, q)
  | Skip d :: l' => do q <- seek p d; parse file l' q
  end.
(** a value read: the whole array, and a number *)
Definition raws (raw : list (string * list Z)) (nm : string) : list Z :=
  match lookup nm raw with Some v => v | None => [] end.
Definition raw1 (raw : list (string * list Z)) (nm : string) : Z := hd 0 (raws raw nm).

(** ** Data: rdi_defs.py *)
(** rdi_defs.py:4-36 [adcp_type], with the default of io/rdi.py:746-747, in lower case (only used so) *)
Definition other_types : list (Z * string) :=
  [(6, "navigator"); (10, "rio grande"); (11, "h-adcp"); (16, "workhorse"); (19, "navigator"); (28, "channelmaster"); (31, "streampro");
   (34, "explorer"); (37, "navigator"); (41, "dvs"); (43, "workhorse"); (44, "riverray"); (47, "sentinelv"); (50, "workhorse");
   (51, "workhorse"); (52, "workhorse"); (53, "navigator"); (55, "dvs"); (56, "riverpro"); (59, "meridian"); (61, "pinnacle");
   (66, "sentinelv"); (67, "pathfinder"); (73, "pioneer"); (74, "tasman"); (76, "wayfinder"); (77, "workhorse"); (78, "workhorse")].
Definition other_model (v : Z) : string :=
  match find (fun p => fst p =? v) other_types with Some p => snd p | None => "unrecognized firmware version" end.
Definition inst_model_of (v : Z) : string :=
  if (v =? 4) || (v =? 5) then "broadband"
  else if (v =? 14) || (v =? 23) then "ocean surveyor"
  else other_model v.
(** rdi_defs.py:38-102: the shape of a variable with [nc] cells, flattened *)
Definition beam_vars : list string :=
  ["vel"; "amp"; "corr"; "prcnt_gd"; "status"; "vel_sl"; "corr_sl"; "amp_sl"; "prcnt_gd_sl"; "status_sl"].
Definition size_of (nm : string) (nc : Z) : nat :=
  if mem nm beam_vars then Z.to_nat (4 * nc)
  else if String.eqb nm "rtc" then 7%nat
  else if String.eqb nm "adc" then 8%nat
  else if mem nm ["dist_bt"; "vel_bt"; "corr_bt"; "amp_bt"; "prcnt_gd_bt"] then 4%nat
  else 1%nat.
(** rdi_defs.py:171-189 [_ensemble]; a variable that was not written is zero. The latest value written
    to a variable comes first in [vals]. *)
Record ensemble := Ens { ek : Z; e_cells : Z; vals : list (string * list (option Q)) }.
Definition new_ensemble (n_cells : Z) : ensemble := Ens (-1) n_cells [].
Definition get (e : ensemble) (nm : string) : list (option Q) :=
  match lookup nm (vals e) with Some v => v | None => repeat (Some 0%Q) (size_of nm (e_cells e)) end.
Definition put (nm : string) (v : list (option Q)) (e : ensemble) : ensemble :=
  Ens (ek e) (e_cells e) ((nm, v) :: vals e).
Definition puts (l : list (string * list (option Q))) (e : ensemble) : ensemble :=
  fold_left (fun e nv => put (fst nv) (snd nv) e) l e.
Definition set_k (k : Z) (e : ensemble) : ensemble := Ens k (e_cells e) (vals e).
(** an index [k] into arrays whose last axis has one element *)
Definition k_ok (e : ensemble) : bool := (ek e =? -1) || (ek e =? 0).
(** rdi_defs.py:164-168 [_variable_setlist.__iadd__] *)
Definition iadd (vars news : list string) : list string :=
  if mem (hd ""%string news) vars then vars else vars ++ news.

(** the configuration: a dictionary; the latest value comes first *)
Inductive cval := CZ (z : Z) | CQ (q : Q) | CL (l : list Z) | CS (s : string).
Definition cfg := list (string * cval).
Definition cfg_z (c : cfg) (nm : string) : outcome Z :=
  match lookup nm c with Some (CZ z) => Ret z | Some _ => Raise "TypeError" | None => Raise "KeyError" end.
Definition cfg_q (c : cfg) (nm : string) : outcome Q :=
  match lookup nm c with Some (CQ q) => Ret q | Some _ => Raise "TypeError" | None => Raise "KeyError" end.
Definition cfg_s (c : cfg) (nm : string) : outcome string :=
  match lookup nm c with Some (CS s) => Ret s | Some _ => Raise "TypeError" | None => Raise "KeyError" end.

(** the reader: io/rdi.py:184-229. [ens] is None before line 216; [ens_bb] without a second profile *)
Record st := St {
  pos : Z;                         (* position in the file *)
  nbyte : Z;                       (* self._nbyte *)
  hdr_nbyte : Z; hdr_offsets : list Z;
  fixoffset : Z; source : Z; winrivprob : bool; vmdas_search : bool; read_vmdas_done : bool;
  scfg : cfg; scfg_bb : cfg;
  ens : option ensemble; ens_bb : option ensemble;
  vars_read : list string;
  id_positions : list (Z * Z) }.
Definition at_pos (p : Z) (s : st) : st := St p (nbyte s) (hdr_nbyte s) (hdr_offsets s) (fixoffset s) (source s)
  (winrivprob s) (vmdas_search s) (read_vmdas_done s) (scfg s) (scfg_bb s) (ens s) (ens_bb s) (vars_read s) (id_positions s).
Definition with_nbyte (n : Z) (s : st) : st := St (pos s) n (hdr_nbyte s) (hdr_offsets s) (fixoffset s) (source s)
  (winrivprob s) (vmdas_search s) (read_vmdas_done s) (scfg s) (scfg_bb s) (ens s) (ens_bb s) (vars_read s) (id_positions s).
Definition with_hdr (n : Z) (o : list Z) (s : st) : st := St (pos s) (nbyte s) n o (fixoffset s) (source s)
  (winrivprob s) (vmdas_search s) (read_vmdas_done s) (scfg s) (scfg_bb s) (ens s) (ens_bb s) (vars_read s) (id_positions s).
Definition with_fixoffset (n : Z) (s : st) : st := St (pos s) (nbyte s) (hdr_nbyte s) (hdr_offsets s) n (source s)
  (winrivprob s) (vmdas_search s) (read_vmdas_done s) (scfg s) (scfg_bb s) (ens s) (ens_bb s) (vars_read s) (id_positions s).
Definition with_source (n : Z) (w : bool) (s : st) : st := St (pos s) (nbyte s) (hdr_nbyte s) (hdr_offsets s) (fixoffset s) n
  w (vmdas_search s) (read_vmdas_done s) (scfg s) (scfg_bb s) (ens s) (ens_bb s) (vars_read s) (id_positions s).
Definition with_vmdas (search done : bool) (s : st) : st := St (pos s) (nbyte s) (hdr_nbyte s) (hdr_offsets s) (fixoffset s)
  (source s) (winrivprob s) search done (scfg s) (scfg_bb s) (ens s) (ens_bb s) (vars_read s) (id_positions s).
Definition with_cfg (c cbb : cfg) (s : st) : st := St (pos s) (nbyte s) (hdr_nbyte s) (hdr_offsets s) (fixoffset s) (source s)
  (winrivprob s) (vmdas_search s) (read_vmdas_done s) c cbb (ens s) (ens_bb s) (vars_read s) (id_positions s).
Definition with_ens (e ebb : option ensemble) (s : st) : st := St (pos s) (nbyte s) (hdr_nbyte s) (hdr_offsets s) (fixoffset s)
  (source s) (winrivprob s) (vmdas_search s) (read_vmdas_done s) (scfg s) (scfg_bb s) e ebb (vars_read s) (id_positions s).
Definition with_vars (v : list string) (s : st) : st := St (pos s) (nbyte s) (hdr_nbyte s) (hdr_offsets s) (fixoffset s)
  (source s) (winrivprob s) (vmdas_search s) (read_vmdas_done s) (scfg s) (scfg_bb s) (ens s) (ens_bb s) v (id_positions s).
Definition with_ids (l : list (Z * Z)) (s : st) : st := St (pos s) (nbyte s) (hdr_nbyte s) (hdr_offsets s) (fixoffset s)
  (source s) (winrivprob s) (vmdas_search s) (read_vmdas_done s) (scfg s) (scfg_bb s) (ens s) (ens_bb s) (vars_read s) l.

(** ** Conversions *)
Definition qz (z : Z) : Q := inject_Z z.
Definition scaled (c : Q) (l : list Z) : list (option Q) := map (fun z => Some (qz z * c)%Q) l.
Definition plain (l : list Z) : list (option Q) := map (fun z => Some (qz z)) l.
(** the sum of the products with [60, 1, .01] *)
Definition min_sec (l : list Z) : Q := (qz (nth 0 l 0%Z) * 60 + qz (nth 1 l 0%Z) + qz (nth 2 l 0%Z) * (1 # 100))%Q.
(** io/rdi.py:187 [_cfac] *)
Definition cfac : Q := 180 # 2147483648.
Definition bam16 : Q := 180 # 32768.
(** Python's round(x, 4) on a multiple of 1/100 changes nothing *)
(** int(np.binary_repr(n)) *)
Fixpoint binary_repr_pos (p : positive) : Z :=
  match p with xH => 1 | xO p' => 10 * binary_repr_pos p' | xI p' => 10 * binary_repr_pos p' + 1 end.
Definition binary_repr (n : Z) : Z := match n with Zpos p => binary_repr_pos p | _ => 0 end.

(** ** Fixed leader: io/rdi.py:735-813 [read_cfgseg] *)
Definition fixed_items : list item :=
  [Rd "tmp" Ad2cp.U8 5; Skip 1; Rd "n_beams" Ad2cp.U8 1; Rd "n_cells" Ad2cp.U8 1; Rd "pings_per_ensemble" Ad2cp.U16 1;
   Rd "cell_size" Ad2cp.U16 1; Rd "blank_dist" Ad2cp.U16 1; Rd "profiling_mode" Ad2cp.U8 1;
   Rd "min_corr_threshold" Ad2cp.U8 1; Rd "n_code_reps" Ad2cp.U8 1; Rd "min_prcnt_gd" Ad2cp.U8 1;
   Rd "max_error_vel" Ad2cp.U16 1; Rd "sec_between_ping_groups" Ad2cp.U8 3; Rd "coord_sys" Ad2cp.U8 1;
   Rd "heading_misalign_deg" Ad2cp.S16 1; Rd "magnetic_var_deg" Ad2cp.S16 1; Rd "sensors_src" Ad2cp.U8 1;
   Rd "sensors_avail" Ad2cp.U8 1; Rd "bin1_dist_m" Ad2cp.U16 1; Rd "transmit_pulse_m" Ad2cp.U16 1;
   Rd "water_ref_cells" Ad2cp.U8 2; Rd "false_target_threshold" Ad2cp.U8 1; Skip 1; Rd "transmit_lag_m" Ad2cp.U16 1].
(** lines 788-803 *)
Definition fixed_extra (pv : Q) : list item :=
  (if Qle_bool (814 # 100) pv then [Rd "cpu_serialnum" Ad2cp.U8 8] else []) ++
  (if Qle_bool (824 # 100) pv then [Rd "bandwidth" Ad2cp.U16 1] else []) ++
  (if Qle_bool (1605 # 100) pv then [Rd "power_level" Ad2cp.U8 1] else []) ++
  (if Qle_bool (1627 # 100) pv then [Skip 1; Rd "serialnum" Ad2cp.U32 1; Rd "beam_angle" Ad2cp.U8 1] else []).
Definition fixed_extra_nbyte (pv : Q) : Z :=
  (if Qle_bool (814 # 100) pv then 8 else 0) + (if Qle_bool (824 # 100) pv then 2 else 0) +
  (if Qle_bool (1605 # 100) pv then 1 else 0) + (if Qle_bool (1627 # 100) pv then 6 else 0).
Definition yes_no (v mask : Z) : string := if Z.land v mask =? mask then "yes" else "no".
Definition read_cfgseg (file : bytes) (bb : bool) (s : st) : outcome st :=
  do '(raw, p1) <- parse file fixed_items (pos s);
  let tmp := raws raw "tmp" in
  let pv := (qz (nth 0 tmp 0%Z) + qz (nth 1 tmp 0%Z) * (1 # 100))%Q in
  let config0 := nth 2 tmp 0 in let config1 := nth 3 tmp 0 in
  do beam_angle <- or_raise (nth_error [15; 20; 30] (Z.to_nat (Z.land config1 3))) "IndexError";
  let beam5 := if Z.land config1 16 =? 16 then 1 else 0 in
  do freq <- or_raise (nth_error [75; 150; 300; 600; 1200; 2400; 38] (Z.to_nat (Z.land config0 7))) "IndexError";
  do _ <- check (nth 4 tmp 0 <? 2) "IndexError";
  let coord := raw1 raw "coord_sys" in
  do '(raw2, p2) <- parse file (fixed_extra pv) p1;
  let new : cfg :=
    (match lookup "beam_angle" raw2 with Some v => [("beam_angle", CZ (hd 0 v))] | None => [] end) ++
    (match lookup "serialnum" raw2 with Some v => [("serialnum", CZ (hd 0 v))] | None => [] end) ++
    (match lookup "power_level" raw2 with Some v => [("power_level", CZ (hd 0 v))] | None => [] end) ++
    (match lookup "bandwidth" raw2 with Some v => [("bandwidth", CZ (hd 0 v))] | None => [] end) ++
    [("prog_ver", CQ pv); ("inst_model", CS (inst_model_of (nth 0 tmp 0)));
     ("beam_angle", CZ beam_angle); ("freq", CZ freq);
     ("beam_pattern", CS (if Z.land config0 8 =? 8 then "convex" else "concave"));
     ("orientation", CS (if Z.land config0 128 =? 128 then "up" else "down"));
     ("n_beams", CZ (raw1 raw "n_beams" + beam5)); ("n_cells", CZ (raw1 raw "n_cells"));
     ("pings_per_ensemble", CZ (raw1 raw "pings_per_ensemble"));
     ("cell_size", CQ (qz (raw1 raw "cell_size") * (1 # 100)));
     ("blank_dist", CQ (qz (raw1 raw "blank_dist") * (1 # 100)));
     ("profiling_mode", CZ (raw1 raw "profiling_mode")); ("min_corr_threshold", CZ (raw1 raw "min_corr_threshold"));
     ("n_code_reps", CZ (raw1 raw "n_code_reps")); ("min_prcnt_gd", CZ (raw1 raw "min_prcnt_gd"));
     ("max_error_vel", CQ (qz (raw1 raw "max_error_vel") * (1 # 1000)));
     ("sec_between_ping_groups", CQ (min_sec (raws raw "sec_between_ping_groups")));
     ("coord_sys", CS (nth (Z.to_nat (Z.land (Z.shiftr coord 3) 3)) ["beam"; "inst"; "ship"; "earth"] ""));
     ("use_pitchroll", CS (yes_no coord 4)); ("use_3beam", CS (yes_no coord 2)); ("bin_mapping", CS (yes_no coord 1));
     ("heading_misalign_deg", CQ (qz (raw1 raw "heading_misalign_deg") * (1 # 100)));
     ("magnetic_var_deg", CQ (qz (raw1 raw "magnetic_var_deg") * (1 # 100)));
     ("sensors_src", CZ (binary_repr (raw1 raw "sensors_src"))); ("sensors_avail", CZ (binary_repr (raw1 raw "sensors_avail")));
     ("bin1_dist_m", CQ (qz (raw1 raw "bin1_dist_m") * (1 # 100)));
     ("transmit_pulse_m", CQ (qz (raw1 raw "transmit_pulse_m") * (1 # 100)));
     ("water_ref_cells", CL (raws raw "water_ref_cells"));
     ("false_target_threshold", CZ (raw1 raw "false_target_threshold"));
     ("transmit_lag_m", CQ (qz (raw1 raw "transmit_lag_m") * (1 # 100)))] in
  let s := with_nbyte (40 + fixed_extra_nbyte pv) (at_pos p2 s) in
  Ret (if bb then with_cfg (scfg s) (new ++ scfg_bb s) s else with_cfg (new ++ scfg s) (scfg_bb s) s).
(** io/rdi.py:706-722 [read_fixed]. The padding of the arrays already filled (self.flag, lines 347-352) is
    left out: each ensemble keeps its own number of cells in the model. *)
Definition read_fixed (file : bytes) (bb : bool) (s : st) : outcome st :=
  do s <- read_cfgseg file bb s;
  let s := with_nbyte (nbyte s + 2) s in
  match ens s with
  | None => Ret s
  | Some e =>
    do n <- cfg_z (scfg s) "n_cells";
    Ret (if e_cells e <? n then with_ens (Some (new_ensemble n)) (ens_bb s) s else s)
  end.
(** io/rdi.py:724-733 [read_fixed_sl] *)
Definition read_fixed_sl (file : bytes) (s : st) : outcome st :=
  do '(raw, p) <- parse file [Rd "n_cells_sl" Ad2cp.U8 1; Rd "cell_size_sl" Ad2cp.U16 1; Rd "bin1_dist_m_sl" Ad2cp.U16 1] (pos s);
  Ret (with_nbyte 7 (at_pos p (with_cfg
    ([("surface_layer", CZ 1); ("n_cells_sl", CZ (raw1 raw "n_cells_sl"));
      ("cell_size_sl", CQ (qz (raw1 raw "cell_size_sl") * (1 # 100)));
      ("bin1_dist_m_sl", CQ (qz (raw1 raw "bin1_dist_m_sl") * (1 # 100)))] ++ scfg s) (scfg_bb s) s))).

(** ** Variable leader: io/rdi.py:815-899 [read_var] *)
Definition var_items : list item :=
  [Rd "number" Ad2cp.U16 1; Rd "rtc" Ad2cp.U8 7; Rd "number_msb" Ad2cp.U8 1; Rd "builtin_test_fail" Ad2cp.U16 1;
   Rd "c_sound" Ad2cp.U16 1; Rd "depth" Ad2cp.U16 1; Rd "heading" Ad2cp.U16 1; Rd "pitch" Ad2cp.S16 1;
   Rd "roll" Ad2cp.S16 1; Rd "salinity" Ad2cp.S16 1; Rd "temp" Ad2cp.S16 1; Rd "min_preping_wait" Ad2cp.U8 3;
   Rd "heading_std" Ad2cp.U8 1; Rd "pitch_std" Ad2cp.U8 1; Rd "roll_std" Ad2cp.U8 1; Rd "adc" Ad2cp.S8 8].
Definition var_vars : list string :=
  ["number"; "rtc"; "number"; "builtin_test_fail"; "c_sound"; "depth"; "heading"; "pitch"; "roll"; "salinity"; "temp";
   "min_preping_wait"; "heading_std"; "pitch_std"; "roll_std"; "adc"].
(** io/rdi.py:861-898; the names of [cfg['inst_model'].lower()]. The error status, never returned, is only skipped. *)
Definition var_extra (model : string) (pv : Q) : list item :=
  if String.eqb model "broadband" then
    (if Qle_bool (555 # 100) pv then [Skip 15; Rd "cent" Ad2cp.U8 1; Rd "rtc4" Ad2cp.U8 7] else [])
  else if String.eqb model "ocean surveyor" then
    Skip 16 :: (if Qle_bool pv 23 then [] else [Skip 2])
  else
    Rd "error_status" Ad2cp.U32 1 ::
    (if Qle_bool (813 # 100) pv then [Skip 2; Rd "pressure" Ad2cp.U32 1; Rd "pressure_std" Ad2cp.U32 1] else []) ++
    (if Qle_bool (824 # 100) pv then [Skip 1] else []) ++
    (if Qle_bool (1605 # 100) pv then [Rd "cent" Ad2cp.U8 1; Rd "rtc4" Ad2cp.U8 7] else []) ++
    (if Qle_bool 56 pv then [Skip 1] else []).
Definition var_extra_nbyte (model : string) (pv : Q) : Z :=
  if String.eqb model "broadband" then (if Qle_bool (555 # 100) pv then 23 else 0)
  else if String.eqb model "ocean surveyor" then 16 + (if Qle_bool pv 23 then 0 else 2)
  else 4 + (if Qle_bool (813 # 100) pv then 10 else 0) + (if Qle_bool (824 # 100) pv then 1 else 0) +
       (if Qle_bool (1605 # 100) pv then 8 else 0) + (if Qle_bool 56 pv then 1 else 0).
Definition is_other (model : string) : bool := negb (String.eqb model "broadband") && negb (String.eqb model "ocean surveyor").
Definition rtc_with_century (raw : list (string * list Z)) : list Z :=
  match raws raw "rtc4" with y :: l => y + raw1 raw "cent" * 100 :: l | [] => [] end.
(** lines 841-857 *)
Definition var_values (raw : list (string * list Z)) : list (string * list (option Q)) :=
    [("number", [Some (qz (raw1 raw "number" + 65535 * raw1 raw "number_msb"))]);
     ("rtc", plain (raws raw "rtc"));
     ("builtin_test_fail", [Some (if raw1 raw "builtin_test_fail" =? 0 then 0 else 1)%Q]);
     ("c_sound", plain (raws raw "c_sound"));
     ("depth", scaled (1 # 10) (raws raw "depth"));
     ("heading", scaled (1 # 100) (raws raw "heading"));
     ("pitch", scaled (1 # 100) (raws raw "pitch"));
     ("roll", scaled (1 # 100) (raws raw "roll"));
     ("salinity", plain (raws raw "salinity"));
     ("temp", scaled (1 # 100) (raws raw "temp"));
     ("min_preping_wait", [Some (min_sec (raws raw "min_preping_wait"))]);
     ("heading_std", plain (raws raw "heading_std"));
     ("pitch_std", scaled (1 # 10) (raws raw "pitch_std"));
     ("roll_std", scaled (1 # 10) (raws raw "roll_std"));
     ("adc", plain (map (fun z => z mod 256) (raws raw "adc")))].
(** lines 865-866, 881-882 and 891-892 *)
Definition var_values2 (raw2 : list (string * list Z)) : list (string * list (option Q)) :=
    ((match lookup "pressure" raw2 with Some v => [("pressure", scaled (1 # 1000) v)] | None => [] end) ++
     (match lookup "pressure_std" raw2 with Some v => [("pressure_std", scaled (1 # 1000) v)] | None => [] end) ++
     (match lookup "rtc4" raw2 with Some _ => [("rtc", plain (rtc_with_century raw2))] | None => [] end)).
Definition read_var (file : bytes) (bb : bool) (s : st) : outcome st :=
  do e0 <- or_raise (ens s) "AttributeError";
  do s <- (if bb then do b <- or_raise (ens_bb s) "AttributeError"; Ret (with_ens (ens s) (Some (set_k (ek b + 1) b)) s)
           else Ret (with_ens (Some (set_k (ek e0 + 1) e0)) (ens_bb s) s));
  do e <- or_raise (ens s) "AttributeError";
  let s := with_vars (iadd (vars_read s) var_vars) s in
  do '(raw, p) <- parse file var_items (pos s);
  do _ <- check (k_ok e) "IndexError";
  let e := puts (var_values raw) e in
  do model <- cfg_s (scfg s) "inst_model";
  do pv <- cfg_q (scfg s) "prog_ver";
  do '(raw2, p2) <- parse file (var_extra model pv) p;
  let e := puts (var_values2 raw2) e in
  let s := with_vars (if is_other model then iadd (vars_read s) ["pressure"; "pressure_std"] else vars_read s) s in
  Ret (with_ens (Some e) (ens_bb s) (with_nbyte (2 + 40 + var_extra_nbyte model pv) (at_pos p2 s))).

(** ** Profiles: io/rdi.py:901-981 [switch_profile], [read_vel], [read_corr], [read_amp], [read_prcnt_gd], [read_status] *)
Inductive profile := First | Second | Surface.
Definition switch_profile (w : profile) (s : st) : outcome (ensemble * cfg * string) :=
  match w with
  | Second => do e <- or_raise (ens_bb s) "AttributeError"; Ret (e, scfg_bb s, ""%string)
  | Surface => do e <- or_raise (ens s) "AttributeError"; Ret (e, scfg s, "_sl"%string)
  | First => do e <- or_raise (ens s) "AttributeError"; Ret (e, scfg s, ""%string)
  end.
(** the five functions differ by the name, the format and the scale *)
Definition read_profile (file : bytes) (nm : string) (k : Ad2cp.kind) (scale : Q) (w : profile) (s : st) : outcome st :=
  do '(e, c, tg) <- switch_profile w s;
  let nm := (nm ++ tg)%string in
  let s := with_vars (iadd (vars_read s) [nm]) s in
  do n <- cfg_z c ("n_cells" ++ tg);
  do v <- read file (pos s) k (Z.to_nat (4 * n));
  do _ <- check (k_ok e) "IndexError";
  do _ <- check (n <=? e_cells e) "ValueError";
  let e := put nm (scaled scale v ++ skipn (Z.to_nat (4 * n)) (get e nm)) e in
  let s := match w with Second => with_ens (ens s) (Some e) s | _ => with_ens (Some e) (ens_bb s) s end in
  let sz := 4 * n * Z.of_nat (Ad2cp.ksize k) in
  Ret (with_nbyte (2 + sz) (at_pos (pos s + sz) s)).
Definition read_vel file w s := read_profile file "vel" Ad2cp.S16 (1 # 1000) w s.
Definition read_corr file w s := read_profile file "corr" Ad2cp.U8 1 w s.
Definition read_amp file w s := read_profile file "amp" Ad2cp.U8 1 w s.
Definition read_prcnt_gd file w s := read_profile file "prcnt_gd" Ad2cp.U8 1 w s.
Definition read_status file w s := read_profile file "status" Ad2cp.U8 1 w s.

(** ** Bottom track: io/rdi.py:983-1040 [read_bottom] *)
Definition bottom_vars : list string := ["dist_bt"; "vel_bt"; "corr_bt"; "amp_bt"; "prcnt_gd_bt"].
Definition bottom_items (winriver : bool) : list item :=
  (if winriver then [Skip 2; Rd "long1" Ad2cp.U16 1; Skip 6; Rd "lat" Ad2cp.S32 1] else [Skip 14]) ++
  [Rd "dist_bt" Ad2cp.U16 4; Rd "vel_bt" Ad2cp.S16 4; Rd "corr_bt" Ad2cp.U8 4; Rd "amp_bt" Ad2cp.U8 4;
   Rd "prcnt_gd_bt" Ad2cp.U8 4] ++
  (if winriver then [Skip 2; Rd "long2" Ad2cp.U16 1; Skip 16; Rd "qual" Ad2cp.U8 1; Skip (-7)] else [Skip 26]).
Definition bottom_extra (pv : Q) (is_WINRIVER : bool) : list item :=
  (if Qle_bool (53 # 10) pv then [Skip 7; Rd "range_msb" Ad2cp.U8 4] else []) ++
  (if Qle_bool (162 # 10) pv && negb is_WINRIVER then [Skip 4] else []) ++
  (if Qle_bool (561 # 10) pv then [Skip 4] else []).
Definition bottom_extra_nbyte (pv : Q) (is_WINRIVER : bool) : Z :=
  (if Qle_bool (53 # 10) pv then 11 else 0) + (if Qle_bool (162 # 10) pv && negb is_WINRIVER then 4 else 0) +
  (if Qle_bool (561 # 10) pv then 4 else 0).
Definition nonzero (q : Q) : option Q := if Qeq_bool q 0 then None else Some q.
Definition lat_of (lat qual : Z) : option Q := if qual =? 0 then None else nonzero (qz lat * cfac).
Definition lon_of (long1 long2 qual : Z) : option Q :=
  if qual =? 0 then None else
  let l := (qz (long1 + 65536 * long2) * cfac)%Q in
  nonzero (if Qle_bool l 180 then l else (l - 360)%Q).
(** range in metres: the low word in cm and the high byte *)
Definition add_msb (d : list (option Q)) (msb : list Z) : list (option Q) :=
  map (fun p => option_map (fun x => (x + qz (snd p) * (65536 # 100))%Q) (fst p)) (combine d msb).
(** lines 1000-1004 and, with the high bytes, 1030 *)
Definition bottom_values (raw : list (string * list Z)) : list (string * list (option Q)) :=
  [("dist_bt", scaled (1 # 100) (raws raw "dist_bt")); ("vel_bt", scaled (1 # 1000) (raws raw "vel_bt"));
   ("corr_bt", plain (raws raw "corr_bt")); ("amp_bt", plain (raws raw "amp_bt")); ("prcnt_gd_bt", plain (raws raw "prcnt_gd_bt"))].
Definition bottom_values2 (raw raw2 : list (string * list Z)) : list (string * list (option Q)) :=
  match lookup "range_msb" raw2 with Some v => [("dist_bt", add_msb (scaled (1 # 100) (raws raw "dist_bt")) v)] | None => [] end.
Definition read_bottom (file : bytes) (s : st) : outcome st :=
  let s := with_vars (iadd (vars_read s) bottom_vars) s in
  do e <- or_raise (ens s) "AttributeError";
  let w := source s =? 2 in
  let s := if w then with_vars (iadd (vars_read s) ["latitude_gps"; "longitude_gps"]) s else s in
  do '(raw, p) <- parse file (bottom_items w) (pos s);
  do _ <- check (k_ok e) "IndexError";
  let e := puts (bottom_values raw) e in
  let e := if w then puts
    [("latitude_gps", [lat_of (raw1 raw "lat") (raw1 raw "qual")]);
     ("longitude_gps", [lon_of (raw1 raw "long1") (raw1 raw "long2") (raw1 raw "qual")])] e else e in
  do pv <- cfg_q (scfg s) "prog_ver";
  let is_WINRIVER := match lookup "sourceprog" (scfg s) with Some (CS x) => String.eqb x "WINRIVER" | _ => false end in
  do '(raw2, p2) <- parse file (bottom_extra pv is_WINRIVER) p;
  let e := puts (bottom_values2 raw raw2) e in
  Ret (with_ens (Some e) (ens_bb s) (with_nbyte (2 + 68 + bottom_extra_nbyte pv is_WINRIVER) (at_pos p2 s))).

(** ** Altimeter: io/rdi.py:1042-1054 [read_alt] *)
(** line 1047 *)
Definition alt_vars : list string := ["alt_dist"; "alt_rssi"; "alt_eval"; "alt_status"].
(** lines 1048-1051 *)
Definition alt_items : list item :=
  [Rd "alt_eval" Ad2cp.U8 1; Rd "alt_rssi" Ad2cp.U8 1; Rd "alt_dist" Ad2cp.U32 1; Rd "alt_status" Ad2cp.U8 1].
(** lines 1048-1051 *)
Definition alt_values (raw : list (string * list Z)) : list (string * list (option Q)) :=
    [("alt_eval", plain (raws raw "alt_eval")); ("alt_rssi", plain (raws raw "alt_rssi"));
     ("alt_dist", scaled (1 # 1000) (raws raw "alt_dist")); ("alt_status", plain (raws raw "alt_status"))].
Definition read_alt (file : bytes) (s : st) : outcome st :=
  do e <- or_raise (ens s) "AttributeError";
  let s := with_vars (iadd (vars_read s) alt_vars) s in
  do '(raw, p) <- parse file alt_items (pos s);
  do _ <- check (k_ok e) "IndexError";
  let e := puts (alt_values raw) e in
  Ret (with_ens (Some e) (ens_bb s) (with_nbyte 9 (at_pos p s))).

(** ** Dates *)
(** datetime.toordinal *)
Definition days_before_year (y : Z) : Z := 365 * (y - 1) + (y - 1) / 4 - (y - 1) / 100 + (y - 1) / 400.
Definition days_before_month (y m : Z) : Z := total (map (fun k => days_in_month y (Z.of_nat k)) (seq 1 (Z.to_nat (m - 1)))).
Definition toordinal (d : date) : Z := days_before_year (year d) + days_before_month (year d) (month d) + day d.
(** seconds since 1970-01-01 of a datetime without time zone: time.py:40-75 [date2epoch] *)
Definition epoch (d : date) : Z :=
  (toordinal d - 719163) * 86400 + hour d * 3600 + minute d * 60 + second d.

(** io/rdi.py:1056-1122 [read_vmdas]; a date that datetime() refuses is an exception *)
Definition vmdas_vars : list string :=
  ["time_gps"; "clock_offset_UTC_gps"; "latitude_gps"; "longitude_gps"; "avg_speed_gps"; "avg_dir_gps";
   "speed_made_good_gps"; "dir_made_good_gps"; "flags_gps"; "pitch_gps"; "roll_gps"; "heading_gps"].
Definition vmdas_items : list item :=
  [Rd "utim" Ad2cp.U8 4; Rd "time_first" Ad2cp.U32 1; Rd "clock_offset" Ad2cp.S32 1; Rd "lat_first" Ad2cp.S32 1;
   Rd "lon_first" Ad2cp.S32 1; Rd "time_fix" Ad2cp.U32 1; Rd "lat" Ad2cp.S32 1; Rd "lon" Ad2cp.S32 1;
   Rd "avg_speed" Ad2cp.U16 1; Rd "avg_dir" Ad2cp.U16 1; Skip 2; Rd "speed_made_good" Ad2cp.U16 1;
   Rd "dir_made_good" Ad2cp.U16 1; Skip 2; Rd "flags" Ad2cp.U16 1; Skip 6; Rd "utim_adcp" Ad2cp.U8 4;
   Rd "time_adcp" Ad2cp.U32 1; Rd "pitch" Ad2cp.U16 1; Rd "roll" Ad2cp.U16 1; Rd "heading" Ad2cp.U16 1; Skip 10].
Definition midnight (y m d : Z) : date := Date y m d 0 0 0.
(** lines 1079-1080 and 1108-1109 *)
Definition vmdas_utc (raw : list (string * list Z)) : date :=
  let u := raws raw "utim" in midnight (nth 2 u 0 + nth 3 u 0 * 256) (nth 1 u 0) (nth 0 u 0).
Definition vmdas_adcp (raw : list (string * list Z)) : date :=
  let a := raws raw "utim_adcp" in midnight (nth 0 a 0 + nth 1 a 0 * 256) (nth 3 a 0) (nth 2 a 0).
(** lines 1086-1115 *)
Definition vmdas_values (raw : list (string * list Z)) : list (string * list (option Q)) :=
    [("clock_offset_UTC_gps", scaled (1 # 1000) (raws raw "clock_offset"));
     ("time_gps", [Some (qz (epoch (vmdas_utc raw)) + qz (raw1 raw "time_fix" / 10) * (1 # 1000))%Q]);
     ("latitude_gps", scaled cfac (raws raw "lat")); ("longitude_gps", scaled cfac (raws raw "lon"));
     ("avg_speed_gps", scaled (1 # 1000) (raws raw "avg_speed")); ("avg_dir_gps", scaled bam16 (raws raw "avg_dir"));
     ("speed_made_good_gps", scaled (1 # 1000) (raws raw "speed_made_good"));
     ("dir_made_good_gps", scaled bam16 (raws raw "dir_made_good"));
     ("flags_gps", [Some (qz (binary_repr (raw1 raw "flags")))]);
     ("pitch_gps", scaled bam16 (raws raw "pitch")); ("roll_gps", scaled bam16 (raws raw "roll"));
     ("heading_gps", scaled bam16 (raws raw "heading"))].
Definition read_vmdas (file : bytes) (s : st) : outcome st :=
  let s := with_cfg (("sourceprog", CS "VMDAS") :: scfg s) (scfg_bb s) s in
  do e <- or_raise (ens s) "AttributeError";
  let s := with_vars (iadd (vars_read s) vmdas_vars) (with_source 1 (winrivprob s) s) in
  do '(raw, p) <- parse file vmdas_items (pos s);
  do _ <- check (valid_date (vmdas_utc raw) && valid_date (vmdas_adcp raw)) "ValueError";
  do _ <- check (k_ok e) "IndexError";
  let e := puts (vmdas_values raw) e in
  Ret (with_vmdas (vmdas_search s) true (with_ens (Some e) (ens_bb s) (with_nbyte 78 (at_pos p s)))).

(** io/rdi.py:1255-1266 [read_winriver]: a size below two makes the length of the string negative; f.read(-1)
    reads to the end *)
Definition read_winriver (file : bytes) (s : st) : outcome st :=
  let s := with_cfg (("sourceprog", CS "WINRIVER") :: scfg s) (scfg_bb s) s in
  let s := with_source (if (source s =? 2) || (source s =? 3) then source s else 2) true s in
  do sz <- read file (pos s) Ad2cp.U16 1;
  let n := hd 0 sz - 2 in
  let p := pos s + 2 in
  do q <- (if n =? -1 then Ret (Z.max p (len file)) else if n <? 0 then Raise "ValueError" else Ret (Z.max p (Z.min (p + n) (len file))));
  Ret (with_nbyte (q - pos s + 2) (at_pos q s)).

(** ** The sentences of WinRiver2: io/rdi.py:1124-1253 [read_winriver2] *)
(** a number of the format 'f' or 'd': [eb] bits of exponent, [mb] of mantissa; [None] is NaN, which stands for the infinities too *)
Definition float_bits (eb mb b : Z) : option Q :=
  let e := (b / 2 ^ mb) mod 2 ^ eb in
  let m := b mod 2 ^ mb in
  let sg := if (b / 2 ^ (mb + eb)) mod 2 =? 1 then (-1)%Q else 1%Q in
  let low := 1 - (2 ^ (eb - 1) - 1) - mb in
  if e =? 2 ^ eb - 1 then None
  else Some (if e =? 0 then sg * qz m * 2 ^ low else sg * qz (2 ^ mb + m) * 2 ^ (low + e - 1))%Q.
Definition float32_of (b : bytes) : option Q := match b with [] => None | _ => float_bits 8 23 (Ad2cp.le b) end.
Definition float64_of (b : bytes) : option Q := match b with [] => None | _ => float_bits 11 52 (Ad2cp.le b) end.
(** the conversion of a number to a 32-bit float: the nearest with 24 bits, halves to the even one (rdi_defs.py:76-77, 90:
    the arrays of the positions and of the heading are float32); no subnormal numbers, no overflow *)
Definition nearest24 (x : Q) : Q :=
  let e := Z.log2 (Qnum x) - Z.log2 (QDen x) - 23 in
  let e := if Qle_bool (qz (2 ^ 23)) (x * 2 ^ (- e)) then e else e - 1 in
  let s := (x * 2 ^ (- e))%Q in
  let q := Qnum s / QDen s in
  let r := match (2 * (Qnum s mod QDen s) ?= QDen s) with Lt => q | Gt => q + 1 | Eq => if Z.even q then q else q + 1 end in
  (qz r * 2 ^ e)%Q.
Definition to_float32 (x : Q) : Q := match (x ?= 0)%Q with Eq => 0 | Gt => nearest24 x | Lt => - nearest24 (- x) end%Q.

(** the reads of one sentence: a number of [w] bytes, a string, a seek; nothing is read at the end of the file *)
Inductive nitem := NNum (nm : string) (w : nat) | NStr (nm : string) (n : nat) | NSkip (d : Z).
Fixpoint nparse (file : bytes) (l : list nitem) (p : Z) : outcome (list (string * bytes) * Z) :=
  match l with
  | [] => Ret ([], p)
  | NNum nm w :: l' =>
    let val := f_read file p (Z.of_nat w) in
    do _ <- check (Nat.eqb (length val) 0 || Nat.eqb (length val) w) "struct.error";
    do '(raw, q) <- nparse file l' (p + Z.of_nat (length val)); Ret ((nm, val) :: raw, q)
  | NStr nm n :: l' =>
    let val := f_read file p (Z.of_nat n) in
    do '(raw, q) <- nparse file l' (p + Z.of_nat (length val)); Ret ((nm, val) :: raw, q)
  | NSkip d :: l' => do q <- seek p d; nparse file l' q
  end.
Definition nraw (raw : list (string * bytes)) (nm : string) : bytes := match lookup nm raw with Some v => v | None => [] end.
(** bytes.decode('utf-8') succeeds: [n] more bytes of a character, the next one from [lo] to [hi] *)
Fixpoint utf8 (n : nat) (lo hi : Z) (bs : bytes) : bool :=
  match bs with
  | [] => Nat.eqb n 0
  | b :: bs' =>
    let within a c := (a <=? b) && (b <=? c) in
    match n with
    | S n' => within lo hi && utf8 n' 128 191 bs'
    | O => if b <? 128 then utf8 0 0 0 bs'
      else if within 194 223 then utf8 1 128 191 bs'
      else if b =? 224 then utf8 2 160 191 bs'
      else if b =? 237 then utf8 2 128 159 bs'
      else if within 225 239 then utf8 2 128 191 bs'
      else if b =? 240 then utf8 3 144 191 bs'
      else if within 241 243 then utf8 3 128 191 bs'
      else (b =? 244) && utf8 3 128 143 bs'
    end
  end.
(** int() of a text: white space around it, a sign, digits; no digits of other scripts *)
Definition is_space (b : Z) : bool := ((9 <=? b) && (b <=? 13)) || ((28 <=? b) && (b <=? 32)).
Definition is_digit (b : Z) : bool := (48 <=? b) && (b <=? 57).
Fixpoint lstrip (bs : bytes) : bytes := match bs with b :: bs' => if is_space b then lstrip bs' else bs | [] => [] end.
Definition strip (bs : bytes) : bytes := rev (lstrip (rev (lstrip bs))).
Definition sign_of (bs : bytes) : Z * bytes :=
  match bs with b :: bs' => if b =? 45 then (-1, bs') else if b =? 43 then (1, bs') else (1, bs) | [] => (1, []) end.
Definition digits (bs : bytes) : Z := fold_left (fun a b => 10 * a + (b - 48)) bs 0.
Definition py_int (bs : bytes) : outcome Z :=
  let '(sg, ds) := sign_of (strip bs) in
  do _ <- check (negb (Nat.eqb (length ds) 0) && forallb is_digit ds) "ValueError"; Ret (sg * digits ds).
(** float() of a text: digits with at most one point among them; exponents, underscores and names are left out *)
Fixpoint before_point (bs : bytes) : bytes * bytes :=
  match bs with
  | [] => ([], [])
  | b :: bs' => if b =? 46 then ([], bs') else let '(x, y) := before_point bs' in (b :: x, y)
  end.
Definition py_float (bs : bytes) : outcome Q :=
  let '(sg, ds) := sign_of (strip bs) in
  let '(w, f) := before_point ds in
  do _ <- check (negb (Nat.eqb (length (w ++ f)) 0) && forallb is_digit (w ++ f)) "ValueError";
  Ret (qz sg * (qz (digits (w ++ f)) / qz (10 ^ Z.of_nat (length f))))%Q.
(** lines 1151-1154: the time of day in a GGA sentence, in milliseconds *)
Definition gga_clock (t : bytes) : outcome Z :=
  do h <- py_int (firstn 2 t);
  do m <- py_int (firstn 2 (skipn 2 t));
  do sec <- py_int (firstn 2 (skipn 4 t));
  do f <- py_float (skipn 6 t);
  let ms := (f * 1000)%Q in
  Ret (((h * 60 + m) * 60 + sec) * 1000 + Z.quot (Qnum ms) (QDen ms)).
(** lines 1155-1159: the year is completed in the clock of the ensemble itself *)
Definition full_year (e : ensemble) : ensemble :=
  match get e "rtc" with
  | Some y :: l => if Qle_bool 100 y then e else put "rtc" (Some (y + 2000)%Q :: l) e
  | _ => e
  end.
Definition rtc_day (e : ensemble) : date :=
  let z i := match nth i (get e "rtc") None with Some q => Qnum q / QDen q | None => 0 end in
  midnight (z 0%nat) (z 1%nat) (z 2%nat).
(** an unsigned byte in an array of int8 *)
Definition int8 (z : Z) : Z := if z <? 128 then z else z - 256.
Definition stored32 (x : option Q) : option Q := option_map to_float32 x.
Definition is_letter (c : Z) (b : bytes) : bool := match b with [x] => x =? c | _ => false end.
Definition negate_if (b : bool) (x : option Q) : option Q := if b then option_map Qopp x else x.

(** lines 1148, 1150 and 1161-1183 *)
Definition gga_items : list nitem :=
  [NSkip 1; NNum "lat" 8; NStr "ns" 1; NNum "lon" 8; NStr "ew" 1; NNum "fix" 1; NNum "n_sat" 1; NNum "hdop" 4;
   NNum "elevation" 4; NStr "m" 1; NNum "geoid" 4; NStr "m2" 1; NNum "age" 4; NNum "station" 2].
Definition gga_values (raw : list (string * bytes)) : list (string * list (option Q)) :=
  [("latitude_gps", [negate_if (is_letter 83 (nraw raw "ns")) (stored32 (float64_of (nraw raw "lat")))]);
   ("longitude_gps", [negate_if (is_letter 87 (nraw raw "ew")) (stored32 (float64_of (nraw raw "lon")))]);
   ("fix_gps", [Some (qz (int8 (Ad2cp.le (nraw raw "fix"))))]);
   ("n_sat_gps", [Some (qz (int8 (Ad2cp.le (nraw raw "n_sat"))))]);
   ("hdop_gps", [float32_of (nraw raw "hdop")]);
   ("elevation_gps", [float32_of (nraw raw "elevation")]);
   ("rtk_age_gps", [float32_of (nraw raw "age")])].
Definition read_gga (file : bytes) (p : Z) (e : ensemble) : outcome (ensemble * Z) :=
  do '(r1, p) <- nparse file [NSkip 1; NStr "time" 9] p;
  do ms <- gga_clock (nraw r1 "time");
  let e := full_year e in
  do _ <- check (valid_date (rtc_day e)) "ValueError";
  do '(raw, q) <- nparse file gga_items p;
  do _ <- check (k_ok e) "IndexError";
  do _ <- check (negb (Nat.eqb (length (nraw raw "fix")) 0) && negb (Nat.eqb (length (nraw raw "n_sat")) 0)) "TypeError";
  Ret (puts (("time_gps", [Some (qz (epoch (rtc_day e)) + qz ms * (1 # 1000))%Q]) :: gga_values raw) e, q).
(** lines 1200-1213 *)
Definition vtg_items : list nitem :=
  [NSkip 1; NNum "true_track" 4; NStr "t" 1; NNum "magn_track" 4; NStr "m" 1; NNum "speed_knot" 4; NStr "kts" 1;
   NNum "speed_kph" 4; NStr "kph" 1; NStr "mode" 1].
Definition read_vtg (file : bytes) (p : Z) (e : ensemble) : outcome (ensemble * Z) :=
  do '(raw, q) <- nparse file vtg_items p;
  do _ <- check (negb (Nat.eqb (length (nraw raw "speed_knot")) 0)) "TypeError";
  do _ <- check (k_ok e) "IndexError";
  Ret (puts [("speed_over_grnd_gps", [option_map (fun v => v / (1944 # 1000))%Q (float32_of (nraw raw "speed_knot"))]);
             ("dir_over_grnd_gps", [float32_of (nraw raw "true_track")])] e, q).
(** lines 1229-1236 *)
Definition dbt_items : list nitem :=
  [NSkip 1; NNum "depth_ft" 4; NStr "ft" 1; NNum "depth_m" 4; NStr "m" 1; NNum "depth_fathom" 4; NStr "f" 1].
Definition read_dbt (file : bytes) (p : Z) (e : ensemble) : outcome (ensemble * Z) :=
  do '(raw, q) <- nparse file dbt_items p;
  do _ <- check (k_ok e) "IndexError";
  Ret (put "dist_nmea" [float32_of (nraw raw "depth_m")] e, q).
(** lines 1249-1251 *)
Definition read_hdt (file : bytes) (p : Z) (e : ensemble) : outcome (ensemble * Z) :=
  do '(raw, q) <- nparse file [NSkip 1; NNum "heading" 8; NStr "tt" 1] p;
  do _ <- check (k_ok e) "IndexError";
  Ret (put "heading_gps" [stored32 (float64_of (nraw raw "heading"))] e, q).

(** the sentence of an identifier: its least length, its reader, the variables *)
Definition sentence (spid : Z) : option (Z * (bytes -> Z -> ensemble -> outcome (ensemble * Z)) * list string) :=
  if (spid =? 4) || (spid =? 104) then Some (43, read_gga,
    ["time_gps"; "longitude_gps"; "latitude_gps"; "fix_gps"; "n_sat_gps"; "hdop_gps"; "elevation_gps"; "rtk_age_gps"])
  else if (spid =? 5) || (spid =? 105) then Some (22, read_vtg, ["speed_over_grnd_gps"; "dir_over_grnd_gps"])
  else if (spid =? 6) || (spid =? 106) then Some (20, read_dbt, ["dist_nmea"])
  else if (spid =? 7) || (spid =? 107) then Some (14, read_hdt, ["heading_gps"])
  else None.
(** [false] is the value 'FAIL'. The branches of the four sentences differ by [sentence] only. f.read(-1) reads to the end. *)
Definition read_winriver2 (file : bytes) (s : st) : outcome (bool * st) :=
  let startpos := pos s in
  let s := with_source 3 true (with_cfg (("sourceprog", CS "WinRiver2") :: scfg s) (scfg_bb s) s) in
  do e <- or_raise (ens s) "AttributeError";
  do '(r0, p) <- nparse file [NNum "spid" 2] startpos;
  match (match nraw r0 "spid" with [] => None | b => sentence (Ad2cp.le b) end) with
  | None => Ret (true, at_pos p s)
  | Some (least, reader, vars) =>
    do '(r1, p) <- nparse file [NNum "sz" 2; NNum "dtime" 8] p;
    do _ <- check (negb (Nat.eqb (length (nraw r1 "sz")) 0)) "TypeError";
    let sz := Ad2cp.le (nraw r1 "sz") in
    let finish e q := Ret (true, with_nbyte (q - startpos + 2) (at_pos q (with_vars (iadd (vars_read s) vars) (with_ens (Some e) (ens_bb s) s)))) in
    if sz <=? least then
      do q <- (if sz =? 1 then Ret (Z.max p (len file)) else if sz =? 0 then Raise "ValueError" else Ret (p + Z.of_nat (length (f_read file p (sz - 2)))));
      do q <- seek q 2; finish e q
    else
      do '(r2, p) <- nparse file [NStr "start" 6] p;
      if utf8 0 0 0 (nraw r2 "start") then do '(e, q) <- reader file p e; finish e q
      else Ret (false, at_pos p s)
  end.

(** io/rdi.py:1268-1274 [skip_Ncol], [skip_Nbyte] *)
Definition skip_Nbyte (n : Z) (s : st) : outcome st := do p <- seek (pos s) n; Ret (with_nbyte (2 + n) (at_pos p s)).
Definition skip_Ncol (n : Z) (s : st) : outcome st := do c <- cfg_z (scfg s) "n_cells"; skip_Nbyte (n * c) s.

(** io/rdi.py:1296-1304 [skip_nocode]: the distance to the next block in the first ensemble of the file *)
Fixpoint zlookup (k : Z) (l : list (Z * Z)) : option Z :=
  match l with [] => None | (x, v) :: l' => if x =? k then Some v else zlookup k l' end.
Fixpoint next_after (o : Z) (l : list Z) : option Z :=
  match l with [] => None | x :: l' => if x =? o then nth_error l' 0 else next_after o l' end.
Definition skip_nocode (id : Z) (s : st) : outcome st :=
  do o <- or_raise (zlookup id (id_positions s)) "KeyError";
  do o' <- or_raise (next_after o (map snd (id_positions s))) "IndexError";
  skip_Nbyte (o' - o - 2) s.
(** io/rdi.py:1276-1294 [read_nocode]: the identifiers whose hexadecimal writing begins with 30 are 0x30,
    0x300 to 0x30f and 0x3000 to 0x30ff; hxid[3] is '0', so that [dfac] is 0; int(hxid[4]) fails when there is
    no such digit or it is a letter *)
Definition read_nocode (id : Z) (s : st) : outcome st :=
  if id =? 48 then Raise "IndexError"
  else if (768 <=? id) && (id <? 784) then (if id - 768 <? 10 then skip_Nbyte 0 s else Raise "ValueError")
  else if (12288 <=? id) && (id <? 12544) then (if (id - 12288) / 16 <? 10 then skip_Nbyte 0 s else Raise "ValueError")
  else skip_nocode id s.

(** io/rdi.py:598-704 [read_dat]: all blocks but those of WinRiver2, whose function alone returns something *)
Definition skip_table : list (Z * Z) :=
  [(259, 74); (515, 186); (524, 4); (1027, 6); (3000, 32); (3841, 38); (8211, 83); (12800, 32); (12288, 32); (12496, 24);
   (12504, 48); (17408, 28); (17409, 82); (22531, 68); (22532, 21); (22785, 65); (22786, 105); (28673, 14)].
Definition ncol_table : list (Z * Z) :=
  [(770, 1); (771, 18); (1793, 4); (1794, 4); (1795, 4); (2560, 1); (2816, 1); (3072, 1); (3328, 1)].
Definition read_known (file : bytes) (id : Z) (s : st) : outcome st :=
  if id =? 0 then read_fixed file false s
  else if id =? 1 then read_fixed file true s
  else if id =? 16 then read_fixed_sl file s
  else if id =? 128 then read_var file false s
  else if id =? 129 then read_var file true s
  else if id =? 256 then read_vel file First s
  else if id =? 257 then read_vel file Second s
  else if id =? 272 then read_vel file Surface s
  else if id =? 512 then read_corr file First s
  else if id =? 513 then read_corr file Second s
  else if id =? 528 then read_corr file Surface s
  else if id =? 768 then read_amp file First s
  else if id =? 769 then read_amp file Second s
  else if id =? 784 then read_amp file Surface s
  else if id =? 1024 then read_prcnt_gd file First s
  else if id =? 1025 then read_prcnt_gd file Second s
  else if id =? 1040 then read_prcnt_gd file Surface s
  else if id =? 1280 then read_status file First s
  else if id =? 1281 then read_status file Second s
  else if id =? 1296 then read_status file Surface s
  else if id =? 1536 then read_bottom file s
  else if id =? 16640 then read_alt file s
  else if id =? 8192 then read_vmdas file s
  else if (8448 <=? id) && (id <=? 8452) then read_winriver file s
  else match zlookup id skip_table with
  | Some n => skip_Nbyte n s
  | None => match zlookup id ncol_table with
    | Some n => skip_Ncol n s
    | None => read_nocode id s
    end
  end.
Definition read_dat (file : bytes) (id : Z) (s : st) : outcome (bool * st) :=
  if id =? 8226 then read_winriver2 file s else do s <- read_known file id s; Ret (true, s).
