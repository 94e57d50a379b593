(** Model of dolfyn/io/nortek2_defs.py and of the bit fields and [_collapse] of dolfyn/io/nortek2_lib.py. *)
From Coq Require Import String.
From Coq Require Import ZArith List Bool.
From Verif.Model Require Import Nortek.
Import ListNotations.
Open Scope Z_scope.

(** ** Layouts: nortek2_defs.py:31-140 [_DataDef] *)
(** the format characters used in the file; a float is represented by its 32 bits *)
Inductive kind := U8 | S8 | U16 | S16 | U32 | S32 | F32.
Definition ksize (k : kind) : nat := match k with U8 | S8 => 1 | U16 | S16 => 2 | U32 | S32 | F32 => 4 end.
Definition ksigned (k : kind) : bool := match k with S8 | S16 | S32 => true | _ => false end.
(** one definition: a format character, the bytes skipped after it ('B7x', 'H22x'), a shape *)
Record field := Field { fname : string; fkind : kind; fskip : nat; fshape : list nat }.
Definition layout := list field.
Definition prod (l : list nat) : nat := fold_right Nat.mul 1%nat l.
(** nortek2_defs.py:55-58 [_N] *)
Definition fN (f : field) : nat := match fshape f with [] => 1%nat | s => prod s end.
(** nortek2_defs.py:22-28 [_format]: a count is written only when it is greater than one *)
Definition fcount (f : field) : nat := if (1 <? fN f)%nat then fN f else 1%nat.
Definition fsize (f : field) : nat := (fcount f * ksize (fkind f) + fskip f)%nat.
(** nortek2_defs.py:59-60: format '<', no padding *)
Definition nbyte (l : layout) : nat := fold_right Nat.add 0%nat (map fsize l).

Fixpoint le (bs : bytes) : Z := match bs with [] => 0 | b :: bs' => b + 256 * le bs' end.
Definition value (k : kind) (bs : bytes) : Z :=
  let v := le bs in
  let m := 2 ^ (8 * Z.of_nat (ksize k)) in
  if ksigned k && (m / 2 <=? v) then v - m else v.
Fixpoint values (k : kind) (n : nat) (bs : bytes) : list Z :=
  match n with O => [] | S n' => value k (firstn (ksize k) bs) :: values k n' (skipn (ksize k) bs) end.
(** struct.unpack *)
Fixpoint unpack (l : layout) (bs : bytes) : list Z :=
  match l with
  | [] => []
  | f :: l' => values (fkind f) (fcount f) bs ++ unpack l' (skipn (fsize f) bs)
  end.
(** nortek2_defs.py:98-106: one entry for each definition; a number is a list with one element *)
Fixpoint split_fields (l : layout) (dat : list Z) : list (list Z) :=
  match l with
  | [] => []
  | f :: l' => firstn (fN f) dat :: split_fields l' (skipn (fN f) dat)
  end.

(** nortek2_defs.py:80-97 [read]: the argument cs; False is the default of [read2dict] (line 109) *)
Inductive csarg := CsNone | CsTrue | CsFalse | CsVal (v : Z).
Definition cs0 : Z := 46476.
(** whether the test lets the block pass; '{}H'.format(nbyte // 2) does not unpack an odd number of bytes *)
Definition cs_ok (cs : csarg) (bs : bytes) (dat : list Z) : bool :=
  let res := fun off => (total (words LE bs) + off) mod 65536 in
  match cs with
  | CsNone => true
  | CsTrue => Nat.even (length bs) && (res (cs0 - last dat 0) =? last dat 0)
  | CsFalse => Nat.even (length bs)
  | CsVal v => Nat.even (length bs) && (res cs0 =? v)
  end.
(** the fields and the bytes that are left; [None] is an exception *)
Definition read (l : layout) (cs : csarg) (bs : bytes) : option (list (list Z) * bytes) :=
  let block := firstn (nbyte l) bs in
  if Nat.eqb (length block) (nbyte l) then
    let dat := unpack l block in
    if cs_ok cs block dat then Some (split_fields l dat, skipn (nbyte l) bs) else None
  else None.

Definition scalar (n : string) (k : kind) : field := Field n k 0 [].
(** nortek2_defs.py:168-176 *)
Definition header : layout :=
  map (fun n => scalar n U8) ["sync"; "hsz"; "id"; "fam"]%string ++ map (fun n => scalar n U16) ["sz"; "cs"; "hcs"]%string.
(** nortek2.py:256-260 [_read_hdr] with its default do_cs, 268-270 [_read_burst] *)
Definition read_hdr (bs : bytes) : option (list (list Z) * bytes) :=
  match read header CsFalse bs with
  | Some (out, rest) => if nth 0 (nth 0 out []) 0 =? 165 then Some (out, rest) else None
  | None => None
  end.
Definition read_burst (l : layout) (bs : bytes) : option (list (list Z) * bytes) := read l CsNone bs.
(** nortek2_defs.py:178-224 *)
Definition burst_hdr : layout :=
  [scalar "ver" U8; scalar "DatOffset" U8; scalar "config" U16; scalar "SerialNum" U32; scalar "year" U8; scalar "month" U8;
   scalar "day" U8; scalar "hour" U8; scalar "minute" U8; scalar "second" U8; scalar "usec100" U16; scalar "c_sound" U16;
   scalar "temp" U16; scalar "pressure" U32; scalar "heading" U16; scalar "pitch" S16; scalar "roll" S16;
   scalar "beam_config" U16; scalar "cell_size" U16; scalar "blank_dist" U16; scalar "nominal_corr" U8; scalar "temp_press" U8;
   scalar "batt" U16; Field "mag" S16 0 [3%nat]; Field "accel" S16 0 [3%nat]; scalar "ambig_vel" S16; scalar "data_desc" U16;
   scalar "xmit_energy" U16; scalar "vel_scale" S8; scalar "power_level_dB" S8; scalar "temp_mag" S16; scalar "temp_clock" S16;
   scalar "error" U16; scalar "status0" U16; scalar "status" U32; scalar "_ensemble" U32]%string.
(** nortek2_defs.py:226-270 *)
Definition bt_hdr : layout :=
  [scalar "ver" U8; scalar "DatOffset" U8; scalar "config" U16; scalar "SerialNum" U32; scalar "year" U8; scalar "month" U8;
   scalar "day" U8; scalar "hour" U8; scalar "minute" U8; scalar "second" U8; scalar "usec100" U16; scalar "c_sound" U16;
   scalar "temp" U16; scalar "pressure" U32; scalar "heading" U16; scalar "pitch" S16; scalar "roll" S16;
   scalar "beam_config" U16; scalar "cell_size" U16; scalar "blank_dist" U16; scalar "nominal_corr" U8; scalar "unused" U8;
   scalar "batt" U16; Field "mag" S16 0 [3%nat]; Field "accel" S16 0 [3%nat]; scalar "ambig_vel" U32; scalar "data_desc" U16;
   scalar "xmit_energy" U16; scalar "vel_scale" S8; scalar "power_level_dB" S8; scalar "temp_mag" S16; scalar "temp_clock" S16;
   scalar "error" U32; scalar "status" U32; scalar "_ensemble" U32]%string.
(** nortek2_defs.py:273-277 *)
Definition ahrs_def : layout :=
  [Field "orientmat" F32 0 [3%nat; 3%nat]; Field "quaternions" F32 0 [4%nat]; Field "angrt" F32 0 [3%nat]]%string.

(** ** Bit fields: nortek2_lib.py:290-343 *)
(** [_BitIndexer.__getitem__] with a slice, both ends given, the first at most the second; the type of
    the result holds every value below the mask *)
Definition bits (data : Z) (start stop : Z) : Z := Z.land (Z.shiftr data start) (2 ^ (stop - start) - 1).
Definition bit1 (data n : Z) : Z := bits data n (n + 1).
Definition getbit (val n : Z) : bool := negb (Z.land (Z.shiftr val n) 1 =? 0).

(** nortek2_lib.py:345-384 [_headconfig_int2dict] *)
Inductive mode := BurstMode | AvgMode | BtMode.
Definition headconfig (val : Z) (m : mode) : list (string * bool) :=
  match m with
  | BtMode => map (fun p => (fst p, getbit val (snd p)))
      [("press_valid", 0); ("temp_valid", 1); ("compass_valid", 2); ("tilt_valid", 3); ("vel", 5); ("dist", 8); ("fom", 9); ("ahrs", 10)]%string
  | _ => map (fun p => (fst p, getbit val (snd p)))
      [("press_valid", 0); ("temp_valid", 1); ("compass_valid", 2); ("tilt_valid", 3); ("vel", 5); ("amp", 6); ("corr", 7); ("le", 8);
       ("altraw", 9); ("ast", 10); ("echo", 11); ("ahrs", 12); ("p_gd", 13); ("std", 14)]%string
  end.
Fixpoint flag (l : list (string * bool)) (nm : string) : bool :=
  match l with [] => false | (n, b) :: l' => if String.eqb n nm then b else flag l' nm end.

(** nortek2_lib.py:400-418 [_status2data], the numbers only *)
Definition status2data (val : Z) : list (string * Z) :=
  [("wakeup_state", bits val 28 32); ("orient_up", bits val 25 28); ("auto_orientation", bits val 22 25);
   ("previous_wakeup_state", bits val 18 22); ("low_volt_skip", bit1 val 17); ("active_config", bit1 val 16);
   ("echo_index", bits val 12 16); ("telemetry_data", bit1 val 11); ("boost_running", bit1 val 10);
   ("echo_freq_bin", bits val 5 10); ("bd_scaling", bit1 val 1)]%string.
(** nortek2_lib.py:421-432 [_alt_status2data] *)
Definition alt_status2data (val : Z) : list (string * Z) :=
  [("tilt_over_5deg", bit1 val 0); ("tilt_over_10deg", bit1 val 1); ("multibeam_alt", bit1 val 2);
   ("n_beams_alt", bits val 3 7); ("power_level_idx_alt", bits val 7 10)]%string.

(** nortek2_lib.py:435-445 [_beams_cy_int2dict] *)
Inductive axes := ENU | XYZ | Beam | NoAxes.
Record beams_cy := BeamsCy { n_cells : Z; cy : option axes; n_beams : option Z }.
Definition beams_cy_int2dict (val id : Z) : beams_cy :=
  if id =? 28 then BeamsCy val None None
  else if (id =? 26) || (id =? 31) then BeamsCy (Z.land val (2 ^ 10 - 1)) (Some Beam) (Some 1)
  else BeamsCy (Z.land val (2 ^ 10 - 1))
         (Some (nth (Z.to_nat (Z.land (Z.shiftr val 10) 3)) [ENU; XYZ; Beam; NoAxes] NoAxes)) (Some (Z.shiftr val 12)).

(** nortek2_defs.py:280-292 [_calc_bt_struct] *)
Definition calc_bt_struct (config : Z) (nb : nat) : layout :=
  let f := headconfig config BtMode in
  bt_hdr ++ (if flag f "vel" then [Field "vel" S32 0 [nb]] else []) ++
  (if flag f "dist" then [Field "dist" S32 0 [nb]] else []) ++
  (if flag f "fom" then [Field "fom" U16 0 [nb]] else []) ++
  (if flag f "ahrs" then ahrs_def else []).
(** nortek2_defs.py:295-307 [_calc_echo_struct]; [None] is the exception *)
Definition calc_echo_struct (config : Z) (nc : nat) : option layout :=
  let f := headconfig config BurstMode in
  if existsb (flag f) ["vel"; "amp"; "corr"; "le"; "ast"; "altraw"; "p_gd"; "std"]%string then None
  else Some (burst_hdr ++ (if flag f "echo" then [Field "echo" U16 0 [nc]] else []) ++ (if flag f "ahrs" then ahrs_def else [])).
(** nortek2_defs.py:310-368 [_calc_burst_struct] *)
Definition calc_burst_struct (config : Z) (nb nc : nat) : option layout :=
  let f := headconfig config BurstMode in
  if flag f "echo" then None
  else Some (burst_hdr ++
    (if flag f "vel" then [Field "vel" S16 0 [nb; nc]] else []) ++
    (if flag f "amp" then [Field "amp" U8 0 [nb; nc]] else []) ++
    (if flag f "corr" then [Field "corr" U8 0 [nb; nc]] else []) ++
    (if flag f "le" then [scalar "le_dist_alt" F32; scalar "le_quality_alt" U16; scalar "status_alt" U16] else []) ++
    (if flag f "ast" then [scalar "ast_dist_alt" F32; scalar "ast_quality_alt" U16; scalar "ast_offset_time_alt" S16;
                           scalar "pressure_alt" F32; Field "spare" U8 7 []] else []) ++
    (if flag f "altraw" then [scalar "nsamp_alt" U32; scalar "dsamp_alt" U16; scalar "samp_alt" S16] else []) ++
    (if flag f "ahrs" then ahrs_def else []) ++
    (if flag f "p_gd" then [Field "percent_good" U8 0 [nc]] else []) ++
    (if flag f "std" then [scalar "pitch_std" S16; scalar "roll_std" S16; scalar "heading_std" S16; scalar "press_std" S16;
                           Field "std_spare" U16 22 []] else [])).

(** ** nortek2.py:292-329: the layout of raw altimeter pings *)
(** struct.calcsize without '<' (nortek2.py:302, 317): native alignment *)
Definition align (p : nat) (k : kind) : nat := ((p + ksize k - 1) / ksize k * ksize k)%nat.
Definition native_end (p : nat) (f : field) : nat := (align p (fkind f) + fcount f * ksize (fkind f) + fskip f)%nat.
Definition calcsize_native (l : layout) : nat := fold_left native_end l 0%nat.
(** the number of samples goes into the third definition from 'nsamp_alt' on *)
Definition with_samples (sz : nat) (l : layout) : layout :=
  map (fun f => if String.eqb (fname f) "samp_alt" then Field (fname f) (fkind f) (fskip f) [sz] else f) l.
(** nortek2.py:312-319 and 323: whether a block with these samples is read: [nbyte] becomes the native
    size, and unpack insists on its own size *)
Definition altraw_read (sz : nat) (l : layout) (bs : bytes) : option (list (list Z) * bytes) :=
  let l' := with_samples sz l in
  let block := firstn (calcsize_native l') bs in
  if Nat.eqb (length block) (calcsize_native l') then
    if Nat.eqb (length block) (nbyte l') then Some (split_fields l' (unpack l' block), skipn (nbyte l') bs) else None
  else None.

(** ** nortek2_lib.py:448-479 [_isuniform], [_collapse]; warnings are not modelled *)
Definition zmem (x : Z) (l : list Z) : bool := existsb (Z.eqb x) l.
Fixpoint insert (x : Z) (l : list Z) : list Z :=
  match l with [] => [x] | y :: l' => if x <? y then x :: l else if x =? y then l else y :: insert x l' end.
(** numpy.unique *)
Definition unique (vec : list Z) : list Z := fold_right insert [] vec.
Definition count (vec : list Z) (x : Z) : nat := length (filter (Z.eqb x) vec).
Definition isuniform (vec exclude : list Z) : bool :=
  match exclude with
  | [] => match vec with [] => false | x :: vec' => forallb (Z.eqb x) vec' end
  | _ => (length (filter (fun x => negb (zmem x exclude)) (unique vec)) <=? 1)%nat
  end.
(** the first entry with the greatest count (numpy.argmax) *)
Fixpoint argmax_by (f : Z -> nat) (best : Z) (l : list Z) : Z :=
  match l with [] => best | x :: l' => argmax_by f (if (f best <? f x)%nat then x else best) l' end.
(** [None] is an IndexError: an empty vector *)
Definition collapse (vec exclude : list Z) : option Z :=
  match vec with
  | [] => None
  | x :: _ =>
    if isuniform vec [] then Some x
    else if isuniform vec exclude then
      match filter (fun x => negb (zmem x exclude)) (unique vec) with y :: _ => Some y | [] => None end
    else
      match unique vec with
      | [] => None
      | u :: us =>
        if forallb (fun e => Nat.eqb (count vec e) (count vec u)) (u :: us) then Some (fold_right Z.max x vec)
        else Some (argmax_by (count vec) u us)
      end
  end.
