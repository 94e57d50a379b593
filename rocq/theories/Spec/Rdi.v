(** TRDI files as the manual of the PD0 format describes them: ensembles of blocks. Byte numbers count
    from 1 and include the identifier of the block. *)
From Coq Require Import String.
From Coq Require Import ZArith QArith List Bool.
From Verif.Model Require Import Nortek.
From Verif.Model Require RdiBlocks.
Import ListNotations.
Open Scope string_scope.
Open Scope list_scope.
Open Scope Z_scope.

Definition le16 (w : Z) : bytes := [w mod 256; w / 256].
Definition len {A} (l : list A) : Z := Z.of_nat (length l).
(** a block is its identifier and the bytes after it *)
Record pd0 := Pd0 { spare : Z; blocks : list (Z * bytes); reserved : bytes; checksum : bytes }.
Definition block_bytes (b : Z * bytes) : bytes := le16 (fst b) ++ snd b.
Definition body (e : pd0) : bytes := concat (map block_bytes (blocks e)).
Definition head_size (e : pd0) : Z := 6 + 2 * len (blocks e).
(** the number of bytes in the ensemble, the checksum not counted *)
Definition nbytes (e : pd0) : Z := head_size e + len (body e) + 2.
(** where the blocks begin *)
Fixpoint offsets_from (o : Z) (l : list (Z * bytes)) : list Z :=
  match l with [] => [] | b :: l' => o :: offsets_from (o + len (block_bytes b)) l' end.
Definition unchecked (e : pd0) : bytes :=
  [127; 127] ++ le16 (nbytes e) ++ [spare e; len (blocks e)] ++
  concat (map le16 (offsets_from (head_size e) (blocks e))) ++ body e ++ reserved e.
Definition encode (e : pd0) : bytes := unchecked e ++ checksum e.
Definition file_of (es : list pd0) : bytes := concat (map encode es).
(** the checksum is the sum of all bytes before it *)
Definition checksum_right (e : pd0) : Prop := checksum e = le16 (total (unchecked e) mod 65536).

(** the integer in [width] bytes from byte number [first] on, low byte first *)
Definition uint (b : bytes) (first width : nat) : Z :=
  total (map (fun j => nth (first - 1 + j) b 0 * 256 ^ Z.of_nat j) (seq 0 width)).
Definition sint (b : bytes) (first width : nat) : Z :=
  let u := uint b first width in if 2 * u <? 256 ^ Z.of_nat width then u else u - 256 ^ Z.of_nat width.

(** ** The fixed leader *)
Definition version (fixed : bytes) : Z := uint fixed 3 1.
Definition firmware (fixed : bytes) : Q := inject_Z (version fixed) + inject_Z (uint fixed 4 1) * (1 # 100).
Definition cells (fixed : bytes) : Z := uint fixed 10 1.
(** broadband instruments and ocean surveyors have other variable leaders *)
Definition workhorse_like (fixed : bytes) : bool := negb (existsb (Z.eqb (version fixed)) [4; 5; 14; 23]).
(** its length, identifier included *)
Definition fixed_length (v : Q) : Z :=
  if Qle_bool (1627 # 100) v then 59 else if Qle_bool (1605 # 100) v then 53
  else if Qle_bool (824 # 100) v then 52 else if Qle_bool (814 # 100) v then 50 else 42.
(** codes that are defined: beam angle, frequency, real data *)
Definition fixed_sound (fixed : bytes) : Prop :=
  fixed_length (firmware fixed) <= len fixed /\
  uint fixed 6 1 mod 4 <> 3 /\ uint fixed 5 1 mod 8 <> 7 /\ uint fixed 7 1 < 2.

(** instruments by the version of their firmware, in lower case *)
Definition instruments : list (string * list Z) :=
  [("broadband", [4; 5]); ("navigator", [6; 19; 37; 53]); ("rio grande", [10]); ("h-adcp", [11]); ("ocean surveyor", [14; 23]);
   ("workhorse", [16; 43; 50; 51; 52; 77; 78]); ("channelmaster", [28]); ("streampro", [31]); ("explorer", [34]); ("dvs", [41; 55]);
   ("riverray", [44]); ("sentinelv", [47; 66]); ("riverpro", [56]); ("meridian", [59]); ("pinnacle", [61]); ("pathfinder", [67]);
   ("pioneer", [73]); ("tasman", [74]); ("wayfinder", [76])].
Definition instrument (fixed : bytes) : string :=
  match find (fun p => existsb (Z.eqb (version fixed)) (snd p)) instruments with Some p => fst p | None => "unrecognized firmware version" end.

(** ** Blocks *)
(** blocks that are not decoded *)
Definition auxiliary : list Z :=
  [259; 515; 524; 1027; 3000; 3841; 8211; 12800; 12288; 12496; 12504; 17408; 17409; 22531; 22532; 22785; 22786; 28673;
   770; 771; 1793; 1794; 1795; 2560; 2816; 3072; 3328].
(** the least length of a block, identifier included; [None] for blocks that the statements do not cover *)
Definition least_length (fixed : bytes) (id : Z) : option Z :=
  let v := firmware fixed in
  if id =? 128 then Some (
    if existsb (Z.eqb (version fixed)) [4; 5] then (if Qle_bool (555 # 100) v then 65 else 42)
    else if existsb (Z.eqb (version fixed)) [14; 23] then 60
    else if Qle_bool 56 v then 66 else if Qle_bool (1605 # 100) v then 65 else if Qle_bool (824 # 100) v then 57
    else if Qle_bool (813 # 100) v then 56 else 46)
  else if id =? 256 then Some (2 + 8 * cells fixed)
  else if existsb (Z.eqb id) [512; 768; 1024; 1280] then Some (2 + 4 * cells fixed)
  else if id =? 1536 then Some (
    if Qle_bool (53 # 10) v then 81 else 70)
  else if id =? 16640 then Some 9
  else if existsb (Z.eqb id) auxiliary then Some 2
  else None.
Definition is_byte (b : Z) : Prop := 0 <= b < 256.
Definition sound_block (fixed : bytes) (b : Z * bytes) : Prop :=
  exists n, least_length fixed (fst b) = Some n /\ n <= len (block_bytes b).

(** an ensemble with [n] cells: a fixed leader, then other blocks of different kinds, one of them the
    variable leader *)
Record sound (n : Z) (e : pd0) : Prop := {
  has_fixed : exists fixed rest, blocks e = (0, fixed) :: rest /\ fixed_sound (block_bytes (0, fixed)) /\
     cells (block_bytes (0, fixed)) = n /\ In 128 (map fst rest) /\ Forall (sound_block (block_bytes (0, fixed))) rest;
  kinds : NoDup (map fst (blocks e));
  few_blocks : len (blocks e) < 256;
  small : nbytes e < 32768;
  two_reserved : length (reserved e) = 2%nat;
  two_checksum : length (checksum e) = 2%nat;
  bytes_ok : is_byte (spare e) /\ Forall is_byte (reserved e) /\ Forall is_byte (checksum e) /\
     Forall (fun b => 0 <= fst b < 65536 /\ Forall is_byte (snd b)) (blocks e) }.

(** ** The variables: where they are *)
Record field := Field { f_id : Z; f_byte : nat; f_width : nat; f_signed : bool; f_count : nat; f_scale : Q; f_missing : option Z }.
Definition field_at (f : field) (b : bytes) (j : nat) : option Q :=
  let first := (f_byte f + j * f_width f)%nat in
  let v := if f_signed f then sint b first (f_width f) else uint b first (f_width f) in
  match f_missing f with
  | Some m => if v =? m then None else Some (inject_Z v * f_scale f)%Q
  | None => Some (inject_Z v * f_scale f)%Q
  end.
Definition field_value (f : field) (b : bytes) : list (option Q) := map (field_at f b) (seq 0 (f_count f)).
Definition variables (fixed : bytes) : list (string * field) :=
  let nc := Z.to_nat (4 * cells fixed) in
  [("c_sound", Field 128 15 2 false 1 1 None);
   ("depth", Field 128 17 2 false 1 (1 # 10) None);
   ("heading", Field 128 19 2 false 1 (1 # 100) None);
   ("pitch", Field 128 21 2 true 1 (1 # 100) None);
   ("roll", Field 128 23 2 true 1 (1 # 100) None);
   ("salinity", Field 128 25 2 true 1 1 None);
   ("temp", Field 128 27 2 true 1 (1 # 100) None);
   ("heading_std", Field 128 32 1 false 1 1 None);
   ("pitch_std", Field 128 33 1 false 1 (1 # 10) None);
   ("roll_std", Field 128 34 1 false 1 (1 # 10) None);
   ("adc", Field 128 35 1 false 8 1 None);
   ("vel", Field 256 3 2 true nc (1 # 1000) (Some (-32768)));
   ("corr", Field 512 3 1 false nc 1 None);
   ("amp", Field 768 3 1 false nc 1 None);
   ("prcnt_gd", Field 1024 3 1 false nc 1 None);
   ("status", Field 1280 3 1 false nc 1 None);
   ("vel_bt", Field 1536 25 2 true 4 (1 # 1000) None);
   ("corr_bt", Field 1536 33 1 false 4 1 None);
   ("amp_bt", Field 1536 37 1 false 4 1 None);
   ("prcnt_gd_bt", Field 1536 41 1 false 4 1 None);
   ("alt_eval", Field 16640 3 1 false 1 1 None);
   ("alt_rssi", Field 16640 4 1 false 1 1 None);
   ("alt_dist", Field 16640 5 4 false 1 (1 # 1000) None);
   ("alt_status", Field 16640 9 1 false 1 1 None)] ++
  (if workhorse_like fixed && Qle_bool (813 # 100) (firmware fixed) then
    [("pressure", Field 128 49 4 false 1 (1 # 1000) None); ("pressure_std", Field 128 53 4 false 1 (1 # 1000) None)] else []).

(** the navigation block of VMDAS, identifier 8192: angles are fractions of the circle in 32 or 16 bits *)
Definition navigation : list (string * field) :=
  [("clock_offset_UTC_gps", Field 8192 11 4 true 1 (1 # 1000) None);
   ("latitude_gps", Field 8192 27 4 true 1 (180 # 2147483648) None);
   ("longitude_gps", Field 8192 31 4 true 1 (180 # 2147483648) None);
   ("avg_speed_gps", Field 8192 35 2 false 1 (1 # 1000) None);
   ("avg_dir_gps", Field 8192 37 2 false 1 (180 # 32768) None);
   ("speed_made_good_gps", Field 8192 41 2 false 1 (1 # 1000) None);
   ("dir_made_good_gps", Field 8192 43 2 false 1 (180 # 32768) None);
   ("heading_gps", Field 8192 67 2 false 1 (180 # 32768) None)].
(** pitch and roll have a sign *)
Definition navigation_tilts : list (string * field) :=
  [("pitch_gps", Field 8192 63 2 true 1 (180 # 32768) None);
   ("roll_gps", Field 8192 65 2 true 1 (180 # 32768) None)].
(** its two dates are dates *)
Definition navigation_dates (b : bytes) : bool :=
  valid_date (Date (uint b 5 2) (uint b 4 1) (uint b 3 1) 0 0 0) && valid_date (Date (uint b 55 2) (uint b 58 1) (uint b 57 1) 0 0 0).

(** the bottom track range of a beam in metres: 24 bits counting centimetres from firmware 5.3 on *)
Definition range_bt (fixed b : bytes) (beam : nat) : Q :=
  (inject_Z (uint b (17 + 2 * beam) 2 +
    (if Qle_bool (53 # 10) (firmware fixed) then 65536 * uint b (78 + beam) 1 else 0)) * (1 # 100))%Q.
(** the ensemble number: 24 bits *)
Definition ensemble_number (b : bytes) : Z := uint b 3 2 + 65536 * uint b 12 1.
(** the clock: bytes 58 to 65 with the century where the firmware writes them, else bytes 5 to 11, in this century *)
Definition y2k (fixed : bytes) : bool :=
  (existsb (Z.eqb (version fixed)) [4; 5] && Qle_bool (555 # 100) (firmware fixed)) ||
  (workhorse_like fixed && Qle_bool (1605 # 100) (firmware fixed)).
Definition year (fixed b : bytes) : Z := if y2k fixed then 100 * uint b 58 1 + uint b 59 1 else 2000 + uint b 5 1.
(** no year before 100, no year above 99 without century *)
Definition year_sound (fixed b : bytes) : Prop := if y2k fixed then 100 <= year fixed b else uint b 5 1 < 100.
Definition time_of (fixed b : bytes) : option (date * Z) :=
  let o := if y2k fixed then 60%nat else 6%nat in
  let d := Date (year fixed b) (uint b o 1) (uint b (o + 1) 1) (uint b (o + 2) 1) (uint b (o + 3) 1) (uint b (o + 4) 1) in
  let hs := uint b (o + 5) 1 in
  if valid_date d && (hs <? 100) then Some (d, hs) else None.
(** apart from the two with which it begins, no two bytes 127 at a distance of at most two, the next ensemble included *)
Definition quiet (e : pd0) : Prop := forall i j : nat, (2 <= i)%nat -> (i < j <= i + 2)%nat ->
  nth i (encode e ++ [127]) 0 = 127 -> nth j (encode e ++ [127]) 0 <> 127.

(** the bytes [data] lie in the file from position [p] on *)
Definition lies_at (file : bytes) (p : Z) (data : bytes) : Prop := exists pre post, file = pre ++ data ++ post /\ p = Z.of_nat (length pre).

(** ** The settings in the fixed leader *)
Definition bit (b : bytes) (byte : nat) (k : Z) : bool := Z.testbit (uint b byte 1) k.
Definition code (b : bytes) (byte : nat) (low width : Z) : nat := Z.to_nat (uint b byte 1 / 2 ^ low mod 2 ^ width).
Definition yes_no (b : bool) : string := if b then "yes" else "no".
Definition settings (b : bytes) : list (string * RdiBlocks.cval) :=
  let whole first width := RdiBlocks.CZ (uint b first width) in
  let centi q := RdiBlocks.CQ (inject_Z q * (1 # 100)) in
  [("prog_ver", RdiBlocks.CQ (firmware b));
   ("freq", RdiBlocks.CZ (nth (code b 5 0 3) [75; 150; 300; 600; 1200; 2400; 38] 0));
   ("beam_pattern", RdiBlocks.CS (if bit b 5 3 then "convex" else "concave"));
   ("orientation", RdiBlocks.CS (if bit b 5 7 then "up" else "down"));
   ("beam_angle", if Qle_bool (1627 # 100) (firmware b) then whole 59%nat 1%nat else RdiBlocks.CZ (nth (code b 6 0 2) [15; 20; 30] 0));
   ("n_beams", RdiBlocks.CZ (uint b 9 1 + if bit b 6 4 then 1 else 0));
   ("n_cells", whole 10%nat 1%nat);
   ("pings_per_ensemble", whole 11%nat 2%nat);
   ("cell_size", centi (uint b 13 2));
   ("blank_dist", centi (uint b 15 2));
   ("profiling_mode", whole 17%nat 1%nat);
   ("min_corr_threshold", whole 18%nat 1%nat);
   ("n_code_reps", whole 19%nat 1%nat);
   ("min_prcnt_gd", whole 20%nat 1%nat);
   ("max_error_vel", RdiBlocks.CQ (inject_Z (uint b 21 2) * (1 # 1000)));
   ("sec_between_ping_groups", RdiBlocks.CQ (inject_Z (uint b 23 1) * 60 + inject_Z (uint b 24 1) + inject_Z (uint b 25 1) * (1 # 100)));
   ("coord_sys", RdiBlocks.CS (nth (code b 26 3 2) ["beam"; "inst"; "ship"; "earth"] ""));
   ("use_pitchroll", RdiBlocks.CS (yes_no (bit b 26 2)));
   ("use_3beam", RdiBlocks.CS (yes_no (bit b 26 1)));
   ("bin_mapping", RdiBlocks.CS (yes_no (bit b 26 0)));
   ("heading_misalign_deg", centi (sint b 27 2));
   ("magnetic_var_deg", centi (sint b 29 2));
   ("bin1_dist_m", centi (uint b 33 2));
   ("transmit_pulse_m", centi (uint b 35 2));
   ("water_ref_cells", RdiBlocks.CL [uint b 37 1; uint b 38 1]);
   ("false_target_threshold", whole 39%nat 1%nat);
   ("transmit_lag_m", centi (uint b 41 2))] ++
  (if Qle_bool (824 # 100) (firmware b) then [("bandwidth", whole 51%nat 2%nat)] else []) ++
  (if Qle_bool (1605 # 100) (firmware b) then [("power_level", whole 53%nat 1%nat)] else []) ++
  (if Qle_bool (1627 # 100) (firmware b) then [("serialnum", whole 55%nat 4%nat)] else []) ++
  [("inst_model", RdiBlocks.CS (instrument b))].
