(** Model of the attributes that dolfyn/io/nortek.py gives a dataset of an AWAC or a Vector from the three blocks at the head
    of its file: 486-618 and the updates in 298-301, 320-323, 252-256 and 264-267. Not modelled: 'duty_cycle_description'
    (decimal notation of floats), 'prc_dyn_wave_cell_pos' (rounding of floats), 'rotate_vars' and 'has_imu'. *)
From Coq Require Import String.
From Coq Require Import ZArith QArith List Bool.
From Verif.Model Require Import Nortek NortekFile NortekHead.
From Verif.Model Require DateText.
Import ListNotations.
Open Scope Z_scope.

(** a number, a quotient, a text read from the file, a word of the program *)
Inductive attr := AInt (z : Z) | ARat (q : Q) | AText (bs : bytes) | AWord (w : string).
Definition dict := list (string * attr).
(** [words][bit k of the register val], as in nortek.py:584-586 *)
Definition choose (val : Z) (k : nat) (no yes : string) : attr := AWord (if nth k (int2binarray val 16) false then yes else no).
(** str() of a bit, as in nortek.py:561 *)
Definition truth (val : Z) (k : nat) : attr := choose val k "False" "True".

(** str() of a 16-bit number *)
Definition decimal (x : Z) : bytes := DateText.digits (if x <? 10 then 1%nat else if x <? 100 then 2%nat else if x <? 1000 then 3%nat else if x <? 10000 then 4%nat else 5%nat) x.
(** nortek.py:542-544 *)
Definition software_version (x : Z) : bytes := let s := decimal x in firstn 1 s ++ [46] ++ firstn 2 (skipn 1 s) ++ [46] ++ skipn 3 s.
(** nortek.py:606-617 *)
Definition hdw_attrs (tmp : list pyval) : dict :=
  [("serial_number", AText (firstn 8 (str_at tmp 0))); ("ProLogFWver", AText (skipn 10 (str_at tmp 0))); ("PIC_version", AInt (num_at tmp 3));
   ("hardware_rev", AInt (num_at tmp 4)); ("recorder_size_bytes", AInt (num_at tmp 5 * 65536)%Z);
   ("vel_range", choose (num_at tmp 6) 0 "normal" "high"); ("firmware_version", AText (str_at tmp 7))]%string.
(** nortek.py:584-588 *)
Definition head_attrs (tmp : list pyval) : dict :=
  [("pressure_sensor", choose (num_at tmp 0) 0 "no" "yes"); ("compass", choose (num_at tmp 0) 1 "no" "yes");
   ("tilt_sensor", choose (num_at tmp 0) 2 "no" "yes"); ("carrier_freq_kHz", AInt (num_at tmp 1))]%string.
(** nortek.py:508-517: the timing control register; ~ of a number is never 0 except of -1, so burst_mode is always true *)
Definition tim_attrs (tmp : list pyval) : dict :=
  [("profile_mode", choose (num_at tmp 8) 1 "single" "continuous"); ("burst_mode", AWord "True");
   ("power_level", AInt ((if nth 5 (int2binarray (num_at tmp 8) 16) false then 1 else 0) + 2 * (if nth 6 (int2binarray (num_at tmp 8) 16) false then 1 else 0) + 1)%Z);
   ("sync_out_pos", choose (num_at tmp 8) 7 "middle" "end"); ("sample_on_sync", truth (num_at tmp 8) 8); ("start_on_sync", truth (num_at tmp 8) 9)]%string.
(** nortek.py:508, 523-547, 561-567 *)
Definition usr_attrs (tmp : list pyval) : dict :=
  [("n_beams", AInt (num_at tmp 7)); ("compass_update_rate", AInt (num_at tmp 13)); ("n_bins", AInt (num_at tmp 15));
   ("deployment_name", AText (before_zero (str_at tmp 18))); ("wrap_mode", AWord (if (num_at tmp 19 =? 0)%Z then "False" else "True"));
   ("analog_in", AInt (num_at tmp 30)); ("software_version", AText (software_version (num_at tmp 31))); ("salinity", ARat (inject_Z (num_at tmp 32) / 10)%Q); ("comments", AText (before_zero (str_at tmp 123)));
   ("user_specified_sound_speed", truth (num_at tmp 24) 0); ("analog_output", truth (num_at tmp 24) 2);
   ("output_format", choose (num_at tmp 24) 3 "Vector" "ADV"); ("serial_output", truth (num_at tmp 24) 5);
   ("power_output_analog", truth (num_at tmp 24) 8)]%string.
(** nortek.py:506 *)
Definition adv_attrs (tmp : list pyval) : dict := [("n_pings_per_burst", AInt (num_at tmp 5))]%string.
(** nortek.py:507, 548-554, 562, 570-573 *)
Definition awac_attrs (tmp : list pyval) : dict :=
  [("avg_interval", AInt (num_at tmp 6));
   ("wave_processing_method", AWord (nth (Z.to_nat (num_at tmp 124)) ["PUV"; "SUV"; "MLM"; "MLMST"; "None"] ""));
   ("wave_cell_size", AInt (num_at tmp 129)); ("n_samples_wave", AInt (num_at tmp 130)); ("wave_mode", choose (num_at tmp 24) 1 "Disabled" "Enabled");
   ("wave_fs", choose (num_at tmp 125) 0 "1 Hz" "2 Hz"); ("wave_cell_position", choose (num_at tmp 125) 1 "fixed" "dynamic");
   ("type_wave_cell_pos", choose (num_at tmp 125) 2 "pct_of_mean_pressure" "pct_of_min_re")]%string.
(** nortek.py:253-256 *)
Definition duty_attrs (tmp : list pyval) : dict :=
  if 0 <? num_at tmp 131 then [("duty_cycle_n_burst", AInt (num_at tmp 131)); ("duty_cycle_interval", AInt (num_at tmp 17))]%string else [].
(** nortek.py:292-294, 314-316 *)
Definition inst_attrs (k : instrument) : dict :=
  [("inst_make", AWord "Nortek"); ("inst_model", AWord (match k with Awac => "AWAC" | _ => "Vector" end));
   ("inst_type", AWord (match k with Awac => "ADCP" | _ => "ADV" end))]%string.

(** the values of a block, when it is read without an exception: nortek.py:494-496, 582, 606 *)
Definition values {A} (e : endian) (fmt : list item) (f : endian -> bytes -> option A) (byts : bytes) : option (list pyval) :=
  match f e byts with Some _ => unpack e fmt byts | None => None end.
(** the attributes of the dataset, nortek.py:213-233, 252-267, 298-301, 320-323; [None] is an exception *)
Definition read_attrs (cs : bool) (nens : option nat) (file : bytes) : option dict :=
  match open_nortek cs nens file with
  | None => None
  | Some o =>
    let e := rendian (o_reader o) in let k := rinst (o_reader o) in
    match head_block e cs file 0 5 44 (values e hw_fmt read_hw) with
    | Some (hw, p) =>
      match head_block e cs file p 4 220 (values e head_fmt read_head) with
      | Some (head, q) =>
        match head_block e cs file q 0 508 (values e user_fmt read_user) with
        | Some (usr, _) =>
          Some (inst_attrs k ++ tim_attrs usr ++ usr_attrs usr ++ (match k with Awac => awac_attrs usr | _ => adv_attrs usr end) ++ head_attrs head ++ hdw_attrs hw ++
                duty_attrs usr ++ [("fs", ARat (ReadVector.g_fs (o_cfg o))); ("coord_sys", AWord (o_frame o))]%string)
        | None => None
        end
      | None => None
      end
    | None => None
    end
  end.
