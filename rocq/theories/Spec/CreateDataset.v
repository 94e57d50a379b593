(** What the axes of the variables of a dataset should be, variable by variable, for the three families of readers.
    A layout lists the variables a reader can produce with the axes each should be on. *)
From Coq Require Import String.
From Coq Require Import List Bool Arith.
From Verif.Model Require Import SigData CreateDataset.
Import ListNotations.
Open Scope string_scope.

(** a variable and the axes it should be on *)
Definition layout : Type := dict (list string).

(** *** Signature (nortek2.py:483-508): the kinds of record are told apart by a tag *)
Definition sig_scalars : list string :=
  ["c_sound"; "temp"; "pressure"; "heading"; "pitch"; "roll"; "batt"; "temp_clock"; "error"; "status"; "ensemble";
   "pressure_alt"; "le_dist_alt"; "le_quality_alt"; "status_alt"; "ast_dist_alt"; "ast_quality_alt"; "ast_offset_time_alt";
   "nsamp_alt"; "dsamp_alt"; "temp_press"; "press_std"; "pitch_std"; "roll_std"; "heading_std"; "xmit_energy"].
(** vectors of three components; an instrument with three beams has an axis of three directions already, and the
    bursts and the bottom track use it *)
Definition components (nb : nat) (tag : string) : string :=
  if (nb =? 3)%nat && ((tag =? "") || (tag =? "_bt")) then "dir" else "dirIMU".
Definition sig_record (nb : nat) (tag : string) : layout := concat
  [ map (fun nm => (nm ++ tag, ["time" ++ tag])) sig_scalars;
    map (fun nm => (nm ++ tag, [components nb tag; "time" ++ tag])) ["mag"; "accel"; "angrt"];
    [("orientmat" ++ tag, ["earth"; "inst"; "time" ++ tag]); ("quaternions" ++ tag, ["q"; "time" ++ tag])] ].
Definition sig_profile (tag : string) : layout :=
  [("vel" ++ tag, ["dir"; "range" ++ tag; "time" ++ tag]);
   ("amp" ++ tag, ["beam"; "range" ++ tag; "time" ++ tag]); ("corr" ++ tag, ["beam"; "range" ++ tag; "time" ++ tag])].
Definition sig_altraw (tag : string) : layout := concat
  [ map (fun nm => (nm ++ "_altraw" ++ tag, ["time_altraw" ++ tag]))
    ["pressure"; "le_dist"; "le_quality"; "ast_dist"; "ast_quality"; "ast_offset_time"; "nsamp"; "dsamp"];
    [("samp_altraw" ++ tag, ["n_altraw" ++ tag; "time_altraw" ++ tag])] ].
Definition signature_layout (nb : nat) : layout := concat
  [ flat_map (sig_record nb) [""; "_avg"; "_bt"; "_b5"; "_echo"];
    flat_map sig_profile [""; "_avg"];
    [("vel_b5", ["range_b5"; "time_b5"]); ("amp_b5", ["range_b5"; "time_b5"]); ("corr_b5", ["range_b5"; "time_b5"]);
      ("vel_bt", ["dir"; "time_bt"]); ("dist_bt", ["beam"; "time_bt"]); ("echo", ["range_echo"; "time_echo"])];
    flat_map sig_altraw [""; "_avg"];
    map (fun nm => (nm, ["time"])) ["low_volt_skip"; "active_config"; "telemetry_data"; "boost_running"];
    [("beam2inst_orientmat", ["x1"; "x2"])] ].

(** *** TRDI (rdi_defs.py:39-101): four beams; bottom track and surface layer are measured with every ping, the
    positions have their own times *)
Definition trdi_layout : layout := concat
  [ map (fun nm => (nm, ["time"]))
    ["number"; "builtin_test_fail"; "c_sound"; "depth"; "pitch"; "roll"; "heading"; "temp"; "salinity"; "min_preping_wait";
     "heading_std"; "pitch_std"; "roll_std"; "pressure"; "pressure_std"; "alt_dist"; "alt_rssi"; "alt_eval"; "alt_status"; "dist_nmea"];
    map (fun nm => (nm, ["time_gps"]))
    ["clock_offset_UTC_gps"; "latitude_gps"; "longitude_gps"; "avg_speed_gps"; "avg_dir_gps"; "speed_made_good_gps";
     "dir_made_good_gps"; "flags_gps"; "fix_gps"; "n_sat_gps"; "hdop_gps"; "elevation_gps"; "rtk_age_gps"; "speed_over_grnd_gps";
     "dir_over_grnd_gps"; "heading_gps"; "pitch_gps"; "roll_gps"];
    [("vel", ["dir"; "range"; "time"]); ("amp", ["beam"; "range"; "time"]); ("corr", ["beam"; "range"; "time"]);
      ("prcnt_gd", ["beam"; "range"; "time"]); ("status", ["beam"; "range"; "time"]);
      ("vel_bt", ["dir"; "time"]); ("amp_bt", ["beam"; "time"]); ("corr_bt", ["beam"; "time"]); ("dist_bt", ["beam"; "time"]);
      ("prcnt_gd_bt", ["beam"; "time"]);
      ("vel_sl", ["dir"; "range_sl"; "time"]); ("amp_sl", ["beam"; "range_sl"; "time"]); ("corr_sl", ["beam"; "range_sl"; "time"]);
      ("prcnt_gd_sl", ["beam"; "range_sl"; "time"]); ("status_sl", ["beam"; "range_sl"; "time"]);
      ("beam2inst_orientmat", ["x1"; "x2"])] ].

(** *** Nortek Vector and AWAC (nortek_defs.py:99-333 and the IMU data of nortek.py:873-975): three beams *)
Definition nortek_scalars : list string :=
  ["batt"; "c_sound"; "heading"; "pitch"; "roll"; "temp"; "error"; "status"; "orientation_down"; "pressure"].
Definition vector_layout : layout := concat
  [ map (fun nm => (nm, ["time"])) nortek_scalars;
    [("vel", ["dir"; "time"]); ("amp", ["beam"; "time"]); ("corr", ["beam"; "time"]);
      ("accel", ["dir"; "time"]); ("angrt", ["dir"; "time"]); ("mag", ["dir"; "time"]);
      ("orientmat", ["earth"; "inst"; "time"]); ("beam2inst_orientmat", ["x1"; "x2"])] ].
Definition awac_layout : layout := concat
  [ map (fun nm => (nm, ["time"])) nortek_scalars;
    [("vel", ["dir"; "range"; "time"]); ("amp", ["beam"; "range"; "time"]); ("beam2inst_orientmat", ["x1"; "x2"])] ].

(** *** Data that fit a layout *)
(** the coordinates a reader can produce *)
Definition coordinate_names : list string :=
  ["time"; "time_avg"; "time_bt"; "time_b5"; "time_echo"; "time_altraw"; "time_altraw_avg"; "time_gps";
   "range"; "range_avg"; "range_b5"; "range_echo"; "range_sl"].
(** the fifth beam is read as a profile of one beam, nortek2_defs.py:269-276 *)
Definition is_fifth (key : string) : bool := (key =? "vel_b5") || (key =? "amp_b5") || (key =? "corr_b5").
(** [size] gives the number of elements along each axis *)
Definition proper (nb : nat) (size : string -> nat) : Prop :=
  size "beam" = nb /\ size "dir" = nb /\ size "x1" = nb /\ size "x2" = nb /\
  size "dirIMU" = 3 /\ size "earth" = 3 /\ size "inst" = 3 /\ size "q" = 4.
Definition fits {V} (L : layout) (nb : nat) (size : string -> nat) (c : collected V) : Prop :=
  proper nb size
  /\ (n_beams_avg c = Some nb \/ n_beams_avg c = None /\ n_beams_attr c = Some nb)
  /\ NoDup (map fst (coords c)) /\ NoDup (map fst (data_vars c))
  /\ (forall k n, In (k, n) (coords c) -> In k coordinate_names /\ n = size k)
  /\ (forall key a, In (key, a) (data_vars c) -> exists axes, get L key = Some axes
        /\ shape a = if is_fifth key then 1 :: map size axes else map size axes).

(** the dataset holds every coordinate and every variable, the latter with its values and on the axes of the layout *)
Definition complete {V} (L : layout) (c : collected V) (ds : dict (entry V)) : Prop :=
  (forall k n, In (k, n) (coords c) -> get ds k = Some ([k], Axis n))
  /\ (forall key a axes, In (key, a) (data_vars c) -> get L key = Some axes ->
        exists b, get ds key = Some (axes, Data b)
          /\ forall ix, at_ b ix = at_ a (if is_fifth key then 0 :: ix else ix)).
