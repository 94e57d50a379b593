(** Where the manufacturer records what the attributes of a Nortek dataset should say. Places are counted from the sync byte. *)
From Coq Require Import String.
From Coq Require Import ZArith QArith List.
From Verif.Model Require Import Nortek NortekFile NortekAttrs.
From Verif.Spec Require Import Nortek NortekEarth NortekHead.
From Verif.Spec Require DateText.
Import ListNotations.
Open Scope Z_scope.

Inductive place := Hw (n : nat) | Head (n : nat) | Usr (n : nat).
Definition recorded (hw head usr : bytes) (p : place) (v : Z) : Prop :=
  match p with Hw n => unsigned_at LE hw n v | Head n => unsigned_at LE head n v | Usr n => unsigned_at LE usr n v end.
(** the attribute is there, once, with this value *)
Definition attribute (d : dict) (name : string) (a : attr) : Prop := exists pre post, d = pre ++ (name, a) :: post /\ ~ In name (map fst (pre ++ post)).

(** whole numbers, in units of the last entry; of all instruments, of one *)
Definition numbers : list (string * place * Z) :=
  [("n_beams", Usr 18, 1); ("compass_update_rate", Usr 30, 1); ("n_bins", Usr 34, 1); ("analog_in", Usr 70, 1); ("carrier_freq_kHz", Head 6, 1);
   ("PIC_version", Hw 22, 1); ("hardware_rev", Hw 24, 1); ("recorder_size_bytes", Hw 26, 65536)]%string.
Definition numbers_of (k : instrument) : list (string * place * Z) :=
  match k with
  | Awac => [("avg_interval", Usr 16, 1); ("wave_cell_size", Usr 444, 1); ("n_samples_wave", Usr 446, 1)]
  | _ => [("n_pings_per_burst", Usr 14, 1)]
  end%string.
(** bits: place, number of the bit, what 0 and 1 mean *)
Definition switches : list (string * place * Z * string * string) :=
  [("vel_range", Hw 28, 0, "normal", "high"); ("pressure_sensor", Head 4, 0, "no", "yes"); ("compass", Head 4, 1, "no", "yes");
   ("tilt_sensor", Head 4, 2, "no", "yes"); ("user_specified_sound_speed", Usr 58, 0, "False", "True"); ("analog_output", Usr 58, 2, "False", "True");
   ("output_format", Usr 58, 3, "Vector", "ADV"); ("serial_output", Usr 58, 5, "False", "True"); ("power_output_analog", Usr 58, 8, "False", "True");
   ("profile_mode", Usr 20, 1, "single", "continuous"); ("sync_out_pos", Usr 20, 7, "middle", "end"); ("sample_on_sync", Usr 20, 8, "False", "True");
   ("start_on_sync", Usr 20, 9, "False", "True")]%string.
(** bits 5 and 6 of the timing control register: 1 is the lowest power, 4 the highest *)
Definition power_bits (v n : Z) : Prop := n = 1 + (v / 32) mod 4.
(** a version: a number in decimal notation with points after the first and the third digit *)
Definition version (v : Z) (t : bytes) : Prop :=
  exists a b c, t = a ++ [46] ++ b ++ [46] ++ c /\ length a = 1%nat /\ (length b <= 2)%nat /\ (c <> [] -> length b = 2%nat) /\
    DateText.digit_only (a ++ b ++ c) /\ DateText.number (a ++ b ++ c) = v /\ (a = [48] -> v = 0).
Definition switches_of (k : instrument) : list (string * place * Z * string * string) :=
  match k with
  | Awac => [("wave_mode", Usr 58, 1, "Disabled", "Enabled"); ("wave_fs", Usr 436, 0, "1 Hz", "2 Hz"); ("wave_cell_position", Usr 436, 1, "fixed", "dynamic");
             ("type_wave_cell_pos", Usr 436, 2, "pct_of_mean_pressure", "pct_of_min_re")]
  | _ => []
  end%string.
Definition methods : list (Z * string) := [(0, "PUV"); (1, "SUV"); (2, "MLM"); (3, "MLMST"); (4, "None")]%string.
(** the text in [n] bytes: all of them, or those before the first zero *)
Definition text_at (b : bytes) (i n : nat) : bytes := firstn n (skipn i b).
Definition ended_at (b : bytes) (i n : nat) (t : bytes) : Prop :=
  ~ In 0 t /\ exists rest, text_at b i n = t ++ rest /\ (rest = [] \/ exists rest', rest = 0 :: rest').
