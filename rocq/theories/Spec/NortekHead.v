(** The header of the files of Nortek's AWACs and Vectors: three blocks with their settings at fixed places. Places are counted
    from the sync byte of the block, as in the manufacturer's manual. *)
From Coq Require Import String.
From Coq Require Import ZArith QArith Reals List.
From Verif.Model Require Import Rotate.
From Verif.Spec Require Import Rotate.
From Verif.Model Require Import Nortek NortekFile ReadVector.
From Verif.Spec Require Import Nortek NortekEarth VectorEarth.
Import ListNotations.
Open Scope Z_scope.

(** what the header says: instrument, frequency in kHz, beam matrix in units of 1/4096, averaging interval, coordinate system,
    number of beams and cells, whether velocities are in steps of 0.1 mm/s, samples per burst, blanking distance and length
    of cells in counts *)
Record setup := Setup { s_kind : instrument; s_freq : Z; s_matrix : list (list Z); s_interval : Z; s_frame : string;
  s_beams : Z; s_bins : Z; s_fine : bool; s_burst : Z; s_blank : Z; s_length : Z }.

(** the three letters that the serial numbers begin with, here in capitals; the small letters are 32 after them *)
Definition letters : list (bytes * instrument) := [([87; 80; 82], Awac); ([86; 69; 67], Vector)].
Definition frames : list (Z * string) := [(0, "earth"); (1, "inst"); (2, "beam")]%string.
Definition plain_text (b : bytes) (i n : nat) : Prop :=
  forall k, (i <= k < i + n)%nat -> exists c, nth_error b k = Some c /\ 0 <= c < 128.
(** a block of this kind and length *)
Definition is_block (id : Z) (n : nat) (b : bytes) : Prop := length b = n /\ firstn 2 b = [165; id].

Record says (hw head usr : bytes) (s : setup) : Prop := {
  sy_bytes : Forall is_byte (hw ++ head ++ usr);
  sy_hw : is_block 5 48 hw /\ unsigned_at LE hw 2 24;
  sy_serial : exists l, In (l, s_kind s) letters /\ Forall2 (fun c x => x = c \/ x = c + 32) l (firstn 3 (skipn 4 hw));
  sy_hw_text : plain_text hw 4 8 /\ plain_text hw 14 4 /\ plain_text hw 42 4;
  sy_head : is_block 4 224 head;
  sy_freq : unsigned_at LE head 6 (s_freq s);
  sy_matrix : exists a b c d e f g h i, s_matrix s = [[a; b; c]; [d; e; f]; [g; h; i]] /\
    forall k x, nth_error [a; b; c; d; e; f; g; h; i] k = Some x -> signed_at LE head (30 + 2 * k) x;
  sy_usr : is_block 0 512 usr;
  sy_usr_text : plain_text usr 40 6 /\ plain_text usr 256 80;
  sy_method : exists m, unsigned_at LE usr 384 m /\ m < 5;
  sy_blank : unsigned_at LE usr 6 (s_blank s);
  sy_interval : unsigned_at LE usr 16 (s_interval s) /\ 0 < s_interval s;
  sy_beams : unsigned_at LE usr 18 (s_beams s);
  sy_frame : exists n, unsigned_at LE usr 32 n /\ In (n, s_frame s) frames;
  sy_bins : unsigned_at LE usr 34 (s_bins s);
  sy_length : unsigned_at LE usr 36 (s_length s);
  sy_mode : exists m, unsigned_at LE usr 58 m /\ Z.testbit m 4 = s_fine s;
  sy_burst : unsigned_at LE usr 452 (s_burst s) }.

(** how the data have to be read: the rate is 1 / interval for an AWAC and 512 / interval for a Vector *)
Definition configured (s : setup) : vec_cfg :=
  VecCfg (match s_kind s with Awac => 1 / inject_Z (s_interval s) | _ => 512 / inject_Z (s_interval s) end)%Q (Z.to_nat (s_burst s))
         (if s_fine s then 1 # 10 else 1)%Q (map (map (fun x => inject_Z x / 4096)%Q) (s_matrix s)).
Definition reader_of (s : setup) (nens : option nat) : reader :=
  Reader LE false (s_kind s) (Z.to_nat (s_bins s)) (Z.to_nat (s_beams s)) nens.

(** ** C179 *)
(** Configuration blocks among the data, which change the settings, are not modelled. *)
Definition no_configuration (bs : list blk) : Prop := forall b, In b bs -> ~ In (bid b) [0; 4; 5]%Z.
Definition turned (u : option R) (v : list R) : list R := match u with Some a => clockwise a v | None => v end.
Definition known_frequency (f : Z) : Prop := In f [400; 600; 1000; 2000]%Z.
(** every velocity recorded for sample [k] of a Vector is turned with these angles (in degrees) *)
Definition turned_with (s : setup) (bs : list blk) (down : bool) (u : option R) (d' : ds) (k : nat) (heading pitch roll : R) : Prop :=
  forall v, sample_at LE bs k v -> value d' "vel" k 0%nat =
    Some (turned u (to_earth (s_frame s) (map (map (fun x => IZR x / 4096)%R) (s_matrix s)) down heading pitch roll
                      (map (fun x => (if s_fine s then IZR x / 10000 else IZR x / 1000)%R) v))).
(** metres per count of the length of a cell *)
Definition coefficients : list (Z * R) := [(400%Z, 1195 / 10000); (600%Z, 797 / 10000); (1000%Z, 478 / 10000); (2000%Z, 239 / 10000)]%R.
