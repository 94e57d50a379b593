(** The sentences that WinRiver2 writes into TRDI files (blocks 0x2022). Byte numbers count from 1 and include the
    identifier of the block, as in Spec/Rdi.v. *)
From Coq Require Import String.
From Coq Require Import ZArith QArith Qabs List Bool.
From Verif.Model Require Import Nortek RdiBlocks RdiFile.
From Verif.Spec Require Import Rdi.
From Verif.Model Require Ad2cp.
Import ListNotations.
Open Scope string_scope.
Open Scope list_scope.
Open Scope Z_scope.

(** IEEE 754: the bits [b] are a sign, [eb] bits of exponent and [mb] bits of fraction; the number they stand for *)
Definition ieee (eb mb : Z) (b : Z) (q : Q) : Prop :=
  exists (sg : bool) (e m : Z), 0 <= e < 2 ^ eb - 1 /\ 0 <= m < 2 ^ mb /\
    b = (if sg then 2 ^ (mb + eb) else 0) + e * 2 ^ mb + m /\
    (q == (if sg then -1 else 1) * (inject_Z (m + (if e =? 0 then 0 else 2 ^ mb)) * 2 ^ (Z.max e 1 - (2 ^ (eb - 1) - 1) - mb)))%Q.
Definition single (block : bytes) (first : nat) (q : Q) : Prop := ieee 8 23 (uint block first 4) q.
Definition double (block : bytes) (first : nat) (q : Q) : Prop := ieee 11 52 (uint block first 8) q.
Definition byte (block : bytes) (n : nat) : Z := uint block n 1.

(** a block 0x2022 with the sentence number [spid] (or [spid + 100]), longer than [least], whose first characters are
    ASCII *)
Definition sentence_of (spid least : Z) (size : nat) (block : bytes) : Prop :=
  (uint block 3 2 = spid \/ uint block 3 2 = spid + 100) /\ least < uint block 5 2 /\ (size <= length block)%nat /\
  forall n, (15 <= n <= 20)%nat -> byte block n < 128.
Definition gga := sentence_of 4 43 71.
Definition vtg := sentence_of 5 22 42.
Definition dbt := sentence_of 6 20 36.
Definition hdt := sentence_of 7 14 30.

(** the text hhmmss.cc from byte 22 on *)
Definition digit (block : bytes) (n : nat) (d : Z) : Prop := 0 <= d <= 9 /\ byte block n = 48 + d.
Definition two_digits (block : bytes) (n : nat) (v : Z) : Prop :=
  exists a b, digit block n a /\ digit block (S n) b /\ v = 10 * a + b.
Definition time_of_day (block : bytes) (h m s cs : Z) : Prop :=
  two_digits block 22 h /\ two_digits block 24 m /\ two_digits block 26 s /\ byte block 28 = 46 /\ two_digits block 29 cs.
(** the clock of the profiler in the ensemble: year (two digits, or all four), month, day, hour, minute, second, hundredths *)
Definition clock_of (e : ensemble) (y mo d h mi sc hs : Z) : Prop :=
  get e "rtc" = map (fun z => Some (inject_Z z)) [y; mo; d; h; mi; sc; hs].
Definition whole_year (y : Z) : Z := if y <? 100 then y + 2000 else y.
(** the sign of a coordinate *)
Definition hemisphere (block : bytes) (n : nat) (letter : Z) (q : Q) : Q := if byte block n =? letter then (- q)%Q else q.

(** what the sentences give *)
Definition gga_vars : list string :=
  ["time_gps"; "longitude_gps"; "latitude_gps"; "fix_gps"; "n_sat_gps"; "hdop_gps"; "elevation_gps"; "rtk_age_gps"].
Definition vtg_vars : list string := ["speed_over_grnd_gps"; "dir_over_grnd_gps"].

(** ** Reading the blocks of an ensemble at the places given in its header *)
(** blocks after which the reader goes wrong: bottom track once a WinRiver block (0x2100 to 0x2104) has been read, and
    WinRiver2 blocks with a sentence that is none of the four *)
Definition troublesome (file : bytes) (p : Z) (s : st) : bool :=
  let id := Ad2cp.le (f_read file p 2) in
  let spid := Ad2cp.le (f_read file (p + 2) 2) in
  ((id =? 1536) && (source s =? 2)) || ((id =? 8226) && negb (existsb (Z.eqb spid) [4; 5; 6; 7; 104; 105; 106; 107])).
(** [base] is where the ensemble begins. A block that cannot be decoded ends the reading; after the last one, files without
    WinRiver blocks are continued at the end of the ensemble. *)
Fixpoint at_offsets (file : bytes) (base : Z) (offs : list Z) (s : st) : outcome st :=
  match offs with
  | [] => Ret s
  | o :: offs' =>
    if base + o <? 0 then Raise "OSError"
    else if troublesome file (base + o) s then Raise "troublesome"
    else
      do id <- read file (base + o) Ad2cp.U16 1;
      do '(decoded, s) <- read_dat file (hd 0 id) (at_pos (base + o + 2) s);
      if negb decoded then Ret s
      else match offs' with
      | [] => if winrivprob s then Ret s else if base + hdr_nbyte s - 2 <? 0 then Raise "OSError" else Ret (at_pos (base + hdr_nbyte s - 2) s)
      | _ => at_offsets file base offs' s
      end
  end.
