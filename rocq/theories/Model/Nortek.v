(** Model of dolfyn/io/nortek.py: byte order, BCD times, configuration bits, checksums and the search for
    the next block. Bytes are integers from 0 to 255. *)
From Coq Require Import String.
From Coq Require Import ZArith List Bool.
From Verif.Model Require Time.
Import ListNotations.
Open Scope Z_scope.

Definition bytes := list Z.
Inductive endian := LE | BE.
(** struct.unpack with format 'H' *)
Definition word (e : endian) (b0 b1 : Z) : Z := match e with LE => b0 + 256 * b1 | BE => 256 * b0 + b1 end.
Fixpoint words (e : endian) (bs : bytes) : list Z :=
  match bs with b0 :: b1 :: bs' => word e b0 b1 :: words e bs' | _ => [] end.
(** struct.unpack with format 'h' *)
Definition signed (w : Z) : Z := if w <? 32768 then w else w - 65536.
Definition total (l : list Z) : Z := fold_right Z.add 0 l.

(** nortek.py:115-122 [_bcd2char] *)
Definition bcd2char (cBCD : Z) : Z :=
  let cBCD := Z.min cBCD 153 in Z.land cBCD 15 + 10 * Z.shiftr cBCD 4.

(** nortek.py:129-133 [_int2binarray] *)
Definition int2binarray (val : Z) (n : nat) : list bool :=
  map (fun k => negb (Z.land val (2 ^ Z.of_nat k) =? 0)) (seq 0 n).

(** the fields of nortek.py:509-518 read from the timing control register; [bit] is its entry after
    astype(int) and Python's ~ is the bitwise complement of that integer *)
Record usr_cfg := UsrCfg { profile_mode : string; burst_mode : bool; power_level : Z; sync_out_pos : string;
  sample_on_sync : bool; start_on_sync : bool }.
Definition read_timctrl (reg : Z) : usr_cfg :=
  let bit := fun k => Z.b2z (nth k (int2binarray reg 16) false) in
  UsrCfg (nth (Z.to_nat (bit 1%nat)) ["single"; "continuous"]%string ""%string)
         (negb (Z.lnot (bit 2%nat) =? 0))
         (bit 5%nat + 2 * bit 6%nat + 1)
         (nth (Z.to_nat (bit 7%nat)) ["middle"; "end"]%string ""%string)
         (negb (bit 8%nat =? 0)) (negb (bit 9%nat =? 0)).

(** the exception datetime() raises for impossible dates *)
Definition leap (y : Z) : bool := (y mod 4 =? 0) && (negb (y mod 100 =? 0) || (y mod 400 =? 0)).
Definition days_in_month (y m : Z) : Z :=
  if m =? 2 then (if leap y then 29 else 28)
  else if (m =? 4) || (m =? 6) || (m =? 9) || (m =? 11) then 30 else 31.
Record date := Date { year : Z; month : Z; day : Z; hour : Z; minute : Z; second : Z }.
Definition valid_date (d : date) : bool :=
  (1 <=? year d) && (year d <=? 9999) && (1 <=? month d) && (month d <=? 12) &&
  (1 <=? day d) && (day d <=? days_in_month (year d) (month d)) &&
  (0 <=? hour d) && (hour d <? 24) && (0 <=? minute d) && (minute d <? 60) && (0 <=? second d) && (second d <? 60).
(** nortek.py:620-629 [rd_time]: the date; its conversion to seconds is [Time.date2epoch]. [None] is an
    exception. *)
Definition rd_time (strng : bytes) : option date :=
  match strng with
  | mi :: sc :: dy :: hr :: yr :: mo :: _ =>
    let d := Date (Time.fullyear (bcd2char yr)) (bcd2char mo) (bcd2char dy) (bcd2char hr) (bcd2char mi) (bcd2char sc) in
    if valid_date d then Some d else None
  | _ => None
  end.

(** nortek.py:201-209: byte order; each test reads four bytes of its own. [None] is an exception. *)
Definition unpack_HH (e : endian) (bs : bytes) : option (Z * Z) :=
  match bs with [b0; b1; b2; b3] => Some (word e b0 b1, word e b2 b3) | _ => None end.
Definition is_hw_header (p : Z * Z) : bool := (fst p =? 1445) && (snd p =? 24).
Definition detect_endian (file : bytes) : option endian :=
  match unpack_HH LE (firstn 4 file) with
  | None => None
  | Some p => if is_hw_header p then Some LE
              else match unpack_HH BE (firstn 4 (skipn 4 file)) with
                   | None => None
                   | Some q => if is_hw_header q then Some BE else None
                   end
  end.

(** nortek.py:474-484 [checksum]: whether reading goes on. [np.sum(...) + 46476 - unpack(...)] is an array
    with one element, and [not] of it is true when that element is zero; an odd number of bytes is an
    error of unpack. *)
Definition checksum_passes (e : endian) (do_checksum : bool) (thisid byts : bytes) (stored : Z) : bool :=
  if do_checksum then
    if Nat.even (length byts) then negb (total (words e (thisid ++ byts)) + 46476 - stored =? 0) else false
  else true.

(** nortek.py:361-378 [findnext], on the bytes [rest] from position [pos] on: the position of the sync
    byte and the identifier after it; [None] is the end of the file *)
Definition first_byte (e : endian) (val : Z) : Z := match e with LE => val mod 256 | BE => Z.shiftr val 8 end.
Definition second_byte (e : endian) (val : Z) : Z := match e with LE => Z.shiftr val 8 | BE => val mod 256 end.
Fixpoint findnext_loop (e : endian) (do_cs : bool) (sum cs : Z) (pos : nat) (rest : bytes) : option (nat * Z) :=
  match rest with
  | b0 :: b1 :: rest' =>
    let val := word e b0 b1 in
    if (first_byte e val =? 165) && (negb do_cs || (cs =? sum mod 65536)) then Some (pos, second_byte e val)
    else findnext_loop e do_cs (sum + cs) val (S (S pos)) rest'
  | _ => None
  end.
Definition findnext (e : endian) (do_cs : bool) (file : bytes) (pos : nat) : option (nat * Z) :=
  findnext_loop e do_cs 46476 0 pos (skipn pos file).
