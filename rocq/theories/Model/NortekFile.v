(** Model of the reading loop of dolfyn/io/nortek.py: the blocks of a file and the arrays they are
    written to. The arrays hold the bytes of a block, [None] where nothing was written; their decoding
    is in Model.NortekData. *)
From Coq Require Import ZArith List Bool.
From Verif.Model Require Import Nortek.
Import ListNotations.
Open Scope Z_scope.

Inductive instrument := Vector | Vectrino | Awac.
(** what the reading depends on: byte order, do_checksum, instrument, number of cells and beams, nens *)
Record reader := Reader { rendian : endian; rchecksum : bool; rinst : instrument; rbins : nat; rbeams : nat;
  rpings : option nat }.
(** [data]: velocity blocks (0x10, 0x51) and profiles (0x20); [sysd]: Vector system data; [imus]:
    microstrain data with the identifier of the IMU message; all written at the counter [c] *)
Record state := State { pos : nat; c : nat; data : list (option bytes); sysd : list (option bytes);
  imus : list (option (Z * bytes)); imu_seen : bool }.
Definition at_pos (p : nat) (s : state) : state := State p (c s) (data s) (sysd s) (imus s) (imu_seen s).
Definition at_count (k : nat) (s : state) : state := State (pos s) k (data s) (sysd s) (imus s) (imu_seen s).
Definition with_data (d : list (option bytes)) (s : state) : state := State (pos s) (c s) d (sysd s) (imus s) (imu_seen s).
Definition with_sys (d : list (option bytes)) (s : state) : state := State (pos s) (c s) (data s) d (imus s) (imu_seen s).
Definition with_imu (d : list (option (Z * bytes))) (s : state) : state := State (pos s) (c s) (data s) (sysd s) d true.

(** returned None, returned 10, EOFError, another exception *)
Inductive result := Next (s : state) | Ten (s : state) | Eof (s : state) | Fail.

(** numpy assignment at an index; [None] is an IndexError *)
Fixpoint write {A} (k : nat) (x : A) (l : list (option A)) : option (list (option A)) :=
  match k, l with
  | _, [] => None
  | O, _ :: l' => Some (Some x :: l')
  | S k', y :: l' => option_map (cons y) (write k' x l')
  end.

(** nortek.py:355-359 [read] *)
Definition take (file : bytes) (p n : nat) : option bytes :=
  let bs := firstn n (skipn p file) in if Nat.eqb (length bs) n then Some bs else None.

(** the checksum at the end of a block whose bytes after the identifier are [byts], at position [p], and
    the increment of the counter; without verification the two bytes are skipped, be they there or not *)
Definition close (r : reader) (file thisid byts : bytes) (p : nat) (s : state) (bump : nat) : result :=
  let ok := Next (at_count (bump + c s) (at_pos (p + 2) s)) in
  if rchecksum r then
    match take file p 2 with
    | Some [b0; b1] => if checksum_passes (rendian r) true thisid byts (word (rendian r) b0 b1) then ok else Fail
    | _ => Eof s
    end
  else ok.
(** a block of [n] bytes: read it, write its values ([None] is an exception), verify, count *)
Definition block (r : reader) (file thisid : bytes) (s : state) (n : nat)
    (effect : bytes -> state -> option state) (bump : nat) : result :=
  match take file (pos s) n with
  | None => Eof s
  | Some byts => match effect byts s with
                 | Some s' => close r file thisid byts (pos s + n) s' bump
                 | None => Fail
                 end
  end.
Definition store (byts : bytes) (s : state) : option state :=
  option_map (fun d => with_data d s) (write (c s) byts (data s)).
Definition dated (byts : bytes) : bool := match rd_time (skipn 2 byts) with Some _ => true | None => false end.

(** nortek.py:659-687, 1227-1262: one velocity sample *)
Definition read_sample (r : reader) (file thisid : bytes) (s : state) (n : nat) : result :=
  block r file thisid s n store 1.
(** nortek.py:1038-1077 [read_awac_profile]; the time must be a date *)
Definition read_awac_profile (r : reader) (file thisid : bytes) (s : state) : result :=
  block r file thisid s (116 + rbeams r * 3 * rbins r) (fun byts s => if dated byts then store byts s else None) 1.
(** nortek.py:817-843 [read_vec_sysdata]; burst_start is not modelled *)
Definition read_vec_sysdata (r : reader) (file thisid : bytes) (s : state) : result :=
  block r file thisid s 24
    (fun byts s => if dated byts then option_map (fun d => with_sys d s) (write (c s) byts (sysd s)) else None) 0.
(** nortek.py:791-815 [read_vec_hdr]; decoding the spare bytes as UTF-8 is taken to fail whenever one of
    them is not ASCII *)
Definition ascii (bs : bytes) : bool := forallb (fun b => b <? 128) bs.
Definition read_vec_hdr (r : reader) (file thisid : bytes) (s : state) : result :=
  block r file thisid s 38
    (fun byts s => if dated byts && ascii (firstn 1 (skipn 13 byts)) && ascii (skipn 17 byts) then Some s else None) 0.
(** nortek.py:1217-1225 [read_vno_event] *)
Definition read_vno_event (r : reader) (file thisid : bytes) (s : state) : result :=
  block r file thisid s 22 (fun byts s => if dated byts then Some s else None) 0.
(** nortek.py:689-740 [read_vec_checkdata]; its amplitudes are not modelled *)
Definition read_vec_checkdata (r : reader) (file thisid : bytes) (s : state) : result :=
  let go := fun (n0 nbeams : nat) =>
    match take file (pos s) n0 with
    | None => Eof s
    | Some byts0 =>
      let n := Z.to_nat (nth 1 (words (rendian r) byts0) 0) in
      match take file (pos s + n0) (nbeams * n) with
      | None => Eof s
      | Some byts1 => close r file thisid (byts0 ++ byts1) (pos s + n0 + nbeams * n) s 0
      end
    end in
  match rinst r with Vector => go 6%nat 3%nat | Vectrino => go 12%nat 4%nat | Awac => Fail end.
(** nortek.py:916-1009 [read_microstrain]. The first block sets up the arrays; an array set up for one
    kind of message and written by another is not modelled. *)
Definition imu_length (ahrsid : Z) : option nat :=
  if ahrsid =? 195 then Some 64%nat else if ahrsid =? 204 then Some 78%nat
  else if ahrsid =? 211 then Some 42%nat else None.
Definition read_microstrain (r : reader) (file thisid : bytes) (s0 : state) : result :=
  let s := at_count (Nat.pred (c s0)) s0 in
  match take file (pos s) 4 with
  | None => Eof s
  | Some byts0 =>
    let ahrsid := nth 3 byts0 0 in
    match imu_length ahrsid with
    | None => Ten (at_pos (pos s + 2) (with_imu (imus s) s))
    | Some n =>
      match take file (pos s + 4) n with
      | None => Eof s
      | Some byts =>
        match write (c s) (ahrsid, byts) (imus s) with
        | None => Fail
        | Some d => close r file thisid (byts0 ++ byts) (pos s + 4 + n) (with_imu d s) 1
        end
      end
    end
  end.
(** the blocks of the configuration (nortek.py:486, 575, 598) and the Vectrino header (1164) in the data:
    only their length matters here; what they change in the configuration is not modelled *)
Definition skip_block (r : reader) (file thisid : bytes) (s : state) (n : nat) : result :=
  block r file thisid s n (fun _ s => Some s) 0.

(** nortek.py:380-398 [read_id]: the identifier, the two bytes read, the position after it *)
Definition read_id (r : reader) (file : bytes) (p : nat) : option (Z * bytes * nat) :=
  match take file p 2 with
  | Some [b0; b1] =>
    if b0 =? 165 then Some (b1, [b0; b1], (p + 2)%nat)
    else match findnext (rendian r) false file (p + 2) with
         | Some (q, id) => Some (id, [b0; b1], (q + 2)%nat)
         | None => None
         end
  | _ => None
  end.
(** nortek.py:158-173 [fun_map], 400-410 [readnext]. 0x30, 0x31, 0x36: read_awac_waves and
    read_awac_waves_hdr always raise (nortek.py:1145 names a table that does not exist, nortek.py:1123-1125
    index keys that do not exist). *)
Definition readnext (r : reader) (file : bytes) (s : state) : result :=
  match read_id r file (pos s) with
  | None => Eof s
  | Some (id, th, p) =>
    let s := at_pos p s in
    if id =? 0 then skip_block r file th s 508
    else if id =? 4 then skip_block r file th s 220
    else if id =? 5 then skip_block r file th s 44
    else if id =? 7 then read_vec_checkdata r file th s
    else if id =? 15 then read_vno_event r file th s
    else if id =? 16 then read_sample r file th s 20
    else if id =? 17 then read_vec_sysdata r file th s
    else if id =? 18 then read_vec_hdr r file th s
    else if id =? 32 then read_awac_profile r file th s
    else if (id =? 48) || (id =? 49) || (id =? 54) then (match take file p (if id =? 49 then 56 else 0) with Some _ => Fail | None => Eof s end)
    else if id =? 80 then skip_block r file th s 38
    else if id =? 81 then read_sample r file th s 18
    else if id =? 113 then read_microstrain r file th s
    else Ten (at_pos (p - 2) s)
  end.

(** nortek.py:412-440 [readfile]: [None] is an exception. The crop of nortek.py:437 changes nothing: the
    arrays are not at the top level of self.data. An exception in the additional block read for the IMU
    is ignored; it is taken to have written nothing. *)
Definition enough (r : reader) (s : state) : bool := match rpings r with Some n => Nat.leb n (c s) | None => false end.
Definition last_imu (r : reader) (file : bytes) (s : state) : state :=
  if imu_seen s then match readnext r file s with Next s' | Ten s' | Eof s' => s' | Fail => s end else s.
Fixpoint readfile_loop (fuel : nat) (r : reader) (file : bytes) (s : state) : option state :=
  match fuel with
  | O => None
  | S fuel =>
    let continue := fun s' => if enough r s' then Some (last_imu r file s') else readfile_loop fuel r file s' in
    match readnext r file s with
    | Fail => None
    | Eof s' => Some s'
    | Next s' => continue s'
    | Ten s' => match findnext (rendian r) true file (pos s') with
                | Some (q, _) => continue (at_pos q s')
                | None => Some s'
                end
    end
  end.
(** the loop from position [start] with arrays of [n_samp_guess] entries; nortek.py:238: the number of
    samples asked for replaces the guess *)
Definition readfile (r : reader) (file : bytes) (start n_samp_guess : nat) : option state :=
  let n := match rpings r with Some k => k | None => n_samp_guess end in
  readfile_loop (S (length file)) r file (State start 0 (repeat None n) (repeat None n) (repeat None n) false).
(** nortek.py:185-200: what nens=(start, stop) becomes; the start is kept but never used *)
Inductive nens := All | First (n : nat) | Between (start stop : nat).
Definition npings (n : nens) : option nat :=
  match n with All => None | First k => Some k | Between _ stop => Some stop end.
