(** Model of the start of dolfyn/io/nortek.py: the configuration blocks at the head of a file (486-618), the constructor
    (176-270) and the first lines of the [init_] functions (286-345), for AWACs and Vectors. Not modelled: Vectrinos, attributes
    that later steps do not use (the registers of the user block are in Model.Nortek), configuration blocks among the data. *)
From Coq Require Import String.
From Coq Require Import ZArith QArith Reals List Bool.
From Verif.Model Require Import Nortek NortekFile ReadVector ReadAwac NortekEarth.
From Verif.Model Require RdiBlocks Reduce Linalg Rotate.
Import ListNotations.
Open Scope Z_scope.

(** ** struct.unpack with a byte order in front, hence without padding: formats 'nx', 'H', 'I', 'ns' *)
Inductive item := Skip (n : nat) | Half | Int | Text (n : nat).
Inductive pyval := Num (z : Z) | Str (bs : bytes).
Definition item_size (i : item) : nat := match i with Skip n => n | Half => 2 | Int => 4 | Text n => n end.
Definition fmt_size (fmt : list item) : nat := list_sum (map item_size fmt).
Fixpoint items (e : endian) (fmt : list item) (bs : bytes) : list pyval :=
  match fmt with
  | [] => []
  | Skip n :: fmt' => items e fmt' (skipn n bs)
  | Half :: fmt' => Num (word e (nth 0 bs 0) (nth 1 bs 0)) :: items e fmt' (skipn 2 bs)
  | Int :: fmt' =>
    let w0 := word e (nth 0 bs 0) (nth 1 bs 0) in let w1 := word e (nth 2 bs 0) (nth 3 bs 0) in
    Num (match e with LE => w0 + 65536 * w1 | BE => 65536 * w0 + w1 end) :: items e fmt' (skipn 4 bs)
  | Text n :: fmt' => Str (firstn n bs) :: items e fmt' (skipn n bs)
  end.
Definition unpack (e : endian) (fmt : list item) (bs : bytes) : option (list pyval) :=
  if Nat.eqb (length bs) (fmt_size fmt) then Some (items e fmt bs) else None.
(** tmp[k], a number or a string according to the format *)
Definition num_at (tmp : list pyval) (k : nat) : Z := match nth k tmp (Num 0) with Num z => z | Str _ => 0 end.
Definition str_at (tmp : list pyval) (k : nat) : bytes := match nth k tmp (Num 0) with Num _ => [] | Str s => s end.
(** bytes.decode('utf-8') does not raise *)
Definition decodes (bs : bytes) : bool := RdiBlocks.utf8 0 0 0 bs.
(** bytes.partition(b'\x00')[0] *)
Fixpoint before_zero (bs : bytes) : bytes := match bs with b :: bs' => if b =? 0 then [] else b :: before_zero bs' | [] => [] end.

(** ** The blocks *)
(** nortek.py:604-605 *)
Definition hw_fmt : list item := [Skip 2; Text 14] ++ repeat Half 6 ++ [Skip 12; Text 4].
(** nortek.py:598-618 [read_hw_cfg]: the serial number; [None] is an exception *)
Definition read_hw (e : endian) (byts : bytes) : option bytes :=
  match unpack e hw_fmt byts with
  | Some tmp =>
    let t := str_at tmp 0 in
    if decodes (firstn 8 t) && decodes (skipn 10 t) && decodes (str_at tmp 7) then Some (firstn 8 t) else None
  | None => None
  end.
(** nortek.py:582-583 *)
Definition head_fmt : list item := [Skip 2; Half; Half; Half; Text 12; Text 176; Text 22; Half].
(** nortek.py:575-596 [read_head_cfg], not for a Vectrino: the carrier frequency and the beam matrix *)
Definition matrix_of (e : endian) (bs : bytes) : list (list Q) :=
  let w := map (fun x => (inject_Z (signed x) / 4096)%Q) (words e bs) in [firstn 3 w; firstn 3 (skipn 3 w); skipn 6 w].
Definition read_head (e : endian) (byts : bytes) : option (Z * list (list Q)) :=
  option_map (fun tmp => (num_at tmp 1, matrix_of e (firstn 18 (skipn 8 (str_at tmp 4))))) (unpack e head_fmt byts).
(** nortek.py:494-496 *)
Definition user_fmt : list item :=
  [Skip 2] ++ repeat Half 18 ++ [Text 6] ++ repeat Half 4 ++ [Int] ++ repeat Half 9 ++ repeat Half 90 ++ [Text 80; Skip 48; Half; Skip 50] ++
  repeat Half 6 ++ [Skip 4; Half; Skip 2; Half; Half; Skip 2; Half; Skip 30] ++ repeat Half 8.
(** nortek.py:486-573 [read_user_cfg]; coordinate systems and wave processing methods without a name are an IndexError *)
Record user := User { u_blank : Z; u_interval : Z; u_beams : Z; u_axes : string; u_bins : Z; u_bin_length : Z; u_scale : Q; u_burst : Z }.
Definition read_user (e : endian) (byts : bytes) : option user :=
  match unpack e user_fmt byts with
  | Some tmp =>
    match nth_error ["ENU"; "XYZ"; "beam"]%string (Z.to_nat (num_at tmp 14)) with
    | Some axes =>
      if decodes (before_zero (str_at tmp 18)) && decodes (before_zero (str_at tmp 123)) && (num_at tmp 124 <? 5) then
        Some (User (num_at tmp 1) (num_at tmp 6) (num_at tmp 7) axes (num_at tmp 15) (num_at tmp 16)
                   (if nth 4 (int2binarray (num_at tmp 24) 16) false then 1 # 10 else 1)%Q (num_at tmp 131))
      else None
    | None => None
    end
  | None => None
  end.

(** ** The constructor *)
(** one block of the header: nortek.py:220-231 [read_id], then its bytes and the checksum (474-484). The position after it. *)
Definition head_block {A} (e : endian) (cs : bool) (file : bytes) (p : nat) (id : Z) (n : nat) (f : bytes -> option A) : option (A * nat) :=
  match read_id (Reader e cs Awac 0 0 None) file p with
  | Some (i, thisid, q) =>
    if i =? id then
      match take file q n with
      | Some byts =>
        match f byts with
        | Some x =>
          if cs then
            match take file (q + n) 2 with
            | Some [b0; b1] => if checksum_passes e true thisid byts (word e b0 b1) then Some (x, (q + n + 2)%nat) else None
            | _ => None
            end
          else Some (x, (q + n + 2)%nat)
        | None => None
        end
      | None => None
      end
    else None
  | None => None
  end.
(** nortek.py:232-237: 'WPR' or 'VEC', in capitals or not; another serial number is a KeyError, or a Vectrino *)
Definition upper (b : Z) : Z := if (97 <=? b) && (b <=? 122) then b - 32 else b.
Definition kind_of (serial : bytes) : option instrument :=
  match map upper (firstn 3 serial) with
  | [87; 80; 82] => Some Awac
  | [86; 69; 67] => Some Vector
  | _ => None
  end.
(** nortek.py:298, 320; no interval is a ZeroDivisionError *)
Definition rate_of (k : instrument) (interval : Z) : option Q :=
  if interval =? 0 then None else Some (match k with Awac => 1 / inject_Z interval | _ => 512 / inject_Z interval end)%Q.
(** nortek.py:265-267 *)
Definition frame_of (axes : string) : string :=
  if String.eqb axes "XYZ" then "inst" else if String.eqb axes "ENU" then "earth" else "beam".
Record opened := Opened { o_reader : reader; o_cfg : vec_cfg; o_frame : string; o_freq : Z; o_user : user; o_start : nat }.
(** nortek.py:176-270 *)
Definition open_nortek (cs : bool) (nens : option nat) (file : bytes) : option opened :=
  match detect_endian file with
  | None => None
  | Some e =>
    match head_block e cs file 0 5 44 (read_hw e) with
    | Some (serial, p) =>
      match head_block e cs file p 4 220 (read_head e) with
      | Some ((freq, mat), q) =>
        match head_block e cs file q 0 508 (read_user e) with
        | Some (u, start) =>
          match kind_of serial with
          | Some k =>
            option_map (fun fs => Opened (Reader e cs k (Z.to_nat (u_bins u)) (Z.to_nat (u_beams u)) nens)
                                         (VecCfg fs (Z.to_nat (u_burst u)) (u_scale u) mat) (frame_of (u_axes u)) freq u start)
                       (rate_of k (u_interval u))
          | None => None
          end
        | None => None
        end
      | None => None
      end
    | None => None
    end
  end.
(** nortek.py:18-107 from the first byte of the file; [None] and [Some (Err _ _)] are exceptions. An
    AWAC of an unknown frequency is a KeyError (1088). *)
Definition read_nortek (nan : R) (rotmat : option Linalg.mat) (declin : option R) (cs : bool) (nens : option nat) (file : bytes) : option Rotate.res :=
  match open_nortek cs nens file with
  | Some o =>
    match rinst (o_reader o), Reduce.awac_coef (o_freq o) with
    | Awac, None => None
    | Awac, Some _ => open_awac nan (o_frame o) rotmat declin (o_cfg o) (o_reader o) file (o_start o)
    | _, _ => open_vector nan (o_frame o) rotmat declin (o_cfg o) (o_reader o) file (o_start o)
    end
  | None => None
  end.
(** nortek.py:1082-1097: the ranges, cell size and blanking distance of an AWAC's dataset *)
Definition read_ranges (cs : bool) (nens : option nat) (file : bytes) : option (list R * R * R) :=
  match open_nortek cs nens file with
  | Some o =>
    match rinst (o_reader o), read_nortek_awac (o_cfg o) (o_reader o) file (o_start o) with
    | Awac, Some _ => Reduce.awac_cells (o_freq o) (rbins (o_reader o)) (Z.to_nat (u_bin_length (o_user o))) (Z.to_nat (u_blank (o_user o)))
    | _, _ => None
    end
  | None => None
  end.
