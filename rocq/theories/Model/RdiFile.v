(** Model of the reading of a TRDI file, dolfyn/io/rdi.py: the search for ensembles, the blocks of an
    ensemble, the number of ensembles and the columns written. *)
From Coq Require Import String.
From Coq Require Import ZArith QArith Qround List Bool.
From Verif.Model Require Import Nortek RdiBlocks.
From Verif.Model Require Ad2cp.
Import ListNotations.
Open Scope string_scope.
Open Scope list_scope.
Open Scope Z_scope.

(** ** The search for an ensemble *)
(** io/rdi.py:521-548 [checkheader] at the position [p] after the bytes 7f 7f: the position is restored except at
    the end of the file *)
Inductive header := Valid | Invalid | AtEnd (q : Z) | Bad (why : string).
Definition checkheader (file : bytes) (p : Z) : header :=
  match read file p Ad2cp.S16 1 with
  | Raise w => Bad w
  | Ret v =>
    let numbytes := hd 0 v in
    if 0 <? numbytes then
      match f_read file (p + numbytes) 2 with
      | [] => AtEnd (p + numbytes)
      | [c0; c1] => if (c0 =? 127) && ((c1 =? 127) || (c1 =? 121)) then Valid else Invalid
      | _ => Bad "struct.error"
      end
    else Invalid
  end.
(** io/rdi.py:200 [_search_num] *)
Definition search_num : Z := 30000.
(** the loops of io/rdi.py:264-274 (no limit) and 497-507: [rest] is what follows the position [p]; the result is
    the position after the two bytes, or that at which the end of the file was noticed *)
Inductive found := Found (p : Z) | Ended (p : Z).
Definition below (limit : option Z) (cnt : Z) : bool := match limit with None => true | Some n => cnt <? n end.
Definition search_stop (limit : option Z) (p : Z) : outcome found :=
  match limit with Some _ => Raise "Bad data encountered" | None => Ret (Found p) end.
Fixpoint search_loop (limit : option Z) (file : bytes) (cnt id0 id1 : Z) (rest : bytes) (p : Z) : outcome found :=
  let again := match rest with
    | [] => Ret (Ended p)
    | b :: rest' => search_loop limit file (cnt + 1) b id0 rest' (p + 1)
    end in
  if negb (below limit cnt) then search_stop limit p
  else if (id0 =? 127) && (id1 =? 127) then
    match checkheader file p with
    | Valid => Ret (Found p)
    | Invalid => again
    | AtEnd q => Ret (Ended q)
    | Bad w => Raise w
    end
  else again.
(** io/rdi.py:488-519 [search_buffer] and 256-274 of [read_hdr], which differ at the end of the file and in the limit *)
Definition search (limit : option Z) (file : bytes) (p : Z) : outcome found :=
  match f_read file p 2 with
  | [] => match limit with Some _ => Ret (Ended p) | None => Raise "TypeError" end
  | [id0; id1] => search_loop limit file 0 id0 id1 (skipn (Z.to_nat (p + 2)) file) (p + 2)
  | _ => Raise "struct.error"
  end.
Definition search_buffer (file : bytes) (p : Z) : outcome found := search (Some search_num) file p.

(** io/rdi.py:550-557 [read_hdrseg]; without a second entry the offsets are no array and their first use fails *)
Definition read_hdrseg (file : bytes) (s : st) : outcome st :=
  do '(raw, p) <- parse file [Rd "nbyte" Ad2cp.S16 1; Rd "spare" Ad2cp.U8 1; Rd "ndat" Ad2cp.U8 1] (pos s);
  let ndat := raw1 raw "ndat" in
  let val := f_read file p (2 * ndat) in
  do offs <- (match val with
    | [] => Ret []
    | _ => if Z.of_nat (length val) =? 2 * ndat then Ret (Ad2cp.values Ad2cp.U16 (Z.to_nat ndat) val) else Raise "struct.error"
    end);
  Ret (with_nbyte (4 + ndat * 2) (with_hdr (raw1 raw "nbyte") offs (at_pos (p + Z.of_nat (length val)) s))).
Definition offsets (s : st) : outcome (list Z) :=
  do _ <- check (Nat.leb 2 (length (hdr_offsets s))) "TypeError"; Ret (hdr_offsets s).

(** io/rdi.py:256-277 [read_hdr]: the position of the ensemble, if one is found, and what the call gives *)
Definition read_hdr (file : bytes) (s : st) : option Z * outcome (bool * st) :=
  match search None file (pos s) with
  | Raise w => (None, Raise w)
  | Ret (Ended p) => (None, Ret (false, at_pos p s))
  | Ret (Found p) => (Some (p - 2), do s <- read_hdrseg file (at_pos p s); Ret (true, s))
  end.

(** io/rdi.py:279-304 [check_for_double_buffer] *)
Fixpoint set_id (id o : Z) (l : list (Z * Z)) : list (Z * Z) :=
  match l with [] => [(id, o)] | (x, v) :: l' => if x =? id then (x, o) :: l' else (x, v) :: set_id id o l' end.
Fixpoint double_loop (file : bytes) (base off0 : Z) (offs : list Z) (found : bool) (s : st) : outcome (bool * st) :=
  match offs with
  | [] => Ret (found, s)
  | o :: offs' =>
    let p := o + base - off0 in
    do _ <- check (0 <=? p) "OSError";
    do v <- read file p Ad2cp.U16 1;
    let id := hd 0 v in
    let s := with_ids (set_id id o (id_positions s)) (at_pos (p + 2) s) in
    if id =? 1 then do s <- read_fixed file true s; double_loop file base off0 offs' true s
    else if id =? 0 then do s <- read_fixed file false s; double_loop file base off0 offs' found s
    else if id =? 16 then do s <- read_fixed_sl file s; double_loop file base off0 offs' found s
    else if id =? 8192 then double_loop file base off0 offs' found (with_vmdas true (read_vmdas_done s) s)
    else double_loop file base off0 offs' found s
  end.
Definition check_for_double_buffer (file : bytes) (s : st) : outcome (bool * st) :=
  do offs <- offsets s;
  double_loop file (pos s) (hd 0 offs) offs false (with_ids [] s).

(** io/rdi.py:231-254 [code_spacing], the loop: the last position found and the number of rounds begun *)
Fixpoint spacing_loop (file : bytes) (n : nat) (rpos rounds : Z) (s : st) : Z * Z :=
  match n with
  | O => (rpos, rounds)
  | S n' =>
    match read_hdr file s with
    | (p, r) =>
      let rpos := match p with Some q => q | None => rpos end in
      match r with
      | Raise _ => (rpos, rounds + 1)
      | Ret (_, s) => spacing_loop file n' rpos (rounds + 1) s
      end
    end
  end.
(** io/rdi.py:203-229 [__init__]: the reader and the number of pings estimated *)
Definition start (vmdas winriver : bool) : st :=
  St 0 0 0 [] 0 0 winriver vmdas false [] [] None None [] [].
Definition init (file : bytes) (vmdas winriver : bool) : outcome (st * Z) :=
  match read_hdr file (start vmdas winriver) with
  | (_, Raise w) => Raise w
  | (_, Ret (false, _)) => Raise "No header in this file"
  | (p, Ret (true, s)) =>
    do '(bb, s) <- check_for_double_buffer file s;
    let '(rpos, rounds) := spacing_loop file 50 (match p with Some q => q | None => 0 end) 0 s in
    let size := (qz rpos / qz rounds * (995 # 1000))%Q in
    let npings := Qfloor (qz (len file) / (size + 2)) in
    do n <- cfg_z (scfg s) "n_cells";
    do ebb <- (if bb then do m <- cfg_z (scfg_bb s) "n_cells"; Ret (Some (new_ensemble m)) else Ret None);
    Ret (with_vars ["time"] (with_ens (Some (new_ensemble n)) ebb (at_pos 0 s)), npings)
  end.

(** ** One ensemble: io/rdi.py:424-486 [read_buffer] *)
(** lines 441-469 *)
Fixpoint read_blocks (file : bytes) (offs : list Z) (byte_offset : Z) (s : st) : outcome st :=
  match offs with
  | [] => Ret s
  | _ :: offs' =>
    do v <- read file (pos s) Ad2cp.U16 1;
    do '(ok, s) <- read_dat file (hd 0 v) (at_pos (pos s + 2) s);
    let byte_offset := byte_offset + nbyte s in
    if negb ok then Ret s
    else match offs' with
    | next :: _ =>
      do p <- seek (pos s) (next - byte_offset);
      read_blocks file offs' next (at_pos p s)
    | [] =>
      if winrivprob s then Ret s
      else do p <- seek (pos s) (hdr_nbyte s - 2 - byte_offset); Ret (at_pos p s)
    end
  end.
(** io/rdi.py:578-589 [check_offset] *)
Definition check_offset (offset : Z) (s : st) : outcome st :=
  let s := if negb (offset =? 4) && (fixoffset s =? 0) then with_fixoffset (offset - 4) s else s in
  do p <- seek (pos s) (4 + fixoffset s); Ret (at_pos p s).
(** lines 470-483; f.read past the end gives None, which is ignored *)
Definition vmdas_again (file : bytes) (s : st) : outcome st :=
  if negb (read_vmdas_done s) && vmdas_search s then
    do r <- search_buffer file (pos s);
    do p <- seek (match r with Found p => p | Ended p => p end) (-98);
    match f_read file p 2 with
    | [] => Ret (at_pos p s)
    | [_] => Raise "struct.error"
    | bs => let s := at_pos (p + 2) s in if Ad2cp.value Ad2cp.U16 bs =? 8192 then read_known file 8192 s else Ret s
    end
  else Ret s.
(** lines 434-485, one round of the loop; [None] at the end of the file *)
Definition read_one (file : bytes) (s : st) : outcome (option st) :=
  do r <- search_buffer file (pos s);
  match r with
  | Ended _ => Ret None
  | Found p =>
    let startpos := p - 2 in
    do s <- read_hdrseg file (at_pos p s);
    do offs <- offsets s;
    do s <- read_blocks file offs (nbyte s + 2) (with_vmdas (vmdas_search s) false s);
    do s <- vmdas_again file s;
    do s <- check_offset (hdr_nbyte s + 2 - (pos s - startpos)) s;
    Ret (Some s)
  end.
(** the loop goes on until a variable leader has been read. [fuel] bounds the number of rounds; running
    out of it, which the code cannot, is an outcome of its own. *)
Fixpoint read_rounds (fuel : nat) (file : bytes) (s : st) : outcome (option st) :=
  match fuel with
  | O => Raise "fuel"
  | S fuel' =>
    do e <- or_raise (ens s) "AttributeError";
    if ek e <? 0 then
      do r <- read_one file s;
      match r with None => Ret None | Some s => read_rounds fuel' file s end
    else Ret (Some s)
  end.
Definition reset_k (s : st) : st :=
  with_ens (option_map (set_k (-1)) (ens s)) (option_map (set_k (-1)) (ens_bb s)) s.
Definition read_buffer (file : bytes) (s : st) : outcome (option st) :=
  read_rounds (S (S (length file))) file (reset_k s).

(** ** The columns: io/rdi.py:312-386 [load_data] *)
(** rdi_defs.py:188-189 [clean_data] *)
Definition clean_data (e : ensemble) : ensemble :=
  put "vel" (map (fun x => match x with
    | Some q => if Qeq_bool q (-32768 # 1000) then None else Some q
    | None => None end) (get e "vel")) e.
(** io/rdi.py:337-339: the century; [rtc] holds integers *)
Definition century (e : ensemble) : ensemble :=
  match get e "rtc" with
  | Some y :: l => if Qle_bool 100 y then e else put "rtc" (Some (y + 2000)%Q :: l) e
  | _ => e
  end.
(** io/rdi.py:361-370: the date and the hundredths of a second, or NaN *)
Definition clock (e : ensemble) : option (date * Z) :=
  match map (fun x => match x with Some q => Qfloor q | None => 0 end) (get e "rtc") with
  | [y; m; d; h; mi; sc; hs] =>
    if valid_date (Date y m d h mi sc) && (hs <? 100) then Some (Date y m d h mi sc, hs) else None
  | _ => None
  end.
(** what is written at one index: the variables that have been read so far, all others keep NaN (or, for
    integers, what numpy.empty left) *)
Record column := Col { ctime : option (date * Z); cvals : list (string * list (option Q)) }.
Definition column_of (s : st) (e : ensemble) : column := Col (clock e) (map (fun nm => (nm, get e nm)) (vars_read s)).
(** the second dataset, of which only the times are written, is left out *)
Fixpoint load_loop (file : bytes) (n : nat) (s : st) : outcome (list column * st) :=
  match n with
  | O => Ret ([], s)
  | S n' =>
    do r <- read_buffer file s;
    match r with
    | None => Ret ([], s)
    | Some s =>
      do e <- or_raise (ens s) "AttributeError";
      let e := century (clean_data e) in
      let s := with_ens (Some e) (ens_bb s) s in
      do '(cols, s') <- load_loop file n' s;
      Ret (column_of s e :: cols, s')
    end
  end.
(** io/rdi.py:61-72 of [read_rdi]: the columns and the reader; without any ensemble the variable [datl] of
    line 377 is unbound *)
Definition read_rdi (file : bytes) (nens : option Z) (vmdas winriver : bool) : outcome (list column * st) :=
  do '(s, npings) <- init file vmdas winriver;
  do '(cols, s) <- load_loop file (Z.to_nat (match nens with None => npings | Some n => n end)) s;
  match cols with [] => Raise "UnboundLocalError" | _ => Ret (cols, s) end.
(** the array of a variable, one entry for each ensemble; [None] is an index not written *)
Definition variable (cols : list column) (nm : string) : list (option (list (option Q))) :=
  map (fun c => lookup nm (cvals c)) cols.

(** ** The attributes: io/rdi.py:1306-1340 [cleanup], [finalize] *)
(** lines 1311-1312, 1330-1331 and 1340, without 'fs' *)
Definition attributes (s : st) : cfg :=
  match ens s with Some e => ("n_cells", CZ (e_cells e)) :: scfg s | None => scfg s end.
(** lines 1307-1309; a missing key, which raises, is an empty coordinate here *)
Definition range_coordinate (s : st) : list Q :=
  match ens s, lookup "bin1_dist_m" (scfg s), lookup "cell_size" (scfg s) with
  | Some e, Some (CQ b), Some (CQ c) => map (fun k => (b + qz (Z.of_nat k) * c)%Q) (seq 0 (Z.to_nat (e_cells e)))
  | _, _, _ => []
  end.
(** lines 1333-1339: the sampling frequency. [dat['attrs']] is a dictionary, and a dictionary has no attribute
    'sourceprog': [hasattr] is false. [mean_rate] is what line 1336 would compute from the times. [None] is numpy's inf
    (division by zero) *)
Definition hasattr_of_dict (c : cfg) (nm : string) : bool := false.
Definition from_times (c : cfg) : bool :=
  match lookup "sourceprog" c with Some (CS p) => mem p ["VMDAS"; "WINRIVER"; "WinRiver2"] | _ => false end.
Definition sampling_frequency (c : cfg) (mean_rate : option Q) : outcome (option Q) :=
  if hasattr_of_dict c "sourceprog" && from_times c then Ret mean_rate
  else
    do sec <- cfg_q c "sec_between_ping_groups"; do pings <- cfg_z c "pings_per_ensemble";
    let q := (sec * qz pings)%Q in Ret (if Qeq_bool q 0 then None else Some (/ q)%Q).
