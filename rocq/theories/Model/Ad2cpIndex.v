(** Model of the index of AD2CP files (dolfyn/io/nortek2_lib.py:97-287, 482-530) and of the loop that
    reads them (dolfyn/io/nortek2.py:125-390).  Warnings, the log and [print] are not modelled.  Positions
    are integers; a file is its list of bytes. *)
From Coq Require Import String.
From Coq Require Import ZArith List Bool.
From Verif.Model Require Import Nortek Ad2cp.
Import ListNotations.
Open Scope Z_scope.

(** one line of the index, nortek2_lib.py:55-73 (version 1); [edate]: year, month, day, hour, minute, second, usec100 *)
Record entry := Entry { eN : Z; ehw : Z; epos : Z; eid : Z; econfig : Z; ebeams : Z; edate : list Z; ever : Z }.

(** nortek2_lib.py:104-105 *)
Definition known_ids : list Z := [21; 22; 23; 24; 26; 28; 27; 29; 30; 31; 35; 36].
(** where a record keeps its ensemble number, counted from the start of its header: nortek2_lib.py:112-113 *)
Definition ens_off (id : Z) : nat := if id =? 23 then 84%nat else 82%nat.
Definition u16 (o : nat) (r : bytes) : Z := le (firstn 2 (skipn o r)).
Definition u32 (o : nat) (r : bytes) : Z := le (firstn 4 (skipn o r)).
Definition upd (f : Z -> Z) (k v : Z) : Z -> Z := fun x => if x =? k then v else f x.
(** nortek2_lib.py:122-126: the year, the month with one added, ..., usec100 *)
Definition date_of (r : bytes) : list Z :=
  [nth 18 r 0; nth 19 r 0 + 1; nth 20 r 0; nth 21 r 0; nth 22 r 0; nth 23 r 0; u16 24 r].

(** nortek2_lib.py:97-155 [_create_index].  [Index] the lines written; [Raised] an exception; [More] not
    finished after [fuel] rounds.  The header is '<BBBBhhh': the size is a signed number.  A seek to a
    negative position, a short read inside a known record and a number that [struct.pack] cannot write
    raise. *)
Inductive indexed := Index (l : list entry) | Raised | More.
Fixpoint create_index (fuel : nat) (N_ens : Z) (file : bytes) (pos : Z) (last N : Z -> Z) : indexed :=
  match fuel with
  | O => More
  | S fuel' =>
    if pos <? 0 then Raised
    else if N 21 <? N_ens then
      let r := skipn (Z.to_nat pos) file in
      if (length r <? 10)%nat then Index []
      else
        let id := nth 2 r 0 in
        let sz := value S16 (firstn 2 (skipn 4 r)) in
        if zmem id known_ids then
          if (length r <? ens_off id + 4)%nat then Raised
          else
            let e0 := u32 (ens_off id) r in
            let e := if (0 <? last id) && ((e0 =? 1) || (e0 <? last id)) then last id + 1 else e0 in
            let n := if (0 <? last id) && negb (last id =? e) then N id + 1 else N id in
            if (e <? 2 ^ 32) && (nth 19 r 0 + 1 <? 256) && (n <? 2 ^ 64) && (pos <? 2 ^ 64) then
              match create_index fuel' N_ens file (pos + 10 + sz) (upd last id e) (upd N id n) with
              | Index l => Index (Entry n e pos id (u16 12 r) (u16 40 r) (date_of r) (nth 10 r 0) :: l)
              | x => x
              end
            else Raised
        else create_index fuel' N_ens file (pos + 10 + sz) last N
    else Index []
  end.
(** nortek2_lib.py:245 *)
Definition index_file (fuel : nat) (file : bytes) : indexed :=
  create_index fuel (2 ^ 32) file 0 (fun _ => -1) (fun _ => 0).

(** nortek2_lib.py:158-213 [_check_index]: the changes of 'ens' *)
Definition at_id (id : Z) (ids : list Z) : list nat :=
  map fst (filter (fun p => snd p =? id) (combine (seq 0 (length ids)) ids)).
Definition steps_over (n : nat) (inds : list nat) : list nat :=
  filter (fun ib => (n <? nth (S ib) inds 0%nat - nth ib inds 0%nat)%nat) (seq 0 (length inds - 1)).
Definition diffs (l : list Z) : list Z := map (fun p => snd p - fst p) (combine l (tl l)).
(** lines 181-189 *)
Definition dual_skips (ibad : list nat) : list nat :=
  let sk := diffs (map Z.of_nat ibad) in
  let sk' := map (fun s => if (1 <? count sk s)%nat then 0 else s) sk in
  if existsb (fun s => negb (s =? 0)) sk' then map fst (filter (fun p => negb (snd p =? 0)) (combine ibad (sk' ++ [0]))) else [].
Definition bump (ks : list nat) (ens : list Z) : list Z :=
  map (fun p => if existsb (Nat.eqb (fst p)) ks then snd p + 1 else snd p) (combine (seq 0 (length ens)) ens).
Definition is_dual (dp : bool) (ids : list Z) : bool := dp || (zmem 21 ids && zmem 22 ids).
Definition fix_skips (dp : bool) (ids : list Z) (ens : list Z) : list Z :=
  let uid := unique ids in
  fold_left (fun ens id =>
    let inds := at_id id ids in
    let ibad0 := steps_over (length uid) inds in
    let ibad := if is_dual dp ids then dual_skips ibad0 else ibad0 in
    fold_left (fun ens ib => bump (skipn (S ib) inds) ens) ibad ens) uid ens.
Definition with_ens (l : list entry) (ens : list Z) : list entry :=
  map (fun p => let e := fst p in Entry (snd p) (ehw e) (epos e) (eid e) (econfig e) (ebeams e) (edate e) (ever e)) (combine l ens).
Definition check_index (dp : bool) (l : list entry) : list entry := with_ens l (fix_skips dp (map eid l) (map eN l)).

(** nortek2_lib.py:225-257 [get_index]: an index file that exists is used; a file in the present format is assumed *)
Definition get_index (fuel : nat) (dp rebuild : bool) (existing : option (list entry)) (file : bytes) : indexed :=
  match (if rebuild then None else existing) with
  | Some l => Index (check_index dp l)
  | None => match index_file fuel file with Index l => Index (check_index dp l) | x => x end
  end.

(** nortek2_lib.py:216-222 [_boolarray_firstensemble_ping] and nortek2.py:138-139 *)
Definition first_pings (l : list entry) : list Z :=
  match l with
  | [] => []
  | e :: l' => epos e :: map (fun p => epos (snd p)) (filter (fun p => negb (eN (snd p) =? eN (fst p))) (combine l l'))
  end.
(** nortek2.py:145-149 [_calc_lastblock_iswhole]; [None]: argmax of an empty array *)
Definition lastblock_iswhole (eof : Z) (ens_pos : list Z) : option bool :=
  match unique (diffs ens_pos) with
  | [] => None
  | u :: us => Some (eof - last ens_pos 0 =? argmax_by (count (diffs ens_pos)) u us)
  end.

(** nortek2_lib.py:482-530 [_calc_config] and nortek2.py:213-223 [_init_burst_readers]: the layout for
    each id; [None] is an exception.  The bottom-track record may change its number of cells: line 514
    only asks that 'cy' and 'n_beams' be true. *)
Definition config_ids : list Z := [21; 22; 23; 24; 26; 28; 31].
Definition truthy (b : beams_cy) : bool :=
  match cy b, n_beams b with Some NoAxes, _ => false | Some _, Some n => negb (n =? 0) | _, _ => false end.
Definition reader_for (id config beams : Z) : option layout :=
  let b := beams_cy_int2dict beams id in
  let nb := match n_beams b with Some n => Z.to_nat n | None => 0%nat end in
  if id =? 28 then calc_echo_struct config (Z.to_nat (n_cells b))
  else if id =? 23 then Some (calc_bt_struct config nb)
  else calc_burst_struct config nb (Z.to_nat (n_cells b)).
Definition config_one (l : list entry) (id : Z) : option layout :=
  let es := filter (fun e => eid e =? id) l in
  let cs := map econfig es in
  let bs := map ebeams es in
  if isuniform cs [] && (isuniform bs [] || ((id =? 23) && forallb (fun b => truthy (beams_cy_int2dict b 23)) bs))
  then match cs, bs with c :: _, b :: _ => reader_for id c b | _, _ => None end
  else None.
Fixpoint config_all (l : list entry) (ids : list Z) : option (list (Z * layout)) :=
  match ids with
  | [] => Some []
  | id :: ids' => match config_one l id, config_all l ids' with Some y, Some ys => Some ((id, y) :: ys) | _, _ => None end
  end.
Definition burst_readers (l : list entry) : option (list (Z * layout)) :=
  config_all l (filter (fun id => zmem id config_ids) (unique (map eid l))).
Fixpoint lookup (rd : list (Z * layout)) (id : Z) : option layout :=
  match rd with [] => None | (k, y) :: rd' => if k =? id then Some y else lookup rd' id end.

(** nortek2.py:364-390 [_advance_ens_count] *)
Fixpoint advance (fuel : nat) (ens_pos : list Z) (eof tell : Z) (start total c : nat) : nat :=
  match fuel with
  | O => c
  | S fuel' =>
    if nth (c + start + 1) ens_pos (eof + 1) <=? tell then
      if (total <=? S c + start + 1)%nat then S c else advance fuel' ens_pos eof tell start total (S c)
    else c
  end.

(** nortek2.py:272-362 [readfile]: what is stored, in order: the id, the column, the fields.  [RdMore] not
    finished after [fuel] records.  [nalt]: the number of columns for raw altimeter records, 26 and 31;
    [alt]: the number of samples found in the first of them; [calt]: their counter. *)
Definition event := (Z * nat * list (list Z))%type.
Inductive rd := Events (l : list event) | RdRaised | RdMore.
Definition emit (e : event) (r : rd) : rd := match r with Events l => Events (e :: l) | x => x end.
Definition before_nsamp (l : layout) : layout :=
  (fix go l := match l with [] => [] | f :: l' => if String.eqb (fname f) "nsamp_alt" then [] else f :: go l' end) l.
Fixpoint rloop (fuel : nat) (file : bytes) (ens_pos : list Z) (start nens total : nat) (rdrs : list (Z * layout)) (nalt : Z -> nat)
  (pos : Z) (c : nat) (alt : Z -> option nat) (calt : Z -> nat) : rd :=
  match fuel with
  | O => RdMore
  | S fuel' =>
    let eof := Z.of_nat (length file) in
    let r := skipn (Z.to_nat pos) file in
    let next := fun pos' alt' calt' =>
      let c' := advance (S (length ens_pos)) ens_pos eof pos' start total c in
      if (nens <=? c')%nat then Events [] else rloop fuel' file ens_pos start nens total rdrs nalt pos' c' alt' calt' in
    if (length r <? 10)%nat then Events []
    else match read_hdr r with
    | None => RdRaised
    | Some (h, body) =>
      let id := nth 0 (nth 2 h []) 0 in
      let sz := nth 0 (nth 4 h []) 0 in
      if zmem id [21; 22; 23; 24; 28] then
        match lookup rdrs id with
        | None => RdRaised
        | Some l => match read_burst l body with
                    | None => RdRaised
                    | Some (vals, _) => emit (id, c, vals) (next (pos + 10 + Z.of_nat (nbyte l)) alt calt)
                    end
        end
      else if zmem id [26; 31] then
        match lookup rdrs id with
        | None => RdRaised
        | Some l =>
          let shift := calcsize_native (before_nsamp l) in
          if (length body <? shift + 4)%nat then RdRaised
          else
            let n := Z.to_nat (u32 shift body) in
            if match alt id with Some n' => Nat.eqb n n' | None => true end && (calt id <? nalt id)%nat then
              match altraw_read n l body with
              | None => RdRaised
              | Some (vals, _) =>
                emit (id, calt id, vals)
                  (next (pos + 10 + Z.of_nat (nbyte (with_samples n l))) (fun k => if k =? id then Some n else alt k)
                        (fun k => if k =? id then S (calt k) else calt k))
              end
            else RdRaised
        end
      else if id =? 160 then
        if (length body <? 1)%nat || (sz =? 0) then RdRaised
        else next (pos + 10 + Z.min sz (Z.of_nat (length body))) alt calt
      else next (pos + 10 + sz) alt calt
    end
  end.

(** nortek2.py:126-149, 225-241 and 272-285: the whole way from the file to what is stored.  [stop]: [None]
    for the end of the file.  Ranges without an ensemble are left out: they raise. *)
Definition n_of (l : list entry) (start stop : nat) (id : Z) : nat :=
  length (filter (fun e => (eid e =? id) && (Z.of_nat start <=? eN e) && (eN e <? Z.of_nat stop)) l).
Definition read_entries (fuel : nat) (l : list entry) (file : bytes) (start : nat) (stop : option nat) : rd :=
  let ens_pos := first_pings l in
  match lastblock_iswhole (Z.of_nat (length file)) ens_pos, burst_readers l with
  | Some whole, Some rdrs =>
    let total := (length ens_pos - (if whole then 0 else 1))%nat in
    let stop' := match stop with None => total | Some s => Nat.min s total end in
    if (stop' <=? start)%nat then RdRaised
    else
      let nalt := n_of l start stop' in
      rloop fuel file ens_pos start (stop' - start) total (filter (fun p => negb (zmem (fst p) [26; 31] && Nat.eqb (nalt (fst p)) 0)) rdrs) nalt
            (nth start ens_pos 0) 0 (fun _ => None) (fun _ => 0%nat)
  | _, _ => RdRaised
  end.
Definition read_ad2cp (fuel : nat) (dp rebuild : bool) (existing : option (list entry)) (file : bytes) (start : nat) (stop : option nat) : rd :=
  match get_index fuel dp rebuild existing file with
  | Index l => read_entries fuel l file start stop
  | Raised => RdRaised
  | More => RdMore
  end.

(** nortek2_lib.py:260-287 [crop_ensembles]; [None] is an IndexError: an ensemble that is not in the index *)
Definition crop (l : list entry) (file : bytes) (lo hi : Z) : option bytes :=
  match l, find (fun e => eN e =? lo) l, find (fun e => eN e =? hi) l with
  | e0 :: _, Some a, Some b =>
    Some (firstn (Z.to_nat (epos e0)) file ++ firstn (Z.to_nat (epos b - epos a)) (skipn (Z.to_nat (epos a)) file))
  | _, _, _ => None
  end.
