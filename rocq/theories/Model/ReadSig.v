(** Model of reading a Signature file as a whole, dolfyn/io/nortek2.py:65-103, 225-274: from the bytes of the file
    to the variables and times of the dataset.  The index and the reading loop are those of Model/Ad2cpIndex.v,
    conversion and reorganisation those of Model/SigData.v.  The configuration at the start of the file is an
    argument here (Model/SigHead.v); whether there are string records too: it only matters for files with two profiles. *)
From Coq Require Import String.
From Coq Require Import ZArith List Bool.
From Verif.Model Require Import Ad2cp Ad2cpIndex SigData.
Import ListNotations.
Open Scope Z_scope.

(** nortek2.py:268-270 [_read_burst]: what is in column [c] of the arrays of an id at the end: the last thing
    stored there; [None]: nothing *)
Definition last_stored (evs : list event) (id : Z) (c : nat) : option (list (list Z)) :=
  fold_left (fun acc e => if (fst (fst e) =? id) && Nat.eqb (snd (fst e)) c then Some (snd e) else acc) evs None.
(** nortek2.py:225-251 [init_data]: the arrays of an id have [n] columns *)
Definition pings_of (evs : list event) (n : nat) (id : Z) : list (option (list (list Z))) := map (last_stored evs id) (seq 0 n).
(** nortek2.py:311-324: the layout of raw altimeter pings has the number of samples of the first one *)
Definition nsamp_index (l : layout) : nat := length (before_nsamp l).
Definition sampled (evs : list event) (id : Z) (l : layout) : layout :=
  if zmem id [26; 31] then
    match find (fun e => fst (fst e) =? id) evs with
    | Some e => with_samples (Z.to_nat (nth 0 (nth (nsamp_index l) (snd e) []) 0)) l
    | None => l
    end
  else l.
(** nortek2.py:225-251 and 272-285: the arrays of the file; the readers are those of the ids of which there are pings *)
Definition arrays (evs : list event) (rdrs : list (Z * layout)) (nens : nat) (nalt : Z -> nat) : list (Z * layout * list (option (list (list Z)))) :=
  map (fun p => (fst p, sampled evs (fst p) (snd p), pings_of evs (if zmem (fst p) [26; 31] then nalt (fst p) else nens) (fst p)))
      (filter (fun p => negb (zmem (fst p) [26; 31] && Nat.eqb (nalt (fst p)) 0)) rdrs).
(** nortek2.py:243-246: the ensembles are counted from the start of the file (in [SigData.signature]: from the first one read) *)
Definition shift_ensembles (start : nat) (d : dict var) : dict var :=
  map (fun p => (fst p, if prefix "ensemble" (fst p) then map (map (fun x => match x with Int n => Int (n + Z.of_nat start) | y => y end)) (snd p) else snd p)) d.

(** nortek2.py:65-68 and 125-149: the pings of the file, of one profile or of two *)
Inductive pings_read := Pings (dual : bool) (recs : list (Z * layout * list (option (list (list Z))))) | NoPings | PingsUnfinished.
Definition read_pings (fuel : nat) (dp rebuild : bool) (existing : option (list entry)) (file : Nortek.bytes) (start : nat) (stop : option nat) : pings_read :=
  match get_index fuel dp rebuild existing file with
  | Index l =>
    match read_entries fuel l file start stop, lastblock_iswhole (Z.of_nat (length file)) (first_pings l), burst_readers l with
    | Events evs, Some whole, Some rdrs =>
      let total := (length (first_pings l) - (if whole then 0 else 1))%nat in
      let stop' := match stop with None => total | Some s => Nat.min s total end in
      Pings (is_dual dp (map eid l)) (arrays evs rdrs (stop' - start) (n_of l start stop'))
    | RdMore, _, _ => PingsUnfinished
    | _, _, _ => NoPings
    end
  | Raised => NoPings
  | More => PingsUnfinished
  end.
(** nortek2.py:65-103 *)
Inductive result := Dataset (r : reduced) | Failed | Unfinished.
Definition read_signature (fuel : nat) (fh : filehead) (strings dp rebuild : bool) (existing : option (list entry)) (file : Nortek.bytes) (start : nat) (stop : option nat) : result :=
  match read_pings fuel dp rebuild existing file start stop with
  | Pings dual recs =>
    match signature fh dual strings recs with
    | Some r => Dataset (Reduced (shift_ensembles start (data_vars r)) (times r) (fs r) (has_imu r) (tmat r))
    | None => Failed
    end
  | NoPings => Failed
  | PingsUnfinished => Unfinished
  end.
