(** Model of dolfyn/io/nortek2.py:476-485 and 612-634: the ranges of the cells of a Signature dataset. *)
From Coq Require Import String.
From Coq Require Import ZArith Reals List Bool.
From Verif.Model Require Import Ad2cp Ad2cpIndex SigData ReadSig.
Import ListNotations.
Open Scope Z_scope.

(** the second axis of 'vel' (the axes of the arrays: nortek2_defs.py:65-72); one row of cells for the fifth beam *)
Definition vel_cells (l : layout) : option nat :=
  match find (fun f => String.eqb (fname f) "vel") l with
  | Some f => match fshape f with [_; nc] => Some nc | _ => None end
  | None => None
  end.
(** nortek2.py:482-485: the one value of the pings. The program scales first (nortek2_defs.py:112-117, 202-203) and takes the
    value then; as the scale is positive it is the same one. *)
Definition one_value (id : Z) (l : layout) (pings : list (option (list (list Z)))) (nm : string) : option R :=
  match collapse (ints (table id l pings) nm) (if zmem id [24; 26] then [0] else []) with
  | Some n => match sci_func id nm with Some (sc, off) => Some ((IZR n + off) * sc)%R | None => Some (IZR n) end
  | None => None
  end.
(** nortek2.py:612-616, 618-621, 630-634 *)
Definition range_of (id : Z) (l : layout) (pings : list (option (list (list Z)))) : option (list R) :=
  match vel_cells l, one_value id l pings "cell_size", one_value id l pings "blank_dist" with
  | Some nc, Some size, Some blank => Some (map (fun i => ((INR i + 1) * size + blank)%R) (seq 0 nc))
  | _, _, _ => None
  end.
(** nortek2.py:65-103: the ranges of the profile [id] of a file, without dual profiles. [None]: no such profile, or an exception. *)
Definition read_range (fuel : nat) (rebuild : bool) (existing : option (list entry)) (file : Nortek.bytes) (start : nat) (stop : option nat) (id : Z) : option (list R) :=
  match read_pings fuel false rebuild existing file start stop with
  | Pings false recs => match find (fun r => fst (fst r) =? id) recs with Some (_, l, pings) => range_of id l pings | None => None end
  | _ => None
  end.
