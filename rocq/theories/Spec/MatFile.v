(** When a dataset lies on a layout, and when another dataset holds all of it. *)
From Coq Require Import String.
From Coq Require Import List Bool Arith.
From Verif.Model Require Import SigData CreateDataset.
From Verif.Spec Require Import CreateDataset.
Import ListNotations.
Open Scope string_scope.

(** the orientation of the instrument is added to what was read (rdi.py:106, nortek.py:94, nortek2.py:101), and a
    rotation of the head can be (rotate/vector.py) *)
Definition dataset_layout (L : layout) : layout :=
  app L [("orientmat", ["earth"; "inst"; "time"]); ("inst2head_rotmat", ["x1"; "x2"])].

(** the axes that are no measurement's own *)
Definition frames : list string := ["beam"; "dir"; "x1"; "x2"; "earth"; "inst"; "q"; "dirIMU"].

(** Every entry of the dataset is a coordinate that the layout uses, or a variable of the layout on its axes. No two
    entries have the same name. The times of a variable are in the dataset. No axis in use has length one or zero. *)
Definition lies_on {V} (L : layout) (nb : nat) (size : string -> nat) (ds : dict (entry V)) : Prop :=
  proper nb size /\ NoDup (map fst ds)
  /\ (forall k e, In (k, e) ds ->
        (In k frames \/ In k coordinate_names /\ exists key axes, get L key = Some axes /\ In k axes)
          /\ e = ([k], Axis (size k)) /\ (2 <= size k)%nat
        \/ exists axes a, get L k = Some axes /\ e = (axes, Data a) /\ shape a = map size axes
             /\ (forall d, In d axes -> 2 <= size d)%nat
             /\ (forall d, In d axes -> In d coordinate_names -> In d (map fst ds))).

(** the second dataset has every entry of the first: the same axes, as many coordinates, and the same value at each index *)
Definition same_contents {V} (c c' : contents V) : Prop :=
  match c, c' with
  | Axis n, Axis n' => n = n'
  | Data a, Data a' => shape a' = shape a /\ forall ix, length ix = length (shape a) -> at_ a' ix = at_ a ix
  | _, _ => False
  end.
Definition holds_all {V} (ds ds' : dict (entry V)) : Prop :=
  forall k e, In (k, e) ds -> exists e', get ds' k = Some e' /\ fst e' = fst e /\ same_contents (snd e) (snd e').

(** a variable of the records of a fifth beam, other than the profiles *)
Definition of_fifth_record (key : string) : bool :=
  existsb (fun p => fst p =? key) (sig_record 4 "_b5").
(** every profile of a fifth beam comes directly behind other data of the fifth beam; [ok]: what was before was such *)
Fixpoint fifth_behind (ok : bool) (keys : list string) : Prop :=
  match keys with
  | [] => True
  | k :: keys' => if is_fifth k then ok = true /\ fifth_behind true keys' else fifth_behind (of_fifth_record k) keys'
  end.
(** the names of the variables of a dataset, in its order *)
Definition variable_names {V} (ds : dict (entry V)) : list string :=
  flat_map (fun p => match snd (snd p) with Axis _ => [] | Data _ => [fst p] end) ds.
