(** [slice1d_along_axis], tools/misc.py:106-152. *)
From Coq Require Import ZArith List Bool.
Import ListNotations.

(** misc.py:143-146, the inner while loop. The counters and extents are held last-first:
    [n = -1] is the head. The first counter ([n = 1 - nd]) is never reset. *)
Fixpoint carry (ind dims : list nat) : list nat :=
  match ind, dims with
  | i :: ((i' :: rest) as r), d :: dims' =>
      if Nat.leb d i then 0 :: carry (S i' :: rest) dims' else ind
  | _, _ => ind
  end.

(** misc.py:149 [ind[-1] += 1] *)
Definition bump (ind : list nat) : list nat :=
  match ind with i :: r => S i :: r | [] => [] end.

(** misc.py:140-150, [fuel] passes of the loop: the successive values of [ind] when yielded,
    here written first-to-last. *)
Fixpoint odometer (fuel : nat) (ind dims : list nat) : list (list nat) :=
  match fuel with
  | O => []
  | S k => let ind := carry ind dims in rev ind :: odometer k (bump ind) dims
  end.

Fixpoint remove_at {A} (k : nat) (l : list A) : list A :=
  match l, k with
  | [], _ => []
  | _ :: l', O => l'
  | x :: l', S k' => x :: remove_at k' l'
  end.
Fixpoint insert_at {A} (k : nat) (y : A) (l : list A) : list A :=
  match k, l with
  | O, _ => y :: l
  | S k', x :: l' => x :: insert_at k' y l'
  | S _, [] => [y]
  end.

Definition product (l : list nat) : nat := fold_right Nat.mul 1 l.

(** misc.py:130-150. A yielded tuple is a list in which [None] is [slice(None)]. [None] as a
    result is an exception: an axis that does not exist (line 136), or a one-dimensional
    array (line 144 reads [ind[-1]] of an empty list). *)
Definition slice1d_along_axis (arr_shape : list nat) (axis : Z) : option (list (list (option nat))) :=
  let nd := length arr_shape in
  let axis := if (axis <? 0)%Z then (axis + Z.of_nat nd)%Z else axis in
  if ((0 <=? axis) && (axis <? Z.of_nat nd))%Z then
    let dims := remove_at (Z.to_nat axis) arr_shape in
    match dims with
    | [] => None
    | _ => Some (map (fun ind => insert_at (Z.to_nat axis) None (map Some ind))
                     (odometer (product dims) (repeat 0 (nd - 1)) (rev dims)))
    end
  else None.
