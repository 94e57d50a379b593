(** Model of io/base.py:80-110 [_handle_nan]. Samples are [option Q], [None] is NaN. *)
From Coq Require Import String.
From Coq Require Import QArith List Bool.
From Verif.Model Require Import Rotate.
Import ListNotations.
Open Scope nat_scope.

(** a variable: its number of dimensions and its lines along the last dimension (one line for one
    dimension, one per component for two, one per pair of leading indices for three) *)
Record nvar := NVar { vname : string; ndim : nat; lines : list (list (option Q)) }.
Record ndata := NData { ntime : list (option Q); nvars : list nvar }.

(** [shape[-1]]; arrays have at least one line *)
Definition width (v : nvar) : nat := length (hd [] (lines v)).
Definition isnan (l : list (option Q)) : list bool := map (fun x => match x with None => true | Some _ => false end) l.
(** [nan += isnan] of boolean arrays is their disjunction *)
Fixpoint or_lists (a b : list bool) : list bool :=
  match a, b with x :: a', y :: b' => (x || y) :: or_lists a' b' | _, _ => a end.
(** io/base.py:90-92 *)
Definition imu_name (s : string) : bool := contains "accel" s || contains "angrt" s || contains "mag" s.
(** io/base.py:94-101: what one variable adds to the mask; only the last component of vectors is tested *)
Definition var_nan (l : nat) (v : nvar) (nan : list bool) : list bool :=
  if imu_name (vname v) && Nat.eqb (width v) l then
    match ndim v with
    | 1 => or_lists nan (isnan (hd [] (lines v)))
    | 2 => or_lists nan (isnan (last (lines v) []))
    | _ => nan
    end
  else nan.
Definition nan_mask (d : ndata) : list bool :=
  fold_left (fun nan v => var_nan (length (ntime d)) v nan) (nvars d) (isnan (ntime d)).
(** [np.cumsum(nan)[-1]]: the number of True; IndexError ([None]) on an empty array *)
Definition trailing (d : ndata) : option nat :=
  match nan_mask d with [] => None | m => Some (count_occ bool_dec m true) end.
(** [a[..., :-n]], n > 0 *)
Definition drop_end {A} (n : nat) (l : list A) : list A := firstn (length l - n) l.
Definition handle_nan (d : ndata) : option ndata :=
  match trailing d with
  | None => None
  | Some O => Some d
  | Some n => Some (NData (drop_end n (ntime d))
      (map (fun v => if Nat.eqb (width v) (length (ntime d))
                     then NVar (vname v) (ndim v) (map (drop_end n) (lines v)) else v) (nvars d)))
  end.
