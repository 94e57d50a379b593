(** Detrending and bin statistics: tools/misc.py:25-55, binned.py:230-352.
    A sample is [option R]; [None] is NaN. Floats (also the float32 of var and std) are
    idealised as real numbers. *)
From Coq Require Import Reals List QArith.
From Verif.Model Require Import Reshape.
Import ListNotations.
Open Scope R_scope.

Definition rsum (l : list R) : R := fold_right Rplus 0 l.

Fixpoint vals (l : list (option R)) : list R :=
  match l with [] => [] | Some x :: l' => x :: vals l' | None :: l' => vals l' end.

(** [np.nanmean] of one line: NaN when every sample is *)
Definition nanmean (l : list (option R)) : option R :=
  match vals l with [] => None | v => Some (rsum v / INR (length v)) end.

Definition osub (a b : option R) : option R :=
  match a, b with Some x, Some y => Some (x - y) | _, _ => None end.
Definition omul (a b : option R) : option R :=
  match a, b with Some x, Some y => Some (x * y) | _, _ => None end.
(** division; a zero denominator occurs here only as 0/0, which is NaN *)
Definition odiv (a b : option R) : option R :=
  match a, b with
  | Some x, Some y => if Req_EM_T y 0 then None else Some (x / y)
  | _, _ => None
  end.

Fixpoint map2 {A B C} (f : A -> B -> C) (l : list A) (m : list B) : list C :=
  match l, m with a :: l', b :: m' => f a b :: map2 f l' m' | _, _ => [] end.

(** misc.py:44-55 [detrend], one line of the array *)
Definition detrend (arr : list (option R)) : list (option R) :=
  let x := map (fun k => Some (INR k)) (seq 0 (length arr)) in
  let x := map (fun v => osub v (nanmean x)) x in
  let arr := map (fun v => osub v (nanmean arr)) arr in
  let b := odiv (nanmean (map2 omul x arr)) (nanmean (map (fun v => omul v v) x)) in
  map2 (fun xi ai => osub ai (omul b xi)) x arr.

(** [np.nanvar]: the mean of the squared deviations of the valid samples *)
Definition nanvar (l : list (option R)) : option R :=
  nanmean (map (fun v => let d := osub v (nanmean l) in omul d d) l).
Definition osqrt (a : option R) : option R :=
  match a with Some x => Some (sqrt x) | None => None end.

Definition over_bins {B} (f : list (option R) -> B) (arr : list (option R)) (n_pad : nat) (n_bin : Q)
    : reshape_err + list B :=
  match reshape (Some 0) arr n_pad n_bin with
  | inl e => inl e
  | inr rows => inr (map f rows)
  end.

(** binned.py:287-311 [mean] (numeric data, axis = -1) *)
Definition bin_mean (arr : list (option R)) (n_bin : Q) := over_bins nanmean arr 0 n_bin.
(** binned.py:313-331 [var] *)
Definition bin_var (arr : list (option R)) (n_bin : Q) := over_bins nanvar arr 0 n_bin.
(** binned.py:333-352 [std] *)
Definition bin_std (arr : list (option R)) (n_bin : Q) :=
  over_bins (fun r => osqrt (nanvar r)) arr 0 n_bin.
(** binned.py:258-285 [demean] *)
Definition demean_row (row : list (option R)) : list (option R) :=
  map (fun v => osub v (nanmean row)) row.
Definition bin_demean (arr : list (option R)) (n_pad : nat) (n_bin : Q) := over_bins demean_row arr n_pad n_bin.
(** binned.py:230-256 [TimeBinner.detrend] *)
Definition bin_detrend (arr : list (option R)) (n_pad : nat) (n_bin : Q) := over_bins detrend arr n_pad n_bin.
