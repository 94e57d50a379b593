(** Cleaning of profiler data: adp/clean.py:11-303. Floats are idealised as real numbers; [None] is NaN. *)
From Coq Require Import String.
From Coq Require Import ZArith Reals List Bool.
From Verif.Model Require Import Linalg Stats Rotate.
Import ListNotations.
Open Scope R_scope.

(** ** adp/clean.py:11-50 [set_range_offset]; the dimensions of the dataset with their coordinates and
    the attribute h_deploy (other attributes and the data variables are not touched) *)
Record rds := { dims : list (string * list R); h_deploy : option R }.
Definition set_range_offset (h : R) (d : rds) : rds :=
  {| dims := map (fun nv => if contains "range" (fst nv) then (fst nv, map (fun x => x + h) (snd nv)) else nv) (dims d);
     h_deploy := Some (match h_deploy d with Some x => x + h | None => h end) |}.

(** ** adp/clean.py:109-178 [find_surface_from_P], one sample: density and depth *)
Definition density (p t s : R) : R := 1027 - 15/100 * (t - 10) + 78/100 * (s - 35) + 45/10000 * p.
Definition depth_from_P (h : option R) (p t s : R) : R :=
  p * 10000 / (981/100 * density p t s) + match h with Some x => x | None => 0 end.

(** ** adp/clean.py:181-246 [nan_beyond_surface], one ping *)
(** a float variable or an integer one (which cannot hold NaN) *)
Inductive num := Fl (x : option R) | It (z : Z).
Inductive beyond_err := NoAngle | BadIndex.
(** adp/clean.py:216-221: only the attribute is converted to radians *)
Definition surface_angle (attr arg : option R) : beyond_err + R :=
  match arg, attr with Some a, _ => inr a | None, Some a => inr (a * (PI / 180)) | None, None => inl NoAngle end.
(** adp/clean.py:223-228; a missing depth gives a missing limit *)
Definition surface_limit (angle cell_size : R) (h depth : option R) : option R :=
  match depth with
  | None => None
  | Some d => Some (match h with
                    | Some x => (d - x) * cos angle - cell_size + x
                    | None => d * cos angle - cell_size
                    end)
  end.
Definition Rltb (x y : R) : bool := if Rlt_dec x y then true else false.
Definition beyond (lim : option R) (r : R) : bool := match lim with Some l => Rltb l r | None => false end.
(** adp/clean.py:240-244: [a[..., bds] = val], or 0 in an integer variable (for [val = nan]) *)
Definition blank (val : option R) (x : num) : num := match x with Fl _ => Fl val | It _ => It 0 end.
Definition blank_where {A} (f : A -> A) (mask : list bool) (a : list A) : list A := map2 (fun m x => if (m : bool) then f x else x) mask a.
(** the mask comes from the coordinate 'range' and is used by position; a variable of another
    length raises an IndexError *)
Definition nan_beyond_surface (attr arg : option R) (val h depth : option R) (cell_size : R) (range : list R) (col : list num) : beyond_err + list num :=
  match surface_angle attr arg with
  | inl e => inl e
  | inr angle =>
    if Nat.eqb (length col) (length range)
    then inr (blank_where (blank val) (map (beyond (surface_limit angle cell_size h depth)) range) col)
    else inl BadIndex
  end.
(** adp/clean.py:231-235: the echosounder column *)
Definition nan_beyond_echo (val depth : option R) (range_echo : list R) (col : list num) : list num :=
  blank_where (blank val) (map (beyond depth) range_echo) col.

(** ** adp/clean.py:249-303 [correlation_filter], one cell at one time *)
Definition low (thresh : R) (c : num) : bool :=
  match c with Fl (Some x) => if Rle_dec x thresh then true else false | It z => if Rle_dec (IZR z) thresh then true else false | Fl None => false end.
Fixpoint complete (v : list (option R)) : option (list R) :=
  match v with
  | [] => Some []
  | Some x :: v' => match complete v' with Some l => Some (x :: l) | None => None end
  | None :: _ => None
  end.
(** a rotation of one vector ([np.einsum]): a missing component makes every component missing *)
Definition lift (f : vec -> vec) (v : list (option R)) : list (option R) :=
  match complete v with Some x => map Some (f x) | None => repeat None (length v) end.
(** [frame]: [None] when the data are in beam coordinates, else the rotations of rotate2 to beam
    coordinates and back (Model/Rotate.v). Returns vel, corr, amp. *)
Definition correlation_filter (frame : option ((vec -> vec) * (vec -> vec))) (thresh : R)
    (vel : list (option R)) (corr amp : list num) : list (option R) * list num * list num :=
  let vel := match frame with Some (to_beam, _) => lift to_beam vel | None => vel end in
  let mask := map (low thresh) corr in
  let vel := blank_where (fun _ => None) mask vel in
  let corr := blank_where (blank None) mask corr in
  let amp := blank_where (blank None) mask amp in
  (match frame with Some (_, back) => lift back vel | None => vel end, corr, amp).

(** ** adp/clean.py:53-106 [find_surface] with [nfilt=None]. [amp b c p] is the echo of beam [b < nb],
    cell [c < nc], ping [p < np]. *)
(** index of the first maximum of [f 0 .. f (n-1)] *)
Fixpoint argmax (n : nat) (f : nat -> Z) : nat :=
  match n with
  | O => O
  | S O => O
  | S k => let m := argmax k f in if Z.ltb (f m) (f k) then k else m
  end.
Definition echo_diff (amp : nat -> nat -> nat -> Z) (b c p : nat) : Z := (amp b (S c) p - amp b c p)%Z.
(** adp/clean.py:78-80: uint8 indices, and the final [+ 1] is done in uint8 *)
Definition max_list (l : list Z) : Z := fold_right Z.max 0%Z l.
Definition inds2 (amp : nat -> nat -> nat -> Z) (nc b p : nat) : Z :=
  Z.modulo (max_list (map (fun c => if Z.ltb (echo_diff amp b c p) 0 then Z.modulo (Z.of_nat c) 256 else 0%Z) (seq 0 (nc - 1))) + 1) 256.
Fixpoint insert (x : R) (l : list R) : list R :=
  match l with [] => [x] | y :: t => if Rle_dec x y then x :: l else y :: insert x t end.
Definition sort (l : list R) : list R := fold_right insert [] l.
(** [np.median] of complete data *)
Definition median (l : list R) : R :=
  let s := sort l in let n := length s in
  (nth ((n - 1) / 2) s 0 + nth (n / 2) s 0) / 2.
(** adp/clean.py:82-88: median of both estimates of all beams *)
Definition surface_estimate (range : list R) (amp : nat -> nat -> nat -> Z) (nb nc p : nat) : R :=
  median (map (fun b => nth (argmax nc (fun c => amp b c p)) range 0) (seq 0 nb)
          ++ map (fun b => nth (Z.to_nat (inds2 amp nc b p)) range 0) (seq 0 nb)).
(** adp/clean.py:92-94: [edf[itmp:, :, ip]] selects beams from [itmp] on *)
Definition weak (thresh : Z) (amp : nat -> nat -> nat -> Z) (nb nc p : nat) : bool :=
  let inds := map (fun b => argmax nc (fun c => amp b c p)) (seq 0 nb) in
  let itmp := fold_right Nat.min (hd O inds) inds in
  forallb (fun b => forallb (fun c => Z.ltb (echo_diff amp b c p) thresh) (seq 0 (nc - 1))) (seq itmp (nb - itmp)).
(** the loop at 91-94 runs over the number of cells: [None] is its IndexError *)
Definition find_surface (thresh : Z) (range : list R) (amp : nat -> nat -> nat -> Z) (nb nc np : nat) : option (list (option R)) :=
  if Nat.ltb np nc then None
  else Some (map (fun p => if Nat.ltb p nc && weak thresh amp nb nc p then None else Some (surface_estimate range amp nb nc p)) (seq 0 np)).
