(** Model of [medfilt_orient], adp/clean.py:306-344, of [medfiltnan], tools/misc.py:274-315, for one-dimensional
    data and a number as kernel, and of the end of [find_surface], adp/clean.py:96-99. Numbers are reals. *)
From Coq Require Import Reals List Bool Arith.
From Verif.Model Require Import Linalg Euler CleanAdp.
Import ListNotations.
Open Scope R_scope.

(** scipy.signal.medfilt (and medfilt2d with a kernel [[1, n]]): an even kernel is refused; the record is continued
    with zeros; each sample becomes the middle one of the [n] around it, sorted. *)
Definition around {A} (zero : A) (n : nat) (l : list A) (i : nat) : list A :=
  firstn n (skipn i (repeat zero (n / 2) ++ l ++ repeat zero (n / 2))).
Definition middle (l : list R) : R := nth (length l / 2) (sort l) 0.
Definition medfilt (l : list R) (n : nat) : option (list R) :=
  if Nat.even n then None else Some (map (fun i => middle (around 0 n l i)) (seq 0 (length l))).

Inductive orient_err := No_attribute | Bad_kernel | No_variable | Zero_quaternion | Nothing_to_drop.
(** what [medfilt_orient] reads and writes: the attribute has_imu, the quaternions (w, x, y, z; a row each), the
    angles (pitch, roll, heading) and the orientation matrix of each time *)
Record orientation := Orientation {
  has_imu : option bool;
  quaternions : option (list R * list R * list R * list R);
  angles : option (list R * list R * list R);
  orientmat : option (list mat) }.
Fixpoint all_some {A} (l : list (option A)) : option (list A) :=
  match l with
  | [] => Some []
  | Some x :: l' => match all_some l' with Some r => Some (x :: r) | None => None end
  | None :: _ => None
  end.
Definition matrices (w x y z : list R) : option (list mat) :=
  all_some (map (fun i => quaternion2orient (nth i w 0) (nth i x 0) (nth i y 0) (nth i z 0)) (seq 0 (length w))).
(** adp/clean.py:329-344 *)
Definition medfilt_orient (d : orientation) (n : nat) : orient_err + orientation :=
  match has_imu d with
  | None => inl No_attribute
  | Some true =>
    match quaternions d with
    | None => inl No_attribute
    | Some (w, x, y, z) =>
      match medfilt w n, medfilt x n, medfilt y n, medfilt z n with
      | Some w, Some x, Some y, Some z =>
        match matrices w x y z with
        | Some m => inr (Orientation (has_imu d) (Some (w, x, y, z)) (angles d) (Some m))
        | None => inl Zero_quaternion
        end
      | _, _, _, _ => inl Bad_kernel
      end
    end
  | Some false =>
    match angles d with
    | None => inl No_variable
    | Some (p, r, h) =>
      match medfilt p n, medfilt r n, medfilt h n with
      | Some p, Some r, Some h =>
        match orientmat d with
        | Some _ => inr (Orientation (has_imu d) (quaternions d) (Some (p, r, h)) None)
        | None => inl Nothing_to_drop
        end
      | _, _, _ => inl Bad_kernel
      end
    end
  end.

(** tools/misc.py:300-315. What scipy gives for a window with a NaN in it is left open: [other]. The convolution
    is the fraction of NaN among the [n] samples, those outside the record counting as no NaN. *)
Definition missing (l : list (option R)) : nat := length (filter (fun x => match x with None => true | _ => false end) l).
Fixpoint values (l : list (option R)) : list R :=
  match l with [] => [] | Some x :: l' => x :: values l' | None :: l' => values l' end.
Definition medfiltnan (other : list (option R) -> option R) (l : list (option R)) (n : nat) (thresh : R) : option (list (option R)) :=
  if Nat.even n then None else
  Some (map (fun i => let w := around (Some 0) n l i in
    let out := if Nat.eqb (missing w) 0 then Some (middle (values w)) else other w in
    if Rlt_dec 0 thresh then (if Rlt_dec thresh (INR (missing w) / INR n) then None else out) else out) (seq 0 (length l))).

(** adp/clean.py:96-99 *)
Definition filter_surface (other : list (option R) -> option R) (d : list (option R)) (nfilt : option nat) : option (list (option R)) :=
  match nfilt with
  | None | Some O => Some d
  | Some n =>
    match medfiltnan other d n 4 with
    | None => None
    | Some f => Some (map (fun x => match x with Some v => if Req_EM_T v 0 then None else Some v | None => None end) f)
    end
  end.
