(** What the motion-correction properties say, apart from the code of adv/motion.py. *)
From Coq Require Import String Reals List ZArith.
From Verif.Model Require Import Linalg Rotate Motion.
From Verif.Spec Require Import Linalg Rotate.
Import ListNotations.
Open Scope R_scope.

(** cross product, sum, difference and multiple of vectors of three components *)
Definition cross (a b : vec) : vec :=
  [comp a 1 * comp b 2 - comp a 2 * comp b 1;
   comp a 2 * comp b 0 - comp a 0 * comp b 2;
   comp a 0 * comp b 1 - comp a 1 * comp b 0].
Definition plus3 (a b : vec) : vec := [comp a 0 + comp b 0; comp a 1 + comp b 1; comp a 2 + comp b 2].
Definition minus3 (a b : vec) : vec := [comp a 0 - comp b 0; comp a 1 - comp b 1; comp a 2 - comp b 2].
Definition times3 (k : R) (a : vec) : vec := [k * comp a 0; k * comp a 1; k * comp a 2].
Definition zero3 : vec := [0; 0; 0].

(** where the IMU of a Nortek Vector sits, in metres from the body origin *)
Definition imu_position : vec := [0.00635; 0.00635; 0.14986].

Definition one_cell (v : var) : Prop := Forall (fun c => List.length c = 1%nat) (cells v).

(** An ADV with an IMU as the reader leaves it: velocity, acceleration and rotation rate are
    vectors, one per time, listed once among the variables to rotate, and the variables that
    motion correction creates are not there yet. *)
Record plain_adv (d : ds) : Prop := {
  pa_once : NoDup (rotate_vars d);
  pa_in : forall nm, In nm ["vel"; "accel"; "angrt"]%string ->
    In nm (rotate_vars d) /\ forall v, lookup nm (data d) = Some v -> one_cell v;
  pa_new : forall nm, In nm ["velrot"; "velacc"; "acclow"; "vel_raw"]%string ->
    lookup nm (data d) = None }.

(** a filter returns a series as long as the one it is given *)
Definition keeps_length (lowpass : nat -> R -> R -> list R -> option (list R)) : Prop :=
  forall o f s x y, lowpass o f s x = Some y -> List.length y = List.length x.

Definition frame_name (to_earth : bool) : string := if to_earth then "earth" else "inst".

(** ** separate probes *)
(** what the correction should be: each beam gets the component along itself of the velocity of
    its own receiver. [rot]: instrument to head, [T]: beam to head; [v j]: velocity of receiver
    [j] in instrument axes. *)
Definition along_own_beam (T rot : mat) (v : nat -> vec) : vec :=
  mv (tr 3 rot) (mv T (map (fun j => comp (mv (inv 3 T) (mv rot (v j))) j) (seq 0 3))).

(** ** duty cycles *)
(** time between sample [k] and sample [k+n], ns *)
Definition gap_ns (n : nat) (t : list Z) (k : nat) : option Z :=
  match nth_error t k, nth_error t (k + n) with
  | Some a, Some b => Some (b - a)%Z
  | _, _ => None
  end.
Definition seconds (s : Z) : Z := (s * 1000000000)%Z.

(** the sum of the values of a series *)
Definition total (x : list R) : R := fold_right Rplus 0 x.

(** values of component [i] of a variable with one vector per time *)
Definition history (d : ds) (nm : string) (i : nat) : list R :=
  match lookup nm (data d) with
  | Some v => map (fun c => comp (hd [] c) i) (cells v)
  | None => []
  end.

(** integral of [x] by trapezoids over its first [k] steps of length [dx] *)
Fixpoint trapezoids (dx : R) (k : nat) (x : list R) : R :=
  match k with
  | O => 0
  | S k' => trapezoids dx k' x + dx * (nth k' x 0 + nth (S k') x 0) / 2
  end.

(** the three receivers of a Vector: 76 mm from the axis, 120 degrees apart, 30 degrees below the
    transmitter, in instrument axes ([rot]: instrument to head, [hv]: position of the head) *)
Definition receiver (rot : mat) (hv : vec) (j : nat) : vec :=
  plus3 (in_earth rot [76/1000 * cos (deg2rad (120 * INR j)); 76/1000 * sin (deg2rad (120 * INR j));
                       76/1000 * tan (deg2rad (-(30)))]) hv.
