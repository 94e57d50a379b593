(** Orientation matrices from heading/pitch/roll and quaternions, and back.
    rotate/base.py:147-338, rotate/vector.py:189-259, rotate/rdi.py:73-174.
    One time index (the functions act independently on each). *)
From Coq Require Import Reals List Bool String.
From Verif.Model Require Import Linalg Rotate Angles.
Import ListNotations.
Open Scope R_scope.

(** rotate/base.py:200-230; [units] other than degrees/radians raises. *)
Definition euler2orient_rad (heading pitch roll : R) : mat :=
  let heading := PI / 2 - heading in
  let pitch := - pitch in
  let ch := cos heading in let sh := sin heading in
  let cp := cos pitch in let sp := sin pitch in
  let cr := cos roll in let sr := sin roll in
  let H := [[ch; sh; 0]; [- sh; ch; 0]; [0; 0; 1]] in
  let P := [[cp; 0; - sp]; [0; 1; 0]; [sp; 0; cp]] in
  let Rm := [[1; 0; 0]; [0; cr; sr]; [0; - sr; cr]] in
  mm 3 Rm (mm 3 P H).

Definition euler2orient (heading pitch roll : R) (units : string) : option mat :=
  if String.eqb (lower units) "degrees" then
    Some (euler2orient_rad (deg2rad heading) (deg2rad pitch) (deg2rad roll))
  else if String.eqb (lower units) "radians" then Some (euler2orient_rad heading pitch roll)
  else None.

(** rotate/base.py:233-271; numpy's arcsin is NaN outside [-1,1], Coq's [asin] is clamped. *)
Definition orient2euler (O : mat) : R * R * R :=
  (rmod (rad2deg (atan2 (ent O 0 0) (ent O 0 1))) 360,
   rad2deg (asin (ent O 0 2)),
   rad2deg (atan2 (ent O 1 2) (ent O 2 2))).

(** vector.py:209-245 [_euler2orient] (degrees). *)
Definition nortek_euler2orient (heading pitch roll : R) : mat :=
  let pitch := deg2rad pitch in
  let roll := deg2rad roll in
  let heading := PI / 2 - deg2rad heading in
  let ch := cos heading in let sh := sin heading in
  let cp := cos pitch in let sp := sin pitch in
  let cr := cos roll in let sr := sin roll in
  [[ch * cp; sh * cp; sp];
   [- ch * sp * sr - sh * cr; - sh * sp * sr + ch * cr; sr * cp];
   [- ch * cr * sp + sh * sr; - sh * cr * sp - ch * sr; cp * cr]].

(** vector.py:189-206 [_calc_omat] at a time with valid angles: 180 degrees are added to the
    roll where the orientation flag says 'down'. (The filling of trailing NaNs, 193-198, is
    modelled by [fill_tail] below.) *)
Definition nortek_omat (heading pitch roll : R) (down : bool) : mat :=
  nortek_euler2orient heading pitch (if down then roll + 180 else roll).

(** vector.py:193-198: if the last heading, pitch and roll are all NaN, each series is
    continued from the last index at which all three are valid. [None] is NaN. *)
Definition triple := (option R * option R * option R)%type.
Definition all_valid (t : triple) : bool :=
  match t with (Some _, Some _, Some _) => true | _ => false end.
Definition all_nan (t : triple) : bool :=
  match t with (None, None, None) => true | _ => false end.
Fixpoint last_valid (l : list triple) (k : nat) : option nat :=
  match l with
  | [] => None
  | t :: l' => match last_valid l' (S k) with
               | Some j => Some j
               | None => if all_valid t then Some k else None
               end
  end.
(** [None] when there is no valid index (the code's [[0][-1]] raises IndexError) *)
Definition fill_tail (l : list triple) : option (list triple) :=
  match rev l with
  | t :: _ =>
    if all_nan t then
      match last_valid l 0 with
      | None => None
      | Some g => Some (firstn g l ++ repeat (nth g l (None, None, None)) (List.length l - g))
      end
    else Some l
  | [] => None
  end.

(** rotate/rdi.py:102-158 [_calc_orientmat] for one time; [up]: orientation is 'up';
    [level]: coord_sys is 'ship' and use_pitchroll is 'yes'. *)
Definition rdi_orientmat (heading pitch roll : R) (up level : bool) : mat :=
  let r := deg2rad roll in
  let p := atan (tan (deg2rad pitch) * cos r) in
  let h := deg2rad heading in
  let r := if up then r + PI else r in
  let r := if level then 0 else r in
  let p := if level then 0 else p in
  let ch := cos h in let sh := sin h in
  let cr := cos r in let sr := sin r in
  let cp := cos p in let sp := sin p in
  tr 3 [[ch * cr + sh * sp * sr; sh * cp; ch * sr - sh * sp * cr];
        [- sh * cr + ch * sp * sr; ch * cp; - sh * sr - ch * sp * cr];
        [- cp * sr; sp; cp * cr]].

(** rotate/base.py:274-310 [quaternion2orient], one time, [q = (w,x,y,z)].
    scipy's [Rotation.from_quat([x,y,z,w])] divides by the norm and raises ValueError on a
    zero norm; [as_matrix] is the usual formula; [np.rollaxis(_, 1)] transposes. *)
Definition quaternion2orient (q0 q1 q2 q3 : R) : option mat :=
  let n := sqrt (q1 * q1 + q2 * q2 + q3 * q3 + q0 * q0) in
  if Req_EM_T n 0 then None
  else
    let x := q1 / n in let y := q2 / n in let z := q3 / n in let w := q0 / n in
    Some (tr 3
      [[x * x - y * y - z * z + w * w; 2 * (x * y - z * w); 2 * (x * z + y * w)];
       [2 * (x * y + z * w); - (x * x) + y * y - z * z + w * w; 2 * (y * z - x * w)];
       [2 * (x * z - y * w); 2 * (y * z + x * w); - (x * x) - y * y + z * z + w * w]]).

(** rotate/base.py:334-338 [calc_tilt] (degrees) *)
Definition calc_tilt (pitch roll : R) : R :=
  rad2deg (atan (sqrt (tan (deg2rad roll) * tan (deg2rad roll)
                       + tan (deg2rad pitch) * tan (deg2rad pitch)))).

(** rotate/rdi.py:73-99 [_calc_beam_orientmat], theta in radians (the degree conversion, 88-89, is
    applied by the caller of this definition); numpy gives inf/NaN instead of raising when
    the sine or cosine is 0. *)
Definition rdi_beam_mat (theta : R) (convex : bool) : mat :=
  let c := if convex then 1 else -1 in
  let a := 1 / (2 * sin theta) in
  let b := 1 / (4 * cos theta) in
  let d := a / sqrt 2 in
  [[c * a; - c * a; 0; 0]; [0; 0; - c * a; c * a]; [b; b; b; b]; [d; d; - d; - d]].
