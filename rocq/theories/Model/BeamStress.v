(** Beam-variance stresses and shear of an ADCP: adp/turbulence.py:9-108, 286-524. One depth cell and
    one time bin of the beam velocities at a time (the division into bins is Model/Reshape.v); floats
    (also the casts to float32) are idealised as real numbers. *)
From Coq Require Import Reals List Bool.
From Verif.Model Require Import Linalg Stats Vel.
Import ListNotations.
Open Scope R_scope.

(** 'TRDI' in inst_make; 'Signature' or 'AD2CP' in inst_model; anything else *)
Inductive inst := Trdi | Signature | OtherInst.
(** 'down' or else 'up' in orientation.lower() *)
Inductive facing := Up | Down | Neither.
Inductive stress_err := NoOrientation | UnboundBeams | NoBeamAngle | NoBeam5.

(** adp/turbulence.py:299-325 [_check_orientation]: the beam order *)
Definition beam_order (i : inst) (o : facing) : stress_err + list nat :=
  match i, o with
  | OtherInst, _ => inl UnboundBeams
  | _, Neither => inl NoOrientation
  | Trdi, Down => inr [0; 1; 2; 3]%nat
  | Trdi, Up => inr [0; 1; 3; 2]%nat
  | Signature, Down => inr [2; 0; 3; 1]%nat
  | Signature, Up => inr [0; 2; 3; 1]%nat
  end.
(** adp/turbulence.py:301-302, 313-314 [_check_orientation]: (phi2, phi3) from the mean pitch and roll
    of the bin, in degrees *)
Definition tilts (i : inst) (pitch roll : R) : stress_err + R * R :=
  match i with
  | Trdi => inr (deg2rad pitch, deg2rad roll)
  | Signature => inr (deg2rad roll, - deg2rad pitch)
  | OtherInst => inl UnboundBeams
  end.
(** adp/turbulence.py:331-351 [_beam_variance]; [beams] are the samples of each beam *)
Definition beam_variance (noise : R) (order : list nat) (beams : list (list (option R))) : list (option R) :=
  map (fun b => osub (nanvar (nth b beams [])) (Some (noise * noise))) order.

(** adp/turbulence.py:259-262 [_stress_func_warnings]: the attribute wins over the argument *)
Definition beam_angle (attr arg : option R) : stress_err + R :=
  match attr, arg with Some a, _ => inr a | None, Some a => inr a | None, None => inl NoBeamAngle end.

(** adp/turbulence.py:353-406 [calc_stress_4beam]: u'w' and v'w' *)
Definition stress_4beam (i : inst) (o : facing) (attr arg : option R) (noise : R) (beams : list (list (option R)))
    : stress_err + option R * option R :=
  match beam_angle attr arg with
  | inl e => inl e
  | inr angle =>
    match beam_order i o with
    | inl e => inl e
    | inr order =>
      let b := beam_variance noise order beams in
      let at_ k := nth k b None in
      let denm := 4 * sin (deg2rad angle) * cos (deg2rad angle) in
      inr (odiv (osub (at_ 0%nat) (at_ 1%nat)) (Some denm), odiv (osub (at_ 2%nat) (at_ 3%nat)) (Some denm))
    end
  end.

(** adp/turbulence.py:458-513 [calc_stress_5beam] from the five beam variances [b0 .. b4], the tilts
    [phi2, phi3] and the covariance [upvp]: (u'u', v'v', w'w', u'w', v'w') *)
Definition stress_5beam_values (th phi2 phi3 upvp b0 b1 b2 b3 b4 : R) : R * R * R * R * R :=
  let s := sin th in
  let c := cos th in
  let denm := -4 * s^6 * c^2 in
  let upup := (-2*s^4*c^2*(b1+b0-2*c^2*b4) + 2*s^5*c*phi3*(b1-b0)) / denm in
  let vpvp := (-2*s^4*c^2*(b3+b0-2*c^2*b4) - 2*s^4*c^2*phi3*(b1-b0) + 2*s^3*c^3*phi3*(b1-b0)
               - 2*s^5*c*phi2*(b3-b2)) / denm in
  let wpwp := (-2*s^5*c * (b1-b0 + 2*s^5*c*phi2*(b3-b2) - 4*s^6*c^2*b4)) / denm in
  let upwp := (s^5*c*(b1-b0) + 2*s^4*c*2*phi3*(b1+b0) - 4*s^4*c*2*phi3*b4 - 4*s^6*c*2*phi2*upvp) / denm in
  let vpwp := (s^5*c*(b3-b2) - 2*s^4*c*2*phi2*(b3+b2) + 4*s^4*c*2*phi2*b4 + 4*s^6*c*2*phi3*upvp) / denm in
  (upup, vpvp, wpwp, upwp, vpwp).
(** [beams] are the four beams followed by beam 5 (index 4, line 326); complete samples *)
Definition stress_5beam (i : inst) (o : facing) (attr arg : option R) (noise phi2 phi3 upvp : R)
    (beams : list (list R)) : stress_err + R * R * R * R * R :=
  match beam_angle attr arg with
  | inl e => inl e
  | inr angle =>
    match beam_order i o with
    | inl e => inl e
    | inr order =>
      let b := beam_variance noise (order ++ [4]%nat) (map (map Some) beams) in
      let at_ k := match nth k b None with Some x => x | None => 0 end in
      inr (stress_5beam_values (deg2rad angle) phi2 phi3 upvp (at_ 0%nat) (at_ 1%nat) (at_ 2%nat) (at_ 3%nat) (at_ 4%nat))
    end
  end.

(** the same with the tilts of the instrument (lines 465-466) *)
Definition stress_5beam_tilted (i : inst) (o : facing) (attr arg : option R) (noise pitch roll upvp : R)
    (beams : list (list R)) : stress_err + R * R * R * R * R :=
  match beam_angle attr arg with
  | inl e => inl e
  | inr _ =>
    match beam_order i o, tilts i pitch roll with
    | inl e, _ => inl e
    | _, inl e => inl e
    | inr _, inr (phi2, phi3) => stress_5beam i o attr arg noise phi2 phi3 upvp beams
    end
  end.

(** ** shear of one profile *)
Fixpoint diff (l : list R) : list R :=
  match l with a :: ((b :: _) as t) => (b - a) :: diff t | _ => [] end.
(** adp/turbulence.py:9-12 *)
Definition diffz_first (dat z : list R) : list R := map2 Rdiv (diff dat) (diff z).
(** adp/turbulence.py:15-20: [dat[2:] - dat[:-2]] over [2*np.diff(z)[1:]] *)
Definition diffz_centered (dat z : list R) : list R :=
  map2 Rdiv (map2 Rminus (skipn 2 dat) (firstn (length dat - 2) dat)) (map (Rmult 2) (skipn 1 (diff z))).
(** adp/turbulence.py:23-32 *)
Definition last2 (l : list R) : list R := skipn (length l - 2) l.
Definition diffz_extended (dat z : list R) : list R :=
  diffz_first (firstn 2 dat) (firstn 2 z) ++ diffz_centered dat z ++ diffz_first (last2 dat) (last2 z).
Inductive style := First | Centered | CenteredExtended | OtherStyle.
(** adp/turbulence.py:68-77 [_diff_func]: values and their ranges; an unknown style returns None *)
Definition diff_func (st : style) (dat z : list R) : option (list R * list R) :=
  match st with
  | First => Some (diffz_first dat z, skipn 1 z)
  | Centered => Some (diffz_centered dat z, firstn (length z - 2) (skipn 1 z))
  | CenteredExtended => Some (diffz_extended dat z, z)
  | OtherStyle => None
  end.
(** adp/turbulence.py:79-108 [calc_dudz]: [sign * tuple] repeats the tuple [sign] times, so with
    sign = -1 it is the empty tuple and cannot be unpacked; [None] is an exception *)
Definition calc_dudz (st : style) (down : bool) (dat z : list R) : option (list R * list R) :=
  match diff_func st dat z with
  | None => None
  | Some p => if down then None else Some p
  end.
(** adp/turbulence.py:110-152 [calc_dvdz], [calc_dwdz] *)
Definition calc_dvdz (st : style) (dat z : list R) : option (list R * list R) := diff_func st dat z.
