(** [calc_principal_heading], rotate/api.py:122-170, for one range bin. A sample is an
    (east, north) pair; [None] is NaN. Floats are idealised as real numbers. *)
From Coq Require Import Reals List Bool.
From Verif.Model Require Import Linalg Angles.
Import ListNotations.
Open Scope R_scope.

Notation cplx := (R * R)%type.
(** rotate/api.py:152 [dt = vel[0] + vel[1]*1j]: NaN if either part is *)
Definition to_complex (s : option R * option R) : option cplx :=
  match s with (Some e, Some n) => Some (e, n) | _ => None end.

Definition cmul (a b : cplx) : cplx :=
  (fst a * fst b - snd a * snd b, fst a * snd b + snd a * fst b).
Definition angle (z : cplx) : R := atan2 (snd z) (fst z).
Definition cis (t : R) : cplx := (cos t, sin t).

(** rotate/api.py:155-158: flip samples on or below the x-axis, then double the angle *)
Definition double_angle (z : cplx) : cplx :=
  let z := if Rle_dec (snd z) 0 then (-1 * fst z, -1 * snd z) else z in
  cmul z (cis (angle z)).

Fixpoint csum (l : list cplx) : cplx :=
  match l with [] => (0, 0) | z :: l' => (fst z + fst (csum l'), snd z + snd (csum l')) end.
(** [numpy.nanmean]: over the samples that are not NaN; NaN if there is none *)
Fixpoint somes {A} (l : list (option A)) : list A :=
  match l with [] => [] | Some x :: l' => x :: somes l' | None :: l' => somes l' end.
Definition cmean (l : list cplx) : option cplx :=
  match l with
  | [] => None
  | _ => Some (fst (csum l) / INR (length l), snd (csum l) / INR (length l))
  end.

(** rotate/api.py:152-170 *)
Definition calc_principal_heading (vel : list (option R * option R)) (tidal_mode : bool) : option R :=
  let dt := somes (map to_complex vel) in
  match (if tidal_mode then option_map (fun m => angle m / 2) (cmean (map double_angle dt))
         else option_map angle (cmean dt)) with
  | None => None
  | Some pang => Some (round4 (90 - rad2deg pang))
  end.
