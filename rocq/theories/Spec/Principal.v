(** Directions of horizontal velocity series. *)
From Coq Require Import Reals List.
From Verif.Model Require Import Linalg.
From Verif.Spec Require Import Euler.
Import ListNotations.
Open Scope R_scope.

Definition sample := (option R * option R)%type.
(** the valid (east, north) samples *)
Fixpoint valid (l : list sample) : list (R * R) :=
  match l with
  | [] => []
  | (Some e, Some n) :: l' => (e, n) :: valid l'
  | _ :: l' => valid l'
  end.
Definition reversed (s : sample) : sample := (option_map Ropp (fst s), option_map Ropp (snd s)).
(** turned clockwise by [deg] *)
Definition turned (deg : R) (p : R * R) : R * R :=
  (fst p * cos (deg2rad deg) + snd p * sin (deg2rad deg),
   - fst p * sin (deg2rad deg) + snd p * cos (deg2rad deg)).
Definition turned_sample (deg : R) (s : sample) : sample :=
  match s with
  | (Some e, Some n) => (Some (fst (turned deg (e, n))), Some (snd (turned deg (e, n))))
  | _ => (None, None)
  end.
Definition sum_by (f : R * R -> R) (l : list (R * R)) : R := fold_right (fun p a => f p + a) 0 l.
(** the mean vector is not zero *)
Definition has_mean_direction (l : list (R * R)) : Prop :=
  sum_by fst l <> 0 \/ sum_by snd l <> 0.
(** the flow has a preferred axis: the second-order moments do not cancel *)
Definition has_axis (l : list (R * R)) : Prop :=
  sum_by (fun p => (fst p * fst p - snd p * snd p) / sqrt (fst p * fst p + snd p * snd p)) l <> 0 \/
  sum_by (fun p => 2 * fst p * snd p / sqrt (fst p * fst p + snd p * snd p)) l <> 0.
(** equal modulo [m] up to [tol] *)
Definition near (m tol a b : R) : Prop := exists k : Z, Rabs (a - (b + m * IZR k)) <= tol.
