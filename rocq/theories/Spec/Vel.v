(** Fluctuations and second moments of a bin without missing samples. *)
From Coq Require Import Reals List.
From Verif.Spec Require Import Stats.
Import ListNotations.
Open Scope R_scope.

(** [r] are the fluctuations of [a]: deviations from the mean, or from the least-squares line *)
Definition fluctuation (dt : bool) (a r : list R) : Prop :=
  if dt then residual a r
  else length r = length a /\
    exists m, m * INR (length a) = sum_list a /\ forall k, (k < length a)%nat -> nth k r 0 = nth k a 0 - m.
(** mean of the products *)
Definition second_moment (x y : list R) : R :=
  total (length x) (fun k => nth k x 0 * nth k y 0) / INR (length x).
