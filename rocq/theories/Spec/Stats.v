(** Sums, means and least squares. *)
From Coq Require Import Reals List.
Import ListNotations.
Open Scope R_scope.

(** sum of [f 0 .. f (n-1)] *)
Fixpoint total (n : nat) (f : nat -> R) : R :=
  match n with O => 0 | S k => total k f + f k end.

(** the values of the samples that are not missing *)
Definition present (l : list (option R)) : list R :=
  flat_map (fun o => match o with Some x => [x] | None => [] end) l.
Definition sum_list (l : list R) : R := total (length l) (fun k => nth k l 0).

(** [m] is the mean of the valid samples; missing when there is none *)
Definition is_mean (l : list (option R)) (m : option R) : Prop :=
  match m with
  | None => present l = []
  | Some v => present l <> [] /\ v * INR (length (present l)) = sum_list (present l)
  end.

(** the samples [from .. from+n-1] *)
Definition samples {A} (l : list A) (from n : nat) : list A := firstn n (skipn from l).

(** [r] is [a] minus its least-squares line: no mean, no correlation with the index, and the
    difference is affine in the index *)
Definition residual (a r : list R) : Prop :=
  length r = length a /\
  total (length r) (fun k => nth k r 0) = 0 /\
  total (length r) (fun k => INR k * nth k r 0) = 0 /\
  exists alpha beta, forall k, (k < length a)%nat -> nth k a 0 = nth k r 0 + alpha + beta * INR k.
