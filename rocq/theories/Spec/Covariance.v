(** Covariance of the bins of a record. *)
From Coq Require Import Reals List ZArith.
From Verif.Spec Require Import Reshape Stats.
Open Scope R_scope.

(** the mean and the variance of bin [i] of [n] samples *)
Definition bin_avg (x : list R) (n i : nat) : R := total n (fun j => nth (i * n + j) x 0) / INR n.
Definition bin_variance (x : list R) (n i : nat) : R :=
  total n (fun j => (nth (i * n + j) x 0 - bin_avg x n i) * (nth (i * n + j) x 0 - bin_avg x n i)) / INR n.
(** sum over the samples [m] of bin [i] of the deviation of [x] at [m + d] times that of [y] at [m], the
    deviations from the means of the bin *)
Definition cov (x y : list R) (n i : nat) (d : Z) : R :=
  total n (fun j => (at_or 0 x (Z.of_nat (i * n + j) + d) - bin_avg x n i) * (nth (i * n + j) y 0 - bin_avg y n i)).
(** the record holds whole bins with all samples [d] behind those of bin [i] *)
Definition inside (x : list R) (n i : nat) (d : Z) : Prop :=
  (0 <= Z.of_nat (i * n) + d)%Z /\ (Z.of_nat (i * n + n) + d <= Z.of_nat (length x / n * n))%Z.
(** what is reported for lag [d] of bin [i]: in the first bin with the later samples, in the last one with
    the earlier samples, elsewhere the average of both *)
Definition one_sided (x : list R) (n i d : nat) : R :=
  if (i =? 0)%nat then cov x x n i (Z.of_nat d)
  else if (i =? length x / n - 1)%nat then cov x x n i (- Z.of_nat d)
  else (cov x x n i (Z.of_nat d) + cov x x n i (- Z.of_nat d)) / 2.
