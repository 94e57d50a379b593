(** Bins with their surroundings, and the instants that belong to them. *)
From Coq Require Import Reals List ZArith.
From Verif.Spec Require Import Reshape Stats.
Import ListNotations.
Open Scope nat_scope.

(** [w] is bin [k] of [n] samples of [x], with [pad / 2] samples before it and the rest of [pad] after it; there are
    zeros outside the bins that are complete *)
Definition bin_window (x : list (option R)) (n pad k : nat) (w : list (option R)) : Prop :=
  length w = n + pad /\
  forall c, c < n + pad ->
    nth_error w c = Some (at_or (Some 0%R) (firstn (length x / n * n) x) (Z.of_nat (k * n) + Z.of_nat c - Z.of_nat (pad / 2))).

(** one mean instant for each bin of [n] samples *)
Definition mean_instants (t : list (option R)) (n nb : nat) (l : list (option R)) : Prop :=
  length l = nb /\ forall k, k < nb -> exists m, nth_error l k = Some m /\ is_mean (samples t (k * n) n) m.

(** the frequencies of the estimates of a transform of [n] samples taken at the rate [fs]: fs/n, 2 fs/n, ... *)
Definition fft_frequencies (n : nat) (fs : R) (f : list R) : Prop :=
  length f = n / 2 /\ forall k, 1 <= k <= n / 2 -> nth_error f (k - 1) = Some (INR k * fs / INR n)%R.

(** estimate [j] of bin [k] *)
Definition estimate {A} (rows : list (list (option A))) (k j : nat) : option (option A) :=
  match nth_error rows k with Some r => nth_error r j | None => None end.
