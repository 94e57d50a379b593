(** What a Welch spectrum is, in elementary terms. *)
From Coq Require Import Reals List.
From Verif.Spec Require Import Stats.
Import ListNotations.
Open Scope R_scope.

(** The Fourier sums of [x] at [k] cycles per record: [re - i im] *)
Definition fourier_re (x : list R) (k : nat) : R :=
  total (length x) (fun j => nth j x 0 * cos (2 * PI * (INR j * INR k / INR (length x)))).
Definition fourier_im (x : list R) (k : nat) : R :=
  total (length x) (fun j => nth j x 0 * sin (2 * PI * (INR j * INR k / INR (length x)))).

(** [x] is the segment of [n] samples of [a] starting at [i], detrended and multiplied by [w] *)
Definition tapered (a w : list R) (n i : nat) (x : list R) : Prop :=
  exists r, residual (samples a i n) r /\ length x = n /\
    forall j, (j < n)%nat -> nth j x 0 = nth j r 0 * nth j w 0.

(** [p] is the sum of |Fourier|^2 at [k] over the segments starting at [starts] *)
Inductive power_sum (a w : list R) (n k : nat) : list nat -> R -> Prop :=
| power_nil : power_sum a w n k [] 0
| power_cons i starts x p : tapered a w n i x -> power_sum a w n k starts p ->
    power_sum a w n k (i :: starts) (fourier_re x k * fourier_re x k + fourier_im x k * fourier_im x k + p).

(** the same for the cross spectrum, fft(a) times the conjugate of fft(b) *)
Inductive cross_sum (a b w : list R) (n k : nat) : list nat -> R * R -> Prop :=
| cross_nil : cross_sum a b w n k [] (0, 0)
| cross_cons i starts x y re im : tapered a w n i x -> tapered b w n i y -> cross_sum a b w n k starts (re, im) ->
    cross_sum a b w n k (i :: starts)
      (fourier_re x k * fourier_re y k + fourier_im x k * fourier_im y k + re,
       fourier_re x k * fourier_im y k - fourier_im x k * fourier_re y k + im).

(** starts 0, step, 2 step, ..., as many as keep the segment of [n] samples inside [l] samples *)
Definition welch_starts (l n step : nat) (starts : list nat) : Prop :=
  (forall m, (m < length starts)%nat -> nth m starts 0%nat = (m * step)%nat) /\
  (forall m, (m < length starts)%nat -> m * step + n <= l)%nat /\
  (l < length starts * step + n)%nat.

Definition sum_squares (w : list R) : R := total (length w) (fun j => nth j w 0 * nth j w 0).

(** Without an explicit step, for [nfft < l]: the number of ensembles asked for (rounded down, for
    half overlap), and the number of segments of [nfft] samples that the resulting step makes room
    for in [l] samples. *)
Definition n_ensembles (l nfft : nat) : nat := (2 * l / nfft)%nat.
Definition n_segments (l nfft : nat) : nat := ((l - nfft) / ((l - nfft) / (n_ensembles l nfft - 1)) + 1)%nat.
