(** Dissipation rates, noise level, cascade slope, length scale and friction velocity:
    adv/turbulence.py:177-581, adp/turbulence.py:586-846. Spectra are complete (no NaN) and floats
    are idealised as real numbers; one line (time, depth) of the arrays at a time unless said. *)
From Coq Require Import QArith Qround Reals Qreals List Bool.
From Verif.Model Require Import Stats.
Import ListNotations.
Open Scope R_scope.

(** [x ** y] of a non-negative [x] and positive [y] *)
Definition rpow (x y : R) : R := if Req_EM_T x 0 then 0 else Rpower x y.
Definition mean (l : list R) : R := rsum l / INR (length l).

(** adv/turbulence.py:352-360, adp/turbulence.py:632-646: subtract the noise of each spectrum, then
    replace what is not positive by 1/100 of the smallest magnitude of the whole array. [None] is no noise. *)
Definition sub_noise (fs : R) (noise : option (list R)) (psd : list (list R)) : list (list R) :=
  match noise with
  | None => map (map (fun p => p - 0 * 0 / (fs / 2))) psd
  | Some s => map2 (fun s row => map (fun p => p - s * s / (fs / 2)) row) s psd
  end.
Definition min_abs (l : list R) : R :=
  match map Rabs l with [] => 0 | x :: l' => fold_left Rmin l' x end.
Definition floor_psd (psd : list (list R)) : list (list R) :=
  let m := min_abs (concat psd) / 100 in
  map (map (fun p => if Rlt_dec 0 p then p else m)) psd.

(** [np.where((freq_range[0] < freq) & (freq < freq_range[1]))] applied to [combine freq row] *)
Definition inside (lo hi : R) (fp : R * R) : bool :=
  (if Rlt_dec lo (fst fp) then true else false) && (if Rlt_dec (fst fp) hi then true else false).
(** adv/turbulence.py:362-373 / adp:648-659, one spectrum. [None]: the mean of no values is NaN. *)
Definition lt83_row (hz : bool) (lo hi : R) (freq row : list R) (U_mag : R) : option R :=
  let U := if hz then U_mag / (2 * PI) else U_mag in
  match filter (inside lo hi) (combine freq row) with
  | [] => None
  | sel => Some (rpow (mean (map (fun fp => snd fp * rpow (fst fp) (5/3) / (1/2)) sel)) (3/2) / U)
  end.
(** adv/turbulence.py:301-386 [calc_epsilon_LT83], adp/turbulence.py:586-671
    [calc_dissipation_LT83]: the spectra [psd] with their speeds. *)
Definition lt83 (fs : R) (hz : bool) (lo hi : R) (freq : list R) (noise : option (list R))
    (psd : list (list R)) (U_mag : list R) : list (option R) :=
  map2 (lt83_row hz lo hi freq) (floor_psd (sub_noise fs noise psd)) U_mag.

(** [np.polyfit(x, y, deg=1)]: slope and intercept of the least-squares line. Fewer than two
    different abscissae (rank deficient) is [None]. *)
Definition polyfit1 (x y : list R) : option (R * R) :=
  let xb := mean x in
  let yb := mean y in
  let d := rsum (map (fun v => (v - xb) * (v - xb)) x) in
  if Req_EM_T d 0 then None
  else let m := rsum (map2 (fun v w => (v - xb) * (w - yb)) x y) / d in Some (m, yb - m * xb).

(** adp/turbulence.py:738-757: D[z, i-1] of one ensemble; [bm] lists the depth cells *)
Definition sf_D (bm : list (list (option R))) (i z : nat) : option R :=
  if Nat.ltb z i then None
  else nanmean (map2 (fun a b => omul (osub a b) (osub a b)) (nth (z - i) bm []) (nth z bm [])).
Fixpoint all_some (l : list (option R)) : option (list R) :=
  match l with
  | [] => Some []
  | Some x :: l' => match all_some l' with Some v => Some (x :: v) | None => None end
  | None :: _ => None
  end.
(** adp/turbulence.py:673-809 [calc_dissipation_SF], one ensemble ([bm]: its fluctuations, one list
    per depth cell) and depth cell [z]. [np.arange(bin_size, r_range[1]+bin_size, bin_size)] and
    [int(r_value/bin_size)] are taken without rounding errors; a missing D makes the fit NaN
    (LinAlgError with some LAPACK builds). [r ** 2/3] is (r squared)/3, as Python reads it. *)
Definition sf_r (bin_size r1 : Q) : list R :=
  map (fun k => INR k * Q2R bin_size) (seq 1 (Z.to_nat (Qceiling (r1 / bin_size)))).
Definition sf_R (bin_size r0 : Q) : nat := Z.to_nat (Qfloor (r0 / bin_size)).
Definition sf_fit (bin_size r0 r1 : Q) (bm : list (list (option R))) (z : nat) : option (R * R) :=
  let r := sf_r bin_size r1 in
  let R0 := sf_R bin_size r0 in
  if Nat.ltb z (length r) then None
  else
    let D := skipn R0 (map (fun k => sf_D bm k z) (seq 1 (length r))) in
    match all_some D with
    | None => None
    | Some d => polyfit1 (map (fun x => x * x / 3) (skipn R0 r)) d
    end.
Definition sf_epsilon (bin_size r0 r1 : Q) (bm : list (list (option R))) (z : nat) : option R :=
  match sf_fit bin_size r0 r1 bm z with
  | Some (m, _) => if Rlt_dec m 0 then None else Some (rpow (m / (21/10)) (3/2))
  | None => None
  end.
Definition sf_noise (bin_size r0 r1 : Q) (bm : list (list (option R))) (z : nat) : option R :=
  match sf_fit bin_size r0 r1 bm z with
  | Some (_, n) => if Rlt_dec n 0 then None else Some (sqrt (n / 2))
  | None => None
  end.

(** [np.median] of a list without NaN; [None] (NaN) for the empty list *)
Fixpoint insert (x : R) (l : list R) : list R :=
  match l with [] => [x] | y :: l' => if Rle_dec x y then x :: l else y :: insert x l' end.
Definition sort (l : list R) : list R := fold_right insert [] l.
Definition median (l : list R) : option R :=
  let s := sort l in
  let n := length s in
  match n with
  | O => None
  | _ => Some ((nth ((n - 1) / 2) s 0 + nth (n / 2) s 0) / 2)
  end.
(** adv/turbulence.py:420-429: DAA[L] of one ensemble *)
Definition sf_lag (up : list (option R)) (L : nat) : option R :=
  nanmean (map2 (fun a b => omul (osub a b) (osub a b)) (skipn L up) (firstn (length up - L) up)).
(** adv/turbulence.py:388-440 [calc_epsilon_SF], one ensemble; [lo, hi) are the lags
    [int(fs/freq_range[1])], [int(fs/freq_range[0])]. [inl tt]: lag 0 makes numpy subtract an
    empty array from a full one (ValueError), a lag past the bin is an IndexError. *)
Definition adv_sf (U fs : R) (lo hi : nat) (up : list (option R)) : unit + option R :=
  if Nat.ltb lo hi && (Nat.eqb lo 0 || Nat.ltb (length up) hi) then inl tt
  else
    let cv2 := map (fun L => match sf_lag up L with
                   | Some d => Some (d / rpow (U / fs * INR L) (2/3))
                   | None => None end) (seq lo (hi - lo)) in
    inr (match median (vals cv2) with Some c => Some (rpow (c / (21/10)) (3/2)) | None => None end).

(** adv/turbulence.py:177-239 [calc_doppler_noise], adp:526-584: one spectrum.
    [psd.sel(freq=slice(a, b))] keeps a <= f <= b. *)
Definition doppler_noise (fs pct : R) (hz : bool) (freq row : list R) : option R :=
  let fN := fs / 2 in
  let fc := pct * fN in
  let '(a, b) := if hz then (fc, fN) else (2 * PI * fc, 2 * PI * fN) in
  match filter (fun fp : R * R => (if Rle_dec a (fst fp) then true else false) &&
                                  (if Rle_dec (fst fp) b then true else false)) (combine freq row) with
  | [] => None
  | sel => Some (sqrt (mean (map (fun fp => snd fp * fst fp) sel)))
  end.

(** adv/turbulence.py:241-299 [check_turbulence_cascade_slope], one spectrum: [polyfit1] is the
    same normal equations (283-297) *)
Definition log10 (x : R) : R := ln x / ln 10.
Definition cascade_slope (lo hi : R) (freq row : list R) : option (R * R) :=
  let sel := filter (inside lo hi) (combine freq row) in
  polyfit1 (map (fun fp => log10 (fst fp)) sel) (map (fun fp => log10 (snd fp)) sel).

(** adv/turbulence.py:462-543 [calc_epsilon_TE01] for given values of the integral A13 *)
Definition te01 (lo hi : R) (freq pu pv pw : list R) (intgrl U_mag : R) : option R :=
  let w p := map (fun fp => snd fp * rpow (fst fp) (5/3)) (filter (inside lo hi) (combine freq p)) in
  match w pu with
  | [] => None
  | _ =>
    let uv := mean (w (map2 Rplus pu pv)) in
    Some (1/2 * (rpow (uv / (21/55 * (3/2) * intgrl)) (3/2) / U_mag
               + rpow (mean (w pw) / (12/55 * (3/2) * intgrl)) (3/2) / U_mag))
  end.

(** adv/turbulence.py:545-581 [calc_L_int]: [np.argmin] of booleans is the first False, or 0 *)
Fixpoint first_false (l : list bool) (i : nat) : option nat :=
  match l with [] => None | false :: _ => Some i | true :: l' => first_false l' (S i) end.
Definition argmin (l : list bool) : nat := match first_false l 0 with Some i => i | None => 0%nat end.
Definition l_int (acov : list R) (U fs : R) : R :=
  let a0 := nth 0 acov 0 in
  let over x := if Req_EM_T a0 0 then false else if Rlt_dec (exp (-1)) (x / a0) then true else false in
  U / fs * INR (argmin (map over acov)).

(** adp/turbulence.py:811-846 [calc_ustar_fit] at one time; [up] and [z] are the selected depths *)
Definition sign (x : R) : R := if Rlt_dec 0 x then 1 else if Rlt_dec x 0 then -1 else 0.
Definition ustar (H : R) (z up : list R) : option R :=
  let s := mean (map sign up) in
  let m := mean (map2 (fun u d => s * u / (1 - d / H)) up z) in
  if Rlt_dec m 0 then None else Some (sqrt m).
