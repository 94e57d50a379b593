(** Speed, direction, turbulence intensity, TKE and stress: velocity.py:313-411, 923-1045 and
    adv/turbulence.py:52-95. Samples are [option R] ([None] is NaN); floats (also the casts to
    float32) are idealised as real numbers. *)
From Coq Require Import QArith Reals List Bool.
From Verif.Model Require Import Angles Reshape Stats.
Import ListNotations.
Open Scope R_scope.

(** velocity.py:313-321 [U_mag]: [np.abs(u + 1j*v)] of a valid sample *)
Definition u_mag (u v : R) : R := sqrt (u * u + v * v).
(** velocity.py:324-351 [U_dir] of a valid sample *)
Definition u_dir (earth : bool) (u v : R) : R :=
  let angle := rad2deg (atan2 v u) in
  if earth then convert_degrees angle false
  else let angle := - angle in if Rlt_dec angle 0 then angle + 360 else angle.

(** [np.sqrt]: NaN below zero *)
Definition nsqrt (a : option R) : option R :=
  match a with Some x => if Rlt_dec x 0 then None else Some (sqrt x) | None => None end.
(** the fluctuations of one bin: [self.detrend] or [self.demean] *)
Definition fluct (dt : bool) (row : list (option R)) : list (option R) :=
  if dt then detrend row else demean_row row.
Definition fluct_bins (dt : bool) (arr : list (option R)) (n_bin : Q) : reshape_err + list (list (option R)) :=
  if dt then bin_detrend arr 0 n_bin else bin_demean arr 0 n_bin.
Definition mean_square (row : list (option R)) : option R := nanmean (map (fun v => omul v v) row).

(** velocity.py:923-969 [calc_ti] of one line. [np.ma.masked_where(u_mag < thresh, ti)] keeps the
    values under the mask: the result of line 949 is (mask, value), and line 960 returns
    [ti.data], the values. A zero mean gives NaN here (inf in floats). *)
Definition masked_ti (arr : list (option R)) (noise thresh : R) (dt : bool) (n_bin : Q)
    : reshape_err + list (bool * option R) :=
  match fluct_bins dt arr n_bin, bin_mean arr n_bin with
  | inr rows, inr means => inr (map2 (fun row m =>
      (match m with Some x => if Rlt_dec x thresh then true else false | None => false end,
       odiv (nsqrt (osub (mean_square row) (Some (noise * noise)))) m)) rows means)
  | inl e, _ => inl e
  | _, inl e => inl e
  end.
Definition calc_ti (arr : list (option R)) (noise thresh : R) (dt : bool) (n_bin : Q)
    : reshape_err + list (option R) :=
  match masked_ti arr noise thresh dt n_bin with
  | inl e => inl e
  | inr l => inr (map snd l)
  end.

(** velocity.py:971-1045 [calc_tke] of one component *)
Definition calc_tke (arr : list (option R)) (noise : option R) (dt : bool) (n_bin : Q)
    : reshape_err + list (option R) :=
  match fluct_bins dt arr n_bin with
  | inl e => inl e
  | inr rows => inr (map (fun row => match noise with
      | None => mean_square row
      | Some s => osub (mean_square row) (Some (s * s)) end) rows)
  end.
(** velocity.py:403-411 [tke]: [tke_vec.sum('tke') / 2] at one time; xarray's sum skips NaN *)
Definition total_tke (components : list (option R)) : R := rsum (vals components) / 2.

(** adv/turbulence.py:52-95 [calc_stress], one pair of components (velocity.py:471) *)
Definition calc_stress (a b : list (option R)) (dt : bool) (n_bin : Q) : reshape_err + list (option R) :=
  match fluct_bins dt a n_bin, fluct_bins dt b n_bin with
  | inr ra, inr rb => inr (map2 (fun x y => nanmean (map2 omul x y)) ra rb)
  | inl e, _ => inl e
  | _, inl e => inl e
  end.
(** all pairs: [(0, 1), (0, 2), (1, 2)] *)
Definition stress_vec (u v w : list (option R)) (dt : bool) (n_bin : Q) : list (reshape_err + list (option R)) :=
  [calc_stress u v dt n_bin; calc_stress u w dt n_bin; calc_stress v w dt n_bin].

(** velocity.py:354-369 [E_coh] *)
Definition e_coh (upvp upwp vpwp : R) : R := sqrt (upwp * upwp + upvp * upvp + vpwp * vpwp).
