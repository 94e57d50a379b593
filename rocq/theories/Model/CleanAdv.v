(** Cleaning of one time series: adv/clean.py:13-227 and adp/clean.py:347-374. A sample is
    [option Q] or [option R]; [None] is NaN; floats are idealised as exact numbers. *)
From Coq Require Import ZArith QArith Qabs Reals List Bool.
From Verif.Model Require Import Gaps Reshape Stats.
Import ListNotations.
Close Scope R_scope.
Open Scope nat_scope.

Definition Qlt_bool (x y : Q) : bool := negb (Qle_bool y x).
(** a comparison with NaN is False *)
Definition olt (a b : option Q) : bool := match a, b with Some x, Some y => Qlt_bool x y | _, _ => false end.

(** adv/clean.py:210-227 [range_limit] *)
Definition range_limit (lo hi : Q) (u : series) : list bool :=
  map (fun x => negb (olt (Some lo) x && olt x (Some hi))) u.

Definition qsub (a b : option Q) : option Q := match a, b with Some x, Some y => Some (x - y)%Q | _, _ => None end.
(** [np.diff(u, prepend=0)]: [prev] is the sample before the head of [u] *)
Fixpoint diff_from (prev : option Q) (u : series) : series :=
  match u with [] => [] | x :: u' => qsub x prev :: diff_from x u' end.
(** adv/clean.py:187-207 [spike_thresh] *)
Definition spike_thresh (thresh : Q) (u : series) : list bool :=
  map (fun d => olt (Some thresh) d || olt d (Some (- thresh)%Q)) (diff_from (Some 0%Q) u).

(** adp/clean.py:347-374 [val_exceeds_thresh] *)
Definition val_exceeds_thresh (thresh : Q) (val : option Q) (var : series) : series :=
  map (fun x => match x with Some v => if Qlt_bool thresh (Qabs v) then val else x | None => x end) var.

(** ** Interpolation over masked samples *)

(** [a[s:e]] *)
Definition slice (a : series) (s e : nat) : series := firstn (e - s) (skipn s a).

(** adv/clean.py:55-113 [_interp_nan]. [f s w] is [da[s:e].interpolate_na(...)] where [w] is [da[s:e]]
    (xarray, which also sees the coordinate of the samples, hence the argument [s]). [bds] is the rest
    of the array of missing samples at [pos]; [st] is [None] while searching and otherwise
    [Some (start, ntail)]. *)
Fixpoint interp_loop (f : nat -> series -> series) (npt : nat) (bds : list bool) (pos : nat)
    (st : option (nat * nat)) (da : series) : series :=
  match bds with
  | [] => da
  | b :: bds' =>
    match st with
    | None => interp_loop f npt bds' (S pos) (if b then Some (pos - npt, 0) else None) da
    | Some (start, ntail) =>
      let ntail := if b then 0 else S ntail in
      if Nat.eqb ntail npt || match bds' with [] => true | _ => false end
      then interp_loop f npt bds' (S pos) None (set_range da start (f start (slice da start (S pos))))
      else interp_loop f npt bds' (S pos) (Some (start, ntail)) da
    end
  end.
Definition interp_nan (f : nat -> series -> series) (npt : nat) (da : series) : series :=
  interp_loop f npt (map (fun x => negb (is_some x)) da) 0 None da.

(** adv/clean.py:44 [u.values[..., mask] = np.nan] *)
Fixpoint apply_mask (mask : list bool) (u : series) : series :=
  match mask, u with m :: mask', x :: u' => (if m then None else x) :: apply_mask mask' u' | _, _ => u end.
(** adv/clean.py:13-52 [clean_fill], one row of the data *)
Definition clean_fill (f : nat -> series -> series) (npt : nat) (mask : list bool) (u : series) : series :=
  interp_nan f npt (apply_mask mask u).

(** xarray's [interpolate_na(method='linear', use_coordinate=True, limit=limit)] of [w], whose samples
    have the coordinates [t[s:]]: linear between the neighbouring valid samples, nothing outside them;
    then only positions with at most [limit] missing samples among the last [limit+1] are kept.
    (This is the documented behaviour of a library, not code of /repo.) *)
Definition missing_before (w : series) (limit k : nat) : bool :=
  Nat.leb limit k && forallb (fun m => negb (is_some (nthq w (k - m)))) (seq 0 (S limit)).
Definition xr_linear (t : list Q) (limit : option nat) (s : nat) (w : series) : series :=
  let full := interpgaps (skipn s t) None false w in
  match limit with
  | None => full
  | Some l => map (fun k => if missing_before w l k then None else nthq full k) (seq 0 (length w))
  end.

(** ** Filling with the mean of the window *)
(** adv/clean.py:142 [u.where(~mask)] *)
Fixpoint where_not (mask : list bool) (u : list (option R)) : list (option R) :=
  match mask, u with m :: mask', x :: u' => (if m then None else x) :: where_not mask' u' | _, _ => u end.
(** adv/clean.py:172-176: missing samples of a window are replaced by its mean *)
Definition fill_row (row : list (option R)) : list (option R) :=
  map (fun x => match x with None => nanmean row | Some _ => x end) row.
(** adv/clean.py:116-184 [fill_nan_ensemble_mean], one row of the data, [n_bin = window*fs] an integer *)
Definition fill_nan_ensemble_mean (mask : list bool) (n_bin : nat) (u : list (option R)) : reshape_err + list (option R) :=
  let var := where_not mask u in
  match reshape None var 0 (inject_Z (Z.of_nat n_bin)) with
  | inl e => inl e
  | inr rows =>
    let diff := length var - length rows * n_bin in
    let extra_nans := n_bin - diff in
    match diff with
    | O => inr (concat (map fill_row rows))
    | _ =>
      let extra := skipn (length var - diff) var ++ repeat None extra_nans in
      let vel := concat (map fill_row (rows ++ [extra])) in
      inr (firstn (length vel - extra_nans) vel)
    end
  end.
