(** Auto- and cross-covariance of the bins of a record: velocity.py:792-921.
    One line of data, a sample is [option R] ([None] is NaN), [n_bin] a whole number. Floats (also the
    float32 of the result) are idealised as real numbers. *)
From Coq Require Import Reals List QArith ZArith Arith.
From Verif.Model Require Import Reshape Stats Despike.
Import ListNotations.
Open Scope R_scope.

Inductive cov_err := Reshaping (e : reshape_err) | Broadcast | OutIndex | Conflict | Small.

(** binned.py:163-228 [reshape] for [n_pad = h / 2], which need not be a whole number. When
    [(n_pad + 1) // 2 = 0] but [n_pad != 0] the slice [-0:] of line 226 is the whole row, which cannot be
    assigned a row of length zero. *)
Definition reshape_half (arr : list (option R)) (h n : nat) : cov_err + list (list (option R)) :=
  let npd0 := (h / 4)%nat in
  let npd1 := ((h + 2) / 4)%nat in
  match binned arr (inject_Z (Z.of_nat n)) with
  | inl e => inl (Reshaping e)
  | inr rows =>
    let out := map (place (Some 0) npd0 npd1) rows in
    match h, npd1 with
    | O, _ => inr out
    | _, O => inl Broadcast
    | _, _ => inr (pad_right npd0 npd1 n (pad_left npd0 n out))
    end
  end.

(** [np.mean] of a slice, NaN when it is empty *)
Definition slice_mean (l : list (option R)) : option R := match l with [] => None | _ => omean l end.
(** [row - row[lo:-hi].mean()], [hi > 0] *)
Definition less_mid (lo hi : nat) (row : list (option R)) : list (option R) :=
  map (fun v => osub v (slice_mean (firstn (length row - hi - lo) (skipn lo row)))) row.
(** [np.correlate(a, v, 'valid')] of numpy, [a] at least as long as [v] *)
Definition correlate (a v : list (option R)) : list (option R) :=
  map (fun k => osum (map2 omul (skipn k a) v)) (seq 0 (length a - length v + 1)).

(** [out[slc] = ...] of a row of [q] values *)
Definition fits (q : nat) (row : list (option R)) : cov_err + list (option R) :=
  if (length row =? q)%nat then inr row else inl Broadcast.
(** velocity.py:829-842: the value for bin [i] of [nb]; [q = n_bin // 4] *)
Definition acov_row (q nb i : nat) (tmp : list (option R)) : cov_err + list (option R) :=
  let se := skipn (q - 1) tmp in
  let sb := rev (firstn q tmp) in
  if (i =? 0)%nat then fits q se
  else if (i =? nb - 1)%nat then fits q sb
  else if (length se =? length sb)%nat then fits q (map2 (fun a b => omul (oadd a b) (Some (/ 2))) se sb)
  else inl Broadcast.

Fixpoint all_rows {A B} (f : nat -> A -> cov_err + B) (i : nat) (l : list A) : cov_err + list B :=
  match l with
  | [] => inr []
  | x :: l' => match f i x with
               | inl e => inl e
               | inr y => match all_rows f (S i) l' with inl e => inl e | inr ys => inr (y :: ys) end
               end
  end.

(** velocity.py:792-852 [calc_acov]. [self_nbin] belongs to the binner; [reshape] and [demean] are called
    without [n_bin] (lines 822, 826) and use it. The result has [len // n_bin] rows (line 820), the time
    coordinate one entry for each bin of the binner (line 844); xarray raises when they differ.
    [n_bin < 4], which leaves no lag, is not modelled ([Small]). *)
Definition calc_acov (self_nbin : nat) (n_bin : option nat) (indat : list (option R)) : cov_err + list (list (option R)) :=
  let n := match n_bin with Some n => n | None => self_nbin end in
  if (n <? 4)%nat then inl Small
  else
    let q := (n / 4)%nat in
    match reshape_half indat (n - 4) self_nbin, bin_demean indat 0 (inject_Z (Z.of_nat self_nbin)) with
    | inr dt1, inr dt2 =>
      let dt1 := map (less_mid q ((n + 3) / 4)) dt1 in
      let n_rows := (length indat / n)%nat in
      let nb := length dt2 in
      match all_rows (fun i '(a, v) => if (i <? n_rows)%nat then acov_row q nb i (correlate a v) else inl OutIndex) 0 (combine dt1 dt2) with
      | inl e => inl e
      | inr out => if (n_rows =? nb)%nat then inr out else inl Conflict
      end
    | inl e, _ => inl e
    | _, inl e => inl (Reshaping e)
    end.

(** velocity.py:854-921 [calc_xcov] of signals of the same length, as its notes ask for. Simplified: [n_bin1] is
    [n_bin], the value of int(N/(N/n_bin)) without rounding; in double precision it is one less for some lengths, see
    [first_bin] in Model/BinSpec.v; [npt >= 1]. Where a standard deviation is zero the normed value is NaN here, also where
    numpy says inf. *)
Definition calc_xcov (self_nbin : nat) (n_bin : option nat) (npt : nat) (normed : bool) (dat1 dat2 : list (option R))
    : cov_err + list (list (option R)) :=
  let n := match n_bin with Some n => n | None => self_nbin end in
  let nq := inject_Z (Z.of_nat n) in
  match npt with O => inl Small | S n_pad =>
    match reshape (Some 0) dat1 n_pad nq, bin_demean dat2 0 nq, bin_std dat1 nq, bin_std dat2 nq with
    | inr dt1, inr dt2, inr s1, inr s2 =>
      let dt1 := map (less_mid (npt / 2) ((npt + 1) / 2)) dt1 in
      let out := map2 correlate dt1 dt2 in
      let out := if normed then map2 (fun row d => map (fun v => odiv v d) row) out
                                     (map2 (fun a b => omul (omul a b) (Some (INR n))) s1 s2) else out in
      (* velocity.py:911: the times of the bins of the binner *)
      if (length out =? length dat1 / self_nbin)%nat then inr out else inl Conflict
    | inl e, _, _, _ => inl (Reshaping e)
    | _, inl e, _, _ => inl (Reshaping e)
    | _, _, inl e, _ => inl (Reshaping e)
    | _, _, _, inl e => inl (Reshaping e)
    end
  end.
(** velocity.py:914 [coords_dict['dt'] = np.arange(npt)] *)
Definition xcov_dt (npt : nat) : list nat := seq 0 npt.
