(** Model of the spectra, cross spectra, coherences and phases a binner gives with their coordinates:
    [VelBinner.calc_psd], velocity.py:1047-1165, [VelBinner.calc_coh], 637-714, [calc_phase_angle], 716-790,
    [ADVBinner.calc_csd], adv/turbulence.py:97-175, [TimeBinner.calc_csd_base], binned.py:410-467, [coherence] of
    signals of any lengths, tools/psd.py:89-153, and of the attributes left by [ADVBinner.__call__],
    adv/turbulence.py:30-50.
    As in Model/Psd.v numbers are [option R], [None] being NaN; one line of data along the last axis; float32 casts
    are not modelled. The lengths of bins and of transforms are whole numbers. *)
From Coq Require Import String.
From Coq Require Import Reals List QArith Qround Qabs Bool ZArith.
From Verif.Model Require Import Reshape Stats Psd SigData.
Import ListNotations.

(** ** The division of Python numbers *)
(** a quotient of integers, rounded to the nearest integer, halves to the even one *)
Definition half_even (n d : Z) : Z :=
  let q := (n / d)%Z in
  match (2 * (n mod d) ?= d)%Z with Lt => q | Gt => (q + 1)%Z | Eq => if Z.even q then q else (q + 1)%Z end.
(** the binary64 number nearest to a positive quotient (no overflow, no subnormal numbers) *)
Definition binary64 (x : Q) : Q :=
  let e := (Z.log2 (Qnum x) - Z.log2 (QDen x) - 52)%Z in
  let e := if Qle_bool (inject_Z (2 ^ 52)) (x * 2 ^ (- e)) then e else (e - 1)%Z in
  let s := (x * 2 ^ (- e))%Q in
  (inject_Z (half_even (Qnum s) (QDen s)) * 2 ^ e)%Q.
(** velocity.py:686, 762, 888, binned.py:451 [int(dat1.shape[-1]/(dat2.shape[-1]/n_bin2))] *)
Definition first_bin (l1 l2 n_bin2 : nat) : nat :=
  Z.to_nat (Qfloor (binary64 (inject_Z (Z.of_nat l1) / binary64 (inject_Z (Z.of_nat l2) / inject_Z (Z.of_nat n_bin2))))).

(** ** Coherence of signals of any lengths *)
(** tools/psd.py:128-153; [noise] is a pair. The signals are swapped when the first is longer, the noise levels are
    not. *)
Definition coherence_any (a b : list (option R)) (nfft : nat) (win : window) (debias : bool) (noise : R * R)
    : psd_err + list (option R) :=
  if (length a =? length b)%nat then coherence false a b nfft win debias noise
  else
    let '(a, b) := if (length b <? length a)%nat then (b, a) else (a, b) in
    match stepsize (length a) nfft None None with
    | inl e => inl e
    | inr (step1, nens, nfft) =>
      match stepsize (length b) nfft (Some nens) None with
      | inl e => inl e
      | inr (step2, nens, nfft) =>
        if (nens <=? 2)%nat then inl TooFewEnsembles
        else match cpsd_quasisync a b nfft 1 win, psd a nfft 1 win (Some step1), psd b nfft 1 win (Some step2) with
        | inr c, inr pa, inr pb =>
          let out := map2 odiv (map (option_map (fun z => cabs z * cabs z)%R) c)
            (map2 omul (map (fun p => osub p (Some (fst noise * fst noise / PI)%R)) pa)
                       (map (fun p => osub p (Some (snd noise * snd noise / PI)%R)) pb)) in
          inr (if debias then map (option_map (fun x => x * (1 + 1 / INR nens) - 1 / INR nens)%R) out else out)
        | inl e, _, _ => inl e
        | _, inl e, _ => inl e
        | _, _, inl e => inl e
        end
      end
    end.

(** ** Results with their coordinates *)
(** binned.py:33-47: the lengths of the bins, of the transforms and of the transforms of coherences *)
Record binner := Binner { bin_len : nat; fft_len : nat; coh_len : nat; rate : R }.
Definition parse_nfft (b : binner) (n : option nat) : nat :=
  match n with None => fft_len b | Some f => if (bin_len b <? f)%nat then bin_len b else f end.
Definition parse_nfft_coh (b : binner) (n : option nat) : nat :=
  match n with None => coh_len b | Some f => if (bin_len b <? f)%nat then bin_len b else f end.
Definition or_bin (b : binner) (n : option nat) : nat := match n with None => bin_len b | Some n => n end.

Inductive spec_err :=
  | FirstShorter | ZeroDivide | NotThree | BadNoise
  | Base (e : base_err) | Rows (e : reshape_err) | Signal (e : psd_err) | Times (e : reshape_err)
  | RowMissing (** IndexError: there is no such bin *)
  | RowLength (** the estimates do not fit in the row of the result *)
  | CoordSize (** the sizes of the coordinates are not those of the data *).

(** what [xr.DataArray(out, coords=..., dims=...)] makes of rows of estimates, one per bin *)
Record labelled (A : Type) := Labelled { estimates : list (list A); instants : list (option R); freqs : list R }.
Arguments Labelled {A}. Arguments estimates {A}. Arguments instants {A}. Arguments freqs {A}.

(** the checks of [xr.DataArray]: [shape] is the shape of [out] *)
Definition with_coords {A} (shape : nat * nat) (out : list (list A)) (times : reshape_err + list (option R)) (f : list R)
    : spec_err + labelled A :=
  match times with
  | inl e => inl (Times e)
  | inr t => if (fst shape =? length t)%nat && (snd shape =? length f)%nat then inr (Labelled out t f) else inl CoordSize
  end.

Definition bin_times (b : binner) (t : list (option R)) := bin_mean t (inject_Z (Z.of_nat (bin_len b))).
Definition unit_rate (fs : R) (u : units) : R := match u with RadPerS => 2 * PI * fs | Hz => fs end.

(** the rows that have been written; those of [np.empty] that have not are not modelled *)
Fixpoint written {A} (l : list (option A)) : list A :=
  match l with [] => [] | Some r :: l' => r :: written l' | None :: l' => written l' end.

(** binned.py:392-408: the spectra of all the bins of one line, noise taken off *)
Definition psd_lines (b : binner) (fs : R) (dat : list (option R)) (win : window) (noise : R) (n_bin n_fft n_pad step : option nat)
    : spec_err + (nat * list (list (option R))) :=
  match calc_psd_base (bin_len b) (fft_len b) fs dat win n_bin n_fft n_pad step with
  | inl e => inl (Base e)
  | inr out =>
      let rows := written out in
      inr (length out, chunks (parse_nfft b n_fft / 2) (length rows) (noise_correct (concat rows) noise fs))
  end.

(** velocity.py:1088-1112 and 1139-1165: one line [dat] at the instants [t] *)
Definition calc_psd (b : binner) (u : units) (fs : option R) (t dat : list (option R)) (win : window) (noise : option R)
    (n_bin n_fft n_pad step : option nat) : spec_err + labelled (option R) :=
  let fs_in := match fs with None => rate b | Some fs => fs end in
  let n_fft := parse_nfft b n_fft in
  match psd_lines b (unit_rate fs_in u) dat win (match noise with None => 0%R | Some n => n end) n_bin (Some n_fft) n_pad step with
  | inl e => inl e
  | inr (n, rows) => with_coords (n, (n_fft / 2)%nat) rows (bin_times b t) (calc_freq n_fft fs_in u)
  end.

Fixpoint gather {A E} (l : list (E + A)) : E + list A :=
  match l with
  | [] => inr []
  | inl e :: _ => inl e
  | inr x :: l' => match gather l' with inl e => inl e | inr r => inr (x :: r) end
  end.
(** velocity.py:1114-1138: the three components; the result has one labelled table for each of Sxx, Syy, Szz *)
Definition calc_psd_vel (b : binner) (u : units) (fs : option R) (t : list (option R)) (vel : list (list (option R))) (win : window)
    (noise : option (list R)) (n_bin n_fft n_pad step : option nat) : spec_err + list (labelled (option R)) :=
  if (length vel =? 3)%nat then
    let noise := match noise with None => [0; 0; 0]%R | Some l => l end in
    if (length noise =? 3)%nat then
      gather (map2 (fun v n => calc_psd b u fs t v win (Some n) n_bin n_fft n_pad step) vel noise)
    else inl BadNoise
  else inl NotThree.

(** the windows of two lines cut into bins, taken together; [rows]: how many *)
Definition paired {A} (rows : nat) (r1 r2 : list A) : list (A * A) := firstn rows (combine r1 r2).
(** [out[slc] = ...] for every bin: a row of another length does not fit (one of length 1 would be repeated; that is
    left out) *)
Definition fill {A} (nf : nat) (f : list (option R) * list (option R) -> psd_err + list A) (l : list (list (option R) * list (option R)))
    : spec_err + list (list A) :=
  match collect f l with
  | inl e => inl (Signal e)
  | inr out => if forallb (fun r => (length r =? nf)%nat) out then inr out else inl RowLength
  end.

(** binned.py:446-467: both lines are cut into bins of the binner's length, whatever [n_bin] says *)
Definition calc_csd_base (b : binner) (d1 d2 : list (option R)) (fs : R) (win : window) (n_fft n_bin : option nat)
    : spec_err + (nat * nat * list (list (option (R * R)))) :=
  let n_fft := match n_fft with None => coh_len b | Some n => n end in
  let n_bin2 := or_bin b n_bin in
  if (length d2 =? 0)%nat || (n_bin2 =? 0)%nat then inl ZeroDivide
  else
    let n_bin1 := first_bin (length d1) (length d2) n_bin2 in
    if (n_bin1 =? 0)%nat then inl ZeroDivide
    else
      let rows := Nat.min (length d1 / n_bin1) (length d2 / n_bin2) in
      let nf := (parse_nfft b (Some n_fft) / 2)%nat in
      match reshape (Some 0%R) d1 n_fft (inject_Z (Z.of_nat (bin_len b))), reshape (Some 0%R) d2 n_fft (inject_Z (Z.of_nat (bin_len b))) with
      | inl e, _ => inl (Rows e)
      | _, inl e => inl (Rows e)
      | inr r1, inr r2 =>
        if (length (paired rows r1 r2) <? rows)%nat then inl RowMissing else
        match fill nf (fun p => cpsd_quasisync (fst p) (snd p) n_fft fs win) (paired rows r1 r2) with
        | inl e => inl e
        | inr out => inr (rows, nf, out)
        end
      end.

(** adv/turbulence.py:129-175: the pairs of components in this order, and the coordinates; [out[ip] = ...] needs the
    shape of [_outshape_fft] with [n_bin] *)
Definition cross_pairs : list (nat * nat) := [(0, 1); (0, 2); (1, 2)]%nat.
Definition calc_csd (b : binner) (u : units) (fs : option R) (t : list (option R)) (vel : list (list (option R))) (win : window)
    (n_bin n_fft_coh : option nat) : spec_err + list (labelled (option (R * R))) :=
  let fs_in := match fs with None => rate b | Some fs => fs end in
  let n_fft := parse_nfft_coh b n_fft_coh in
  if (length vel <? 3)%nat then inl NotThree
  else
    gather (map (fun ip =>
      let v1 := nth (fst ip) vel [] in let v2 := nth (snd ip) vel [] in
      match calc_csd_base b v1 v2 (unit_rate fs_in u) win (Some n_fft) n_bin with
      | inl e => inl e
      | inr (rows, nf, out) =>
          if (rows =? length v1 / or_bin b n_bin)%nat && (nf =? parse_nfft b (Some n_fft) / 2)%nat
          then with_coords (rows, nf) out (bin_times b t) (calc_freq n_fft fs_in u)
          else inl CoordSize
      end) cross_pairs).

(** velocity.py:672-714, 748-790: [calc_coh] with [coherence], [calc_phase_angle] with [phase_angle]. The bins of the
    second line have [n_bin2] samples, those of the first [n_bin1]; the instants are those of the second line ([t2])
    in the bins of the binner, the frequencies those of the binner *)
Definition paired_bins {A} (f : list (option R) -> list (option R) -> nat -> psd_err + list A) (b : binner) (d1 d2 t2 : list (option R))
    (n_fft_coh n_bin : option nat) : spec_err + labelled A :=
  if (length d1 <? length d2)%nat then inl FirstShorter
  else
    let n_fft := match n_fft_coh with None => coh_len b | Some n => n end in
    let n_bin2 := or_bin b n_bin in
    if (length d2 =? 0)%nat || (n_bin2 =? 0)%nat then inl ZeroDivide
    else
      let n_bin1 := first_bin (length d1) (length d2) n_bin2 in
      if (n_bin1 =? 0)%nat then inl ZeroDivide
      else
        let rows := Nat.min (length d1 / n_bin1) (length d2 / n_bin2) in
        let nf := (parse_nfft b (Some n_fft) / 2)%nat in
        match reshape (Some 0%R) d1 n_fft (inject_Z (Z.of_nat n_bin1)), reshape (Some 0%R) d2 n_fft (inject_Z (Z.of_nat n_bin2)) with
        | inl e, _ => inl (Rows e)
        | _, inl e => inl (Rows e)
        | inr r1, inr r2 =>
          match fill nf (fun p => f (fst p) (snd p) n_fft) (paired rows r1 r2) with
          | inl e => inl e
          | inr out => with_coords (rows, nf) out (bin_times b t2) (calc_freq (coh_len b) (rate b) Hz)
          end
        end.
Definition calc_coh (b : binner) (d1 d2 t2 : list (option R)) (win : window) (debias : bool) (noise : R * R) (n_fft_coh n_bin : option nat) :=
  paired_bins (fun x y n => coherence_any x y n win debias noise) b d1 d2 t2 n_fft_coh n_bin.
Definition calc_phase_angle (b : binner) (d1 d2 t2 : list (option R)) (win : window) (n_fft_coh n_bin : option nat) :=
  paired_bins (fun x y n => phase_angle x y n win None) b d1 d2 t2 n_fft_coh n_bin.

(** ** The attributes *)
(** adv/turbulence.py:42-50: the attributes of the raw dataset and of the result after the call. [from_nat] is the
    attribute that holds a number. xarray copies the dictionary given to [out.attrs]. *)
Definition call_attrs {A} (from_nat : nat -> A) (b : binner) (raw : dict A) : dict A * dict A :=
  let raw' := filter (fun kv => negb (contains "config" (fst kv))) raw in
  (raw', set (set (set raw' "n_bin" (from_nat (bin_len b))) "n_fft" (from_nat (fft_len b))) "n_fft_coh" (from_nat (coh_len b)))%string.
