(** Spectra: tools/psd.py and binned.py:354-506.
    Samples are [option R] ([None] is NaN), spectral estimates [option (R * R)] (real and
    imaginary part). Floats are idealised as real numbers, and [int(x / y)] of non-negative
    integers as the integer division. *)
From Coq Require Import QArith Reals List ZArith.
From Verif.Model Require Import Reshape Stats.
Import ListNotations.
Open Scope R_scope.

(** [range(start, stop, step)] for [step > 0] *)
Definition range (start stop step : nat) : list nat :=
  map (fun k => start + k * step)%nat (seq 0 ((stop - start + (step - 1)) / step)).

(** [np.fft.fftfreq(n, 1 / fs)] of numpy, which psd.py:26 calls *)
Definition fftfreq (n : nat) (fs : R) : list R :=
  map (fun z => IZR z * (fs / INR n))
    (map Z.of_nat (seq 0 ((n - 1) / 2 + 1)) ++
     map (fun k => Z.of_nat k - Z.of_nat (n / 2))%Z (seq 0 (n / 2))).

(** psd.py:6-29 [psd_freq], [full = False] *)
Definition psd_freq (nfft : nat) (fs : R) : list R :=
  map Rabs (firstn (nfft / 2) (skipn 1 (fftfreq nfft fs))).

Inductive units := Hz | RadPerS.
(** binned.py:469-506 [calc_freq], [n_fft] already resolved *)
Definition calc_freq (nfft : nat) (fs : R) (u : units) : list R :=
  match u with RadPerS => psd_freq nfft (2 * PI * fs) | Hz => psd_freq nfft fs end.

Inductive psd_err := ZeroDiv | StepZero | BadWindow | TooFewEnsembles.

(** psd.py:53-86 [stepsize]: (step, nens, nfft); integer arguments *)
Definition stepsize (l nfft : nat) (nens step : option nat) : psd_err + (nat * nat * nat) :=
  let nfft := if (l <? nfft)%nat then l else nfft in
  match nens, step with
  | None, None =>
    if (l =? nfft)%nat then inr (0, 1, nfft)%nat
    else match nfft with
    | O => inl ZeroDiv
    | _ => let nens := (2 * l / nfft)%nat in inr ((l - nfft) / (nens - 1), nens, nfft)%nat
    end
  | None, Some O => inl ZeroDiv
  | None, Some step => inr (step, (l - nfft) / step + 1, nfft)%nat
  | Some 1%nat, _ => inr (0, 1, nfft)%nat
  | Some nens, _ => inr ((l - nfft) / (nens - 1), nens, nfft)%nat
  end.

(** The first samples of the segments: the one before the loop and those of
    [for i in range(step, l - nfft + 1, step)], psd.py:306-320, 421-432. A [range] of step 0
    raises ValueError. *)
Definition segments (l step nens nfft : nat) : psd_err + list nat :=
  match nens with
  | 1%nat => inr [0%nat]
  | _ => match step with O => inl StepZero | _ => inr (0%nat :: range step (l - nfft + 1) step) end
  end.

Inductive window := Ones | Hann | Hamm | Custom (w : list R).
(** psd.py:32-50 [_getwindow]; [np.hanning] and [np.hamming] of numpy. The rejection of other
    strings and types is left out. *)
Definition getwindow (w : window) (nfft : nat) : psd_err + list R :=
  match w with
  | Ones => inr (repeat 1 nfft)
  | Hann => inr (match nfft with 1%nat => [1] | _ =>
      map (fun j => 1/2 - 1/2 * cos (2 * PI * INR j / INR (nfft - 1))) (seq 0 nfft) end)
  | Hamm => inr (match nfft with 1%nat => [1] | _ =>
      map (fun j => 54/100 - 46/100 * cos (2 * PI * INR j / INR (nfft - 1))) (seq 0 nfft) end)
  | Custom w => if (length w =? nfft)%nat then inr w else inl BadWindow
  end.

Notation C := (R * R)%type (only parsing).
Definition cadd (a b : C) : C := (fst a + fst b, snd a + snd b).
Definition cmul (a b : C) : C := (fst a * fst b - snd a * snd b, fst a * snd b + snd a * fst b).
Definition cconj (a : C) : C := (fst a, - snd a).
Definition cscale (c : R) (a : C) : C := (c * fst a, c * snd a).
Definition cabs2 (a : C) : R := fst a * fst a + snd a * snd a.
Definition cabs (a : C) : R := sqrt (cabs2 a).
Definition olift2 {A B D} (f : A -> B -> D) (a : option A) (b : option B) : option D :=
  match a, b with Some x, Some y => Some (f x y) | _, _ => None end.

(** [fft(x)[k]]: sum of x_j exp(-2 pi i j k / n); NaN as soon as one sample is *)
Fixpoint all_some (l : list (option R)) : option (list R) :=
  match l with
  | [] => Some []
  | Some x :: l' => match all_some l' with Some m => Some (x :: m) | None => None end
  | None :: _ => None
  end.
Definition dft (x : list R) (k : nat) : C :=
  let n := length x in
  (rsum (map2 (fun xj j => xj * cos (2 * PI * INR (j * k) / INR n)) x (seq 0 n)),
   rsum (map2 (fun xj j => - (xj * sin (2 * PI * INR (j * k) / INR n))) x (seq 0 n))).

(** [fft(detrend(a[i:(i + nfft)]) * window)[slice(1, int(nfft / 2. + 1))]] *)
Definition segment_fft (a : list (option R)) (w : list R) (nfft i : nat) : list (option C) :=
  let x := map2 omul (detrend (firstn nfft (skipn i a))) (map Some w) in
  map (fun k => option_map (fun v => dft v k) (all_some x)) (seq 1 (nfft / 2)).

(** [2. / (window ** 2).sum() / nens / fs]; a window without weight gives NaN instead of inf *)
Definition weight (w : list R) (nens : nat) (fs : R) : option R :=
  odiv (Some 2) (Some (rsum (map (fun x => x * x) w) * INR nens * fs)).

Definition sum_spectra (nf : nat) (l : list (list (option C))) : list (option C) :=
  fold_left (map2 (olift2 cadd)) l (repeat (Some (0, 0)) nf).

(** psd.py:239-322 [cpsd] of signals of equal length; [auto]: both arguments are the same object *)
Definition cpsd (auto : bool) (a b : list (option R)) (nfft : nat) (fs : R) (win : window) (step : option nat)
    : psd_err + list (option C) :=
  let l := length a in
  match stepsize l nfft None step with
  | inl e => inl e
  | inr (step, nens, nfft) =>
    match getwindow win nfft with
    | inl e => inl e
    | inr w =>
      match segments l step nens nfft with
      | inl e => inl e
      | inr starts =>
        let one i := if auto
          then map (option_map (fun s => (cabs2 s, 0))) (segment_fft a w nfft i)
          else map2 (olift2 (fun s1 s2 => cmul s1 (cconj s2))) (segment_fft a w nfft i) (segment_fft b w nfft i) in
        inr (map (olift2 cscale (weight w nens fs)) (sum_spectra (nfft / 2) (map one starts)))
      end
    end
  end.

(** psd.py:325-371 [psd] *)
Definition psd (a : list (option R)) (nfft : nat) (fs : R) (win : window) (step : option nat)
    : psd_err + list (option R) :=
  match cpsd true a a nfft fs win step with
  | inl e => inl e
  | inr p => inr (map (option_map cabs) p)
  end.

(** psd.py:156-236 [cpsd_quasisync]. The two loops are zipped: the shorter one decides. *)
Definition cpsd_quasisync (a b : list (option R)) (nfft : nat) (fs : R) (win : window) : psd_err + list (option C) :=
  if (length a =? length b)%nat then cpsd false a b nfft fs win None
  else
    let '(a, b) := if (length b <? length a)%nat then (b, a) else (a, b) in
    match stepsize (length a) nfft None None with
    | inl e => inl e
    | inr (step1, nens, nfft) =>
      match stepsize (length b) nfft (Some nens) None with
      | inl e => inl e
      | inr (step2, nens, nfft) =>
        match getwindow win nfft with
        | inl e => inl e
        | inr w =>
          match segments (length a) step1 nens nfft, segments (length b) step2 nens nfft with
          | inr s1, inr s2 =>
            let one '(i1, i2) := map2 (olift2 (fun x y => cmul x (cconj y))) (segment_fft a w nfft i1) (segment_fft b w nfft i2) in
            inr (map (olift2 cscale (weight w nens fs)) (sum_spectra (nfft / 2) (map one (combine s1 s2))))
          | inl e, _ => inl e
          | _, inl e => inl e
          end
        end
      end
    end.

(** psd.py:89-153 [coherence], [noise = (n0, n1)], both signals of the same length (the other
    case goes through [cpsd_quasisync] and is not modelled) *)
Definition coherence (same : bool) (a b : list (option R)) (nfft : nat) (win : window) (debias : bool) (noise : R * R)
    : psd_err + list (option R) :=
  match stepsize (length a) nfft None None with
  | inl e => inl e
  | inr (step1, nens, nfft) =>
    match stepsize (length b) nfft (Some nens) None with
    | inl e => inl e
    | inr (step2, nens, nfft) =>
      if (nens <=? 2)%nat then inl TooFewEnsembles
      else match cpsd same a b nfft 1 win None, psd a nfft 1 win (Some step1), psd b nfft 1 win (Some step2) with
      | inr c, inr pa, inr pb =>
        let out := map2 odiv (map (option_map (fun z => cabs z * cabs z)) c)
          (map2 omul (map (fun p => osub p (Some (fst noise * fst noise / PI))) pa)
                     (map (fun p => osub p (Some (snd noise * snd noise / PI))) pb)) in
        inr (if debias then map (option_map (fun x => x * (1 + 1 / INR nens) - 1 / INR nens)) out else out)
      | inl e, _, _ => inl e
      | _, inl e, _ => inl e
      | _, _, inl e => inl e
      end
    end
  end.

(** [s / np.abs(s)], NaN at 0 *)
Definition cunit (s : C) : option C := if Req_EM_T (cabs2 s) 0 then None else Some (cscale (/ cabs s) s).
Definition cdiv (a b : C) : option C :=
  if Req_EM_T (cabs2 b) 0 then None else Some (cscale (/ cabs2 b) (cmul a (cconj b))).
Definition phasor (s2 s1 : option C) : option C :=
  match s1, s2 with
  | Some x, Some y => match cunit x, cunit y with Some u, Some v => cdiv v u | _, _ => None end
  | _, _ => None
  end.

(** psd.py:374-434 [phase_angle]; [nfft] at most the length of the signals (else the window and
    the segment have different lengths). In the loop [s2] is computed from [a] again (line 430). *)
Definition phase_angle (a b : list (option R)) (nfft : nat) (win : window) (step : option nat) : psd_err + list (option C) :=
  match getwindow win nfft with
  | inl e => inl e
  | inr w =>
    let first := map2 phasor (segment_fft b w nfft 0) (segment_fft a w nfft 0) in
    match stepsize (length a) nfft None step with
    | inl e => inl e
    | inr (step, nens, nfft) =>
      match segments (length a) step nens nfft with
      | inl e => inl e
      | inr starts =>
        let one i := map2 phasor (segment_fft a w nfft i) (segment_fft a w nfft i) in
        inr (map (option_map (cscale (/ INR nens))) (fold_left (map2 (olift2 cadd)) (map one (tl starts)) first))
      end
    end
  end.

(** binned.py:402-408, the noise correction at the end of [calc_psd_base]: [out] holds the
    spectra of all bins; NaN takes part in [np.min] and is not below 0 *)
Definition rmin (l : list R) : option R :=
  match l with [] => None | x :: l' => Some (fold_left Rmin l' x) end.
Definition noise_correct (out : list (option R)) (noise fs : R) : list (option R) :=
  if Req_EM_T noise 0 then out
  else
    let out := map (fun p => osub p (Some (noise * noise / (fs / 2)))) out in
    let floor := match all_some (map (option_map Rabs) out) with
                 | None => None
                 | Some l => option_map (fun m => m / 100) (rmin l)
                 end in
    map (fun p => match p with
      | Some x => if Rlt_dec x 0 then floor else Some x
      | None => None end) out.

Inductive base_err := Reshaping (e : reshape_err) | Spectral (e : psd_err) | OutIndex.
Fixpoint collect {A B} (f : A -> psd_err + B) (l : list A) : psd_err + list B :=
  match l with
  | [] => inr []
  | x :: l' => match f x, collect f l' with inr y, inr m => inr (y :: m) | inl e, _ => inl e | _, inl e => inl e end
  end.
(** binned.py:354-408 [calc_psd_base] of one line of data, without noise. [self_nbin] and
    [self_nfft] belong to the binner, the optional arguments override them. The array of results
    has one row per bin of [n_bin] samples, a row never written stays [None]; [reshape] is called
    with the bin size of the binner (line 399). [n_bin - n_fft] is taken as 0 when negative. *)
Definition calc_psd_base (self_nbin self_nfft : nat) (fs : R) (dat : list (option R)) (win : window)
    (n_bin n_fft n_pad step : option nat) : base_err + list (option (list (option R))) :=
  let n_bin := match n_bin with Some n => n | None => self_nbin end in
  let n_fft := match n_fft with Some n => if (self_nbin <? n)%nat then self_nbin else n | None => self_nfft end in
  let n_pad := match n_pad with Some n => n | None => Nat.min (n_bin - n_fft) n_fft end in
  match reshape (Some 0) dat n_pad (inject_Z (Z.of_nat self_nbin)) with
  | inl e => inl (Reshaping e)
  | inr rows =>
    match collect (fun r => psd r n_fft fs win step) rows with
    | inl e => inl (Spectral e)
    | inr sp =>
      let n_rows := (length dat / n_bin)%nat in
      if (n_rows <? length sp)%nat then inl OutIndex
      else inr (map Some sp ++ repeat None (n_rows - length sp))
    end
  end.
