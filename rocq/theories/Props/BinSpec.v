(** Properties C153-C157: spectra, cross spectra, coherences of bins with their coordinates, and what calling a binner
    does to the attributes. *)
From Coq Require Import String.
From Coq Require Import Reals List QArith ZArith Bool Lia Lra.
From Verif.Model Require Import Reshape Stats Psd SigData BinSpec.
From Verif.Spec Require Import Reshape Stats Psd BinSpec.
From Verif.Proofs Require Binary64 BinSpec.
Import ListNotations.
Open Scope nat_scope.

(** a record of [n] samples, for the examples *)
Definition ramp (n : nat) : list (option R) := map (fun k => Some (INR k)) (seq 0 n).
Definition succeeds {A B} (x : A + B) : bool := match x with inr _ => true | inl _ => false end.
Lemma ok {A B} (x : A + B) : succeeds x = true -> exists r, x = inr r.
Proof. destruct x as [a|b]; [discriminate|]. intros _. now exists b. Qed.

(** ** C153. Missing: the bin size given to the call *)
Theorem C153_coordinates : forall b u t dat win noise r,
  1 <= bin_len b <= length dat -> fft_len b <= bin_len b -> length t = length dat -> (0 < rate b)%R ->
  calc_psd b u None t dat win noise None None None None = inr r ->
  length (estimates r) = length dat / bin_len b /\ mean_instants t (bin_len b) (length dat / bin_len b) (instants r) /\
  fft_frequencies (fft_len b) (match u with RadPerS => 2 * PI * rate b | Hz => rate b end) (freqs r).
Proof. intros b u t dat win noise r H1 H2 H3 H4. exact (BinSpec.psd_ok b u t dat win H1 H2 H3 H4 noise r). Qed.
Theorem C153_spectra_partial : forall b u t dat win noise r,
  1 <= bin_len b <= length dat -> fft_len b <= bin_len b -> length t = length dat -> (noise = None \/ noise = Some 0%R) ->
  calc_psd b u None t dat win noise None None None None = inr r ->
  forall k, k < length dat / bin_len b -> exists w p,
    bin_window dat (bin_len b) (Nat.min (bin_len b - fft_len b) (fft_len b)) k w /\
    psd w (fft_len b) (match u with RadPerS => 2 * PI * rate b | Hz => rate b end) win None = inr p /\ nth_error (estimates r) k = Some p.
Proof. intros b u t dat win noise r H1 H2 H4 H3. exact (BinSpec.psd_plain b u t dat win H1 H2 H4 noise r H3). Qed.
Theorem C153_noise : forall b u t dat win noise r r0,
  1 <= bin_len b <= length dat -> fft_len b <= bin_len b -> length t = length dat -> noise <> 0%R ->
  calc_psd b u None t dat win (Some noise) None None None None = inr r ->
  calc_psd b u None t dat win None None None None None = inr r0 ->
  forall k j,
    (forall x, estimate (estimates r) k j = Some (Some x) -> (0 <= x)%R) /\
    (forall x, let level := (noise * noise / (match u with RadPerS => 2 * PI * rate b | Hz => rate b end / 2))%R in
       estimate (estimates r0) k j = Some (Some x) -> (level <= x)%R -> estimate (estimates r) k j = Some (Some (x - level)%R)).
Proof.
  intros b u t dat win noise r r0 H1 H2 H4 H3 E E0 k j. split; intros x.
  - exact (BinSpec.psd_noise_nonneg b u t dat win H1 H2 H4 noise r k j x H3 E).
  - intros level. exact (BinSpec.psd_noise_above b u t dat win H1 H2 H4 noise r r0 k j x H3 E E0).
Qed.
(** the spectra of the three components, each with its own noise level, and nothing else *)
Theorem C153_components : forall b u fs t vel win noise n_bin n_fft n_pad step,
  (length vel <> 3 -> calc_psd_vel b u fs t vel win noise n_bin n_fft n_pad step = inl NotThree) /\
  forall rs, calc_psd_vel b u fs t vel win noise n_bin n_fft n_pad step = inr rs ->
  length vel = 3 /\ length rs = 3 /\ forall i v nz, nth_error vel i = Some v ->
    nth_error (match noise with None => [0; 0; 0]%R | Some l => l end) i = Some nz ->
    exists r, nth_error rs i = Some r /\ calc_psd b u fs t v win (Some nz) n_bin n_fft n_pad step = inr r.
Proof.
  intros. split; [|intros rs; exact (BinSpec.psd_vel_ok b u fs t vel win noise n_bin n_fft n_pad step rs)].
  intros H. unfold calc_psd_vel. destruct (Nat.eqb_spec (length vel) 3); [contradiction|reflexivity].
Qed.
(** spectra per Hz and per rad/s: the same energy under the curve between any two estimates *)
Theorem C153_units : forall b fs t dat win noise n_bin n_fft n_pad step r,
  (0 < match fs with None => rate b | Some f => f end)%R ->
  calc_psd b Hz fs t dat win noise n_bin n_fft n_pad step = inr r ->
  exists r', calc_psd b RadPerS fs t dat win noise n_bin n_fft n_pad step = inr r' /\
    estimates r' = map (map (option_map (fun x => x / (2 * PI))%R)) (estimates r) /\
    instants r' = instants r /\ freqs r' = map (Rmult (2 * PI)) (freqs r).
Proof.
  intros * H E. eexists. split; [exact (BinSpec.psd_units b fs t dat win noise n_bin n_fft n_pad step r H E)|].
  split; [reflexivity|]. split; reflexivity.
Qed.
(** the bin size given to the call: an error whenever it asks for another number of bins than the binner's, and no
    effect otherwise *)
Theorem C153_n_bin_raises : forall b u fs t dat win noise n' n_fft n_pad step,
  1 <= bin_len b <= length t -> length dat / n' <> length t / bin_len b ->
  exists e, calc_psd b u fs t dat win noise (Some n') n_fft n_pad step = inl e.
Proof.
  intros b u fs t dat win noise n' n_fft n_pad step H N. destruct (calc_psd _ _ _ _ _ _ _ (Some n') _ _ _) as [e|r] eqn:E; [now exists e|].
  exfalso. apply N. exact (BinSpec.psd_nbin_count b u fs t dat win noise n' n_fft n_pad step r H E).
Qed.
Theorem C153_n_bin_ignored : forall b u fs t dat win noise n' n_fft p step r,
  1 <= bin_len b <= length t -> length t = length dat ->
  calc_psd b u fs t dat win noise (Some n') n_fft (Some p) step = inr r ->
  calc_psd b u fs t dat win noise None n_fft (Some p) step = inr r.
Proof. exact BinSpec.psd_nbin_ignored. Qed.
Theorem C153_n_bin_refuted : exists b t dat r e, calc_psd b Hz None t dat Ones None None None None None = inr r /\
  calc_psd b Hz None t dat Ones None (Some 5) None None None = inl e /\ length dat = 20 /\ bin_len b = 10.
Proof.
  destruct (C153_n_bin_raises (Binner 10 4 4 1) Hz None (ramp 20) (ramp 20) Ones None 5 None None None ltac:(cbn; lia) ltac:(discriminate)) as [e E].
  assert (X : exists r, calc_psd (Binner 10 4 4 1) Hz None (ramp 20) (ramp 20) Ones None None None None None = inr r) by (apply ok; lazy; reflexivity).
  destruct X as [r X]. exists (Binner 10 4 4 1), (ramp 20), (ramp 20), r, e. split; [exact X|]. split; [exact E|]. split; reflexivity.
Qed.
Example C153_hyp : (exists r, calc_psd (Binner 10 4 4 1) RadPerS None (ramp 25) (ramp 25) Hann (Some 1%R) None None None None = inr r) /\
  (exists r, calc_psd (Binner 10 4 4 1) RadPerS None (ramp 25) (ramp 25) Hann None None None None None = inr r) /\
  (exists r, calc_psd (Binner 10 4 4 1) Hz None (ramp 25) (ramp 25) Hann None (Some 12) None (Some 3) None = inr r) /\
  (exists rs, calc_psd_vel (Binner 10 4 4 1) Hz None (ramp 25) [ramp 25; ramp 25; ramp 25] Hann (Some [0; 1; 2]%R) None None None None = inr rs).
Proof. repeat split; apply ok; lazy; reflexivity. Qed.

(** ** C154. Missing: the bin size given to the call *)
Theorem C154_cross_spectra_partial : forall b u fs t vel win n_coh rs,
  let n := bin_len b in let nf := parse_nfft_coh b n_coh in
  let f0 := match fs with None => rate b | Some f => f end in let f1 := (match u with RadPerS => 2 * PI * f0 | Hz => f0 end)%R in
  1 <= n <= length t -> (forall v, In v vel -> length v = length t) -> (0 < f0)%R -> coh_len b <= n ->
  calc_csd b u fs t vel win None n_coh = inr rs ->
  length rs = 3 /\
  forall i j l v1 v2, (i, j, l) = (0, 1, 0) \/ (i, j, l) = (0, 2, 1) \/ (i, j, l) = (1, 2, 2) ->
    nth_error vel i = Some v1 -> nth_error vel j = Some v2 ->
    exists r, nth_error rs l = Some r /\ length (estimates r) = length t / n /\
      mean_instants t n (length t / n) (instants r) /\ fft_frequencies nf f1 (freqs r) /\
      forall k, k < length t / n -> exists w1 w2 row, bin_window v1 n nf k w1 /\ bin_window v2 n nf k w2 /\
        cpsd false w1 w2 nf f1 win None = inr row /\ nth_error (estimates r) k = Some row.
Proof.
  intros b u fs t vel win n_coh rs n nf f0 f1 H1 H2 H3 H4 E.
  destruct (BinSpec.csd_ok b u fs t vel win None n_coh rs H1 H2 H3 H4 E) as (_ & L & F). split; [exact L|].
  intros i j l v1 v2 C V1 V2.
  assert (P : nth_error cross_pairs l = Some (i, j)) by (destruct C as [C|[C|C]]; injection C as -> -> ->; reflexivity).
  destruct (F l (i, j) v1 v2 P V1 V2) as (r & R1 & R2 & _ & R3 & R4 & R5). exists r. repeat split; try assumption; try apply R3; try apply R4.
Qed.
Theorem C154_n_bin_raises : forall b u fs t vel win n' n_coh, 1 <= bin_len b <= length t -> (forall v, In v vel -> length v = length t) ->
  (0 < match fs with None => rate b | Some f => f end)%R -> coh_len b <= bin_len b -> length t / bin_len b <> length t / n' ->
  exists e, calc_csd b u fs t vel win (Some n') n_coh = inl e.
Proof.
  intros b u fs t vel win n' n_coh H1 H2 H3 H4 N. destruct (calc_csd b u fs t vel win (Some n') n_coh) as [e|rs] eqn:E; [now exists e|exfalso].
  destruct (BinSpec.csd_ok b u fs t vel win (Some n') n_coh rs H1 H2 H3 H4 E) as (L3 & _ & F).
  destruct vel as [|v1 [|v2 vel]]; [cbn in L3; lia|cbn in L3; lia|].
  destruct (F 0 (0, 1) v1 v2 eq_refl eq_refl eq_refl) as (r & _ & _ & C & _). exact (N C).
Qed.
Theorem C154_n_bin_refuted : exists b t vel rs e, calc_csd b Hz None t vel Ones None None = inr rs /\
  calc_csd b Hz None t vel Ones (Some 5) None = inl e /\ length t = 20 /\ bin_len b = 10.
Proof.
  destruct (C154_n_bin_raises (Binner 10 4 4 1) Hz None (ramp 20) [ramp 20; ramp 20; ramp 20] Ones 5 None ltac:(cbn; lia)
    ltac:(intros v [<-|[<-|[<-|[]]]]; reflexivity) ltac:(cbn; lra) ltac:(cbn; lia) ltac:(discriminate)) as [e E].
  assert (X : exists r, calc_csd (Binner 10 4 4 1) Hz None (ramp 20) [ramp 20; ramp 20; ramp 20] Ones None None = inr r) by (apply ok; lazy; reflexivity).
  destruct X as [r X]. exists (Binner 10 4 4 1), (ramp 20), [ramp 20; ramp 20; ramp 20], r, e. split; [exact X|]. split; [exact E|]. split; reflexivity.
Qed.
Example C154_hyp : exists rs, calc_csd (Binner 7 4 4 1) RadPerS (Some 2%R) (ramp 29) [ramp 29; ramp 29; ramp 29] Hann None (Some 5) = inr rs.
Proof. apply ok. lazy. reflexivity. Qed.

(** ** C155. Missing: records whose length is not a whole number of bins *)
(** [q] bins in each record, of [m] samples in the first and [n] in the second: bin [k] of both is the part between
    the fractions k/q and (k+1)/q of the record *)
Theorem C155_coherence_partial : forall b d1 d2 t2 win debias noise q m r,
  0 < m -> 0 < q -> length d2 = q * bin_len b -> length d1 = q * m -> length t2 = length d2 ->
  1 <= bin_len b -> (0 < rate b)%R -> (Z.of_nat (length d1) < 2 ^ 52)%Z -> coh_len b <= 2 * bin_len b -> coh_len b <= 2 * m ->
  calc_coh b d1 d2 t2 win debias noise None None = inr r ->
  length (estimates r) = q /\ mean_instants t2 (bin_len b) q (instants r) /\ fft_frequencies (coh_len b) (rate b) (freqs r) /\
  forall k, k < q -> exists w1 w2 row, bin_window d1 m (coh_len b) k w1 /\ bin_window d2 (bin_len b) (coh_len b) k w2 /\
    coherence_any w1 w2 (coh_len b) win debias noise = inr row /\ nth_error (estimates r) k = Some row.
Proof. intros b d1 d2 t2 win debias noise q m r. exact (BinSpec.whole_bins (fun x y n => coherence_any x y n win debias noise) b d1 d2 t2 q m r). Qed.
Theorem C155_phase_partial : forall b d1 d2 t2 win q m r,
  0 < m -> 0 < q -> length d2 = q * bin_len b -> length d1 = q * m -> length t2 = length d2 ->
  1 <= bin_len b -> (0 < rate b)%R -> (Z.of_nat (length d1) < 2 ^ 52)%Z -> coh_len b <= 2 * bin_len b -> coh_len b <= 2 * m ->
  calc_phase_angle b d1 d2 t2 win None None = inr r ->
  length (estimates r) = q /\ mean_instants t2 (bin_len b) q (instants r) /\ fft_frequencies (coh_len b) (rate b) (freqs r) /\
  forall k, k < q -> exists w1 w2 row, bin_window d1 m (coh_len b) k w1 /\ bin_window d2 (bin_len b) (coh_len b) k w2 /\
    phase_angle w1 w2 (coh_len b) win None = inr row /\ nth_error (estimates r) k = Some row.
Proof. intros b d1 d2 t2 win q m r. exact (BinSpec.whole_bins (fun x y n => phase_angle x y n win None) b d1 d2 t2 q m r). Qed.
(** records of the same length: the bins of the first record are those of the second, or all one sample shorter *)
Theorem C155_equal_lengths : forall b d1 d2 t2 win debias noise r, length d1 = length d2 -> length t2 = length d2 ->
  1 <= bin_len b <= length d2 -> (0 < rate b)%R -> (Z.of_nat (length d1) < 2 ^ 50)%Z -> coh_len b <= bin_len b ->
  calc_coh b d1 d2 t2 win debias noise None None = inr r ->
  exists n1, (n1 = bin_len b \/ S n1 = bin_len b) /\ length (estimates r) = length d2 / bin_len b /\
    forall k, k < length d2 / bin_len b -> exists w1 w2 row, bin_window d1 n1 (coh_len b) k w1 /\ bin_window d2 (bin_len b) (coh_len b) k w2 /\
      coherence_any w1 w2 (coh_len b) win debias noise = inr row /\ nth_error (estimates r) k = Some row.
Proof. intros b d1 d2 t2 win debias noise r. exact (BinSpec.equal_bins (fun x y n => coherence_any x y n win debias noise) b d1 d2 t2 r). Qed.
(** the second case happens: 29 samples in bins of 7. The last bin begins at sample 18 of the first record and at
    sample 21 of the second. *)
Theorem C155_drift_refuted : exists b d t r w1 w2 row, bin_len b = 7 /\ length d = 29 /\ length t = 29 /\
  calc_coh b d d t Ones false (0, 0)%R None None = inr r /\ bin_window d 6 4 3 w1 /\ bin_window d 7 4 3 w2 /\
  coherence_any w1 w2 4 Ones false (0, 0)%R = inr row /\ nth_error (estimates r) 3 = Some row /\
  nth_error w1 2 = nth_error d 18 /\ nth_error w2 2 = nth_error d 21.
Proof.
  assert (X : exists r, calc_coh (Binner 7 4 4 1) (ramp 29) (ramp 29) (ramp 29) Ones false (0, 0)%R None None = inr r) by (apply ok; lazy; reflexivity).
  destruct X as [r E].
  destruct (BinSpec.drift Ones (Binner 7 4 4 1) (ramp 29) (ramp 29) 6 3 r ltac:(vm_compute; reflexivity) ltac:(cbn; lia) eq_refl ltac:(lia) ltac:(cbn; lia) eq_refl
    ltac:(vm_compute; lia) ltac:(vm_compute; lia) E) as (w1 & w2 & row & H).
  exists (Binner 7 4 4 1), (ramp 29), (ramp 29), r, w1, w2, row. split; [reflexivity|]. split; [reflexivity|]. split; [reflexivity|]. split; [exact E|exact H].
Qed.
(** 199 samples against 100: bins of 10 samples of the second record are put beside bins of 19 samples, although 199 /
    10 samples cover the same time *)
Theorem C155_truncation_refuted : exists b d1 d2 r w1 w2 row, length d1 = 199 /\ length d2 = 100 /\ bin_len b = 10 /\
  calc_coh b d1 d2 d2 Ones false (0, 0)%R None None = inr r /\ bin_window d1 19 4 9 w1 /\ bin_window d2 10 4 9 w2 /\
  coherence_any w1 w2 4 Ones false (0, 0)%R = inr row /\ nth_error (estimates r) 9 = Some row /\
  nth_error w1 2 = nth_error d1 171 /\ nth_error w2 2 = nth_error d2 90.
Proof.
  assert (X : exists r, calc_coh (Binner 10 4 4 1) (ramp 199) (ramp 100) (ramp 100) Ones false (0, 0)%R None None = inr r) by (apply ok; lazy; reflexivity).
  destruct X as [r E].
  destruct (BinSpec.drift Ones (Binner 10 4 4 1) (ramp 199) (ramp 100) 19 9 r ltac:(vm_compute; reflexivity) ltac:(cbn; lia) eq_refl ltac:(lia) ltac:(cbn; lia) eq_refl
    ltac:(vm_compute; lia) ltac:(vm_compute; lia) E) as (w1 & w2 & row & H).
  exists (Binner 10 4 4 1), (ramp 199), (ramp 100), r, w1, w2, row. split; [reflexivity|]. split; [reflexivity|]. split; [reflexivity|]. split; [exact E|exact H].
Qed.
(** the length of transform given to the call is an error, unless it gives as many frequencies as the binner's *)
Theorem C155_n_fft_raises : forall b d1 d2 t2 win debias noise c n_bin, (0 < rate b)%R -> c <= bin_len b -> c / 2 <> coh_len b / 2 ->
  exists e, calc_coh b d1 d2 t2 win debias noise (Some c) n_bin = inl e.
Proof.
  intros b d1 d2 t2 win debias noise c n_bin H1 H2 N. unfold calc_coh. destruct (paired_bins _ b d1 d2 t2 (Some c) n_bin) as [e|r] eqn:E; [now exists e|].
  exfalso. apply N. exact (BinSpec.paired_fft_count _ b d1 d2 t2 c n_bin r H1 H2 E).
Qed.
Theorem C155_shorter_first : forall b d1 d2 t2 win debias noise c n_bin, length d1 < length d2 ->
  calc_coh b d1 d2 t2 win debias noise c n_bin = inl FirstShorter.
Proof. intros. now apply BinSpec.paired_shorter. Qed.
Example C155_hyp : (exists r, calc_coh (Binner 10 4 4 1) (ramp 60) (ramp 30) (ramp 30) Hann true (0, 0)%R None None = inr r) /\
  (exists r, calc_phase_angle (Binner 10 4 4 1) (ramp 60) (ramp 30) (ramp 30) Hann None None = inr r) /\
  (exists r, calc_coh (Binner 10 4 4 1) (ramp 35) (ramp 35) (ramp 35) Hann true (0, 0)%R None None = inr r).
Proof. repeat split; apply ok; lazy; reflexivity. Qed.

(** ** C156 *)
Theorem C156_symmetric_partial : forall a b nfft win debias n0 n1 out, length b = length a ->
  coherence_any a b nfft win debias (n0, n1) = inr out -> coherence_any b a nfft win debias (n1, n0) = inr out.
Proof. exact BinSpec.coherence_sym. Qed.
(** of signals of different lengths, the first noise level belongs to the shorter one, whatever the order *)
Theorem C156_order_ignored : forall a b nfft win debias noise, length a <> length b ->
  coherence_any a b nfft win debias noise = coherence_any b a nfft win debias noise.
Proof. exact BinSpec.coherence_order. Qed.
Theorem C156_symmetric_refuted : exists a b na nb o o' x, length b < length a /\
  coherence_any a b 4 Ones false (na, nb) = inr o /\ coherence_any b a 4 Ones false (nb, na) = inr o' /\
  nth_error o 0 = Some None /\ nth_error o' 0 = Some (Some x).
Proof.
  destruct BinSpec.noise_witness as (o & o' & x & H). eexists _, _, 1%R, 0%R, o, o', x. split; [|exact H]. cbn. lia.
Qed.
Example C156_hyp : exists out, coherence_any (ramp 12) (ramp 12) 4 Hann true (1, 2)%R = inr out.
Proof. apply ok. lazy. reflexivity. Qed.

(** ** C157 *)
(** the result has the attributes of the raw dataset, and the lengths of the binner *)
Theorem C157_result_partial : forall A (num : nat -> A) b raw k, let out := snd (call_attrs num b raw) in
  get out "n_bin" = Some (num (bin_len b)) /\ get out "n_fft" = Some (num (fft_len b)) /\ get out "n_fft_coh" = Some (num (coh_len b)) /\
  (k <> "n_bin" -> k <> "n_fft" -> k <> "n_fft_coh" -> contains "config" k = false -> get out k = get raw k)%string.
Proof.
  intros A num b raw k out. unfold out, call_attrs. cbn [snd]. rewrite !BinSpec.get_set. split; [reflexivity|]. split; [reflexivity|]. split; [reflexivity|].
  intros N1 N2 N3 C. destruct (String.eqb_spec "n_fft_coh" k); [congruence|]. destruct (String.eqb_spec "n_fft" k); [congruence|]. destruct (String.eqb_spec "n_bin" k); [congruence|].
  rewrite (BinSpec.get_filter (fun k => negb (contains "config" k))), C. reflexivity.
Qed.
(** the raw dataset itself loses its configuration *)
Theorem C157_raw_changed : forall A (num : nat -> A) b raw k, let raw' := fst (call_attrs num b raw) in
  get raw' k = if contains "config" k then None else get raw k.
Proof.
  intros A num b raw k raw'. unfold raw', call_attrs. cbn [fst]. rewrite (BinSpec.get_filter (fun k => negb (contains "config" k))). now destruct (contains "config" k).
Qed.
Theorem C157_raw_unchanged_partial : forall A (num : nat -> A) b raw, (forall kv, In kv raw -> contains "config" (fst kv) = false) ->
  fst (call_attrs num b raw) = raw.
Proof. intros A num b raw H. apply BinSpec.filter_all. intros x Hx. now rewrite (H x Hx). Qed.
Theorem C157_raw_unchanged_refuted : exists (raw : dict nat) b v, get raw "filehead_config"%string = Some v /\
  get (fst (call_attrs (fun n => n) b raw)) "filehead_config"%string = None.
Proof. exists [("filehead_config"%string, 1)], (Binner 10 4 4 1), 1. split; reflexivity. Qed.
Example C157_hyp : contains "config" "filehead_config" = true /\ contains "config" "inst_make" = false /\
  get (snd (call_attrs (fun n => n) (Binner 10 5 4 1) [("inst_make", 3); ("n_bin", 1)]%string)) "inst_make" = Some 3.
Proof. split; [reflexivity|]. split; reflexivity. Qed.

(** All the theorems of this file, for one listing of axioms. *)
Definition all_theorems :=
  (@C153_coordinates,
   @C153_spectra_partial,
   @C153_noise,
   @C153_components,
   @C153_units,
   @C153_n_bin_raises,
   @C153_n_bin_ignored,
   @C153_n_bin_refuted,
   @C154_cross_spectra_partial,
   @C154_n_bin_raises,
   @C154_n_bin_refuted,
   @C155_coherence_partial,
   @C155_phase_partial,
   @C155_equal_lengths,
   @C155_drift_refuted,
   @C155_truncation_refuted,
   @C155_n_fft_raises,
   @C155_shorter_first,
   @C156_symmetric_partial,
   @C156_order_ignored,
   @C156_symmetric_refuted,
   @C157_result_partial,
   @C157_raw_changed,
   @C157_raw_unchanged_partial,
   @C157_raw_unchanged_refuted).
Print Assumptions all_theorems.
