(** Phase-space despiking (Goring and Nikora 2002, Wahl 2003): a sample is a spike when its deviation,
    first and second difference lie outside an ellipsoid computed from the window. *)
From Coq Require Import Reals List Bool Arith.
From Verif.Spec Require Import Group Stats.
Import ListNotations.
Open Scope R_scope.

Section Window.
(** the samples of the window *)
Context (l : list R).
Notation n := (length l).
Definition mean_of (f : nat -> R) : R := total n f / INR n.
Definition spread (f : nat -> R) : R := total n (fun k => (f k - mean_of f) * (f k - mean_of f)) / INR n.
(** deviation from the mean, and centred differences; the differences are zero at the ends, where
    there is no neighbour *)
Definition dev (i : nat) : R := nth i l 0 - mean_of (fun k => nth k l 0).
Definition diff1 (i : nat) : R := if (1 <=? i) && (i + 1 <? n) then (dev (i + 1) - dev (i - 1)) / 2 else 0.
Definition diff2 (i : nat) : R := if (2 <=? i) && (i + 2 <? n) then (diff1 (i + 1) - diff1 (i - 1)) / 2 else 0.

(** [c], [s]: the direction of the principal axis in the plane of deviation and second difference;
    [a], [b]: the squared half axes in that plane, which make the projections of the ellipse on the two
    coordinates as long as the expected largest deviations, sqrt(2 ln n) standard deviations *)
Definition ellipse (c s a b : R) : Prop :=
  0 < c /\ c * c + s * s = 1 /\ s * total n (fun k => dev k * dev k) = c * total n (fun k => dev k * diff2 k) /\
  a * (c * c) + b * (s * s) = 2 * ln (INR n) * spread dev /\ a * (s * s) + b * (c * c) = 2 * ln (INR n) * spread diff2.
Definition outside (i : nat) : Prop := exists c s a b, ellipse c s a b /\
  1 < (dev i * c + diff2 i * s) * (dev i * c + diff2 i * s) / a + (dev i * s - diff2 i * c) * (dev i * s - diff2 i * c) / b
      + diff1 i * diff1 i / (2 * ln (INR n) * spread diff1).
(** the ellipsoid has a volume: some difference is not zero, and the second difference is not an affine
    function of the deviation *)
Definition regular : Prop :=
  (exists i, (i < n)%nat /\ diff1 i <> 0) /\ ~ exists k m, forall i, (i < n)%nat -> diff2 i = k * dev i + m.
End Window.

(** the window sample [i] of [n] is judged in: the [npt] samples of its block, but the last [npt] samples
    for the end of the record, and the whole of a short record. (first sample, number of samples) *)
Definition window (n npt i : nat) : nat * nat :=
  if n <=? npt then (0%nat, n) else (if n - npt <=? i then (n - npt, npt) else (i / npt * npt, npt))%nat.

(** Long gaps: at least [npt/10] consecutive missing samples, not extensible. *)
Definition missing_at (u : list (option R)) : list bool := map (fun v => match v with None => true | Some _ => false end) u.
Definition gap (u : list (option R)) (npt : nat) (g : nat * nat) : Prop :=
  maximal_run (missing_at u) (fst g) (snd g) /\ (npt / 10 <= snd g - fst g)%nat.
(** a stretch between long gaps, or between a long gap and an end of the record *)
Definition region (u : list (option R)) (npt s e : nat) : Prop :=
  (s < e <= length u)%nat /\ (s = 0%nat \/ exists a, gap u npt (a, s)) /\ (e = length u \/ exists b, gap u npt (e, b)) /\
  forall g, gap u npt g -> (snd g <= s \/ e <= fst g)%nat.
(** the record is cut at its long gaps when it has three and does not start with a missing sample *)
Definition cut (u : list (option R)) (npt : nat) : Prop :=
  (exists v, hd None u = Some v) /\ exists g1 g2 g3, NoDup [g1; g2; g3] /\ Forall (gap u npt) [g1; g2; g3].
Definition stretch (u : list (option R)) (npt s e : nat) : Prop :=
  (cut u npt /\ region u npt s e) \/ (~ cut u npt /\ s = 0%nat /\ e = length u).
(** sample [i] is judged with the [k] samples from [first] on *)
Definition judged (u : list (option R)) (npt i first k : nat) : Prop :=
  exists s e, stretch u npt s e /\ (s <= i < e)%nat /\ (let (w, k') := window (e - s) npt (i - s) in first = (s + w)%nat /\ k = k').
