(** What averaging a dataset should give. *)
From Coq Require Import String.
From Coq Require Import Reals List Arith.
From Verif.Model Require Import SigData DoAvg.
From Verif.Spec Require Import Stats.
Import ListNotations.
Open Scope string_scope.

(** a dataset: every axis has one size; the lines of a variable are as long as its last axis, and there is one for
    every combination of indices along the others *)
Definition product (l : list nat) : nat := fold_right Nat.mul 1%nat l.
Definition sound (size : string -> nat) (d : dataset) : Prop :=
  (forall ky v, In (ky, v) (vars d) -> dims v <> [] /\ (lead v ++ [len v])%list = map size (dims v)
      /\ length (rows v) = product (lead v) /\ (rows v <> []) /\ Forall (fun r => length r = len v) (rows v))
  /\ (forall nm t, In (nm, t) (coords d) -> length t = size nm).

(** an axis of times has "time" in its name; the last axis of [v] is one, and the only one *)
Definition times (nm : string) : Prop := contains "time" nm = true.
Definition on_time (t : string) (v : variable) : Prop := times t /\ exists others, dims v = (others ++ [t])%list /\ forall o, In o others -> ~ times o.
Definition without_time (v : variable) : Prop := forall o, In o (dims v) -> ~ times o.
(** axes of raw altimeter pings; counters of ensembles *)
Definition altimeter (v : variable) : Prop := exists o, In o (dims v) /\ contains "altraw" o = true.
Definition counter (ky : string) : Prop := contains "ensemble" ky = true.

(** [m] is, at each index, the mean of [n] successive samples of [l] *)
Definition means (n : nat) (l m : list (option R)) : Prop :=
  length m = (length l / n)%nat /\
  forall k, (k < length l / n)%nat -> exists x, nth_error m k = Some x /\ is_mean (samples l (k * n) n) x.
(** the variance of the valid samples; missing when there is none *)
Definition is_var (l : list (option R)) (v : option R) : Prop :=
  (v = None <-> present l = []) /\
  forall m x, is_mean l (Some m) -> v = Some x ->
    (0 <= x)%R /\ (x * INR (length (present l)) = sum_list (map (fun y => (y - m) * (y - m)) (present l)))%R.
Definition variances (n : nat) (l m : list (option R)) : Prop :=
  length m = (length l / n)%nat /\
  forall k, (k < length l / n)%nat -> exists x, nth_error m k = Some x /\ is_var (samples l (k * n) n) x.
Definition deviations (n : nat) (l m : list (option R)) : Prop :=
  length m = (length l / n)%nat /\
  forall k, (k < length l / n)%nat -> exists x, nth_error m k = Some x /\
    match x with
    | None => is_var (samples l (k * n) n) None
    | Some s => (0 <= s)%R /\ is_var (samples l (k * n) n) (Some (s * s)%R)
    end.
(** a variable reduced line by line *)
Definition lines (P : list (option R) -> list (option R) -> Prop) (v w : variable) : Prop :=
  dims w = dims v /\ lead w = lead v /\ Forall2 P (rows v) (rows w).

(** the sample at index [i] of line [k] of a variable *)
Definition sample (v : variable) (k i : nat) : option (option R) :=
  match nth_error (rows v) k with Some r => nth_error r i | None => None end.
(** [s] is the horizontal speed of the velocity [vel]: the root of the sum of squares of its first two components, missing where
    either is; its axes are those of [vel] but for the first *)
Definition speeds (vel s : variable) : Prop :=
  dims s = tl (dims vel) /\ lead s = tl (lead vel) /\ len s = len vel /\ length (rows s) = product (lead s) /\
  forall k i, (k < product (lead s))%nat -> (i < len vel)%nat ->
    exists a b, sample vel k i = Some a /\ sample vel (product (lead s) + k) i = Some b /\
      exists x, sample s k i = Some x /\
      match a, b with
      | Some a, Some b => match x with Some x => (0 <= x)%R /\ (x * x = a * a + b * b)%R | None => False end
      | _, _ => x = None
      end.

(** what can be averaged over [n] samples: the named variables exist and are long enough, and there is a velocity of
    at least two components *)
Definition ready (d : dataset) (n : nat) (names : list string) : Prop :=
  (forall ky, In ky names -> exists v, get (vars d) ky = Some v
      /\ (~ altimeter v -> without_time v \/ exists t, on_time t v /\ (n <= len v)%nat))
  /\ exists vel t c rest, get (vars d) "vel" = Some vel /\ on_time t vel /\ (n <= len vel)%nat /\ lead vel = c :: rest /\ (2 <= c)%nat.
