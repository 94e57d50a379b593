(** Vector files without an IMU, and what the velocities in earth coordinates should be. *)
From Coq Require Import String.
From Coq Require Import ZArith QArith Qreals Reals List Bool.
From Verif.Model Require Import Nortek NortekFile ReadVector.
From Verif.Spec Require Import Nortek NortekGuess NortekData ReadVector NortekEarth.
From Verif.Spec Require Linalg.
Import ListNotations.
Open Scope R_scope.

(** the instrument points up, or down, the whole time: bit 0 of the status in all system data *)
Definition mounting (bs : list blk) (down : bool) : Prop :=
  forall b, In b bs -> is_sys b = true -> exists s, nth_error (body b) 21 = Some s /\ Z.testbit s 0 = down.
(** samples all the time, or in bursts; [clock] are the times of the samples *)
Definition sampled (g : vec_cfg) (bs : list blk) (clock : nat -> Q) : Prop :=
  (g_burst g = 0%nat /\ exists ab, clock_of bs ab /\ three_times bs /\ forall k, clock k = clock_at ab k) \/
  ((0 < g_burst g)%nat /\ exists bss clocks, bs = concat bss /\ bss <> [] /\ Forall (whole_burst (g_burst g)) bss /\
     Forall2 clock_of bss clocks /\ Forall three_times bss /\ forall k, clock k = clock_in_bursts (g_burst g) clocks k).
Record plain_vector (r : reader) (g : vec_cfg) (header : bytes) (bs : list blk) (tail : bytes) (clock : nat -> Q) (down : bool) : Prop := {
  pv_file : vector_file r g bs tail;
  pv_all : rpings r = None;
  pv_regular : regular (rendian r) (Z.to_nat (Qround.Qfloor (g_fs g))) header bs tail;
  pv_imu : no_imu bs;
  pv_sampled : sampled g bs clock;
  pv_matrix : Linalg.det3 (reals (g_beam2inst g)) <> 0;
  pv_mounting : mounting bs down }.

(** the attitude (tenths of a degree) in the last system data after [k] samples *)
Definition attitude_at (e : endian) (bs : list blk) (k : nat) (h p r : Z) : Prop :=
  exists pre b post, bs = pre ++ b :: post /\ is_sys b = true /\ length (samples pre) = k /\ none_before_velocity is_sys post = true /\
    signed_at e (body b) 12 h /\ signed_at e (body b) 14 p /\ signed_at e (body b) 16 r.
(** sample [k] has these velocities *)
Definition sample_at (e : endian) (bs : list blk) (k : nat) (v : list Z) : Prop :=
  exists b x y z, nth_error (samples bs) k = Some b /\ v = [x; y; z] /\ signed_at e b 8 x /\ signed_at e b 10 y /\ signed_at e b 12 z.
(** in steps of 1 or 0.1 mm/s *)
Definition scaled (g : vec_cfg) (v : list Z) : list R := map (fun x => Q2R (g_scale g) * (IZR x / 1000)) v.
(** the part of the time from [i] to [j] that has passed at [k], and the angle there *)
Definition passed (clock : nat -> Q) (i j k : nat) : R := Q2R (clock k - clock i) / Q2R (clock j - clock i).
Definition between (w : R) (a b : Z) : R := tenths a + w * (tenths b - tenths a).
