(** Properties C158, C159: clock conversions in double precision. Dates are microseconds since 1970, datetime64 values
    nanoseconds since 1970, MATLAB dates microseconds since day 0 of the calendar. *)
From Coq Require Import ZArith QArith Lia.
From Verif.Model Require Import Time BinSpec FloatTime.
From Verif.Spec Require Import Time.
From Verif.Proofs Require FloatTime.
Open Scope Z_scope.

(** C158. The full claim, "conversions give back the instant they were given", holds for dates up to 2^33 seconds from
    1970 (1697 to 2242) ... *)
Theorem C158_dates_partial : forall t : Z, Z.abs t <= 2 ^ 33 * 1000000 -> epoch2date_64 (date2epoch_64 t) = t.
Proof. exact FloatTime.date_roundtrip. Qed.
Example C158_dates_case : Z.abs 1600000000123457 <= 2 ^ 33 * 1000000 /\ ~ (date2epoch_64 1600000000123457 == date2epoch 1600000000123457)%Q.
Proof. split; [discriminate|]. unfold Qeq. vm_compute. discriminate. Qed.
(** ... but not for all dates Python has *)
Theorem C158_dates_refuted : exists t : Z, 0 <= t /\ t < 253402300800 * 1000000 /\ epoch2date_64 (date2epoch_64 t) <> t.
Proof. exists 21598398758661085. split; [discriminate|]. split; [reflexivity|]. vm_compute. discriminate. Qed.

(** microseconds of a datetime64 are shown as they are, up to 2106 *)
Theorem C158_shown_partial : forall t : Z, 0 <= t <= 2 ^ 32 * 1000000 -> dt642date_64 (t * 1000) = t.
Proof. exact FloatTime.displayed. Qed.
Example C158_shown_case : 0 <= 1600000000123457 <= 2 ^ 32 * 1000000. Proof. split; discriminate. Qed.

(** a clock reading that goes through the dataset is within 120 ns of the reading, and is shown as it was read, up to
    2038 ... *)
Theorem C158_dataset_partial : forall t : Z, 0 <= t <= 2 ^ 31 * 1000000 ->
  Z.abs (epoch2dt64_64 (date2epoch_64 t) - t * 1000) <= 120 /\ dt642date_64 (epoch2dt64_64 (date2epoch_64 t)) = t.
Proof. intros t H. split; [now apply FloatTime.recorded|now apply FloatTime.dataset]. Qed.
Example C158_dataset_case : 0 <= 1600000000123457 <= 2 ^ 31 * 1000000 /\ epoch2dt64_64 (date2epoch_64 1600000000123457) = 1600000000123456954.
Proof. split; [split; discriminate|vm_compute; reflexivity]. Qed.
(** ... but not later: this reading is of 2047 *)
Theorem C158_dataset_refuted : exists t : Z, 0 <= t <= 2 ^ 32 * 1000000 /\ dt642date_64 (epoch2dt64_64 (date2epoch_64 t)) <> t.
Proof. exists 2454815403190523. split; [split; discriminate|]. vm_compute. discriminate. Qed.

(** nanoseconds come back within 248 ns up to 2038 and within a microsecond up to 2242 ... *)
Theorem C158_nanoseconds_partial : forall n : Z, 0 <= n <= 2 ^ 33 * 1000000000 ->
  Z.abs (epoch2dt64_64 (dt642epoch_64 n) - n) < 1000 /\
  (n <= 2 ^ 31 * 1000000000 -> Z.abs (epoch2dt64_64 (dt642epoch_64 n) - n) <= 248).
Proof. intros n H. split; [pose proof (FloatTime.ns_roundtrip_33 n H); lia|]. intros L. apply FloatTime.ns_roundtrip_31. lia. Qed.
(** ... but not exactly *)
Theorem C158_nanoseconds_refuted : exists n : Z, 0 <= n <= 2 ^ 31 * 1000000000 /\ epoch2dt64_64 (dt642epoch_64 n) <> n.
Proof. exists 1600000000123456789. split; [split; discriminate|]. vm_compute. discriminate. Qed.

(** whole seconds are exact, for every instant from 1970 on *)
Theorem C158_seconds : forall s : Z, 0 <= s -> epoch2dt64_64 (inject_Z s) = s * 1000000000.
Proof. exact FloatTime.epoch2dt64_whole. Qed.

(** no conversion reverses the order of two instants *)
Theorem C158_order : (forall x y : Q, (0 <= x)%Q -> (x <= y)%Q -> epoch2dt64_64 x <= epoch2dt64_64 y) /\
  (forall n m : Z, n <= m -> (dt642epoch_64 n <= dt642epoch_64 m)%Q) /\
  (forall n m : Z, n <= m -> (date2epoch_64 n <= date2epoch_64 m)%Q).
Proof. split; [exact FloatTime.epoch2dt64_monotone|]. split; [exact FloatTime.dt642epoch_monotone|exact FloatTime.date2epoch_monotone]. Qed.
Example C158_order_case : (0 <= 1 # 3)%Q /\ (1 # 3 <= 5 # 3)%Q. Proof. split; discriminate. Qed.

(** C159. From the year 1 to 2869 multiples of 100 microseconds come back exactly, every date within 60 microseconds
    ... *)
Theorem C159_matlab_partial : forall t : Z, 0 <= t + 366 * us_per_day < (2 ^ 20 - 1) * us_per_day ->
  ((100 | t) -> matlab2date_64 (date2matlab_64 t) = t) /\ Z.abs (matlab2date_64 (date2matlab_64 t) - t) <= 60.
Proof. intros t H. destruct (FloatTime.matlab_64 t H). now split. Qed.
Example C159_case : 0 <= 63943427519707700 + 366 * us_per_day < (2 ^ 20 - 1) * us_per_day /\ (100 | 63943427519707700) /\
  ~ (date2matlab_64 63943427519707700 == date2matlab 63943427519707700)%Q.
Proof. split; [split; [discriminate|reflexivity]|]. split; [exists 639434275197077; reflexivity|]. unfold Qeq. vm_compute. discriminate. Qed.
(** ... but not always at the nearest multiple of 100 *)
Theorem C159_nearest_refuted : exists t : Z, 0 <= t + 366 * us_per_day < (2 ^ 20 - 1) * us_per_day /\
  ~ nearest_hundred t (matlab2date_64 (date2matlab_64 t)).
Proof.
  exists 63943427519707755. split; [split; [discriminate|reflexivity]|].
  replace (matlab2date_64 (date2matlab_64 63943427519707755)) with 63943427519707700 by (vm_compute; reflexivity).
  intros (q & E & L & _). vm_compute in L. apply L. reflexivity.
Qed.

(** All the theorems of this file, for one listing of axioms. *)
Definition all_theorems :=
  (@C158_dates_partial,
   @C158_dates_refuted,
   @C158_shown_partial,
   @C158_dataset_partial,
   @C158_dataset_refuted,
   @C158_nanoseconds_partial,
   @C158_nanoseconds_refuted,
   @C158_seconds,
   @C158_order,
   @C159_matlab_partial,
   @C159_nearest_refuted).
Print Assumptions all_theorems.
