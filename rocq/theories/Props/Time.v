(** Properties C18-C21: clock conversions. *)
From Coq Require Import ZArith QArith Qround Lia.
From Verif.Model Require Import Time.
From Verif.Spec Require Import Time.
From Verif.Proofs Require Time.
Open Scope Z_scope.

(** C18. Full claim: [forall x, same_instant (epoch2dt64 x) x]. It holds from 1970 on and
    for whole seconds before; it is false for fractional times before 1970. *)
Theorem C18_epoch2dt64_same_instant_partial : forall x : Q,
  (0 <= x)%Q \/ whole x -> same_instant (epoch2dt64 x) x.
Proof. exact Time.epoch2dt64_same_instant. Qed.
Print Assumptions C18_epoch2dt64_same_instant_partial.
Example C18_hyp : ((0 <= 1600000000 + (1 # 3)) \/ whole (1600000000 + (1 # 3)))%Q
  /\ epoch2dt64 (1600000000 + (1 # 3)) = 1600000000333333333.
Proof. split; [left; discriminate | reflexivity]. Qed.

Theorem C18_epoch2dt64_refuted : exists x : Q, ~ same_instant (epoch2dt64 x) x.
Proof. exact Time.epoch2dt64_refuted. Qed.
Print Assumptions C18_epoch2dt64_refuted.

(** The exact size of the error: one second late for every fractional time before 1970. *)
Theorem C18_epoch2dt64_one_second_late : forall x : Q,
  (x < 0)%Q -> ~ whole x -> same_instant (epoch2dt64 x - 1000000000) x.
Proof. exact Time.epoch2dt64_before_1970. Qed.
Print Assumptions C18_epoch2dt64_one_second_late.
Example C18_hyp2 : (- (1 # 2) < 0)%Q /\ ~ whole (- (1 # 2)).
Proof. split; [reflexivity|]. intros [z Hz]. unfold Qeq in Hz; simpl in Hz; lia. Qed.

(** C19. *)
Theorem C19_epoch2dt64_dt642epoch : forall n : Z, 0 <= n -> epoch2dt64 (dt642epoch n) = n.
Proof. exact Time.epoch2dt64_dt642epoch. Qed.
Print Assumptions C19_epoch2dt64_dt642epoch.
Example C19_hyp : 0 <= 1600000000123456789 /\
  epoch2dt64 (dt642epoch 1600000000123456789) = 1600000000123456789.
Proof. split; [discriminate|reflexivity]. Qed.

Theorem C19_dt642epoch_epoch2dt64 : forall x : Q, (0 <= x)%Q ->
  (dt642epoch (epoch2dt64 x) <= x)%Q /\ (x < dt642epoch (epoch2dt64 x) + (1 # 1000000000))%Q.
Proof. exact Time.dt642epoch_epoch2dt64. Qed.
Print Assumptions C19_dt642epoch_epoch2dt64.
Example C19_hyp_x : (0 <= 7 # 3)%Q. Proof. discriminate. Qed.

Theorem C19_epoch2dt64_monotone : forall x y : Q,
  (0 <= x)%Q -> (x <= y)%Q -> epoch2dt64 x <= epoch2dt64 y.
Proof. exact Time.epoch2dt64_mono. Qed.
Print Assumptions C19_epoch2dt64_monotone.
Example C19_hyp2 : (0 <= 1 # 3)%Q /\ (1 # 3 <= 5 # 3)%Q. Proof. split; discriminate. Qed.

Theorem C19_dt642epoch_monotone : forall n m : Z, n <= m -> (dt642epoch n <= dt642epoch m)%Q.
Proof. exact Time.dt642epoch_mono. Qed.
Print Assumptions C19_dt642epoch_monotone.
Example C19_hyp3 : -5 <= 7. Proof. discriminate. Qed.

Theorem C19_date_roundtrip : forall t : Z, epoch2date (date2epoch t) 0 = t.
Proof. exact Time.date2epoch_epoch2date. Qed.
Print Assumptions C19_date_roundtrip.

Theorem C19_date_offset : forall ep h, epoch2date ep h = epoch2date ep 0 + h * 3600 * 1000000.
Proof. exact Time.epoch2date_offset. Qed.
Print Assumptions C19_date_offset.

(** C20. Times are microseconds since ordinal day 0; [- 366 * us_per_day <= t] covers all of
    Python's datetime range (which starts at ordinal 1). *)
Theorem C20_matlab_roundtrip : forall t : Z, - 366 * us_per_day <= t ->
  nearest_hundred t (matlab2date (date2matlab t)).
Proof. exact Time.matlab_roundtrip. Qed.
Print Assumptions C20_matlab_roundtrip.
(** 2020-09-13 23:59:59.999951 rounds up into the next day *)
Example C20_hyp : - 366 * us_per_day <= 737681 * us_per_day - 49
  /\ matlab2date (date2matlab (737681 * us_per_day - 49)) = 737681 * us_per_day.
Proof. split; [discriminate | vm_compute; reflexivity]. Qed.

Theorem C20_matlab_strictly_increasing : forall a b : Z, a < b ->
  (date2matlab a < date2matlab b)%Q.
Proof. exact Time.date2matlab_mono. Qed.
Print Assumptions C20_matlab_strictly_increasing.
Example C20_hyp2 : 86399999999 < 86400000000. Proof. reflexivity. Qed.

Theorem C20_matlab_one_per_day : forall a : Z, (date2matlab (a + us_per_day) == date2matlab a + 1)%Q.
Proof. exact Time.date2matlab_day. Qed.
Print Assumptions C20_matlab_one_per_day.

(** C21. *)
Theorem C21_fullyear_2digit : forall y : Z, 0 <= y <= 99 ->
  (y < 90 -> fullyear y = 2000 + y) /\ (90 <= y -> fullyear y = 1900 + y).
Proof. exact Time.fullyear_2digit. Qed.
Print Assumptions C21_fullyear_2digit.
Example C21_hyp : 0 <= 89 <= 99 /\ fullyear 89 = 2089 /\ fullyear 90 = 1990.
Proof. repeat split; discriminate. Qed.

Theorem C21_fullyear_injective : forall a b : Z,
  0 <= a <= 99 -> 0 <= b <= 99 -> fullyear a = fullyear b -> a = b.
Proof. exact Time.fullyear_inj. Qed.
Print Assumptions C21_fullyear_injective.
Example C21_hyp2 : 0 <= 89 <= 99 /\ 0 <= 90 <= 99. Proof. lia. Qed.

Theorem C21_fullyear_four_digit : forall y : Z, 100 < y -> fullyear y = y.
Proof. exact Time.fullyear_full. Qed.
Print Assumptions C21_fullyear_four_digit.
Example C21_hyp3 : 100 < 2021. Proof. reflexivity. Qed.
