(** The dates of Model/RdiBlocks.v and the calendar of Spec/SigData.v *)
From Coq Require Import String.
From Coq Require Import ZArith List Bool Lia.
From Verif.Model Require Import Nortek RdiBlocks.
From Verif.Spec Require Import SigData.
Import ListNotations.
Open Scope Z_scope.

Lemma total_app a b : total (a ++ b) = total a + total b.
Proof. unfold total. induction a as [|x a IH]; cbn [app fold_right]; lia. Qed.
Lemma dbm_next y m : 1 <= m -> days_before_month y (m + 1) = days_before_month y m + days_in_month y m.
Proof.
  intros H. unfold days_before_month. replace (Z.to_nat (m + 1 - 1)) with (S (Z.to_nat (m - 1))) by lia.
  rewrite seq_S, map_app, total_app. f_equal. cbn [map]. replace (Z.of_nat (1 + Z.to_nat (m - 1))) with m by lia. unfold total. cbn [fold_right]. lia.
Qed.
Lemma div_pred y n : 0 < n -> y / n = (y - 1) / n + (if y mod n =? 0 then 1 else 0).
Proof.
  intros H. pose proof (Z.div_mod y n ltac:(lia)) as E. pose proof (Z.mod_pos_bound y n H) as B.
  destruct (Z.eqb_spec (y mod n) 0) as [Z0|Z0].
  - replace (y - 1) with ((n - 1) + (y / n - 1) * n) by lia. rewrite Z.div_add by lia. rewrite (Z.div_small (n - 1) n) by lia. lia.
  - replace (y - 1) with ((y mod n - 1) + (y / n) * n) by lia. rewrite Z.div_add by lia. rewrite (Z.div_small (y mod n - 1) n) by lia. lia.
Qed.
Lemma dby_next y : days_before_year (y + 1) = days_before_year y + 365 + (if leap y then 1 else 0).
Proof.
  unfold days_before_year. replace (y + 1 - 1) with y by lia.
  rewrite (div_pred y 4), (div_pred y 100), (div_pred y 400) by lia. unfold leap.
  assert (A : y mod 100 = 0 -> y mod 4 = 0). { intros H. apply Z.mod_divide in H; [|lia]. destruct H as [k ->]. replace (k * 100) with (k * 25 * 4) by lia. apply Z.mod_mul. lia. }
  assert (B : y mod 400 = 0 -> y mod 100 = 0). { intros H. apply Z.mod_divide in H; [|lia]. destruct H as [k ->]. replace (k * 400) with (k * 4 * 100) by lia. apply Z.mod_mul. lia. }
  destruct (Z.eqb_spec (y mod 4) 0), (Z.eqb_spec (y mod 100) 0), (Z.eqb_spec (y mod 400) 0); cbn [andb orb negb]; try lia; exfalso; auto.
Qed.
Lemma dbm_year y : days_before_month y 12 + 31 = 365 + (if leap y then 1 else 0).
Proof. unfold days_before_month, days_in_month. cbn. destruct (leap y); reflexivity. Qed.

(** a date, of any year from 1970 on *)
Definition okd (d : date) : Prop :=
  1970 <= year d /\ 1 <= month d <= 12 /\ 1 <= day d <= days_in_month (year d) (month d) /\ 0 <= hour d < 24 /\ 0 <= minute d < 60 /\ 0 <= second d < 60.
Lemma dim_pos y m : 28 <= days_in_month y m <= 31.
Proof. unfold days_in_month. destruct (m =? 2), (leap y), ((m =? 4) || (m =? 6) || (m =? 9) || (m =? 11)); lia. Qed.
Lemma valid_okd d : valid_date d = true -> 1970 <= year d -> okd d.
Proof.
  unfold valid_date, okd. rewrite !andb_true_iff, !Z.leb_le, !Z.ltb_lt. lia.
Qed.
Lemma okd_next d : okd d -> okd (next_second d).
Proof.
  destruct d as [y mo dy h mi s]. unfold okd, next_second. cbn [year month day hour minute second]. intros H.
  destruct (Z.ltb_spec s 59); [cbn; lia|]. destruct (Z.ltb_spec mi 59); [cbn; lia|]. destruct (Z.ltb_spec h 23); [cbn; lia|].
  destruct (Z.ltb_spec dy (days_in_month y mo)); [cbn; lia|]. destruct (Z.ltb_spec mo 12); cbn [year month day hour minute second].
  - pose proof (dim_pos y (mo + 1)). lia.
  - pose proof (dim_pos (y + 1) 1). lia.
Qed.
Lemma epoch_next d : okd d -> epoch (next_second d) = epoch d + 1.
Proof.
  destruct d as [y mo dy h mi s]. unfold okd, next_second, epoch, toordinal. cbn [year month day hour minute second]. intros H.
  destruct (Z.ltb_spec s 59); [cbn [year month day hour minute second]; lia|].
  destruct (Z.ltb_spec mi 59); [cbn [year month day hour minute second]; lia|].
  destruct (Z.ltb_spec h 23); [cbn [year month day hour minute second]; lia|].
  destruct (Z.ltb_spec dy (days_in_month y mo)); [cbn [year month day hour minute second]; lia|].
  destruct (Z.ltb_spec mo 12); cbn [year month day hour minute second].
  - rewrite dbm_next by lia. lia.
  - assert (mo = 12) by lia. subst mo. pose proof (dbm_year y). rewrite dby_next. change (days_before_month (y + 1) 1) with 0.
    change (days_in_month y 12) with 31 in *. lia.
Qed.
Lemma elapsed_okd d n : elapsed d n -> okd d /\ epoch d = n.
Proof.
  induction 1 as [|d n H [IH1 IH2]].
  - split; [unfold okd; cbn; lia|vm_compute; reflexivity].
  - split; [exact (okd_next d IH1)|]. rewrite (epoch_next d IH1). lia.
Qed.
(** every later date has one before it *)
Lemma okd_prev d : okd d -> d = Date 1970 1 1 0 0 0 \/ exists d', okd d' /\ next_second d' = d.
Proof.
  destruct d as [y mo dy h mi s]. unfold okd. cbn [year month day hour minute second]. intros H.
  pose proof (dim_pos y mo) as D0.
  destruct (Z.ltb_spec 0 s).
  { right. exists (Date y mo dy h mi (s - 1)). cbn [year month day hour minute second next_second]. split; [lia|].
    rewrite (proj2 (Z.ltb_lt _ _)) by lia. f_equal. lia. }
  assert (s = 0) by lia. subst s. destruct (Z.ltb_spec 0 mi).
  { right. exists (Date y mo dy h (mi - 1) 59). cbn [year month day hour minute second next_second]. split; [lia|].
    rewrite (proj2 (Z.ltb_ge 59 59)) by lia. rewrite (proj2 (Z.ltb_lt _ _)) by lia. f_equal. lia. }
  assert (mi = 0) by lia. subst mi. destruct (Z.ltb_spec 0 h).
  { right. exists (Date y mo dy (h - 1) 59 59). cbn [year month day hour minute second next_second]. split; [lia|].
    rewrite (proj2 (Z.ltb_ge 59 59)) by lia. rewrite (proj2 (Z.ltb_lt _ _)) by lia. f_equal. lia. }
  assert (h = 0) by lia. subst h. destruct (Z.ltb_spec 1 dy).
  { right. exists (Date y mo (dy - 1) 23 59 59). cbn [year month day hour minute second next_second]. split; [lia|].
    rewrite (proj2 (Z.ltb_ge 59 59)), (proj2 (Z.ltb_ge 23 23)) by lia. rewrite (proj2 (Z.ltb_lt _ _)) by lia. f_equal. lia. }
  assert (dy = 1) by lia. subst dy. destruct (Z.ltb_spec 1 mo).
  { right. exists (Date y (mo - 1) (days_in_month y (mo - 1)) 23 59 59). cbn [year month day hour minute second next_second]. pose proof (dim_pos y (mo - 1)).
    split; [lia|]. rewrite (proj2 (Z.ltb_ge 59 59)), (proj2 (Z.ltb_ge 23 23)) by lia. rewrite Z.ltb_irrefl. rewrite (proj2 (Z.ltb_lt _ _)) by lia. f_equal. lia. }
  assert (mo = 1) by lia. subst mo. destruct (Z.ltb_spec 1970 y).
  { right. exists (Date (y - 1) 12 31 23 59 59). cbn [year month day hour minute second next_second]. change (days_in_month (y - 1) 12) with 31.
    split; [lia|]. rewrite (proj2 (Z.ltb_ge 59 59)), (proj2 (Z.ltb_ge 23 23)), (proj2 (Z.ltb_ge 31 31)), (proj2 (Z.ltb_ge 12 12)) by lia. f_equal. lia. }
  left. assert (y = 1970) by lia. subst y. reflexivity.
Qed.
Lemma dby_mono y k : 0 <= k -> days_before_year (y + k) >= days_before_year y + 365 * k.
Proof.
  intros Hk. revert k Hk. apply natlike_ind; [rewrite Z.add_0_r; lia|]. intros k Hk IH. replace (y + Z.succ k) with (y + k + 1) by lia.
  rewrite dby_next. destruct (leap (y + k)); lia.
Qed.
Lemma dbm_nonneg y m : 0 <= days_before_month y m.
Proof.
  unfold days_before_month. generalize (seq 1 (Z.to_nat (m - 1))). intros l. induction l as [|x l IH]; [unfold total; cbn; lia|].
  change (map (fun k => days_in_month y (Z.of_nat k)) (x :: l)) with ([days_in_month y (Z.of_nat x)] ++ map (fun k => days_in_month y (Z.of_nat k)) l).
  rewrite total_app. pose proof (dim_pos y (Z.of_nat x)). unfold total at 1. cbn [fold_right]. lia.
Qed.
Lemma epoch_nonneg d : okd d -> 0 <= epoch d.
Proof.
  destruct d as [y mo dy h mi s]. unfold okd, epoch, toordinal. cbn [year month day hour minute second]. intros H.
  pose proof (dby_mono 1970 (y - 1970) ltac:(lia)) as M. replace (1970 + (y - 1970)) with y in M by lia.
  pose proof (dbm_nonneg y mo). change (days_before_year 1970) with 719162 in M. lia.
Qed.
Lemma epoch_elapsed d : okd d -> elapsed d (epoch d).
Proof.
  intros H. remember (Z.to_nat (epoch d)) as n eqn:E. revert d H E. induction n as [|n IH]; intros d H E.
  - destruct (okd_prev d H) as [->|(d' & O & N)]; [exact elapsed_start|]. subst d. rewrite (epoch_next d' O) in *.
    pose proof (epoch_nonneg d' O). lia.
  - destruct (okd_prev d H) as [->|(d' & O & N)]; [exact elapsed_start|]. subst d. rewrite (epoch_next d' O) in *. apply elapsed_next.
    apply IH; [exact O|]. pose proof (epoch_nonneg d' O). lia.
Qed.
