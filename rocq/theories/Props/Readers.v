(** Properties C73, C76, C79, C80: what the readers derive from the values of a file. *)
From Coq Require Import String QArith Reals List Bool Sorted Lra Lia.
From Verif.Model Require Linalg Angles Stats Reduce Rotate RdiPost.
From Verif.Spec Require Euler Rotate HandleNan.
From Verif.Proofs Require Linalg Reduce RdiPost Declination.
Import ListNotations.

Section Angles.
Import Verif.Model.Linalg Verif.Model.Reduce Verif.Spec.Euler.
Open Scope R_scope.
(** ** C73: halfway on the shorter arc, as an angle between -180 and 180. Missing: the range of headings
    (0 to 360). [d] is the angle from [a] to [b] along the shorter arc. *)
Theorem C73_halfway_partial : forall a b d, -180 < d < 180 -> cong 360 b (a + d) ->
  cong 360 (angle_mean a b) (a + d / 2) /\ -180 < angle_mean a b <= 180.
Proof. intros a b d H C. split; [now apply Proofs.Reduce.halfway|apply Proofs.Reduce.mean_range]. Qed.
Theorem C73_both_variables : forall l0 l1 k, length l1 = length l0 -> (k < length l0)%nat ->
  exists l, reduce_by_average_angle (Some l0) (Some l1) = Some l /\ nth k l 0 = angle_mean (nth k l0 0) (nth k l1 0) /\ length l = length l0.
Proof.
  intros l0 l1 k L Hk. eexists. split; [reflexivity|]. revert l1 k L Hk. induction l0 as [|a l0 IH]; intros [|b l1] [|k] L Hk; try (cbn in *; lia).
  - cbn. split; [reflexivity|]. f_equal. destruct l0 as [|a' l0]; [now destruct l1|]. apply (IH l1 0%nat); cbn in *; lia.
  - cbn in L, Hk. destruct (IH l1 k) as [V E]; [lia|lia|]. cbn. split; [exact V|]. f_equal. exact E.
Qed.
Theorem C73_one_variable : forall l, reduce_by_average_angle (Some l) None = Some l /\ reduce_by_average_angle None (Some l) = Some l.
Proof. intros l. now split. Qed.
(** other sensors read with both sets of beams *)
Theorem C73_average : forall l0 l1 k, length l1 = length l0 -> (k < length l0)%nat ->
  exists l, reduce_by_average (Some l0) (Some l1) = Some l /\ length l = length l0 /\ nth k l 0 = (nth k l0 0 + nth k l1 0) / 2.
Proof. exact Proofs.Reduce.average. Qed.
Theorem C73_average_one : forall l, reduce_by_average (Some l) None = Some l /\ reduce_by_average None (Some l) = Some l.
Proof. intros l. now split. Qed.
Example C73_hyp : angle_mean 170 (-170) = 180.
Proof.
  rewrite (Proofs.Reduce.mean_exact 170 (-170) 20); [field|lra|exists (-1)%Z; lra|lra].
Qed.
(** two equal headings *)
Theorem C73_heading_range_refuted : exists a, 0 <= a < 360 /\ angle_mean a a < 0.
Proof. exists 270. split; [lra|]. assert (C : cong 360 270 (-90 + 0)) by (exists 1%Z; lra).
  assert (C' : cong 360 270 (270 + 0)) by (exists 0%Z; lra).
  destruct (C73_halfway_partial 270 270 0 ltac:(lra) C') as [[k K] B]. assert (k = (-1)%Z); [|subst k; lra].
  assert (A1 : (k < 0)%Z) by (apply lt_IZR; lra). assert (A2 : (-2 < k)%Z) by (apply lt_IZR; lra). lia.
Qed.

(** ** C80 *)
Theorem C80_nortek : forall n cs bd, let r := nortek_range n cs bd in length r = n /\
  (forall k, (k < n)%nat -> nth k r 0 = (bd + cs) + INR k * cs) /\ (forall k, (S k < n)%nat -> nth (S k) r 0 - nth k r 0 = cs) /\
  (0 < cs -> forall j k, (j < k < n)%nat -> nth j r 0 < nth k r 0).
Proof. intros n cs bd. apply (Proofs.Reduce.linear_range n (fun k => (INR k + 1) * cs + bd) (bd + cs) cs). intros. ring. Qed.
Theorem C80_trdi : forall n cs bin1, let r := rdi_range n cs bin1 in length r = n /\
  (forall k, (k < n)%nat -> nth k r 0 = bin1 + INR k * cs) /\ (forall k, (S k < n)%nat -> nth (S k) r 0 - nth k r 0 = cs) /\
  (0 < cs -> forall j k, (j < k < n)%nat -> nth j r 0 < nth k r 0).
Proof. intros n cs bin1. apply (Proofs.Reduce.linear_range n (fun k => bin1 + INR k * cs) bin1 cs). reflexivity. Qed.
(** an AWAC of a known frequency, with the cell size and blanking it reports *)
Theorem C80_awac : forall khz k n bin_length blank, In (khz, k) [(400%Z, 1195 / 10000); (600%Z, 797 / 10000); (1000%Z, 478 / 10000); (2000%Z, 239 / 10000)] ->
  exists cs bd, awac_cells khz n bin_length blank = Some (nortek_range n cs bd, cs, bd) /\
    Rabs (cs - INR bin_length / 256 * k * cos (deg2rad 25)) <= 1 / 200 /\
    Rabs (bd - (INR blank * (229 / 10000) * cos (deg2rad 25) - cs)) <= 1 / 200.
Proof.
  intros khz k n bl b H. apply Proofs.Reduce.awac_ok. repeat (destruct H as [E|H]; [injection E as <- <-; reflexivity|]). destruct H.
Qed.
Example C80_ex : nortek_range 2 (1/2) (1/10) = [6/10; 11/10].
Proof. unfold nortek_range. cbn [seq map INR]. repeat (apply f_equal2; [lra|]). reflexivity. Qed.
End Angles.

Section Gps.
Import Verif.Model.RdiPost.
Open Scope Q_scope.
(** ** C79: one sample for each time, the first one; [idx] are the pings kept. Missing: the order of
    the file when the GPS times are not in order. *)
Theorem C79_first_of_each_time_partial : forall hdw t dvs ts out, remove_gps_duplicates hdw t dvs = (ts, out) ->
  exists idx, length idx = length ts /\ StronglySorted Qlt ts /\
    (forall k, (k < length ts)%nat -> nth_error t (nth k idx 0%nat) = Some (Some (nth k ts 0)) /\
       forall j y, (j < nth k idx 0)%nat -> nth_error t j = Some (Some y) -> ~ y == nth k ts 0) /\
    (forall j y, nth_error t j = Some (Some y) -> exists k, (k < length ts)%nat /\ nth k ts 0 == y) /\
    (forall nm v, In (nm, v) (dvs ++ [("hdwtime_gps"%string, map Some hdw)]) ->
       HandleNan.mentions "gps" nm \/ HandleNan.mentions "nmea" nm -> In (nm, map (fun i => nth i v None) idx) out) /\
    (forall nm v, In (nm, v) dvs -> ~ HandleNan.mentions "gps" nm -> ~ HandleNan.mentions "nmea" nm -> In (nm, v) out) /\
    ((forall i j x y, (i < j)%nat -> nth_error t i = Some (Some x) -> nth_error t j = Some (Some y) -> x <= y) -> StronglySorted lt idx).
Proof. exact Proofs.RdiPost.dedup_ok. Qed.
Example C79_hyp : remove_gps_duplicates [10; 20; 30; 40; 50] [Some 5; Some 5; None; Some 7; Some 7]
    [("latitude_gps"%string, [Some 1; Some 2; Some 3; Some 4; Some 6]); ("temp"%string, [Some 8; Some 8; Some 8; Some 8; Some 8])] =
  ([5; 7], [("latitude_gps"%string, [Some 1; Some 4]); ("temp"%string, [Some 8; Some 8; Some 8; Some 8; Some 8]); ("hdwtime_gps"%string, [Some 10; Some 40])]).
Proof. reflexivity. Qed.
Example C79_names : HandleNan.mentions "gps" "latitude_gps" /\ ~ HandleNan.mentions "gps" "temp".
Proof.
  split; [exists "latitude_"%string, ""%string; reflexivity|]. intros H. apply (Proofs.RdiPost.has_sub_spec "gps" "temp" ltac:(discriminate)) in H. discriminate H.
Qed.
(** times out of order are sorted, and the pings with them *)
Theorem C79_order_refuted : exists hdw t ts out, remove_gps_duplicates hdw t [] = (ts, out) /\
  hdw = [10; 20] /\ In ("hdwtime_gps"%string, [Some 20; Some 10]) out.
Proof. exists [10; 20], [Some 7; Some 5]. do 2 eexists. split; [reflexivity|]. split; [reflexivity|]. now left. Qed.
End Gps.

Section Declination.
Import Verif.Model.Linalg Verif.Model.Rotate Verif.Model.RdiPost Verif.Spec.Rotate.
Open Scope R_scope.
(** ** C76: right when the file has no magnetic variation, or the userdata no declination *)
Theorem C76_no_variation_partial : forall fam d a nm k c x, admissible fam d -> NoDup (rotate_vars d) -> coord_sys d = "earth"%string ->
  declination d = Some a -> In nm (rotate_vars d) -> value d nm k c = Some x ->
  exists d', set_rdi_declination 0 d = Ok d' /\ declination d' = Some a /\ value d' nm k c = Some (clockwise a x).
Proof. exact Proofs.RdiPost.no_variation_values. Qed.
Theorem C76_variation_only_partial : forall magvar d, declination d = None -> magvar <> 0 ->
  set_rdi_declination magvar d = Ok (set_decl d (Some magvar)).
Proof. exact Proofs.RdiPost.variation_only. Qed.
(** with both nothing is rotated, yet the declination recorded is that of the userdata *)
Theorem C76_both_given : forall fam d a magvar, admissible fam d -> NoDup (rotate_vars d) -> frame_ok d (coord_sys d) ->
  declination d = Some a -> magvar <> 0 -> set_rdi_declination magvar d = Ok d.
Proof. exact Proofs.RdiPost.both_given. Qed.
Definition earth_ex : ds :=
  Ds "teledyne rdi workhorse" "workhorse" "earth" ["E";"N";"U";"err"]%string None
     ["1";"2";"3";"4"]%string "down" [[1;0;0;0];[0;1;0;0];[0;0;1;0];[0;0;0;2]] [[[0;0-1;0];[1;0;0];[0;0;1]]] None None false
     None (Some 100) ["vel"]%string [("vel"%string, Var 4 [[[1;0;3;4]]])].
Example earth_ex_admissible : admissible Rdi earth_ex.
Proof.
  constructor; try reflexivity.
  - repeat split.
  - simpl; tauto.
  - left; reflexivity.
  - exists 4%nat. split; [tauto|]. split; [split; [reflexivity|repeat constructor]|]. cbn. unfold sgn. cbn. lra.
  - repeat (apply Forall_cons; [apply Proofs.Linalg.orth_of_eqs; repeat split; ring|]); apply Forall_nil.
  - discriminate.
  - repeat constructor; simpl; intuition discriminate.
  - intros nm [<-|[]]; eexists; (split; [reflexivity|]); (split; [split; [reflexivity|repeat constructor]|]); simpl; lia.
  - discriminate.
Qed.
(** file with a variation of 10 degrees, declination 100: the velocity should turn by 90 degrees *)
Theorem C76_both_refuted : exists d a magvar d' x, admissible Rdi d /\ coord_sys d = "earth"%string /\ declination d = Some a /\
  set_rdi_declination magvar d = Ok d' /\ value d "vel" 0 0 = Some x /\ declination d' = Some a /\
  value d' "vel" 0 0 <> Some (clockwise (a - magvar) x).
Proof.
  exists earth_ex, 100, 10, earth_ex, [1; 0; 3; 4]. split; [exact earth_ex_admissible|]. split; [reflexivity|]. split; [reflexivity|].
  split. { apply (C76_both_given Rdi earth_ex 100 10 earth_ex_admissible); [repeat constructor; simpl; tauto|split; [simpl; tauto|discriminate]|reflexivity|lra]. }
  split; [reflexivity|]. split; [reflexivity|]. intros E. cbn in E. replace (100 - 10) with 90 in E by lra. injection E as E _.
  replace (deg2rad 90) with (PI / 2) in E by (unfold deg2rad; field). rewrite cos_PI2, sin_PI2 in E. lra.
Qed.
End Declination.

(** All the theorems of this file, for one listing of axioms. *)
Definition all_theorems :=
  (@C73_halfway_partial,
   @C73_both_variables,
   @C73_one_variable,
   @C73_average,
   @C73_average_one,
   @C73_heading_range_refuted,
   @C80_nortek,
   @C80_trdi,
   @C80_awac,
   @C79_first_of_each_time_partial,
   @C79_order_refuted,
   @C76_no_variation_partial,
   @C76_variation_only_partial,
   @C76_both_given,
   @C76_both_refuted).
Print Assumptions all_theorems.
