(** Properties C130-C140: the data of Signature instruments. *)
From Coq Require Import String.
From Coq Require Import ZArith QArith Reals List Bool Lra Lia.
From Verif.Model Require Nortek Gaps Reduce.
From Verif.Model Require Import Ad2cp Ad2cpIndex SigData.
From Verif.Spec Require Import SigData.
From Verif.Proofs Require SigData Calendar.
Import ListNotations.
Open Scope Z_scope.

(** ** Examples: a file with two bursts, one cell and four beams, with the orientation sensor *)
Definition hdr (config y : Z) : list (list Z) :=
  [[3]; [0]; [config]; [7]; [y]; [4]; [13]; [12]; [30]; [15]; [5000]; [15000]; [1234]; [10000]; [9000]; [-100]; [200]; [18433]; [1000]; [50]; [33]; [170]; [120];
   [100; 200; -300]; [0; 0; 16384]; [1000]; [0]; [60]; [-3]; [-2]; [0]; [2500]; [0]; [0]; [134217728]; [1]].
Definition om : list Z := [0; 3212836864; 0; 1065353216; 0; 0; 0; 0; 1065353216].
Definition burst (y : Z) : list (list Z) := hdr 4128 y ++ [[100; -200; 300; 400]; om; [1065353216; 0; 0; 0]; [0; 0; 1065353216]].
Definition layout_of (id config : Z) : layout := match reader_for id config 18433 with Some l => l | None => [] end.
Definition fh0 : filehead := Filehead 8 600 [] [].
Definition file1 := [(21, layout_of 21 4128, [Some (burst 120); Some (burst 121)])].
Definition file_avg := [(22, layout_of 22 4128, [Some (burst 120); Some (burst 121)])].
Definition file_dual := [(21, layout_of 21 4128, [Some (burst 120); None; Some (burst 121)]); (22, layout_of 22 4128, [None; Some (burst 120); None])].
Definition readable (x : option reduced) : Prop := exists r, x = Some r.
Lemma readable_is x : match x with Some _ => true | None => false end = true -> readable x.
Proof. destruct x as [r|]; [exists r; reflexivity|discriminate]. Qed.
Example file1_readable : readable (signature fh0 false false file1). Proof. apply readable_is. reflexivity. Qed.
Example file_avg_readable : readable (signature fh0 false false file_avg). Proof. apply readable_is. reflexivity. Qed.
Example file_dual_readable : readable (signature fh0 true false file_dual). Proof. apply readable_is. reflexivity. Qed.
Lemma at_ping l pings k nm raws vals i f : nth_error pings k = Some (Some vals) -> nth_error l i = Some f -> fname f = nm -> nth_error vals i = Some raws -> recorded l pings k nm raws.
Proof. intros A B C D. exists vals, i, f. tauto. Qed.
Lemma one_file l pings id : NoDup (ids [(id, l, pings)]). Proof. repeat constructor. intros []. Qed.

(** ** C130: quantities in their units *)
(** All fields with a resolution, in the dataset; missing: the temperature of the water below zero (refuted below), the
    magnetometer of bottom-track records (C132); the mean with the fifth beam is below. *)
Theorem C130_quantities_partial : forall fh strings recs r id tag config beams l pings k nm raws res qs,
  signature fh false strings recs = Some r -> NoDup (ids recs) -> In (id, l, pings) recs ->
  In (id, tag) profile_tags -> reader_for id config beams = Some l -> In nm carried \/ (In nm sensors /\ ~ In 24 (ids recs)) ->
  recorded l pings k nm raws -> get resolution nm = Some res -> ~ (id = 23 /\ nm = "mag"%string) -> Forall2 (nearest res) qs raws ->
  exists col, shows (data_vars r) (nm ++ tag) k col /\ Forall2 (within (res / 2)) qs col.
Proof. exact SigData.single_quantities. Qed.
(** velocities have the resolution that their ping gives *)
Theorem C130_velocity : forall fh strings recs r id tag config beams l pings k raws s qs,
  signature fh false strings recs = Some r -> NoDup (ids recs) -> In (id, l, pings) recs ->
  In (id, tag) profile_tags -> reader_for id config beams = Some l -> recorded l pings k "vel" raws -> recorded l pings k "vel_scale" [s] ->
  Forall2 (nearest (powerRZ 10 s)) qs raws ->
  exists col, shows (data_vars r) ("vel" ++ tag) k col /\ Forall2 (within (powerRZ 10 s / 2)) qs col.
Proof. exact SigData.single_velocity. Qed.
Theorem C130_pressure_sensor : forall fh strings recs r id tag config beams l pings k n,
  signature fh false strings recs = Some r -> NoDup (ids recs) -> In (id, l, pings) recs ->
  In (id, tag) profile_tags -> reader_for id config beams = Some l -> ~ In 24 (ids recs) -> recorded l pings k "temp_press" [n] ->
  exists x, shows (data_vars r) ("temp_press" ++ tag) k [x] /\ real x = Some (IZR n / 5 - 4)%R.
Proof. exact SigData.single_pressure_sensor. Qed.
(** numbers recorded as floats: distances and pressure of the altimeter, quaternions; angular rates in rad/s *)
Theorem C130_floats : forall fh strings recs r id tag config beams l pings k nm raws,
  signature fh false strings recs = Some r -> NoDup (ids recs) -> In (id, l, pings) recs ->
  In (id, tag) profile_tags -> reader_for id config beams = Some l -> In nm ["le_dist_alt"; "ast_dist_alt"; "pressure_alt"; "quaternions"]%string -> recorded l pings k nm raws ->
  exists col, shows (data_vars r) (nm ++ tag) k col /\ map real col = map f32 raws.
Proof. exact SigData.single_floats. Qed.
Theorem C130_angular_rates : forall fh strings recs r id tag config beams l pings k raws,
  signature fh false strings recs = Some r -> NoDup (ids recs) -> In (id, l, pings) recs ->
  In (id, tag) profile_tags -> reader_for id config beams = Some l -> recorded l pings k "angrt" raws ->
  exists col, shows (data_vars r) ("angrt" ++ tag) k col /\ map real col = map (fun b => option_map (fun x => x * PI / 180)%R (f32 b)) raws.
Proof. exact SigData.single_angrt. Qed.
(** sign, exponent and fraction of a 32-bit float *)
Theorem C130_float_value : forall s e m, 0 <= s <= 1 -> 0 < e < 255 -> 0 <= m < 2 ^ 23 ->
  f32 (s * 2 ^ 31 + e * 2 ^ 23 + m) = Some ((if s =? 1 then -1 else 1) * (1 + IZR m / 2 ^ 23) * powerRZ 2 (e - 127))%R.
Proof. exact SigData.f32_value. Qed.
(** with a fifth beam: the mean of both sensors, for angles the mean direction (C73) *)
Theorem C130_fifth_beam : forall fh strings recs r l pings l5 pings5 nm a b k x y p q,
  signature fh false strings recs = Some r -> NoDup (ids recs) -> In (21, l, pings) recs -> In (24, l5, pings5) recs ->
  get (snd (record_of (21, l, pings))) nm = Some a -> get (snd (record_of (24, l5, pings5))) nm = Some b ->
  nth_error a k = Some [x] -> nth_error b k = Some [y] -> real x = Some p -> real y = Some q ->
  (In nm ["c_sound"; "temp"; "pressure"; "temp_press"; "temp_clock"; "batt"]%string -> shows (data_vars r) nm k [Flt (Some ((p + q) / 2)%R)]) /\
  (In nm ["heading"; "pitch"; "roll"]%string -> shows (data_vars r) nm k [Flt (Some (Reduce.angle_mean p q))]).
Proof.
  intros fh strings recs r l pings l5 pings5 nm a b k x y p q H ND I1 I5 G1 G5 A B P Q. destruct (SigData.fifth _ _ _ _ _ _ _ _ _ _ _ H ND I1 I5 G1 G5) as [F1 F2].
  split; intros I; eexists; (split; [first [exact (F1 I)|exact (F2 I)]|]); exact (SigData.paired_at _ _ _ _ _ _ _ _ A B P Q).
Qed.
(** half a degree below zero: no bytes of a file stand for it *)
Theorem C130_negative_temperature_refuted : exists q : R, forall id config beams l f bs, reader_for id config beams = Some l -> In f l -> fname f = "temp"%string ->
  Forall (fun b => 0 <= b < 256) bs -> ~ nearest (1 / 100) q (value (fkind f) bs).
Proof.
  exists (- (1 / 2))%R. intros id config beams l f bs HR I E B N. pose proof (SigData.temp_not_negative _ _ _ _ _ _ HR I E B) as P. apply IZR_le in P.
  unfold nearest in N. rewrite Rabs_pos_eq in N by lra. lra.
Qed.
(** 12.34 degrees and 1.5 m/s in the example *)
Example C130_example : exists r col, signature fh0 false false file1 = Some r /\ shows (data_vars r) "temp" 1 col /\ Forall2 (within (1 / 100 / 2)) [(1234 / 100)%R] col.
Proof.
  destruct file1_readable as (r & E). exists r.
  destruct (C130_quantities_partial _ _ _ _ 21 "" 4128 18433 _ _ 1%nat "temp" [1234] (1 / 100)%R [(1234 / 100)%R] E (one_file _ _ _) (or_introl eq_refl)) as (col & S & W).
  - cbn; tauto.
  - reflexivity.
  - right. split; [cbn; tauto|]. cbn. intros [C|[]]; discriminate C.
  - eapply (at_ping _ _ _ _ _ _ 12); reflexivity.
  - reflexivity.
  - intros [C _]; discriminate C.
  - constructor; [|constructor]. unfold nearest. replace (1234 * (1 / 100) - 1234 / 100)%R with 0%R by lra. rewrite Rabs_R0. lra.
  - exists col. split; [exact E|]. split; [exact S|exact W].
Qed.
Example C130_velocity_example : exists r col, signature fh0 false false file1 = Some r /\ shows (data_vars r) "vel" 0 col /\
  Forall2 (within (powerRZ 10 (-3) / 2)) [(1 / 10)%R; (- (2 / 10))%R; (3 / 10)%R; (4 / 10)%R] col.
Proof.
  destruct file1_readable as (r & E). exists r.
  destruct (C130_velocity _ _ _ _ 21 "" 4128 18433 _ _ 0%nat [100; -200; 300; 400] (-3) [(1 / 10)%R; (- (2 / 10))%R; (3 / 10)%R; (4 / 10)%R] E (one_file _ _ _) (or_introl eq_refl)) as (col & S & W).
  - cbn; tauto.
  - reflexivity.
  - eapply (at_ping _ _ _ _ _ _ 36); reflexivity.
  - eapply (at_ping _ _ _ _ _ _ 28); reflexivity.
  - assert (T : powerRZ 10 (-3) = (1 / 1000)%R) by (change (powerRZ 10 (-3)) with (/ (10 * (10 * (10 * 1))))%R; lra). rewrite T.
    assert (N : forall q n, (IZR n * (1 / 1000) - q = 0)%R -> nearest (1 / 1000) q n) by (intros q n H; unfold nearest; rewrite H, Rabs_R0; lra).
    do 4 (apply Forall2_cons; [apply N; lra|]); apply Forall2_nil.
  - exists col. split; [exact E|]. split; [exact S|exact W].
Qed.

Definition file_b5 := [(21, layout_of 21 4128, [Some (burst 120); Some (burst 121)]); (24, layout_of 24 4128, [Some (burst 120); Some (burst 121)])].
Example C130_fifth_example : readable (signature fh0 false false file_b5) /\ exists a b x y, get (snd (record_of (21, layout_of 21 4128, [Some (burst 120); Some (burst 121)]))) "batt" = Some a /\
  get (snd (record_of (24, layout_of 24 4128, [Some (burst 120); Some (burst 121)]))) "batt" = Some b /\ nth_error a 0 = Some [Flt (Some x)] /\ nth_error b 0 = Some [Flt (Some y)].
Proof. split; [apply readable_is; reflexivity|]. do 4 eexists. repeat split. Qed.

(** ** C131: the blanking distance *)
(** the status word says whether it is in centimetres or in millimetres *)
Definition in_cm (status : Z) : bool := Z.testbit status 1.
Definition blanking (n status : Z) : R := if in_cm status then (IZR n / 100)%R else (IZR n / 1000)%R.
(** bursts with the flag, echosounder pings without it; missing: the others (refuted below) *)
Theorem C131_blanking_partial : forall id config beams l pings k n s, reader_for id config beams = Some l -> recorded l pings k "blank_dist" [n] ->
  recorded l pings k "status" [s] -> in_cm s = negb (id =? 28) ->
  shows (snd (record_of (id, l, pings))) "blank_dist" k [Flt (Some (blanking n s))].
Proof.
  intros id config beams l pings k n s HR B S F. pose proof (SigData.blank_value _ _ _ _ _ _ _ HR B) as V. unfold blanking. rewrite F. destruct (id =? 28); exact V.
Qed.
Theorem C131_blanking_refuted : exists id config beams l pings k n s v, reader_for id config beams = Some l /\ recorded l pings k "blank_dist" [n] /\
  recorded l pings k "status" [s] /\ in_cm s = false /\ shows (snd (record_of (id, l, pings))) "blank_dist" k [Flt (Some v)] /\ (v = 10 * blanking n s)%R /\ (blanking n s <> 0)%R.
Proof.
  assert (HR : reader_for 21 4128 18433 = Some (layout_of 21 4128)) by reflexivity.
  assert (B : recorded (layout_of 21 4128) [Some (burst 120)] 0 "blank_dist" [50]) by (eapply (at_ping _ _ _ _ _ _ 19); reflexivity).
  exists 21, 4128, 18433, (layout_of 21 4128), [Some (burst 120)], 0%nat, 50, 134217728, (50 / 100)%R. split; [exact HR|]. split; [exact B|].
  split; [eapply (at_ping _ _ _ _ _ _ 34); reflexivity|]. split; [reflexivity|]. split; [exact (SigData.blank_value _ _ _ _ _ _ _ HR B)|].
  unfold blanking. change (in_cm 134217728) with false. cbv beta iota. lra.
Qed.
Example C131_example : reader_for 21 4128 18433 = Some (layout_of 21 4128) /\ in_cm 134217730 = negb (21 =? 28). Proof. split; reflexivity. Qed.

(** ** C132: one magnetometer, one unit *)
Definition bt_ping : list (list Z) := firstn 32 (hdr 32 120) ++ [[0]; [134217728]; [1]; [100; -200; 300; 400]].
Theorem C132_magnetometer_refuted : exists l1 l2 p1 p2 raws c1 c2, reader_for 21 4128 18433 = Some l1 /\ reader_for 23 32 18433 = Some l2 /\
  recorded l1 [Some p1] 0 "mag" raws /\ recorded l2 [Some p2] 0 "mag" raws /\
  shows (snd (record_of (21, l1, [Some p1]))) "mag" 0 c1 /\ shows (snd (record_of (23, l2, [Some p2]))) "mag" 0 c2 /\ map real c1 <> map real c2.
Proof.
  exists (layout_of 21 4128), (layout_of 23 32), (burst 120), bt_ping, [100; 200; -300].
  assert (R1 : recorded (layout_of 21 4128) [Some (burst 120)] 0 "mag" [100; 200; -300]) by (eapply (at_ping _ _ _ _ _ _ 23); reflexivity).
  assert (R2 : recorded (layout_of 23 32) [Some bt_ping] 0 "mag" [100; 200; -300]) by (eapply (at_ping _ _ _ _ _ _ 23); reflexivity).
  destruct (SigData.raw_int 21 4128 18433 _ _ _ _ _ eq_refl R1 ltac:(cbn; tauto)) as (v1 & G1 & N1).
  destruct (SigData.raw_int 23 32 18433 _ _ _ _ _ eq_refl R2 ltac:(cbn; tauto)) as (v2 & G2 & N2).
  eexists. eexists. split; [reflexivity|]. split; [reflexivity|]. split; [exact R1|]. split; [exact R2|]. split; [exists v1; split; [exact G1|exact N1]|]. split; [exists v2; split; [exact G2|exact N2]|].
  cbn. intros E. injection E as E _ _. lra.
Qed.

(** ** C133: every measured variable is in the dataset *)
(** missing: the fraction of good pings (refuted below) *)
Theorem C133_carried_partial : forall fh strings recs r id tag l pings nm v, signature fh false strings recs = Some r -> NoDup (ids recs) -> In (id, l, pings) recs ->
  In (id, tag) profile_tags -> In nm carried \/ (In nm sensors /\ ~ In 24 (ids recs)) -> get (snd (record_of (id, l, pings))) nm = Some v ->
  get (data_vars r) (nm ++ tag)%string = Some v.
Proof. exact SigData.single_keeps. Qed.
Theorem C133_echo : forall fh strings recs r l pings v, signature fh false strings recs = Some r -> NoDup (ids recs) -> In (28, l, pings) recs ->
  get (snd (record_of (28, l, pings))) "echo" = Some v -> get (data_vars r) "echo" = Some v.
Proof. intros fh strings recs r l pings v H ND I G. exact (SigData.echo_keeps _ _ _ _ _ _ _ _ H eq_refl (SigData.find_record _ _ _ _ ND I) G). Qed.
(** and the number of each ping, from one *)
Theorem C133_ensemble : forall fh strings recs r id tag l pings k, signature fh false strings recs = Some r -> NoDup (ids recs) -> In (id, l, pings) recs ->
  In (id, tag) profile_tags -> (k < length pings)%nat -> shows (data_vars r) ("ensemble" ++ tag) k [Int (Z.of_nat k + 1)].
Proof. exact SigData.single_ensemble. Qed.
Definition file_good := [(21, layout_of 21 (4128 + 8192), [Some (burst 120 ++ [[97]])])].
Theorem C133_percent_good_refuted : exists r, signature fh0 false false file_good = Some r /\
  recorded (layout_of 21 (4128 + 8192)) [Some (burst 120 ++ [[97]])] 0 "percent_good" [97] /\ get (data_vars r) "percent_good" = None /\ get (data_vars r) "prcnt_gd" = None.
Proof.
  destruct (readable_is (signature fh0 false false file_good) eq_refl) as (r & E). exists r. split; [exact E|]. split; [eapply (at_ping _ _ _ _ _ _ 40); reflexivity|].
  assert (K : match signature fh0 false false file_good with Some r => (match get (data_vars r) "percent_good" with None => true | Some _ => false end) && match get (data_vars r) "prcnt_gd" with None => true | Some _ => false end | None => false end = true) by reflexivity.
  rewrite E in K. destruct (get (data_vars r) "percent_good"); [discriminate K|]. destruct (get (data_vars r) "prcnt_gd"); [discriminate K|]. split; reflexivity.
Qed.
Example C133_example : exists r v, signature fh0 false false file1 = Some r /\ get (data_vars r) "angrt" = Some v /\ length v = 2%nat.
Proof.
  destruct file1_readable as (r & E). exists r.
  assert (G : exists v, get (snd (record_of (21, layout_of 21 4128, [Some (burst 120); Some (burst 121)]))) "angrt" = Some v /\ length v = 2%nat) by (eexists; split; reflexivity).
  destruct G as (v & G & L). exists v. split; [exact E|]. split; [|exact L].
  assert (C : In "angrt"%string carried \/ (In "angrt"%string sensors /\ ~ In 24 (ids file1))) by (left; do 5 right; left; reflexivity).
  exact (C133_carried_partial _ _ _ _ 21 "" _ _ "angrt" v E (one_file _ _ _) (or_introl eq_refl) (or_introl eq_refl) C G).
Qed.

(** ** C134: the sampling rate *)
(** without averages it is that of the bursts; missing: with averages (refuted below) *)
Theorem C134_burst_partial : forall fh strings recs r, signature fh false strings recs = Some r -> ~ In 22 (ids recs) -> fs r = burst_SR fh.
Proof.
  intros fh strings recs r H N. apply (SigData.rate_burst _ _ _ _ _ _ H eq_refl). unfold SigData.var_of. rewrite (SigData.find_absent _ _ N). reflexivity.
Qed.
(** an average every ten minutes: the rate is 600 per second *)
Theorem C134_average_refuted : exists fh recs r, signature fh false false recs = Some r /\ plan_MIAVG fh = 600%Q /\ ids recs = [22] /\ ~ (fs r * plan_MIAVG fh == 1)%Q.
Proof.
  destruct file_avg_readable as (r & E). exists fh0, file_avg, r. split; [exact E|]. split; [reflexivity|]. split; [reflexivity|].
  assert (F : fs r = plan_MIAVG fh0); [|rewrite F; unfold Qeq; cbn; discriminate].
  apply (SigData.rate_avg _ _ _ _ _ _ E eq_refl). unfold SigData.var_of, file_avg. rewrite (SigData.find_record _ _ _ _ (one_file _ _ _) (or_introl eq_refl)). discriminate.
Qed.
(** and a time that is missing at the end of such a file becomes 1/600 s after the one before it *)
Theorem C134_gap_refuted : exists t out d, times_out (plan_MIAVG fh0) [Some t; Some (t + 600)%Q; None] = Some [out; Some (t + 600)%Q; Some (t + 600 + d)%Q] /\ (d == 1 / 600)%Q.
Proof. eexists (1000 # 1)%Q. eexists. exists (1 / 600)%Q. split; [|reflexivity]. reflexivity. Qed.
Example C134_example : exists r, signature fh0 false false file1 = Some r /\ fs r = 8%Q.
Proof.
  destruct file1_readable as (r & E). exists r. split; [exact E|]. refine (C134_burst_partial _ _ _ _ E _). cbn. intros [C|[]]; discriminate C.
Qed.

(** ** C135: the orientation matrix *)
(** The instrument records the matrix from its own axes to the earth, the dataset holds its inverse.  Missing: the second of
    two profiles (refuted below). *)
Theorem C135_orientation_partial : forall fh strings recs r id config beams l pings v, signature fh false strings recs = Some r -> NoDup (ids recs) -> In (id, l, pings) recs ->
  reader_for id config beams = Some l -> id = 21 \/ (id = 22 /\ ~ In 21 (ids recs) /\ In "vel"%string (map fname l)) ->
  get (snd (record_of (id, l, pings))) "orientmat" = Some v ->
  exists w, get (data_vars r) "orientmat" = Some w /\ Forall2 transposed v w /\ has_imu r = true.
Proof.
  intros fh strings recs r id config beams l pings v H ND I HR C G.
  assert (C' : id = 21 \/ (id = 22 /\ ~ In 21 (ids recs) /\ NoDup (map fname l) /\ In "vel"%string (map fname l))).
  { destruct C as [C|(A & B & D)]; [left; exact C|right]. split; [exact A|]. split; [exact B|]. split; [exact (SigData.reader_names _ _ _ _ HR)|exact D]. }
  destruct (SigData.single_orient _ _ _ _ _ _ _ _ H ND I C' G) as [O M]. exists (map swap_axes v). split; [exact O|]. split; [|exact M].
  clear. induction v as [|c v IH]; constructor; [apply SigData.swap_transposed|exact IH].
Qed.
(** two profiles: the matrix of the second dataset is the one recorded, a rotation by 90 degrees, not its transpose *)
Theorem C135_second_profile_refuted : exists r a b m, signature fh0 true false file_dual = Some r /\
  split_dp [("time", 2%nat); ("time_avg", 1%nat)]%string (data_vars r) = Some (a, b) /\
  get b "orientmat" = Some m /\ Forall2 (fun c o => map real c = o) m [map f32 om] /\ ~ exists w, Forall2 transposed [map (fun o => Flt (f32 o)) om] w /\ m = w.
Proof.
  destruct file_dual_readable as (r & E). exists r.
  assert (D : exists dat, prepared true false file_dual = Some dat /\ SigData.var_of dat 21 "orientmat" = Some [map (fun o => Flt (f32 o)) om; map (fun o => Flt (f32 o)) om] /\
    SigData.var_of dat 22 "orientmat" = Some [map (fun o => Flt (f32 o)) om]) by (eexists; split; [reflexivity|]; split; reflexivity).
  destruct D as (dat & P & O1 & O2). pose proof (SigData.orient_second _ _ _ _ _ _ _ _ E P O1 O2) as O.
  assert (S : exists a b, split_dp [("time", 2%nat); ("time_avg", 1%nat)]%string (data_vars r) = Some (a, b)).
  { assert (K : match signature fh0 true false file_dual with Some r => match split_dp [("time", 2%nat); ("time_avg", 1%nat)]%string (data_vars r) with Some _ => true | None => false end | None => false end = true) by reflexivity.
    rewrite E in K. destruct (split_dp _ (data_vars r)) as [[a b]|]; [exists a, b; reflexivity|discriminate K]. }
  destruct S as (a & b & S). destruct (SigData.split_parts 2 1 (data_vars r) a b ltac:(discriminate) S) as (_ & _ & _ & _ & Ob). rewrite O in Ob.
  exists a, b, [map (fun o => Flt (f32 o)) om]. split; [exact E|]. split; [exact S|]. split; [exact Ob|]. split; [repeat constructor|].
  intros (w & T & <-). inversion T as [|x y lx ly [_ T1] _ A B]. specialize (T1 0%nat 1%nat ltac:(lia) ltac:(lia)). unfold entry9 in T1. cbn [om map nth Nat.mul Nat.add] in T1.
  injection T1 as T1. revert T1. unfold f32. cbn. intros T1. lra.
Qed.
Example C135_example : exists r w, signature fh0 false false file1 = Some r /\ get (data_vars r) "orientmat" = Some w /\
  Forall2 transposed [map (fun o => Flt (f32 o)) om; map (fun o => Flt (f32 o)) om] w.
Proof.
  destruct file1_readable as (r & E). exists r.
  destruct (C135_orientation_partial _ _ _ _ 21 4128 18433 _ _ [map (fun o => Flt (f32 o)) om; map (fun o => Flt (f32 o)) om] E (one_file _ _ _) (or_introl eq_refl) eq_refl (or_introl eq_refl) eq_refl) as (w & G & T & _).
  exists w. split; [exact E|]. split; [exact G|exact T].
Qed.

(** ** C136: the times of the pings *)
Theorem C136_clock : forall fh strings recs r id tag config beams l pings k y mo d h mi s u n,
  signature fh false strings recs = Some r -> NoDup (ids recs) -> In (id, l, pings) recs -> In (id, tag) profile_tags -> reader_for id config beams = Some l ->
  recorded l pings k "year" [y] -> recorded l pings k "month" [mo] -> recorded l pings k "day" [d] -> recorded l pings k "hour" [h] ->
  recorded l pings k "minute" [mi] -> recorded l pings k "second" [s] -> recorded l pings k "usec100" [u] ->
  Nortek.valid_date (Nortek.Date (y + 1900) (mo + 1) d h mi s) = true -> 0 <= u < 10000 -> elapsed (Nortek.Date (y + 1900) (mo + 1) d h mi s) n ->
  exists ts t, get (times r) ("time" ++ tag)%string = Some ts /\ nth_error ts k = Some (Some t) /\ (t == inject_Z n + inject_Z u / 10000)%Q.
Proof. exact SigData.single_times. Qed.
(** a date that does not exist is no time (or the one that is taken for no time) *)
Theorem C136_impossible : forall y mo d h mi s u, Nortek.valid_date (Nortek.Date y (mo + 1) d h mi s) = false \/ 1000000 <= u ->
  calc_time1 y mo d h mi s u = None \/ calc_time1 y mo d h mi s u = Some (inject_Z 0).
Proof. exact SigData.calc_time1_impossible. Qed.
(** if the times are returned, each ping has one, and those that were read are kept *)
Theorem C136_complete : forall fs t out, times_out fs t = Some out -> length out = length t /\
  (forall k, (k < length t)%nat -> exists q, nth_error out k = Some (Some q)) /\
  (forall k q, nth_error t k = Some (Some q) -> ~ (q == 0)%Q -> nth_error out k = Some (Some q)).
Proof. exact SigData.times_out_complete. Qed.
(** the calendar of the specification goes through all dates, in order *)
Example C136_example : exists n, elapsed (Nortek.Date (120 + 1900) (4 + 1) 13 12 30 15) n /\ n = 1589373015 /\ Nortek.valid_date (Nortek.Date (120 + 1900) (4 + 1) 13 12 30 15) = true.
Proof. exists 1589373015. split; [|split; reflexivity]. exact (Calendar.epoch_elapsed (Nortek.Date 2020 5 13 12 30 15) (Calendar.valid_okd (Nortek.Date 2020 5 13 12 30 15) eq_refl ltac:(cbn; lia))). Qed.
Example C136_missing : calc_time1 1900 0 0 0 0 0 0 = Some (inject_Z 0) /\ calc_time1 2020 1 30 12 0 0 0 = None /\
  exists t, times_out 1 [Some 1000; None; Some 1002]%Q = Some [Some 1000%Q; Some t; Some 1002%Q] /\ (t == 1001)%Q.
Proof. split; [reflexivity|]. split; [reflexivity|]. eexists. split; [reflexivity|]. reflexivity. Qed.

(** ** C137: two profiles in one file *)
(** the variables of a profile are those of the pings in which it was recorded, in their order *)
Theorem C137_pings : forall fh recs r id tag config beams l pings nm v, signature fh true false recs = Some r -> NoDup (ids recs) -> In (id, l, pings) recs ->
  In (id, tag) profile_tags -> reader_for id config beams = Some l -> all_versions l pings -> In nm carried ->
  get (snd (record_of (id, l, somes pings))) nm = Some v -> get (data_vars r) (nm ++ tag)%string = Some v.
Proof. exact SigData.dual_keeps. Qed.
(** each profile in a dataset of its own *)
Theorem C137_split_partial : forall n m dv a b, n <> m -> split_dp [("time", n); ("time_avg", m)]%string dv = Some (a, b) ->
  (forall nm, In nm carried -> get a nm = get dv nm /\ get a (nm ++ "_avg")%string = None /\ get b (nm ++ "_avg")%string = get dv (nm ++ "_avg")%string /\ get b nm = None) /\
  get a "orientmat" = get dv "orientmat" /\ get b "orientmat" = get dv "orientmat_avg".
Proof.
  intros n m dv a b N S. destruct (SigData.split_parts n m dv a b N S) as (A1 & A2 & B1 & B2 & O). split.
  - intros nm I. destruct (SigData.axes nm (in_or_app _ _ _ (or_introl I))) as [T1 T2].
    assert (X : nm <> "orientmat"%string /\ (nm ++ "_avg")%string <> "orientmat_avg"%string).
    { cbn in I. repeat (destruct I as [<-|I]; [split; discriminate|]). destruct I. }
    destruct X as [X1 X2]. split; [apply A1, T1|]. split; [apply A2, T2|]. split; [apply B1; assumption|apply B2; assumption].
  - split; [apply A1; reflexivity|exact O].
Qed.
(** missing: profiles with equally many pings *)
Theorem C137_equal_refuted : forall n dv, split_dp [("time", n); ("time_avg", n)]%string dv = None.
Proof. intros n dv. apply (SigData.split_equal n); [reflexivity|]. intros t m [E|[E|[]]]; injection E as _ <-; left; reflexivity. Qed.
(** missing: files with a string record *)
Theorem C137_string_refuted : forall fh recs, signature fh true true recs = None.
Proof. reflexivity. Qed.
Example C137_example : exists r v, signature fh0 true false file_dual = Some r /\ get (data_vars r) "mag_avg" = Some v /\ length v = 1%nat.
Proof.
  destruct file_dual_readable as (r & E). exists r.
  assert (G : exists v, get (snd (record_of (22, layout_of 22 4128, somes [None; Some (burst 120); None]))) "mag" = Some v /\ length v = 1%nat) by (eexists; split; reflexivity).
  destruct G as (v & G & L). exists v. split; [exact E|]. split; [|exact L].
  refine (C137_pings _ _ _ 22 "_avg" 4128 18433 _ _ "mag" v E _ (or_intror (or_introl eq_refl)) _ eq_refl _ _ G).
  - repeat constructor; cbn; intuition discriminate.
  - cbn; tauto.
  - intros k vals H. destruct k as [|[|[|k]]]; try discriminate H; [|destruct k; discriminate H]. injection H as <-.
    exists 3. split; [|discriminate]. eapply (at_ping _ _ _ _ _ _ 0); reflexivity.
  - cbn; tauto.
Qed.

(** ** C138: the samples of raw altimeter pings are signed fractions *)
(** missing: negative ones (refuted below) *)
Theorem C138_samples_partial : forall fh strings recs r config beams l sz pings k raws, signature fh false strings recs = Some r -> NoDup (ids recs) ->
  reader_for 26 config beams = Some l -> In (26, with_samples sz l, pings) recs -> recorded (with_samples sz l) pings k "samp_alt" raws ->
  Forall (fun n => 0 <= n < 32768) raws -> shows (data_vars r) "samp_altraw" k (map (fun n => Flt (Some (IZR n / 256)%R)) raws).
Proof. exact SigData.single_samples. Qed.
Definition file_alt (s : Z) := [(21, layout_of 21 288, [Some (hdr 288 120 ++ [[100; -200; 300; 400]; [0]; [50]; [0]])]);
  (26, with_samples 2 (layout_of 26 768), [Some (hdr 768 120 ++ [[0]; [50]; [0]; [2]; [1]; [s; 512]])])].
Lemma file_alt_readable s : readable (signature fh0 false false (file_alt s)). Proof. apply readable_is. reflexivity. Qed.
Lemma file_alt_ids s : NoDup (ids (file_alt s)). Proof. repeat constructor; cbn; intuition discriminate. Qed.
Lemma file_alt_recorded s : recorded (with_samples 2 (layout_of 26 768)) [Some (hdr 768 120 ++ [[0]; [50]; [0]; [2]; [1]; [s; 512]])] 0 "samp_alt" [s; 512].
Proof. eapply (at_ping _ _ _ _ _ _ 41); reflexivity. Qed.
Theorem C138_negative_refuted : exists r x, signature fh0 false false (file_alt (-256)) = Some r /\ shows (data_vars r) "samp_altraw" 0 [x; Flt (Some 2%R)] /\ real x = Some 255%R.
Proof.
  destruct (file_alt_readable (-256)) as (r & E). exists r, (Flt (Some 255%R)). split; [exact E|]. split; [|reflexivity].
  assert (G : get (snd (record_of (26, with_samples 2 (layout_of 26 768), [Some (hdr 768 120 ++ [[0]; [50]; [0]; [2]; [1]; [-256; 512]])]))) "samp_alt" = Some [[Int 65280; Int 512]]) by reflexivity.
  eexists. split; [exact (SigData.signature_samples _ _ _ _ _ _ _ _ E eq_refl (SigData.find_record _ _ _ _ (file_alt_ids (-256)) (or_intror (or_introl eq_refl))) G)|].
  cbn [nth_error map]. unfold linfunc. cbn [real option_map]. do 2 f_equal; [|f_equal]; do 2 f_equal; lra.
Qed.
Example C138_example : exists r, signature fh0 false false (file_alt 128) = Some r /\ shows (data_vars r) "samp_altraw" 0 [Flt (Some (128 / 256)%R); Flt (Some (512 / 256)%R)].
Proof.
  destruct (file_alt_readable 128) as (r & E). exists r. split; [exact E|].
  refine (C138_samples_partial _ _ _ _ 768 18433 _ 2 _ 0%nat [128; 512] E (file_alt_ids 128) eq_refl (or_intror (or_introl eq_refl)) (file_alt_recorded 128) _).
  repeat constructor; lia.
Qed.

(** ** C139: files of instruments without orientation sensor *)
(** bursts can be read, with every combination of variables; missing: averages (refuted below) *)
Theorem C139_burst_partial : forall fh strings config beams l pings low a o w an on wn, reader_for 21 config beams = Some l -> In "vel"%string (map fname l) ->
  pings <> [] -> same_status l pings (status_codes low a o w) -> 0 <= low < 2 ^ 22 -> In (a, an) orient_status -> In (o, on) nortek_orient -> In (w, wn) wake ->
  exists r, signature fh false strings [(21, l, pings)] = Some r.
Proof. exact SigData.burst_readable. Qed.
Definition plain_ping : list (list Z) := hdr 32 120 ++ [[100; -200; 300; 400]].
Theorem C139_average_refuted : exists l, reader_for 22 32 18433 = Some l /\ In "vel"%string (map fname l) /\ length plain_ping = length l /\
  forall fh strings, signature fh false strings [(22, l, [Some plain_ping])] = None /\ readable (signature fh false strings [(21, l, [Some plain_ping])]).
Proof.
  exists (layout_of 22 32). split; [reflexivity|]. split; [cbn; tauto|]. split; [reflexivity|]. intros fh strings. split.
  - apply (SigData.average_needs_ahrs fh strings _ _ eq_refl); [discriminate|reflexivity|reflexivity].
  - apply readable_is. destruct strings; reflexivity.
Qed.
Example C139_example : reader_for 21 32 18433 = Some (layout_of 21 32) /\ same_status (layout_of 21 32) [Some plain_ping] (status_codes 0 0 4 0) /\
  In (0, "fixed"%string) orient_status /\ In (4, "up"%string) nortek_orient /\ In (0, "bad power"%string) wake.
Proof.
  split; [reflexivity|]. split; [|cbn; tauto]. intros k L. destruct k as [|k]; [|cbn in L; lia]. eapply (at_ping _ _ _ _ _ _ 34); reflexivity.
Qed.

(** ** C140: state and orientation of the instrument *)
(** when all pings agree; missing: codes that have no name (refuted below) *)
Theorem C140_state_partial : forall low a o w an on wn n, 0 <= low < 2 ^ 22 -> In (a, an) orient_status -> In (o, on) nortek_orient -> In (w, wn) wake -> n <> O ->
  decode_status (repeat (status_codes low a o w) n) = Some (Status wn on an).
Proof. exact SigData.decoded. Qed.
(** codes of their three and four bits that make the file unreadable *)
Theorem C140_unnamed_refuted : exists a o w, 0 <= a < 8 /\ 0 <= o < 8 /\ 0 <= w < 16 /\
  decode_status [status_codes 0 2 o w] = None /\ decode_status [status_codes 0 a 6 w] = None /\ decode_status [status_codes 0 a o 4] = None /\
  decode_status [status_codes 0 a o w] = Some (Status "bad power" "up" "fixed").
Proof. exists 0, 4, 0. repeat (split; [lia|]). repeat split. Qed.
Example C140_example : decode_status [134217728; 134217728] = Some (Status "bad power" "up" "fixed"). Proof. exact (C140_state_partial 0 0 4 0 "fixed" "up" "bad power" 2 ltac:(lia) ltac:(cbn; tauto) ltac:(cbn; tauto) ltac:(cbn; tauto) ltac:(discriminate)). Qed.

(** All the theorems of this file, for one listing of axioms. *)
Definition all_theorems :=
  (@C130_quantities_partial,
   @C130_velocity,
   @C130_pressure_sensor,
   @C130_floats,
   @C130_angular_rates,
   @C130_float_value,
   @C130_fifth_beam,
   @C130_negative_temperature_refuted,
   @C131_blanking_partial,
   @C131_blanking_refuted,
   @C132_magnetometer_refuted,
   @C133_carried_partial,
   @C133_echo,
   @C133_ensemble,
   @C133_percent_good_refuted,
   @C134_burst_partial,
   @C134_average_refuted,
   @C134_gap_refuted,
   @C135_orientation_partial,
   @C135_second_profile_refuted,
   @C136_clock,
   @C136_impossible,
   @C136_complete,
   @C137_pings,
   @C137_split_partial,
   @C137_equal_refuted,
   @C137_string_refuted,
   @C138_samples_partial,
   @C138_negative_refuted,
   @C139_burst_partial,
   @C139_average_refuted,
   @C140_state_partial,
   @C140_unnamed_refuted).
Print Assumptions all_theorems.
