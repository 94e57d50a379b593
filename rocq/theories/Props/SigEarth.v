(** C176: Signature files, from the bytes to velocities in earth coordinates. *)
From Coq Require Import String.
From Coq Require Import ZArith QArith Reals List Bool Lia Lra.
From Verif.Model Require Import Nortek Ad2cp Ad2cpIndex SigData ReadSig SigEarth.
From Verif.Spec Require Import Ad2cp Ad2cpIndex SigData ReadSig SigEarth.
From Verif.Model Require Linalg Rotate.
From Verif.Spec Require Linalg Rotate NortekEarth.
From Verif.Proofs Require Ad2cp SigEarth.
Import ListNotations.
Open Scope Z_scope.

(** with the declination of the userdata file, if there is one *)
Definition turned (u : option R) (v : list R) : list R := match u with Some a => Rotate.clockwise a v | None => v end.
Definition signature_model (model : string) : Prop := Rotate.standard_make Rotate.Signature (Rotate.lower ("Nortek " ++ model)).

(** ** C176 *)
(** Bursts of four beams: what is in the dataset after [rotate2('earth')] is what the manufacturer's script computes from the
    counts in the file, turned by the declination.  Missing: files in earth coordinates with a declination (next theorem), other
    numbers of beams (refuted below for three), averages and the fifth beam, what C170 misses. *)
Theorem C176_velocities_partial : forall conf ids enss file rebuild existing start stop fuel nc frame on fh strings nan model u,
  bursts conf ids enss file start stop 4 nc frame on -> (rebuild = true \/ existing = None) -> (length file < fuel)%nat -> signature_model model ->
  (frame = "beam"%string -> length (XFBURST fh) = 4%nat) -> (u = None \/ frame <> "earth"%string) ->
  exists D d', open_signature nan model u fuel fh strings false rebuild existing file start stop = Some (Rotate.Ok D) /\ Rotate.coord_sys D = frame /\
    Rotate.rotate2 D "earth" = Rotate.Ok d' /\
    forall k p A j v, in_ping enss start stop k p -> p_id p = 21 -> ping_matrix conf p A -> ping_velocity conf p 4 nc j v ->
      Rotate.value d' "vel" k j = Some (turned u (to_earth4 frame (XFBURST fh) A (String.eqb on "down") v)).
Proof.
  intros conf ids enss file rebuild existing start stop fuel nc frame on fh strings nan model u B RB FU HM HT HU.
  destruct (SigEarth.opened_earth conf ids enss file rebuild existing start stop fuel nc frame on fh strings nan model u B RB FU HM HT HU) as (D & d' & E1 & E2 & E3 & V).
  exists D, d'. split; [exact E1|]. split; [exact E2|]. split; [exact E3|]. intros k p A j v I Ei PM. exact (proj1 (V k p A I Ei PM) j v).
Qed.
(** files in earth coordinates with a declination; instruments without a recorded matrix that do not lie on their side *)
Theorem C176_earth_declination_partial : forall conf ids enss file rebuild existing start stop fuel nc on fh strings nan model u,
  bursts conf ids enss file start stop 4 nc "earth" on -> (rebuild = true \/ existing = None) -> (length file < fuel)%nat -> signature_model model ->
  Linalg.is_mat 4 (XFBURST fh) -> Linalg.det 4 (XFBURST fh) <> 0%R -> (forall k p, in_ping enss start stop k p -> p_id p = 21 -> upright conf p) ->
  exists D d', open_signature nan model (Some u) fuel fh strings false rebuild existing file start stop = Some (Rotate.Ok D) /\ Rotate.coord_sys D = "earth"%string /\
    Rotate.rotate2 D "earth" = Rotate.Ok d' /\
    forall k p A j v, in_ping enss start stop k p -> p_id p = 21 -> ping_matrix conf p A -> ping_velocity conf p 4 nc j v -> Rotate.value d' "vel" k j = Some (Rotate.clockwise u v).
Proof. exact SigEarth.declined_earth. Qed.
(** accelerations and the magnetic field, for files that are not in earth coordinates *)
Theorem C176_sensors_partial : forall conf ids enss file rebuild existing start stop fuel nc frame on fh strings nan model u,
  bursts conf ids enss file start stop 4 nc frame on -> (rebuild = true \/ existing = None) -> (length file < fuel)%nat -> signature_model model ->
  (frame = "beam"%string -> length (XFBURST fh) = 4%nat) -> frame <> "earth"%string ->
  exists D d', open_signature nan model u fuel fh strings false rebuild existing file start stop = Some (Rotate.Ok D) /\ Rotate.coord_sys D = frame /\
    Rotate.rotate2 D "earth" = Rotate.Ok d' /\
    forall k p A x, in_ping enss start stop k p -> p_id p = 21 -> ping_matrix conf p A ->
      (ping_accel conf p x -> Rotate.value d' "accel" k 0 = Some (turned u (enu3 A (String.eqb on "down") x))) /\
      (ping_mag conf p x -> Rotate.value d' "mag" k 0 = Some (turned u (enu3 A (String.eqb on "down") x))).
Proof.
  intros conf ids enss file rebuild existing start stop fuel nc frame on fh strings nan model u B RB FU HM HT HF.
  destruct (SigEarth.opened_earth conf ids enss file rebuild existing start stop fuel nc frame on fh strings nan model u B RB FU HM HT (or_intror HF)) as (D & d' & E1 & E2 & E3 & V).
  exists D, d'. split; [exact E1|]. split; [exact E2|]. split; [exact E3|]. intros k p A x I Ei PM. pose proof (proj2 (V k p A I Ei PM)) as W.
  apply String.eqb_neq in HF. rewrite HF in W. split; intros H; apply W; tauto.
Qed.
(** three beams, not in beam coordinates: not opened *)
Theorem C176_three_beams : forall conf ids enss file rebuild existing start stop fuel nc frame on fh strings nan model u,
  bursts conf ids enss file start stop 3 nc frame on -> (rebuild = true \/ existing = None) -> (length file < fuel)%nat -> signature_model model -> frame <> "beam"%string ->
  exists D, open_signature nan model u fuel fh strings false rebuild existing file start stop = Some (Rotate.Err Rotate.LabelMismatch D).
Proof. exact SigEarth.three_beams. Qed.

(** ** Examples: three bursts with one cell; [hi] has beams and frame, [st] the mounting *)
Definition body (hi st : Z) (ang vel : bytes) (num : Z) : bytes :=
  [3; 76; 32; 0; 7; 0; 0; 0; 120; 4; 13; 12; 30; 10 + num; 136; 19; 152; 58; 210; 4; 16; 39; 0; 0; 40; 35] ++ ang ++ [1; hi; 232; 3; 50; 0; 33; 170; 120; 0;
   100; 0; 200; 0; 212; 254; 0; 0; 0; 0; 0; 64; 232; 3; 0; 0; 60; 0; 253; 254; 0; 0; 196; 9; 0; 0; 0; 0; 0; 0; 0; st; num; 0; 0; 0] ++ vel.
Definition lay (hi : Z) : layout := match reader_for 21 32 (1 + 256 * hi) with Some l => l | None => [] end.
Definition ping (hi st : Z) (ang vel : bytes) (num : Z) : piece :=
  Piece 21 (split_fields (lay hi) (unpack (lay hi) (body hi st ang vel num))) ([165; 10; 21; 16; Z.of_nat (76 + length vel); 0; 0; 0; 0; 0] ++ body hi st ang vel num).
Definition text : piece := Piece 160 [] [165; 10; 160; 16; 2; 0; 0; 0; 0; 0; 16; 65].
Definition conf0 (hi : Z) : Z -> Z * Z := fun _ => (32, 1 + 256 * hi).
Definition pings (hi st : Z) (ang vel : bytes) : list (list piece) := map (fun num => [ping hi st ang vel num]) [5; 6; 7].
Definition file0 (hi st : Z) (ang vel : bytes) : bytes := bytes_of [text] ++ concat (map bytes_of (pings hi st ang vel)).
(** heading 90 degrees; beam coordinates, down, pitch -1 degree, roll 2 degrees; earth coordinates, down, no tilts; x, y, z from three beams, up *)
Definition tilts : bytes := [156; 255; 200; 0].
Definition four : bytes := [100; 0; 56; 255; 44; 1; 144; 1].
Definition three : bytes := [100; 0; 56; 255; 44; 1].
Ltac good hi :=
  split; [cbn; lia|]; eexists; split; [eexists _, _, _, _, _, _, _, _; split; [reflexivity|]; cbn; lia|]; split; [unfold short; cbn; lia|]; split; [discriminate|]; split;
  [intros _; split; [cbn; lia|]; split; [discriminate|]; repeat split; reflexivity|];
  intros _; exists (lay hi); split; [reflexivity|]; apply Ad2cp.holds_any;
  [apply Forall_forall; intros f Hf; unfold lay in Hf; cbn in Hf; repeat (destruct Hf as [<-|Hf]; [cbn; lia|]); destruct Hf
  |unfold all_bytes; cbn [body app tilts four three]; repeat (apply Forall_cons; [lia|]); apply Forall_nil|reflexivity].
Lemma good_beam num : 0 <= num < 50 -> good_piece (conf0 72) (ping 72 10 tilts four num). Proof. intros N. good 72. Qed.
Lemma good_earth num : 0 <= num < 50 -> good_piece (conf0 64) (ping 64 10 [0; 0; 0; 0] four num). Proof. intros N. good 64. Qed.
Lemma good_three num : 0 <= num < 50 -> good_piece (conf0 52) (ping 52 8 tilts three num). Proof. intros N. good 52. Qed.
Lemma good_text hi : good_piece (conf0 hi) text.
Proof.
  split; [cbn; lia|]. exists [16; 65]. split; [|split; [|split; [|split]]].
  - exists 10, 16, 2, 0, 0, 0, 0, 0. split; [reflexivity|]. cbn. lia.
  - unfold short. cbn. lia.
  - discriminate.
  - discriminate.
  - cbn. lia.
Qed.
Ltac is_file G :=
  exists 5, [text]; eexists; split; [|split; [cbn; lia|split]];
  [constructor; [reflexivity|apply Forall_cons; [split; [apply good_text|reflexivity]|apply Forall_nil]|apply NoDup_cons; [intros []|apply NoDup_nil]
    |intros e ps H; destruct e as [|[|[|e]]]; cbn in H; try (destruct e; discriminate H); injection H as <-;
        (split; [reflexivity|]; split; [eexists; eexists; split; reflexivity|]; split; [apply Forall_cons; [apply G; lia|apply Forall_nil]|];
         apply Forall_cons; [intros _; reflexivity|apply Forall_nil])
    |lia|cbn; lia|cbn; lia]
  |intros ps [<-|[<-|[<-|[]]]]; reflexivity
  |intros [_ [C|[]]]; discriminate C].
Lemma in_pings hi st ang vel k p : in_ping (pings hi st ang vel) 1 None k p -> exists num, p = ping hi st ang vel num.
Proof.
  intros (_ & ps & E & I). destruct k as [|[|k]]; cbn in E; [| |destruct k; discriminate E]; injection E as <-; destruct I as [<-|[]]; eexists; reflexivity.
Qed.
Lemma has_at hi st ang vel num nm i raws f : reader_for 21 32 (1 + 256 * hi) = Some (lay hi) -> nth_error (lay hi) i = Some f -> fname f = nm -> nth_error (p_vals (ping hi st ang vel num)) i = Some raws ->
  has (conf0 hi) (ping hi st ang vel num) nm raws.
Proof. intros R A B C. exists (lay hi), i, f. split; [exact R|]. tauto. Qed.
Ltac is_bursts G c o :=
  constructor; [is_file G|cbn; lia|split; [left; reflexivity|intros id [<-|[]] _; reflexivity]|reflexivity
   |exists c; split; [reflexivity|split; [cbn; lia|cbn; tauto]]
   |exists 0, 0, o, 0, "fixed"%string, "bad power"%string; split; [lia|]; split; [cbn; tauto|]; split; [cbn; tauto|]; split; [cbn; tauto|];
    intros k p I _; destruct (in_pings _ _ _ _ k p I) as (num & ->); eapply (has_at _ _ _ _ num "status" 34); reflexivity].
Example C176_beam_file : bursts (conf0 72) [21] (pings 72 10 tilts four) (file0 72 10 tilts four) 1 None 4 1 "beam" "down".
Proof. is_bursts good_beam 2 5. Qed.
Example C176_earth_file : bursts (conf0 64) [21] (pings 64 10 [0; 0; 0; 0] four) (file0 64 10 [0; 0; 0; 0] four) 1 None 4 1 "earth" "down".
Proof. is_bursts good_earth 0 5. Qed.
Example C176_three_file : bursts (conf0 52) [21] (pings 52 8 tilts three) (file0 52 8 tilts three) 1 None 3 1 "inst" "up".
Proof. is_bursts good_three 1 4. Qed.

Definition fh0 : filehead := Filehead 8 600 [[1; 0; -1; 0]; [0; 1; 0; -1]; [1 / 2; 0; 1 / 2; 0]; [0; 1 / 2; 0; 1 / 2]]%R [].
Lemma model1000 : signature_model "Signature1000".
Proof. split; [reflexivity|]. split; [reflexivity|]. split; [reflexivity|]. left. reflexivity. Qed.
Lemma no_matrix hi st ang vel num : reader_for 21 32 (1 + 256 * hi) = Some (lay hi) -> ~ In "orientmat"%string (map fname (lay hi)) -> forall raws, ~ has (conf0 hi) (ping hi st ang vel num) "orientmat" raws.
Proof.
  intros R N raws (l & i & f & E & A & B & _). cbn [p_id ping conf0 fst snd] in E. rewrite R in E. injection E as <-. apply N. rewrite <- B. apply in_map. exact (nth_error_In _ _ A).
Qed.
Lemma at_1 hi st ang vel : in_ping (pings hi st ang vel) 1 None 1 (ping hi st ang vel 7).
Proof. split; [cbn; lia|]. eexists. split; [reflexivity|left; reflexivity]. Qed.
Ltac angles p r num := right; split; [apply no_matrix; [reflexivity|cbn; intuition discriminate]|]; exists 9000, p, r;
  split; [eapply (has_at _ _ _ _ num "heading" 14); reflexivity|]; split; [eapply (has_at _ _ _ _ num "pitch" 15); reflexivity|]; split; [eapply (has_at _ _ _ _ num "roll" 16); reflexivity|reflexivity].
Lemma beam_matrix : ping_matrix (conf0 72) (ping 72 10 tilts four 7) (attitude_matrix (hundredths 9000) (hundredths (-100)) (hundredths 200)).
Proof. angles (-100) 200 7. Qed.
Lemma earth_matrix : ping_matrix (conf0 64) (ping 64 10 [0; 0; 0; 0] four 7) (attitude_matrix (hundredths 9000) (hundredths 0) (hundredths 0)).
Proof. angles 0 0 7. Qed.
Lemma beam_velocity : ping_velocity (conf0 72) (ping 72 10 tilts four 7) 4 1 0 [IZR 100 * powerRZ 10 (-3); IZR (-200) * powerRZ 10 (-3); IZR 300 * powerRZ 10 (-3); IZR 400 * powerRZ 10 (-3)]%R.
Proof.
  exists [100; -200; 300; 400], (-3). split; [eapply (has_at _ _ _ _ 7 "vel" 36); reflexivity|]. split; [eapply (has_at _ _ _ _ 7 "vel_scale" 28); reflexivity|]. split; [lia|reflexivity].
Qed.
(** the vectors of the file above, with a declination of 10 degrees *)
Example C176_velocities_reached : exists D d', open_signature 0 "Signature1000" (Some 10%R) (S (length (file0 72 10 tilts four))) fh0 false false true None (file0 72 10 tilts four) 1 None = Some (Rotate.Ok D) /\
  Rotate.rotate2 D "earth" = Rotate.Ok d' /\ Rotate.value d' "vel" 1 0 = Some (Rotate.clockwise 10 (enu4 (attitude_matrix (hundredths 9000) (hundredths (-100)) (hundredths 200)) true
    (product (XFBURST fh0) [IZR 100 * powerRZ 10 (-3); IZR (-200) * powerRZ 10 (-3); IZR 300 * powerRZ 10 (-3); IZR 400 * powerRZ 10 (-3)]%R))).
Proof.
  destruct (C176_velocities_partial (conf0 72) [21] (pings 72 10 tilts four) (file0 72 10 tilts four) true None 1 None (S (length (file0 72 10 tilts four))) 1 "beam" "down" fh0 false 0%R "Signature1000" (Some 10%R)
    C176_beam_file (or_introl eq_refl) (Nat.lt_succ_diag_r _) model1000 (fun _ => eq_refl)) as (D & d' & E1 & _ & E3 & V); [right; discriminate|].
  exists D, d'. split; [exact E1|]. split; [exact E3|]. exact (V 1%nat _ _ 0%nat _ (at_1 72 10 tilts four) eq_refl beam_matrix beam_velocity).
Qed.
Lemma earth_velocity : ping_velocity (conf0 64) (ping 64 10 [0; 0; 0; 0] four 7) 4 1 0 [IZR 100 * powerRZ 10 (-3); IZR (-200) * powerRZ 10 (-3); IZR 300 * powerRZ 10 (-3); IZR 400 * powerRZ 10 (-3)]%R.
Proof.
  exists [100; -200; 300; 400], (-3). split; [eapply (has_at _ _ _ _ 7 "vel" 36); reflexivity|]. split; [eapply (has_at _ _ _ _ 7 "vel_scale" 28); reflexivity|]. split; [lia|reflexivity].
Qed.
Lemma standing num : upright (conf0 64) (ping 64 10 [0; 0; 0; 0] four num).
Proof.
  split; [apply no_matrix; [reflexivity|cbn; intuition discriminate]|]. exists 9000, 0, 0.
  split; [eapply (has_at _ _ _ _ num "heading" 14); reflexivity|]. split; [eapply (has_at _ _ _ _ num "pitch" 15); reflexivity|]. split; [eapply (has_at _ _ _ _ num "roll" 16); reflexivity|].
  assert (Z0 : (PI * hundredths 0 / 180 = 0)%R) by (unfold hundredths; field). rewrite Z0, cos_0. lra.
Qed.
Example C176_earth_declination_reached : exists D d', open_signature 0 "Signature1000" (Some 10%R) (S (length (file0 64 10 [0; 0; 0; 0] four))) fh0 false false true None (file0 64 10 [0; 0; 0; 0] four) 1 None = Some (Rotate.Ok D) /\
  Rotate.rotate2 D "earth" = Rotate.Ok d' /\ Rotate.value d' "vel" 1 0 = Some (Rotate.clockwise 10 [IZR 100 * powerRZ 10 (-3); IZR (-200) * powerRZ 10 (-3); IZR 300 * powerRZ 10 (-3); IZR 400 * powerRZ 10 (-3)]%R).
Proof.
  destruct (C176_earth_declination_partial (conf0 64) [21] (pings 64 10 [0; 0; 0; 0] four) (file0 64 10 [0; 0; 0; 0] four) true None 1 None (S (length (file0 64 10 [0; 0; 0; 0] four))) 1 "down" fh0 false 0%R "Signature1000" 10%R
    C176_earth_file (or_introl eq_refl) (Nat.lt_succ_diag_r _) model1000) as (D & d' & E1 & _ & E3 & V).
  - split; [reflexivity|]. repeat (apply Forall_cons; [reflexivity|]). apply Forall_nil.
  - cbn. lra.
  - intros k p I _. destruct (in_pings _ _ _ _ k p I) as (num & ->). apply standing.
  - exists D, d'. split; [exact E1|]. split; [exact E3|]. exact (V 1%nat _ _ 0%nat _ (at_1 64 10 [0; 0; 0; 0] four) eq_refl earth_matrix earth_velocity).
Qed.
(** and the accelerations: gravity along z *)
Lemma gravity hi st ang vel : (hi = 72 /\ st = 10 /\ ang = tilts \/ hi = 64 /\ st = 10 /\ ang = [0; 0; 0; 0]) -> vel = four ->
  ping_accel (conf0 hi) (ping hi st ang vel 7) [IZR 0 * (981 / 100 / 16384); IZR 0 * (981 / 100 / 16384); IZR 16384 * (981 / 100 / 16384)]%R.
Proof.
  intros [(-> & -> & ->)|(-> & -> & ->)] ->; exists [0; 0; 16384]; (split; [eapply (has_at _ _ _ _ 7 "accel" 24); reflexivity|reflexivity]).
Qed.
Example C176_sensors_reached : exists D d', open_signature 0 "Signature1000" None (S (length (file0 72 10 tilts four))) fh0 false false true None (file0 72 10 tilts four) 1 None = Some (Rotate.Ok D) /\
  Rotate.rotate2 D "earth" = Rotate.Ok d' /\ Rotate.value d' "accel" 1 0 = Some (enu3 (attitude_matrix (hundredths 9000) (hundredths (-100)) (hundredths 200)) true
    [IZR 0 * (981 / 100 / 16384); IZR 0 * (981 / 100 / 16384); IZR 16384 * (981 / 100 / 16384)]%R).
Proof.
  destruct (C176_sensors_partial (conf0 72) [21] (pings 72 10 tilts four) (file0 72 10 tilts four) true None 1 None (S (length (file0 72 10 tilts four))) 1 "beam" "down" fh0 false 0%R "Signature1000" None
    C176_beam_file (or_introl eq_refl) (Nat.lt_succ_diag_r _) model1000 (fun _ => eq_refl)) as (D & d' & E1 & _ & E3 & V); [discriminate|].
  exists D, d'. split; [exact E1|]. split; [exact E3|]. exact (proj1 (V 1%nat _ _ _ (at_1 72 10 tilts four) eq_refl beam_matrix) (gravity 72 10 tilts four (or_introl (conj eq_refl (conj eq_refl eq_refl))) eq_refl)).
Qed.
(** a file in earth coordinates: velocities are along east, north and up, but not accelerations, though both are called 'earth' *)
Theorem C176_earth_files_sensors_refuted : exists conf ids enss file start stop nc fh model k p A x D d',
  bursts conf ids enss file start stop 4 nc "earth" "down" /\ signature_model model /\
  open_signature 0 model None (S (length file)) fh false false true None file start stop = Some (Rotate.Ok D) /\ Rotate.coord_sys D = "earth"%string /\ Rotate.rotate2 D "earth" = Rotate.Ok d' /\
  in_ping enss start stop k p /\ p_id p = 21 /\ ping_matrix conf p A /\ ping_accel conf p x /\
  Rotate.value d' "accel" k 0 <> Some (enu3 A true x).
Proof.
  destruct (SigEarth.opened_earth (conf0 64) [21] (pings 64 10 [0; 0; 0; 0] four) (file0 64 10 [0; 0; 0; 0] four) true None 1 None (S (length (file0 64 10 [0; 0; 0; 0] four))) 1 "earth" "down" fh0 false 0%R "Signature1000" None
    C176_earth_file (or_introl eq_refl) (Nat.lt_succ_diag_r _) model1000) as (D & d' & E1 & E2 & E3 & V); [discriminate|left; reflexivity|].
  exists (conf0 64), [21], (pings 64 10 [0; 0; 0; 0] four), (file0 64 10 [0; 0; 0; 0] four), 1%nat, None, 1%nat, fh0, "Signature1000"%string, 1%nat, (ping 64 10 [0; 0; 0; 0] four 7). eexists. eexists. exists D, d'.
  split; [exact C176_earth_file|]. split; [exact model1000|]. split; [exact E1|]. split; [exact E2|]. split; [exact E3|]. split; [apply at_1|]. split; [reflexivity|]. split; [exact earth_matrix|].
  pose proof (gravity 64 10 [0; 0; 0; 0] four (or_intror (conj eq_refl (conj eq_refl eq_refl))) eq_refl) as G. split; [exact G|].
  pose proof (proj2 (V 1%nat _ _ (at_1 64 10 [0; 0; 0; 0] four) eq_refl earth_matrix) "accel"%string _ (or_introl (conj eq_refl G))) as W.
  rewrite W. intros E.
  assert (X : forall a b : list R, Some a = Some b -> nth 2 a 0%R = nth 2 b 0%R) by (intros a b Eab; injection Eab as <-; reflexivity). apply X in E. clear - E.
  unfold enu3, product, NortekEarth.product, attitude_matrix, NortekEarth.heading_matrix, NortekEarth.tilt_matrix, signs in E. cbn [map combine fold_right fst snd nth seq] in E.
  change (String.eqb "earth" "earth") with true in E. cbn [SigEarth.decl nth] in E.
  assert (Z0 : (PI * hundredths 0 / 180 = 0)%R) by (unfold hundredths; field). rewrite Z0, cos_0, sin_0 in E. lra.
Qed.
(** three beams *)
Theorem C176_three_beams_refuted : exists conf ids enss file start stop nc fh model, bursts conf ids enss file start stop 3 nc "inst" "up" /\ signature_model model /\
  forall D, open_signature 0 model None (S (length file)) fh false false true None file start stop <> Some (Rotate.Ok D).
Proof.
  exists (conf0 52), [21], (pings 52 8 tilts three), (file0 52 8 tilts three), 1%nat, None, 1%nat, fh0, "Signature1000"%string. split; [exact C176_three_file|]. split; [exact model1000|]. intros D.
  destruct (C176_three_beams (conf0 52) [21] (pings 52 8 tilts three) (file0 52 8 tilts three) true None 1 None (S (length (file0 52 8 tilts three))) 1 "inst" "up" fh0 false 0%R "Signature1000" None
    C176_three_file (or_introl eq_refl) (Nat.lt_succ_diag_r _) model1000) as (D' & E); [discriminate|]. rewrite E. discriminate.
Qed.

(** All the theorems of this file, for one listing of axioms. *)
Definition all_theorems :=
  (@C176_velocities_partial,
   @C176_earth_declination_partial,
   @C176_sensors_partial,
   @C176_three_beams,
   @C176_earth_files_sensors_refuted,
   @C176_three_beams_refuted).
Print Assumptions all_theorems.
