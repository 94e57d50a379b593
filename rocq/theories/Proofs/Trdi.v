(** TRDI files as a whole: the dataset and its velocities in earth coordinates. *)
From Coq Require Import String.
From Coq Require Import ZArith QArith Qround Qreals Reals List Bool Lia Lra.
From Verif.Model Require Import Linalg Rotate Euler RdiPost.
From Verif.Spec Require Import Linalg Rotate.
From Verif.Model Require Import Nortek RdiBlocks RdiFile ReadRdi.
From Verif.Spec Require Rdi Trdi.
From Verif.Model Require Time.
From Verif.Proofs Require Time Linalg Euler Rotate RotateProps RotateValues Declination RdiTop RdiPost RdiBlocks RdiFile RdiValues.
Import ListNotations.
Open Scope string_scope.
Open Scope list_scope.
Open Scope Z_scope.

(** ** Names *)
Lemma trdi_make fixed : standard_make Rotate.Rdi ("trdi " ++ Rdi.instrument fixed).
Proof.
  assert (G : forallb (fun nm => contains "rdi" ("trdi " ++ nm) && negb (contains "vector" ("trdi " ++ nm)) && negb (contains "awac" ("trdi " ++ nm)) && negb (contains "signature" ("trdi " ++ nm)) && negb (contains "ad2cp" ("trdi " ++ nm)))
    ("unrecognized firmware version" :: map fst Rdi.instruments) = true) by (vm_compute; reflexivity).
  assert (I : In (Rdi.instrument fixed) ("unrecognized firmware version" :: map fst Rdi.instruments)).
  { unfold Rdi.instrument. destruct (find _ _) as [p|] eqn:F; [|now left]. apply find_some in F. right. apply in_map. apply F. }
  rewrite forallb_forall in G. specialize (G _ I). repeat (apply andb_prop in G; destruct G as [G ?H]). apply negb_true_iff in H, H0, H1, H2.
  split; [|exact G]. unfold family_of. now rewrite H2, H1, H0, H, G.
Qed.
Lemma frame_cases fixed : In (Trdi.frame fixed) ["beam"; "inst"; "ship"; "earth"].
Proof.
  unfold Trdi.frame. apply nth_In. unfold Rdi.code. pose proof (Z.mod_pos_bound (Rdi.uint fixed 26 1 / 2 ^ 3) (2 ^ 2) ltac:(lia)) as B. change (2 ^ 2) with 4 in *. cbn [length]. lia.
Qed.

(** ** The dataset *)
Definition before_declination (nan : R) (u : option R) (cols : list column) (b : bytes) (n : Z) : Rotate.ds :=
  let data := (if was_read cols "vel" then [("vel", profiles nan (Z.to_nat n) cols "vel")] else []) ++
              (if was_read cols "vel_bt" then [("vel_bt", profiles nan 1 cols "vel_bt")] else []) in
  Rotate.Ds ("trdi " ++ Rdi.instrument b) (Rdi.instrument b) (Trdi.frame b) (axis_labels Rotate.Rdi (if String.eqb (Trdi.frame b) "ship" then "inst" else Trdi.frame b) ["1"; "2"; "3"; "4"]) None ["1"; "2"; "3"; "4"]
    (if Trdi.upward b then "up" else "down") (rdi_beam_mat (deg2rad (IZR (Trdi.beam_angle b))) (Trdi.convex b))
    (map (fun c => rdi_orientmat (scalar nan "heading" c) (scalar nan "pitch" c) (scalar nan "roll" c) (Trdi.upward b) (String.eqb (Trdi.frame b) "ship" && Trdi.tilts_applied b)) cols)
    (Some (map (scalar nan "heading") cols)) None false None u ("vel" :: (if was_read cols "vel_bt" then ["vel_bt"] else [])) data.
Lemma contains_trdi b : contains "rdi" ("trdi " ++ Rdi.instrument b) = true.
Proof. apply trdi_make. Qed.
Lemma labels_trdi b : labels ("trdi " ++ Rdi.instrument b) (Trdi.frame b) ["1"; "2"; "3"; "4"] =
  Some (axis_labels Rotate.Rdi (if String.eqb (Trdi.frame b) "ship" then "inst" else Trdi.frame b) ["1"; "2"; "3"; "4"]).
Proof.
  unfold labels, is_rdi. rewrite contains_trdi. pose proof (frame_cases b) as F. cbn [In] in F. destruct F as [<-|[<-|[<-|[<-|[]]]]]; reflexivity.
Qed.

Section File.
Context (n : Z) (xs : list Rdi.pd0) (last : Rdi.pd0) (m : Z) (fixed : bytes) (Rd : Trdi.readable n xs last m fixed).
Let b := Rdi.block_bytes (0, fixed).
Let file := Rdi.file_of (xs ++ [last]).

Lemma xs_some : xs <> [].
Proof using Rd. destruct (Trdi.with_velocities _ _ _ _ _ Rd) as (i & f & r & d & (_ & x & X & _) & _). intros ->. destruct i; discriminate. Qed.
Lemma read_it : exists cols s, read_rdi file (Some m) false false = Ret (cols, s) /\ length cols = Nat.min (Z.to_nat m) (length xs) /\
  (forall nm v, In (nm, v) (Rdi.settings b) -> lookup nm (attributes s) = Some v) /\
  range_coordinate s = map (fun k => (inject_Z (Rdi.uint b 33 2) * (1 # 100) + inject_Z (Z.of_nat k) * (inject_Z (Rdi.uint b 13 2) * (1 # 100)))%Q) (seq 0 (Z.to_nat n)).
Proof.
  destruct (Trdi.all_sound _ _ _ _ _ Rd) as [So La]. pose proof (Trdi.cells_ok _ _ _ _ _ Rd) as N. pose proof (Trdi.some_asked _ _ _ _ _ Rd) as M.
  destruct (RdiTop.all_but_last n xs last m N La So xs_some M) as (cols & s & E & L). exists cols, s. split; [exact E|].
  assert (L' : length cols = Nat.min (Z.to_nat m) (length xs)) by lia. split; [exact L'|].
  destruct (Trdi.last_settings _ _ _ _ _ Rd) as (rest & I & x & X & B).
  assert (P : (1 <= length cols)%nat). { pose proof xs_some as Ne. assert (length xs <> 0)%nat by (intros Z0; apply length_zero_iff_nil in Z0; now apply Ne). lia. }
  exact (RdiTop.settings_at n xs last m cols s _ x fixed rest N La So E X ltac:(lia) B M).
Qed.
Lemma read_shape cols s : read_rdi file (Some m) false false = Ret (cols, s) -> 
  (forall i f r nm fld data, Trdi.ensemble_at xs m i f r -> In (Rdi.f_id fld, data) r -> In (nm, fld) (Rdi.variables (Rdi.block_bytes (0, f))) ->
     nth_error (variable cols nm) i = Some (Some (Rdi.field_value fld (Rdi.block_bytes (Rdi.f_id fld, data))))) /\
  (forall i f r data, Trdi.ensemble_at xs m i f r -> In (128, data) r -> Trdi.dated f data -> nth_error (map ctime cols) i = Some (Trdi.time f data)).
Proof.
  intros E. destruct (Trdi.all_sound _ _ _ _ _ Rd) as [So La]. pose proof (Trdi.cells_ok _ _ _ _ _ Rd) as N. split.
  - intros i f r nm fld data (I & x & X & B) D T. exact (RdiTop.value_at n xs last m cols s i x f r N La So E X I B nm fld data D T).
  - intros i f r data (I & x & X & B) D Y. exact (RdiTop.time_at n xs last m cols s i x f r N La So E X I B data D Y).
Qed.
Lemma variable_some cols nm i v : nth_error (variable cols nm) i = Some (Some v) -> was_read cols nm = true /\ exists c, nth_error cols i = Some c /\ lookup nm (cvals c) = Some v.
Proof.
  unfold variable, was_read. rewrite nth_error_map. destruct (nth_error cols i) as [c|] eqn:E; [|discriminate]. cbn [option_map]. intros H. injection H as H.
  split; [|now exists c]. apply existsb_exists. exists c. split; [now apply nth_error_In in E|now rewrite H].
Qed.
Lemma sound_cells i f r : Trdi.ensemble_at xs m i f r -> Rdi.cells (Rdi.block_bytes (0, f)) = n.
Proof.
  intros (I & x & X & B). destruct (Trdi.all_sound _ _ _ _ _ Rd) as [So _]. rewrite Forall_forall in So. destruct (Rdi.has_fixed n x (So x (nth_error_In _ _ X))) as (f' & r' & B' & _ & C & _).
  rewrite B in B'. injection B' as <- <-. exact C.
Qed.
Lemma block_bytes_ok i f r data : Trdi.ensemble_at xs m i f r -> In (128, data) r -> Forall Rdi.is_byte (Rdi.block_bytes (128, data)).
Proof.
  intros (_ & x & X & B) I. destruct (Trdi.all_sound _ _ _ _ _ Rd) as [So _]. rewrite Forall_forall in So. destruct (Rdi.bytes_ok n x (So x (nth_error_In _ _ X))) as (_ & _ & _ & Ok0).
  rewrite B, Forall_forall in Ok0. specialize (Ok0 (128, data) (or_intror I)). cbn [fst snd] in Ok0. unfold Rdi.block_bytes. cbn [fst snd].
  apply Forall_app. split; [|apply Ok0]. apply Forall_forall. intros y Y. cbv in Y. unfold Rdi.is_byte. intuition lia.
Qed.
Lemma has_vel cols s : read_rdi file (Some m) false false = Ret (cols, s) -> was_read cols "vel" = true.
Proof.
  intros E. destruct (Trdi.with_velocities _ _ _ _ _ Rd) as (i & f & r & d & A & D).
  refine (proj1 (variable_some cols "vel" i _ (proj1 (read_shape cols s E) i f r "vel" (Rdi.Field 256 3 2 true (Z.to_nat (4 * Rdi.cells (Rdi.block_bytes (0, f)))) (1 # 1000) (Some (-32768))) d A D _))).
  unfold Rdi.variables. apply in_or_app. left. do 11 right. now left.
Qed.
Lemma finish_it nan u cols s : read_rdi file (Some m) false false = Ret (cols, s) -> length cols = Nat.min (Z.to_nat m) (length xs) ->
  (forall nm v, In (nm, v) (Rdi.settings b) -> lookup nm (attributes s) = Some v) ->
  read_trdi nan u file (Some m) = (do d <- of_res (set_rdi_declination (Q2R (inject_Z (Trdi.variation b) * (1 # 100))) (before_declination nan u cols b n));
    Ret (Dataset (map time_of_column cols) (range_coordinate s) d)).
Proof.
  intros E L St. unfold read_trdi. rewrite E. cbn [RdiBlocks.bind]. unfold finish.
  destruct (Trdi.first_time _ _ _ _ _ Rd) as (f0 & r0 & l0 & A0 & D0 & Y0 & T0). pose proof (proj2 (read_shape cols s E) _ _ _ _ A0 D0 Y0) as C0.
  destruct cols as [|c0 cols']; [discriminate|]. cbn [map nth_error] in C0. cbn [hd_error or_raise RdiBlocks.bind].
  assert (C1 : ctime c0 = Trdi.time f0 l0) by congruence. rewrite C1. destruct (Trdi.time f0 l0) as [t|]; [|congruence]. cbn [or_raise RdiBlocks.bind].
  unfold cfg_s, cfg_z, cfg_q.
  assert (Hm : lookup "inst_model" (attributes s) = Some (CS (Rdi.instrument b))) by (apply St; unfold Rdi.settings; rewrite !in_app_iff; do 4 right; now left).
  assert (Hc : lookup "coord_sys" (attributes s) = Some (CS (Trdi.frame b))) by (apply St; unfold Rdi.settings; apply in_or_app; left; do 16 right; now left).
  assert (Ha : lookup "beam_angle" (attributes s) = Some (CZ (Trdi.beam_angle b))).
  { apply St. unfold Rdi.settings. apply in_or_app. left. do 4 right. left. unfold Trdi.beam_angle. now destruct (Qle_bool (1627 # 100) (Rdi.firmware b)). }
  assert (Hp : lookup "beam_pattern" (attributes s) = Some (CS (if Trdi.convex b then "convex" else "concave"))) by (apply St; unfold Rdi.settings; apply in_or_app; left; do 2 right; now left).
  assert (Ho : lookup "orientation" (attributes s) = Some (CS (if Trdi.upward b then "up" else "down"))) by (apply St; unfold Rdi.settings; apply in_or_app; left; do 3 right; now left).
  assert (Ht : lookup "use_pitchroll" (attributes s) = Some (CS (if Trdi.tilts_applied b then "yes" else "no"))) by (apply St; unfold Rdi.settings; apply in_or_app; left; do 17 right; now left).
  assert (Hv : lookup "magnetic_var_deg" (attributes s) = Some (CQ (inject_Z (Trdi.variation b) * (1 # 100)))) by (apply St; unfold Rdi.settings; apply in_or_app; left; do 21 right; now left).
  assert (Hn : lookup "n_beams" (attributes s) = Some (CZ (Rdi.uint b 9 1 + (if Rdi.bit b 6 4 then 1 else 0)))) by (apply St; unfold Rdi.settings; apply in_or_app; left; do 5 right; now left).
  assert (Hk : lookup "n_cells" (attributes s) = Some (CZ (Rdi.cells b))) by (apply St; unfold Rdi.settings; apply in_or_app; left; do 6 right; now left).
  rewrite Hm, Hc, Ha, Hp, Ho, Ht, Hv, Hn, Hk. cbn [RdiBlocks.bind].
  destruct (Trdi.usual_settings _ _ _ _ _ Rd) as [Fb _]. unfold Trdi.four_beams in Fb. fold b in Fb. rewrite (proj2 (Z.leb_le _ _) Fb). cbn [check RdiBlocks.bind].
  assert (Cn : Rdi.cells b = n) by (destruct (Trdi.last_settings _ _ _ _ _ Rd) as (rest & A); exact (sound_cells _ _ _ A)). rewrite Cn.
  assert (Ec : String.eqb (if Trdi.convex b then "convex" else "concave") "convex" = Trdi.convex b) by now destruct (Trdi.convex b).
  assert (Eu : String.eqb (if Trdi.upward b then "up" else "down") "up" = Trdi.upward b) by now destruct (Trdi.upward b).
  assert (Et : String.eqb (if Trdi.tilts_applied b then "yes" else "no") "yes" = Trdi.tilts_applied b) by now destruct (Trdi.tilts_applied b).
  rewrite Ec, Eu, Et. unfold set_coords. cbn [make_model beam_labels Rotate.dir dirIMU]. rewrite labels_trdi.
  assert (Ll : length (axis_labels Rotate.Rdi (if String.eqb (Trdi.frame b) "ship" then "inst" else Trdi.frame b) ["1"; "2"; "3"; "4"]) = 4%nat).
  { pose proof (frame_cases b) as F. cbn [In] in F. destruct F as [<-|[<-|[<-|[<-|[]]]]]; reflexivity. }
  rewrite Ll. cbn [length Nat.eqb of_res RdiBlocks.bind]. reflexivity.
Qed.
End File.

(** ** Rotating *)
Lemma earth_self D d' : admissible Rotate.Rdi D -> coord_sys D = "earth" -> rotate2 D "earth" = Ok d' -> d' = D.
Proof.
  intros A C H. destruct (Rotate.rotate2_inv Rotate.Rdi D 2 "earth" d' A C ltac:(lia) H) as (j & Hj & E & _ & ->).
  assert (j = 2)%nat as -> by (destruct j as [|[|[|[|?]]]]; try lia; cbv in E; discriminate). now apply Rotate.goto_self.
Qed.
Lemma beam_steps D d' : admissible Rotate.Rdi D -> coord_sys D = "beam" -> rotate2 D "earth" = Ok d' ->
  exists d1, rotate2 D "inst" = Ok d1 /\ rotate2 d1 "earth" = Ok d' /\ admissible Rotate.Rdi d1 /\ coord_sys d1 = "inst" /\
    rotate_vars d1 = rotate_vars D /\ orientmat d1 = orientmat D.
Proof.
  intros A C H. destruct (Rotate.reaches Rotate.Rdi D "inst" A) as (d1 & H1 & C1).
  { split; [apply A|rewrite C; discriminate]. } { split; [right; now left|discriminate]. }
  exists d1. split; [exact H1|]. pose proof (proj1 (Rotate.round_trip _ _ _ _ A H1)) as A1. change (lower "inst") with "inst" in C1.
  destruct (Rotate.reaches Rotate.Rdi d1 "earth" A1) as (d2 & H2 & C2).
  { split; [apply A1|rewrite C1; discriminate]. } { split; [do 2 right; now left|discriminate]. }
  assert (d2 = d') as -> by (pose proof (Rotate.route _ _ _ _ _ _ A H1 H2); congruence).
  split; [exact H2|]. split; [exact A1|]. split; [exact C1|].
  destruct (Rotate.rotate2_inv Rotate.Rdi D 0 "inst" d1 A C ltac:(lia) H1) as (j & _ & _ & _ & ->). split; reflexivity.
Qed.
Open Scope R_scope.
Lemma vec4_ext (a b c d a' b' c' d' : R) : a = a' -> b = b' -> c = c' -> d = d' -> [a; b; c; d] = [a'; b'; c'; d'].
Proof. now intros -> -> -> ->. Qed.
Lemma orient_value h p r up v1 v2 v3 v4 :
  Spec.Rotate.in_earth (rdi_orientmat h p r up false) (firstn 3 [v1; v2; v3; v4]) ++ skipn 3 [v1; v2; v3; v4] = Trdi.earth_velocity h p r up v1 v2 v3 ++ [v4].
Proof.
  assert (E : deg2rad (r + 180) = deg2rad r + PI) by (unfold deg2rad; field). unfold Trdi.earth_velocity, rdi_orientmat. cbv zeta.
  replace (cos (deg2rad (if up then r + 180 else r))) with (cos (if up then deg2rad r + PI else deg2rad r)) by (destruct up; [now rewrite E|reflexivity]).
  replace (sin (deg2rad (if up then r + 180 else r))) with (sin (if up then deg2rad r + PI else deg2rad r)) by (destruct up; [now rewrite E|reflexivity]).
  cbn -[atan tan cos sin deg2rad PI]. apply vec4_ext; ring.
Qed.
Lemma level_value h p r up v1 v2 v3 v4 :
  Spec.Rotate.in_earth (rdi_orientmat h p r up true) (firstn 3 [v1; v2; v3; v4]) ++ skipn 3 [v1; v2; v3; v4] = Trdi.turned h v1 v2 v3 ++ [v4].
Proof. rewrite Euler.rdi_level. cbn -[cos sin deg2rad]. apply vec4_ext; ring. Qed.
Lemma beam_value th cv v1 v2 v3 v4 : mv (rdi_beam_mat (deg2rad th) cv) [v1; v2; v3; v4] = Trdi.instrument_velocity th cv v1 v2 v3 v4.
Proof.
  unfold Trdi.instrument_velocity, rdi_beam_mat. cbv zeta. generalize (1 / (2 * sin (deg2rad th))). intros a. generalize (1 / (4 * cos (deg2rad th))). intros c.
  generalize (if cv then 1 else -1). intros s. generalize (a / sqrt 2). intros e. cbn. apply vec4_ext; ring.
Qed.
Lemma angle_ok z : (0 < z < 90)%Z -> sin (deg2rad (IZR z)) <> 0 /\ cos (deg2rad (IZR z)) <> 0.
Proof.
  intros [A B]. apply IZR_lt in A, B. pose proof PI_RGT_0.
  assert (0 < deg2rad (IZR z) < PI / 2) by (unfold deg2rad; split; nra).
  split; apply Rgt_not_eq; [apply sin_gt_0|apply cos_gt_0]; lra.
Qed.
Close Scope R_scope.

(** ** The values *)
Lemma nth_map_seq {A} (g : nat -> A) n j d : (j < n)%nat -> nth j (map g (seq 0 n)) d = g j.
Proof. intros H. rewrite (nth_indep _ d (g 0%nat)) by (rewrite map_length, seq_length; exact H). rewrite map_nth, seq_nth by exact H. reflexivity. Qed.
Lemma nth_error_map_seq {A} (g : nat -> A) n j : (j < n)%nat -> nth_error (map g (seq 0 n)) j = Some (g j).
Proof. intros H. rewrite (nth_error_nth' _ (g 0%nat)) by (rewrite map_length, seq_length; exact H). now rewrite nth_map_seq. Qed.
Lemma milli z : Q2R (inject_Z z * (1 # 1000)) = (IZR z / 1000)%R.
Proof. unfold Q2R, Qmult, inject_Z. cbn [Qnum Qden]. rewrite Z.mul_1_r. now rewrite Pos.mul_1_l. Qed.
Lemma centi z : Q2R (inject_Z z * (1 # 100)) = (IZR z / 100)%R.
Proof. unfold Q2R, Qmult, inject_Z. cbn [Qnum Qden]. rewrite Z.mul_1_r. now rewrite Pos.mul_1_l. Qed.

Section Values.
Context (n : Z) (xs : list Rdi.pd0) (last : Rdi.pd0) (m : Z) (fixed : bytes) (Rd : Trdi.readable n xs last m fixed).
Context (nan : R) (u : option R) (cols : list column) (s : st).
Let b := Rdi.block_bytes (0, fixed).
Let file := Rdi.file_of (xs ++ [last]).
Context (E : read_rdi file (Some m) false false = Ret (cols, s)).
Let D := before_declination nan u cols b n.

Lemma vel_value i f r data k : Trdi.ensemble_at xs m i f r -> In (256, data) r -> (k < Z.to_nat n)%nat -> Trdi.valid (Rdi.block_bytes (256, data)) k ->
  value D "vel" i k = Some [Trdi.velocity (Rdi.block_bytes (256, data)) k 0; Trdi.velocity (Rdi.block_bytes (256, data)) k 1; Trdi.velocity (Rdi.block_bytes (256, data)) k 2; Trdi.velocity (Rdi.block_bytes (256, data)) k 3].
Proof.
  intros A I K V. pose proof (proj1 (read_shape n xs last m fixed Rd cols s E) i f r "vel" (Rdi.Field 256 3 2 true (Z.to_nat (4 * Rdi.cells (Rdi.block_bytes (0, f)))) (1 # 1000) (Some (-32768))) data A I) as H.
  cbn [Rdi.f_id] in H. specialize (H ltac:(unfold Rdi.variables; apply in_or_app; left; do 11 right; now left)).
  pose proof (variable_some _ _ _ _ H) as [W _]. unfold value, D, before_declination, Rotate.data. cbv zeta. rewrite W. cbn [app Rotate.lookup]. change (String.eqb "vel" "vel") with true. cbn iota.
  unfold profiles, Rotate.cells. rewrite nth_error_map, H. cbn [option_map]. unfold profile_of. rewrite nth_error_map_seq by exact K. f_equal. cbn [seq map].
  rewrite (sound_cells n xs last m fixed Rd _ _ _ A). unfold Rdi.field_value. cbn [Rdi.f_count]. rewrite !nth_map_seq by lia.
  assert (G : forall j, (j < 4)%nat -> num nan (Rdi.field_at (Rdi.Field 256 3 2 true (Z.to_nat (4 * n)) (1 # 1000) (Some (-32768))) (Rdi.block_bytes (256, data)) (4 * k + j)) = Trdi.velocity (Rdi.block_bytes (256, data)) k j).
  { intros j J. specialize (V j J). unfold Rdi.field_at. cbn [Rdi.f_signed Rdi.f_byte Rdi.f_width Rdi.f_missing Rdi.f_scale]. unfold Trdi.recorded in V.
    replace (3 + (4 * k + j) * 2)%nat with (3 + 8 * k + 2 * j)%nat by lia. destruct (Z.eqb_spec (Rdi.sint (Rdi.block_bytes (256, data)) (3 + 8 * k + 2 * j) 2) (-32768)) as [e|e]; [now rewrite e in V|].
    cbn [num]. apply milli. }
  now rewrite !G by lia.
Qed.
Lemma bt_value i f r data : Trdi.ensemble_at xs m i f r -> In (1536, data) r -> In "vel_bt" (rotate_vars D) /\
  value D "vel_bt" i 0 = Some [Trdi.bottom (Rdi.block_bytes (1536, data)) 0; Trdi.bottom (Rdi.block_bytes (1536, data)) 1; Trdi.bottom (Rdi.block_bytes (1536, data)) 2; Trdi.bottom (Rdi.block_bytes (1536, data)) 3].
Proof.
  intros A I. pose proof (proj1 (read_shape n xs last m fixed Rd cols s E) i f r "vel_bt" (Rdi.Field 1536 25 2 true 4 (1 # 1000) None) data A I) as H.
  specialize (H ltac:(unfold Rdi.variables; apply in_or_app; left; do 16 right; now left)).
  pose proof (variable_some _ _ _ _ H) as [W _]. unfold value, D, before_declination, Rotate.data, rotate_vars. cbv zeta. rewrite W, (has_vel n xs last m fixed Rd cols s E).
  split; [right; now left|]. cbn [app Rotate.lookup]. change (String.eqb "vel_bt" "vel") with false. change (String.eqb "vel_bt" "vel_bt") with true. change (String.eqb "vel" "vel_bt") with false. cbn iota.
  unfold profiles, Rotate.cells. rewrite nth_error_map, H. cbn [option_map]. unfold profile_of. cbn [seq map nth_error]. f_equal.
  unfold Rdi.field_value. cbn [Rdi.f_count seq map Nat.mul Nat.add nth]. unfold Rdi.field_at. cbn [Rdi.f_signed Rdi.f_byte Rdi.f_width Rdi.f_missing Rdi.f_scale num].
  apply vec4_ext; apply milli.
Qed.
Lemma angle_values i f r data c : Trdi.ensemble_at xs m i f r -> In (128, data) r -> nth_error cols i = Some c ->
  scalar nan "heading" c = Trdi.heading (Rdi.block_bytes (128, data)) /\ scalar nan "pitch" c = Trdi.pitch (Rdi.block_bytes (128, data)) /\ scalar nan "roll" c = Trdi.roll (Rdi.block_bytes (128, data)).
Proof.
  intros A I C.
  assert (G : forall nm fld, Rdi.f_id fld = 128 -> In (nm, fld) (Rdi.variables (Rdi.block_bytes (0, f))) -> lookup nm (cvals c) = Some (Rdi.field_value fld (Rdi.block_bytes (128, data)))).
  { intros nm fld F T. rewrite <- F in I. pose proof (proj1 (read_shape n xs last m fixed Rd cols s E) i f r nm fld data A I T) as H. rewrite F in H.
    unfold variable in H. rewrite nth_error_map, C in H. cbn [option_map] in H. congruence. }
  unfold scalar. rewrite (G "heading" (Rdi.Field 128 19 2 false 1 (1 # 100) None) eq_refl) by (unfold Rdi.variables; apply in_or_app; left; do 2 right; now left).
  rewrite (G "pitch" (Rdi.Field 128 21 2 true 1 (1 # 100) None) eq_refl) by (unfold Rdi.variables; apply in_or_app; left; do 3 right; now left).
  rewrite (G "roll" (Rdi.Field 128 23 2 true 1 (1 # 100) None) eq_refl) by (unfold Rdi.variables; apply in_or_app; left; do 4 right; now left).
  unfold Rdi.field_value. cbn [Rdi.f_count seq map]. unfold Rdi.field_at. cbn [Rdi.f_signed Rdi.f_byte Rdi.f_width Rdi.f_missing Rdi.f_scale num Nat.mul Nat.add].
  repeat split; apply centi.
Qed.
Lemma orient_at i f r data : Trdi.ensemble_at xs m i f r -> In (128, data) r ->
  nth_error (orientmat D) i = Some (rdi_orientmat (Trdi.heading (Rdi.block_bytes (128, data))) (Trdi.pitch (Rdi.block_bytes (128, data))) (Trdi.roll (Rdi.block_bytes (128, data)))
    (Trdi.upward b) (String.eqb (Trdi.frame b) "ship" && Trdi.tilts_applied b)).
Proof.
  intros A I. pose proof (proj1 (read_shape n xs last m fixed Rd cols s E) i f r "heading" (Rdi.Field 128 19 2 false 1 (1 # 100) None) data A I) as H.
  specialize (H ltac:(unfold Rdi.variables; apply in_or_app; left; do 2 right; now left)). destruct (variable_some _ _ _ _ H) as [_ (c & C & _)].
  unfold D, before_declination. cbv zeta. unfold orientmat. rewrite nth_error_map, C. cbn [option_map]. destruct (angle_values i f r data c A I C) as (-> & -> & ->). reflexivity.
Qed.
(** the same with the ship frame called an instrument frame *)
Definition levelled (d : Rotate.ds) : Rotate.ds := if String.eqb (coord_sys d) "ship" then set_cs d "inst" (dir d) (dirIMU d) else d.
Lemma shaped_profiles k nm : shaped (length cols) (profiles nan k cols nm).
Proof.
  split; unfold profiles; cbn [Rotate.cells ncomp]; [unfold variable; now rewrite !map_length|].
  apply Forall_map, Forall_forall. intros row _. unfold profile_of. apply Forall_map, Forall_forall. intros j _. reflexivity.
Qed.
Lemma D_adm : admissible Rotate.Rdi (levelled D).
Proof.
  assert (F : coord_sys D = Trdi.frame b) by reflexivity. pose proof (has_vel n xs last m fixed Rd cols s E) as W.
  assert (K : coord_sys (levelled D) = (if String.eqb (Trdi.frame b) "ship" then "inst" else Trdi.frame b)) by (unfold levelled; rewrite F; now destruct (String.eqb (Trdi.frame b) "ship")).
  assert (X : make_model (levelled D) = make_model D /\ dir (levelled D) = dir D /\ dirIMU (levelled D) = None /\ beam_labels (levelled D) = beam_labels D /\ beam2inst (levelled D) = beam2inst D /\
    orientmat (levelled D) = orientmat D /\ Rotate.data (levelled D) = Rotate.data D /\ rotate_vars (levelled D) = rotate_vars D /\ inst2head (levelled D) = None).
  { unfold levelled. destruct (String.eqb (coord_sys D) "ship"); repeat split. }
  destruct X as (X1 & X2 & X3 & X4 & X5 & X6 & X7 & X8 & X9).
  constructor.
  - rewrite X1. apply trdi_make.
  - rewrite K. pose proof (frame_cases b) as G. cbn [In] in G. destruct G as [<-|[<-|[<-|[<-|[]]]]]; cbv; auto.
  - rewrite X2, X4, K. reflexivity.
  - now left.
  - rewrite X4. reflexivity.
  - exists 4%nat. split; [now right|]. rewrite X5. destruct (Trdi.usual_settings _ _ _ _ _ Rd) as [_ An]. fold b in An. destruct (angle_ok _ An) as [Hs Hc]. split.
    + split; [reflexivity|]. unfold D, before_declination, beam2inst, rdi_beam_mat. cbv zeta. repeat apply Forall_cons; try apply Forall_nil; reflexivity.
    + exact (Euler.beam_det _ _ Hs Hc).
  - rewrite X6. unfold D, before_declination, orientmat. cbv zeta. apply Forall_map, Forall_forall. intros c _. apply Euler.rdi_proper.
  - discriminate.
  - rewrite X7. unfold D, before_declination, Rotate.data. cbv zeta. rewrite W. destruct (was_read cols "vel_bt"); cbn; repeat constructor; cbn; intuition discriminate.
  - rewrite X7, X8, X6. intros nm I. unfold D, before_declination, Rotate.data, rotate_vars, orientmat in I |- *. cbv zeta in I |- *. rewrite W. rewrite map_length.
    assert (C : (nm = "vel" \/ (nm = "vel_bt" /\ was_read cols "vel_bt" = true))) by (destruct (was_read cols "vel_bt"); cbn [In] in I; intuition).
    destruct C as [-> | [-> Wb]].
    + exists (profiles nan (Z.to_nat n) cols "vel"). split; [reflexivity|]. split; [apply shaped_profiles|cbn; lia].
    + rewrite Wb. exists (profiles nan 1 cols "vel_bt"). split; [reflexivity|]. split; [apply shaped_profiles|cbn; lia].
  - rewrite X9. discriminate.
Qed.
Lemma D_nodup : NoDup (rotate_vars D).
Proof. unfold D, before_declination, rotate_vars. cbv zeta. destruct (was_read cols "vel_bt"); repeat constructor; cbn; intuition discriminate. Qed.

Lemma levelled_decl d x : levelled (set_decl d x) = set_decl (levelled d) x.
Proof. unfold levelled. change (coord_sys (set_decl d x)) with (coord_sys d). now destruct (String.eqb (coord_sys d) "ship"). Qed.
Lemma levelled_frame x : coord_sys (levelled (set_decl D x)) = (if String.eqb (Trdi.frame b) "ship" then "inst" else Trdi.frame b).
Proof. unfold levelled. change (coord_sys (set_decl D x)) with (Trdi.frame b). destruct (String.eqb_spec (Trdi.frame b) "ship"); reflexivity. Qed.
Lemma levelled_same x : Rotate.data (levelled (set_decl D x)) = Rotate.data D /\ orientmat (levelled (set_decl D x)) = orientmat D /\ beam2inst (levelled (set_decl D x)) = beam2inst D /\
  rotate_vars (levelled (set_decl D x)) = rotate_vars D /\ declination (levelled (set_decl D x)) = x.
Proof. unfold levelled. destruct (String.eqb (coord_sys (set_decl D x)) "ship"); repeat split. Qed.
Lemma value_same d d' nm i k : Rotate.data d' = Rotate.data d -> value d' nm i k = value d nm i k.
Proof. unfold value. now intros ->. Qed.
Lemma earth_of x : admissible Rotate.Rdi (levelled (set_decl D x)) -> exists d', rotate2 (set_decl D x) "earth" = Ok d' /\ rotate2 (levelled (set_decl D x)) "earth" = Ok d' /\
  forall nm i k f r leader v1 v2 v3 v4, In nm (rotate_vars D) -> Trdi.ensemble_at xs m i f r -> In (128, leader) r -> value D nm i k = Some [v1; v2; v3; v4] ->
    value d' nm i k = Some (Trdi.in_earth b (Rdi.block_bytes (128, leader)) v1 v2 v3 v4).
Proof.
  intros A. destruct (levelled_same x) as (Q1 & Q2 & Q3 & Q4 & Q5). pose proof (levelled_frame x) as Fr.
  assert (N : NoDup (rotate_vars (levelled (set_decl D x)))) by (rewrite Q4; apply D_nodup).
  assert (G : exists d', rotate2 (set_decl D x) "earth" = Ok d' /\ rotate2 (levelled (set_decl D x)) "earth" = Ok d').
  { destruct (String.eqb_spec (Trdi.frame b) "ship") as [e|e].
    - assert (L : levelled (set_decl D x) = set_cs (set_decl D x) "inst" (dir (set_decl D x)) (dirIMU (set_decl D x))) by (unfold levelled; change (coord_sys (set_decl D x)) with (Trdi.frame b); now rewrite e).
      rewrite L in *. apply RotateProps.ship_up; [exact A|exact e|now left].
    - assert (L : levelled (set_decl D x) = set_decl D x) by (unfold levelled; change (coord_sys (set_decl D x)) with (Trdi.frame b); now rewrite (proj2 (String.eqb_neq _ _) e)).
      rewrite L in *. destruct (Rotate.reaches Rotate.Rdi _ "earth" A) as (d' & H & _); [| |now exists d'].
      + split; [apply A|rewrite Fr; pose proof (frame_cases b) as Z0; cbn [In] in Z0; destruct Z0 as [<-|[<-|[<-|[<-|[]]]]]; discriminate].
      + split; [do 2 right; now left|discriminate]. }
  destruct G as (d' & H & H'). exists d'. split; [exact H|]. split; [exact H'|]. intros nm i k f r leader v1 v2 v3 v4 I A0 I0 V.
  pose proof (orient_at i f r leader A0 I0) as O. rewrite <- Q2 in O. rewrite <- (value_same D _ nm i k Q1) in V. rewrite <- Q4 in I.
  unfold Trdi.in_earth. cbv zeta. pose proof (frame_cases b) as Z0. cbn [In] in Z0.
  set (L := levelled (set_decl D x)) in *. clearbody L.
  destruct Z0 as [e|[e|[e|[e|[]]]]]; rewrite <- e in Fr, O |- *.
  - change (if String.eqb "beam" "ship" then "inst" else "beam") with "beam" in Fr. change (String.eqb "beam" "beam") with true. cbn iota.
    destruct (beam_steps L d' A Fr H') as (d1 & H1 & H2 & A1 & C1 & R1 & O1).
    pose proof (RotateValues.beam_to_inst Rotate.Rdi L "inst" d1 nm i k _ A N Fr eq_refl H1 I V) as V1. rewrite Q3 in V1.
    specialize (V1 eq_refl ltac:(discriminate)). change (beam2inst D) with (rdi_beam_mat (deg2rad (IZR (Trdi.beam_angle b))) (Trdi.convex b)) in V1. rewrite beam_value in V1.
    destruct (RotateValues.inst_to_earth Rotate.Rdi d1 "earth" d' nm i k _ A1 ltac:(rewrite R1; exact N) C1 eq_refl H2 ltac:(rewrite R1; exact I) V1 ltac:(discriminate)) as (O' & EO & V2).
    rewrite O1, O in EO. assert (O' = rdi_orientmat (Trdi.heading (Rdi.block_bytes (128, leader))) (Trdi.pitch (Rdi.block_bytes (128, leader))) (Trdi.roll (Rdi.block_bytes (128, leader))) (Trdi.upward b) false) as -> by (change (String.eqb "beam" "ship") with false in EO; cbn [andb] in EO; congruence).
    rewrite V2. f_equal. apply orient_value.
  - change (if String.eqb "inst" "ship" then "inst" else "inst") with "inst" in Fr. change (String.eqb "inst" "beam") with false. change (String.eqb "inst" "inst") with true. cbn iota.
    destruct (RotateValues.inst_to_earth Rotate.Rdi L "earth" d' nm i k _ A N Fr eq_refl H' I V ltac:(discriminate)) as (O' & EO & V2).
    rewrite O in EO. assert (O' = rdi_orientmat (Trdi.heading (Rdi.block_bytes (128, leader))) (Trdi.pitch (Rdi.block_bytes (128, leader))) (Trdi.roll (Rdi.block_bytes (128, leader))) (Trdi.upward b) false) as -> by (change (String.eqb "inst" "ship") with false in EO; cbn [andb] in EO; congruence).
    rewrite V2. f_equal. apply orient_value.
  - change (if String.eqb "ship" "ship" then "inst" else "ship") with "inst" in Fr. change (String.eqb "ship" "beam") with false. change (String.eqb "ship" "inst") with false. change (String.eqb "ship" "ship") with true in *. cbn iota.
    destruct (RotateValues.inst_to_earth Rotate.Rdi L "earth" d' nm i k _ A N Fr eq_refl H' I V ltac:(discriminate)) as (O' & EO & V2).
    rewrite O in EO. rewrite V2. f_equal. cbn [andb] in EO. assert (O' = rdi_orientmat (Trdi.heading (Rdi.block_bytes (128, leader))) (Trdi.pitch (Rdi.block_bytes (128, leader))) (Trdi.roll (Rdi.block_bytes (128, leader))) (Trdi.upward b) (Trdi.tilts_applied b)) as -> by congruence.
    destruct (Trdi.tilts_applied b); [apply level_value|apply orient_value].
  - change (if String.eqb "earth" "ship" then "inst" else "earth") with "earth" in Fr. change (String.eqb "earth" "beam") with false. change (String.eqb "earth" "inst") with false. change (String.eqb "earth" "ship") with false. cbn iota.
    rewrite (earth_self L d' A Fr H'). exact V.
Qed.
End Values.

(** ** Files *)
Lemma ns_of e hs : 0 <= e -> 0 <= hs -> Time.epoch2dt64 (inject_Z e + inject_Z hs * (1 # 100))%Q = e * 1000000000 + hs * 10000000.
Proof.
  intros E H. rewrite Proofs.Time.epoch2dt64_floor.
  - rewrite <- (Qfloor_Z (e * 1000000000 + hs * 10000000)). apply Qfloor_comp. rewrite inject_Z_plus, !inject_Z_mult. unfold Qeq, Qplus, Qmult, inject_Z. cbn [Qnum Qden]. lia.
  - left. unfold Qle, Qplus, Qmult, inject_Z. cbn [Qnum Qden]. lia.
Qed.
Lemma variation_zero b : Trdi.variation b = 0 -> Q2R (inject_Z (Trdi.variation b) * (1 # 100)) = 0%R.
Proof. intros ->. rewrite centi. field. Qed.
Lemma variation_zero_inv b : Q2R (inject_Z (Trdi.variation b) * (1 # 100)) = 0%R -> Trdi.variation b = 0.
Proof. rewrite centi. intros H. apply eq_IZR. lra. Qed.
Section Whole.
Context (n : Z) (xs : list Rdi.pd0) (last : Rdi.pd0) (m : Z) (fixed : bytes) (Rd : Trdi.readable n xs last m fixed).
Let b := Rdi.block_bytes (0, fixed).
Let file := Rdi.file_of (xs ++ [last]).
Let magvar := Q2R (inject_Z (Trdi.variation b) * (1 # 100)).

Theorem no_userdata nan : exists r d', read_trdi nan None file (Some m) = Ret r /\
  declination (r_ds r) = (if Trdi.variation b =? 0 then None else Some (IZR (Trdi.variation b) / 100)%R) /\ rotate2 (r_ds r) "earth" = Ok d' /\
  (forall i f rest leader data k, Trdi.ensemble_at xs m i f rest -> In (128, leader) rest -> In (256, data) rest -> (k < Z.to_nat n)%nat -> 
     let v := Trdi.velocity (Rdi.block_bytes (256, data)) k in
     Trdi.valid (Rdi.block_bytes (256, data)) k -> value d' "vel" i k = Some (Trdi.in_earth b (Rdi.block_bytes (128, leader)) (v 0%nat) (v 1%nat) (v 2%nat) (v 3%nat))) /\
  (forall i f rest leader data, Trdi.ensemble_at xs m i f rest -> In (128, leader) rest -> In (1536, data) rest ->
     let v := Trdi.bottom (Rdi.block_bytes (1536, data)) in
     value d' "vel_bt" i 0 = Some (Trdi.in_earth b (Rdi.block_bytes (128, leader)) (v 0%nat) (v 1%nat) (v 2%nat) (v 3%nat))).
Proof.
  destruct (read_it n xs last m fixed Rd) as (cols & s & E & L & St & Ra). pose proof (finish_it n xs last m fixed Rd nan None cols s E L St) as Fi.
  fold b in Fi. fold magvar in Fi. set (D := before_declination nan None cols b n) in *.
  assert (G : exists x, set_rdi_declination magvar D = Ok (set_decl D x) /\ x = (if Trdi.variation b =? 0 then None else Some (IZR (Trdi.variation b) / 100)%R)).
  { destruct (Req_dec magvar 0) as [Z0|Z0].
    - exists None. split; [|now rewrite (proj2 (Z.eqb_eq _ _) (variation_zero_inv b Z0))]. unfold set_rdi_declination. change (declination D) with (@None R). destruct (Req_EM_T magvar 0); [reflexivity|contradiction].
    - exists (Some magvar). split; [now apply RdiPost.variation_only|]. destruct (Z.eqb_spec (Trdi.variation b) 0) as [e|e]; [now destruct (Z0 (variation_zero b e))|]. unfold magvar. now rewrite centi. }
  destruct G as (x & G & Gx). rewrite G in Fi. cbn [of_res RdiBlocks.bind] in Fi.
  pose proof (D_adm n xs last m fixed Rd nan None cols s E) as A. apply (Declination.adm_set_decl _ _ x) in A. fold b D in A.
  pose proof (earth_of n xs last m fixed Rd nan None cols s E x) as EO. fold b D in EO. rewrite levelled_decl in EO. specialize (EO A). destruct EO as (d' & H & H' & V).
  eexists; exists d'. split; [exact Fi|]. cbn [r_ds]. split; [exact Gx|]. split; [exact H|]. split.
  - intros i f rest leader data k A0 I0 I1 K. cbv zeta. intros Va. refine (V "vel" i k f rest leader _ _ _ _ _ A0 I0 _); [now left|]. exact (vel_value n xs last m fixed Rd nan None cols s E i f rest data k A0 I1 K Va).
  - intros i f rest leader data A0 I0 I1. cbv zeta. destruct (bt_value n xs last m fixed Rd nan None cols s E i f rest data A0 I1) as [J W]. exact (V "vel_bt" i 0%nat f rest leader _ _ _ _ J A0 I0 W).
Qed.
Lemma levelled_declination d : declination (levelled d) = declination d.
Proof. unfold levelled. now destruct (String.eqb (coord_sys d) "ship"). Qed.
Lemma sd_ship d a : coord_sys d = "ship" -> exists d2, set_declination d a = Ok d2 /\ set_declination (levelled d) a = Ok (levelled d2) /\ coord_sys d2 = "ship".
Proof.
  intros C. unfold set_declination. change (coord_sys (set_decl d None)) with (coord_sys d). rewrite C. change (String.eqb "ship" "earth") with false. cbn iota. cbn [Rotate.bind].
  eexists. split; [reflexivity|]. unfold levelled at 1. rewrite C. change (String.eqb "ship" "ship") with true. cbn iota.
  match goal with |- context [coord_sys (set_decl (set_cs ?x "inst" ?y ?z) None)] => change (coord_sys (set_decl (set_cs x "inst" y z) None)) with "inst" end.
  change (String.eqb "inst" "earth") with false. cbn iota. cbn [Rotate.bind]. split; [|exact C].
  unfold levelled. match goal with |- context [String.eqb (coord_sys (set_decl ?x (Some a))) "ship"] => change (coord_sys (set_decl x (Some a))) with (coord_sys d) end. rewrite C. reflexivity.
Qed.
Lemma sd_any d a : admissible Rotate.Rdi (levelled d) -> NoDup (rotate_vars d) -> In (coord_sys d) ["beam"; "inst"; "ship"; "earth"] ->
  exists d2, set_declination d a = Ok d2 /\ set_declination (levelled d) a = Ok (levelled d2) /\ admissible Rotate.Rdi (levelled d2) /\
    (forall d', rotate2 (levelled d2) "earth" = Ok d' -> rotate2 d2 "earth" = Ok d').
Proof.
  intros A N F. assert (Fo : frame_ok (levelled d) (coord_sys (levelled d))).
  { split; [apply A|]. unfold levelled. cbn [In] in F. destruct F as [e|[e|[e|[e|[]]]]]; rewrite <- e; cbn -[coord_sys]; try rewrite <- e; discriminate. }
  assert (Nl : NoDup (rotate_vars (levelled d))) by (unfold levelled; now destruct (String.eqb (coord_sys d) "ship")).
  destruct (Rotate.adm_index _ _ A) as (i & Hi & Ci). pose proof (Declination.sd_ok Rotate.Rdi _ i a A Nl Fo Hi Ci) as S.
  pose proof (Declination.declined_adm Rotate.Rdi _ i a A Hi Ci) as Ad.
  destruct (string_dec (coord_sys d) "ship") as [e|e].
  - destruct (sd_ship d a e) as (d2 & S1 & S2 & C2). exists d2. split; [exact S1|]. split; [exact S2|].
    assert (A2 : admissible Rotate.Rdi (levelled d2)) by (assert (levelled d2 = Declination.declined Rotate.Rdi i a (levelled d)) as -> by congruence; exact Ad).
    split; [exact A2|]. intros d' H. assert (L2 : levelled d2 = set_cs d2 "inst" (dir d2) (dirIMU d2)) by (unfold levelled; now rewrite C2). rewrite L2 in *.
    destruct (RotateProps.ship_up d2 "earth" A2 C2 (or_introl eq_refl)) as (d'' & H1 & H2). congruence.
  - assert (L : levelled d = d) by (unfold levelled; now rewrite (proj2 (String.eqb_neq _ _) e)). rewrite L in *. exists (Declination.declined Rotate.Rdi i a d).
    assert (L2 : levelled (Declination.declined Rotate.Rdi i a d) = Declination.declined Rotate.Rdi i a d).
    { unfold levelled. change (coord_sys (Declination.declined Rotate.Rdi i a d)) with (coord_sys d). now rewrite (proj2 (String.eqb_neq _ _) e). }
    rewrite L2. split; [exact S|]. split; [exact S|]. split; [exact Ad|]. now intros d'.
Qed.
Theorem with_userdata nan a : Trdi.variation b = 0 -> exists r d', read_trdi nan (Some a) file (Some m) = Ret r /\ declination (r_ds r) = Some a /\ rotate2 (r_ds r) "earth" = Ok d' /\
  (forall i f rest leader data k, Trdi.ensemble_at xs m i f rest -> In (128, leader) rest -> In (256, data) rest -> (k < Z.to_nat n)%nat -> 
     let v := Trdi.velocity (Rdi.block_bytes (256, data)) k in
     Trdi.valid (Rdi.block_bytes (256, data)) k -> value d' "vel" i k = Some (clockwise a (Trdi.in_earth b (Rdi.block_bytes (128, leader)) (v 0%nat) (v 1%nat) (v 2%nat) (v 3%nat)))) /\
  (forall i f rest leader data, Trdi.ensemble_at xs m i f rest -> In (128, leader) rest -> In (1536, data) rest ->
     let v := Trdi.bottom (Rdi.block_bytes (1536, data)) in
     value d' "vel_bt" i 0 = Some (clockwise a (Trdi.in_earth b (Rdi.block_bytes (128, leader)) (v 0%nat) (v 1%nat) (v 2%nat) (v 3%nat)))).
Proof.
  intros Va. destruct (read_it n xs last m fixed Rd) as (cols & s & E & L & St & Ra). pose proof (finish_it n xs last m fixed Rd nan (Some a) cols s E L St) as Fi.
  fold b in Fi. set (D := before_declination nan (Some a) cols b n) in *. rewrite (variation_zero b Va) in Fi.
  pose proof (D_adm n xs last m fixed Rd nan (Some a) cols s E) as A. fold b D in A. apply (Declination.adm_set_decl _ _ None) in A. rewrite <- levelled_decl in A.
  assert (N : NoDup (rotate_vars D)) by apply D_nodup.
  destruct (sd_any (set_decl D None) a A N (frame_cases b)) as (d2 & S1 & S2 & A2 & Up).
  assert (S0 : set_rdi_declination 0 D = Ok d2) by (unfold set_rdi_declination; change (declination D) with (Some a); destruct (Req_EM_T 0 0); [exact S1|contradiction]).
  rewrite S0 in Fi. cbn [of_res RdiBlocks.bind] in Fi.
  pose proof (earth_of n xs last m fixed Rd nan (Some a) cols s E None) as EO. fold b D in EO. specialize (EO A). destruct EO as (d1 & _ & H & V).
  set (DL := levelled (set_decl D None)) in *. destruct (levelled_same n fixed nan (Some a) cols None) as (_ & _ & _ & Q4 & Q5). fold b D DL in Q4, Q5.
  assert (NL : NoDup (rotate_vars DL)) by (rewrite Q4; exact N).
  assert (Fo : frame_ok DL (coord_sys DL)).
  { split; [apply A|]. unfold DL. pose proof (levelled_frame n fixed nan (Some a) cols None) as Z1. fold b D in Z1. rewrite Z1.
    pose proof (frame_cases b) as Z0. cbn [In] in Z0. destruct Z0 as [<-|[<-|[<-|[<-|[]]]]]; discriminate. }
  destruct (Declination.commutes Rotate.Rdi _ "earth" a d1 _ A NL Fo H S2) as (d3 & R3 & S3).
  assert (A1 : admissible Rotate.Rdi d1) by exact (proj1 (Rotate.round_trip _ _ _ _ A H)).
  destruct (RotateProps.labels_reached _ _ _ _ A H) as (C1 & _). change (lower "earth") with "earth" in C1.
  assert (Rv : rotate_vars d1 = rotate_vars D /\ declination d1 = None).
  { rewrite <- Q4, <- Q5. destruct (Rotate.adm_index _ _ A) as (j & Hj & Cj). destruct (Rotate.rotate2_inv Rotate.Rdi _ j "earth" d1 A Cj Hj H) as (j' & _ & _ & _ & ->). split; reflexivity. }
  destruct Rv as [Rv Dv].
  assert (W : forall nm i k y, In nm (rotate_vars D) -> value d1 nm i k = Some y -> value d3 nm i k = Some (clockwise a y)).
  { intros nm i k y I Y. pose proof (Declination.earth_clockwise _ d1 a d3 nm i k y A1 ltac:(rewrite Rv; exact N) C1 S3 ltac:(rewrite Rv; exact I) Y) as K. unfold declination_change in K. rewrite Dv in K. exact K. }
  assert (Da : declination d2 = Some a) by (rewrite <- (levelled_declination d2); exact (proj1 (Declination.attributes Rotate.Rdi _ a _ A NL Fo S2))).
  eexists; exists d3. split; [exact Fi|]. cbn [r_ds]. split; [exact Da|]. split; [exact (Up d3 R3)|]. split.
  - intros i f rest leader data k B0 I0 I1 K. cbv zeta. intros Vl. apply W; [now left|]. refine (V "vel" i k f rest leader _ _ _ _ _ B0 I0 _); [now left|]. exact (vel_value n xs last m fixed Rd nan (Some a) cols s E i f rest data k B0 I1 K Vl).
  - intros i f rest leader data B0 I0 I1. cbv zeta. destruct (bt_value n xs last m fixed Rd nan (Some a) cols s E i f rest data B0 I1) as [J Q]. apply W; [exact J|]. exact (V "vel_bt" i 0%nat f rest leader _ _ _ _ J B0 I0 Q).
Qed.
Theorem both_given nan a : Trdi.variation b <> 0 -> exists r d', read_trdi nan (Some a) file (Some m) = Ret r /\ declination (r_ds r) = Some a /\ rotate2 (r_ds r) "earth" = Ok d' /\
  (forall i f rest leader data k, Trdi.ensemble_at xs m i f rest -> In (128, leader) rest -> In (256, data) rest -> (k < Z.to_nat n)%nat -> 
     let v := Trdi.velocity (Rdi.block_bytes (256, data)) k in
     Trdi.valid (Rdi.block_bytes (256, data)) k -> value d' "vel" i k = Some (Trdi.in_earth b (Rdi.block_bytes (128, leader)) (v 0%nat) (v 1%nat) (v 2%nat) (v 3%nat))) /\
  (forall i f rest leader data, Trdi.ensemble_at xs m i f rest -> In (128, leader) rest -> In (1536, data) rest ->
     let v := Trdi.bottom (Rdi.block_bytes (1536, data)) in
     value d' "vel_bt" i 0 = Some (Trdi.in_earth b (Rdi.block_bytes (128, leader)) (v 0%nat) (v 1%nat) (v 2%nat) (v 3%nat))).
Proof.
  intros Va. destruct (read_it n xs last m fixed Rd) as (cols & s & E & L & St & Ra). pose proof (finish_it n xs last m fixed Rd nan (Some a) cols s E L St) as Fi.
  fold b in Fi. fold magvar in Fi. set (D := before_declination nan (Some a) cols b n) in *.
  assert (Mz : magvar <> 0%R) by (intros Z0; now apply Va, variation_zero_inv).
  pose proof (D_adm n xs last m fixed Rd nan (Some a) cols s E) as A. fold b D in A.
  assert (D0 : set_decl D (Some a) = D) by reflexivity.
  destruct (sd_any D a A (D_nodup n fixed nan (Some a) cols) (frame_cases b)) as (d2 & S1 & S2 & A2 & Up).
  assert (S0 : set_rdi_declination magvar D = Ok d2) by (unfold set_rdi_declination; change (declination D) with (Some a); destruct (Req_EM_T magvar 0); [contradiction|exact S1]).
  rewrite S0 in Fi. cbn [of_res RdiBlocks.bind] in Fi.
  pose proof (earth_of n xs last m fixed Rd nan (Some a) cols s E (Some a)) as EO. fold b D in EO. rewrite D0 in EO. specialize (EO A). destruct EO as (d1 & _ & H & V).
  assert (Lv : levelled d2 = levelled D).
  { assert (NL : NoDup (rotate_vars (levelled D))) by (unfold levelled; destruct (String.eqb (coord_sys D) "ship"); apply (D_nodup n fixed nan (Some a) cols)).
    assert (Fo : frame_ok (levelled D) (coord_sys (levelled D))).
    { split; [apply A|]. pose proof (levelled_frame n fixed nan (Some a) cols (Some a)) as Z1. fold b D in Z1. rewrite D0 in Z1. rewrite Z1.
      pose proof (frame_cases b) as Z0. cbn [In] in Z0. destruct Z0 as [<-|[<-|[<-|[<-|[]]]]]; discriminate. }
    assert (Dl : declination (levelled D) = Some a) by now rewrite levelled_declination.
    pose proof (RdiPost.both_given Rotate.Rdi _ a magvar A NL Fo Dl Mz) as K. unfold set_rdi_declination in K. rewrite Dl in K. destruct (Req_EM_T magvar 0); [contradiction|].
    assert (Q : set_decl (set_decl (set_decl (levelled D) None) (Some magvar)) (Some a) = levelled D) by (destruct (levelled D); cbn in Dl |- *; now rewrite Dl).
    rewrite Q, S2 in K. congruence. }
  eexists; exists d1. split; [exact Fi|]. cbn [r_ds]. split; [rewrite <- (levelled_declination d2), Lv, levelled_declination; reflexivity|]. split; [apply Up; rewrite Lv; exact H|]. split.
  - intros i f rest leader data k B0 I0 I1 K. cbv zeta. intros Vl. refine (V "vel" i k f rest leader _ _ _ _ _ B0 I0 _); [now left|]. exact (vel_value n xs last m fixed Rd nan (Some a) cols s E i f rest data k B0 I1 K Vl).
  - intros i f rest leader data B0 I0 I1. cbv zeta. destruct (bt_value n xs last m fixed Rd nan (Some a) cols s E i f rest data B0 I1) as [J Q]. exact (V "vel_bt" i 0%nat f rest leader _ _ _ _ J B0 I0 Q).
Qed.
Theorem times_ranges nan u r : read_trdi nan u file (Some m) = Ret r ->
  length (r_time r) = Nat.min (Z.to_nat m) (length xs) /\
  r_range r = map (fun k => (inject_Z (Rdi.uint b 33 2) * (1 # 100) + inject_Z (Z.of_nat k) * (inject_Z (Rdi.uint b 13 2) * (1 # 100)))%Q) (seq 0 (Z.to_nat n)) /\
  (forall i f rest leader, Trdi.ensemble_at xs m i f rest -> In (128, leader) rest -> Trdi.dated f leader ->
     match Trdi.time f leader with
     | Some (d, hs) => 0 <= epoch d -> nth_error (r_time r) i = Some (Some (epoch d * 1000000000 + hs * 10000000))
     | None => nth_error (r_time r) i = Some None
     end).
Proof.
  intros H. destruct (read_it n xs last m fixed Rd) as (cols & s & E & L & St & Ra). pose proof (finish_it n xs last m fixed Rd nan u cols s E L St) as Fi.
  unfold file in H. rewrite Fi in H. destruct (of_res _) as [d|]; cbn [RdiBlocks.bind] in H; try discriminate.
  assert (r = Dataset (map time_of_column cols) (range_coordinate s) d) as -> by congruence. cbn [r_time r_range].
  split; [now rewrite map_length|]. split; [exact Ra|]. intros i f rest leader A I Y. pose proof (proj2 (read_shape n xs last m fixed Rd cols s E) i f rest leader A I Y) as T.
  rewrite nth_error_map in T |- *. destruct (nth_error cols i) as [c|]; [|discriminate]. cbn [option_map] in T |- *. unfold time_of_column. assert (ctime c = Trdi.time f leader) as -> by congruence.
  destruct (Trdi.time f leader) as [[d0 hs]|] eqn:Ti; [|reflexivity]. cbn [option_map fst snd]. intros P. f_equal. f_equal.
  unfold Trdi.time, Rdi.time_of in Ti. cbv zeta in Ti. destruct (_ && _); [|discriminate]. injection Ti as _ Hh.
  assert (Hs : 0 <= hs) by (rewrite <- Hh; apply (RdiTop.uint_bound _ 1); apply block_bytes_ok with n xs last m fixed i f rest; assumption). apply ns_of. exact P. exact Hs.
Qed.
End Whole.
(** ** A first clock that is wrong *)
Theorem bad_first nan u n xs last m f rest leader : 0 < n -> 0 < m -> Forall (Rdi.sound n) xs -> Rdi.sound n last ->
  Trdi.ensemble_at xs m 0 f rest -> In (128, leader) rest -> Trdi.dated f leader -> Trdi.time f leader = None ->
  read_trdi nan u (Rdi.file_of (xs ++ [last])) (Some m) = Raise "IndexError".
Proof.
  intros N M So La (I & x & X & B) D Y T. assert (Ne : xs <> []) by (intros ->; discriminate).
  destruct (RdiTop.all_but_last n xs last m N La So Ne M) as (cols & s & E & L). pose proof (RdiTop.time_at n xs last m cols s _ x f rest N La So E X I B leader D Y) as H.
  unfold read_trdi. rewrite E. cbn [RdiBlocks.bind]. unfold finish. destruct cols as [|c cols']; [discriminate|]. cbn [map nth_error] in H. cbn [hd_error or_raise RdiBlocks.bind].
  assert (ctime c = None) as -> by (unfold Trdi.time in T; rewrite T in H; congruence). reflexivity.
Qed.
