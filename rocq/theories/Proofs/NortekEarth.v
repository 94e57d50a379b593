(** Classic Nortek files: the dataset and its velocities in earth coordinates. *)
From Coq Require Import String.
From Coq Require Import ZArith QArith Qreals Reals List Bool Lia Lra.
From Verif.Model Require Import Linalg Rotate Euler.
From Verif.Spec Require Import Linalg Rotate.
From Verif.Model Require Import Nortek NortekFile NortekGuess NortekData HandleNan ReadVector ReadAwac NortekEarth.
From Verif.Spec Require Import Nortek NortekGuess NortekData ReadVector ReadAwac.
From Verif.Spec Require NortekEarth.
From Verif.Proofs Require Linalg Euler Rotate ToEarth ReadAwac NortekData.
Import ListNotations.
Open Scope string_scope.
Open Scope list_scope.
Open Scope nat_scope.

Section Ready.
Context (nan : R) (fam : family) (model frame : string) (bins : nat) (down : nat -> bool) (u : option R) (d : dataset) (omats : list mat).
Context (Fm : (fam = Rotate.Awac /\ model = "awac") \/ (fam = Rotate.Vector /\ model = "vector")) (Fr : In frame ["beam"; "inst"; "earth"]).
Context (Om : calc_omat nan d down = Some omats) (Lo : length omats = length (d_time d)) (Oo : Forall orthonormal omats).
Context (Ma : is_mat 3 (matrix nan d)) (Mn : det3 (matrix nan d) <> 0%R).
Definition before : Rotate.ds :=
  Rotate.Ds ("nortek " ++ model) model frame (axis_labels fam frame ["1"; "2"; "3"]) None ["1"; "2"; "3"] "" (matrix nan d) omats
    (Some (map (fun i => num nan (real (entry d "heading" 0 i))) (seq 0 (length (d_time d))))) None false None None ["vel"] [("vel", velocities nan d bins)].
Lemma fam_three : ToEarth.three fam.
Proof. destruct Fm as [[-> _]|[-> _]]; [left|right]; reflexivity. Qed.
Lemma before_adm : admissible fam before.
Proof.
  constructor.
  - unfold before. cbn [make_model]. destruct Fm as [[-> ->]|[-> ->]]; split; try reflexivity; repeat split; reflexivity.
  - cbn [coord_sys before]. cbn [In] in Fr. destruct Fr as [<-|[<-|[<-|[]]]]; cbv; auto.
  - reflexivity.
  - now left.
  - cbn [beam_labels before]. destruct Fm as [[-> _]|[-> _]]; reflexivity.
  - exists 3. split; [now left|]. split; [exact Ma|]. rewrite Linalg.det_det3 by exact Ma. exact Mn.
  - exact Oo.
  - destruct Fm as [[-> _]|[-> _]]; discriminate.
  - cbn. constructor; [easy|constructor].
  - intros nm [<-|[]]. exists (velocities nan d bins). split; [reflexivity|]. split.
    + split; unfold velocities; cbn [Rotate.cells ncomp orientmat before]; [now rewrite map_length, seq_length|].
      apply Forall_map, Forall_forall. intros i _. apply Forall_map, Forall_forall. intros j _. unfold is_vec. now rewrite map_length.
    + destruct Fm as [[-> _]|[-> _]]; reflexivity.
  - discriminate.
Qed.
Lemma ready_ok : earth_ready nan model frame bins down None u d = Some (ToEarth.declare u before).
Proof.
  unfold earth_ready. cbv zeta. rewrite Om. cbn [option_map].
  match goal with |- context [set_coords ?D frame] => replace (set_coords D frame) with (Ok before) end.
  - cbn [Rotate.bind]. reflexivity.
  - unfold before. cbn [In] in Fr. destruct Fm as [[-> ->]|[-> ->]]; destruct Fr as [<-|[<-|[<-|[]]]]; reflexivity.
Qed.
Lemma vel_before i j : i < length (d_time d) -> j < bins ->
  value before "vel" i j = Some (map (fun k => num nan (real (entry d "vel" (k * bins + j) i))) (seq 0 3)).
Proof.
  intros Hi Hj. unfold value, before. cbn [Rotate.data Rotate.lookup]. change (String.eqb "vel" "vel") with true. cbn iota. unfold velocities. cbn [Rotate.cells].
  rewrite nth_error_map. rewrite (nth_error_nth' _ 0) by now rewrite seq_length. rewrite seq_nth by exact Hi. cbn [option_map].
  rewrite nth_error_map. rewrite (nth_error_nth' _ 0) by now rewrite seq_length. rewrite seq_nth by exact Hj. reflexivity.
Qed.
Lemma ready : exists D d', earth_ready nan model frame bins down None u d = Some (Ok D) /\ declination D = u /\ coord_sys D = frame /\ rotate2 D "earth" = Ok d' /\
  forall i j h p r dn, nth_error omats i = Some (nortek_omat h p r dn) -> j < bins ->
    value d' "vel" i j = Some (ToEarth.turned u (NortekEarth.to_earth frame (matrix nan d) dn h p r (map (fun k => num nan (real (entry d "vel" (k * bins + j) i))) (seq 0 3)))).
Proof.
  assert (N : NoDup (rotate_vars before)) by (constructor; [easy|constructor]).
  destruct (ToEarth.with_declination fam before u before_adm N Fr eq_refl) as (D & d1 & d' & E & Du & Cs & R1 & R2 & V).
  exists D, d'. split; [rewrite ready_ok; now f_equal|]. split; [exact Du|]. split; [exact Cs|]. split; [exact R2|].
  intros i j h p r dn O J. apply V; [now left|]. assert (Hi : i < length (d_time d)) by (rewrite <- Lo; apply nth_error_Some; congruence).
  rewrite (ToEarth.value_three fam before d1 "vel" i j _ _ fam_three eq_refl before_adm N Fr R1 (or_introl eq_refl) (proj1 Ma) (vel_before i j Hi J) eq_refl O).
  f_equal. apply ToEarth.by_frame_enu; [exact (proj1 Ma)|reflexivity].
Qed.
End Ready.

(** ** AWAC *)
Lemma find_at d nm k i x : at_sample d nm k i = Some x -> entry d nm k i = x.
Proof.
  unfold at_sample, entry, find_var. destruct (find _ (d_vars d)); [|discriminate]. intros H. now apply nth_error_nth.
Qed.
Lemma matrix_of nan d m : matrix_is d m -> matrix nan d = NortekEarth.reals m.
Proof.
  intros (v & F & L). unfold matrix, find_var. rewrite F, L. unfold NortekEarth.reals. rewrite map_map. apply map_ext. intros row. now rewrite map_map.
Qed.
Lemma reals_shape m : three_by_three m -> is_mat 3 (NortekEarth.reals m).
Proof.
  intros [A B]. split; [unfold NortekEarth.reals; now rewrite map_length|]. apply Forall_map. rewrite Forall_forall in B |- *. intros r I. unfold is_vec. rewrite map_length. now apply B.
Qed.
Lemma fill_tail_all l : l <> [] -> Forall (fun t => all_valid t = true) l -> fill_tail l = Some l.
Proof.
  intros N F. unfold fill_tail. destruct (rev l) as [|t l'] eqn:E.
  - exfalso. apply N. rewrite <- (rev_involutive l), E. reflexivity.
  - assert (I : In t l) by (apply in_rev; rewrite E; now left). rewrite Forall_forall in F. specialize (F t I). destruct t as [[[?|] [?|]] [?|]]; try discriminate F. reflexivity.
Qed.
Lemma tenth z : Q2R (inject_Z z * (1 # 10)) = NortekEarth.tenths z.
Proof. unfold NortekEarth.tenths. rewrite Q2R_mult. unfold Q2R, inject_Z. cbn. field. Qed.
Lemma milli z : Q2R (inject_Z z / 1000) = (IZR z / 1000)%R.
Proof. rewrite Q2R_div by easy. unfold Q2R, inject_Z. cbn. field. Qed.
Lemma head_values e b x h p r : decode_awac e b = Some x -> NortekEarth.attitude_is e b h p r ->
  a_heading x = (inject_Z h * (1 # 10))%Q /\ a_pitch x = (inject_Z (p mod 65536) * (1 # 10))%Q /\ a_roll x = (inject_Z (r mod 65536) * (1 # 10))%Q.
Proof.
  intros D ((h0 & h1 & H0 & H1 & Hh) & (p0 & p1 & P0 & P1 & _ & Hp) & (r0 & r1 & R0 & R1 & _ & Hr)).
  do 28 (destruct b as [|? b]; [discriminate D|]). cbn [decode_awac] in D. cbn [nth_error] in H0, H1, P0, P1, R0, R1.
  unfold holds_unsigned in Hh.
  assert (X : forall y, Some y = Some x -> y = x) by (intros y Y; congruence). apply X in D. subst x. cbn [a_heading a_pitch a_roll].
  assert (Y : forall (a c : Z), Some a = Some c -> a = c) by (intros a c Z0; congruence).
  apply Y in H0, H1, P0, P1, R0, R1. subst. rewrite <- Hp, <- Hr. repeat split.
Qed.
Section Awac.
Context (e : endian) (cs : bool) (bins : nat) (header : bytes) (bs : list blk) (tail : bytes) (g : vec_cfg).
Context (F : NortekEarth.awac_file e cs bins header bs tail g).
Let r := Reader e cs Awac bins 3 None.
Lemma awac_as_read nan frame u : In frame ["beam"; "inst"; "earth"] -> exists D d',
  open_awac nan frame None u g r (file_of header bs tail) (length header) = Some (Ok D) /\ declination D = u /\ coord_sys D = frame /\ rotate2 D "earth" = Ok d' /\
  forall i b h p rl j v, NortekEarth.profile_at e bins bs i b h p rl j v ->
    value d' "vel" i j = Some (ToEarth.turned u (NortekEarth.to_earth frame (NortekEarth.reals (g_beam2inst g)) false (NortekEarth.tenths h)
      (NortekEarth.tenths (p mod 65536)) (NortekEarth.tenths (rl mod 65536)) (NortekEarth.metres v))).
Proof.
  intros Fr. destruct F as [F1 F2 F3 [F4 F5] F6 F7 F8 F9 F10 F11].
  destruct (ReadAwac.awac_file e cs bins 3 header bs tail g F1 F2 F3 (le_n 3) F4 F6 F7 F8 F9 ltac:(lia) F11) as (d & R & [HL HP] & M). specialize (M F10).
  assert (LP : length (profiles bs) = number 32 bs) by (unfold profiles, number; apply map_length).
  pose proof (matrix_of nan d _ M) as EM.
  (* attitude *)
  assert (At : forall i b, nth_error (profiles bs) i = Some b -> exists x, decode_awac e b = Some x /\ attitude d i = (Some (Q2R (a_heading x)), Some (Q2R (a_pitch x)), Some (Q2R (a_roll x)))).
  { intros i b Hb. destruct (HP i b Hb) as [[(x & X & Rd) _] _]. exists x. split; [exact X|]. unfold attitude.
    rewrite (find_at d "heading" 0 i _ (Rd "heading" a_heading ltac:(cbn; tauto))), (find_at d "pitch" 0 i _ (Rd "pitch" a_pitch ltac:(cbn; tauto))), (find_at d "roll" 0 i _ (Rd "roll" a_roll ltac:(cbn; tauto))). reflexivity. }
  set (T := length (d_time d)) in *. set (l := map (attitude d) (seq 0 T)).
  assert (Av : forall i, i < T -> exists b x, nth_error (profiles bs) i = Some b /\ decode_awac e b = Some x /\ attitude d i = (Some (Q2R (a_heading x)), Some (Q2R (a_pitch x)), Some (Q2R (a_roll x)))).
  { intros i Hi. destruct (nth_error (profiles bs) i) as [b|] eqn:Eb; [|apply nth_error_None in Eb; lia]. destruct (At i b Eb) as (x & X1 & X2). exists b, x. repeat split; assumption. }
  assert (FT : fill_tail l = Some l).
  { apply fill_tail_all; [unfold l; destruct T; [lia|discriminate]|]. unfold l. apply Forall_map, Forall_forall. intros i Hi. apply in_seq in Hi. destruct (Av i ltac:(lia)) as (b & x & _ & _ & ->). reflexivity. }
  set (omats := map (fun p : nat * triple => let '(i, (h, p, r)) := p in nortek_omat (num nan h) (num nan p) (num nan r) ((fun _ => false) i)) (combine (seq 0 (length l)) l)).
  assert (Om : calc_omat nan d (fun _ => false) = Some omats) by (unfold calc_omat; fold T; fold l; rewrite FT; reflexivity).
  assert (Ll : length l = T) by (unfold l; now rewrite map_length, seq_length).
  assert (Lo : length omats = T) by (unfold omats; rewrite map_length, combine_length, seq_length, Ll; lia).
  assert (Oo : Forall orthonormal omats) by (unfold omats; apply Forall_map, Forall_forall; intros [i [[h p] q]] _; apply Euler.nortek_proper).
  assert (Ma : is_mat 3 (matrix nan d)) by (rewrite EM; now apply reals_shape).
  assert (Mn : det3 (matrix nan d) <> 0%R) by (rewrite EM; exact F5).
  destruct (ready nan Rotate.Awac "awac" frame bins (fun _ => false) u d omats (or_introl (conj eq_refl eq_refl)) Fr Om Lo Oo Ma Mn) as (D & d' & E1 & E2 & E3 & E4 & V).
  exists D, d'. split; [unfold open_awac, r; rewrite R; exact E1|]. repeat (split; [assumption|]).
  intros i b h p rl j v (Hb & Ha & Hj & Hv).
  assert (Hi : i < T) by (rewrite HL; apply nth_error_Some; congruence).
  destruct (At i b Hb) as (x & X1 & X2). destruct (head_values e b x h p rl X1 Ha) as (Y1 & Y2 & Y3).
  rewrite (V i j (NortekEarth.tenths h) (NortekEarth.tenths (p mod 65536)) (NortekEarth.tenths (rl mod 65536)) false); [|clear V|exact Hj].
  - rewrite EM. do 4 f_equal. destruct Hv as (v0 & v1 & v2 & -> & S0 & S1 & S2).
    destruct (HP i b Hb) as [(_ & Vc & _) _].
    assert (One : forall k w, k < 3 -> NortekEarth.signed_at e b (116 + 2 * (k * bins + j)) w -> num nan (real (entry d "vel" (k * bins + j) i)) = (IZR w / 1000)%R).
    { intros k w Hk (b0 & b1 & B0 & B1 & Hw). destruct (Vc k j Hk Hj) as (q & a & Q1 & Q2 & _).
      destruct (Proofs.NortekData.awac_velocity e 3 bins b k j b0 b1 w Hk Hj B0 B1 Hw) as (q' & Q3 & Q4).
      assert (q' = q) as -> by congruence. unfold at_cell in Q2. rewrite (find_at d "vel" (k * bins + j) i _ Q2). cbn [real option_map num].
      rewrite (Qeq_eqR _ _ Q4). apply milli. }
    cbn [seq map]. unfold NortekEarth.metres. cbn [map]. apply ToEarth.vec3_ext; apply One; try lia.
    + exact S0.
    + replace (1 * bins + j) with (bins + j) by lia. exact S1.
    + exact S2.
  - unfold omats. rewrite nth_error_map. unfold l. 
    assert (Ec : nth_error (combine (seq 0 (length (map (attitude d) (seq 0 T)))) (map (attitude d) (seq 0 T))) i = Some (i, attitude d i)).
    { rewrite (nth_error_nth' _ (0, attitude d 0)) by (rewrite combine_length, !map_length, !seq_length; lia). f_equal.
      rewrite combine_nth by now rewrite !map_length, !seq_length. rewrite seq_nth by (rewrite map_length, seq_length; lia). rewrite map_nth, seq_nth by exact Hi. reflexivity. }
    rewrite Ec. cbn [option_map]. rewrite X2. cbn [num]. rewrite Y1, Y2, Y3, !tenth. reflexivity.
Qed.
End Awac.

(** ** Wrong mountings and wrong tilts *)
Open Scope R_scope.
Lemma enu_injective h p r a b : length a = 3%nat -> length b = 3%nat -> NortekEarth.enu false h p r a = NortekEarth.enu false h p r b -> a = b.
Proof.
  intros La Lb E. destruct (ToEarth.is_vec3_inv a La) as (x & y & z & ->), (ToEarth.is_vec3_inv b Lb) as (x' & y' & z' & ->).
  rewrite <- !ToEarth.enu_omat in E. pose proof (proj1 (Euler.nortek_proper h p r false)) as O.
  rewrite !RotateValues.in_earth_mv in E; try apply O; try reflexivity.
  rewrite <- (Linalg.orth_mv_tr (nortek_omat h p r false) [x; y; z] O eq_refl), E. apply Linalg.orth_mv_tr; [exact O|reflexivity].
Qed.
Lemma down_differs h p r x y z : y <> 0 \/ z <> 0 -> NortekEarth.enu false h p r [x; y; z] <> NortekEarth.enu true h p r [x; y; z].
Proof.
  intros N E. change (NortekEarth.enu true h p r [x; y; z]) with (NortekEarth.enu false h p r [x; - y; - z]) in E.
  apply enu_injective in E; [|reflexivity|reflexivity].
  assert (E1 : nth 1 [x; y; z] 0 = nth 1 [x; - y; - z] 0) by now rewrite E.
  assert (E2 : nth 2 [x; y; z] 0 = nth 2 [x; - y; - z] 0) by now rewrite E. cbn [nth] in E1, E2. lra.
Qed.
Lemma turn_73 : cos (deg2rad (65536 / 10)) <> 1.
Proof.
  replace (deg2rad (65536 / 10)) with (deg2rad (736 / 10) + 2 * INR 18 * PI) by (unfold deg2rad; rewrite INR_IZR_INZ; cbn [Z.of_nat Pos.of_succ_nat Pos.succ]; field).
  rewrite cos_period. intros E. pose proof PI_RGT_0. assert (S : 0 < sin (deg2rad (736 / 10))) by (apply sin_gt_0; unfold deg2rad; lra).
  pose proof (sin2_cos2 (deg2rad (736 / 10))) as P. unfold Rsqr in P. rewrite E in P. nra.
Qed.
Lemma tilt_differs h p r r' x : x <> 0 -> NortekEarth.enu false h (p + 65536 / 10) r [x; 0; 0] <> NortekEarth.enu false h p r' [x; 0; 0].
Proof.
  intros N E. rewrite <- !ToEarth.enu_omat in E. unfold nortek_omat in E. rewrite !Euler.nortek_eq, !Euler.euler_rad_entries in E.
  unfold in_earth, comp, Linalg.entry in E. cbn [map seq nth] in E. injection E as E1 E2 E3.
  set (H := deg2rad h) in *. set (P := deg2rad p) in *. replace (deg2rad (p + 65536 / 10)) with (P + deg2rad (65536 / 10)) in * by (unfold P, deg2rad; field).
  set (P' := P + deg2rad (65536 / 10)) in *.
  assert (S3 : sin P' = sin P) by (apply (Rmult_eq_reg_l x); [lra|exact N]).
  assert (S1 : cos P' * sin H = cos P * sin H) by (apply (Rmult_eq_reg_l x); [lra|exact N]).
  assert (S2 : cos P' * cos H = cos P * cos H) by (apply (Rmult_eq_reg_l x); [lra|exact N]).
  assert (C : cos P' = cos P).
  { pose proof (sin2_cos2 H) as U. unfold Rsqr in U. transitivity (cos P' * (sin H * sin H + cos H * cos H)); [rewrite U; ring|].
    replace (cos P' * (sin H * sin H + cos H * cos H)) with (cos P' * sin H * sin H + cos P' * cos H * cos H) by ring. rewrite S1, S2. rewrite <- (Rmult_1_r (cos P)) at 3. rewrite <- U. ring. }
  apply turn_73. replace (deg2rad (65536 / 10)) with (P' - P) by (unfold P'; ring). rewrite cos_minus, C, S3. pose proof (sin2_cos2 P) as U. unfold Rsqr in U. lra.
Qed.
Lemma tenths_negative p : (-32768 <= p < 0)%Z -> NortekEarth.tenths (p mod 65536) = NortekEarth.tenths p + 65536 / 10.
Proof.
  intros H. rewrite <- (Z_mod_plus_full p 1 65536), Z.mod_small by lia. unfold NortekEarth.tenths. rewrite plus_IZR. change (IZR (1 * 65536)) with 65536. field.
Qed.
Lemma tenths_positive p : (0 <= p < 32768)%Z -> NortekEarth.tenths (p mod 65536) = NortekEarth.tenths p.
Proof. intros H. now rewrite Z.mod_small by lia. Qed.
