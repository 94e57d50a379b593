(** Velocities of Nortek datasets in earth coordinates, with and without a declination. *)
From Coq Require Import String.
From Coq Require Import Reals List Bool Lia Lra.
From Verif.Model Require Import Linalg Rotate Euler.
From Verif.Spec Require Import Linalg Rotate.
From Verif.Spec Require NortekEarth.
From Verif.Proofs Require Linalg Euler Rotate RotateProps RotateValues Declination.
Import ListNotations.
Open Scope R_scope.

Definition turned (u : option R) (v : vec) : vec := match u with Some a => clockwise a v | None => v end.
Definition declare (u : option R) (D : ds) : res := match u with Some a => set_declination D a | None => Ok D end.
Lemma frame_ok_of fam D : admissible fam D -> In (coord_sys D) ["beam"; "inst"; "earth"]%string -> frame_ok D (coord_sys D).
Proof. intros A F. split; [apply A|]. cbn [In] in F. destruct F as [e|[e|[e|[]]]]; rewrite <- e; discriminate. Qed.
Lemma self fam D d' : admissible fam D -> coord_sys D = "earth"%string -> rotate2 D "earth" = Ok d' -> d' = D.
Proof.
  intros A C H. destruct (Rotate.rotate2_inv fam D 2 "earth" d' A C ltac:(lia) H) as (j & Hj & E & _ & ->).
  assert (j = 2)%nat as -> by (destruct j as [|[|[|[|?]]]]; try lia; cbv in E; discriminate). now apply Rotate.goto_self.
Qed.
Lemma steps fam D d' : admissible fam D -> coord_sys D = "beam"%string -> rotate2 D "earth" = Ok d' ->
  exists d1, rotate2 D "inst" = Ok d1 /\ rotate2 d1 "earth" = Ok d' /\ admissible fam d1 /\ coord_sys d1 = "inst"%string /\
    rotate_vars d1 = rotate_vars D /\ orientmat d1 = orientmat D /\ orientation d1 = orientation D.
Proof.
  intros A C H. destruct (Rotate.reaches fam D "inst" A) as (d1 & H1 & C1).
  { split; [apply A|rewrite C; discriminate]. } { split; [right; now left|discriminate]. }
  exists d1. split; [exact H1|]. pose proof (proj1 (Rotate.round_trip _ _ _ _ A H1)) as A1. change (lower "inst") with "inst"%string in C1.
  destruct (Rotate.reaches fam d1 "earth" A1) as (d2 & H2 & C2).
  { split; [apply A1|rewrite C1; discriminate]. } { split; [do 2 right; now left|discriminate]. }
  assert (d2 = d') as -> by (pose proof (Rotate.route _ _ _ _ _ _ A H1 H2); congruence).
  split; [exact H2|]. split; [exact A1|]. split; [exact C1|].
  destruct (Rotate.rotate2_inv fam D 0 "inst" d1 A C ltac:(lia) H1) as (j & _ & _ & _ & ->). repeat split; reflexivity.
Qed.
Lemma with_declination fam D u : admissible fam D -> NoDup (rotate_vars D) -> In (coord_sys D) ["beam"; "inst"; "earth"]%string -> declination D = None ->
  exists D2 d1 d', declare u D = Ok D2 /\ declination D2 = u /\ coord_sys D2 = coord_sys D /\ rotate2 D "earth" = Ok d1 /\ rotate2 D2 "earth" = Ok d' /\
    forall nm i k y, In nm (rotate_vars D) -> value d1 nm i k = Some y -> value d' nm i k = Some (turned u y).
Proof.
  intros A N F Dn. pose proof (frame_ok_of fam D A F) as Fo.
  destruct (Rotate.reaches fam D "earth" A Fo) as (d1 & H & C1). { split; [do 2 right; now left|discriminate]. }
  change (lower "earth") with "earth"%string in C1.
  destruct u as [a|]; [|exists D, d1, d1; repeat (split; [easy|]); easy].
  destruct (Rotate.adm_index _ _ A) as (j & Hj & Cj). pose proof (Declination.sd_ok fam D j a A N Fo Hj Cj) as S2. set (D2 := Declination.declined fam j a D) in *.
  destruct (Declination.commutes fam D "earth" a d1 D2 A N Fo H S2) as (d3 & R3 & S3).
  destruct (Declination.attributes fam D a D2 A N Fo S2) as (At & Cs & _).
  exists D2, d1, d3. repeat (split; [assumption|]). intros nm i k y I Y.
  assert (A1 : admissible fam d1) by exact (proj1 (Rotate.round_trip _ _ _ _ A H)).
  assert (Rv : rotate_vars d1 = rotate_vars D /\ declination d1 = None).
  { rewrite <- Dn. destruct (Rotate.rotate2_inv fam D j "earth" d1 A Cj Hj H) as (j' & _ & _ & _ & ->). split; reflexivity. }
  destruct Rv as [Rv Dv]. rewrite <- Rv in N, I.
  pose proof (Declination.earth_clockwise fam d1 a d3 nm i k y A1 N C1 S3 I Y) as K. unfold declination_change in K. rewrite Dv in K. exact K.
Qed.

(** ** Three components *)
Definition three (fam : family) : Prop := fam = Awac \/ fam = Vector.
Definition by_frame (frame : string) (M O : mat) (v : vec) : vec :=
  if String.eqb frame "beam" then in_earth O (mv M v) else if String.eqb frame "inst" then in_earth O v else v.
Lemma in_earth3 O x y z : in_earth O [x; y; z] ++ [] = in_earth O [x; y; z].
Proof. apply app_nil_r. Qed.
Lemma is_vec3_inv (v : vec) : length v = 3%nat -> exists x y z, v = [x; y; z].
Proof. destruct v as [|x [|y [|z [|? ?]]]]; try discriminate. now exists x, y, z. Qed.
Lemma value_three fam D d1 nm i k v O : three fam -> inst2head D = None -> admissible fam D -> NoDup (rotate_vars D) ->
  In (coord_sys D) ["beam"; "inst"; "earth"]%string -> rotate2 D "earth" = Ok d1 -> In nm (rotate_vars D) -> length (beam2inst D) = 3%nat ->
  value D nm i k = Some v -> length v = 3%nat -> nth_error (orientmat D) i = Some O -> value d1 nm i k = Some (by_frame (coord_sys D) (beam2inst D) O v).
Proof.
  intros T I2 A N F H I B V L O1. cbn [In] in F. unfold by_frame. destruct (is_vec3_inv v L) as (x & y & z & ->).
  assert (NS : fam <> Signature) by (destruct T; subst; discriminate).
  assert (M0 : (match fam with Signature => String.eqb (orientation D) "down" | _ => false end) = false) by (destruct fam; try reflexivity; contradiction).
  destruct F as [e|[e|[e|[]]]]; rewrite <- e.
  - change (String.eqb "beam" "beam") with true. cbn iota. symmetry in e. destruct (steps fam D d1 A e H) as (d2 & H1 & H2 & A1 & C1 & R1 & O2 & Or).
    pose proof (RotateValues.beam_to_inst fam D "inst" d2 nm i k _ A N e eq_refl H1 I V ltac:(now rewrite B) (fun _ _ => I2)) as V1.
    assert (L1 : length (mv (beam2inst D) [x; y; z]) = 3%nat) by (unfold mv; now rewrite map_length).
    destruct (is_vec3_inv _ L1) as (x' & y' & z' & E1). rewrite E1 in *.
    destruct (RotateValues.inst_to_earth fam d2 "earth" d1 nm i k _ A1 ltac:(rewrite R1; exact N) C1 eq_refl H2 ltac:(rewrite R1; exact I) V1 ltac:(intros X; contradiction)) as (O' & EO & V2).
    rewrite O2, O1 in EO. assert (O' = O) as -> by congruence. rewrite V2. rewrite Or, M0. cbn [mounted firstn skipn]. now rewrite app_nil_r.
  - change (String.eqb "inst" "beam") with false. change (String.eqb "inst" "inst") with true. cbn iota. symmetry in e.
    destruct (RotateValues.inst_to_earth fam D "earth" d1 nm i k _ A N e eq_refl H I V ltac:(intros X; contradiction)) as (O' & EO & V2).
    rewrite O1 in EO. assert (O' = O) as -> by congruence. rewrite V2, M0. cbn [mounted firstn skipn]. now rewrite app_nil_r.
  - change (String.eqb "earth" "beam") with false. change (String.eqb "earth" "inst") with false. cbn iota. symmetry in e.
    rewrite (self fam D d1 A e H). exact V.
Qed.

(** ** Transform.m *)
Lemma vec3_ext (a b c a' b' c' : R) : a = a' -> b = b' -> c = c' -> [a; b; c] = [a'; b'; c'].
Proof. now intros -> -> ->. Qed.
Lemma degrees a : PI * a / 180 = deg2rad a.
Proof. unfold deg2rad. field. Qed.
Lemma hh h : cos (PI * (h - 90) / 180) = sin (deg2rad h) /\ sin (PI * (h - 90) / 180) = - cos (deg2rad h).
Proof.
  replace (PI * (h - 90) / 180) with (- (PI / 2 - deg2rad h)) by (unfold deg2rad; field). rewrite cos_neg, sin_neg, cos_shift, sin_shift. split; reflexivity.
Qed.
Lemma enu_omat down h p r x y z : in_earth (nortek_omat h p r down) [x; y; z] = NortekEarth.enu down h p r [x; y; z].
Proof.
  assert (U : forall x y z, in_earth (nortek_omat h p r false) [x; y; z] = NortekEarth.enu false h p r [x; y; z]).
  { intros a b c. unfold nortek_omat. rewrite Euler.nortek_eq, Euler.euler_rad_entries. unfold NortekEarth.enu, NortekEarth.product, NortekEarth.heading_matrix, NortekEarth.tilt_matrix, NortekEarth.mounted, in_earth, comp, entry.
    destruct (hh h) as [-> ->]. rewrite !degrees. cbn [map seq nth fold_right combine fst snd]. apply vec3_ext; ring. }
  destruct down; [|apply U]. rewrite Euler.nortek_down. set (M := nortek_omat h p r false) in *.
  assert (E : NortekEarth.enu true h p r [x; y; z] = NortekEarth.enu false h p r [x; - y; - z]) by reflexivity. rewrite E, <- U.
  assert (S : length M = 3%nat /\ Forall (fun r => length r = 3%nat) M).
  { unfold M, nortek_omat, nortek_euler2orient. cbv zeta. split; [reflexivity|repeat apply Forall_cons; try apply Forall_nil; reflexivity]. }
  destruct S as [S1 S2]. destruct M as [|r0 [|r1 [|r2 [|? ?]]]]; try discriminate S1.
  inversion S2 as [|? ? L0 S3]; subst. inversion S3 as [|? ? L1 S4]; subst. inversion S4 as [|? ? L2 _]; subst.
  destruct (is_vec3_inv r0 L0) as (a0 & b0 & c0 & ->), (is_vec3_inv r1 L1) as (a1 & b1 & c1 & ->), (is_vec3_inv r2 L2) as (a2 & b2 & c2 & ->).
  unfold in_earth, comp, entry. cbn [map seq nth combine vmul fst snd]. apply vec3_ext; ring.
Qed.
Lemma product_mv T v : NortekEarth.product T v = mv T v.
Proof.
  unfold NortekEarth.product, mv. apply map_ext. intros row. unfold dot. revert v. induction row as [|a row IH]; intros [|b v]; try reflexivity.
  cbn [combine map fold_right fst snd]. rewrite IH. reflexivity.
Qed.
Lemma by_frame_enu frame M down h p r v : length M = 3%nat -> length v = 3%nat -> 
  by_frame frame M (nortek_omat h p r down) v = NortekEarth.to_earth frame M down h p r v.
Proof.
  intros L1 L2. unfold by_frame, NortekEarth.to_earth. destruct (is_vec3_inv v L2) as (x & y & z & ->). destruct (String.eqb frame "beam").
  - rewrite product_mv. assert (L : length (mv M [x; y; z]) = 3%nat) by (unfold mv; now rewrite map_length). destruct (is_vec3_inv _ L) as (x' & y' & z' & ->). apply enu_omat.
  - destruct (String.eqb frame "inst"); [apply enu_omat|reflexivity].
Qed.
