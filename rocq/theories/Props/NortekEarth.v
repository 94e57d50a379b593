(** Property C174: AWAC files, from the bytes to velocities in earth coordinates. *)
From Coq Require Import String.
From Coq Require Import ZArith QArith Qreals Reals List Bool Lia Lra.
From Verif.Model Require Import Rotate.
From Verif.Spec Require Import Rotate.
From Verif.Model Require Import Nortek NortekFile NortekData HandleNan ReadVector ReadAwac NortekEarth.
From Verif.Spec Require Import Nortek NortekGuess NortekData ReadVector NortekEarth.
From Verif.Proofs Require NortekEarth ToEarth.
Import ListNotations.
Open Scope string_scope.
Open Scope list_scope.
Open Scope Z_scope.

(** with the declination of the userdata file, if there is one *)
Definition turned (u : option R) (v : list R) : list R := match u with Some a => clockwise a v | None => v end.

(** ** C174 *)
(** The velocities of every profile are those that the manufacturer's formulas give for its attitude, if they were recorded
    in earth coordinates, or if the tilts are not negative and the instrument points up. *)
Theorem C174_awac_partial : forall e cs bins header bs tail g, awac_file e cs bins header bs tail g ->
  forall frame, In frame ["beam"; "inst"; "earth"] -> forall nan u, exists D d',
  open_awac nan frame None u g (Reader e cs Awac bins 3 None) (file_of header bs tail) (length header) = Some (Ok D) /\
  declination D = u /\ coord_sys D = frame /\ rotate2 D "earth" = Ok d' /\
  forall i b h p r j v down, profile_at e bins bs i b h p r j v -> points_down b down -> frame = "earth" \/ (down = false /\ 0 <= p /\ 0 <= r) ->
    value d' "vel" i j = Some (turned u (to_earth frame (reals (g_beam2inst g)) down (tenths h) (tenths p) (tenths r) (metres v))).
Proof.
  intros e cs bins header bs tail g F frame Fr nan u.
  destruct (Proofs.NortekEarth.awac_as_read e cs bins header bs tail g F nan frame u Fr) as (D & d' & E1 & E2 & E3 & E4 & V).
  exists D, d'. repeat (split; [assumption|]). intros i b h p r j v down P _ C. rewrite (V i b h p r j v P).
  destruct C as [->|(-> & Hp & Hr)]; [reflexivity|]. destruct P as (_ & (_ & (p0 & p1 & _ & _ & Rp & _) & (r0 & r1 & _ & _ & Rr & _)) & _ & _).
  now rewrite !Proofs.NortekEarth.tenths_positive by lia.
Qed.
(** The status bit is not looked at: an instrument that points down has wrong velocities, unless the current is along x. *)
Theorem C174_down_refuted : forall e cs bins header bs tail g, awac_file e cs bins header bs tail g ->
  forall nan, exists D d', open_awac nan "inst" None None g (Reader e cs Awac bins 3 None) (file_of header bs tail) (length header) = Some (Ok D) /\
  rotate2 D "earth" = Ok d' /\
  forall i b h p r j x y z, profile_at e bins bs i b h p r j [x; y; z] -> points_down b true -> 0 <= p -> 0 <= r -> y <> 0 \/ z <> 0 ->
    value d' "vel" i j <> Some (to_earth "inst" (reals (g_beam2inst g)) true (tenths h) (tenths p) (tenths r) (metres [x; y; z])).
Proof.
  intros e cs bins header bs tail g F nan.
  destruct (Proofs.NortekEarth.awac_as_read e cs bins header bs tail g F nan "inst" None ltac:(cbn; tauto)) as (D & d' & E1 & E2 & E3 & E4 & V).
  exists D, d'. repeat (split; [assumption|]). intros i b h p r j x y z P _ Hp Hr N E. rewrite (V i b h p r j _ P) in E.
  destruct P as (_ & (_ & (p0 & p1 & _ & _ & Rp & _) & (r0 & r1 & _ & _ & Rr & _)) & _ & _). rewrite !Proofs.NortekEarth.tenths_positive in E by lia.
  assert (X : forall a b : list R, Some a = Some b -> a = b) by congruence. apply X in E.
  refine (Proofs.NortekEarth.down_differs _ _ _ _ _ _ _ E). 
  assert (Z0 : forall w, w <> 0 -> (IZR w / 1000 <> 0)%R) by (intros w Hw; apply not_0_IZR in Hw; lra). destruct N; [left|right]; now apply Z0.
Qed.
(** The tilts are read as if they were never negative: with a negative pitch a current along x has the wrong direction,
    whatever the roll. *)
Theorem C174_negative_pitch_refuted : forall e cs bins header bs tail g, awac_file e cs bins header bs tail g ->
  forall nan, exists D d', open_awac nan "inst" None None g (Reader e cs Awac bins 3 None) (file_of header bs tail) (length header) = Some (Ok D) /\
  rotate2 D "earth" = Ok d' /\
  forall i b h p r j x, profile_at e bins bs i b h p r j [x; 0; 0] -> points_down b false -> p < 0 -> x <> 0 ->
    value d' "vel" i j <> Some (to_earth "inst" (reals (g_beam2inst g)) false (tenths h) (tenths p) (tenths r) (metres [x; 0; 0])).
Proof.
  intros e cs bins header bs tail g F nan.
  destruct (Proofs.NortekEarth.awac_as_read e cs bins header bs tail g F nan "inst" None ltac:(cbn; tauto)) as (D & d' & E1 & E2 & E3 & E4 & V).
  exists D, d'. repeat (split; [assumption|]). intros i b h p r j x P _ Hp N E. rewrite (V i b h p r j _ P) in E.
  destruct P as (_ & (_ & (p0 & p1 & _ & _ & Rp & _) & _) & _ & _). rewrite (Proofs.NortekEarth.tenths_negative p) in E by lia.
  assert (X : forall a b : list R, Some a = Some b -> a = b) by congruence. apply X in E.
  assert (Z0 : metres [x; 0; 0] = [IZR x / 1000; 0; 0]%R) by (unfold metres; cbn [map]; repeat f_equal; lra).
  unfold to_earth in E. change (String.eqb "inst" "beam") with false in E. change (String.eqb "inst" "inst") with true in E. cbn iota in E. cbn [Proofs.ToEarth.turned] in E. rewrite Z0 in E.
  refine (Proofs.NortekEarth.tilt_differs _ _ _ _ _ _ E). apply not_0_IZR in N. lra.
Qed.
(** A rotation matrix of the head in the userdata file is refused: it is for Vectors. *)
Theorem C174_head_matrix : forall nan frame M u g r file start, In frame ["beam"; "inst"; "earth"] ->
  forall res, open_awac nan frame (Some M) u g r file start = Some res -> exists D, res = Err Inst2headNotVector D.
Proof.
  intros nan frame M u g r file start Fr res. unfold open_awac. destruct (read_nortek_awac g r file start) as [d|]; [|discriminate].
  unfold earth_ready. destruct (calc_omat nan d (fun _ => false)) as [om|]; [|discriminate]. cbn [option_map]. intros E.
  assert (X : forall a b : Rotate.res, Some a = Some b -> a = b) by congruence. apply X in E. subst res. cbn [In] in Fr.
  destruct Fr as [<-|[<-|[<-|[]]]]; eexists; reflexivity.
Qed.

(** ** Examples: three profiles of three beams and two cells *)
Local Definition two (x : Z) : bytes := [x mod 256; x mod 65536 / 256].
Local Definition prof (sec h p r status x y z : Z) : blk :=
  Blk 32 ([69; 0; 53; sec; 9; 18; 18; 2] ++ repeat 7 8 ++ two h ++ two p ++ two r ++ [0; status] ++ repeat 7 4 ++ repeat 0 88 ++
          two x ++ two 7 ++ two y ++ two 8 ++ two z ++ two 9 ++ [11; 12; 13; 14; 15; 16]) [1; 2].
Local Definition hdr : bytes := repeat 0 30.
Local Definition g0 : vec_cfg := VecCfg 1 0 1 [[1; 2; 3]; [0; 5; 6]; [0; 0; 9]]%Q.
Local Definition r0 : reader := Reader LE false Awac 2 3 None.
(** heading 300 degrees, pitch 2.5, roll 10, pointing up; then pointing down; then with pitch -2.5 *)
Local Definition three : list blk := [prof 0 3000 25 100 0 1000 (-200) 30; prof 16 3000 25 100 1 1000 (-200) 30; prof 32 3000 (-25) 100 2 1000 0 0].
Local Lemma prof_ok b : In b three -> awac_block 2 3 b /\ Forall is_byte (body b) /\ verified r0 b /\ sized LE b.
Proof.
  intros I. split; [|split; [|split]].
  - left. destruct I as [<-|[<-|[<-|[]]]]; (split; [reflexivity|]; split; [reflexivity|eexists; reflexivity]).
  - apply Forall_forall. intros y Hy. assert (B : forallb (fun y => (0 <=? y) && (y <? 256))%bool (body b) = true) by (destruct I as [<-|[<-|[<-|[]]]]; reflexivity).
    rewrite forallb_forall in B. specialize (B y Hy). apply andb_true_iff in B. destruct B as [B1 B2]. apply Z.leb_le in B1. apply Z.ltb_lt in B2. unfold is_byte. lia.
  - exists 1, 2. split; [destruct I as [<-|[<-|[<-|[]]]]; reflexivity|left; reflexivity].
  - right. split; [destruct I as [<-|[<-|[<-|[]]]]; discriminate|]. exists 69, 0. destruct I as [<-|[<-|[<-|[]]]]; eexists; split; reflexivity.
Qed.
Example C174_hyp : awac_file LE false 2 hdr three [] g0.
Proof.
  constructor.
  - cbn; lia.
  - cbn; lia.
  - lia.
  - split; [split; [reflexivity|repeat constructor]|]. cbv -[IZR Rmult Rplus Rminus Ropp Rinv]. lra.
  - apply Forall_forall. intros b I. apply (prof_ok b I).
  - apply Forall_forall. intros b I. apply (prof_ok b I).
  - apply Forall_forall. intros b I. apply (prof_ok b I).
  - apply Forall_forall. intros b I. apply (prof_ok b I).
  - cbn; lia.
  - left. cbn. lia.
Qed.
Local Ltac places := repeat first [split; [reflexivity|] | eexists; split; [reflexivity|]; try lia | reflexivity | lia].
Local Lemma signed_from b i b0 b1 v : nth_error b i = Some b0 -> nth_error b (S i) = Some b1 -> -32768 <= v < 32768 -> word LE b0 b1 = v mod 65536 -> signed_at LE b i v.
Proof. intros A B C D. exists b0, b1. repeat split; try assumption; lia. Qed.
Example C174_profiles_hyp :
  (exists b, profile_at LE 2 three 0 b 3000 25 100 0 [1000; -200; 30] /\ points_down b false) /\
  (exists b, profile_at LE 2 three 1 b 3000 25 100 0 [1000; -200; 30] /\ points_down b true) /\
  (exists b, profile_at LE 2 three 2 b 3000 (-25) 100 0 [1000; 0; 0] /\ points_down b false).
Proof.
  repeat split; eexists; (split; [split; [reflexivity|]; split; [|split; [lia|]]|]).
  all: try (eexists; split; reflexivity).
  all: try (do 3 eexists; split; [reflexivity|]; repeat split; eapply signed_from; try reflexivity; lia).
  all: split; [do 2 eexists; split; [reflexivity|]; split; reflexivity|split; eapply signed_from; try reflexivity; lia].
Qed.

(** All the theorems of this file, for one listing of axioms. *)
Definition all_theorems :=
  (@C174_awac_partial,
   @C174_down_refuted,
   @C174_negative_pitch_refuted,
   @C174_head_matrix).
Print Assumptions all_theorems.
