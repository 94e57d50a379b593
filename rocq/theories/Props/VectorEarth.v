(** Property C175: Vector files without an IMU, from the bytes to velocities in earth coordinates. *)
From Coq Require Import String.
From Coq Require Import ZArith QArith Qreals Reals List Bool Lia Lra.
From Verif.Model Require Import Rotate.
From Verif.Spec Require Import Rotate.
From Verif.Model Require Import Nortek NortekFile NortekData HandleNan ReadVector NortekEarth.
From Verif.Model Require RdiBlocks.
From Verif.Spec Require Import Nortek NortekGuess NortekData ReadVector NortekEarth VectorEarth.
From Verif.Proofs Require NortekEarth VectorEarth ToEarth.
Import ListNotations.
Open Scope string_scope.
Open Scope list_scope.
Open Scope nat_scope.

(** with the declination of the userdata file, if there is one *)
Definition turned (u : option R) (v : list R) : list R := match u with Some a => clockwise a v | None => v end.
(** every velocity recorded for sample [k] is turned with these angles (in degrees) *)
Definition turned_with (r : reader) (g : vec_cfg) (bs : list blk) (frame : string) (down : bool) (u : option R) (d' : ds) (k : nat) (heading pitch roll : R) : Prop :=
  forall v, sample_at (rendian r) bs k v ->
    value d' "vel" k 0 = Some (turned u (to_earth frame (reals (g_beam2inst g)) down heading pitch roll (scaled g v))).

(** ** C175 *)
(** With the attitude that was recorded with the sample; between two such samples with angles on the straight line (what
    that does at north is below); with the last attitude after it; and before the first one with no attitude at all. *)
Theorem C175_vector_partial : forall r g header bs tail clock down, plain_vector r g header bs tail clock down ->
  forall frame, In frame ["beam"; "inst"; "earth"] -> forall nan u, exists D d',
  open_vector nan frame None u g r (file_of header bs tail) (length header) = Some (Ok D) /\
  declination D = u /\ coord_sys D = frame /\ rotate2 D "earth" = Ok d' /\
  (forall k h p rl, attitude_at (rendian r) bs k h p rl -> turned_with r g bs frame down u d' k (tenths h) (tenths p) (tenths rl)) /\
  (forall i j k h p rl h' p' rl', attitude_at (rendian r) bs i h p rl -> attitude_at (rendian r) bs j h' p' rl' -> i < k < j ->
     (forall m, i < m < j -> no_sys_at bs m) -> ~ (clock i == clock j)%Q ->
     let w := passed clock i j k in turned_with r g bs frame down u d' k (between w h h') (between w p p') (between w rl rl')) /\
  (forall i k h p rl, attitude_at (rendian r) bs i h p rl -> i <= k -> (forall m, i < m -> no_sys_at bs m) ->
     turned_with r g bs frame down u d' k (tenths h) (tenths p) (tenths rl)) /\
  (forall k, (forall m, m <= k -> no_sys_at bs m) -> turned_with r g bs frame down u d' k nan nan nan).
Proof.
  intros r g header bs tail clock down F frame Fr nan u. exact (Proofs.VectorEarth.vector_as_read r g header bs tail clock down F nan frame u Fr).
Qed.
(** An instrument that turns from 359 degrees to 1 degree has a heading of 180 degrees half way: no heading near north gives
    the velocities of the dataset, which are reversed. *)
Theorem C175_north_refuted : forall r g header bs tail clock, plain_vector r g header bs tail clock false -> ~ (g_scale g == 0)%Q ->
  forall nan, exists D d', open_vector nan "inst" None None g r (file_of header bs tail) (length header) = Some (Ok D) /\ rotate2 D "earth" = Ok d' /\
  forall i j k x, attitude_at (rendian r) bs i 3590 0 0 -> attitude_at (rendian r) bs j 10 0 0 -> i < k < j -> (forall m, i < m < j -> no_sys_at bs m) ->
    ~ (clock i == clock j)%Q -> (2 * (clock k - clock i) == clock j - clock i)%Q -> sample_at (rendian r) bs k [x; 0; 0]%Z -> x <> 0%Z ->
    forall h, (358 <= h <= 362)%R -> value d' "vel" k 0 <> Some (to_earth "inst" (reals (g_beam2inst g)) false h 0 0 (scaled g [x; 0; 0]%Z)).
Proof.
  intros r g header bs tail clock F Sc nan.
  destruct (Proofs.VectorEarth.vector_as_read r g header bs tail clock false F nan "inst" None ltac:(cbn; tauto)) as (D & d' & E1 & _ & _ & E4 & _ & V & _).
  exists D, d'. split; [exact E1|]. split; [exact E4|]. intros i j k x Ai Aj K N NE Mid Sx Nx h Hh E.
  specialize (V i j k 3590%Z 0%Z 0%Z 10%Z 0%Z 0%Z Ai Aj K N NE [x; 0; 0]%Z Sx). cbv zeta in V. rewrite V in E. clear V.
  assert (X : forall a b : list R, Some a = Some b -> a = b) by congruence. apply X in E. rewrite (Proofs.VectorEarth.midway clock i j k NE Mid) in E.
  unfold to_earth in E. change (String.eqb "inst" "beam") with false in E. change (String.eqb "inst" "inst") with true in E. cbn iota in E. cbn [Proofs.ToEarth.turned] in E.
  assert (Z0 : scaled g [x; 0; 0]%Z = [Q2R (g_scale g) * (IZR x / 1000); 0; 0]%R) by (unfold scaled; cbn [map]; repeat f_equal; lra). rewrite Z0 in E.
  replace (between (1 / 2) 3590 10) with 180%R in E by (unfold between, tenths; lra). replace (between (1 / 2) 0 0) with 0%R in E by (unfold between, tenths; lra).
  refine (Proofs.VectorEarth.north_differs h _ _ Hh E). apply not_0_IZR in Nx. intros Z1. apply Rmult_integral in Z1. destruct Z1 as [Z1|Z1]; [|lra].
  apply Sc. apply eqR_Qeq. rewrite Z1. unfold Q2R. cbn. lra.
Qed.

(** ** Examples: two samples a second, system data every second; the instrument turns from 359 degrees to 1 degree *)
Local Definition two (x : Z) : bytes := [x mod 256; x mod 65536 / 256]%Z.
Local Definition hdr : bytes := repeat 0%Z 30.
Local Definition v (x y z : Z) : blk := Blk 16 (repeat 0 8 ++ two x ++ two y ++ two z ++ repeat 0 6)%Z [1; 2]%Z.
Local Definition y (sec h p r st : Z) : blk := Blk 17 ([14; 0] ++ [53; sec; 9; 18; 18; 2] ++ [7; 7; 7; 7] ++ two h ++ two p ++ two r ++ [0; 0; 0; st; 0; 0])%Z [1; 2]%Z.
Local Definition r0 : reader := Reader LE false Vector 1 3 None.
Local Definition g0 (burst : nat) : vec_cfg := VecCfg 3 burst (1 # 10) [[1; 2; 3]; [0; 5; 6]; [0; 0; 9]]%Q.
Local Definition t0 : Q := inject_Z (RdiBlocks.epoch (Date 2012 2 9 12 35 0)).
Local Definition bs0 (st : Z) : list blk :=
  [v 5 6 7; y 0 3590 0 0 st; v 1 (-2) 3; v 250 0 0; y 1 10 0 0 st; v 4 5 6; v 7 8 9; y 2 25 (-30) 40 st; v 5 5 5; v 6 6 6].
Local Lemma v_ok a b c : vector_block LE (v a b c) /\ verified r0 (v a b c) /\ sized LE (v a b c).
Proof. split; [left; split; reflexivity|]. split; [exists 1%Z, 2%Z; split; [reflexivity|left; reflexivity]|]. left. reflexivity. Qed.
Local Lemma y_ok sec h p r st : (0 <= sec < 3)%Z -> vector_block LE (y sec h p r st) /\ verified r0 (y sec h p r st) /\ sized LE (y sec h p r st) /\
  rd_time (skipn 2 (body (y sec h p r st))) = Some (Date 2012 2 9 12 35 sec).
Proof.
  intros H. assert (sec = 0 \/ sec = 1 \/ sec = 2)%Z as D by lia.
  assert (R : rd_time (skipn 2 (body (y sec h p r st))) = Some (Date 2012 2 9 12 35 sec)) by (destruct D as [->|[->| ->]]; reflexivity).
  split; [right; left; split; [reflexivity|split; [reflexivity|exists (Date 2012 2 9 12 35 sec); exact R]]|].
  split; [exists 1%Z, 2%Z; split; [reflexivity|left; reflexivity]|]. split; [right; split; [discriminate|exists 14%Z, 0%Z; eexists; split; reflexivity]|exact R].
Qed.
(** going through the blocks of a concrete list *)
Local Fixpoint along (P : list blk -> blk -> list blk -> Prop) (pre bs : list blk) : Prop :=
  match bs with [] => True | b :: post => P pre b post /\ along P (pre ++ [b]) post end.
Local Lemma walk P bs : along P [] bs -> forall pre b post, bs = pre ++ b :: post -> P pre b post.
Proof.
  assert (G : forall bs q pre b post, along P q bs -> bs = pre ++ b :: post -> P (q ++ pre) b post).
  { clear bs. induction bs as [|x bs IH]; intros q pre b post H E; [destruct pre; discriminate|]. destruct H as [H1 H2]. destruct pre as [|z pre].
    - injection E as <- <-. rewrite app_nil_r. exact H1.
    - injection E as <- E. specialize (IH (q ++ [x]) pre b post H2 E). rewrite <- app_assoc in IH. exact IH. }
  intros H pre b post E. apply (G bs [] pre b post H E).
Qed.
Local Ltac each := refine (walk _ _ _); cbn [along app concat bs0]; repeat match goal with |- _ /\ _ => split | |- True => exact I end.
Local Ltac blocks_ok := repeat (apply Forall_cons; [first [apply y_ok; lia|apply v_ok]|]); apply Forall_nil.
Local Lemma clock_ok st : clock_of (bs0 st) (t0 - (1 # 2), 1 # 2)%Q /\ three_times (bs0 st).
Proof.
  split.
  - split; [reflexivity|]. split; [discriminate|]. each; first [discriminate|intros _; eexists; split; [apply y_ok; lia|reflexivity]].
  - exists [v 5 6 7], (y 0 3590 0 0 st), [v 1 (-2) 3; v 250 0 0], (y 1 10 0 0 st), [v 4 5 6; v 7 8 9], (y 2 25 (-30) 40 st), [v 5 5 5; v 6 6 6]. repeat split; discriminate.
Qed.
Local Lemma rest_ok st down burst bs clock : bs = bs0 st \/ bs = bs0 st ++ bs0 st -> Z.testbit st 0 = down -> sampled (g0 burst) bs clock -> plain_vector r0 (g0 burst) hdr bs [] clock down.
Proof.
  intros B St Sm. constructor.
  - split; [reflexivity|]. split; [left; cbn; lia|].
    split; [destruct B as [->| ->]; blocks_ok|]. split; [destruct B as [->| ->]; blocks_ok|]. split; [destruct B as [->| ->]; each; discriminate|]. split; [reflexivity|repeat constructor].
  - reflexivity.
  - split; [cbn; lia|]. split; [destruct B as [->| ->]; blocks_ok|].
    split; [exists [v 5 6 7], (y 0 3590 0 0 st); destruct B as [->| ->]; (eexists; split; [reflexivity|split; [reflexivity|discriminate]])|].
    split; [left; destruct B as [->| ->]; cbn; lia|]. split; destruct B as [->| ->]; cbn; try (repeat constructor); try lia.
  - destruct B as [->| ->]; repeat constructor.
  - exact Sm.
  - cbv -[IZR Rmult Rplus Rminus Ropp Rinv]. lra.
  - intros b I Sb. assert (I' : In b (bs0 st)) by (destruct B as [->| ->]; [exact I|apply in_app_or in I; tauto]). cbn [In bs0] in I'.
    repeat (destruct I' as [<-|I']; [first [discriminate Sb|exists st; split; [reflexivity|exact St]]|]). destruct I'.
Qed.
Example C175_hyp : plain_vector r0 (g0 0) hdr (bs0 2) [] (clock_at (t0 - (1 # 2), 1 # 2)%Q) false /\
  plain_vector r0 (g0 0) hdr (bs0 3) [] (clock_at (t0 - (1 # 2), 1 # 2)%Q) true /\
  plain_vector r0 (g0 7) hdr (bs0 2 ++ bs0 2) [] (clock_in_bursts 7 [(t0 - (1 # 2), 1 # 2); (t0 - (1 # 2), 1 # 2)]%Q) false.
Proof.
  split; [|split].
  - apply (rest_ok 2); [now left|reflexivity|]. left. split; [reflexivity|]. exists (t0 - (1 # 2), 1 # 2)%Q. split; [apply clock_ok|]. split; [apply clock_ok|reflexivity].
  - apply (rest_ok 3); [now left|reflexivity|]. left. split; [reflexivity|]. exists (t0 - (1 # 2), 1 # 2)%Q. split; [apply clock_ok|]. split; [apply clock_ok|reflexivity].
  - apply (rest_ok 2); [now right|reflexivity|]. right. split; [cbn; lia|]. exists [bs0 2; bs0 2], [(t0 - (1 # 2), 1 # 2); (t0 - (1 # 2), 1 # 2)]%Q.
    assert (W : whole_burst 7 (bs0 2)) by (split; [reflexivity|]; each; try discriminate; intros _; discriminate).
    split; [reflexivity|]. split; [discriminate|]. split; [repeat (apply Forall_cons; [exact W|]); apply Forall_nil|]. split; [repeat (apply Forall2_cons; [apply clock_ok|]); apply Forall2_nil|].
    split; [repeat (apply Forall_cons; [apply clock_ok|]); apply Forall_nil|reflexivity].
Qed.
Local Lemma signed_from b i b0 b1 w : nth_error b i = Some b0 -> nth_error b (S i) = Some b1 -> (-32768 <= w < 32768)%Z -> word LE b0 b1 = (w mod 65536)%Z -> signed_at LE b i w.
Proof. intros A B C D. exists b0, b1. repeat split; try assumption; lia. Qed.
(** the sample half way, the ones with system data, the last two, and the first *)
Example C175_samples_hyp : attitude_at LE (bs0 2) 1 3590 0 0 /\ attitude_at LE (bs0 2) 3 10 0 0 /\ attitude_at LE (bs0 2) 5 25 (-30) 40 /\
  sample_at LE (bs0 2) 2 [250; 0; 0]%Z /\ sample_at LE (bs0 2) 1 [1; -2; 3]%Z /\ sample_at LE (bs0 2) 6 [6; 6; 6]%Z /\ sample_at LE (bs0 2) 0 [5; 6; 7]%Z /\
  no_sys_at (bs0 2) 2 /\ no_sys_at (bs0 2) 0 /\ no_sys_at (bs0 2) 6 /\
  let clock := clock_at (t0 - (1 # 2), 1 # 2)%Q in ~ (clock 1%nat == clock 3%nat)%Q /\ (2 * (clock 2%nat - clock 1%nat) == clock 3%nat - clock 1%nat)%Q.
Proof.
  repeat match goal with |- _ /\ _ => split end.
  - exists [v 5 6 7], (y 0 3590 0 0 2). eexists. repeat (split; [reflexivity|]). split; [|split]; eapply signed_from; try reflexivity; lia.
  - exists [v 5 6 7; y 0 3590 0 0 2; v 1 (-2) 3; v 250 0 0], (y 1 10 0 0 2). eexists. repeat (split; [reflexivity|]). split; [|split]; eapply signed_from; try reflexivity; lia.
  - exists [v 5 6 7; y 0 3590 0 0 2; v 1 (-2) 3; v 250 0 0; y 1 10 0 0 2; v 4 5 6; v 7 8 9], (y 2 25 (-30) 40 2). eexists. repeat (split; [reflexivity|]). split; [|split]; eapply signed_from; try reflexivity; lia.
  - eexists. do 3 eexists. split; [reflexivity|]. split; [reflexivity|]. split; [|split]; eapply signed_from; try reflexivity; lia.
  - eexists. do 3 eexists. split; [reflexivity|]. split; [reflexivity|]. split; [|split]; eapply signed_from; try reflexivity; lia.
  - eexists. do 3 eexists. split; [reflexivity|]. split; [reflexivity|]. split; [|split]; eapply signed_from; try reflexivity; lia.
  - eexists. do 3 eexists. split; [reflexivity|]. split; [reflexivity|]. split; [|split]; eapply signed_from; try reflexivity; lia.
  - each; try discriminate; intros _; discriminate.
  - each; try discriminate; intros _; discriminate.
  - each; try discriminate; intros _; discriminate.
  - cbv zeta. split; [vm_compute; discriminate|vm_compute; reflexivity].
Qed.

(** All the theorems of this file, for one listing of axioms. *)
Definition all_theorems :=
  (@C175_vector_partial,
   @C175_north_refuted).
Print Assumptions all_theorems.
