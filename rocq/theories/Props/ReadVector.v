(** C165, C166, C167: what the dataset of a Vector file holds: its samples and their times, the attitude, the IMU. *)
From Coq Require Import String.
From Coq Require Import ZArith QArith List Bool Lia.
From Verif.Model Require Import Nortek NortekFile NortekData ReadVector HandleNan.
From Verif.Model Require RdiBlocks.
From Verif.Spec Require Import Nortek NortekGuess Time Gaps ReadVector.
From Verif.Proofs Require ReadVector ReadVectorBursts ReadVectorMore.
Import ListNotations.
Open Scope nat_scope.

(** C165. With IMU data after every sample the dataset has the samples of the file, no others, at the times of the clock
    of the instrument. *)
Theorem C165_imu_partial : forall r header bs tail n g ab, vector_file r g bs tail -> rpings r = None -> length (samples bs) < n ->
  g_burst g = 0 -> clock_of bs ab -> three_times bs -> imu_every (rendian r) bs ->
  exists d, read_dataset g r (file_of header bs tail) (length header) n = Some d /\
    holds_exactly (rendian r) (g_scale g) (samples bs) (clock_at ab) d.
Proof.
  intros r header bs tail n g ab F P C B CL TT EV.
  destruct (Proofs.ReadVectorMore.whole_more r header bs tail n g ab true F P C B CL TT EV) as (d & D1 & D2 & D3 & D4 & _).
  exists d. split; [exact D1|]. split; [exact D2|]. intros i b Hb. split; [apply D4; exact Hb|]. apply D3. rewrite D2. apply nth_error_Some. congruence.
Qed.
(** The same when the room for the samples is what the reader guesses from the file. *)
Theorem C165_guessed_partial : forall r header bs tail g ab, vector_file r g bs tail -> rpings r = None ->
  regular (rendian r) (Z.to_nat (Qround.Qfloor (g_fs g))) header bs tail ->
  g_burst g = 0 -> clock_of bs ab -> three_times bs -> imu_every (rendian r) bs ->
  exists d, read_nortek_vector g r (file_of header bs tail) (length header) = Some d /\
    holds_exactly (rendian r) (g_scale g) (samples bs) (clock_at ab) d.
Proof.
  intros r header bs tail g ab F P G B CL TT EV. destruct (Proofs.ReadVectorMore.guessed r header bs tail g F P G) as (n & C & ->).
  apply C165_imu_partial; assumption.
Qed.
(** Bursts: whole ones, each with its clock, with or without IMU. *)
Theorem C165_bursts_partial : forall r header bss clocks tail n g, vector_file r g (concat bss) tail -> rpings r = None ->
  length (samples (concat bss)) < n -> bss <> [] -> 0 < g_burst g -> Forall (whole_burst (g_burst g)) bss ->
  Forall2 clock_of bss clocks -> Forall three_times bss -> no_imu (concat bss) \/ imu_every (rendian r) (concat bss) ->
  exists d, read_dataset g r (file_of header (concat bss) tail) (length header) n = Some d /\
    holds_exactly (rendian r) (g_scale g) (samples (concat bss)) (clock_in_bursts (g_burst g) clocks) d.
Proof.
  intros r header bss clocks tail n g F P C NE B WB CL TT EV.
  destruct (Proofs.ReadVectorMore.bursts_more r header bss clocks tail n g F P C NE B WB CL TT EV) as (d & D1 & D2 & _).
  exists d. split; assumption.
Qed.
(** The first [k] samples, when they are asked for: whatever follows them in the file. *)
Theorem C165_first_partial : forall r header bs1 v post rest n g ab, rinst r = Vector -> rpings r = Some (S (length (samples bs1))) ->
  velocity v = true -> Forall (vector_block (rendian r)) (bs1 ++ v :: post) -> Forall (verified r) (bs1 ++ v :: post) ->
  imu_after_velocity (bs1 ++ v :: post) -> three_by_three (g_beam2inst g) -> g_burst g = 0 -> clock_of bs1 ab -> three_times bs1 ->
  (post = [] /\ no_imu bs1) \/ (exists i, post = [i] /\ is_imu i = true /\ imu_every (rendian r) (bs1 ++ v :: post)) ->
  exists d, read_dataset g r (header ++ concat (map bytes_of (bs1 ++ v :: post)) ++ rest) (length header) n = Some d /\
    holds_exactly (rendian r) (g_scale g) (samples bs1 ++ [body v]) (clock_at ab) d.
Proof.
  intros r header bs1 v post rest n g ab I1 P V WF Ve IM M B CL TT [EV|EV].
  - apply (Proofs.ReadVector.first_dataset r header bs1 v post rest n g ab _ false I1 P eq_refl V WF Ve IM M B CL TT EV).
  - apply (Proofs.ReadVector.first_dataset r header bs1 v post rest n g ab _ true I1 P eq_refl V WF Ve IM M B CL TT EV).
Qed.
(** Without an IMU a file that is read to its end gets, after its samples, as many made up ones as there was room for, with
    times that go on. *)
Theorem C165_no_imu_refuted : forall r header bs tail n g ab, vector_file r g bs tail -> rpings r = None -> length (samples bs) < n ->
  g_burst g = 0 -> clock_of bs ab -> three_times bs -> no_imu bs ->
  exists d, read_dataset g r (file_of header bs tail) (length header) n = Some d /\
    length (d_time d) = n /\ length (samples bs) < n /\ (forall i, i < n -> time_is d i (clock_at ab i)) /\
    (forall i byts, nth_error (samples bs) i = Some byts -> sample_is (rendian r) (g_scale g) d i byts) /\
    (forall i, length (samples bs) <= i < n -> sample_made_up d i).
Proof.
  intros r header bs tail n g ab F P C B CL TT EV.
  destruct (Proofs.ReadVectorMore.whole_more r header bs tail n g ab false F P C B CL TT EV) as (d & D1 & D2 & D3 & D4 & D5 & _).
  rewrite D2 in *. exists d. repeat (split; [assumption|]). exact D5.
Qed.

(** C166. Attitude, temperature, speed of sound and battery: what was recorded is kept, straight lines in time join it. *)
Theorem C166_continuous_partial : forall r header bs tail n g ab d, vector_file r g bs tail -> rpings r = None -> length (samples bs) < n ->
  g_burst g = 0 -> clock_of bs ab -> three_times bs -> no_imu bs \/ imu_every (rendian r) bs ->
  read_dataset g r (file_of header bs tail) (length header) n = Some d -> attitude_follows (rendian r) bs (clock_at ab) d.
Proof.
  intros r header bs tail n g ab d F P C B CL TT [EV|EV] R.
  - destruct (Proofs.ReadVectorMore.whole_more r header bs tail n g ab false F P C B CL TT EV) as (d' & D1 & _ & _ & _ & _ & D & _).
    assert (d' = d) as <- by congruence. exact D.
  - destruct (Proofs.ReadVectorMore.whole_more r header bs tail n g ab true F P C B CL TT EV) as (d' & D1 & _ & _ & _ & _ & D & _).
    assert (d' = d) as <- by congruence. exact D.
Qed.
Theorem C166_bursts_partial : forall r header bss clocks tail n g d, vector_file r g (concat bss) tail -> rpings r = None ->
  length (samples (concat bss)) < n -> bss <> [] -> 0 < g_burst g -> Forall (whole_burst (g_burst g)) bss ->
  Forall2 clock_of bss clocks -> Forall three_times bss -> no_imu (concat bss) \/ imu_every (rendian r) (concat bss) ->
  read_dataset g r (file_of header (concat bss) tail) (length header) n = Some d ->
  attitude_follows (rendian r) (concat bss) (clock_in_bursts (g_burst g) clocks) d.
Proof.
  intros r header bss clocks tail n g d F P C NE B WB CL TT EV R.
  destruct (Proofs.ReadVectorMore.bursts_more r header bss clocks tail n g F P C NE B WB CL TT EV) as (d' & D1 & _ & D & _).
    assert (d' = d) as <- by congruence. exact D.
Qed.

(** C167. Accelerations, angular rates, magnetic field and orientation matrix of each sample are those of the IMU message
    that follows it. *)
Theorem C167_continuous_partial : forall r header bs tail n g ab d, vector_file r g bs tail -> rpings r = None -> length (samples bs) < n ->
  g_burst g = 0 -> clock_of bs ab -> three_times bs -> imu_every (rendian r) bs ->
  read_dataset g r (file_of header bs tail) (length header) n = Some d -> imu_follows (rendian r) (g_fs g) bs d.
Proof.
  intros r header bs tail n g ab d F P C B CL TT EV R.
  destruct (Proofs.ReadVectorMore.whole_more r header bs tail n g ab true F P C B CL TT EV) as (d' & D1 & _ & _ & _ & _ & _ & D & _).
    assert (d' = d) as <- by congruence. exact D.
Qed.
Theorem C167_bursts_partial : forall r header bss clocks tail n g d, vector_file r g (concat bss) tail -> rpings r = None ->
  length (samples (concat bss)) < n -> bss <> [] -> 0 < g_burst g -> Forall (whole_burst (g_burst g)) bss ->
  Forall2 clock_of bss clocks -> Forall three_times bss -> imu_every (rendian r) (concat bss) ->
  read_dataset g r (file_of header (concat bss) tail) (length header) n = Some d -> imu_follows (rendian r) (g_fs g) (concat bss) d.
Proof.
  intros r header bss clocks tail n g d F P C NE B WB CL TT EV R.
  destruct (Proofs.ReadVectorMore.bursts_more r header bss clocks tail n g F P C NE B WB CL TT (or_intror EV)) as (d' & D1 & _ & _ & D & _).
    assert (d' = d) as <- by congruence. exact D.
Qed.

(** ** a file: two samples a second, system data every second *)
Local Definition hdr : bytes := repeat 0%Z 30.
Local Definition v (x : Z) : blk := Blk 16 (x :: repeat 0 19)%Z [1; 2]%Z.
(** the second, and ten times the heading *)
Local Definition y (sec h : Z) : blk := Blk 17 ([14; 0] ++ [53; sec; 9; 18; 18; 2] ++ [7; 7; 7; 7; h] ++ repeat 0 11)%Z [1; 2]%Z.
Local Definition i : blk := Blk 113 ([25; 0; 5; 211] ++ concat (repeat [0; 0; 128; 63] 5) ++ concat (repeat [0; 0; 0; 64] 4) ++ repeat 0 6)%Z [1; 2]%Z.
Local Definition r0 : reader := Reader LE false Vector 1 3 None.
Local Definition g0 : vec_cfg := VecCfg 3 0 (1 # 1) [[1; 0; 0]; [0; 1; 0]; [0; 0; 1]]%Q.
Local Definition t0 : Q := inject_Z (RdiBlocks.epoch (Date 2012 2 9 12 35 0)).
Local Definition with_imu (im : list blk) : list blk :=
  [y 0 10; v 1] ++ im ++ [v 2] ++ im ++ [y 1 30; v 3] ++ im ++ [v 4] ++ im ++ [y 2 20; v 5] ++ im ++ [v 6] ++ im.
Local Definition bs1 : list blk := with_imu [i].
Local Definition bs0 : list blk := with_imu [].
Local Lemma v_ok x : vector_block LE (v x) /\ verified r0 (v x) /\ sized LE (v x).
Proof. split; [left; split; reflexivity|]. split; [exists 1%Z, 2%Z; split; [reflexivity|left; reflexivity]|]. left. reflexivity. Qed.
Local Lemma y_ok sec h : (0 <= sec < 10)%Z -> vector_block LE (y sec h) /\ verified r0 (y sec h) /\ sized LE (y sec h) /\
  rd_time (skipn 2 (body (y sec h))) = Some (Date 2012 2 9 12 35 sec).
Proof.
  intros H. assert (sec = 0 \/ sec = 1 \/ sec = 2 \/ sec = 3 \/ sec = 4 \/ sec = 5 \/ sec = 6 \/ sec = 7 \/ sec = 8 \/ sec = 9)%Z as D by lia.
  assert (R : rd_time (skipn 2 (body (y sec h))) = Some (Date 2012 2 9 12 35 sec)) by (repeat (destruct D as [->|D]; [reflexivity|]); subst; reflexivity).
  split; [right; left; split; [reflexivity|split; [reflexivity|exists (Date 2012 2 9 12 35 sec); exact R]]|].
  split; [exists 1%Z, 2%Z; split; [reflexivity|left; reflexivity]|]. split; [right; split; [discriminate|exists 14%Z, 0%Z; eexists; split; reflexivity]|exact R].
Qed.
Local Lemma i_ok : vector_block LE i /\ verified r0 i /\ sized LE i.
Proof.
  split.
  - do 4 right. left. split; [reflexivity|]. exists 25%Z, 0%Z, 5%Z, 211%Z. eexists. split; [reflexivity|]. right. right. split; reflexivity.
  - split; [exists 1%Z, 2%Z; split; [reflexivity|left; reflexivity]|]. right. split; [discriminate|]. exists 25%Z, 0%Z. eexists. split; reflexivity.
Qed.
(** going through the blocks of a concrete list *)
Local Fixpoint along (P : list blk -> blk -> list blk -> Prop) (pre bs : list blk) : Prop :=
  match bs with [] => True | b :: post => P pre b post /\ along P (pre ++ [b]) post end.
Local Lemma walk P bs : along P [] bs -> forall pre b post, bs = pre ++ b :: post -> P pre b post.
Proof.
  assert (G : forall bs q pre b post, along P q bs -> bs = pre ++ b :: post -> P (q ++ pre) b post).
  { clear bs. induction bs as [|x bs IH]; intros q pre b post H E; [destruct pre; discriminate|]. destruct H as [H1 H2]. destruct pre as [|z pre].
    - injection E as <- <-. rewrite app_nil_r. exact H1.
    - injection E as <- E. specialize (IH (q ++ [x]) pre b post H2 E). rewrite <- app_assoc in IH. exact IH. }
  intros H pre b post E. apply (G bs [] pre b post H E).
Qed.
Local Ltac each := refine (walk _ _ _); cbn [along app bs1 bs0 with_imu]; repeat match goal with |- _ /\ _ => split | |- True => exact I end.
Local Ltac blocks_ok := repeat (apply Forall_cons; [first [apply y_ok; lia|apply v_ok|apply i_ok]|]); apply Forall_nil.
Local Lemma file_ok : vector_file r0 g0 bs1 [165; 16; 7]%Z /\ vector_file r0 g0 bs0 [].
Proof.
  split; (split; [reflexivity|]); (split; [first [left; cbn; lia|right; exists [7]%Z; split; [reflexivity|cbn; lia]]|]);
    (split; [blocks_ok|]);
    (split; [blocks_ok|]);
    (split; [each; first [discriminate|intros _; discriminate]|]);
    (split; [reflexivity|repeat constructor]).
Qed.
Local Lemma clock_ok : clock_of bs1 (t0, 1 # 2)%Q /\ clock_of bs0 (t0, 1 # 2)%Q.
Proof.
  split; (split; [reflexivity|]); (split; [discriminate|]); each; first [discriminate|intros _; eexists; split; [apply y_ok; lia|reflexivity]].
Qed.
Local Lemma three_ok : three_times bs1 /\ three_times bs0.
Proof.
  split.
  - exists [], (y 0 10), [v 1; i; v 2; i], (y 1 30), [v 3; i; v 4; i], (y 2 20), [v 5; i; v 6; i]. repeat split; discriminate.
  - exists [], (y 0 10), [v 1; v 2], (y 1 30), [v 3; v 4], (y 2 20), [v 5; v 6]. repeat split; discriminate.
Qed.
Local Lemma every_ok : imu_every LE bs1 /\ no_imu bs0.
Proof.
  split; [split|].
  - exists 211%Z. intros b H Ib. cbn in H. repeat (destruct H as [<-|H]; [first [discriminate Ib|split; [reflexivity|vm_compute; repeat constructor; discriminate]]|]). destruct H.
  - each; first [discriminate|intros _; eexists [], i, _; split; [reflexivity|split; reflexivity]].
  - repeat constructor.
Qed.
Local Lemma regular_ok : regular LE 3 hdr bs1 [165; 16; 7]%Z.
Proof.
  split; [cbn; lia|]. split; [blocks_ok|].
  split; [exists [], (y 0 10); eexists; split; [reflexivity|split; [reflexivity|discriminate]]|].
  split; [left; cbn; lia|]. split; [repeat constructor|cbn; lia].
Qed.
Example C165_imu_case : vector_file r0 g0 bs1 [165; 16; 7]%Z /\ regular LE 3 hdr bs1 [165; 16; 7]%Z /\ length (samples bs1) < 7 /\
  clock_of bs1 (t0, 1 # 2)%Q /\ three_times bs1 /\ imu_every LE bs1 /\
  samples bs1 = map body [v 1; v 2; v 3; v 4; v 5; v 6].
Proof.
  split; [apply file_ok|]. split; [exact regular_ok|]. split; [cbn; lia|]. split; [apply clock_ok|]. split; [apply three_ok|]. split; [apply every_ok|reflexivity].
Qed.
(** six samples, and two that nobody recorded *)
Example C165_no_imu_case : vector_file r0 g0 bs0 [] /\ length (samples bs0) < 8 /\ clock_of bs0 (t0, 1 # 2)%Q /\ three_times bs0 /\ no_imu bs0 /\
  option_map (fun d => (length (d_time d), at_sample d "vel" 0 6, at_sample d "corr" 0 7)) (read_dataset g0 r0 (file_of hdr bs0 []) 30 8)
    = Some (8, Some None, Some (Some 0%Q)).
Proof.
  split; [apply file_ok|]. split; [cbn; lia|]. split; [apply clock_ok|]. split; [apply three_ok|]. split; [apply every_ok|vm_compute; reflexivity].
Qed.
(** bursts of six samples *)
Example C165_bursts_case : Forall (whole_burst 6) [bs1; bs1] /\ Forall2 clock_of [bs1; bs1] [(t0, 1 # 2)%Q; (t0, 1 # 2)%Q] /\ Forall three_times [bs1; bs1].
Proof.
  assert (W : whole_burst 6 bs1) by (split; [reflexivity|]; each; try discriminate; intros _; discriminate).
  repeat split; repeat (constructor; [first [exact W|apply clock_ok|apply three_ok]|]); constructor.
Qed.
(** the first six samples of those with an IMU *)
Example C165_first_case : exists bs, bs1 = bs ++ v 6 :: [i] /\ clock_of bs (t0, 1 # 2)%Q /\ three_times bs /\ length (samples bs) = 5.
Proof.
  exists ([y 0 10; v 1; i; v 2; i; y 1 30; v 3; i; v 4; i; y 2 20; v 5; i]). split; [reflexivity|]. split; [|split; [|reflexivity]].
  - split; [reflexivity|]. split; [discriminate|]. each; first [discriminate|intros _; eexists; split; [apply y_ok; lia|reflexivity]].
  - exists [], (y 0 10), [v 1; i; v 2; i], (y 1 30), [v 3; i; v 4; i], (y 2 20), [v 5; i]. repeat split; discriminate.
Qed.
(** A last burst that was broken off gets made up samples too: its missing ones. *)
Theorem C165_incomplete_burst_refuted : exists r header bl1 bl2 g clock n d, vector_file r g (bl1 ++ bl2) [] /\ no_imu (bl1 ++ bl2) /\
  whole_burst (g_burst g) bl1 /\ length (samples bl2) < g_burst g /\ clock_of bl1 clock /\ clock_of bl2 clock /\ three_times bl1 /\ three_times bl2 /\
  length (samples (bl1 ++ bl2)) < n /\ read_dataset g r (file_of header (bl1 ++ bl2) []) (length header) n = Some d /\
  length (samples (bl1 ++ bl2)) < length (d_time d) /\ at_sample d "vel" 0 (length (samples (bl1 ++ bl2))) = Some None.
Proof.
  exists r0, hdr, [y 0 10; v 1; v 2; y 1 30; v 3; v 4; y 2 20; v 5; v 6], [y 0 10; v 1; v 2; y 1 30; v 3; v 4; y 2 20; v 5], (VecCfg 3 6 (1 # 1) [[1; 0; 0]; [0; 1; 0]; [0; 0; 1]]%Q), (t0, 1 # 2)%Q, 15.
  eexists. split.
  { split; [reflexivity|]. split; [left; cbn; lia|].
    split; [blocks_ok|].
    split; [blocks_ok|].
    split; [each; discriminate|]. split; [reflexivity|repeat constructor]. }
  split; [repeat constructor|]. split; [split; [reflexivity|]; each; try discriminate; intros _; discriminate|]. split; [cbn; lia|].
  split; [apply clock_ok|]. split; [split; [reflexivity|]; split; [discriminate|]; each; first [discriminate|intros _; eexists; split; [apply y_ok; lia|reflexivity]]|].
  split; [apply three_ok|]. split; [exists [], (y 0 10), [v 1; v 2], (y 1 30), [v 3; v 4], (y 2 20), [v 5]; repeat split; discriminate|].
  split; [cbn; lia|]. split; [vm_compute; reflexivity|]. split; [cbn; lia|reflexivity].
Qed.
(** Samples after the last system data have no heading, and nor have those before the first. *)
Theorem C166_every_sample_refuted : exists r header bs tail g ab n d k, vector_file r g bs tail /\ rpings r = None /\ length (samples bs) < n /\ g_burst g = 0 /\
  clock_of bs ab /\ three_times bs /\ imu_every (rendian r) bs /\ read_dataset g r (file_of header bs tail) (length header) n = Some d /\
  k < length (samples bs) /\ at_sample d "heading" 0 k = Some None.
Proof.
  exists r0, hdr, bs1, [165; 16; 7]%Z, g0, (t0, 1 # 2)%Q, 7. eexists. exists 5. split; [apply file_ok|]. split; [reflexivity|]. split; [cbn; lia|].
  split; [reflexivity|]. split; [apply clock_ok|]. split; [apply three_ok|]. split; [apply every_ok|]. split; [vm_compute; reflexivity|]. split; [cbn; lia|reflexivity].
Qed.
(** headings of 1, 3 and 2 degrees at the first, third and fifth sample; 2 degrees between the first two *)
Example C166_case : (exists x, sys_at LE bs1 2 x /\ (s_heading x == 3)%Q) /\ no_sys_at bs1 1 /\
  match read_dataset g0 r0 (file_of hdr bs1 [165; 16; 7]%Z) 30 7 with
  | Some d => match at_sample d "heading" 0 1 with Some (Some h) => (h == 2)%Q | _ => False end
  | None => False
  end.
Proof.
  split; [|split; [|vm_compute; reflexivity]].
  - eexists. split; [eexists [y 0 10; v 1; i; v 2; i], (y 1 30), _; repeat split|reflexivity].
  - each; try discriminate; intros _; discriminate.
Qed.
(** the acceleration of sample 3 along y: 9.80665 times 3 a second *)
Example C167_case : exists vals, imu_at bs1 3 211 vals /\ imu_component LE 3 211 vals "accel" 1 (3 * (980665 # 100000))%Q.
Proof.
  eexists. split; [eexists [y 0 10; v 1; i; v 2; i; y 1 30; v 3; i; v 4], i, _; repeat split|].
  exists 3. eexists. split; [reflexivity|]. split; [lia|]. split; [vm_compute; reflexivity|reflexivity].
Qed.

(** All the theorems of this file, for one listing of axioms. *)
Definition all_theorems :=
  (@C165_imu_partial,
   @C165_guessed_partial,
   @C165_bursts_partial,
   @C165_first_partial,
   @C165_no_imu_refuted,
   @C166_continuous_partial,
   @C166_bursts_partial,
   @C167_continuous_partial,
   @C167_bursts_partial,
   @C165_incomplete_burst_refuted,
   @C166_every_sample_refuted).
Print Assumptions all_theorems.
