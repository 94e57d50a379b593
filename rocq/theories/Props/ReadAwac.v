(** C168: what the dataset of an AWAC file holds: its profiles at their dates. *)
From Coq Require Import String.
From Coq Require Import ZArith QArith List Bool Lia.
From Verif.Model Require Import Nortek NortekFile NortekGuess NortekData ReadVector ReadAwac HandleNan.
From Verif.Spec Require Import Nortek NortekGuess Time ReadVector ReadAwac.
From Verif.Spec Require SigData.
From Verif.Proofs Require ReadAwac Calendar.
Import ListNotations.
Open Scope nat_scope.

(** C168. The dataset has the profiles of the file, no others, in order, each with its readings and cells and at the instant
    of its date. *)
Theorem C168_profiles_partial : forall e cs bins beams header bs tail g, 22 <= length header -> length tail < 2 -> 0 < bins -> beams <= 3 ->
  three_by_three (g_beam2inst g) -> Forall (awac_block bins beams) bs -> Forall (fun b => Forall is_byte (body b)) bs ->
  Forall (verified (Reader e cs Awac bins beams None)) bs -> Forall (sized e) bs -> 0 < number 32 bs -> evenly 32 bs (file_of header bs tail) ->
  exists d, read_nortek_awac g (Reader e cs Awac bins beams None) (file_of header bs tail) (length header) = Some d /\
    holds_profiles e beams bins (profiles bs) d.
Proof.
  intros e cs bins beams header bs tail g A B C D E F G H I1 J K.
  destruct (Proofs.ReadAwac.awac_file e cs bins beams header bs tail g A B C D E F G H I1 J K) as (d & D1 & D2 & _).
  exists d. split; assumption.
Qed.
(** The matrix of the transducers is kept when there are three profiles or more. *)
Theorem C168_matrix_partial : forall e cs bins beams header bs tail g, 22 <= length header -> length tail < 2 -> 0 < bins -> beams <= 3 ->
  three_by_three (g_beam2inst g) -> Forall (awac_block bins beams) bs -> Forall (fun b => Forall is_byte (body b)) bs ->
  Forall (verified (Reader e cs Awac bins beams None)) bs -> Forall (sized e) bs -> 3 <= number 32 bs -> evenly 32 bs (file_of header bs tail) ->
  exists d, read_nortek_awac g (Reader e cs Awac bins beams None) (file_of header bs tail) (length header) = Some d /\
    matrix_is d (g_beam2inst g).
Proof.
  intros e cs bins beams header bs tail g A B C D E F G H I1 J K.
  destruct (Proofs.ReadAwac.awac_file e cs bins beams header bs tail g A B C D E F G H I1 ltac:(lia) K) as (d & D1 & _ & D2).
  exists d. split; [exact D1|]. apply D2. exact J.
Qed.

(** a file of profiles of three beams and two cells *)
Local Definition pr (sec x : Z) : blk :=
  Blk 32 ([69; 0; 53; sec; 9; 18; 18; 2] ++ repeat 7 20 ++ repeat 0 88 ++ [x; 0; 2; 0; 3; 0; 4; 0; 5; 0; 255; 255] ++ [11; 12; 13; 14; 15; 16])%Z [1; 2]%Z.
Local Definition hdr : bytes := repeat 0%Z 30.
Local Definition g0 : vec_cfg := VecCfg 1 0 1 [[1; 2; 3]; [4; 5; 6]; [7; 8; 9]]%Q.
Local Definition r0 : reader := Reader LE false Awac 2 3 None.
Local Definition three : list blk := [pr 0 1; pr 16 2; pr 32 3].
Local Lemma pr_ok sec x : In sec [0; 16; 32]%Z -> is_byte x ->
  awac_block 2 3 (pr sec x) /\ Forall is_byte (body (pr sec x)) /\ verified r0 (pr sec x) /\ sized LE (pr sec x).
Proof.
  intros Hs Hx. split; [|split; [|split]].
  - left. split; [reflexivity|]. split; [reflexivity|]. destruct Hs as [<-|[<-|[<-|[]]]]; eexists; reflexivity.
  - assert (Bs : is_byte sec) by (destruct Hs as [<-|[<-|[<-|[]]]]; unfold is_byte; lia).
    unfold pr, body. repeat rewrite Forall_app. repeat split; try (apply Forall_forall; intros y Hy; apply repeat_spec in Hy; subst y; unfold is_byte; lia);
      repeat (apply Forall_cons; [first [assumption|unfold is_byte; lia]|]); apply Forall_nil.
  - exists 1%Z, 2%Z. split; [reflexivity|left; reflexivity].
  - right. split; [discriminate|]. exists 69%Z, 0%Z. eexists. split; reflexivity.
Qed.
Example C168_hyp : 22 <= length hdr /\ three_by_three (g_beam2inst g0) /\ Forall (awac_block 2 3) three /\
  Forall (fun b => Forall is_byte (body b)) three /\ Forall (verified r0) three /\ Forall (sized LE) three /\ number 32 three = 3 /\
  evenly 32 three (file_of hdr three []).
Proof.
  assert (A : forall b, In b three -> awac_block 2 3 b /\ Forall is_byte (body b) /\ verified r0 b /\ sized LE b).
  { intros b [<-|[<-|[<-|[]]]]; apply pr_ok; cbn; unfold is_byte; auto; lia. }
  split; [cbn; lia|]. split; [split; [reflexivity|repeat constructor]|].
  split; [apply Forall_forall; intros b Hb; apply (A b Hb)|]. split; [apply Forall_forall; intros b Hb; apply (A b Hb)|].
  split; [apply Forall_forall; intros b Hb; apply (A b Hb)|]. split; [apply Forall_forall; intros b Hb; apply (A b Hb)|].
  split; [reflexivity|]. left. cbn. lia.
Qed.
(** three profiles are read; the last cell of the last beam of the first is -0.001 m/s *)
Example C168_case : exists d, read_nortek_awac g0 r0 (file_of hdr three []) 30 = Some d /\ length (d_time d) = 3 /\
  at_cell d "vel" 2 2 1 0 = Some (Some (-1 # 1000)%Q) /\ at_cell d "amp" 2 1 0 2 = Some (Some 13%Q) /\ at_sample d "error" 0 1 = Some (Some 1799%Q).
Proof. eexists. split; [vm_compute; reflexivity|]. repeat split. Qed.
(** With two profiles and a user configuration behind them there is room for three, one of them is removed, and so is a column
    of the matrix. *)
Local Definition usr : blk := Blk 0 ([0; 1] ++ repeat 0 506)%Z [1; 2]%Z.
Theorem C168_matrix_refuted : exists e cs bins beams header bs tail g d,
  22 <= length header /\ length tail < 2 /\ 0 < bins /\ beams <= 3 /\
  three_by_three (g_beam2inst g) /\ Forall (awac_block bins beams) bs /\ Forall (fun b => Forall is_byte (body b)) bs /\
  Forall (verified (Reader e cs Awac bins beams None)) bs /\ Forall (sized e) bs /\ 0 < number 32 bs /\ evenly 32 bs (file_of header bs tail) /\
  read_nortek_awac g (Reader e cs Awac bins beams None) (file_of header bs tail) (length header) = Some d /\
  ~ matrix_is d (g_beam2inst g) /\ exists v, In v (d_vars d) /\ vname v = "beam2inst_orientmat"%string /\ length (hd [] (lines v)) = 2.
Proof.
  exists LE, false, 2, 3, hdr, [pr 0 1; pr 16 2; usr], [], g0. eexists.
  assert (A : forall b, In b [pr 0 1; pr 16 2; usr] -> awac_block 2 3 b /\ Forall is_byte (body b) /\ verified r0 b /\ sized LE b).
  { intros b [<-|[<-|[<-|[]]]]; [apply pr_ok; cbn; unfold is_byte; auto; lia|apply pr_ok; cbn; unfold is_byte; auto; lia|].
    split; [right; left; split; reflexivity|]. split.
    - unfold usr, body. apply Forall_app. split; [repeat (apply Forall_cons; [unfold is_byte; lia|]); apply Forall_nil|].
      apply Forall_forall. intros y Hy. apply repeat_spec in Hy. subst y. unfold is_byte. lia.
    - split; [exists 1%Z, 2%Z; split; [reflexivity|left; reflexivity]|]. right. split; [discriminate|]. exists 0%Z, 1%Z. eexists. split; reflexivity. }
  split; [cbn; lia|]. split; [cbn; lia|]. split; [lia|]. split; [lia|]. split; [split; [reflexivity|repeat constructor]|].
  split; [apply Forall_forall; intros b Hb; apply (A b Hb)|]. split; [apply Forall_forall; intros b Hb; apply (A b Hb)|].
  split; [apply Forall_forall; intros b Hb; apply (A b Hb)|]. split; [apply Forall_forall; intros b Hb; apply (A b Hb)|].
  split; [cbn; lia|]. split; [left; cbn; lia|]. split; [vm_compute; reflexivity|]. split.
  - intros (v & Hv & L). vm_compute in Hv. assert (X : length (hd [] (lines v)) = 2) by (injection Hv as <-; reflexivity). rewrite L in X. discriminate X.
  - eexists. split; [left; reflexivity|]. split; reflexivity.
Qed.

(** All the theorems of this file, for one listing of axioms. *)
Definition all_theorems :=
  (@C168_profiles_partial,
   @C168_matrix_partial,
   @C168_matrix_refuted).
Print Assumptions all_theorems.
