(** Properties C74, C75, C77, C78, C116-C121: reading TRDI files. *)
From Coq Require Import String.
From Coq Require Import ZArith QArith List Bool Lia.
From Verif.Model Require Import Nortek RdiBlocks RdiFile.
From Verif.Spec Require Rdi.
From Verif.Proofs Require RdiTop.
Import ListNotations.
Open Scope string_scope.
Open Scope list_scope.
Open Scope Z_scope.

(** Reading at most [m] ensembles of the file made of [xs] and, behind them, [last], all of [n] cells, gave [cols]. *)
Definition reading (n : Z) (xs : list Rdi.pd0) (last : Rdi.pd0) (m : Z) (cols : list column) : Prop :=
  0 < n /\ Forall (Rdi.sound n) xs /\ Rdi.sound n last /\
  exists s, read_rdi (Rdi.file_of (xs ++ [last])) (Some m) false false = Ret (cols, s).
(** Ensemble number [i] (from 0) of those read consists of the fixed leader [fixed] and the blocks [rest]. *)
Definition ensemble_at (xs : list Rdi.pd0) (m : Z) (i : nat) (fixed : bytes) (rest : list (Z * bytes)) : Prop :=
  Z.of_nat i < m /\ exists x, nth_error xs i = Some x /\ Rdi.blocks x = (0, fixed) :: rest.

(** ** Examples: a file of small ensembles *)
Definition ex_fixed : bytes := [8; 1; 0; 0; 0; 0; 4; 1] ++ repeat 0 32.
Definition ex_var (lsb msb : Z) : bytes := Rdi.le16 lsb ++ [24; 1; 2; 3; 4; 5; 6; msb] ++ repeat 0 34.
Definition ex_ens (l : list (Z * bytes)) : Rdi.pd0 := Rdi.Pd0 0 ((0, ex_fixed) :: l) [0; 0] [0; 0].
Definition ex_vel : bytes := [1; 0; 0; 128; 255; 255; 44; 1].
Definition ex_bt : bytes := repeat 0 14 ++ [16; 39] ++ repeat 0 6 ++ [0; 128; 5; 0; 5; 0; 5; 0] ++ repeat 0 45 ++ [2; 0; 0; 0].
Definition ex1 := ex_ens [(128, ex_var 7 0); (256, ex_vel); (1536, ex_bt)].
Definition ex2 := ex_ens [(128, ex_var 8 0)].
Lemma ex_sound : Rdi.sound 1 ex1 /\ Rdi.sound 1 ex2.
Proof. split; apply Proofs.RdiTop.sound_from_b; vm_compute; reflexivity. Qed.
Lemma ex_reading : exists cols, reading 1 [ex1; ex2] ex2 9 cols /\ length cols = 2%nat.
Proof.
  destruct ex_sound as [E1 E2]. destruct (Proofs.RdiTop.all_but_last 1 [ex1; ex2] ex2 9) as (cols & s & H & L); [lia|exact E2|now constructor; [|constructor; [|constructor]]|discriminate|lia|].
  exists cols. split; [|cbn [length] in L; lia]. split; [lia|]. split; [now constructor; [|constructor; [|constructor]]|]. split; [exact E2|]. now exists s.
Qed.
Lemma ex_at : ensemble_at [ex1; ex2] 9 0 ex_fixed [(128, ex_var 7 0); (256, ex_vel); (1536, ex_bt)].
Proof. split; [lia|]. exists ex1. now split. Qed.

(** ** C77. Missing: the last ensemble, and blocks outside the table of [Rdi.least_length] (GPS, VMDAS, WinRiver). *)
Theorem C77_all_but_last_partial : forall n xs last m, 0 < n -> Rdi.sound n last -> Forall (Rdi.sound n) xs -> xs <> [] -> 0 < m ->
  exists cols, reading n xs last m cols /\ Z.of_nat (length cols) = Z.min m (Z.of_nat (length xs)).
Proof.
  intros n xs last m N La H Ne M. destruct (Proofs.RdiTop.all_but_last n xs last m N La H Ne M) as (cols & s & E & L). exists cols. split; [|exact L].
  split; [exact N|]. split; [exact H|]. split; [exact La|]. now exists s.
Qed.
(** whatever the file *)
Theorem C77_last_lost_refuted : forall n xs last m cols, 0 < m -> xs <> [] -> reading n xs last m cols -> (length cols < length (xs ++ [last]))%nat.
Proof.
  intros n xs last m cols M Ne (N & H & La & s & E). destruct (Proofs.RdiTop.all_but_last n xs last m N La H Ne M) as (cols' & s' & E' & L).
  rewrite E in E'. injection E' as <- <-. rewrite app_length. cbn [length]. lia.
Qed.
Theorem C77_one_ensemble_refuted : forall n e k, Rdi.sound n e -> read_rdi (Rdi.file_of [e]) k false false = Raise "No header in this file".
Proof. exact Proofs.RdiTop.single. Qed.

(** ** C74: right for the first 65535 ensembles *)
Theorem C74_small_numbers_partial : forall n xs last m cols i fixed rest data, reading n xs last m cols -> ensemble_at xs m i fixed rest ->
  In (128, data) rest -> Rdi.ensemble_number (Rdi.block_bytes (128, data)) < 65536 ->
  nth_error (variable cols "number") i = Some (Some [Some (inject_Z (Rdi.ensemble_number (Rdi.block_bytes (128, data))))]).
Proof.
  intros n xs last m cols i fixed rest data (N & H & La & s & E) (I & x & X & B) D Small.
  assert (Z0 : Rdi.uint (Rdi.block_bytes (128, data)) 12 1 = 0).
  { rewrite Forall_forall in H. destruct (Rdi.bytes_ok n x (H x (nth_error_In _ _ X))) as (_ & _ & _ & Bs). rewrite B in Bs. rewrite Forall_forall in Bs.
    destruct (Bs (128, data) (or_intror D)) as [_ Hd]. cbn [snd] in Hd.
    assert (Hb : Forall Rdi.is_byte (Rdi.block_bytes (128, data))) by (unfold Rdi.block_bytes, Rdi.le16; cbn [fst snd app]; repeat (constructor; [unfold Rdi.is_byte; vm_compute; split; congruence|]); exact Hd).
    unfold Rdi.ensemble_number in Small. pose proof (Proofs.RdiTop.uint_bound _ 2 Hb 3%nat). pose proof (Proofs.RdiTop.uint_bound _ 1 Hb 12%nat). lia. }
  rewrite (Proofs.RdiTop.number_at n xs last m cols s i x fixed rest N La H E X I B data D). unfold Rdi.ensemble_number. now rewrite Z0.
Qed.
(** otherwise one too small for each 65536 *)
Theorem C74_number_refuted : forall n xs last m cols i fixed rest data, reading n xs last m cols -> ensemble_at xs m i fixed rest ->
  In (128, data) rest ->
  nth_error (variable cols "number") i =
    Some (Some [Some (inject_Z (Rdi.ensemble_number (Rdi.block_bytes (128, data)) - Rdi.uint (Rdi.block_bytes (128, data)) 12 1))]).
Proof.
  intros n xs last m cols i fixed rest data (N & H & La & s & E) (I & x & X & B) D.
  rewrite (Proofs.RdiTop.number_at n xs last m cols s i x fixed rest N La H E X I B data D). unfold Rdi.ensemble_number. do 4 f_equal. f_equal. lia.
Qed.
(** two ensembles with the same number *)
Theorem C74_twice_refuted : exists n xs last m cols d0 d1 q, reading n xs last m cols /\ map Rdi.blocks xs = [[(0, ex_fixed); (128, d0)]; [(0, ex_fixed); (128, d1)]] /\
  Rdi.ensemble_number (Rdi.block_bytes (128, d1)) = Rdi.ensemble_number (Rdi.block_bytes (128, d0)) + 1 /\
  variable cols "number" = [Some [Some q]; Some [Some q]].
Proof.
  set (xs := [ex_ens [(128, ex_var 65535 0)]; ex_ens [(128, ex_var 0 1)]]).
  assert (So : Forall (Rdi.sound 1) xs) by (constructor; [|constructor; [|constructor]]; apply Proofs.RdiTop.sound_from_b; vm_compute; reflexivity).
  destruct (read_rdi (Rdi.file_of (xs ++ [ex2])) (Some 9) false false) as [[cols s]|w] eqn:E; [|exfalso; revert E; vm_compute; discriminate].
  exists 1, xs, ex2, 9, cols, (ex_var 65535 0), (ex_var 0 1), (inject_Z 65535).
  split; [split; [lia|]; split; [exact So|]; split; [apply ex_sound|now exists s]|]. split; [reflexivity|]. split; [reflexivity|].
  revert E. vm_compute. intros E. injection E as <- _. reflexivity.
Qed.
Example C74_hyp : exists cols, reading 1 [ex1; ex2] ex2 9 cols /\ ensemble_at [ex1; ex2] 9 0 ex_fixed [(128, ex_var 7 0); (256, ex_vel); (1536, ex_bt)] /\
  Rdi.ensemble_number (Rdi.block_bytes (128, ex_var 7 0)) = 7.
Proof. destruct ex_reading as (cols & R & _). exists cols. split; [exact R|]. split; [exact ex_at|reflexivity]. Qed.

(** ** C75: bottom track range; positions of VMDAS and WinRiver. Missing: the position on the equator or the
    prime meridian in WinRiver files. *)
Theorem C75_bottom_range : forall n xs last m cols i fixed rest data, reading n xs last m cols -> ensemble_at xs m i fixed rest -> In (1536, data) rest ->
  exists l, nth_error (variable cols "dist_bt") i = Some (Some l) /\ length l = 4%nat /\
    forall beam, (beam < 4)%nat -> exists q, nth_error l beam = Some (Some q) /\ Qeq q (Rdi.range_bt (Rdi.block_bytes (0, fixed)) (Rdi.block_bytes (1536, data)) beam).
Proof. intros n xs last m cols i fixed rest data (N & H & La & s & E) (I & x & X & B) D. exact (Proofs.RdiTop.range_at n xs last m cols s i x fixed rest N La H E X I B data D). Qed.
(** 2 * 655.36 + 100 metres *)
Example C75_range_hyp : exists cols q, reading 1 [ex1; ex2] ex2 9 cols /\ nth_error (variable cols "dist_bt") 0 = Some (Some q) /\
  exists q0 r, q = Some q0 :: r /\ Qeq q0 (141072 # 100).
Proof.
  destruct ex_reading as (cols & R & _). exists cols.
  destruct (C75_bottom_range 1 [ex1; ex2] ex2 9 cols 0 ex_fixed _ ex_bt R ex_at ltac:(right; right; now left)) as (l & L & Ln & V).
  destruct (V 0%nat ltac:(lia)) as (q & Q1 & Q2). exists l. split; [exact R|]. split; [exact L|]. destruct l as [|q0 r]; [discriminate|]. cbn in Q1. injection Q1 as ->.
  exists q, r. split; [reflexivity|]. rewrite Q2. vm_compute. reflexivity.
Qed.
(** the block read at the position of the file; the dates in it must be dates *)
Theorem C75_navigation : forall file s e data, ens s = Some e -> ek e = -1 \/ ek e = 0 -> Rdi.lies_at file (pos s) data -> (76 <= length data)%nat ->
  Rdi.navigation_dates (Rdi.block_bytes (8192, data)) = true ->
  exists s' e', read_dat file 8192 s = Ret (true, s') /\ ens s' = Some e' /\ pos s' = pos s + 76 /\
    forall nm f, In (nm, f) Rdi.navigation -> get e' nm = Rdi.field_value f (Rdi.block_bytes (8192, data)).
Proof. exact Proofs.RdiTop.vmdas_block. Qed.
(** whence a position lies in the range *)
Theorem C75_position_range : forall nm f data, In (nm, f) Rdi.navigation -> In nm ["latitude_gps"; "longitude_gps"] ->
  Forall Rdi.is_byte (Rdi.block_bytes (8192, data)) ->
  exists q, Rdi.field_value f (Rdi.block_bytes (8192, data)) = [Some q] /\ (-180 <= q /\ q < 180)%Q.
Proof.
  intros nm f data H Hn B.
  assert (R : forall o, let q := Qmult (inject_Z (Rdi.sint (Rdi.block_bytes (8192, data)) o 4)) (180 # 2147483648) in (-180 <= q /\ q < 180)%Q).
  { intros o. pose proof (Proofs.RdiTop.sint_bound _ o B). unfold Qle, Qlt, Qmult, inject_Z. cbn [Qnum Qden]. lia. }
  cbn [In] in Hn. destruct Hn as [<-|[<-|[]]]; cbn [In Rdi.navigation] in H; repeat (destruct H as [H|H]; [first [discriminate|injection H as <-; eexists; split; [reflexivity|apply R]]|]); destruct H.
Qed.
Definition ex_nav : bytes := [1; 2; 228; 7] ++ repeat 0 20 ++ [0; 0; 0; 192; 0; 0; 0; 64] ++ repeat 0 20 ++ [228; 7; 1; 2] ++ repeat 0 4 ++ [0; 255] ++ repeat 0 14.
Example C75_navigation_hyp : (76 <= length ex_nav)%nat /\ Rdi.navigation_dates (Rdi.block_bytes (8192, ex_nav)) = true /\
  exists q, Rdi.field_value (Rdi.Field 8192 27 4 true 1 (180 # 2147483648) None) (Rdi.block_bytes (8192, ex_nav)) = [Some q] /\ Qeq q (-90).
Proof. split; [cbn; lia|]. split; [reflexivity|]. eexists. split; [reflexivity|]. vm_compute. reflexivity. Qed.
(** a pitch of one and a half degrees down is read as 358.6 degrees *)
Theorem C75_tilt_refuted : exists data f, In ("pitch_gps", f) Rdi.navigation_tilts /\ Rdi.navigation_dates (Rdi.block_bytes (8192, data)) = true /\ length data = 76%nat /\
  exists s e q q', read_dat data 8192 (with_ens (Some (new_ensemble 1)) None (start true false)) = Ret (true, s) /\ ens s = Some e /\
    get e "pitch_gps" = [Some q] /\ Rdi.field_value f (Rdi.block_bytes (8192, data)) = [Some q'] /\ (q' < 0)%Q /\ (358 < q)%Q.
Proof.
  exists ex_nav. eexists. split; [now left|]. split; [reflexivity|]. split; [reflexivity|].
  destruct (read_dat ex_nav 8192 (with_ens (Some (new_ensemble 1)) None (start true false))) as [[b s]|w] eqn:E; [|exfalso; revert E; vm_compute; discriminate].
  exists s. revert E. vm_compute. intros E. injection E as <- <-. do 3 eexists. split; [reflexivity|]. split; [reflexivity|]. split; [reflexivity|]. split; [reflexivity|]. now split.
Qed.
(** The bottom track block of WinRiver: latitude in bytes 13 to 16, longitude in bytes 5, 6 and 47, 48, quality of the fix
    in byte 65.  Missing: positions on the equator and the prime meridian. *)
Theorem C75_winriver_position_partial : forall file s e data pv, ens s = Some e -> ek e = -1 \/ ek e = 0 -> source s = 2 -> lookup "prog_ver" (scfg s) = Some (CQ pv) ->
  Rdi.lies_at file (pos s) data -> (75 <= length data)%nat -> Forall Rdi.is_byte data ->
  let b := Rdi.block_bytes (1536, data) in
  Rdi.uint b 65 1 <> 0 -> Rdi.sint b 13 4 <> 0 -> Rdi.uint b 5 2 + 65536 * Rdi.uint b 47 2 <> 0 ->
  exists s' e' lat lon k, read_dat file 1536 s = Ret (true, s') /\ ens s' = Some e' /\ get e' "latitude_gps" = [Some lat] /\ get e' "longitude_gps" = [Some lon] /\
    (lat == inject_Z (Rdi.sint b 13 4) * (180 # 2147483648))%Q /\
    (-180 < lon /\ lon <= 180)%Q /\ (lon == inject_Z (Rdi.uint b 5 2 + 65536 * Rdi.uint b 47 2) * (180 # 2147483648) + inject_Z k * 360)%Q.
Proof. intros file s e data pv En K So Pv A L B. exact (Proofs.RdiTop.winriver_position file s e data pv En K A L B So Pv). Qed.
Definition ex_wr : bytes := [0; 0; 0; 0; 0; 0; 0; 0; 0; 0; 0; 0; 0; 32] ++ repeat 0 28 ++ [0; 0; 0; 192] ++ repeat 0 16 ++ [1] ++ repeat 0 12.
Definition ex_wr_state : st := with_cfg [("prog_ver", CQ (16 # 1))] [] (with_source 2 true (with_ens (Some (new_ensemble 1)) None (start false false))).
(** 45 degrees north, 90 degrees west *)
Example C75_winriver_hyp : ens ex_wr_state = Some (new_ensemble 1) /\ source ex_wr_state = 2 /\ Rdi.lies_at ex_wr (pos ex_wr_state) ex_wr /\ (75 <= length ex_wr)%nat /\
  Forall Rdi.is_byte ex_wr /\ let b := Rdi.block_bytes (1536, ex_wr) in Rdi.uint b 65 1 = 1 /\ Qeq (inject_Z (Rdi.sint b 13 4) * (180 # 2147483648)) 45 /\
    Qeq (inject_Z (Rdi.uint b 5 2 + 65536 * Rdi.uint b 47 2) * (180 # 2147483648) + inject_Z (-1) * 360) (-90).
Proof.
  split; [reflexivity|]. split; [reflexivity|]. split; [exists [], []; split; [now rewrite app_nil_r|reflexivity]|]. split; [cbn; lia|].
  split; [apply Proofs.RdiTop.bytes_b; reflexivity|]. vm_compute. repeat split.
Qed.
(** whatever the quality of the fix, a position on the equator or the prime meridian is missing *)
Theorem C75_equator_refuted : forall file s e data pv, ens s = Some e -> ek e = -1 \/ ek e = 0 -> source s = 2 -> lookup "prog_ver" (scfg s) = Some (CQ pv) ->
  Rdi.lies_at file (pos s) data -> (75 <= length data)%nat ->
  let b := Rdi.block_bytes (1536, data) in
  exists s' e', read_dat file 1536 s = Ret (true, s') /\ ens s' = Some e' /\ (Rdi.sint b 13 4 = 0 -> get e' "latitude_gps" = [None]) /\
    (Rdi.uint b 5 2 = 0 -> Rdi.uint b 47 2 = 0 -> get e' "longitude_gps" = [None]).
Proof. intros file s e data pv En K So Pv A L. exact (Proofs.RdiTop.winriver_equator file s e data pv En K A L So Pv). Qed.

(** ** C78 *)
(** the velocities of the water profile: cell by cell, beam by beam *)
Theorem C78_water : forall n xs last m cols i fixed rest data, reading n xs last m cols -> ensemble_at xs m i fixed rest -> In (256, data) rest ->
  exists l, nth_error (variable cols "vel") i = Some (Some l) /\ length l = Z.to_nat (4 * n) /\
    forall k, (k < Z.to_nat (4 * n))%nat -> let c := Rdi.sint (Rdi.block_bytes (256, data)) (3 + 2 * k) 2 in
      nth_error l k = Some (if c =? -32768 then None else Some (inject_Z c * (1 # 1000))%Q).
Proof.
  intros n xs last m cols i fixed rest data (N & H & La & s & E) (I & x & X & B) D. set (f := Rdi.Field 256 3 2 true (Z.to_nat (4 * Rdi.cells (Rdi.block_bytes (0, fixed)))) (1 # 1000) (Some (-32768))).
  assert (C : Rdi.cells (Rdi.block_bytes (0, fixed)) = n).
  { rewrite Forall_forall in H. destruct (Rdi.has_fixed n x (H x (nth_error_In _ _ X))) as (fixed' & rest' & B' & _ & C & _). rewrite B in B'. injection B' as <- <-. exact C. }
  pose proof (Proofs.RdiTop.value_at n xs last m cols s i x fixed rest N La H E X I B "vel" f data D) as V.
  eexists. split; [apply V; unfold Rdi.variables; apply in_or_app; left; cbn; tauto|]. unfold Rdi.field_value, f. cbn [Rdi.f_count Rdi.f_id]. rewrite C.
  split; [now rewrite map_length, seq_length|]. intros k Hk. cbn zeta.
  assert (Sk : nth_error (seq 0 (Z.to_nat (4 * n))) k = Some k).
  { rewrite (nth_error_nth' _ 0%nat) by (rewrite seq_length; exact Hk). f_equal. now rewrite seq_nth by exact Hk. }
  rewrite (map_nth_error _ _ _ Sk). unfold Rdi.field_at. cbn [Rdi.f_missing Rdi.f_signed Rdi.f_byte Rdi.f_width Rdi.f_scale]. rewrite (Nat.mul_comm k 2). reflexivity.
Qed.
Example C78_hyp : exists cols, reading 1 [ex1; ex2] ex2 9 cols /\
  nth_error (variable cols "vel") 0 = Some (Some [Some (inject_Z 1 * (1 # 1000)); None; Some (inject_Z (-1) * (1 # 1000)); Some (inject_Z 300 * (1 # 1000))])%Q.
Proof.
  destruct ex_reading as (cols & R & _). exists cols. split; [exact R|].
  destruct (C78_water 1 [ex1; ex2] ex2 9 cols 0 ex_fixed _ ex_vel R ex_at ltac:(right; now left)) as (l & L & Ln & V). rewrite L. do 2 f_equal.
  destruct l as [|a [|b [|c [|d [|]]]]]; try discriminate.
  pose proof (V 0%nat ltac:(cbn; lia)) as V0. pose proof (V 1%nat ltac:(cbn; lia)) as V1. pose proof (V 2%nat ltac:(cbn; lia)) as V2. pose proof (V 3%nat ltac:(cbn; lia)) as V3.
  cbn in V0, V1, V2, V3. injection V0 as ->. injection V1 as ->. injection V2 as ->. injection V3 as ->. reflexivity.
Qed.
(** the bottom track: every count, the marker included, is a velocity *)
Theorem C78_bottom_refuted : forall n xs last m cols i fixed rest data, reading n xs last m cols -> ensemble_at xs m i fixed rest -> In (1536, data) rest ->
  Rdi.sint (Rdi.block_bytes (1536, data)) 25 2 = -32768 ->
  exists l q, nth_error (variable cols "vel_bt") i = Some (Some (Some q :: l)) /\ Qeq q (-(32768 # 1000)).
Proof.
  intros n xs last m cols i fixed rest data (N & H & La & s & E) (I & x & X & B) D M.
  set (f := Rdi.Field 1536 25 2 true 4 (1 # 1000) None).
  pose proof (Proofs.RdiTop.value_at n xs last m cols s i x fixed rest N La H E X I B "vel_bt" f data D) as V.
  do 2 eexists. split; [rewrite V; [reflexivity|unfold Rdi.variables; apply in_or_app; left; cbn; tauto]|].
  unfold f. cbn [Rdi.f_byte Rdi.f_width Rdi.f_scale Rdi.f_id Nat.add Nat.mul]. rewrite M. vm_compute. reflexivity.
Qed.
Example C78_bottom_hyp : exists cols, reading 1 [ex1; ex2] ex2 9 cols /\ ensemble_at [ex1; ex2] 9 0 ex_fixed [(128, ex_var 7 0); (256, ex_vel); (1536, ex_bt)] /\
  Rdi.sint (Rdi.block_bytes (1536, ex_bt)) 25 2 = -32768.
Proof. destruct ex_reading as (cols & R & _). exists cols. split; [exact R|]. split; [exact ex_at|reflexivity]. Qed.

(** ** C116: an ensemble without a block shows the values of the one before *)
Theorem C116_missing_block_refuted : forall n xs last m cols i x2 fixed rest nm f data, reading n xs last m cols -> ensemble_at xs m i fixed rest ->
  Z.of_nat i + 1 < m -> nth_error xs (S i) = Some x2 -> In (Rdi.f_id f, data) rest -> In (nm, f) (Rdi.variables (Rdi.block_bytes (0, fixed))) ->
  ~ In (Rdi.f_id f) (map fst (Rdi.blocks x2)) ->
  nth_error (variable cols nm) (S i) = Some (Some (Rdi.field_value f (Rdi.block_bytes (Rdi.f_id f, data)))).
Proof.
  intros n xs last m cols i x2 fixed rest nm f data (N & H & La & s & E) (I & x & X & B) M X2 D T A.
  exact (Proofs.RdiTop.missing_block n xs last m cols s i x x2 fixed rest nm f data N La H E X X2 M B D T A).
Qed.
Example C116_hyp : exists cols, reading 1 [ex1; ex2] ex2 9 cols /\ ~ In 256 (map fst (Rdi.blocks ex2)) /\
  nth_error (variable cols "vel") 1 = nth_error (variable cols "vel") 0.
Proof.
  destruct ex_reading as (cols & R & _). exists cols. split; [exact R|]. split; [cbn; lia|].
  set (f := Rdi.Field 256 3 2 true (Z.to_nat (4 * Rdi.cells (Rdi.block_bytes (0, ex_fixed)))) (1 # 1000) (Some (-32768))).
  assert (T : In ("vel", f) (Rdi.variables (Rdi.block_bytes (0, ex_fixed)))) by (unfold Rdi.variables; apply in_or_app; left; cbn; tauto).
  assert (D : In (Rdi.f_id f, ex_vel) [(128, ex_var 7 0); (256, ex_vel); (1536, ex_bt)]) by (right; now left).
  rewrite (C116_missing_block_refuted 1 [ex1; ex2] ex2 9 cols 0 ex2 ex_fixed _ "vel" f ex_vel R ex_at ltac:(lia) eq_refl D T) by (cbn; lia).
  destruct R as (N & H & La & s & E). destruct ex_at as (I & x & X & B). symmetry.
  exact (Proofs.RdiTop.value_at 1 [ex1; ex2] ex2 9 cols s 0 x ex_fixed _ N La H E X I B "vel" f ex_vel D T).
Qed.

(** ** C117: ensembles with a wrong checksum are read like others *)
Theorem C117_checksum_refuted : forall n xs last m, 0 < n -> Rdi.sound n last -> Forall (fun x => Rdi.sound n x /\ ~ Rdi.checksum_right x) xs -> xs <> [] -> 0 < m ->
  exists cols, reading n xs last m cols /\ Z.of_nat (length cols) = Z.min m (Z.of_nat (length xs)).
Proof.
  intros n xs last m N La H. apply C77_all_but_last_partial; [exact N|exact La|]. eapply Forall_impl; [|exact H]. now intros x [Hx _].
Qed.
Example C117_hyp : Rdi.sound 1 ex1 /\ ~ Rdi.checksum_right ex1.
Proof. split; [apply ex_sound|]. unfold Rdi.checksum_right. vm_compute. discriminate. Qed.

(** ** C118: without a number of ensembles, the reader estimates it. Missing: the last one; ensembles shorter than
    400 bytes or of different lengths; bytes that look like the start of an ensemble. *)
Theorem C118_whole_file_partial : forall n xs last len, 0 < n -> Rdi.sound n last -> Z.of_nat (length (Rdi.encode last)) = len -> 400 <= len ->
  Forall (fun x => Rdi.sound n x /\ Rdi.quiet x /\ Z.of_nat (length (Rdi.encode x)) = len) xs -> xs <> [] ->
  exists cols s, read_rdi (Rdi.file_of (xs ++ [last])) None false false = Ret (cols, s) /\ length cols = length xs.
Proof. exact Proofs.RdiTop.whole_file. Qed.
Definition ex_long := ex_ens [(128, ex_var 7 0); (22786, repeat 0 300)].
Example C118_hyp : Rdi.sound 1 ex_long /\ Rdi.quiet ex_long /\ Z.of_nat (length (Rdi.encode ex_long)) = 406.
Proof. split; [apply Proofs.RdiTop.sound_from_b; vm_compute; reflexivity|]. split; [apply Proofs.RdiTop.quiet_from_b; [vm_compute; lia|vm_compute; reflexivity]|vm_compute; reflexivity]. Qed.
(** ensembles of 102 bytes: from 70 on, more than the last one is lost *)
Theorem C118_short_refuted : exists n x, Rdi.sound n x /\ forall m, (70 <= m)%nat ->
  exists cols s, read_rdi (Rdi.file_of (repeat x m)) None false false = Ret (cols, s) /\ (length cols < m - 1)%nat.
Proof.
  exists 1, ex2. split; [apply ex_sound|]. intros m. apply (Proofs.RdiTop.short_lost 1 ex2 m); [lia|apply ex_sound| |reflexivity].
  apply Proofs.RdiTop.quiet_from_b; [vm_compute; lia|vm_compute; reflexivity].
Qed.

(** ** C119: the variables are the numbers at the places of the manual, the time is that of the clock *)
Theorem C119_variable : forall n xs last m cols i fixed rest nm f data, reading n xs last m cols -> ensemble_at xs m i fixed rest ->
  In (Rdi.f_id f, data) rest -> In (nm, f) (Rdi.variables (Rdi.block_bytes (0, fixed))) ->
  nth_error (variable cols nm) i = Some (Some (Rdi.field_value f (Rdi.block_bytes (Rdi.f_id f, data)))).
Proof. intros n xs last m cols i fixed rest nm f data (N & H & La & s & E) (I & x & X & B) D T. exact (Proofs.RdiTop.value_at n xs last m cols s i x fixed rest N La H E X I B nm f data D T). Qed.
Theorem C119_time : forall n xs last m cols i fixed rest data, reading n xs last m cols -> ensemble_at xs m i fixed rest ->
  In (128, data) rest -> Rdi.year_sound (Rdi.block_bytes (0, fixed)) (Rdi.block_bytes (128, data)) ->
  nth_error (map ctime cols) i = Some (Rdi.time_of (Rdi.block_bytes (0, fixed)) (Rdi.block_bytes (128, data))).
Proof. intros n xs last m cols i fixed rest data (N & H & La & s & E) (I & x & X & B) D Y. exact (Proofs.RdiTop.time_at n xs last m cols s i x fixed rest N La H E X I B data D Y). Qed.
Example C119_hyp : exists cols, reading 1 [ex1; ex2] ex2 9 cols /\ nth_error (map ctime cols) 0 = Some (Some (Date 2024 1 2 3 4 5, 6)).
Proof.
  destruct ex_reading as (cols & R & _). exists cols. split; [exact R|].
  rewrite (C119_time 1 [ex1; ex2] ex2 9 cols 0 ex_fixed _ (ex_var 7 0) R ex_at ltac:(now left)); [reflexivity|]. vm_compute. reflexivity.
Qed.

(** ** C122: the attributes and the range coordinate are those of the fixed leader of the last ensemble read *)
Theorem C122_settings : forall n xs last m cols s i fixed rest, 0 < n -> Forall (Rdi.sound n) xs -> Rdi.sound n last ->
  read_rdi (Rdi.file_of (xs ++ [last])) (Some m) false false = Ret (cols, s) -> ensemble_at xs m i fixed rest -> length cols = S i ->
  forall nm v, In (nm, v) (Rdi.settings (Rdi.block_bytes (0, fixed))) -> lookup nm (attributes s) = Some v.
Proof.
  intros n xs last m cols s i fixed rest N H La E (I & x & X & B) L. exact (proj1 (Proofs.RdiTop.settings_at n xs last m cols s i x fixed rest N La H E X L B ltac:(lia))).
Qed.
Theorem C122_range : forall n xs last m cols s i fixed rest, 0 < n -> Forall (Rdi.sound n) xs -> Rdi.sound n last ->
  read_rdi (Rdi.file_of (xs ++ [last])) (Some m) false false = Ret (cols, s) -> ensemble_at xs m i fixed rest -> length cols = S i ->
  let b := Rdi.block_bytes (0, fixed) in
  range_coordinate s = map (fun k => inject_Z (Rdi.uint b 33 2) * (1 # 100) + inject_Z (Z.of_nat k) * (inject_Z (Rdi.uint b 13 2) * (1 # 100)))%Q (seq 0 (Z.to_nat n)).
Proof.
  intros n xs last m cols s i fixed rest N H La E (I & x & X & B) L. exact (proj2 (Proofs.RdiTop.settings_at n xs last m cols s i x fixed rest N La H E X L B ltac:(lia))).
Qed.
Example C122_hyp : exists cols s, read_rdi (Rdi.file_of ([ex1; ex2] ++ [ex2])) (Some 9) false false = Ret (cols, s) /\ length cols = 2%nat /\
  ensemble_at [ex1; ex2] 9 1 ex_fixed [(128, ex_var 8 0)] /\ lookup "beam_angle" (attributes s) = Some (CZ 15) /\ lookup "orientation" (attributes s) = Some (CS "down").
Proof.
  destruct ex_reading as (cols & R & L). pose proof R as (N & H & La & s & E). exists cols, s. split; [exact E|]. split; [exact L|].
  assert (A : ensemble_at [ex1; ex2] 9 1 ex_fixed [(128, ex_var 8 0)]) by (split; [lia|]; exists ex2; now split).
  split; [exact A|]. pose proof (C122_settings 1 _ _ _ cols s 1 ex_fixed _ N H La E A L) as V.
  split; apply V; unfold Rdi.settings; apply in_or_app; left; [do 4 right; now left|do 3 right; now left].
Qed.
(** settings that change: the range of all ensembles is computed from the last one *)
Definition ex_moved : bytes := [8; 1; 0; 0; 0; 0; 4; 1; 1; 0; 100; 0] ++ repeat 0 28.
Theorem C122_changed_refuted : exists n xs last m cols s x0 x1 b0 b1 r0 r1, Forall (Rdi.sound n) xs /\ Rdi.sound n last /\
  read_rdi (Rdi.file_of (xs ++ [last])) (Some m) false false = Ret (cols, s) /\ xs = [x0; x1] /\ length cols = 2%nat /\
  Rdi.blocks x0 = (0, b0) :: r0 /\ Rdi.blocks x1 = (0, b1) :: r1 /\
  In ("cell_size", CQ (inject_Z 0 * (1 # 100))) (Rdi.settings (Rdi.block_bytes (0, b0))) /\
  lookup "cell_size" (attributes s) = Some (CQ (inject_Z 100 * (1 # 100))).
Proof.
  set (y := Rdi.Pd0 0 [(0, ex_moved); (128, ex_var 8 0)] [0; 0] [0; 0]).
  assert (So : Forall (Rdi.sound 1) [ex2; y]) by (constructor; [apply ex_sound|constructor; [|constructor]]; apply Proofs.RdiTop.sound_from_b; vm_compute; reflexivity).
  destruct (Proofs.RdiTop.all_but_last 1 [ex2; y] ex2 9 ltac:(lia) (proj2 ex_sound) So ltac:(discriminate) ltac:(lia)) as (cols & s & E & L).
  exists 1, [ex2; y], ex2, 9, cols, s, ex2, y. do 4 eexists. split; [exact So|]. split; [apply ex_sound|]. split; [exact E|]. split; [reflexivity|].
  cbn [length] in L. assert (L2 : length cols = 2%nat) by lia. split; [exact L2|]. split; [reflexivity|]. split; [reflexivity|].
  split; [unfold Rdi.settings; apply in_or_app; left; do 8 right; now left|].
  refine (C122_settings 1 [ex2; y] ex2 9 cols s 1 ex_moved [(128, ex_var 8 0)] ltac:(lia) So (proj2 ex_sound) E _ L2 "cell_size" _ _).
  - split; [lia|]. exists y. now split.
  - unfold Rdi.settings; apply in_or_app; left; do 8 right; now left.
Qed.

(** ** C120: one navigation block without a date, and nothing is read *)
Definition ex_zero := ex_ens [(128, ex_var 7 0); (8192, repeat 0 76)].
Definition ex_dated := ex_ens [(128, ex_var 7 0); (8192, ex_nav)].
Theorem C120_no_date_refuted : exists good bad, (exists cols s, read_rdi (Rdi.file_of [good; good; good]) (Some 9) false false = Ret (cols, s) /\ length cols = 2%nat) /\
  Rdi.blocks good = [(0, ex_fixed); (128, ex_var 7 0); (8192, ex_nav)] /\ Rdi.blocks bad = [(0, ex_fixed); (128, ex_var 7 0); (8192, repeat 0 76)] /\
  read_rdi (Rdi.file_of [good; bad; good]) (Some 9) false false = Raise "ValueError".
Proof.
  exists ex_dated, ex_zero. split; [|split; [reflexivity|split; [reflexivity|vm_compute; reflexivity]]].
  destruct (read_rdi (Rdi.file_of [ex_dated; ex_dated; ex_dated]) (Some 9) false false) as [[cols s]|w] eqn:E; [|exfalso; revert E; vm_compute; discriminate].
  exists cols, s. split; [reflexivity|]. revert E. vm_compute. intros E. injection E as <- _. reflexivity.
Qed.

(** ** C121: bottom track in files of WinRiver *)
Definition ex_bt9 : bytes := repeat 9 79.
Definition ex_nmea : bytes := Rdi.le16 6 ++ [36; 71; 80; 0].
Definition ex_plain := ex_ens [(128, ex_var 7 0); (1536, ex_bt9); (256, ex_vel)].
Definition ex_winriver := ex_ens [(8448, ex_nmea); (128, ex_var 7 0); (1536, ex_bt9); (256, ex_vel)].
Theorem C121_winriver_refuted : 
  (exists cols s, read_rdi (Rdi.file_of [ex_plain; ex_plain; ex_plain]) (Some 9) false false = Ret (cols, s) /\ length cols = 2%nat) /\
  exists w, read_rdi (Rdi.file_of [ex_winriver; ex_winriver; ex_winriver]) (Some 9) false false = Raise w.
Proof.
  split.
  - destruct (read_rdi (Rdi.file_of [ex_plain; ex_plain; ex_plain]) (Some 9) false false) as [[cols s]|w] eqn:E; [|exfalso; revert E; vm_compute; discriminate].
    exists cols, s. split; [reflexivity|]. revert E. vm_compute. intros E. injection E as <- _. reflexivity.
  - eexists. vm_compute. reflexivity.
Qed.

(** All the theorems of this file, for one listing of axioms. *)
(** ** C123: the sampling frequency of VMDAS and WinRiver files does not come from the times *)
Theorem C123_fs : forall c mean_rate sec pings, lookup "sec_between_ping_groups" c = Some (CQ sec) -> lookup "pings_per_ensemble" c = Some (CZ pings) ->
  ~ (sec * inject_Z pings == 0)%Q -> exists q, sampling_frequency c mean_rate = Ret (Some q) /\ (q * (sec * inject_Z pings) == 1)%Q.
Proof.
  intros c r sec pings H1 H2 Nz. unfold sampling_frequency, cfg_q, cfg_z. rewrite H1, H2. cbn [hasattr_of_dict andb bind].
  destruct (Qeq_bool (sec * qz pings) 0) eqn:E; [apply Qeq_bool_iff in E; contradiction|]. eexists. split; [reflexivity|]. rewrite Qmult_comm. now apply Qmult_inv_r.
Qed.
Example C123_hyp : exists c sec pings, lookup "sec_between_ping_groups" c = Some (CQ sec) /\ lookup "pings_per_ensemble" c = Some (CZ pings) /\ ~ (sec * inject_Z pings == 0)%Q.
Proof. exists [("sec_between_ping_groups", CQ (5 # 10)); ("pings_per_ensemble", CZ 4)], (5 # 10), 4. repeat split. discriminate. Qed.
(** ensembles of a VMDAS file ten seconds apart, one ping each half second in the settings *)
Definition ex_half (sec : Z) : Rdi.pd0 := Rdi.Pd0 0 [(0, [8; 1; 0; 0; 0; 0; 4; 1; 1; 0] ++ repeat 0 11 ++ [0; 50] ++ repeat 0 17);
  (128, Rdi.le16 1 ++ [24; 1; 2; 3; 4; sec; 0; 0] ++ repeat 0 34); (8192, ex_nav)] [0; 0] [0; 0].
Theorem C123_vmdas_refuted : exists file cols s t0 t1 q, read_rdi file (Some 9) false false = Ret (cols, s) /\
  lookup "sourceprog" (attributes s) = Some (CS "VMDAS") /\ map ctime cols = [Some (t0, 0); Some (t1, 0)] /\ epoch t1 = epoch t0 + 10 /\
  sampling_frequency (attributes s) (Some (1 # 10)) = Ret (Some q) /\ Qeq q 2.
Proof.
  set (file := Rdi.file_of [ex_half 0; ex_half 10; ex_half 20]). exists file.
  set (look := fun r : outcome (list column * st) => match r with Ret (cols, s) => Some (lookup "sourceprog" (attributes s), map ctime cols, sampling_frequency (attributes s) (Some (1 # 10))) | _ => None end).
  let v := eval vm_compute in (look (read_rdi file (Some 9) false false)) in assert (V : look (read_rdi file (Some 9) false false) = v) by (vm_compute; reflexivity).
  unfold look in V. destruct (read_rdi file (Some 9) false false) as [[cols s]|w]; [|discriminate]. injection V as V1 V2 V3.
  exists cols, s. do 3 eexists. split; [reflexivity|]. split; [exact V1|]. split; [exact V2|]. split; [reflexivity|]. split; [exact V3|reflexivity].
Qed.

(** All the theorems of this file, for one listing of axioms. *)
Definition all_theorems :=
  (@C77_all_but_last_partial,
   @C77_last_lost_refuted,
   @C77_one_ensemble_refuted,
   @C74_small_numbers_partial,
   @C74_number_refuted,
   @C74_twice_refuted,
   @C75_bottom_range,
   @C75_navigation,
   @C75_position_range,
   @C75_tilt_refuted,
   @C75_winriver_position_partial,
   @C75_equator_refuted,
   @C78_water,
   @C78_bottom_refuted,
   @C116_missing_block_refuted,
   @C117_checksum_refuted,
   @C118_whole_file_partial,
   @C118_short_refuted,
   @C119_variable,
   @C119_time,
   @C122_settings,
   @C122_range,
   @C122_changed_refuted,
   @C120_no_date_refuted,
   @C121_winriver_refuted,
   @C123_fs,
   @C123_vmdas_refuted).
Print Assumptions all_theorems.
