(** Properties C172 and C173: TRDI files, from the bytes to velocities in earth coordinates. *)
From Coq Require Import String.
From Coq Require Import ZArith QArith Reals List Bool Lia.
From Verif.Model Require Import Rotate.
From Verif.Spec Require Import Rotate.
From Verif.Model Require Import Nortek RdiBlocks RdiFile ReadRdi.
From Verif.Spec Require Rdi Trdi.
From Verif.Proofs Require RdiTop Trdi.
Import ListNotations.
Open Scope string_scope.
Open Scope list_scope.
Open Scope Z_scope.

(** Whatever stands for NaN: in the dataset [d'] of earth velocities, cell [k] of ensemble [i] has what [turn] makes of the
    velocities that the manual computes from those in the file; the bottom track likewise. *)
Definition earth_velocities (n : Z) (xs : list Rdi.pd0) (m : Z) (fixed : bytes) (turn : Linalg.vec -> Linalg.vec) (d' : Rotate.ds) : Prop :=
  (forall i f rest leader data k, Trdi.ensemble_at xs m i f rest -> In (128, leader) rest -> In (256, data) rest -> (k < Z.to_nat n)%nat ->
     let v := Trdi.velocity (Rdi.block_bytes (256, data)) k in
     Trdi.valid (Rdi.block_bytes (256, data)) k ->
     value d' "vel" i k = Some (turn (Trdi.in_earth (Rdi.block_bytes (0, fixed)) (Rdi.block_bytes (128, leader)) (v 0%nat) (v 1%nat) (v 2%nat) (v 3%nat)))) /\
  (forall i f rest leader data, Trdi.ensemble_at xs m i f rest -> In (128, leader) rest -> In (1536, data) rest ->
     let v := Trdi.bottom (Rdi.block_bytes (1536, data)) in
     value d' "vel_bt" i 0 = Some (turn (Trdi.in_earth (Rdi.block_bytes (0, fixed)) (Rdi.block_bytes (128, leader)) (v 0%nat) (v 1%nat) (v 2%nat) (v 3%nat)))).

(** ** C172 *)
Theorem C172_earth_velocities : forall n xs last m fixed, Trdi.readable n xs last m fixed -> forall nan, exists r d',
  read_trdi nan None (Rdi.file_of (xs ++ [last])) (Some m) = Ret r /\
  declination (r_ds r) = (let v := Trdi.variation (Rdi.block_bytes (0, fixed)) in if v =? 0 then None else Some (IZR v / 100)%R) /\
  rotate2 (r_ds r) "earth" = Ok d' /\ earth_velocities n xs m fixed (fun v => v) d'.
Proof. intros n xs last m fixed H nan. exact (Proofs.Trdi.no_userdata n xs last m fixed H nan). Qed.
(** with a declination in the userdata file, when the instrument applied none *)
Theorem C172_declination : forall n xs last m fixed, Trdi.readable n xs last m fixed -> 
  Trdi.variation (Rdi.block_bytes (0, fixed)) = 0 -> forall nan a, exists r d',
  read_trdi nan (Some a) (Rdi.file_of (xs ++ [last])) (Some m) = Ret r /\ declination (r_ds r) = Some a /\ rotate2 (r_ds r) "earth" = Ok d' /\ earth_velocities n xs m fixed (clockwise a) d'.
Proof. intros n xs last m fixed H Z0 nan a. exact (Proofs.Trdi.with_userdata n xs last m fixed H nan a Z0). Qed.
(** if it applied one already, nothing is turned again *)
Theorem C172_both_declinations : forall n xs last m fixed, Trdi.readable n xs last m fixed -> 
  Trdi.variation (Rdi.block_bytes (0, fixed)) <> 0 -> forall nan a, exists r d',
  read_trdi nan (Some a) (Rdi.file_of (xs ++ [last])) (Some m) = Ret r /\ declination (r_ds r) = Some a /\ rotate2 (r_ds r) "earth" = Ok d' /\ earth_velocities n xs m fixed (fun v => v) d'.
Proof. intros n xs last m fixed H Z0 nan a. exact (Proofs.Trdi.both_given n xs last m fixed H nan a Z0). Qed.
(** the ranges of the cells in metres: distance to the first, then the size of the cells; one time for each ensemble, in nanoseconds since 1970 *)
Theorem C172_times_ranges : forall n xs last m fixed, Trdi.readable n xs last m fixed -> forall nan u r,
  read_trdi nan u (Rdi.file_of (xs ++ [last])) (Some m) = Ret r ->
  length (r_time r) = Nat.min (Z.to_nat m) (length xs) /\
  (let b := Rdi.block_bytes (0, fixed) in
   r_range r = map (fun k => inject_Z (Rdi.uint b 33 2) * (1 # 100) + inject_Z (Z.of_nat k) * (inject_Z (Rdi.uint b 13 2) * (1 # 100)))%Q (seq 0 (Z.to_nat n))) /\
  (forall i f rest leader, Trdi.ensemble_at xs m i f rest -> In (128, leader) rest -> Trdi.dated f leader ->
     match Trdi.time f leader with
     | Some (d, hs) => 0 <= epoch d -> nth_error (r_time r) i = Some (Some (epoch d * 1000000000 + hs * 10000000))
     | None => nth_error (r_time r) i = Some None
     end).
Proof. exact Proofs.Trdi.times_ranges. Qed.

(** ** C173 *)
Theorem C173_first_clock_refuted : forall nan u n xs last m f rest leader, 0 < n -> 0 < m -> Forall (Rdi.sound n) xs -> Rdi.sound n last ->
  Trdi.ensemble_at xs m 0 f rest -> In (128, leader) rest -> Trdi.dated f leader -> Trdi.time f leader = None ->
  read_trdi nan u (Rdi.file_of (xs ++ [last])) (Some m) = Raise "IndexError".
Proof. exact Proofs.Trdi.bad_first. Qed.
(** The clock of a later ensemble can be wrong: it has no time; the velocities of all ensembles, its own included, are there.
    Missing: the first ensemble. *)
Theorem C173_later_clock_partial : forall n xs last m fixed, Trdi.readable n xs last m fixed -> forall i f rest leader,
  Trdi.ensemble_at xs m i f rest -> In (128, leader) rest -> Trdi.dated f leader -> Trdi.time f leader = None ->
  forall nan, exists r d', read_trdi nan None (Rdi.file_of (xs ++ [last])) (Some m) = Ret r /\ nth_error (r_time r) i = Some None /\
    rotate2 (r_ds r) "earth" = Ok d' /\ earth_velocities n xs m fixed (fun v => v) d'.
Proof.
  intros n xs last m fixed H i f rest leader A I Y T nan. destruct (Proofs.Trdi.no_userdata n xs last m fixed H nan) as (r & d' & E & _ & Ro & V).
  exists r, d'. split; [exact E|]. split; [|now split]. destruct (Proofs.Trdi.times_ranges n xs last m fixed H nan None r E) as (_ & _ & Ti). specialize (Ti i f rest leader A I Y). now rewrite T in Ti.
Qed.

(** ** Examples: two ensembles in the frame of the beams, the second with month 13 *)
Definition ex_fixed : bytes := [8; 1; 0; 0; 0; 0; 4; 1] ++ repeat 0 32.
Definition ex_var (month : Z) : bytes := Rdi.le16 7 ++ [24; month; 2; 3; 4; 5; 6; 0] ++ repeat 0 6 ++ [40; 35; 244; 1; 12; 254] ++ repeat 0 22.
Definition ex_vel : bytes := [1; 0; 0; 127; 255; 255; 44; 1].
Definition ex_bt : bytes := repeat 0 14 ++ [16; 39] ++ repeat 0 6 ++ [100; 0; 5; 0; 5; 0; 5; 0] ++ repeat 0 45 ++ [2; 0; 0; 0].
Definition ex_ens (month : Z) : Rdi.pd0 := Rdi.Pd0 0 [(0, ex_fixed); (128, ex_var month); (256, ex_vel); (1536, ex_bt)] [0; 0] [0; 0].
Lemma ex_sound : Rdi.sound 1 (ex_ens 1) /\ Rdi.sound 1 (ex_ens 13).
Proof. split; apply Proofs.RdiTop.sound_from_b; vm_compute; reflexivity. Qed.
(** an instrument that applied a variation of 15 degrees, looking upwards, in ship coordinates *)
Definition ex_ship : bytes := [8; 1; 128; 0; 0; 0; 4; 1] ++ repeat 0 15 ++ [20] ++ repeat 0 2 ++ [220; 5] ++ repeat 0 12.
Definition ex_ens_ship : Rdi.pd0 := Rdi.Pd0 0 [(0, ex_ship); (128, ex_var 1); (256, ex_vel)] [0; 0] [0; 0].
Example C172_both_hyp : Trdi.readable 1 [ex_ens_ship] ex_ens_ship 9 ex_ship /\ Trdi.variation (Rdi.block_bytes (0, ex_ship)) = 1500 /\
  Trdi.frame (Rdi.block_bytes (0, ex_ship)) = "ship" /\ Trdi.tilts_applied (Rdi.block_bytes (0, ex_ship)) = true /\ Trdi.upward (Rdi.block_bytes (0, ex_ship)) = true.
Proof.
  assert (S1 : Rdi.sound 1 ex_ens_ship) by (apply Proofs.RdiTop.sound_from_b; vm_compute; reflexivity). split; [|repeat split].
  constructor; [lia|lia|split; [constructor; [exact S1|constructor]|exact S1]| | | |].
  - exists ex_ship, [(128, ex_var 1); (256, ex_vel)], (ex_var 1). split; [split; [lia|now exists ex_ens_ship]|]. split; [now left|]. split; [reflexivity|vm_compute; discriminate].
  - exists 0%nat, ex_ship, [(128, ex_var 1); (256, ex_vel)], ex_vel. split; [split; [lia|now exists ex_ens_ship]|right; now left].
  - exists [(128, ex_var 1); (256, ex_vel)]. split; [vm_compute; reflexivity|now exists ex_ens_ship].
  - split; [vm_compute; discriminate|]. split; reflexivity.
Qed.
Example C172_hyp : Trdi.readable 1 [ex_ens 1; ex_ens 13] (ex_ens 1) 9 ex_fixed /\ Trdi.variation (Rdi.block_bytes (0, ex_fixed)) = 0 /\
  Trdi.frame (Rdi.block_bytes (0, ex_fixed)) = "beam" /\ Trdi.valid (Rdi.block_bytes (256, ex_vel)) 0 /\
  map (Trdi.recorded (Rdi.block_bytes (256, ex_vel)) 0) [0; 1; 2; 3]%nat = [1; 32512; -1; 300] /\
  Trdi.dated ex_fixed (ex_var 13) /\ Trdi.time ex_fixed (ex_var 13) = None /\ Trdi.time ex_fixed (ex_var 1) = Some (Date 2024 1 2 3 4 5, 6).
Proof.
  destruct ex_sound as [S1 S2]. split.
  - constructor; [lia|lia|split; [constructor; [exact S1|constructor; [exact S2|constructor]]|exact S1]| | | |].
    + exists ex_fixed, [(128, ex_var 1); (256, ex_vel); (1536, ex_bt)], (ex_var 1). split; [split; [lia|now exists (ex_ens 1)]|]. split; [now left|]. split; [reflexivity|vm_compute; discriminate].
    + exists 0%nat, ex_fixed, [(128, ex_var 1); (256, ex_vel); (1536, ex_bt)], ex_vel. split; [split; [lia|now exists (ex_ens 1)]|right; now left].
    + exists [(128, ex_var 13); (256, ex_vel); (1536, ex_bt)]. split; [vm_compute; reflexivity|now exists (ex_ens 13)].
    + split; [vm_compute; discriminate|]. split; reflexivity.
  - split; [reflexivity|]. split; [reflexivity|]. split; [|repeat split].
    intros beam B. destruct beam as [|[|[|[|]]]]; try lia; vm_compute; discriminate.
Qed.
(** the same file with the ensembles exchanged gives no dataset *)
Example C173_hyp : forall nan, read_trdi nan None (Rdi.file_of ([ex_ens 13; ex_ens 1] ++ [ex_ens 1])) (Some 9) = Raise "IndexError".
Proof.
  destruct ex_sound as [S1 S2]. intros nan. apply (C173_first_clock_refuted nan None 1 _ _ 9 ex_fixed [(128, ex_var 13); (256, ex_vel); (1536, ex_bt)] (ex_var 13)); try lia; try assumption.
  - constructor; [exact S2|constructor; [exact S1|constructor]].
  - split; [lia|now exists (ex_ens 13)].
  - now left.
  - reflexivity.
  - reflexivity.
Qed.

(** All the theorems of this file, for one listing of axioms. *)
Definition all_theorems :=
  (@C172_earth_velocities,
   @C172_declination,
   @C172_both_declinations,
   @C172_times_ranges,
   @C173_first_clock_refuted,
   @C173_later_clock_partial).
Print Assumptions all_theorems.
