(** Properties C160-C164: the navigation sentences that WinRiver2 writes into TRDI files. *)
From Coq Require Import String.
From Coq Require Import ZArith QArith Qabs List Bool Lia.
From Verif.Model Require Import Nortek RdiBlocks RdiFile.
From Verif.Spec Require SigData.
From Verif.Spec Require Rdi.
From Verif.Spec Require RdiGps.
From Verif.Proofs Require RdiPlaces RdiGps Calendar.
Import ListNotations.
Open Scope string_scope.
Open Scope list_scope.
Open Scope Z_scope.

(** ** Examples *)
Definition ex_fixed : bytes := [8; 1; 0; 0; 0; 0; 4; 1] ++ repeat 0 32.
(** 2024-01-[day] [hour]:[minute]:59.06 *)
Definition ex_var (day hour minute : Z) : bytes := Rdi.le16 7 ++ [24; 1; day; hour; minute; 59; 6; 0] ++ repeat 0 34.
Definition ex_ens (l : list (Z * bytes)) : Rdi.pd0 := Rdi.Pd0 0 ((0, ex_fixed) :: l) [0; 0] [0; 0].
Definition ex_vel : bytes := [1; 0; 0; 128; 255; 255; 44; 1].
Definition ex_head (spid size : Z) : bytes := Rdi.le16 spid ++ Rdi.le16 size ++ repeat 0 8.
(** 2.5 degrees south; [lon] degrees east as a double *)
Definition ex_gga (clock lon : bytes) : bytes :=
  ex_head 104 57 ++ [36; 71; 80; 71; 71; 65; 44] ++ clock ++ [44; 0; 0; 0; 0; 0; 0; 4; 64; 83] ++ lon ++ [69; 1; 9; 0; 0; 128; 63; 0; 0; 0; 64; 77; 0; 0; 0; 0; 77; 0; 0; 0; 0; 0; 0].
Definition half_past_twelve : bytes := [49; 50; 51; 48; 49; 53; 46; 53; 48].    (* 123015.50 *)
Definition after_midnight : bytes := [48; 48; 48; 48; 48; 48; 46; 53; 48].      (* 000000.50 *)
Definition four : bytes := [0; 0; 0; 0; 0; 0; 16; 64].
Definition hundred : bytes := [0; 0; 0; 0; 0; 0; 89; 64].
Definition hundred_and : bytes := [0; 0; 0; 16; 0; 0; 89; 64].                  (* 100 + 1/262144 *)
Definition ex_read (es : list Rdi.pd0) (cols : list column) : Prop := exists s, read_rdi (Rdi.file_of es) (Some 9) false false = Ret (cols, s).
Definition ex_block := Rdi.block_bytes (8226, ex_gga half_past_twelve four).
Definition ex_e : ensemble := put "rtc" (map (fun z => Some (inject_Z z)) [24; 1; 2; 3; 4; 5; 6]) (new_ensemble 1).
Lemma ex_parts : RdiGps.gga ex_block /\ RdiGps.time_of_day ex_block 12 30 15 50 /\ RdiGps.double ex_block 32 (5 # 2) /\ RdiGps.double ex_block 41 4 /\
  RdiGps.single ex_block 52 1 /\ RdiGps.single ex_block 56 2 /\ RdiGps.single ex_block 66 0.
Proof.
  assert (D : forall n d b, 0 <= d <= 9 -> RdiGps.byte ex_block n = b -> b = 48 + d -> RdiGps.digit ex_block n d) by (intros n d b H E1 E2; split; [exact H|now rewrite E1]).
  split. { split; [right; reflexivity|]. split; [reflexivity|]. split; [vm_compute; lia|].
    intros n N. assert (C : n = 15%nat \/ n = 16%nat \/ n = 17%nat \/ n = 18%nat \/ n = 19%nat \/ n = 20%nat) by lia. destruct C as [-> |[-> |[-> |[-> |[-> | ->]]]]]; reflexivity. }
  split. { split; [exists 1, 2|split; [exists 3, 0|split; [exists 1, 5|split; [reflexivity|exists 5, 0]]]];
    (split; [eapply D; [lia|vm_compute; reflexivity|reflexivity]|split; [eapply D; [lia|vm_compute; reflexivity|reflexivity]|reflexivity]]). }
  split. { exists false, 1024, (2 ^ 50). vm_compute. intuition (try discriminate; reflexivity). }
  split. { exists false, 1025, 0. vm_compute. intuition (try discriminate; reflexivity). }
  split. { exists false, 127, 0. vm_compute. intuition (try discriminate; reflexivity). }
  split. { exists false, 128, 0. vm_compute. intuition (try discriminate; reflexivity). }
  exists false, 0, 0. vm_compute. intuition (try discriminate; reflexivity).
Qed.

(** ** C160. The position of a GGA sentence: with its sign, and rounded to 24 bits *)
Theorem C160_position_partial : forall file s e data, ens s = Some e -> ek e = -1 \/ ek e = 0 -> Rdi.lies_at file (pos s) data ->
  let block := Rdi.block_bytes (8226, data) in
  forall y mo d ch cm csec chs h m sc cs n lat lon,
  RdiGps.gga block -> RdiGps.time_of_day block h m sc cs -> RdiGps.clock_of e y mo d ch cm csec chs ->
  SigData.elapsed (Date (RdiGps.whole_year y) mo d h m sc) n -> RdiGps.whole_year y <= 9999 ->
  RdiGps.double block 32 lat -> RdiGps.double block 41 lon ->
  exists s' e' la lo, read_dat file 8226 s = Ret (true, s') /\ ens s' = Some e' /\
    get e' "latitude_gps" = [Some la] /\ (Qabs (la - RdiGps.hemisphere block 40 83 lat) <= Qabs lat * (1 # 16777216))%Q /\
    get e' "longitude_gps" = [Some lo] /\ (Qabs (lo - RdiGps.hemisphere block 49 87 lon) <= Qabs lon * (1 # 16777216))%Q /\
    (RdiGps.byte block 50 < 128 -> get e' "fix_gps" = [Some (inject_Z (RdiGps.byte block 50))]) /\
    (RdiGps.byte block 51 < 128 -> get e' "n_sat_gps" = [Some (inject_Z (RdiGps.byte block 51))]) /\
    (forall q, RdiGps.single block 52 q -> exists x, get e' "hdop_gps" = [Some x] /\ (x == q)%Q) /\
    (forall q, RdiGps.single block 56 q -> exists x, get e' "elevation_gps" = [Some x] /\ (x == q)%Q) /\
    (forall q, RdiGps.single block 66 q -> exists x, get e' "rtk_age_gps" = [Some x] /\ (x == q)%Q) /\
    (forall nm, ~ In nm ("rtc" :: RdiGps.gga_vars) -> get e' nm = get e nm) /\
    ((In "time_gps" (vars_read s) -> incl RdiGps.gga_vars (vars_read s)) -> incl RdiGps.gga_vars (vars_read s')).
Proof.
  intros file s e data En K A block y mo d ch cm csec chs h m sc cs n lat lon G T C E Y9 La Lo.
  destruct (Proofs.RdiGps.position file s e data En K A y mo d ch cm csec chs h m sc cs n lat lon G T C E Y9 La Lo) as (s' & e' & la & lo & t & H). exists s', e', la, lo. tauto.
Qed.
Example C160_hyp : RdiGps.gga ex_block /\ RdiGps.time_of_day ex_block 12 30 15 50 /\ RdiGps.clock_of ex_e 24 1 2 3 4 5 6 /\
  (exists n, SigData.elapsed (Date (RdiGps.whole_year 24) 1 2 12 30 15) n) /\ RdiGps.double ex_block 32 (5 # 2) /\ RdiGps.double ex_block 41 4 /\
  RdiGps.hemisphere ex_block 40 83 (5 # 2) = (-5 # 2)%Q /\ RdiGps.single ex_block 52 1 /\ RdiGps.single ex_block 56 2 /\ RdiGps.single ex_block 66 0.
Proof.
  destruct ex_parts as (G & T & La & Lo & H & E & R). split; [exact G|]. split; [exact T|]. split; [reflexivity|].
  split; [eexists; apply Calendar.epoch_elapsed; vm_compute; intuition discriminate|]. split; [exact La|]. split; [exact Lo|]. split; [reflexivity|]. tauto.
Qed.
(** two places some 40 cm apart are read as the same *)
Theorem C160_exact_refuted : exists b1 b2 lon1 lon2 cols1 cols2 v,
  RdiGps.double (Rdi.block_bytes (8226, b1)) 41 lon1 /\ RdiGps.double (Rdi.block_bytes (8226, b2)) 41 lon2 /\ (lon1 + (38 # 10000000) < lon2)%Q /\
  ex_read [ex_ens [(128, ex_var 2 3 4); (8226, b1)]; ex_ens [(128, ex_var 2 3 4)]] cols1 /\
  ex_read [ex_ens [(128, ex_var 2 3 4); (8226, b2)]; ex_ens [(128, ex_var 2 3 4)]] cols2 /\
  nth_error (variable cols1 "longitude_gps") 0 = Some (Some [Some v]) /\ nth_error (variable cols2 "longitude_gps") 0 = Some (Some [Some v]).
Proof.
  exists (ex_gga half_past_twelve hundred), (ex_gga half_past_twelve hundred_and), 100%Q, (100 + (1 # 262144))%Q. do 3 eexists.
  split. { exists false, 1029, (9 * 2 ^ 48). vm_compute. intuition (try discriminate; reflexivity). }
  split. { exists false, 1029, (9 * 2 ^ 48 + 2 ^ 28). vm_compute. intuition (try discriminate; reflexivity). }
  split; [reflexivity|]. split; [eexists; vm_compute; reflexivity|]. split; [eexists; vm_compute; reflexivity|]. split; vm_compute; reflexivity.
Qed.

(** ** C161. The time of a GGA sentence *)
(** right if the day of the profiler is that of the sentence *)
Theorem C161_time_partial : forall file s e data, ens s = Some e -> ek e = -1 \/ ek e = 0 -> Rdi.lies_at file (pos s) data ->
  let block := Rdi.block_bytes (8226, data) in
  forall y mo d ch cm csec chs h m sc cs n lat lon,
  RdiGps.gga block -> RdiGps.time_of_day block h m sc cs -> RdiGps.clock_of e y mo d ch cm csec chs ->
  SigData.elapsed (Date (RdiGps.whole_year y) mo d h m sc) n -> RdiGps.whole_year y <= 9999 ->
  RdiGps.double block 32 lat -> RdiGps.double block 41 lon ->
  exists s' e' t, read_dat file 8226 s = Ret (true, s') /\ ens s' = Some e' /\
    get e' "time_gps" = [Some t] /\ (t == inject_Z n + inject_Z cs / 100)%Q.
Proof.
  intros file s e data En K A block y mo d ch cm csec chs h m sc cs n lat lon G T C E Y9 La Lo.
  destruct (Proofs.RdiGps.position file s e data En K A y mo d ch cm csec chs h m sc cs n lat lon G T C E Y9 La Lo) as (s' & e' & la & lo & t & H). exists s', e', t. tauto.
Qed.
Example C161_hyp : RdiGps.time_of_day ex_block 12 30 15 50 /\ RdiGps.clock_of ex_e 24 1 2 3 4 5 6 /\ exists n, SigData.elapsed (Date (RdiGps.whole_year 24) 1 2 12 30 15) n.
Proof. destruct C160_hyp as (_ & T & C & E & _). tauto. Qed.
(** the profiler is one second behind and has not reached midnight: the time of the GPS is a day too early, [n] seconds
    after 1970 *)
Theorem C161_midnight_refuted : exists e1 e2 cols n t, ex_read [e1; e2] cols /\
  Rdi.blocks e1 = [(0, ex_fixed); (128, ex_var 2 23 59); (8226, ex_gga after_midnight four)] /\
  map ctime cols = [Some (Date 2024 1 2 23 59 59, 6)] /\ SigData.elapsed (Date 2024 1 3 0 0 0) n /\
  nth_error (variable cols "time_gps") 0 = Some (Some [Some t]) /\ (t + 86400 == inject_Z n + (1 # 2))%Q.
Proof.
  exists (ex_ens [(128, ex_var 2 23 59); (8226, ex_gga after_midnight four)]), (ex_ens [(128, ex_var 2 3 4)]). do 3 eexists.
  split; [eexists; vm_compute; reflexivity|]. split; [reflexivity|]. split; [reflexivity|]. split; [apply Calendar.epoch_elapsed; vm_compute; intuition discriminate|].
  split; [reflexivity|]. vm_compute. reflexivity.
Qed.

(** ** C162. Speed and course, depth, heading *)
(** the speed in metres per second, to 1 in 10000 (the factor 1.944 is rounded) *)
Theorem C162_speed : forall file s e data, ens s = Some e -> ek e = -1 \/ ek e = 0 -> Rdi.lies_at file (pos s) data ->
  let block := Rdi.block_bytes (8226, data) in
  forall knots track, RdiGps.vtg block -> RdiGps.single block 32 knots -> RdiGps.single block 22 track ->
  exists s' e' v x, read_dat file 8226 s = Ret (true, s') /\ ens s' = Some e' /\
    get e' "speed_over_grnd_gps" = [Some v] /\ (Qabs (v - knots * (1852 # 3600)) <= Qabs knots * (1852 # 3600) * (1 # 10000))%Q /\
    get e' "dir_over_grnd_gps" = [Some x] /\ (x == track)%Q /\
    (forall nm, ~ In nm RdiGps.vtg_vars -> get e' nm = get e nm) /\
    ((In "speed_over_grnd_gps" (vars_read s) -> incl RdiGps.vtg_vars (vars_read s)) -> incl RdiGps.vtg_vars (vars_read s')).
Proof. exact Proofs.RdiGps.over_ground. Qed.
Theorem C162_depth : forall file s e data, ens s = Some e -> ek e = -1 \/ ek e = 0 -> Rdi.lies_at file (pos s) data ->
  let block := Rdi.block_bytes (8226, data) in
  forall metres, RdiGps.dbt block -> RdiGps.single block 27 metres ->
  exists s' e' v, read_dat file 8226 s = Ret (true, s') /\ ens s' = Some e' /\ get e' "dist_nmea" = [Some v] /\ (v == metres)%Q /\
    (forall nm, nm <> "dist_nmea" -> get e' nm = get e nm) /\ In "dist_nmea" (vars_read s').
Proof. exact Proofs.RdiGps.sounded. Qed.
Theorem C162_heading : forall file s e data, ens s = Some e -> ek e = -1 \/ ek e = 0 -> Rdi.lies_at file (pos s) data ->
  let block := Rdi.block_bytes (8226, data) in
  forall degrees, RdiGps.hdt block -> RdiGps.double block 22 degrees ->
  exists s' e' v, read_dat file 8226 s = Ret (true, s') /\ ens s' = Some e' /\ get e' "heading_gps" = [Some v] /\ (Qabs (v - degrees) <= Qabs degrees * (1 # 16777216))%Q /\
    (forall nm, nm <> "heading_gps" -> get e' nm = get e nm) /\ In "heading_gps" (vars_read s').
Proof. exact Proofs.RdiGps.heading. Qed.
(** 10 knots on a course of 2 degrees; 8 metres; 100 degrees *)
Definition ex_vtg : bytes := ex_head 5 30 ++ [36; 71; 80; 86; 84; 71; 44; 0; 0; 0; 64; 84; 0; 0; 0; 64; 77; 0; 0; 32; 65; 78; 0; 0; 0; 0; 75; 65].
Definition ex_dbt : bytes := ex_head 106 24 ++ [36; 83; 68; 68; 66; 84; 44; 0; 0; 0; 64; 102; 0; 0; 0; 65; 77; 0; 0; 0; 0; 70].
Definition ex_hdt : bytes := ex_head 107 18 ++ [36; 71; 80; 72; 68; 84; 44; 0; 0; 0; 0; 0; 0; 89; 64; 84].
Example C162_hyp : (RdiGps.vtg (Rdi.block_bytes (8226, ex_vtg)) /\ RdiGps.single (Rdi.block_bytes (8226, ex_vtg)) 32 10 /\ RdiGps.single (Rdi.block_bytes (8226, ex_vtg)) 22 2) /\
  (RdiGps.dbt (Rdi.block_bytes (8226, ex_dbt)) /\ RdiGps.single (Rdi.block_bytes (8226, ex_dbt)) 27 8) /\
  (RdiGps.hdt (Rdi.block_bytes (8226, ex_hdt)) /\ RdiGps.double (Rdi.block_bytes (8226, ex_hdt)) 22 100).
Proof.
  assert (P : forall f : nat -> Prop, f 15%nat -> f 16%nat -> f 17%nat -> f 18%nat -> f 19%nat -> f 20%nat -> forall n, (15 <= n <= 20)%nat -> f n).
  { intros f F1 F2 F3 F4 F5 F6 n N. assert (C : n = 15%nat \/ n = 16%nat \/ n = 17%nat \/ n = 18%nat \/ n = 19%nat \/ n = 20%nat) by lia. destruct C as [-> |[-> |[-> |[-> |[-> | ->]]]]]; assumption. }
  split; [split; [|split]|split; split].
  - split; [left; reflexivity|]. split; [reflexivity|]. split; [vm_compute; lia|]. apply P; reflexivity.
  - exists false, 130, (2 ^ 21). vm_compute. intuition (try discriminate; reflexivity).
  - exists false, 128, 0. vm_compute. intuition (try discriminate; reflexivity).
  - split; [right; reflexivity|]. split; [reflexivity|]. split; [vm_compute; lia|]. apply P; reflexivity.
  - exists false, 130, 0. vm_compute. intuition (try discriminate; reflexivity).
  - split; [right; reflexivity|]. split; [reflexivity|]. split; [vm_compute; lia|]. apply P; reflexivity.
  - exists false, 1029, (9 * 2 ^ 48). vm_compute. intuition (try discriminate; reflexivity).
Qed.

(** ** C163. No sentence, or an empty one: the last position is shown again *)
(** the first ensemble has a position, the second has none, the third an empty sentence *)
Theorem C163_stale_refuted : exists e1 e2 e3 cols la lo t, ex_read [e1; e2; e3; e2] cols /\
  Rdi.blocks e2 = [(0, ex_fixed); (128, ex_var 3 3 4)] /\ Rdi.blocks e3 = [(0, ex_fixed); (128, ex_var 4 3 4); (8226, ex_head 104 10)] /\
  map ctime cols = [Some (Date 2024 1 2 3 4 59, 6); Some (Date 2024 1 3 3 4 59, 6); Some (Date 2024 1 4 3 4 59, 6)] /\
  variable cols "latitude_gps" = repeat (Some [Some la]) 3 /\ variable cols "longitude_gps" = repeat (Some [Some lo]) 3 /\ variable cols "time_gps" = repeat (Some [Some t]) 3.
Proof.
  exists (ex_ens [(128, ex_var 2 3 4); (8226, ex_gga half_past_twelve four)]), (ex_ens [(128, ex_var 3 3 4)]), (ex_ens [(128, ex_var 4 3 4); (8226, ex_head 104 10)]). do 4 eexists.
  split; [eexists; vm_compute; reflexivity|]. repeat split; reflexivity.
Qed.
(** without any position before it an empty sentence puts the instrument at latitude and longitude 0 *)
Theorem C163_null_island_refuted : exists e1 e2 cols, ex_read [e1; e2] cols /\ Rdi.blocks e1 = [(0, ex_fixed); (128, ex_var 4 3 4); (8226, ex_head 104 10)] /\
  variable cols "latitude_gps" = [Some [Some 0%Q]] /\ variable cols "longitude_gps" = [Some [Some 0%Q]].
Proof.
  exists (ex_ens [(128, ex_var 4 3 4); (8226, ex_head 104 10)]), (ex_ens [(128, ex_var 2 3 4)]). eexists.
  split; [eexists; vm_compute; reflexivity|]. repeat split; reflexivity.
Qed.

(** ** C164. Blocks are read at the places given in the header of the ensemble *)
(** unless one is troublesome: [Spec.RdiGps.troublesome] *)
Theorem C164_places_partial : forall file base offs o s, pos s = base + o -> 0 <= pos s ->
  RdiGps.at_offsets file base (o :: offs) s <> Raise "troublesome" ->
  read_blocks file (o :: offs) o s = RdiGps.at_offsets file base (o :: offs) s.
Proof. exact Proofs.RdiPlaces.at_places. Qed.
(** an ensemble of a leader and two sentences *)
Definition ex_e2 := ex_ens [(128, ex_var 2 3 4); (8226, ex_gga half_past_twelve four); (8226, ex_hdt); (256, ex_vel)].
Example C164_hyp : exists s' e', RdiGps.at_offsets (Rdi.encode ex_e2) 0 [16; 58; 104; 175; 205]
    (St 16 0 (Rdi.nbytes ex_e2) [] 0 0 false false false [("n_cells", CZ 1); ("prog_ver", CQ 8)] [] (Some (new_ensemble 1)) None [] []) = Ret s' /\
  ens s' = Some e' /\ (exists v, get e' "heading_gps" = [Some v] /\ (v == 100)%Q) /\ exists w, get e' "latitude_gps" = [Some w] /\ (w == - 5 # 2)%Q.
Proof. do 2 eexists. split; [vm_compute; reflexivity|]. split; [reflexivity|]. split; eexists; (split; [reflexivity|]); reflexivity. Qed.
(** a sentence of another number hides the blocks that follow it; without it they are read *)
Theorem C164_unknown_sentence_refuted : exists blk cols1 cols2 v,
  ex_read [ex_ens [(128, ex_var 2 3 4); (256, ex_vel)]; ex_ens [(128, ex_var 2 3 4)]] cols1 /\ variable cols1 "vel" = [Some v] /\
  Rdi.uint (Rdi.block_bytes (8226, blk)) 3 2 = 108 /\
  ex_read [ex_ens [(128, ex_var 2 3 4); (8226, blk); (256, ex_vel)]; ex_ens [(128, ex_var 2 3 4)]] cols2 /\ variable cols2 "vel" = [None].
Proof.
  exists (ex_head 108 10). do 3 eexists. split; [eexists; vm_compute; reflexivity|]. split; [reflexivity|]. split; [reflexivity|]. split; [eexists; vm_compute; reflexivity|]. reflexivity.
Qed.
(** so does a sentence that begins with a byte that is no text *)
Definition ex_garbled : bytes := ex_head 107 18 ++ [200; 71; 80; 72; 68; 84; 44; 0; 0; 0; 0; 0; 0; 89; 64; 84].
Theorem C164_garbled_refuted : exists cols1 cols2 v,
  ex_read [ex_ens [(128, ex_var 2 3 4); (8226, ex_hdt); (256, ex_vel)]; ex_ens [(128, ex_var 2 3 4)]] cols1 /\ variable cols1 "vel" = [Some v] /\
  ex_read [ex_ens [(128, ex_var 2 3 4); (8226, ex_garbled); (256, ex_vel)]; ex_ens [(128, ex_var 2 3 4)]] cols2 /\ variable cols2 "vel" = [None].
Proof. do 3 eexists. split; [eexists; vm_compute; reflexivity|]. split; [reflexivity|]. split; [eexists; vm_compute; reflexivity|]. reflexivity. Qed.

(** All the theorems of this file, for one listing of axioms. *)
Definition all_theorems :=
  (@C160_position_partial,
   @C160_exact_refuted,
   @C161_time_partial,
   @C161_midnight_refuted,
   @C162_speed,
   @C162_depth,
   @C162_heading,
   @C163_stale_refuted,
   @C163_null_island_refuted,
   @C164_places_partial,
   @C164_unknown_sentence_refuted,
   @C164_garbled_refuted).
Print Assumptions all_theorems.
