(** What the properties of Nortek files say: checksums, block starts, blocks and files. *)
From Coq Require Import ZArith List Bool.
From Verif.Model Require Import Nortek NortekFile.
Import ListNotations.
Open Scope Z_scope.

Definition is_byte (x : Z) : Prop := 0 <= x < 256.
(** the checksum the instrument stores: 0xb58c plus the words of the block, modulo 2^16 *)
Definition right_checksum (e : endian) (thisid byts : bytes) : Z := (46476 + total (words e (thisid ++ byts))) mod 65536.
Definition intact (e : endian) (thisid byts : bytes) (stored : Z) : Prop := stored = right_checksum e thisid byts.

(** the words from position [p] to position [q] *)
Definition words_between (e : endian) (file : bytes) (p q : nat) : list Z := words e (firstn (q - p) (skipn p file)).
(** [q] is where a block can start, for a search begun at [p]: at an even distance, a sync byte followed
    by an identifier; with [do_cs] the words before it end with their checksum *)
Definition block_start (e : endian) (do_cs : bool) (file : bytes) (p q : nat) (id : Z) : Prop :=
  (exists k, q = p + 2 * k)%nat /\ nth_error file q = Some 165 /\ nth_error file (S q) = Some id /\
  (do_cs = true -> exists ws cs, words_between e file p q = ws ++ [cs] /\ cs = (46476 + total ws) mod 65536).

(** ** Blocks *)
Record blk := Blk { bid : Z; body : bytes; ck : bytes }.
Definition bytes_of (b : blk) : bytes := 165 :: bid b :: body b ++ ck b.
(** the blocks of a Vector file: velocity, system data, header, check data, IMU, and the three kinds of
    configuration, each of its length *)
Definition vector_block (e : endian) (b : blk) : Prop :=
  (bid b = 16 /\ length (body b) = 20%nat) \/
  (bid b = 17 /\ length (body b) = 24%nat /\ exists d, rd_time (skipn 2 (body b)) = Some d) \/
  (bid b = 18 /\ length (body b) = 38%nat /\ (exists d, rd_time (skipn 2 (body b)) = Some d) /\
     (forall x, In x (body b) -> x < 128)) \/
  (bid b = 7 /\ exists s0 s1 n0 n1 f0 f1 amps, body b = [s0; s1; n0; n1; f0; f1] ++ amps /\
     0 <= word e n0 n1 /\ length amps = (3 * Z.to_nat (word e n0 n1))%nat) \/
  (bid b = 113 /\ exists s0 s1 n id values, body b = [s0; s1; n; id] ++ values /\
     ((id = 195 /\ length values = 64%nat) \/ (id = 204 /\ length values = 78%nat) \/ (id = 211 /\ length values = 42%nat))) \/
  (bid b = 0 /\ length (body b) = 508%nat) \/ (bid b = 4 /\ length (body b) = 220%nat) \/ (bid b = 5 /\ length (body b) = 44%nat).
(** the checksum is not verified, or the verification lets the block pass *)
Definition verified (r : reader) (b : blk) : Prop :=
  exists c0 c1, ck b = [c0; c1] /\
  (rchecksum r = false \/ checksum_passes (rendian r) true [165; bid b] (body b) (word (rendian r) c0 c1) = true).

Definition velocity (b : blk) : bool := bid b =? 16.
Definition is_sys (b : blk) : bool := bid b =? 17.
Definition is_imu (b : blk) : bool := bid b =? 113.
(** the velocity samples, in the order of the file *)
Definition samples (bs : list blk) : list bytes := map body (filter velocity bs).
Definition imu_after_velocity (bs : list blk) : Prop :=
  forall pre b post, bs = pre ++ b :: post -> is_imu b = true -> samples pre <> [].
(** none of the blocks up to the next velocity block satisfies [p] *)
Fixpoint none_before_velocity (p : blk -> bool) (bs : list blk) : bool :=
  match bs with
  | [] => true
  | b :: bs' => if velocity b then true else negb (p b) && none_before_velocity p bs'
  end.
(** a file: [header], blocks, and at its end at most a velocity block that was cut off *)
Definition cut_off (tail : bytes) : Prop :=
  (length tail < 2)%nat \/ exists p, tail = 165 :: 16 :: p /\ (length p < 20)%nat.
Definition file_of (header : bytes) (bs : list blk) (tail : bytes) : bytes := header ++ concat (map bytes_of bs) ++ tail.
