(** Vocabulary for the number of samples of a Nortek file. *)
From Coq Require Import ZArith List Bool.
From Verif.Model Require Import Nortek NortekFile.
From Verif.Spec Require Import Nortek.
Import ListNotations.
Open Scope Z_scope.

(** a block other than a velocity sample begins with its size in words *)
Definition sized (e : endian) (b : blk) : Prop :=
  velocity b = true \/ (bid b <> 81 /\ exists b0 b1 rest, body b = b0 :: b1 :: rest /\ 2 * word e b0 b1 = Z.of_nat (length (bytes_of b))).
Definition kind (id : Z) (b : blk) : bool := bid b =? id.
Definition number (id : Z) (bs : list blk) : nat := length (filter (kind id) bs).
Definition size (bs : list blk) : nat := length (concat (map bytes_of bs)).
(** the bytes up to the end of the [k]-th block of that kind *)
Fixpoint upto (id : Z) (k : nat) (bs : list blk) : nat :=
  match k, bs with
  | S k', b :: bs' => length (bytes_of b) + upto id (if kind id b then k' else k) bs'
  | _, _ => O
  end.
(** the numbers of samples before the first system data, between them, and after the last *)
Fixpoint seconds (bs : list blk) : list nat :=
  match bs with
  | [] => [O]
  | b :: bs' => if is_sys b then O :: seconds bs'
                else match seconds bs' with n :: l => (if velocity b then S n else n) :: l | [] => [] end
  end.
(** beyond the fifty-first, the blocks are as far apart on the whole as the first ones *)
Definition evenly (id : Z) (bs : list blk) (file : bytes) : Prop :=
  (number id bs <= 50)%nat \/ (number id bs * (upto id 51 bs - upto id 1 bs) <= 50 * length file)%nat.
(** a second of data of a Vector: system data and [g] samples *)
Definition second (s v : blk) (g : nat) : list blk := s :: repeat v g.

(** the blocks of an AWAC file: profiles of [bins] cells and [beams] beams, and the three kinds of configuration *)
Definition awac_block (bins beams : nat) (b : blk) : Prop :=
  (bid b = 32 /\ length (body b) = (116 + beams * 3 * bins)%nat /\ exists d, rd_time (skipn 2 (body b)) = Some d) \/
  (bid b = 0 /\ length (body b) = 508%nat) \/ (bid b = 4 /\ length (body b) = 220%nat) \/ (bid b = 5 /\ length (body b) = 44%nat).
Definition profiles (bs : list blk) : list bytes := map body (filter (kind 32) bs).
