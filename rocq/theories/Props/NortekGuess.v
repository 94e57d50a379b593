(** C148, C149: the room made for the samples of Vector and AWAC files suffices, and making it comes to an end. *)
From Coq Require Import ZArith List Bool Lia Arith.
From Verif.Model Require Import Nortek NortekFile NortekGuess.
From Verif.Spec Require Import Nortek NortekGuess.
From Verif.Proofs Require NortekGuess.
Import ListNotations.
Open Scope Z_scope.

(** C148. A Vector file of whole blocks, with system data somewhere before its last block, at most [fs] samples from one
    system data to the next (fewer before the first), and, if there are more than fifty, system data as far apart as the
    first ones: it is read, and all its samples are there, in order. *)
Theorem C148_vector_partial : forall e cs bins beams header bs tail fs, (22 <= length header)%nat -> cut_off tail ->
  Forall (vector_block e) bs -> Forall (verified (Reader e cs Vector bins beams None)) bs -> Forall (sized e) bs -> imu_after_velocity bs ->
  (exists pre b post, bs = pre ++ b :: post /\ is_sys b = true /\ post <> []) ->
  evenly 17 bs (file_of header bs tail) ->
  Forall (fun k => (k <= fs)%nat) (seconds bs) -> (hd O (seconds bs) < fs)%nat ->
  exists s n, read_vector (Reader e cs Vector bins beams None) (file_of header bs tail) (length header) fs = Done s
    /\ data s = map Some (samples bs) ++ repeat None n.
Proof. exact Proofs.NortekGuess.vector_read. Qed.
(** An AWAC file likewise: all its profiles are there, in order. *)
Theorem C148_awac_partial : forall e cs bins beams header bs tail, (22 <= length header)%nat -> (length tail < 2)%nat ->
  Forall (awac_block bins beams) bs -> Forall (verified (Reader e cs Awac bins beams None)) bs -> Forall (sized e) bs -> (0 < number 32 bs)%nat ->
  evenly 32 bs (file_of header bs tail) ->
  exists s n, read_with (guess_awac (Reader e cs Awac bins beams None) (file_of header bs tail) (length header))
                (Reader e cs Awac bins beams None) (file_of header bs tail) (length header) = Done s
    /\ data s = map Some (profiles bs) ++ repeat None n.
Proof. exact Proofs.NortekGuess.awac_read. Qed.

Local Definition r0 : reader := Reader LE false Vector 1 3 None.
Local Definition hdr : bytes := repeat 0 30.
Local Definition v (x : Z) : blk := Blk 16 (x :: repeat 0 19) [1; 2].
Local Definition y : blk := Blk 17 ([14; 0] ++ [53; 0; 9; 18; 18; 2] ++ repeat 7 16) [1; 2].
Local Definition bs0 : list blk := [y; v 1; v 2; y; v 3].
Local Lemma v_ok x : vector_block LE (v x) /\ verified r0 (v x) /\ sized LE (v x).
Proof.
  split; [left; split; reflexivity|]. split; [exists 1, 2; split; [reflexivity|left; reflexivity]|]. left. reflexivity.
Qed.
Local Lemma y_ok : vector_block LE y /\ verified r0 y /\ sized LE y.
Proof.
  split; [right; left; split; [reflexivity|split; [reflexivity|eexists; reflexivity]]|].
  split; [exists 1, 2; split; [reflexivity|left; reflexivity]|]. right. split; [discriminate|].
  exists 14, 0. eexists. split; reflexivity.
Qed.
Local Lemma all_ok : Forall (vector_block LE) bs0 /\ Forall (verified r0) bs0 /\ Forall (sized LE) bs0 /\ imu_after_velocity bs0.
Proof.
  split; [|split; [|split]].
  1-3: repeat (constructor; [first [apply y_ok|apply v_ok]|]); constructor.
  intros pre b post E Hi. exfalso. assert (In b bs0) by (rewrite E; apply in_or_app; right; left; reflexivity).
  repeat (destruct H as [<-|H]; [discriminate Hi|]). destruct H.
Qed.
(** five blocks, two samples a second *)
Example C148_vector_case : (22 <= length hdr)%nat /\ cut_off [165; 16; 1] /\
  (Forall (vector_block LE) bs0 /\ Forall (verified r0) bs0 /\ Forall (sized LE) bs0 /\ imu_after_velocity bs0) /\
  (exists pre b post, bs0 = pre ++ b :: post /\ is_sys b = true /\ post <> []) /\ evenly 17 bs0 (file_of hdr bs0 [165; 16; 1]) /\
  Forall (fun k => (k <= 2)%nat) (seconds bs0) /\ (hd O (seconds bs0) < 2)%nat.
Proof.
  split; [cbn; lia|]. split; [right; exists [1]; split; [reflexivity|cbn; lia]|]. split; [exact all_ok|].
  split; [exists [], y, [v 1; v 2; y; v 3]; split; [reflexivity|split; [reflexivity|discriminate]]|].
  split; [left; cbn; lia|]. split; [repeat constructor|cbn; lia].
Qed.
Local Definition pr : blk := Blk 32 ([63; 0] ++ [53; 0; 9; 18; 18; 2] ++ repeat 7 114) [1; 2].
Example C148_awac_case : Forall (awac_block 2 1) [pr; pr] /\ Forall (verified (Reader LE false Awac 2 1 None)) [pr; pr] /\ Forall (sized LE) [pr; pr]
  /\ (0 < number 32 [pr; pr])%nat /\ evenly 32 [pr; pr] (file_of hdr [pr; pr] []).
Proof.
  assert (A : awac_block 2 1 pr) by (left; split; [reflexivity|split; [reflexivity|eexists; reflexivity]]).
  assert (B : verified (Reader LE false Awac 2 1 None) pr) by (exists 1, 2; split; [reflexivity|left; reflexivity]).
  assert (C : sized LE pr) by (right; split; [discriminate|exists 63, 0; eexists; split; reflexivity]).
  repeat split; auto; [cbn; lia|left; cbn; lia].
Qed.

(** Not so in general. Without system data, and with a single one at the end of the file, reading a Vector file raises. *)
Theorem C148_no_system_data_refuted : forall e cs bins beams header bs tail fs, (22 <= length header)%nat -> cut_off tail ->
  Forall (vector_block e) bs -> Forall (verified (Reader e cs Vector bins beams None)) bs -> Forall (sized e) bs ->
  Forall (fun b => is_sys b = false) bs ->
  read_vector (Reader e cs Vector bins beams None) (file_of header bs tail) (length header) fs = Error.
Proof. exact Proofs.NortekGuess.no_system_data. Qed.
Theorem C148_last_system_data_refuted : forall e cs bins beams header bs b fs, (22 <= length header)%nat ->
  Forall (vector_block e) bs -> Forall (verified (Reader e cs Vector bins beams None)) bs -> Forall (sized e) bs ->
  Forall (fun b => is_sys b = false) bs ->
  vector_block e b -> verified (Reader e cs Vector bins beams None) b -> sized e b -> is_sys b = true ->
  read_vector (Reader e cs Vector bins beams None) (file_of header (bs ++ [b]) []) (length header) fs = Error.
Proof. exact Proofs.NortekGuess.last_system_data. Qed.
Example C148_single_case : Forall (vector_block LE) [v 1; v 2] /\ Forall (verified r0) [v 1; v 2] /\ Forall (sized LE) [v 1; v 2]
  /\ Forall (fun b => is_sys b = false) [v 1; v 2] /\ is_sys y = true.
Proof. repeat split; repeat (constructor; [first [reflexivity|apply v_ok]|]); constructor. Qed.
(** When every second holds more samples than the sampling rate rounded down, files that are long enough cannot be read. *)
Theorem C148_fractional_rate_refuted : forall e cs bins beams header s v fs g, (22 <= length header)%nat -> is_sys s = true -> velocity v = true ->
  vector_block e s -> vector_block e v -> verified (Reader e cs Vector bins beams None) s -> verified (Reader e cs Vector bins beams None) v ->
  sized e s -> (fs < g)%nat ->
  exists n0, forall n, (n0 <= n)%nat ->
    read_vector (Reader e cs Vector bins beams None) (file_of header (concat (repeat (second s v g) n)) []) (length header) fs = Error.
Proof. exact Proofs.NortekGuess.too_many_per_second. Qed.
Example C148_fractional_case : is_sys y = true /\ velocity (v 1) = true /\ vector_block LE y /\ vector_block LE (v 1) /\ verified r0 y /\ verified r0 (v 1)
  /\ sized LE y /\ (1 < 2)%nat.
Proof. repeat split; try apply y_ok; try apply v_ok. lia. Qed.

(** C149. A block whose size reads zero, before the first system data of a Vector file, makes the reader look at it for ever. *)
Theorem C149_zero_size_refuted : forall e cs bins beams header bs id rest fs, Forall (vector_block e) bs ->
  Forall (verified (Reader e cs Vector bins beams None)) bs -> Forall (sized e) bs ->
  Forall (fun b => is_sys b = false) bs -> id <> 16 -> id <> 17 -> id <> 81 ->
  read_vector (Reader e cs Vector bins beams None) (file_of header bs ([165; id; 0; 0] ++ rest)) (length header) fs = Hang.
Proof. exact Proofs.NortekGuess.zero_size. Qed.
(** The search that does so never answers, however long it is given. *)
Theorem C149_for_ever_refuted : forall e cs bins beams file id nowid p, nowid <> 16 -> nowid <> 81 -> nowid <> id ->
  (exists rest, skipn p file = [165; nowid; 0; 0] ++ rest) ->
  forall steps, findnextid steps (Reader e cs Vector bins beams None) file id p = Endless.
Proof. exact Proofs.NortekGuess.endless. Qed.
(** It does answer on every other file: a search of as many steps as the file has bytes ends unless it meets such a block. *)
Theorem C149_ends : forall e cs inst bins beams file id p, Forall is_byte file ->
  (forall q x rest, skipn q file <> 165 :: x :: 0 :: 0 :: rest) ->
  findnextid (S (length file)) (Reader e cs inst bins beams None) file id p <> Endless.
Proof. exact Proofs.NortekGuess.ends. Qed.
Example C149_ends_case : forall q x rest, skipn q [165; 17; 14; 0; 1] <> 165 :: x :: 0 :: 0 :: rest.
Proof. intros [|[|[|[|[|q]]]]] x rest; cbn; try discriminate. destruct q; discriminate. Qed.

(** All the theorems of this file, for one listing of axioms. *)
Definition all_theorems :=
  (@C148_vector_partial,
   @C148_awac_partial,
   @C148_no_system_data_refuted,
   @C148_last_system_data_refuted,
   @C148_fractional_rate_refuted,
   @C149_zero_size_refuted,
   @C149_for_ever_refuted,
   @C149_ends).
Print Assumptions all_theorems.
