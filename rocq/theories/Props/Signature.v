(** Signature (AD2CP) files: C69-C72, C110-C113. *)
From Coq Require Import String.
From Coq Require Import ZArith List Bool Lia.
From Verif.Model Require Nortek Ad2cp Ad2cpIndex.
From Verif.Spec Require Ad2cp Ad2cpIndex.
From Verif.Proofs Require Ad2cp Ad2cpIndex.
Import ListNotations.
Open Scope Z_scope.

Section Blocks.
Import Verif.Model.Nortek Verif.Model.Ad2cp Verif.Spec.Ad2cp.

(** ** C69: blocks *)
(** what the instrument wrote into a block is what is read, and the next read begins after the block *)
Theorem C69_values l vals bs rest : holds l vals bs -> read l CsNone (bs ++ rest) = Some (vals, rest).
Proof. exact (Proofs.Ad2cp.read_holds l vals bs rest). Qed.
(** every block of bytes is the encoding of some values *)
Theorem C69_every_block l bs : Forall (fun f => 0 < prod (fshape f))%nat l -> all_bytes bs -> length bs = nbyte l ->
  exists vals, holds l vals bs.
Proof. intros P B L. eexists. exact (Proofs.Ad2cp.holds_any l P bs B L). Qed.
Theorem C69_bytes_consumed l cs bs out rest : read l cs bs = Some (out, rest) ->
  exists block, bs = block ++ rest /\ length block = nbyte l /\ length out = length l.
Proof. exact (Proofs.Ad2cp.read_consumes l cs bs out rest). Qed.
Theorem C69_shapes l cs bs out rest : Forall (fun f => 0 < prod (fshape f))%nat l -> read l cs bs = Some (out, rest) ->
  map (@length Z) out = map (fun f => prod (fshape f)) l.
Proof. exact (Proofs.Ad2cp.read_shapes l cs bs out rest). Qed.
(** with the checksum in the last word: the block is returned exactly if the stored word is the sum of the others *)
Theorem C69_checksum l nm vals bs w rest : holds l vals bs -> Nat.Even (length bs) -> 0 <= w < 65536 ->
  read (l ++ [scalar nm U16]) CsTrue (bs ++ le_bytes 2 w ++ rest) = (if w =? sum16 bs then Some (vals ++ [[w]], rest) else None).
Proof. exact (Proofs.Ad2cp.read_checksum l nm vals bs w rest). Qed.
(** but the checksums in the headers of a file are never looked at: any header with the sync byte and any
    body are accepted, whatever the six bytes of size and checksums say *)
Theorem C69_files_not_verified_refuted : forall h id f s0 s1 c0 c1 d0 d1 l body, (nbyte l <= length body)%nat ->
  exists hdr out, read_hdr ([165; h; id; f; s0; s1; c0; c1; d0; d1] ++ body) = Some (hdr, body) /\
    read_burst l body = Some (out, skipn (nbyte l) body).
Proof.
  intros h id f s0 s1 c0 c1 d0 d1 l body L. destruct (Proofs.Ad2cp.burst_any l body L) as [out E]. eexists. exists out.
  split; [exact (Proofs.Ad2cp.hdr_any h id f s0 s1 c0 c1 d0 d1 body)|exact E].
Qed.
(** a layout with an empty field (no beams, no cells) reads one element for it: everything after it is misplaced *)
Theorem C69_empty_field_refuted : exists l bs out rest, read l CsNone bs = Some (out, rest) /\ bs = [7; 0; 9; 0] /\
  map fshape l = [[0%nat]; []] /\ map fkind l = [U16; U16] /\ out = [[]; [7]].
Proof. exists [Field "vel" U16 0 [0%nat]; scalar "x" U16], [7; 0; 9; 0], [[]; [7]], []. repeat split; reflexivity. Qed.
Local Definition l_ex : layout := [scalar "a" U8; scalar "b" S8; Field "c" S16 0 [2%nat]; Field "s" U8 3 []].
Lemma l_ex_holds : holds l_ex [[200]; [-1]; [-2; 300]; [9]] [200; 255; 254; 255; 44; 1; 9; 1; 2; 3].
Proof.
  apply (holds_cons (scalar "a" U8) _ [200] _ [] [255; 254; 255; 44; 1; 9; 1; 2; 3]); try reflexivity; [cbn; lia|apply Forall_cons; [cbn; lia|apply Forall_nil]|].
  apply (holds_cons (scalar "b" S8) _ [-1] _ [] [254; 255; 44; 1; 9; 1; 2; 3]); try reflexivity; [cbn; lia|apply Forall_cons; [cbn; lia|apply Forall_nil]|].
  apply (holds_cons (Field "c" S16 0 [2%nat]) _ [-2; 300] _ [] [9; 1; 2; 3]); try reflexivity;
    [cbn; lia|apply Forall_cons; [cbn; lia|apply Forall_cons; [cbn; lia|apply Forall_nil]]|].
  apply (holds_cons (Field "s" U8 3 []) _ [9] _ [1; 2; 3] []); try reflexivity; [cbn; lia|apply Forall_cons; [cbn; lia|apply Forall_nil]|apply holds_nil].
Qed.
Example C69_ex : holds l_ex [[200]; [-1]; [-2; 300]; [9]] [200; 255; 254; 255; 44; 1; 9; 1; 2; 3] /\
  sum16 [200; 255; 254; 255; 44; 1; 9; 1; 2; 3] = 47753 /\
  Forall (fun f => 0 < prod (fshape f))%nat burst_hdr /\ nbyte burst_hdr = 76%nat /\ nbyte bt_hdr = 78%nat.
Proof.
  split; [exact l_ex_holds|]. split; [reflexivity|]. split; [|split; reflexivity].
  apply Forall_forall. intros f Hf. unfold burst_hdr in Hf. cbn [In] in Hf. repeat (destruct Hf as [<-|Hf]; [cbn; lia|]). destruct Hf.
Qed.

(** ** C70: bit fields *)
Theorem C70_bits d s t k : 0 <= s <= t -> 0 <= k -> Z.testbit (bits d s t) k = (k <? t - s) && Z.testbit d (s + k).
Proof. exact (Proofs.Ad2cp.bits_test d s t k). Qed.
Theorem C70_packed hi v lo s t : 0 <= s <= t -> 0 <= v < 2 ^ (t - s) -> 0 <= lo < 2 ^ s -> bits (hi * 2 ^ t + v * 2 ^ s + lo) s t = v.
Proof. exact (Proofs.Ad2cp.bits_packed hi v lo s t). Qed.
Theorem C70_single_bit d n : 0 <= n -> getbit d n = Z.testbit d n /\ bit1 d n = Z.b2z (Z.testbit d n).
Proof. intros H. split; [exact (Proofs.Ad2cp.getbit_test d n H)|exact (Proofs.Ad2cp.bit1_test d n H)]. Qed.
(** the word that holds the number of cells, the coordinate system and the number of beams *)
Theorem C70_beams_word cells c nb id : 0 <= cells < 1024 -> 0 <= c < 4 -> id <> 28 -> id <> 26 -> id <> 31 ->
  beams_cy_int2dict (cells + 1024 * c + 4096 * nb) id = BeamsCy cells (Some (nth (Z.to_nat c) [ENU; XYZ; Beam; NoAxes] NoAxes)) (Some nb).
Proof. exact (Proofs.Ad2cp.beams_packed cells c nb id). Qed.
(** which data a burst record holds: the bits of the configuration word *)
Theorem C70_configuration_bits v :
  let f := headconfig v BurstMode in
  flag f "vel" = Z.testbit v 5 /\ flag f "amp" = Z.testbit v 6 /\ flag f "corr" = Z.testbit v 7 /\ flag f "le" = Z.testbit v 8 /\
  flag f "altraw" = Z.testbit v 9 /\ flag f "ast" = Z.testbit v 10 /\ flag f "echo" = Z.testbit v 11 /\ flag f "ahrs" = Z.testbit v 12 /\
  flag f "p_gd" = Z.testbit v 13 /\ flag f "std" = Z.testbit v 14.
Proof. cbn [headconfig map flag fst snd String.eqb Ascii.eqb Bool.eqb]. repeat split; apply Proofs.Ad2cp.getbit_test; lia. Qed.
Example C70_ex : beams_cy_int2dict (28 + 1024 * 2 + 4096 * 4) 21 = BeamsCy 28 (Some Beam) (Some 4) /\ bits 43690 5 10 = 21 /\
  (0 <= 5 <= 10 /\ 0 <= 21 < 2 ^ (10 - 5) /\ 0 <= 10 < 2 ^ 5).
Proof. repeat split; try reflexivity; lia. Qed.

(** ** C72: collapse *)
Theorem C72_common_value vec x exclude : In x vec -> all_equal vec -> collapse vec exclude = Some x.
Proof. exact (Proofs.Ad2cp.collapse_uniform vec x exclude). Qed.
Theorem C72_excluded_values vec exclude x : exclude <> [] -> In x vec -> ~ In x exclude -> (forall y, In y vec -> In y exclude \/ y = x) -> collapse vec exclude = Some x.
Proof. exact (Proofs.Ad2cp.excluded_uniform vec exclude x). Qed.
Theorem C72_occurs vec exclude v : collapse vec exclude = Some v -> In v vec.
Proof. exact (Proofs.Ad2cp.collapse_occurs vec exclude v). Qed.
Theorem C72_most_frequent vec exclude v : collapse vec exclude = Some v ->
  (exclude = [] \/ exists x y, In x vec /\ In y vec /\ x <> y /\ ~ In x exclude /\ ~ In y exclude) ->
  forall x, (occurrences vec x <= occurrences vec v)%nat.
Proof. exact (Proofs.Ad2cp.collapse_mode vec exclude v). Qed.
Theorem C72_some_value vec : vec <> [] -> exists v, collapse vec [] = Some v.
Proof. exact (Proofs.Ad2cp.collapse_some vec). Qed.
Example C72_ex : collapse [4; 7; 4; 2] [] = Some 4 /\ collapse [1; 2; 1; 2] [] = Some 2 /\ collapse [999; 5; 5; 999; 999] [999] = Some 5 /\
  collapse [3; 3; 3] [] = Some 3.
Proof. repeat split; reflexivity. Qed.

(** ** C111: raw altimeter pings *)
Theorem C111_altimeter_partial config ahrs nb nc sz l vals bs rest : altimeter_only config ahrs -> calc_burst_struct config nb nc = Some l -> (0 < sz)%nat ->
  (ahrs = false \/ Nat.even sz = false) -> holds (with_samples sz l) vals bs -> altraw_read sz l (bs ++ rest) = Some (vals, rest).
Proof.
  intros A C P D H. rewrite (Proofs.Ad2cp.altraw_works config ahrs nb nc sz l (bs ++ rest) A C P D). exact (Proofs.Ad2cp.read_holds _ vals bs rest H).
Qed.
(** with AHRS data and an even number of samples no ping can be read *)
Theorem C111_even_samples_refuted config nb nc sz l bs : altimeter_only config true -> calc_burst_struct config nb nc = Some l -> (0 < sz)%nat ->
  Nat.even sz = true -> altraw_read sz l bs = None.
Proof. exact (Proofs.Ad2cp.altraw_fails config nb nc sz l bs). Qed.
Example C111_ex : altimeter_only 4608 true /\ altimeter_only 512 false /\
  (exists l, calc_burst_struct 4608 1 0 = Some l /\ nbyte (with_samples 2 l) = 150%nat /\ calcsize_native (with_samples 2 l) = 152%nat).
Proof.
  unfold altimeter_only. split; [cbn zeta; repeat split; reflexivity|]. split; [cbn zeta; repeat split; reflexivity|].
  eexists. split; [reflexivity|]. split; reflexivity.
Qed.
End Blocks.

Section Files.
Import Verif.Model.Nortek Verif.Model.Ad2cp Verif.Model.Ad2cpIndex Verif.Spec.Ad2cp Verif.Spec.Ad2cpIndex.

(** ** C71: the index *)
Theorem C71_numbers fuel file l a b : all_bytes file -> index_file fuel file = Index l -> later l a b -> eid a = eid b ->
  ehw a <= ehw b /\ eN a <= eN b.
Proof. exact (Proofs.Ad2cpIndex.index_monotone fuel file l a b). Qed.
(** the counter goes up by one exactly when the number in the file goes up *)
Theorem C71_counter fuel file l a b : all_bytes file -> index_file fuel file = Index l -> next_of_id l a b ->
  (eN b = eN a \/ eN b = eN a + 1) /\ (eN b = eN a + 1 <-> 0 < ehw a < ehw b).
Proof. exact (Proofs.Ad2cpIndex.index_steps fuel file l a b). Qed.
Theorem C71_positions_partial fuel bs l a b : Forall (fun b => exists id body, framed id body b /\ short body) bs ->
  index_file fuel (concat bs) = Index l -> later l a b -> epos a < epos b.
Proof. exact (Proofs.Ad2cpIndex.index_positions fuel bs l a b). Qed.
(** a record of 32768 bytes or more: its size is taken for a negative number; with 65526 bytes the
    indexing does not come to an end *)
Theorem C71_long_record_refuted : exists body b, framed 160 body b /\ length body = Z.to_nat 65526 /\ forall rest fuel, index_file fuel (b ++ rest) = More.
Proof.
  exists (repeat 0 (Z.to_nat 65526)), ([165; 10; 160; 16; 246; 255; 0; 0; 0; 0] ++ repeat 0 (Z.to_nat 65526)). split; [|split].
  - exists 10, 16, 246, 255, 0, 0, 0, 0. split; [reflexivity|]. rewrite repeat_length, Z2Nat.id by lia. lia.
  - apply repeat_length.
  - intros rest fuel. rewrite <- app_assoc. apply Proofs.Ad2cpIndex.stuck. reflexivity.
Qed.
(** the numbers 0 and 1 share one counter *)
Local Definition body_ex (num : Z) : bytes := repeat 0 72 ++ [num; 0; 0; 0].
Local Definition rec_ex (id num : Z) : bytes := [165; 10; id; 16; 76; 0; 0; 0; 0; 0] ++ body_ex num.
Local Definition str_ex : bytes := [165; 10; 160; 16; 2; 0; 0; 0; 0; 0; 16; 65].
Theorem C71_number_zero_refuted : exists file l a b, index_file 10 file = Index l /\ next_of_id l a b /\ ehw a = 0 /\ ehw b = 1 /\ eN a = eN b.
Proof.
  exists (rec_ex 21 0 ++ rec_ex 21 1). eexists. eexists. eexists. split; [vm_compute; reflexivity|].
  split; [exists [], [], []; split; [reflexivity|split; [reflexivity|constructor]]|]. repeat split; reflexivity.
Qed.

(** ** C110: the columns *)
Theorem C110_columns_partial conf ids m hd enss file L dp rebuild existing start stop fuel :
  regular conf ids m hd enss file -> (2 <= length enss)%nat -> (forall ps, In ps enss -> Z.of_nat (length (bytes_of ps)) = L) ->
  (rebuild = true \/ existing = None) -> (length file < fuel)%nat ->
  let upto := match stop with None => length enss | Some s => Nat.min s (length enss) end in
  (start < upto)%nat ->
  read_ad2cp fuel dp rebuild existing file start stop = Events (columns 0 (between start upto enss)).
Proof. exact (Proofs.Ad2cpIndex.read_regular conf ids m hd enss file L dp rebuild existing start stop fuel). Qed.
Local Definition conf_ex : Z -> Z * Z := fun _ => (0, 0).
Local Definition piece_ex (id num : Z) : piece := Piece id (split_fields burst_hdr (unpack burst_hdr (body_ex num))) (rec_ex id num).
Local Definition spiece_ex : piece := Piece 160 [] str_ex.
Lemma good_ex id num : In id [21; 24] -> 0 <= num < 256 -> good_piece conf_ex (piece_ex id num).
Proof.
  intros I R. split; [destruct I as [<-|[<-|[]]]; cbn; lia|]. exists (body_ex num). split; [|split; [|split; [|split]]].
  - exists 10, 16, 76, 0, 0, 0, 0, 0. split; [reflexivity|]. cbn. lia.
  - unfold short. cbn. lia.
  - destruct I as [<-|[<-|[]]]; cbn; lia.
  - intros _. split; [cbn; lia|]. split; [destruct I as [<-|[<-|[]]]; cbn; lia|]. repeat split; reflexivity.
  - intros _. exists burst_hdr. split; [destruct I as [<-|[<-|[]]]; reflexivity|].
    apply Proofs.Ad2cp.holds_any; [apply C69_ex| |reflexivity].
    unfold body_ex. apply Forall_app. split; [apply Forall_forall; intros x Hx; apply repeat_spec in Hx; lia|].
    apply Forall_cons; [lia|]. apply Forall_cons; [lia|]. apply Forall_cons; [lia|]. apply Forall_cons; [lia|]. apply Forall_nil.
Qed.
Lemma sgood_ex : good_piece conf_ex spiece_ex.
Proof.
  split; [cbn; lia|]. exists [16; 65]. split; [|split; [|split; [|split]]].
  - exists 10, 16, 2, 0, 0, 0, 0, 0. split; [reflexivity|]. cbn. lia.
  - unfold short. cbn. lia.
  - discriminate.
  - discriminate.
  - cbn. lia.
Qed.
Local Definition enss_ex : list (list piece) :=
  [[piece_ex 21 5; piece_ex 24 5; spiece_ex]; [piece_ex 21 6; spiece_ex; piece_ex 24 6]; [piece_ex 21 7; piece_ex 24 7; spiece_ex]].
Local Definition file_ex : bytes := bytes_of [spiece_ex] ++ concat (map bytes_of enss_ex).
Lemma ens_ex num : 0 <= num < 256 -> number (piece_ex 21 num) = num /\ number (piece_ex 24 num) = num.
Proof. intros H. split; cbn; lia. Qed.
Example C110_regular : regular conf_ex [21; 24] 5 [spiece_ex] enss_ex file_ex.
Proof.
  assert (G1 : forall n, 0 <= n < 256 -> good_piece conf_ex (piece_ex 21 n)) by (intros n H; apply good_ex; [left; reflexivity|exact H]).
  assert (G2 : forall n, 0 <= n < 256 -> good_piece conf_ex (piece_ex 24 n)) by (intros n H; apply good_ex; [right; left; reflexivity|exact H]).
  constructor.
  - reflexivity.
  - apply Forall_cons; [split; [exact sgood_ex|reflexivity]|apply Forall_nil].
  - apply NoDup_cons; [cbn; lia|]. apply NoDup_cons; [cbn; lia|apply NoDup_nil].
  - intros e ps H. destruct e as [|[|[|[|e]]]]; cbn in H; try discriminate; injection H as <-;
      (split; [reflexivity|]; split; [eexists; eexists; split; [reflexivity|reflexivity]|]; split;
       [apply Forall_cons; [first [apply G1; lia|apply G2; lia|exact sgood_ex]|]; apply Forall_cons; [first [apply G1; lia|apply G2; lia|exact sgood_ex]|];
        apply Forall_cons; [first [apply G1; lia|apply G2; lia|exact sgood_ex]|apply Forall_nil]
       |apply Forall_cons; [first [reflexivity|discriminate]|]; apply Forall_cons; [first [reflexivity|discriminate]|];
        apply Forall_cons; [first [reflexivity|discriminate]|apply Forall_nil]]).
  - lia.
  - cbn. lia.
  - cbn. lia.
Qed.
Example C110_ex : (2 <= length enss_ex)%nat /\ (forall ps, In ps enss_ex -> Z.of_nat (length (bytes_of ps)) = 184) /\
  (exists v1 v2 v3 v4, columns 0 (between 1 3 enss_ex) = [(21, 0%nat, v1); (24, 0%nat, v2); (21, 1%nat, v3); (24, 1%nat, v4)] /\
     nth 35 v1 [] = [6] /\ nth 35 v4 [] = [7]).
Proof.
  split; [cbn; lia|]. split.
  - intros ps [<-|[<-|[<-|[]]]]; reflexivity.
  - eexists. eexists. eexists. eexists. split; [reflexivity|]. split; reflexivity.
Qed.
(** what is missing in general: a file with one ensemble cannot be read; *)
Theorem C110_single_ensemble_refuted : exists hd enss file, regular conf_ex [21; 24] 5 hd enss file /\ length enss = 1%nat /\
  forall dp, read_ad2cp (S (length file)) dp true None file 0 None = RdRaised.
Proof.
  exists [spiece_ex], [[piece_ex 21 5; piece_ex 24 5]], (bytes_of [spiece_ex] ++ concat (map bytes_of [[piece_ex 21 5; piece_ex 24 5]])).
  split; [|split; [reflexivity|intros [|]; vm_compute; reflexivity]].
  constructor.
  - reflexivity.
  - apply Forall_cons; [split; [exact sgood_ex|reflexivity]|apply Forall_nil].
  - apply NoDup_cons; [cbn; lia|]. apply NoDup_cons; [cbn; lia|apply NoDup_nil].
  - intros e ps H. destruct e as [|[|e]]; cbn in H; try discriminate. injection H as <-.
    split; [reflexivity|]. split; [eexists; eexists; split; [reflexivity|reflexivity]|]. split.
    + apply Forall_cons; [apply good_ex; [left; reflexivity|lia]|]. apply Forall_cons; [apply good_ex; [right; left; reflexivity|lia]|apply Forall_nil].
    + apply Forall_cons; [reflexivity|]. apply Forall_cons; [reflexivity|apply Forall_nil].
  - lia.
  - cbn. lia.
  - cbn. lia.
Qed.
(** a last ensemble that is complete but has another size than the others (here a text record after it) is dropped; *)
Theorem C110_last_ensemble_refuted : exists enss file, length enss = 3%nat /\ file = concat (map bytes_of enss) /\
  Forall (Forall (good_piece conf_ex)) enss /\ map (map p_id) enss = [[21]; [21]; [21; 160]] /\
  exists v1 v2, read_ad2cp (S (length file)) false true None file 0 None = Events [(21, 0%nat, v1); (21, 1%nat, v2)].
Proof.
  exists [[piece_ex 21 5]; [piece_ex 21 6]; [piece_ex 21 7; spiece_ex]], (concat (map bytes_of [[piece_ex 21 5]; [piece_ex 21 6]; [piece_ex 21 7; spiece_ex]])).
  split; [reflexivity|]. split; [reflexivity|]. split; [|split; [reflexivity|]].
  - assert (G1 : forall n, 0 <= n < 256 -> good_piece conf_ex (piece_ex 21 n)) by (intros n H; apply good_ex; [left; reflexivity|exact H]).
    apply Forall_cons; [apply Forall_cons; [apply G1; lia|apply Forall_nil]|]. apply Forall_cons; [apply Forall_cons; [apply G1; lia|apply Forall_nil]|].
    apply Forall_cons; [apply Forall_cons; [apply G1; lia|apply Forall_cons; [exact sgood_ex|apply Forall_nil]]|apply Forall_nil].
  - eexists. eexists. vm_compute. reflexivity.
Qed.
(** and raw altimeter records that come with every fourth ping: the file of six pings gets seven columns,
    one of them without a ping, and the sixth ping is in the seventh *)
Local Definition alt_ex (num : Z) : bytes :=
  [165; 10; 26; 16; 84; 0; 0; 0; 0; 0] ++ [0; 0; 0; 2] ++ repeat 0 68 ++ [num; 0; 0; 0; 1; 0; 0; 0; 0; 0; 3; 0].
Theorem C110_altimeter_refuted : exists file,
  file = rec_ex 21 1 ++ alt_ex 1 ++ rec_ex 21 2 ++ rec_ex 21 3 ++ rec_ex 21 4 ++ rec_ex 21 5 ++ alt_ex 5 ++ rec_ex 21 6 /\
  exists l, read_ad2cp (S (length file)) false true None file 0 None = Events l /\
    map fst l = [(21, 0%nat); (26, 0%nat); (21, 1%nat); (21, 2%nat); (21, 3%nat); (21, 4%nat); (26, 1%nat); (21, 6%nat)].
Proof. eexists. split; [reflexivity|]. eexists. split; [vm_compute; reflexivity|]. reflexivity. Qed.

(** ** C112: an index file that is already there *)
Theorem C112_rebuilt_partial fuel dp ex1 ex2 file start stop :
  read_ad2cp fuel dp true ex1 file start stop = read_ad2cp fuel dp true ex2 file start stop.
Proof. reflexivity. Qed.
Theorem C112_old_index_refuted : exists old l file fuel, index_file fuel old = Index l /\
  (exists v1 v2 v3, read_ad2cp fuel false false None file 0 None = Events [(21, 0%nat, v1); (21, 1%nat, v2); (21, 2%nat, v3)]) /\
  (exists v1, read_ad2cp fuel false false (Some l) file 0 None = Events [(21, 0%nat, v1)]).
Proof.
  exists (rec_ex 21 1 ++ rec_ex 21 2). eexists. exists (rec_ex 21 1 ++ rec_ex 21 2 ++ rec_ex 21 3). exists 400%nat.
  split; [vm_compute; reflexivity|]. split; [eexists; eexists; eexists; vm_compute; reflexivity|eexists; vm_compute; reflexivity].
Qed.

(** ** C113: crop_ensembles *)
Theorem C113_crop_partial conf ids m hd enss file fuel lo hi l : regular conf ids m hd enss file -> (length file < fuel)%nat ->
  get_index fuel false true None file = Index l -> (lo <= hi < length enss)%nat ->
  crop l file (Z.of_nat lo) (Z.of_nat hi) = Some (bytes_of hd ++ concat (map bytes_of (between lo hi enss))).
Proof. exact (Proofs.Ad2cpIndex.crop_regular conf ids m hd enss file fuel lo hi l). Qed.
(** the last ensemble cannot be kept: there is no number to end the range with *)
Theorem C113_last_ensemble_refuted : exists l, get_index (S (length file_ex)) false true None file_ex = Index l /\ length enss_ex = 3%nat /\
  forall lo hi, 3 <= hi -> crop l file_ex lo hi = None.
Proof.
  eexists. split; [vm_compute; reflexivity|]. split; [reflexivity|]. intros lo hi H. unfold crop. cbn [find eN].
  replace (0 =? hi) with false by (symmetry; apply Z.eqb_neq; lia). replace (1 =? hi) with false by (symmetry; apply Z.eqb_neq; lia).
  replace (2 =? hi) with false by (symmetry; apply Z.eqb_neq; lia).
  match goal with |- match ?x with Some _ => _ | None => _ end = None => destruct x; reflexivity end.
Qed.
Example C113_ex : exists l, get_index (S (length file_ex)) false true None file_ex = Index l /\
  crop l file_ex 1 2 = Some (bytes_of [spiece_ex] ++ bytes_of [piece_ex 21 6; spiece_ex; piece_ex 24 6]).
Proof. eexists. split; [vm_compute; reflexivity|]. vm_compute. reflexivity. Qed.
End Files.

(** All the theorems of this file, for one listing of axioms. *)
Definition all_theorems :=
  (@C69_values,
   @C69_every_block,
   @C69_bytes_consumed,
   @C69_shapes,
   @C69_checksum,
   @C69_files_not_verified_refuted,
   @C69_empty_field_refuted,
   @C70_bits,
   @C70_packed,
   @C70_single_bit,
   @C70_beams_word,
   @C70_configuration_bits,
   @C72_common_value,
   @C72_excluded_values,
   @C72_occurs,
   @C72_most_frequent,
   @C72_some_value,
   @C111_altimeter_partial,
   @C111_even_samples_refuted,
   @C71_numbers,
   @C71_counter,
   @C71_positions_partial,
   @C71_long_record_refuted,
   @C71_number_zero_refuted,
   @C110_columns_partial,
   @C110_single_ensemble_refuted,
   @C110_last_ensemble_refuted,
   @C110_altimeter_refuted,
   @C112_rebuilt_partial,
   @C112_old_index_refuted,
   @C113_crop_partial,
   @C113_last_ensemble_refuted).
Print Assumptions all_theorems.
