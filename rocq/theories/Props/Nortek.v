(** Properties C62-C68, C104-C109: files of a Nortek Vector or AWAC. *)
From Coq Require Import String.
From Coq Require Import ZArith QArith Reals List Bool Lia Lra Lqa.
From Verif.Model Require Gaps Linalg Nortek NortekFile NortekData Microstrain.
From Verif.Spec Require Gaps Linalg Motion Nortek NortekData.
From Verif.Proofs Require Nortek NortekFile NortekData Microstrain.
Import ListNotations.
Close Scope R_scope.
Close Scope Q_scope.
Open Scope Z_scope.

Section Blocks.
Import Verif.Model.Nortek Verif.Model.NortekFile Verif.Spec.Nortek.

(** ** C62 *)
Theorem C62_digits : forall tens units, 0 <= tens <= 9 -> 0 <= units <= 9 -> bcd2char (16 * tens + units) = 10 * tens + units.
Proof. exact Proofs.Nortek.bcd_digits. Qed.
Theorem C62_injective : forall a b c d, 0 <= a <= 9 -> 0 <= b <= 9 -> 0 <= c <= 9 -> 0 <= d <= 9 ->
  bcd2char (16 * a + b) = bcd2char (16 * c + d) -> a = c /\ b = d.
Proof. intros a b c d A B C D H. rewrite !Proofs.Nortek.bcd_digits in H by assumption. lia. Qed.
Theorem C62_at_most_99 : forall x, 0 <= x -> 0 <= bcd2char x <= 99.
Proof. exact Proofs.Nortek.bcd_range. Qed.
Example C62_ex : bcd2char 89 = 59 /\ bcd2char 255 = 99 /\ bcd2char 26 = 20.
Proof. repeat split; reflexivity. Qed.

(** ** C63 *)
(** one stored value is refused for every block, and it is the sum without the reduction modulo 2^16 *)
Theorem C63_refused_value_partial : forall e thisid byts stored, Nat.even (length byts) = true ->
  checksum_passes e true thisid byts stored = false <-> stored = 46476 + total (words e (thisid ++ byts)).
Proof. exact Proofs.Nortek.checksum_spec. Qed.
Theorem C63_intact_refused_refuted : exists e thisid byts stored,
  Forall is_byte (thisid ++ byts) /\ 0 <= stored < 65536 /\ intact e thisid byts stored /\ checksum_passes e true thisid byts stored = false.
Proof.
  exists LE, [165; 16], [1; 2; 3; 4], (46476 + (4261 + (513 + (1027 + 0)))). repeat split; try reflexivity; try lia.
  repeat (constructor; [unfold is_byte; lia|]). constructor.
Qed.
Theorem C63_altered_accepted_refuted : forall e thisid byts stored, Nat.even (length byts) = true ->
  0 <= stored < 65536 -> 65536 <= 46476 + total (words e (thisid ++ byts)) -> checksum_passes e true thisid byts stored = true.
Proof.
  intros e thisid byts stored E S L. destruct (checksum_passes e true thisid byts stored) eqn:P; [reflexivity|].
  apply (proj1 (Proofs.Nortek.checksum_spec e thisid byts stored E)) in P. lia.
Qed.
Example C63_ex : exists stored, 65536 <= 46476 + total (words LE ([165; 16] ++ [1; 2; 255; 255])) /\
  ~ intact LE [165; 16] [1; 2; 255; 255] stored /\ checksum_passes LE true [165; 16] [1; 2; 255; 255] stored = true.
Proof. exists 7. repeat split; try reflexivity. vm_compute. discriminate. intros H. vm_compute in H. discriminate. Qed.

(** ** C64 *)
Theorem C64_little_endian_partial : forall file, Forall is_byte file ->
  detect_endian file = Some LE <-> exists rest, file = 165 :: 5 :: 24 :: 0 :: rest.
Proof. exact Proofs.Nortek.detect_le. Qed.
(** the big-endian header is looked for four bytes too late *)
Theorem C64_big_endian_partial : forall file, Forall is_byte file ->
  detect_endian file = Some BE <->
  (4 <= length file)%nat /\ (forall rest, file <> 165 :: 5 :: 24 :: 0 :: rest) /\
  exists a b c d rest, file = a :: b :: c :: d :: 5 :: 165 :: 0 :: 24 :: rest.
Proof. exact Proofs.Nortek.detect_be. Qed.
(** so a file that begins with that header is refused unless the header is there twice *)
Theorem C64_big_endian_refuted : forall rest, Forall is_byte rest -> (forall rest', rest <> 5 :: 165 :: 0 :: 24 :: rest') ->
  detect_endian (5 :: 165 :: 0 :: 24 :: rest) = None /\ detect_endian (165 :: 5 :: 0 :: 24 :: rest) = None.
Proof.
  intros rest B N.
  assert (D : forall a b, is_byte a -> is_byte b -> detect_endian (a :: b :: 0 :: 24 :: rest) = None).
  { intros a b Ha Hb. assert (F : Forall is_byte (a :: b :: 0 :: 24 :: rest)) by (repeat (constructor; [unfold is_byte in *; lia|]); exact B).
    pose proof (Proofs.Nortek.detect_le _ F) as L. pose proof (Proofs.Nortek.detect_be _ F) as G.
    destruct (detect_endian (a :: b :: 0 :: 24 :: rest)) as [[]|]; [| |reflexivity]; exfalso.
    - destruct (proj1 L eq_refl) as [r E]. injection E as _ _ E _. discriminate.
    - destruct (proj1 G eq_refl) as (_ & _ & p & q & r & s & t & E). injection E as _ _ _ _ E. exact (N t E). }
  split; apply D; unfold is_byte; lia.
Qed.
Example C64_ex : detect_endian [5; 165; 0; 24; 1; 2; 3; 4] = None /\ detect_endian [165; 5; 24; 0; 1; 2] = Some LE /\
  detect_endian [1; 2; 3; 4; 5; 165; 0; 24] = Some BE.
Proof. repeat split; reflexivity. Qed.

(** ** C65 *)
Theorem C65_next_start : forall e do_cs file p, Forall is_byte file ->
  match findnext e do_cs file p with
  | Some (q, id) => block_start e do_cs file p q id /\ (forall q' id', (q' < q)%nat -> ~ block_start e do_cs file p q' id')
  | None => forall q id, ~ block_start e do_cs file p q id
  end.
Proof. exact Proofs.Nortek.findnext_spec. Qed.
(** a block the reader does not know is passed over, to the block after it, unless something inside it
    looks like a checksum followed by a block *)
Theorem C65_unknown_block : forall e header id body c0 c1 id' rest,
  Forall is_byte (header ++ 165 :: id :: body ++ [c0; c1] ++ 165 :: id' :: rest) ->
  Nat.Even (length body) -> intact e [165; id] body (word e c0 c1) ->
  (forall q id'', (q < length header + length body + 4)%nat ->
     ~ block_start e true (header ++ 165 :: id :: body ++ [c0; c1] ++ 165 :: id' :: rest) (length header) q id'') ->
  findnext e true (header ++ 165 :: id :: body ++ [c0; c1] ++ 165 :: id' :: rest) (length header)
    = Some ((length header + length body + 4)%nat, id').
Proof. exact Proofs.Nortek.unknown_block. Qed.
Example C65_ex : findnext LE true ([1; 2; 3] ++ 165 :: 99 :: [165; 16] ++ [214; 41] ++ 165 :: 16 :: [9; 9]) 3 = Some (9%nat, 16) /\
  findnext LE false ([1; 2; 3] ++ 7 :: 99 :: [165; 16] ++ [9; 9]) 3 = Some (5%nat, 16) /\ findnext LE false [165; 1; 2] 1 = None /\
  intact LE [165; 99] [165; 16] (word LE 214 41).
Proof. repeat split; reflexivity. Qed.

(** ** C68 *)
Theorem C68_burst_mode_refuted : forall inverted, exists reg, 0 <= reg < 65536 /\ burst_mode (read_timctrl reg) <> xorb inverted (Z.testbit reg 2).
Proof.
  intros [].
  - exists 4. split; [lia|]. rewrite Proofs.Nortek.timctrl. discriminate.
  - exists 0. split; [lia|]. rewrite Proofs.Nortek.timctrl. discriminate.
Qed.
(** the fields beside it follow their bits *)
Theorem C68_other_fields_partial : forall reg,
  profile_mode (read_timctrl reg) = (if Z.testbit reg 1 then "continuous" else "single")%string /\
  power_level (read_timctrl reg) = Z.b2z (Z.testbit reg 5) + 2 * Z.b2z (Z.testbit reg 6) + 1 /\
  sync_out_pos (read_timctrl reg) = (if Z.testbit reg 7 then "end" else "middle")%string /\
  sample_on_sync (read_timctrl reg) = Z.testbit reg 8 /\ start_on_sync (read_timctrl reg) = Z.testbit reg 9.
Proof. intros reg. rewrite Proofs.Nortek.timctrl. repeat split; reflexivity. Qed.

(** ** C104 *)
(** a file of whole blocks, at its end at most a sample that was cut off: the samples are the velocity
    blocks in the order of the file, system data go with the sample after them, IMU data with the
    sample before them. The arrays have more entries than there are samples; the rest stays empty. *)
Theorem C104_samples_partial : forall e cs bins beams header bs tail n, cut_off tail ->
  Forall (vector_block e) bs -> Forall (verified (Reader e cs Vector bins beams None)) bs -> imu_after_velocity bs ->
  (length (samples bs) < n)%nat ->
  exists s, readfile (Reader e cs Vector bins beams None) (file_of header bs tail) (length header) n = Some s /\
    data s = map Some (samples bs) ++ repeat None (n - length (samples bs)) /\
    (forall pre b post, bs = pre ++ b :: post -> is_sys b = true -> none_before_velocity is_sys post = true ->
       nth (length (samples pre)) (sysd s) None = Some (body b)) /\
    (forall pre b post, bs = pre ++ b :: post -> is_imu b = true -> none_before_velocity is_imu post = true ->
       nth (length (samples pre) - 1) (imus s) None = Some (nth 3 (body b) 0, skipn 4 (body b))).
Proof. intros. apply Proofs.NortekFile.full_file; try assumption; reflexivity. Qed.
(** the number of entries is a guess; a guess that is too small makes reading raise *)
Theorem C104_small_guess_refuted : forall e cs bins beams header bs tail n,
  Forall (vector_block e) bs -> Forall (verified (Reader e cs Vector bins beams None)) bs -> imu_after_velocity bs ->
  (n < length (samples bs))%nat ->
  readfile (Reader e cs Vector bins beams None) (file_of header bs tail) (length header) n = None.
Proof. intros. apply Proofs.NortekFile.too_short; try assumption; reflexivity. Qed.

Local Definition v_ex (x : Z) : blk := Blk 16 (x :: repeat 0 19) [1; 2].
Local Definition s_ex : blk := Blk 17 ([9; 9] ++ [53; 0; 9; 18; 18; 2] ++ repeat 7 16) [1; 2].
Local Definition i_ex : blk := Blk 113 ([0; 0; 5; 211] ++ repeat 3 42) [1; 2].
Local Definition bs_ex : list blk := [v_ex 1; i_ex; s_ex; v_ex 2; i_ex; v_ex 3].
Local Definition r_ex : reader := Reader LE false Vector 1 3 None.
Local Lemma wf_ex : Forall (vector_block LE) bs_ex /\ (forall np, Forall (verified (Reader LE false Vector 1 3 np)) bs_ex) /\ imu_after_velocity bs_ex /\
  samples bs_ex = [body (v_ex 1); body (v_ex 2); body (v_ex 3)].
Proof.
  assert (V : forall x, vector_block LE (v_ex x)) by (intros x; left; split; reflexivity).
  assert (I : vector_block LE i_ex).
  { right; right; right; right; left. split; [reflexivity|]. exists 0, 0, 5, 211, (repeat 3 42). split; [reflexivity|]. right; right. split; reflexivity. }
  assert (Y : vector_block LE s_ex).
  { right; left. split; [reflexivity|]. split; [reflexivity|]. eexists. reflexivity. }
  split; [|split; [|split]].
  - exact (Forall_cons _ (V 1) (Forall_cons _ I (Forall_cons _ Y (Forall_cons _ (V 2) (Forall_cons _ I (Forall_cons _ (V 3) (Forall_nil _))))))).
  - intros np. apply Forall_forall. intros b Hb. exists 1, 2. split; [|left; reflexivity].
    repeat (destruct Hb as [<-|Hb]; [reflexivity|]). destruct Hb.
  - intros pre b post E Hi. destruct pre as [|p pre]; [injection E as <- _; discriminate|]. injection E as <- _. discriminate.
  - reflexivity.
Qed.
Example C104_ex : cut_off [165; 16; 1; 2] /\ Forall (vector_block LE) bs_ex /\ Forall (verified r_ex) bs_ex /\ imu_after_velocity bs_ex /\
  exists s, readfile r_ex (file_of [1; 2; 3] bs_ex [165; 16; 1; 2]) 3 4 = Some s /\
    data s = [Some (body (v_ex 1)); Some (body (v_ex 2)); Some (body (v_ex 3)); None] /\
    sysd s = [None; Some (body s_ex); None; None] /\ imus s = [Some (211, repeat 3 42); Some (211, repeat 3 42); None; None].
Proof.
  destruct wf_ex as (A & B & C & _). split; [right; exists [1; 2]; split; [reflexivity|cbn; lia]|].
  split; [exact A|]. split; [exact (B None)|]. split; [exact C|]. eexists. split; [vm_compute; reflexivity|]. repeat split; reflexivity.
Qed.

(** ** C67 *)
Theorem C67_first_n_partial : forall e cs bins beams header bs tail n k, cut_off tail ->
  Forall (vector_block e) bs -> Forall (verified (Reader e cs Vector bins beams None)) bs -> imu_after_velocity bs ->
  (length (samples bs) < n)%nat -> (0 < k <= length (samples bs))%nat ->
  exists s full, readfile (Reader e cs Vector bins beams (npings All)) (file_of header bs tail) (length header) n = Some full /\
    readfile (Reader e cs Vector bins beams (npings (First k))) (file_of header bs tail) (length header) n = Some s /\
    data s = firstn k (data full) /\ sysd s = firstn k (sysd full) /\ data s = map Some (firstn k (samples bs)).
Proof. intros e cs bins beams header bs tail n k. intros. apply (Proofs.NortekFile.first_n (Reader e cs Vector bins beams None)); try assumption; reflexivity. Qed.
(** the start of a range changes nothing: the samples returned begin with the first of the file *)
Theorem C67_range_ignores_start_partial : forall e cs bins beams header bs tail n start stop, cut_off tail ->
  Forall (vector_block e) bs -> Forall (verified (Reader e cs Vector bins beams None)) bs -> imu_after_velocity bs ->
  (length (samples bs) < n)%nat -> (0 < stop <= length (samples bs))%nat ->
  exists s, readfile (Reader e cs Vector bins beams (npings (Between start stop))) (file_of header bs tail) (length header) n = Some s /\
    data s = map Some (firstn stop (samples bs)).
Proof.
  intros e cs bins beams header bs tail n start stop A B C D E F.
  destruct (Proofs.NortekFile.first_n (Reader e cs Vector bins beams None) header bs tail n stop eq_refl eq_refl A B C D E F) as (s & full & _ & H & _ & _ & G).
  exists s. split; assumption.
Qed.
Theorem C67_range_refuted : exists header bs n start stop s,
  Forall (vector_block LE) bs /\ Forall (verified (Reader LE false Vector 1 3 None)) bs /\ imu_after_velocity bs /\
  (start < stop <= length (samples bs))%nat /\
  readfile (Reader LE false Vector 1 3 (npings (Between start stop))) (file_of header bs []) (length header) n = Some s /\
  data s <> map Some (firstn (stop - start) (skipn start (samples bs))).
Proof.
  destruct wf_ex as (A & B & C & E).
  destruct (C67_range_ignores_start_partial LE false 1 3 [1; 2; 3] bs_ex [] 4 1 2) as (s & H & G); try assumption.
  - left. cbn. lia.
  - exact (B None).
  - rewrite E. cbn. lia.
  - rewrite E. cbn. lia.
  - exists [1; 2; 3], bs_ex, 4%nat, 1%nat, 2%nat, s. split; [exact A|]. split; [exact (B None)|]. split; [exact C|].
    split; [rewrite E; cbn; lia|]. split; [exact H|]. rewrite G, E. discriminate.
Qed.
(** no samples at all can be asked for in a way that raises *)
Theorem C67_none_refuted : exists header bs, Forall (vector_block LE) bs /\
  readfile (Reader LE false Vector 1 3 (npings (First 0))) (file_of header bs []) (length header) 4 = None.
Proof. exists [1; 2; 3], bs_ex. split; [apply wf_ex|]. vm_compute. reflexivity. Qed.

(** ** C109 *)
(** wave blocks of an AWAC end the reading of the file with an exception, wherever they are *)
Theorem C109_waves_refuted : forall r header id rest n, id = 48 \/ id = 54 ->
  readfile r (header ++ 165 :: id :: rest) (length header) n = None.
Proof. exact Proofs.NortekFile.waves. Qed.
(** IMU message 210 is known but not read: the search for the next block starts in its middle, so that
    the checksum never fits, and the samples after it are lost *)
Local Definition i210 : blk := Blk 113 ([0; 0; 5; 210] ++ [3; 3]) [57; 252].
Theorem C109_imu_message_refuted : exists pre b post s, bid b = 113 /\ nth 3 (body b) 0 = 210 /\
  (exists c0 c1, ck b = [c0; c1] /\ intact LE [165; bid b] (body b) (word LE c0 c1)) /\
  Forall (vector_block LE) (pre ++ post) /\ samples (pre ++ b :: post) = [body (v_ex 1); body (v_ex 2); body (v_ex 3)] /\
  readfile r_ex (file_of [1; 2; 3] (pre ++ b :: post) []) 3 4 = Some s /\ data s = [Some (body (v_ex 1)); None; None; None].
Proof.
  exists [v_ex 1], i210, [v_ex 2; v_ex 3]. eexists. split; [reflexivity|]. split; [reflexivity|].
  split; [exists 57, 252; split; reflexivity|]. split.
  - assert (V : forall x, vector_block LE (v_ex x)) by (intros x; left; split; reflexivity).
    exact (Forall_cons _ (V 1) (Forall_cons _ (V 2) (Forall_cons _ (V 3) (Forall_nil _)))).
  - split; [reflexivity|]. split; [vm_compute; reflexivity|reflexivity].
Qed.
(** an IMU block before the first sample makes an empty sample *)
Theorem C109_imu_first_refuted : exists bs s, Forall (vector_block LE) bs /\ samples bs = [body (v_ex 1)] /\
  readfile r_ex (file_of [1; 2; 3] bs []) 3 4 = Some s /\ data s = [None; Some (body (v_ex 1)); None; None].
Proof.
  exists [i_ex; v_ex 1]. eexists. split.
  - destruct wf_ex as (A & _). unfold bs_ex in A. inversion A as [|? ? A1 A2]; subst. inversion A2 as [|? ? A3 A4]; subst.
    exact (Forall_cons _ A3 (Forall_cons _ A1 (Forall_nil _))).
  - split; [reflexivity|]. split; [vm_compute; reflexivity|reflexivity].
Qed.
End Blocks.

Section Values.
Import Verif.Model.Nortek Verif.Model.Gaps Verif.Model.NortekData Verif.Spec.Gaps Verif.Spec.NortekData.

(** ** C105 *)
Theorem C105_velocity_pressure : forall e scale x0 x1 pmsb x2 p0 p1 x3 x4 u0 u1 v0 v1 w0 w1 a0 a1 a2 c0 c1 c2 u v w p,
  holds_signed e u0 u1 u -> holds_signed e v0 v1 v -> holds_signed e w0 w1 w -> holds_unsigned e p0 p1 p ->
  exists d, decode_vec e scale [x0; x1; pmsb; x2; p0; p1; x3; x4; u0; u1; v0; v1; w0; w1; a0; a1; a2; c0; c1; c2] = Some d /\
    (Forall2 Qeq (v_vel d) [inject_Z u / 1000 * scale; inject_Z v / 1000 * scale; inject_Z w / 1000 * scale] /\
     v_pressure d == inject_Z (65536 * pmsb + p) / 1000)%Q /\ v_amp d = [a0; a1; a2] /\ v_corr d = [c0; c1; c2].
Proof.
  intros. eexists. split; [reflexivity|]. cbn [v_vel v_pressure v_amp v_corr].
  rewrite !(Proofs.NortekData.signed_holds e _ _ _ H), !(Proofs.NortekData.signed_holds e _ _ _ H0), !(Proofs.NortekData.signed_holds e _ _ _ H1).
  rewrite H2. split; [|split; reflexivity]. split.
  - repeat constructor; unfold Qdiv; change (/ 1000)%Q with (1 # 1000)%Q; reflexivity.
  - rewrite !inject_Z_plus, inject_Z_mult. unfold Qdiv. ring.
Qed.
Theorem C105_attitude_partial : forall e x0 x1 t0 t1 t2 t3 t4 t5 b0 b1 s0 s1 h0 h1 p0 p1 r0 r1 e0 e1 er st y0 y1 h p r b s temp,
  holds_signed e h0 h1 h -> holds_signed e p0 p1 p -> holds_signed e r0 r1 r -> holds_unsigned e b0 b1 b -> holds_unsigned e s0 s1 s ->
  holds_signed e e0 e1 temp -> 0 <= temp ->
  exists d, decode_sys e [x0; x1; t0; t1; t2; t3; t4; t5; b0; b1; s0; s1; h0; h1; p0; p1; r0; r1; e0; e1; er; st; y0; y1] = Some d /\
    (s_heading d == inject_Z h / 10 /\ s_pitch d == inject_Z p / 10 /\ s_roll d == inject_Z r / 10 /\
     s_batt d == inject_Z b / 10 /\ s_c_sound d == inject_Z s / 10 /\ s_temp d == inject_Z temp / 100)%Q /\
    s_status d = st /\ s_error d = er.
Proof.
  intros. eexists. split; [reflexivity|]. cbn [s_heading s_pitch s_roll s_batt s_c_sound s_temp s_status s_error].
  rewrite !(Proofs.NortekData.signed_holds e _ _ _ H), !(Proofs.NortekData.signed_holds e _ _ _ H0), !(Proofs.NortekData.signed_holds e _ _ _ H1).
  rewrite H2, H3. destruct H4 as [T1 T2]. rewrite T2, Z.mod_small by lia. repeat split; try reflexivity.
Qed.
(** temperatures below zero are read as unsigned *)
Theorem C105_temperature_refuted : forall e x0 x1 t0 t1 t2 t3 t4 t5 b0 b1 s0 s1 h0 h1 p0 p1 r0 r1 e0 e1 er st y0 y1 temp,
  holds_signed e e0 e1 temp -> temp < 0 ->
  exists d, decode_sys e [x0; x1; t0; t1; t2; t3; t4; t5; b0; b1; s0; s1; h0; h1; p0; p1; r0; r1; e0; e1; er; st; y0; y1] = Some d /\
    (s_temp d == inject_Z temp / 100 + inject_Z 65536 / 100)%Q.
Proof.
  intros. eexists. split; [reflexivity|]. cbn [s_temp]. destruct H as [T1 T2]. rewrite T2.
  rewrite <- (Z_mod_plus_full temp 1 65536), Z.mod_small by lia. change (temp + 1 * 65536) with (temp + 65536).
  rewrite inject_Z_plus. unfold Qdiv. change (/ 100)%Q with (1 # 100)%Q. ring.
Qed.
Example C105_ex : holds_signed LE 24 252 (-1000) /\ holds_unsigned BE 1 2 258 /\
  decode_vec LE (1 # 10) [1; 1; 1; 0; 16; 0; 0; 0; 24; 252; 232; 3; 0; 0; 5; 6; 7; 8; 9; 10] <> None.
Proof. repeat split; try (vm_compute; congruence). Qed.

(** ** C106 *)
Theorem C106_awac_partial : forall e bs x0 x1 t0 t1 t2 t3 t4 t5 e0 e1 y0 y1 b0 b1 c0 c1 h0 h1 p0 p1 r0 r1 pm st l0 l1 k0 k1 rest h p r tmp,
  bs = [x0; x1; t0; t1; t2; t3; t4; t5; e0; e1; y0; y1; b0; b1; c0; c1; h0; h1; p0; p1; r0; r1; pm; st; l0; l1; k0; k1] ++ rest ->
  holds_unsigned e h0 h1 h -> holds_signed e p0 p1 p -> holds_signed e r0 r1 r -> holds_signed e k0 k1 tmp ->
  0 <= p -> 0 <= r -> 0 <= tmp ->
  exists d, decode_awac e bs = Some d /\
    (a_heading d == inject_Z h / 10 /\ a_pitch d == inject_Z p / 10 /\ a_roll d == inject_Z r / 10 /\ a_temp d == inject_Z tmp / 100 /\
     a_pressure d == inject_Z (65536 * pm + word e l0 l1) / 1000)%Q.
Proof.
  intros. subst bs. eexists. split; [reflexivity|]. cbn [a_heading a_pitch a_roll a_temp a_pressure].
  destruct H1 as [P1 P2], H2 as [R1 R2], H3 as [K1 K2]. rewrite H0, P2, R2, K2, !Z.mod_small by lia. repeat split; reflexivity.
Qed.
(** pitch, roll and temperature below zero are read as unsigned *)
Theorem C106_negative_refuted : forall e bs x0 x1 t0 t1 t2 t3 t4 t5 e0 e1 y0 y1 b0 b1 c0 c1 h0 h1 p0 p1 r0 r1 pm st l0 l1 k0 k1 rest p r tmp,
  bs = [x0; x1; t0; t1; t2; t3; t4; t5; e0; e1; y0; y1; b0; b1; c0; c1; h0; h1; p0; p1; r0; r1; pm; st; l0; l1; k0; k1] ++ rest ->
  holds_signed e p0 p1 p -> holds_signed e r0 r1 r -> holds_signed e k0 k1 tmp -> p < 0 -> r < 0 -> tmp < 0 ->
  exists d, decode_awac e bs = Some d /\
    (a_pitch d == inject_Z (p + 65536) / 10 /\ a_roll d == inject_Z (r + 65536) / 10 /\ a_temp d == inject_Z (tmp + 65536) / 100)%Q.
Proof.
  intros. subst bs. eexists. split; [reflexivity|]. cbn [a_pitch a_roll a_temp].
  assert (M : forall x, -32768 <= x < 32768 -> x < 0 -> x mod 65536 = x + 65536) by (intros x A B; rewrite <- (Z_mod_plus_full x 1 65536), Z.mod_small by lia; reflexivity).
  destruct H0 as [P1 P2], H1 as [R1 R2], H2 as [K1 K2]. rewrite P2, R2, K2, !M by assumption. repeat split; reflexivity.
Qed.
(** the velocities: cell [j] of beam [k], counted in millimetres per second *)
Theorem C106_awac_velocity : forall e nbeams nbins bs k j b0 b1 v, (k < nbeams)%nat -> (j < nbins)%nat ->
  nth_error bs (116 + 2 * (k * nbins + j)) = Some b0 -> nth_error bs (117 + 2 * (k * nbins + j)) = Some b1 -> holds_signed e b0 b1 v ->
  exists x, nth_error (awac_vel e nbeams nbins bs k) j = Some x /\ (x == inject_Z v / 1000)%Q.
Proof. exact Proofs.NortekData.awac_velocity. Qed.
Example C106_ex : holds_signed LE 246 255 (-10) /\ (exists x, nth_error (awac_vel LE 3 2 (repeat 0 122 ++ [24; 252] ++ repeat 0 10) 1) 1 = Some x /\ (x == inject_Z (-1))%Q).
Proof. split; [split; [lia|reflexivity]|]. eexists. split; reflexivity. Qed.

(** ** C107 *)
(** three or more times in every burst, all of one clock: every sample gets the time of that clock *)
Theorem C107_clock_partial : forall fs n bs clocks, (0 < n)%nat -> Forall (fun b => length b = n) bs -> Forall2 keeps_clock bs clocks ->
  same_series (sample_times fs n (concat bs)) (concat (map (clock_reading n) clocks)).
Proof. exact Proofs.NortekData.burst_clocks. Qed.
Theorem C107_continuous_partial : forall fs t ab, keeps_clock t ab ->
  same_series (sample_times fs 0 t) (clock_reading (length t) ab).
Proof.
  intros fs t ab H. assert (NE : t <> []).
  { destruct H as (i0 & _ & _ & (v & V) & _). intros ->. unfold valid in V. destruct i0; discriminate. }
  rewrite (Proofs.NortekData.sample_times_continuous fs t NE).
  destruct H as (i0 & i & j & (v0 & V0) & L0 & Vi & L1 & Vj & H). apply (Proofs.NortekData.burst_line fs t (fst ab) (snd ab) i j); try assumption.
  - intros k v V _. apply (H k v V).
  - exists i0, v0. split; assumption.
Qed.
(** with two times, seconds are divided by the seconds of a day *)
Theorem C107_two_times_refuted : exists t, (forall k v, valid t k v -> v == inject_Z (Z.of_nat k))%Q /\
  (exists i j v w, (i < j)%nat /\ valid t i v /\ valid t j w) /\
  ~ same_series (sample_times 1 0 t) (clock_reading (length t) (0, 1)%Q).
Proof.
  exists [Some 0; Some 1; None]%Q. split; [|split].
  - intros k v H. destruct k as [|[|[|k]]]; unfold valid in H; cbn in H; try discriminate; [injection H as <-; reflexivity|injection H as <-; reflexivity|destruct k; discriminate].
  - exists 0%nat, 1%nat, 0%Q, 1%Q. repeat split; auto.
  - intros H. inversion H as [|? ? ? ? A _]; subst. vm_compute in A. discriminate.
Qed.
Example C107_ex : keeps_clock [Some 5; None; Some 6; None; Some 7]%Q (5, 1 # 2)%Q /\
  keeps_clock [Some 50; Some 51; None; None; Some 54]%Q (50, 1)%Q.
Proof.
  split; [exists 0%nat, 2%nat, 4%nat|exists 0%nat, 1%nat, 4%nat];
  (repeat split; try lia; try (eexists; reflexivity);
   intros k v H; destruct k as [|[|[|[|[|k]]]]]; unfold valid in H; cbn in H; try discriminate; try (injection H as <-; reflexivity); destruct k; discriminate).
Qed.

(** ** C108 *)
Theorem C108_down : forall status k, status_bit status k true -> nth k (orientation_down status) false = true.
Proof. exact Proofs.NortekData.down_true. Qed.
Theorem C108_up_partial : forall status k, status_bit status k false ->
  (forall m, (m < k)%nat -> nth_error status m = Some None) \/ (exists i, previous_status status k i /\ status_bit status i false) ->
  nth k (orientation_down status) false = false.
Proof. exact Proofs.NortekData.down_false. Qed.
(** the first sample with the bit cleared after it was set is still reported as down *)
Theorem C108_turn_refuted : forall status k i, status_bit status k false -> previous_status status k i -> status_bit status i true ->
  (k = length status - 1)%nat \/ status_bit status (S k) false -> nth k (orientation_down status) false = true.
Proof. exact Proofs.NortekData.down_wrong. Qed.
Theorem C108_length : forall status, length (orientation_down status) = length status.
Proof. exact Proofs.NortekData.orient_length. Qed.
Example C108_ex : status_bit [Some 1; None; Some 2; Some 0] 2 false /\ previous_status [Some 1; None; Some 2; Some 0] 2 0 /\
  status_bit [Some 1; None; Some 2; Some 0] 0 true /\ orientation_down [Some 1; None; Some 2; Some 0; Some 3] = [true; true; true; false; true].
Proof.
  split; [exists 2; split; reflexivity|]. split; [|split; [exists 1; split; reflexivity|vm_compute; reflexivity]].
  split; [lia|]. split; [exists 1; reflexivity|]. intros m Hm. assert (m = 1%nat) as -> by lia. reflexivity.
Qed.
End Values.

(** ** C66 *)
Section Imu.
Import Verif.Model.Linalg Verif.Model.Microstrain Verif.Spec.Linalg Verif.Spec.Motion.
Open Scope R_scope.
Theorem C66_rotation : exists Rot, proper_rotation Rot /\ forall v, is_vec 3 v -> remap_vec v = mv Rot v.
Proof. exact Proofs.Microstrain.remap_rotation. Qed.
(** the axes: x of the IMU is z of the instrument, y is y and z is minus x *)
Theorem C66_axes : forall x y z, remap_vec [x; y; z] = [- z; y; x].
Proof. exact Proofs.Microstrain.remap_axes. Qed.
Theorem C66_lengths_and_handedness : forall v w, is_vec 3 v -> is_vec 3 w ->
  dot3 (remap_vec v) (remap_vec w) = dot3 v w /\ cross (remap_vec v) (remap_vec w) = remap_vec (cross v w).
Proof. exact Proofs.Microstrain.remap_keeps. Qed.
Theorem C66_orientmat_orthonormal : forall M, orthonormal M -> orthonormal (remap_omat M).
Proof. exact Proofs.Microstrain.omat_orth. Qed.
Theorem C66_orientmat_proper : forall M, proper_rotation M -> proper_rotation (remap_omat M).
Proof. exact Proofs.Microstrain.omat_proper. Qed.
(** the matrix takes a vector given as east, north, up to the remapped vector that the matrix of the IMU
    makes of the same vector given as north, east, down *)
Theorem C66_orientmat_consistent : forall M north east down, is_mat 3 M ->
  mv (remap_omat M) [east; north; - down] = remap_vec (mv M [north; east; down]).
Proof. exact Proofs.Microstrain.omat_consistent. Qed.
(** messages 195 and 211 hold increments over a sample, message 204 rates; accelerations come in units of gravity *)
Theorem C66_units : forall id fs v, is_vec 3 v ->
  (id = 195%Z \/ id = 211%Z -> sci_angrt id fs v = map (Rmult fs) (remap_vec v) /\
     sci_accel id fs v = map (fun x => fs * (980665 / 100000) * x) (remap_vec v)) /\
  (id = 204%Z -> sci_angrt id fs v = remap_vec v /\ sci_accel id fs v = map (Rmult (980665 / 100000)) (remap_vec v)).
Proof. exact Proofs.Microstrain.scaled_rates. Qed.
Example C66_ex : proper_rotation [[1; 0; 0]; [0; 0; 1]; [0; -1; 0]] /\ is_vec 3 [1; 2; 3].
Proof.
  split; [|reflexivity]. split; [|unfold det3, entry; cbn; ring]. split; [split; [reflexivity|repeat constructor]|].
  intros i j Hi Hj. unfold dot3, column, entry, comp, kron.
  destruct i as [|[|[|i]]]; try lia; destruct j as [|[|[|j]]]; try lia; cbn; split; ring.
Qed.
End Imu.

(** All the theorems of this file, for one listing of axioms. *)
Definition all_theorems :=
  (@C62_digits,
   @C62_injective,
   @C62_at_most_99,
   @C63_refused_value_partial,
   @C63_intact_refused_refuted,
   @C63_altered_accepted_refuted,
   @C64_little_endian_partial,
   @C64_big_endian_partial,
   @C64_big_endian_refuted,
   @C65_next_start,
   @C65_unknown_block,
   @C68_burst_mode_refuted,
   @C68_other_fields_partial,
   @C104_samples_partial,
   @C104_small_guess_refuted,
   @C67_first_n_partial,
   @C67_range_ignores_start_partial,
   @C67_range_refuted,
   @C67_none_refuted,
   @C109_waves_refuted,
   @C109_imu_message_refuted,
   @C109_imu_first_refuted,
   @C105_velocity_pressure,
   @C105_attitude_partial,
   @C105_temperature_refuted,
   @C106_awac_partial,
   @C106_negative_refuted,
   @C106_awac_velocity,
   @C107_clock_partial,
   @C107_continuous_partial,
   @C107_two_times_refuted,
   @C108_down,
   @C108_up_partial,
   @C108_turn_refuted,
   @C108_length,
   @C66_rotation,
   @C66_axes,
   @C66_lengths_and_handedness,
   @C66_orientmat_orthonormal,
   @C66_orientmat_proper,
   @C66_orientmat_consistent,
   @C66_units).
Print Assumptions all_theorems.
