(** Proofs about Model.NortekHead. *)
From Coq Require Import String.
From Coq Require Import ZArith QArith Qreals Reals List Bool Lia Lra.
From Verif.Model Require Import Rotate.
From Verif.Spec Require Import Rotate.
From Verif.Model Require Import Nortek NortekFile ReadVector ReadAwac NortekEarth NortekHead.
From Verif.Model Require RdiBlocks Reduce.
From Verif.Spec Require Import Nortek NortekGuess NortekData ReadVector ReadAwac NortekEarth VectorEarth NortekHead.
From Verif.Proofs Require NortekEarth VectorEarth ReadAwac Reduce.
Import ListNotations.
Open Scope Z_scope.

(** ** unpack *)
Definition gives (i : item) : nat := match i with Skip _ => 0%nat | _ => 1%nat end.
Definition count (fmt : list item) : nat := list_sum (map gives fmt).
Lemma skipn_plus {A} m n (l : list A) : skipn n (skipn m l) = skipn (m + n) l.
Proof. revert l. induction m as [|m IH]; intros l; [reflexivity|]. destruct l as [|x l]; [rewrite !skipn_nil; reflexivity|]. exact (IH l). Qed.
Lemma items_app e pre post bs : items e (pre ++ post) bs = items e pre bs ++ items e post (skipn (fmt_size pre) bs).
Proof.
  revert bs. induction pre as [|i pre IH]; intros bs; [reflexivity|]. unfold fmt_size. cbn [map list_sum fold_right]. fold (list_sum (map item_size pre)). fold (fmt_size pre).
  rewrite <- skipn_plus. destruct i; cbn [app items item_size]; rewrite IH; reflexivity.
Qed.
Lemma items_count e fmt bs : length (items e fmt bs) = count fmt.
Proof.
  revert bs. induction fmt as [|i fmt IH]; intros bs; [reflexivity|]. unfold count. cbn [map list_sum fold_right]. fold (list_sum (map gives fmt)). fold (count fmt).
  destruct i; cbn [items gives length]; rewrite IH; reflexivity.
Qed.
Lemma nth_skip {A} n k (l : list A) d : nth k (skipn n l) d = nth (n + k) l d.
Proof. revert l. induction n as [|n IH]; intros l; [reflexivity|]. destruct l as [|x l]; [destruct k; reflexivity|]. exact (IH l). Qed.
Lemma num_item e pre post bs : num_at (items e (pre ++ Half :: post) bs) (count pre) = word e (nth (fmt_size pre) bs 0) (nth (S (fmt_size pre)) bs 0).
Proof.
  unfold num_at. rewrite items_app, app_nth2 by (rewrite items_count; lia). rewrite items_count, Nat.sub_diag. cbn [items nth].
  rewrite !nth_skip, Nat.add_0_r, Nat.add_1_r. reflexivity.
Qed.
Lemma str_item e pre n post bs : str_at (items e (pre ++ Text n :: post) bs) (count pre) = firstn n (skipn (fmt_size pre) bs).
Proof. unfold str_at. rewrite items_app, app_nth2 by (rewrite items_count; lia). rewrite items_count, Nat.sub_diag. reflexivity. Qed.

(** ** bytes of a block *)
(** what [unpack] gets: everything after sync and identifier, without the checksum *)
Definition inner (n : nat) (b : bytes) : bytes := firstn n (skipn 2 b).
Lemma inner_length n b : length b = (n + 4)%nat -> length (inner n b) = n.
Proof. intros L. unfold inner. rewrite firstn_length, skipn_length. lia. Qed.
Lemma nth_firstn {A} n k (l : list A) d : (k < n)%nat -> nth k (firstn n l) d = nth k l d.
Proof. revert k l. induction n as [|n IH]; intros k l H; [lia|]. destruct l as [|x l]; [reflexivity|]. destruct k; [reflexivity|]. cbn. apply IH. lia. Qed.
Lemma inner_nth n b k : (k < n)%nat -> nth k (inner n b) 0 = nth (k + 2) b 0.
Proof. intros H. unfold inner. rewrite nth_firstn by exact H. rewrite nth_skip. f_equal. lia. Qed.
Lemma unsigned_word b i v : unsigned_at LE b i v -> word LE (nth i b 0) (nth (S i) b 0) = v.
Proof. intros (b0 & b1 & E0 & E1 & H). rewrite (nth_error_nth b i 0 E0), (nth_error_nth b (S i) 0 E1). exact H. Qed.
Lemma num_in n b pre post i v : (S (fmt_size pre) < n)%nat -> (fmt_size pre + 2 = i)%nat -> unsigned_at LE b i v ->
  num_at (items LE (pre ++ Half :: post) (inner n b)) (count pre) = v.
Proof.
  intros L <- U. rewrite num_item, !inner_nth by lia. apply unsigned_word in U. rewrite Nat.add_succ_l. exact U.
Qed.
Lemma plain_decodes l : Forall (fun c => 0 <= c < 128) l -> decodes l = true.
Proof.
  unfold decodes. induction 1 as [|c l H _ IH]; [reflexivity|]. cbn [RdiBlocks.utf8]. destruct (Z.ltb_spec c 128); [exact IH|lia].
Qed.
Lemma plain_before l : Forall (fun c => 0 <= c < 128) l -> decodes (before_zero l) = true.
Proof.
  intros H. apply plain_decodes. induction H as [|c l H _ IH]; [constructor|]. cbn. destruct (c =? 0); [constructor|]. constructor; assumption.
Qed.
Lemma Forall_nth_some {A} (P : A -> Prop) l : (forall k, (k < length l)%nat -> exists x, nth_error l k = Some x /\ P x) -> Forall P l.
Proof.
  intros H. apply Forall_forall. intros x I. apply In_nth_error in I as (k & E).
  destruct (H k) as (y & E' & Py); [apply nth_error_Some; congruence|]. congruence.
Qed.
Lemma nth_error_firstn {A} n k (l : list A) : (k < n)%nat -> nth_error (firstn n l) k = nth_error l k.
Proof. revert k l. induction n as [|n IH]; intros k l H; [lia|]. destruct l as [|x l]; [reflexivity|]. destruct k; [reflexivity|]. cbn. apply IH. lia. Qed.
Lemma nth_error_skip {A} n k (l : list A) : nth_error (skipn n l) k = nth_error l (n + k).
Proof. revert l. induction n as [|n IH]; intros l; [reflexivity|]. destruct l as [|x l]; [destruct k; reflexivity|]. exact (IH l). Qed.
(** [m] bytes of the inner part, from [i] on *)
Lemma plain_inner n b i m : length b = (n + 4)%nat -> (i + m <= n)%nat -> plain_text b (i + 2) m ->
  Forall (fun c => 0 <= c < 128) (firstn m (skipn i (inner n b))).
Proof.
  intros L H P. apply Forall_nth_some. intros k K.
  rewrite firstn_length, skipn_length, inner_length in K by exact L.
  rewrite nth_error_firstn by lia. rewrite nth_error_skip. unfold inner. rewrite nth_error_firstn by lia. rewrite nth_error_skip.
  destruct (P (2 + (i + k))%nat) as (c & E & Hc); [lia|]. exists c. split; assumption.
Qed.

(** ** the blocks in the file *)
Lemma head_block_at {A} pre b post id n (f : bytes -> option A) : is_block id (n + 4) b ->
  head_block LE false (pre ++ b ++ post) (length pre) id n f = option_map (fun x => (x, (length pre + (n + 4))%nat)) (f (inner n b)).
Proof.
  intros (L & S). destruct b as [|b0 [|b1 b]]; try (cbn in S; discriminate S). cbn in S. injection S as -> ->. unfold head_block, read_id, take.
  assert (E : skipn (length pre) (pre ++ (165 :: id :: b) ++ post) = 165 :: id :: b ++ post).
  { rewrite skipn_app, skipn_all, Nat.sub_diag. reflexivity. }
  rewrite E. cbn [firstn length Nat.eqb]. rewrite Z.eqb_refl. cbn [fst snd]. rewrite (Z.eqb_refl id).
  assert (E2 : skipn (length pre + 2) (pre ++ (165 :: id :: b) ++ post) = b ++ post).
  { rewrite <- skipn_plus, E. reflexivity. }
  cbn [length] in L. rewrite E2, firstn_length, app_length.
  assert (M : Nat.min n (length b + length post) = n) by lia. rewrite M, Nat.eqb_refl.
  assert (I : inner n (165 :: id :: b) = firstn n (b ++ post)).
  { unfold inner. cbn [skipn]. rewrite firstn_app. replace (n - length b)%nat with 0%nat by lia. cbn [firstn]. rewrite app_nil_r. reflexivity. }
  rewrite I. destruct (f (firstn n (b ++ post))) as [x|]; [|reflexivity]. cbn [option_map]. do 2 f_equal. lia.
Qed.

(** ** the settings *)
Lemma unpack_inner fmt n b : fmt_size fmt = n -> length b = (n + 4)%nat -> unpack LE fmt (inner n b) = Some (items LE fmt (inner n b)).
Proof. intros E L. unfold unpack. rewrite (inner_length n b L), E, Nat.eqb_refl. reflexivity. Qed.
Lemma num_get pre post fmt n b k i v : fmt = pre ++ Half :: post -> count pre = k -> (S (fmt_size pre) < n)%nat -> (fmt_size pre + 2 = i)%nat ->
  unsigned_at LE b i v -> num_at (items LE fmt (inner n b)) k = v.
Proof. intros -> <-. apply num_in. Qed.
Lemma str_get pre m post fmt bs k i : fmt = pre ++ Text m :: post -> count pre = k -> fmt_size pre = i -> str_at (items LE fmt bs) k = firstn m (skipn i bs).
Proof. intros -> <- <-. apply str_item. Qed.

Lemma upper_case l m : Forall2 (fun c x => x = c \/ x = c + 32) l m -> Forall (fun c => 65 <= c <= 90) l -> map upper m = l.
Proof.
  induction 1 as [|c x l m H _ IH]; intros C; [reflexivity|]. inversion C; subst. cbn [map]. f_equal; [|apply IH; assumption].
  unfold upper. destruct (Z.leb_spec 97 x), (Z.leb_spec x 122); cbn [andb]; lia.
Qed.
Lemma read_hw_ok hw s head usr : says hw head usr s -> exists l, read_hw LE (inner 44 hw) = Some l /\ kind_of l = Some (s_kind s).
Proof.
  intros Y. destruct (sy_hw _ _ _ _ Y) as ((L & _) & _). destruct (sy_serial _ _ _ _ Y) as (l & I & E). destruct (sy_hw_text _ _ _ _ Y) as (T1 & T2 & T3).
  unfold read_hw. rewrite (unpack_inner hw_fmt 44 hw eq_refl L). cbv zeta.
  rewrite (str_get [Skip 2] 14 (repeat Half 6 ++ [Skip 12; Text 4]) hw_fmt (inner 44 hw) 0 2 eq_refl eq_refl eq_refl).
  rewrite (str_get ([Skip 2; Text 14] ++ repeat Half 6 ++ [Skip 12]) 4 [] hw_fmt (inner 44 hw) 7 40 eq_refl eq_refl eq_refl).
  assert (F1 : firstn 8 (firstn 14 (skipn 2 (inner 44 hw))) = firstn 8 (skipn 2 (inner 44 hw))) by (rewrite firstn_firstn; reflexivity).
  assert (F2 : skipn 10 (firstn 14 (skipn 2 (inner 44 hw))) = firstn 4 (skipn 12 (inner 44 hw))).
  { rewrite skipn_firstn_comm, skipn_plus. reflexivity. }
  rewrite F1, F2.
  rewrite (plain_decodes (firstn 8 (skipn 2 (inner 44 hw)))) by (apply plain_inner; [exact L|lia|exact T1]).
  rewrite (plain_decodes (firstn 4 (skipn 12 (inner 44 hw)))) by (apply plain_inner; [exact L|lia|exact T2]).
  rewrite (plain_decodes (firstn 4 (skipn 40 (inner 44 hw)))) by (apply (plain_inner 44 hw 40 4); [exact L|lia|exact T3]).
  eexists. split; [reflexivity|]. unfold kind_of. rewrite firstn_firstn. change (Nat.min 3 8) with 3%nat.
  assert (X : firstn 3 (skipn 2 (inner 44 hw)) = firstn 3 (skipn 4 hw)).
  { unfold inner. rewrite skipn_firstn_comm, skipn_plus, firstn_firstn. reflexivity. }
  rewrite X. assert (U : map upper (firstn 3 (skipn 4 hw)) = l).
  { apply (upper_case _ _ E). cbn [letters In] in I. destruct I as [I|[I|[]]]; injection I as <- _; repeat constructor; lia. }
  rewrite U. cbn [letters In] in I. destruct I as [I|[I|[]]]; injection I as <- <-; reflexivity.
Qed.

Lemma words_list e l k : (2 * k + 1 < length l)%nat -> nth_error (words e l) k = Some (word e (nth (2 * k) l 0) (nth (S (2 * k)) l 0)).
Proof.
  revert l. induction k as [|k IH]; intros l H; destruct l as [|a [|b l]]; cbn [length] in H; try lia; [reflexivity|].
  cbn [words nth_error]. rewrite IH by lia. replace (2 * S k)%nat with (S (S (2 * k))) by lia. reflexivity.
Qed.
Lemma words_length e l n : length l = (2 * n)%nat -> length (words e l) = n.
Proof.
  revert l. induction n as [|n IH]; intros l H; destruct l as [|a [|b l]]; cbn [length] in H; try lia; [reflexivity|]. cbn [words length]. rewrite IH by lia. reflexivity.
Qed.
Lemma signed_back v : -32768 <= v < 32768 -> signed (v mod 65536) = v.
Proof.
  intros H. unfold signed. destruct (Z.ltb_spec v 0).
  - rewrite <- (Z.mod_add v 1 65536), Z.mul_1_l by lia. rewrite Z.mod_small by lia. destruct (Z.ltb_spec (v + 65536) 32768); lia.
  - rewrite Z.mod_small by lia. destruct (Z.ltb_spec v 32768); lia.
Qed.
Lemma signed_word b i v : signed_at LE b i v -> signed (word LE (nth i b 0) (nth (S i) b 0)) = v.
Proof. intros (b0 & b1 & E0 & E1 & H & W). rewrite (nth_error_nth b i 0 E0), (nth_error_nth b (S i) 0 E1), W. apply signed_back, H. Qed.
Lemma list_ext {A} (l m : list A) : length l = length m -> (forall k x, nth_error m k = Some x -> nth_error l k = Some x) -> l = m.
Proof.
  revert m. induction l as [|a l IH]; intros [|b m] L H; try discriminate L; [reflexivity|].
  pose proof (H 0%nat b eq_refl) as E. cbn in E. injection E as ->. f_equal. apply IH; [cbn in L; lia|]. intros k x E. apply (H (S k) x E).
Qed.
Lemma read_head_ok hw head usr s : says hw head usr s -> read_head LE (inner 220 head) = Some (s_freq s, map (map (fun x => inject_Z x / 4096)%Q) (s_matrix s)).
Proof.
  intros Y. destruct (sy_head _ _ _ _ Y) as (L & _). destruct (sy_matrix _ _ _ _ Y) as (a & b & c & d & e & f & g & h & i & M & W).
  unfold read_head. rewrite (unpack_inner head_fmt 220 head eq_refl L). cbn [option_map]. f_equal.
  rewrite (num_get [Skip 2; Half] [Half; Text 12; Text 176; Text 22; Half] head_fmt 220 head 1 6 (s_freq s) eq_refl eq_refl ltac:(cbn; lia) eq_refl (sy_freq _ _ _ _ Y)). f_equal.
  rewrite (str_get [Skip 2; Half; Half; Half; Text 12] 176 [Text 22; Half] head_fmt (inner 220 head) 4 20 eq_refl eq_refl eq_refl).
  set (bs := firstn 18 (skipn 8 (firstn 176 (skipn 20 (inner 220 head))))).
  assert (B : bs = firstn 18 (skipn 28 (inner 220 head))).
  { unfold bs. rewrite skipn_firstn_comm, skipn_plus, firstn_firstn. reflexivity. }
  assert (BL : length bs = 18%nat) by (rewrite B, firstn_length, skipn_length, (inner_length 220) by exact L; reflexivity).
  assert (WS : map signed (words LE bs) = [a; b; c; d; e; f; g; h; i]).
  { apply list_ext; [rewrite map_length; apply (words_length LE bs 9 BL)|]. intros k x E.
    assert (K : (k < 9)%nat) by (change 9%nat with (length [a; b; c; d; e; f; g; h; i]); apply nth_error_Some; congruence).
    rewrite nth_error_map, words_list by lia. cbn [option_map]. f_equal. rewrite B, !nth_firstn by lia. rewrite !nth_skip, !inner_nth by lia.
    replace (28 + 2 * k + 2)%nat with (30 + 2 * k)%nat by lia. replace (28 + S (2 * k) + 2)%nat with (S (30 + 2 * k)) by lia.
    apply signed_word. apply (W k x E). }
  unfold matrix_of. cbv zeta. rewrite <- (map_map signed (fun x => (inject_Z x / 4096)%Q)), WS, M. reflexivity.
Qed.
Lemma bit_four m : nth 4 (int2binarray m 16) false = Z.testbit m 4.
Proof.
  change (nth 4 (int2binarray m 16) false) with (negb (Z.land m (2 ^ 4) =? 0)).
  destruct (Z.testbit m 4) eqn:E.
  - apply negb_true_iff, Z.eqb_neq. intros H. assert (X : Z.testbit (Z.land m (2 ^ 4)) 4 = true) by (rewrite Z.land_spec, E, Z.pow2_bits_true by lia; reflexivity).
    rewrite H, Z.testbit_0_l in X. discriminate X.
  - apply negb_false_iff, Z.eqb_eq. apply Z.bits_inj'. intros n Hn. rewrite Z.land_spec, Z.testbit_0_l. destruct (Z.eq_dec n 4) as [->|N]; [rewrite E; reflexivity|].
    rewrite Z.pow2_bits_false by lia. apply andb_false_r.
Qed.
Lemma read_user_ok hw head usr s : says hw head usr s -> exists axes, frame_of axes = s_frame s /\
  read_user LE (inner 508 usr) = Some (User (s_blank s) (s_interval s) (s_beams s) axes (s_bins s) (s_length s) (if s_fine s then 1 # 10 else 1)%Q (s_burst s)).
Proof.
  intros Y. destruct (sy_usr _ _ _ _ Y) as (L & _). destruct (sy_usr_text _ _ _ _ Y) as (T1 & T2). destruct (sy_method _ _ _ _ Y) as (m & M1 & M2).
  destruct (sy_frame _ _ _ _ Y) as (n & N1 & N2). destruct (sy_mode _ _ _ _ Y) as (w & W1 & W2). destruct (sy_interval _ _ _ _ Y) as (I1 & _).
  unfold read_user. rewrite (unpack_inner user_fmt 508 usr eq_refl L).
  assert (G : forall k pre post i v, user_fmt = pre ++ Half :: post -> count pre = k -> (S (fmt_size pre) < 508)%nat -> (fmt_size pre + 2 = i)%nat ->
    unsigned_at LE usr i v -> num_at (items LE user_fmt (inner 508 usr)) k = v) by (intros k pre post i v; apply num_get).
  assert (A : forall q, skipn q user_fmt = hd Half (skipn q user_fmt) :: tl (skipn q user_fmt) -> user_fmt = firstn q user_fmt ++ hd Half (skipn q user_fmt) :: tl (skipn q user_fmt)).
  { intros q E. rewrite <- E. symmetry. apply firstn_skipn. }
  assert (U : forall q k i v, skipn q user_fmt = Half :: tl (skipn q user_fmt) -> count (firstn q user_fmt) = k -> Nat.ltb (S (fmt_size (firstn q user_fmt))) 508 = true ->
    (fmt_size (firstn q user_fmt) + 2 = i)%nat -> unsigned_at LE usr i v -> num_at (items LE user_fmt (inner 508 usr)) k = v).
  { intros q k i v E C S P. apply (G k (firstn q user_fmt) (tl (skipn q user_fmt)) i v); [|exact C|apply Nat.ltb_lt; exact S|exact P].
    rewrite <- E. symmetry. apply firstn_skipn. }
  assert (V : forall q t k i, skipn q user_fmt = Text t :: tl (skipn q user_fmt) -> count (firstn q user_fmt) = k -> fmt_size (firstn q user_fmt) = i ->
    str_at (items LE user_fmt (inner 508 usr)) k = firstn t (skipn i (inner 508 usr))).
  { intros q t k i E C P. apply (str_get (firstn q user_fmt) t (tl (skipn q user_fmt))); [|exact C|exact P]. rewrite <- E. symmetry. apply firstn_skipn. }
  rewrite (U 15%nat 14%nat 32%nat n eq_refl eq_refl eq_refl eq_refl N1).
  rewrite (V 19%nat 6%nat 18%nat 38%nat eq_refl eq_refl eq_refl), (V 124%nat 80%nat 123%nat 254%nat eq_refl eq_refl eq_refl).
  rewrite (U 126%nat 124%nat 384%nat m eq_refl eq_refl eq_refl eq_refl M1).
  rewrite (U 2%nat 1%nat 6%nat _ eq_refl eq_refl eq_refl eq_refl (sy_blank _ _ _ _ Y)).
  rewrite (U 7%nat 6%nat 16%nat _ eq_refl eq_refl eq_refl eq_refl I1).
  rewrite (U 8%nat 7%nat 18%nat _ eq_refl eq_refl eq_refl eq_refl (sy_beams _ _ _ _ Y)).
  rewrite (U 16%nat 15%nat 34%nat _ eq_refl eq_refl eq_refl eq_refl (sy_bins _ _ _ _ Y)).
  rewrite (U 17%nat 16%nat 36%nat _ eq_refl eq_refl eq_refl eq_refl (sy_length _ _ _ _ Y)).
  rewrite (U 25%nat 24%nat 58%nat w eq_refl eq_refl eq_refl eq_refl W1), bit_four, W2.
  rewrite (U 135%nat 131%nat 452%nat _ eq_refl eq_refl eq_refl eq_refl (sy_burst _ _ _ _ Y)).
  rewrite (plain_before (firstn 6 _)) by (apply (plain_inner 508 usr 38 6); [exact L|lia|exact T1]).
  rewrite (plain_before (firstn 80 _)) by (apply (plain_inner 508 usr 254 80); [exact L|lia|exact T2]).
  destruct (Z.ltb_spec m 5); [|lia]. cbn [andb].
  cbn [frames In] in N2. destruct N2 as [N2|[N2|[N2|[]]]]; injection N2 as <- <-; cbn [Z.to_nat Pos.to_nat Pos.iter_op Nat.add nth_error]; eexists; (split; [|reflexivity]); reflexivity.
Qed.
Lemma is_le hw rest : is_block 5 48 hw -> unsigned_at LE hw 2 24 -> detect_endian (hw ++ rest) = Some LE.
Proof.
  intros (L & S) (b2 & b3 & E2 & E3 & W). destruct hw as [|b0 [|b1 [|c2 [|c3 hw]]]]; try discriminate L. cbn in E2, E3, S. injection E2 as ->. injection E3 as ->. injection S as -> ->.
  unfold detect_endian. cbn [app firstn unpack_HH]. unfold is_hw_header. cbn [fst snd]. unfold holds_unsigned in W. rewrite W. reflexivity.
Qed.
Theorem opened_as hw head usr s nens rest : says hw head usr s -> exists axes, frame_of axes = s_frame s /\
  open_nortek false nens (hw ++ head ++ usr ++ rest) =
  Some (Opened (reader_of s nens) (configured s) (s_frame s) (s_freq s)
          (User (s_blank s) (s_interval s) (s_beams s) axes (s_bins s) (s_length s) (if s_fine s then 1 # 10 else 1)%Q (s_burst s)) (length (hw ++ head ++ usr))).
Proof.
  intros Y. destruct (read_user_ok _ _ _ _ Y) as (axes & FA & RU). exists axes. split; [exact FA|].
  destruct (sy_hw _ _ _ _ Y) as (B1 & W). pose proof (sy_head _ _ _ _ Y) as B2. pose proof (sy_usr _ _ _ _ Y) as B3.
  destruct (read_hw_ok _ _ _ _ Y) as (l & RH & K). pose proof (read_head_ok _ _ _ _ Y) as RE.
  unfold open_nortek. rewrite (is_le hw _ B1 W).
  pose proof (head_block_at [] hw (head ++ usr ++ rest) 5 44 (read_hw LE) B1) as E1. cbn [app length Nat.add] in E1. rewrite E1, RH. cbn [option_map]. clear E1.
  destruct B1 as (L1 & _). pose proof (head_block_at hw head (usr ++ rest) 4 220 (read_head LE) B2) as E2. rewrite L1 in E2. change (44 + 4)%nat with 48%nat. rewrite E2, RE. cbn [option_map]. clear E2.
  destruct B2 as (L2 & _). pose proof (head_block_at (hw ++ head) usr rest 0 508 (read_user LE) B3) as E3. rewrite app_length, L1, L2 in E3. rewrite <- app_assoc in E3.
  change (48 + (220 + 4))%nat with (48 + 224)%nat. rewrite E3, RU. cbn [option_map]. clear E3. rewrite K.
  destruct (sy_interval _ _ _ _ Y) as (_ & P). unfold rate_of. cbn [u_interval]. destruct (Z.eqb_spec (s_interval s) 0); [lia|]. cbn [option_map u_bins u_beams u_burst u_scale u_axes].
  destruct B3 as (L3 & _). rewrite FA, !app_length, L1, L2, L3. reflexivity.
Qed.

(** ** From the first byte *)
Lemma matrix_reals s : reals (g_beam2inst (configured s)) = map (map (fun x => IZR x / 4096)%R) (s_matrix s).
Proof.
  unfold reals, configured. cbn [g_beam2inst]. rewrite map_map. apply map_ext. intros row. rewrite map_map. apply map_ext. intros x.
  unfold Qdiv. rewrite Q2R_mult, (Q2R_inv 4096) by discriminate. unfold inject_Z, Q2R. cbn [Qnum Qden]. rewrite Rinv_1, !Rmult_1_r. reflexivity.
Qed.
Lemma scaled_metres s v : scaled (configured s) v = map (fun x => (if s_fine s then IZR x / 10000 else IZR x / 1000)%R) v.
Proof.
  unfold scaled, configured. cbn [g_scale]. apply map_ext. intros x. destruct (s_fine s); unfold Q2R; cbn [Qnum Qden]; field_simplify; lra.
Qed.
Lemma in_file hw head usr bs tail : file_of (hw ++ head ++ usr) bs tail = hw ++ head ++ usr ++ (concat (map bytes_of bs) ++ tail).
Proof. unfold file_of. rewrite <- !app_assoc. reflexivity. Qed.
Lemma a_frame hw head usr s : says hw head usr s -> In (s_frame s) ["beam"; "inst"; "earth"]%string.
Proof. intros Y. destruct (sy_frame _ _ _ _ Y) as (n & _ & I). cbn [frames In] in I |- *. destruct I as [E|[E|[E|[]]]]; injection E as _ <-; tauto. Qed.
Lemma freq_known f : known_frequency f -> exists c, Reduce.awac_coef f = Some c.
Proof. intros I. cbn in I. destruct I as [<-|[<-|[<-|[<-|[]]]]]; eexists; reflexivity. Qed.
Lemma freq_coef f c : In (f, c) coefficients -> Reduce.awac_coef f = Some c.
Proof. intros I. cbn [coefficients In] in I. destruct I as [E|[E|[E|[E|[]]]]]; injection E as <- <-; reflexivity. Qed.

Lemma awac_from_start hw head usr s bs tail : says hw head usr s -> s_kind s = Awac -> s_beams s = 3%Z -> known_frequency (s_freq s) ->
  awac_file LE false (Z.to_nat (s_bins s)) (hw ++ head ++ usr) bs tail (configured s) -> no_configuration bs ->
  forall nan u, exists D d',
  read_nortek nan None u false None (file_of (hw ++ head ++ usr) bs tail) = Some (Ok D) /\
  declination D = u /\ coord_sys D = s_frame s /\ rotate2 D "earth" = Ok d' /\
  forall i b h p r j v down, profile_at LE (Z.to_nat (s_bins s)) bs i b h p r j v -> points_down b down ->
    s_frame s = "earth"%string \/ (down = false /\ (0 <= p)%Z /\ (0 <= r)%Z) ->
    value d' "vel" i j = Some (turned u (to_earth (s_frame s) (map (map (fun x => IZR x / 4096)%R) (s_matrix s)) down (tenths h) (tenths p) (tenths r) (metres v))).
Proof.
  intros Y K B3 KF F _ nan u.
  destruct (Proofs.NortekEarth.awac_as_read LE false _ _ _ _ _ F nan (s_frame s) u (a_frame _ _ _ _ Y)) as (D & d' & E1 & E2 & E3 & E4 & V).
  exists D, d'. split; [|repeat (split; [assumption|]); rewrite (matrix_reals s) in V].
  - unfold read_nortek. rewrite in_file at 1. destruct (opened_as hw head usr s None (concat (map bytes_of bs) ++ tail) Y) as (axes & _ & ->).
    cbn [o_reader o_freq o_cfg o_frame o_start]. unfold reader_of. rewrite K, B3. cbn [rinst]. destruct (freq_known _ KF) as (c & ->). exact E1.
  - intros i b h p r j v down P _ C. rewrite (V i b h p r j v P). destruct C as [->|(-> & Hp & Hr)]; [reflexivity|].
    destruct P as (_ & (_ & (p0 & p1 & _ & _ & Rp & _) & (r0 & r1 & _ & _ & Rr & _)) & _ & _). rewrite !Proofs.NortekEarth.tenths_positive by lia. reflexivity.
Qed.
Lemma vector_from_start hw head usr s bs tail clock down : says hw head usr s -> s_kind s = Vector ->
  plain_vector (reader_of s None) (configured s) (hw ++ head ++ usr) bs tail clock down -> no_configuration bs ->
  forall nan u, exists D d',
  read_nortek nan None u false None (file_of (hw ++ head ++ usr) bs tail) = Some (Ok D) /\
  declination D = u /\ coord_sys D = s_frame s /\ rotate2 D "earth" = Ok d' /\
  (forall k h p rl, attitude_at LE bs k h p rl -> turned_with s bs down u d' k (tenths h) (tenths p) (tenths rl)) /\
  (forall i j k h p rl h' p' rl', attitude_at LE bs i h p rl -> attitude_at LE bs j h' p' rl' -> (i < k < j)%nat ->
     (forall m, (i < m < j)%nat -> no_sys_at bs m) -> ~ (clock i == clock j)%Q ->
     let w := passed clock i j k in turned_with s bs down u d' k (between w h h') (between w p p') (between w rl rl')) /\
  (forall i k h p rl, attitude_at LE bs i h p rl -> (i <= k)%nat -> (forall m, (i < m)%nat -> no_sys_at bs m) ->
     turned_with s bs down u d' k (tenths h) (tenths p) (tenths rl)).
Proof.
  intros Y K F _ nan u.
  destruct (Proofs.VectorEarth.vector_as_read _ _ _ _ _ _ _ F nan (s_frame s) u (a_frame _ _ _ _ Y)) as (D & d' & E1 & E2 & E3 & E4 & V).
  cbv zeta in V. rewrite (matrix_reals s) in V. destruct V as (V1 & V2 & V3 & _).
  exists D, d'. split; [|repeat (split; [assumption|])].
  - unfold read_nortek. rewrite in_file at 1. destruct (opened_as hw head usr s None (concat (map bytes_of bs) ++ tail) Y) as (axes & _ & ->).
    cbn [o_reader o_freq o_cfg o_frame o_start]. change (rinst (reader_of s None)) with (s_kind s). rewrite K. exact E1.
  - split; [|split].
    + intros k h p rl A v SA. rewrite <- scaled_metres. exact (V1 k h p rl A v SA).
    + intros i j k h p rl h' p' rl' A A' KK N C w v SA. rewrite <- scaled_metres. exact (V2 i j k h p rl h' p' rl' A A' KK N C v SA).
    + intros i k h p rl A KK N v SA. rewrite <- scaled_metres. exact (V3 i k h p rl A KK N v SA).
Qed.
Lemma unsigned_nonneg b i v : Forall is_byte b -> unsigned_at LE b i v -> 0 <= v.
Proof.
  intros F (b0 & b1 & E0 & E1 & W). rewrite Forall_forall in F. pose proof (F _ (nth_error_In _ _ E0)). pose proof (F _ (nth_error_In _ _ E1)).
  unfold holds_unsigned, word in W. unfold is_byte in *. lia.
Qed.
Lemma ranges_from_start hw head usr s bs tail coef : says hw head usr s -> s_kind s = Awac -> s_beams s = 3%Z -> In (s_freq s, coef) coefficients ->
  awac_file LE false (Z.to_nat (s_bins s)) (hw ++ head ++ usr) bs tail (configured s) -> no_configuration bs ->
  exists r cell blank, read_ranges false None (file_of (hw ++ head ++ usr) bs tail) = Some (r, cell, blank) /\
    Z.of_nat (length r) = s_bins s /\ (forall k x, nth_error r k = Some x -> x = blank + (INR k + 1) * cell)%R /\
    (Rabs (cell - IZR (s_length s) / 256 * coef * cos (25 * (PI / 180))) <= 1 / 200)%R /\
    (Rabs (blank - (IZR (s_blank s) * (229 / 10000) * cos (25 * (PI / 180)) - cell)) <= 1 / 200)%R.
Proof.
  intros Y K B3 C F _. pose proof (sy_bytes _ _ _ _ Y) as BY. apply Forall_app in BY as (_ & BY). apply Forall_app in BY as (_ & BY).
  pose proof (unsigned_nonneg _ _ _ BY (sy_bins _ _ _ _ Y)). pose proof (unsigned_nonneg _ _ _ BY (sy_length _ _ _ _ Y)). pose proof (unsigned_nonneg _ _ _ BY (sy_blank _ _ _ _ Y)).
  destruct (Proofs.Reduce.awac_ok (s_freq s) coef (Z.to_nat (s_bins s)) (Z.to_nat (s_length s)) (Z.to_nat (s_blank s)) (freq_coef _ _ C)) as (cell & blank & E & E1 & E2).
  exists (Reduce.nortek_range (Z.to_nat (s_bins s)) cell blank), cell, blank.
  replace (Linalg.deg2rad 25) with (25 * (PI / 180))%R in E1, E2 by (unfold Linalg.deg2rad; field).
  rewrite INR_IZR_INZ, Z2Nat.id in E1, E2 by assumption.
  split; [|split; [|split; [|split; assumption]]].
  - unfold read_ranges. rewrite in_file at 1. destruct (opened_as hw head usr s None (concat (map bytes_of bs) ++ tail) Y) as (axes & _ & ->).
    cbn [o_reader o_freq o_cfg o_start o_user u_bin_length u_blank]. unfold reader_of. rewrite K, B3. cbn [rinst rbins].
    destruct F as [F1 F2 F3 [F4 F5] F6 F7 F8 F9 F10 F11].
    destruct (Proofs.ReadAwac.awac_file LE false (Z.to_nat (s_bins s)) 3 _ bs tail (configured s) F1 F2 F3 (le_n 3) F4 F6 F7 F8 F9 ltac:(lia) F11) as (d & R & _).
    change (Z.to_nat 3) with 3%nat. rewrite R. exact E.
  - unfold Reduce.nortek_range. rewrite map_length, seq_length, Z2Nat.id by assumption. reflexivity.
  - intros k x. unfold Reduce.nortek_range. rewrite nth_error_map. destruct (nth_error (seq 0 _) k) as [i|] eqn:N; [|discriminate]. cbn [option_map]. intros X. injection X as <-.
    assert (i = k).
    { assert (L : (k < Z.to_nat (s_bins s))%nat) by (rewrite <- (seq_length (Z.to_nat (s_bins s)) 0); apply nth_error_Some; congruence).
      apply (nth_error_nth _ _ 0%nat) in N. rewrite seq_nth in N by exact L. lia. }
    subst i. ring.
Qed.
Lemma unknown_frequency hw head usr s rest nens nan M u : says hw head usr s -> s_kind s = Awac -> ~ known_frequency (s_freq s) ->
  read_nortek nan M u false nens (hw ++ head ++ usr ++ rest) = None.
Proof.
  intros Y K N. unfold read_nortek. destruct (opened_as hw head usr s nens rest Y) as (axes & _ & ->). cbn [o_reader o_freq]. unfold reader_of. rewrite K. cbn [rinst].
  unfold Reduce.awac_coef.
  destruct (Z.eqb_spec (s_freq s) 2000) as [E|_]; [exfalso; apply N; rewrite E; cbn; tauto|].
  destruct (Z.eqb_spec (s_freq s) 1000) as [E|_]; [exfalso; apply N; rewrite E; cbn; tauto|].
  destruct (Z.eqb_spec (s_freq s) 600) as [E|_]; [exfalso; apply N; rewrite E; cbn; tauto|].
  destruct (Z.eqb_spec (s_freq s) 400) as [E|_]; [exfalso; apply N; rewrite E; cbn; tauto|reflexivity].
Qed.
