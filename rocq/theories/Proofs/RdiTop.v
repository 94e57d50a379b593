(** Lemmas about Model.RdiFile: what a file gives. *)
From Coq Require Import String.
From Coq Require Import ZArith QArith Qround List Bool Lia.
From Verif.Model Require Import Nortek RdiBlocks RdiFile.
From Verif.Model Require Ad2cp.
From Verif.Spec Require Rdi.
From Verif.Proofs Require Import RdiBlocks RdiEns RdiFile RdiValues RdiCount.
Import ListNotations.
Open Scope string_scope.
Open Scope list_scope.
Open Scope Z_scope.

Lemma all_but_last n xs last m : 0 < n -> Rdi.sound n last -> Forall (Rdi.sound n) xs -> xs <> [] -> 0 < m ->
  exists cols s, read_rdi (Rdi.file_of (xs ++ [last])) (Some m) false false = Ret (cols, s) /\ Z.of_nat (length cols) = Z.min m (Z.of_nat (length xs)).
Proof.
  intros N La H Ne M. destruct (read_all n xs last m N La H Ne M) as (cols & s & E & (vars & C) & _). exists cols, s. split; [exact E|].
  rewrite (columns_length _ _ _ _ _ C), firstn_length. lia.
Qed.
Lemma single n e k : Rdi.sound n e -> read_rdi (Rdi.file_of [e]) k false false = Raise "No header in this file".
Proof.
  intros So. unfold read_rdi, init, read_hdr. change (pos (start false false)) with 0. unfold Rdi.file_of. cbn [map concat]. rewrite app_nil_r.
  rewrite (search_last (Rdi.encode e) 0 e n None Logic.I So) by (exists []; now split). reflexivity.
Qed.

Lemma nth_firstn {A} (l : list A) : forall i k, (i < k)%nat -> nth_error (firstn k l) i = nth_error l i.
Proof. induction l as [|a l IH]; intros i k H; [now rewrite firstn_nil|]. destruct k; [lia|]. destruct i; [reflexivity|]. cbn. apply IH. lia. Qed.
Lemma nth_len {A} (l : list A) i a k : nth_error l i = Some a -> (i < k)%nat -> (i < length (firstn k l))%nat.
Proof. intros H L. apply nth_error_Some. rewrite nth_firstn by exact L. congruence. Qed.

Section Read.
Context (n : Z) (xs : list Rdi.pd0) (last : Rdi.pd0) (m : Z) (cols : list column) (s : st) (i : nat) (x : Rdi.pd0) (fixed : bytes) (rest : list (Z * bytes)).
Context (N : 0 < n) (La : Rdi.sound n last) (So : Forall (Rdi.sound n) xs).
Context (E : read_rdi (Rdi.file_of (xs ++ [last])) (Some m) false false = Ret (cols, s)).
Context (X : nth_error xs i = Some x) (I : Z.of_nat i < m) (Bl : Rdi.blocks x = (0, fixed) :: rest).
Lemma the_column : exists e vars c, nth_error cols i = Some c /\ (forall nm, In nm (map fst (effects (fx fixed) rest)) -> In nm vars) /\
  c = Col (clock (after n fixed rest e)) (map (fun nm => (nm, get (after n fixed rest e) nm)) vars).
Proof.
  assert (Ne : xs <> []) by (intros ->; destruct i; discriminate).
  destruct (read_all n xs last m N La So Ne ltac:(lia)) as (cols' & s' & E' & (vars & C) & _). rewrite E in E'. injection E' as <- <-.
  pose proof (nth_len xs i x (Z.to_nat m) X ltac:(lia)) as L. rewrite <- (columns_length _ _ _ _ _ C) in L. apply nth_error_Some in L.
  destruct (nth_error cols i) as [c|] eqn:K; [|congruence].
  destruct (columns_nth n _ _ _ _ i x c C) as (f' & r' & e' & v' & B' & V' & Ec); [rewrite nth_firstn by lia; exact X|exact K|].
  rewrite Bl in B'. injection B' as <- <-. exists e', v', c. split; [reflexivity|]. split; [exact V'|exact Ec].
Qed.
Lemma sound_x : Rdi.sound n x.
Proof. rewrite Forall_forall in So. apply So. eapply nth_error_In. exact X. Qed.
Lemma value_at nm f data : In (Rdi.f_id f, data) rest -> In (nm, f) (Rdi.variables (Rdi.block_bytes (0, fixed))) ->
  nth_error (variable cols nm) i = Some (Some (Rdi.field_value f (Rdi.block_bytes (Rdi.f_id f, data)))).
Proof.
  intros Hd T. destruct the_column as (e & vars & c & K & V & Ec). unfold variable. rewrite (map_nth_error _ _ _ K). f_equal.
  exact (column_value n x fixed rest e vars c sound_x Bl V Ec nm f data Hd T).
Qed.
Lemma number_at data : In (128, data) rest ->
  nth_error (variable cols "number") i = Some (Some [Some (inject_Z (Rdi.uint (Rdi.block_bytes (128, data)) 3 2 + 65535 * Rdi.uint (Rdi.block_bytes (128, data)) 12 1))]).
Proof.
  intros Hd. destruct the_column as (e & vars & c & K & V & Ec). unfold variable. rewrite (map_nth_error _ _ _ K). f_equal.
  exact (column_number n x fixed rest e vars c sound_x Bl V Ec data Hd).
Qed.
Lemma range_at data : In (1536, data) rest -> exists l, nth_error (variable cols "dist_bt") i = Some (Some l) /\ length l = 4%nat /\
  forall beam, (beam < 4)%nat -> exists q, nth_error l beam = Some (Some q) /\ Qeq q (Rdi.range_bt (Rdi.block_bytes (0, fixed)) (Rdi.block_bytes (1536, data)) beam).
Proof.
  intros Hd. destruct the_column as (e & vars & c & K & V & Ec). destruct (column_range n x fixed rest e vars c sound_x Bl V Ec data Hd) as (l & L & R).
  exists l. split; [|exact R]. unfold variable. rewrite (map_nth_error _ _ _ K). f_equal. exact L.
Qed.
Lemma time_at data : In (128, data) rest -> Rdi.year_sound (Rdi.block_bytes (0, fixed)) (Rdi.block_bytes (128, data)) ->
  nth_error (map ctime cols) i = Some (Rdi.time_of (Rdi.block_bytes (0, fixed)) (Rdi.block_bytes (128, data))).
Proof.
  intros Hd Y. destruct the_column as (e & vars & c & K & V & Ec). rewrite (map_nth_error _ _ _ K). f_equal.
  exact (column_clock n x fixed rest e vars c sound_x Bl Ec data Hd Y).
Qed.
End Read.

(** a block that is missing *)
Lemma table_names fixed nm f : In (nm, f) (Rdi.variables fixed) -> In nm (names_of (Rdi.f_id f)) /\ nm <> "rtc".
Proof.
  intros H. unfold Rdi.variables in H. apply in_app_or in H. destruct H as [H|H].
  - cbn [In] in H. repeat (destruct H as [H|H]; [injection H as <- <-; split; [cbn; tauto|discriminate]|]). destruct H.
  - destruct (_ && _); [|destruct H]. cbn [In] in H. destruct H as [H|[H|[]]]; injection H as <- <-; (split; [cbn; tauto|discriminate]).
Qed.
Lemma missing_block n xs last m cols s i x1 x2 fixed rest nm f data : 0 < n -> Rdi.sound n last -> Forall (Rdi.sound n) xs ->
  read_rdi (Rdi.file_of (xs ++ [last])) (Some m) false false = Ret (cols, s) ->
  nth_error xs i = Some x1 -> nth_error xs (S i) = Some x2 -> Z.of_nat i + 1 < m -> Rdi.blocks x1 = (0, fixed) :: rest ->
  In (Rdi.f_id f, data) rest -> In (nm, f) (Rdi.variables (Rdi.block_bytes (0, fixed))) -> ~ In (Rdi.f_id f) (map fst (Rdi.blocks x2)) ->
  nth_error (variable cols nm) (S i) = Some (Some (Rdi.field_value f (Rdi.block_bytes (Rdi.f_id f, data)))).
Proof.
  intros N La So E X1 X2 M Bl Hd T Mi. pose proof (value_at n xs last m cols s i x1 fixed rest N La So E X1 ltac:(lia) Bl nm f data Hd T) as V.
  assert (Ne : xs <> []) by (intros ->; destruct i; discriminate).
  destruct (read_all n xs last m N La So Ne ltac:(lia)) as (cols' & s' & E' & (vars & C) & _). rewrite E in E'. injection E' as <- <-.
  unfold variable in *. destruct (nth_error cols i) as [c1|] eqn:K1.
  2: { exfalso. apply nth_error_None in K1. rewrite (proj2 (nth_error_None _ _)) in V; [discriminate|]. rewrite map_length. exact K1. }
  pose proof (nth_len xs (S i) x2 (Z.to_nat m) X2 ltac:(lia)) as L. rewrite <- (columns_length _ _ _ _ _ C) in L. apply nth_error_Some in L.
  destruct (nth_error cols (S i)) as [c2|] eqn:K2; [|congruence].
  rewrite (map_nth_error _ _ _ K1) in V. injection V as V. rewrite (map_nth_error _ _ _ K2). f_equal. rewrite <- V.
  destruct (table_names _ _ _ T) as [Nm Nr].
  assert (Sf : Forall (Rdi.sound n) (firstn (Z.to_nat m) xs)).
  { apply Forall_forall. intros z Hz. rewrite Forall_forall in So. apply So. rewrite <- (firstn_skipn (Z.to_nat m) xs). apply in_or_app. now left. }
  apply (column_missing n _ _ _ _ i x1 x2 c1 c2 nm (Rdi.f_id f) C Sf); try assumption; try (rewrite nth_firstn by lia; assumption). congruence.
Qed.

(** the whole file *)
Lemma whole_file n xs last len : 0 < n -> Rdi.sound n last -> Z.of_nat (length (Rdi.encode last)) = len -> 400 <= len ->
  Forall (fun y => Rdi.sound n y /\ Rdi.quiet y /\ Z.of_nat (length (Rdi.encode y)) = len) xs -> xs <> [] ->
  exists cols s, read_rdi (Rdi.file_of (xs ++ [last])) None false false = Ret (cols, s) /\ length cols = length xs.
Proof.
  intros N La Ll L H Ne. assert (Lx : (1 <= length xs)%nat) by (destruct xs; [congruence|cbn; lia]).
  pose proof (estimate_enough (Z.of_nat (length xs) + 1) len ltac:(lia) L) as Es.
  destruct (read_none n xs last len N La Ll H Ne ltac:(lia)) as (cols & s & E & vars & C). exists cols, s. split; [exact E|].
  rewrite (columns_length _ _ _ _ _ C), firstn_length. lia.
Qed.
Lemma short_lost n x m : 0 < n -> Rdi.sound n x -> Rdi.quiet x -> length (Rdi.encode x) = 102%nat -> (70 <= m)%nat ->
  exists cols s, read_rdi (Rdi.file_of (repeat x m)) None false false = Ret (cols, s) /\ (length cols < m - 1)%nat.
Proof.
  intros N So Q L M. destruct m as [|m]; [lia|]. assert (Er : repeat x (S m) = repeat x m ++ [x]).
  { clear. induction m as [|m IH]; [reflexivity|]. cbn [repeat app] in *. now rewrite <- IH. }
  rewrite Er. pose proof (estimate_short (Z.of_nat m + 1) ltac:(lia)) as Es.
  destruct (read_none n (repeat x m) x 102 N So) as (cols & s & E & vars & C).
  - rewrite L. reflexivity.
  - apply Forall_forall. intros y Y. apply repeat_spec in Y. subst y. rewrite L. repeat split; try assumption; apply So.
  - destruct m; [lia|discriminate].
  - rewrite repeat_length. lia.
  - exists cols, s. split; [exact E|]. rewrite (columns_length _ _ _ _ _ C), firstn_length, !repeat_length. lia.
Qed.

(** the settings are those of the last ensemble read *)
Lemma settings_at n xs last m cols s i x fixed rest : 0 < n -> Rdi.sound n last -> Forall (Rdi.sound n) xs ->
  read_rdi (Rdi.file_of (xs ++ [last])) (Some m) false false = Ret (cols, s) -> nth_error xs i = Some x -> length cols = S i ->
  Rdi.blocks x = (0, fixed) :: rest -> 0 < m ->
  (forall nm v, In (nm, v) (Rdi.settings (Rdi.block_bytes (0, fixed))) -> lookup nm (attributes s) = Some v) /\
  range_coordinate s = map (fun k => (inject_Z (Rdi.uint (Rdi.block_bytes (0%Z, fixed)) 33 2) * (1 # 100) + inject_Z (Z.of_nat k) * (inject_Z (Rdi.uint (Rdi.block_bytes (0%Z, fixed)) 13 2) * (1 # 100)))%Q) (seq 0 (Z.to_nat n)).
Proof.
  intros N La So E X L B M. assert (Ne : xs <> []) by (intros ->; destruct i; discriminate).
  destruct (read_all n xs last m N La So Ne M) as (cols' & s' & E' & (vars & C) & xs0 & x' & fixed' & rest' & F & B' & S' & e & Ee & En). rewrite E in E'. injection E' as <- <-.
  pose proof (columns_length _ _ _ _ _ C) as Lc. rewrite F, app_length in Lc. cbn [length] in Lc. assert (L0 : length xs0 = i) by lia.
  assert (Ex : x' = x).
  { assert (Hn : nth_error (firstn (Z.to_nat m) xs) i = Some x').
    { rewrite F, nth_error_app2 by lia. rewrite L0, Nat.sub_diag. reflexivity. }
    rewrite nth_firstn in Hn; [congruence|]. assert (Hl : (i < length (firstn (Z.to_nat m) xs))%nat) by (rewrite F, app_length; cbn [length]; lia).
    rewrite firstn_length in Hl. lia. }
  subst x'. rewrite B in B'. injection B' as <- <-.
  assert (Cn : Rdi.uint (fx fixed) 10 1 = n).
  { rewrite Forall_forall in So. destruct (Rdi.has_fixed n x (So x (nth_error_In _ _ X))) as (fixed' & rest' & B' & _ & Cs & _). rewrite B in B'. injection B' as <- <-. exact Cs. }
  split.
  - intros nm v H. unfold attributes. rewrite Ee, En. cbn [lookup]. destruct (String.eqb "n_cells" nm) eqn:E0; [|now apply S'].
    apply String.eqb_eq in E0. subst nm. pose proof (S' _ _ H) as H1.
    assert (H2 : lookup "n_cells" (scfg s) = Some (CZ (Rdi.uint (fx fixed) 10 1))) by (apply S'; unfold Rdi.settings; apply in_or_app; left; cbn; tauto).
    rewrite H1 in H2. injection H2 as ->. now rewrite Cn.
  - unfold range_coordinate. rewrite Ee, En.
    assert (H1 : lookup "bin1_dist_m" (scfg s) = Some (CQ (inject_Z (Rdi.uint (fx fixed) 33 2) * (1 # 100)))) by (apply S'; unfold Rdi.settings; apply in_or_app; left; do 22 right; now left).
    assert (H2 : lookup "cell_size" (scfg s) = Some (CQ (inject_Z (Rdi.uint (fx fixed) 13 2) * (1 # 100)))) by (apply S'; unfold Rdi.settings; apply in_or_app; left; do 8 right; now left).
    rewrite H1, H2. reflexivity.
Qed.

(** the navigation of VMDAS *)
Lemma vmdas_block file s e data : ens s = Some e -> ek e = -1 \/ ek e = 0 -> Rdi.lies_at file (pos s) data -> (76 <= length data)%nat ->
  Rdi.navigation_dates (Rdi.block_bytes (8192, data)) = true ->
  exists s' e', read_dat file 8192 s = Ret (true, s') /\ ens s' = Some e' /\ pos s' = pos s + 76 /\
    forall nm f, In (nm, f) Rdi.navigation -> get e' nm = Rdi.field_value f (Rdi.block_bytes (8192, data)).
Proof.
  intros En K A L D. unfold read_dat, read_known. cbn [Z.eqb Pos.eqb]. unfold read_vmdas. cbn [ens with_cfg]. rewrite En. cbn [or_raise bind pos with_vars with_source with_cfg].
  rewrite (parse_at _ _ _ data A); [|cbn; repeat split; lia|exact L]. cbn [bind].
  set (raw := pp vmdas_items 0 data).
  assert (D' : valid_date (vmdas_utc raw) && valid_date (vmdas_adcp raw) = true).
  { rewrite <- D. unfold Rdi.navigation_dates, vmdas_utc, vmdas_adcp, raw, raws. cbn [pp lookup vmdas_items String.eqb Ascii.eqb Bool.eqb Nat.add Nat.mul Ad2cp.ksize Z.to_nat Pos.to_nat Pos.iter_op].
    rewrite !(values_int _ 8192). unfold int_of. cbn [map seq nth Ad2cp.ksigned Ad2cp.ksize Nat.add Nat.mul].
    assert (U : forall o, Rdi.uint (Rdi.block_bytes (8192, data)) o 2 = Rdi.uint (Rdi.block_bytes (8192, data)) o 1 + Rdi.uint (Rdi.block_bytes (8192, data)) (S o) 1 * 256 \/ o = 0%nat).
    { intros o. destruct o as [|o]; [now right|left]. unfold Rdi.uint. cbn [seq map total fold_right]. replace (S (S o) - 1 + 0)%nat with (S o - 1 + 1)%nat by lia. change (256 ^ Z.of_nat 0) with 1. change (256 ^ Z.of_nat 1) with 256. lia. }
    destruct (U 5%nat) as [U5|U5]; [|discriminate]. destruct (U 55%nat) as [U6|U6]; [|discriminate]. rewrite U5, U6. reflexivity. }
  rewrite D', (k_fine e K). cbn [check bind]. eexists. eexists. split; [reflexivity|]. split; [reflexivity|]. split; [reflexivity|].
  intros nm f H. rewrite puts_vals. unfold get. cbn [vals e_cells]. rewrite lookup_app.
  unfold Rdi.navigation in H. cbn [In] in H.
  repeat (destruct H as [H|H]; [injection H as <- <-; unfold vmdas_values; cbn [rev app lookup String.eqb Ascii.eqb Bool.eqb];
    unfold raw, raws; cbn [pp lookup vmdas_items String.eqb Ascii.eqb Bool.eqb Nat.add Nat.mul Ad2cp.ksize Z.to_nat Pos.to_nat Pos.iter_op]; rewrite (scaled_field _ _ 8192); reflexivity|]).
  destruct H.
Qed.

(** ** Instances *)
Lemma bytes_b l : forallb (fun b => (0 <=? b) && (b <? 256)) l = true -> Forall Rdi.is_byte l.
Proof. intros H. apply Forall_forall. intros b B. rewrite forallb_forall in H. specialize (H b B). apply andb_prop in H. destruct H as [H1 H2]. split; [now apply Z.leb_le|now apply Z.ltb_lt]. Qed.
Lemma nodup_b (l : list Z) : NoDup l <-> (forallb (fun p => p) (map (fun i => negb (existsb (Z.eqb (nth i l 0)) (skipn (S i) l))) (seq 0 (length l))) = true).
Proof.
  induction l as [|a l IH]; [split; [reflexivity|constructor]|]. cbn [length seq map forallb nth skipn]. rewrite <- seq_shift, map_map. rewrite andb_true_iff. cbn [nth skipn] in *. rewrite NoDup_cons_iff, IH, negb_true_iff.
  assert (E : existsb (Z.eqb a) l = false <-> ~ In a l).
  { split.
    - intros H I. assert (X : existsb (Z.eqb a) l = true) by (apply existsb_exists; exists a; split; [exact I|apply Z.eqb_refl]). congruence.
    - intros H. destruct (existsb (Z.eqb a) l) eqn:X; [|reflexivity]. exfalso. apply existsb_exists in X. destruct X as (y & Y & Ey). apply Z.eqb_eq in Ey. subst. now apply H. }
  rewrite E. reflexivity.
Qed.
Definition block_b (fixed : bytes) (b : Z * bytes) : bool :=
  match Rdi.least_length fixed (fst b) with Some n => n <=? Rdi.len (Rdi.block_bytes b) | None => false end.
Definition sound_b (n : Z) (e : Rdi.pd0) : bool :=
  match Rdi.blocks e with
  | (0, fixed) :: rest =>
    let f := Rdi.block_bytes (0, fixed) in
    (Rdi.fixed_length (Rdi.firmware f) <=? Rdi.len f) && negb (Rdi.uint f 6 1 mod 4 =? 3) && negb (Rdi.uint f 5 1 mod 8 =? 7) && (Rdi.uint f 7 1 <? 2) &&
    (Rdi.cells f =? n) && existsb (Z.eqb 128) (map fst rest) && forallb (block_b f) rest
  | _ => false
  end && forallb (fun p => p) (map (fun i => negb (existsb (Z.eqb (nth i (map fst (Rdi.blocks e)) 0)) (skipn (S i) (map fst (Rdi.blocks e))))) (seq 0 (length (map fst (Rdi.blocks e))))) &&
  (Rdi.len (Rdi.blocks e) <? 256) && (Rdi.nbytes e <? 32768) && Nat.eqb (length (Rdi.reserved e)) 2 && Nat.eqb (length (Rdi.checksum e)) 2 &&
  forallb (fun b => (0 <=? b) && (b <? 256)) ([Rdi.spare e] ++ Rdi.reserved e ++ Rdi.checksum e) &&
  forallb (fun b => (0 <=? fst b) && (fst b <? 65536) && forallb (fun b => (0 <=? b) && (b <? 256)) (snd b)) (Rdi.blocks e).
Lemma sound_from_b n e : sound_b n e = true -> Rdi.sound n e.
Proof.
  unfold sound_b. intros H. repeat (apply andb_prop in H; destruct H as [H ?H]).
  constructor.
  - destruct (Rdi.blocks e) as [|[[| |] fixed] rest]; try discriminate. exists fixed, rest. split; [reflexivity|].
    repeat (apply andb_prop in H; destruct H as [H ?H]). split; [|split; [now apply Z.eqb_eq|split]].
    + split; [now apply Z.leb_le|]. split; [apply Z.eqb_neq; now apply negb_true_iff|]. split; [apply Z.eqb_neq; now apply negb_true_iff|now apply Z.ltb_lt].
    + match goal with H : existsb _ _ = true |- _ => apply existsb_exists in H; destruct H as (y & Y & Ey); apply Z.eqb_eq in Ey; now subst end.
    + apply Forall_forall. intros b B. match goal with H : forallb (block_b _) _ = true |- _ => rewrite forallb_forall in H; specialize (H b B); unfold block_b in H end.
      unfold Rdi.sound_block. destruct (Rdi.least_length _ _) as [m|]; [|discriminate]. exists m. split; [reflexivity|now apply Z.leb_le].
  - now apply nodup_b.
  - now apply Z.ltb_lt.
  - now apply Z.ltb_lt.
  - now apply Nat.eqb_eq.
  - now apply Nat.eqb_eq.
  - match goal with H : forallb _ (_ ++ _) = true |- _ => apply bytes_b in H; apply Forall_app in H; destruct H as [Ha Hb]; apply Forall_app in Hb end.
    split; [exact (Forall_inv Ha)|]. split; [apply Hb|]. split; [apply Hb|].
    apply Forall_forall. intros b B. match goal with H : forallb _ (Rdi.blocks e) = true |- _ => rewrite forallb_forall in H; specialize (H b B); apply andb_prop in H; destruct H as [Hc Hd]; apply andb_prop in Hc; destruct Hc as [Hc He] end.
    split; [split; [now apply Z.leb_le|now apply Z.ltb_lt]|now apply bytes_b].
Qed.
Lemma quiet_from_b e : (2 <= length (Rdi.encode e))%nat -> forallb (fun b => negb (b =? 127)) (skipn 2 (Rdi.encode e)) = true -> Rdi.quiet e.
Proof.
  intros L H i j Hi Hj E. assert (Ei : i = length (Rdi.encode e)).
  { destruct (Nat.lt_ge_cases i (length (Rdi.encode e))) as [Lt|Ge].
    - exfalso. rewrite app_nth1 in E by exact Lt. rewrite forallb_forall in H. specialize (H (nth i (Rdi.encode e) 0)).
      assert (I : In (nth i (Rdi.encode e) 0) (skipn 2 (Rdi.encode e))).
      { replace i with (2 + (i - 2))%nat by lia. rewrite <- nth_skipn_Z. apply nth_In. rewrite skipn_length. lia. }
      specialize (H I). rewrite E in H. discriminate.
    - destruct (Nat.eq_dec i (length (Rdi.encode e))); [assumption|]. exfalso. rewrite nth_overflow in E by (rewrite app_length; cbn [length]; lia). discriminate. }
  rewrite nth_overflow by (rewrite app_length; cbn [length]; lia). discriminate.
Qed.

(** ** Angles *)
Lemma uint_bound b w : Forall Rdi.is_byte b -> forall first, 0 <= Rdi.uint b first w < 256 ^ Z.of_nat w.
Proof.
  intros B first. unfold Rdi.uint. assert (G : forall k o, 0 <= total (map (fun j => nth (first - 1 + j) b 0 * 256 ^ Z.of_nat j) (seq o k)) <= 256 ^ Z.of_nat (o + k) - 256 ^ Z.of_nat o).
  { induction k as [|k IH]; intros o; [cbn [seq map total fold_right]; rewrite Nat.add_0_r; lia|]. cbn [seq map total fold_right].
    specialize (IH (S o)). fold (total (map (fun j => nth (first - 1 + j) b 0 * 256 ^ Z.of_nat j) (seq (S o) k))). replace (o + S k)%nat with (S o + k)%nat by lia.
    assert (N : Rdi.is_byte (nth (first - 1 + o) b 0)).
    { destruct (Nat.lt_ge_cases (first - 1 + o) (length b)) as [Lt|Ge]; [rewrite Forall_forall in B; apply B; now apply nth_In|rewrite nth_overflow by exact Ge; unfold Rdi.is_byte; lia]. }
    unfold Rdi.is_byte in N. assert (P : 256 ^ Z.of_nat (S o) = 256 * 256 ^ Z.of_nat o) by (rewrite Nat2Z.inj_succ, Z.pow_succ_r by lia; reflexivity).
    assert (Q : 0 < 256 ^ Z.of_nat o) by (apply Z.pow_pos_nonneg; lia). nia. }
  specialize (G w 0%nat). change (256 ^ Z.of_nat 0) with 1 in G. cbn [Nat.add] in G. lia.
Qed.
Lemma sint_bound b first : Forall Rdi.is_byte b -> -2147483648 <= Rdi.sint b first 4 < 2147483648.
Proof.
  intros B. pose proof (uint_bound b 4 B first) as U. unfold Rdi.sint. change (256 ^ Z.of_nat 4) with 4294967296 in *. destruct (2 * _ <? _) eqn:E; [apply Z.ltb_lt in E|apply Z.ltb_ge in E]; lia.
Qed.
Lemma longitude long1 long2 qual : 0 <= long1 < 65536 -> 0 <= long2 < 65536 -> qual <> 0 -> long1 + 65536 * long2 <> 0 ->
  exists q k, lon_of long1 long2 qual = Some q /\ (-180 < q /\ q <= 180)%Q /\ (q == inject_Z (long1 + 65536 * long2) * (180 # 2147483648) + inject_Z k * 360)%Q.
Proof.
  intros H1 H2 Hq Hz. unfold lon_of. rewrite (proj2 (Z.eqb_neq _ _) Hq). set (w := long1 + 65536 * long2) in *. unfold cfac, qz.
  assert (B : 0 < w < 4294967296) by lia.
  destruct (Qle_bool (inject_Z w * (180 # 2147483648)) 180) eqn:E.
  - apply Qle_bool_iff in E. exists (inject_Z w * (180 # 2147483648))%Q, 0. split; [|split; [split; [|exact E]|ring]].
    + unfold nonzero. destruct (Qeq_bool _ 0) eqn:Z0; [|reflexivity]. apply Qeq_bool_iff in Z0. unfold Qeq, Qmult, inject_Z in Z0. cbn [Qnum Qden] in Z0. lia.
    + unfold Qlt, Qmult, inject_Z. cbn [Qnum Qden]. lia.
  - assert (E' : (180 < inject_Z w * (180 # 2147483648))%Q) by (apply Qnot_le_lt; intros X; apply Qle_bool_iff in X; congruence).
    exists (inject_Z w * (180 # 2147483648) - 360)%Q, (-1). unfold Qlt, Qmult, inject_Z in E'. cbn [Qnum Qden] in E'. split; [|split; [split|change (inject_Z (-1)) with (-1)%Q; ring]].
    + unfold nonzero. destruct (Qeq_bool _ 0) eqn:Z0; [|reflexivity]. apply Qeq_bool_iff in Z0. unfold Qeq, Qminus, Qplus, Qopp, Qmult, inject_Z in Z0. cbn [Qnum Qden] in Z0. lia.
    + unfold Qlt, Qminus, Qplus, Qopp, Qmult, inject_Z. cbn [Qnum Qden]. lia.
    + unfold Qle, Qminus, Qplus, Qopp, Qmult, inject_Z. cbn [Qnum Qden]. lia.
Qed.

(** ** Positions in the bottom track blocks of WinRiver *)
Definition bottom_front : list item :=
  [Skip 2; Rd "long1" Ad2cp.U16 1; Skip 6; Rd "lat" Ad2cp.S32 1; Rd "dist_bt" Ad2cp.U16 4; Rd "vel_bt" Ad2cp.S16 4; Rd "corr_bt" Ad2cp.U8 4; Rd "amp_bt" Ad2cp.U8 4;
   Rd "prcnt_gd_bt" Ad2cp.U8 4; Skip 2; Rd "long2" Ad2cp.U16 1; Skip 16; Rd "qual" Ad2cp.U8 1].
Lemma bottom_split : bottom_items true = bottom_front ++ [Skip (-7)]. Proof. reflexivity. Qed.
Lemma extra_parse file p pv w x : at_ file p x -> (19 <= length x)%nat -> exists raw q, parse file (bottom_extra pv w) p = Ret (raw, q).
Proof.
  intros A L. eexists. eexists. apply (parse_at file (bottom_extra pv w) p x A).
  - unfold bottom_extra. destruct (Qle_bool (53 # 10) pv), (Qle_bool (162 # 10) pv && negb w), (Qle_bool (561 # 10) pv); cbn; repeat split; lia.
  - unfold bottom_extra. destruct (Qle_bool (53 # 10) pv), (Qle_bool (162 # 10) pv && negb w), (Qle_bool (561 # 10) pv); cbn; lia.
Qed.
Lemma msb_names raw raw2 : map fst (bottom_values2 raw raw2) = [] \/ map fst (bottom_values2 raw raw2) = ["dist_bt"].
Proof. unfold bottom_values2. destruct (lookup "range_msb" raw2); [right|left]; reflexivity. Qed.
Lemma winriver_block file s e data pv : ens s = Some e -> ek e = -1 \/ ek e = 0 -> Rdi.lies_at file (pos s) data -> (75 <= length data)%nat -> source s = 2 ->
  lookup "prog_ver" (scfg s) = Some (CQ pv) -> let b := Rdi.block_bytes (1536, data) in
  exists s' e', read_dat file 1536 s = Ret (true, s') /\ ens s' = Some e' /\
    get e' "latitude_gps" = [lat_of (Rdi.sint b 13 4) (Rdi.uint b 65 1)] /\ get e' "longitude_gps" = [lon_of (Rdi.uint b 5 2) (Rdi.uint b 47 2) (Rdi.uint b 65 1)].
Proof.
  intros En K A L So Pv b. unfold read_dat, read_known. cbn [Z.eqb Pos.eqb]. unfold read_bottom. cbn [ens with_vars]. rewrite En. cbn [or_raise bind source with_vars]. rewrite So. cbn [Z.eqb Pos.eqb pos with_vars].
  rewrite bottom_split, parse_app. rewrite (parse_at _ _ _ data A); [|cbn; repeat split; lia|cbn; lia].
  change (Z.of_nat (width bottom_front)) with 63. set (raw := pp bottom_front 0 data).
  assert (P0 : 0 <= pos s) by exact (at_nonneg _ _ _ A).
  cbn [parse]. unfold seek at 1. replace (pos s + 63 + -7 <? 0) with false by (symmetry; apply Z.ltb_ge; lia). cbn [bind]. rewrite app_nil_r. rewrite (k_fine e K). cbn [check bind scfg with_vars].
  unfold cfg_q. rewrite Pv. cbn [or_raise bind].
  destruct (extra_parse file (pos s + 63 + -7) pv (match lookup "sourceprog" (scfg s) with Some (CS x) => String.eqb x "WINRIVER" | _ => false end) (skipn 56 data)) as (raw2 & q & E).
  { replace (pos s + 63 + -7) with (pos s + Z.of_nat 56) by lia. apply at_skip; [exact A|lia]. }
  { rewrite skipn_length. lia. }
  rewrite E. cbn [bind]. eexists. eexists. split; [reflexivity|]. split; [reflexivity|].
  assert (G : forall nm v e0, nm <> "dist_bt" -> get e0 nm = v -> get (puts (bottom_values2 raw raw2) e0) nm = v).
  { intros nm v e0 N V. unfold bottom_values2. destruct (lookup "range_msb" raw2) as [m|]; [|exact V]. rewrite puts_vals. unfold get in *. cbn [vals rev app lookup e_cells]. destruct (String.eqb_spec "dist_bt" nm) as [X|_]; [congruence|exact V]. }
  assert (U : forall o k, int_of k b o = if Ad2cp.ksigned k then Rdi.sint b o (Ad2cp.ksize k) else Rdi.uint b o (Ad2cp.ksize k)) by reflexivity.
  assert (R : raw1 raw "lat" = Rdi.sint b 13 4 /\ raw1 raw "qual" = Rdi.uint b 65 1 /\ raw1 raw "long1" = Rdi.uint b 5 2 /\ raw1 raw "long2" = Rdi.uint b 47 2).
  { unfold raw1, raws, raw. cbn [pp bottom_front lookup String.eqb Ascii.eqb Bool.eqb Nat.add Nat.mul Ad2cp.ksize Z.to_nat Pos.to_nat Pos.iter_op]. rewrite !(values_int _ 1536). cbn [map seq hd Nat.add Nat.mul]. repeat split; reflexivity. }
  destruct R as (R1 & R2 & R3 & R4). rewrite R1, R2, R3, R4.
  split; apply G; try discriminate; rewrite puts_vals; reflexivity.
Qed.
Lemma winriver_position file s e data pv : ens s = Some e -> ek e = -1 \/ ek e = 0 -> Rdi.lies_at file (pos s) data -> (75 <= length data)%nat -> Forall Rdi.is_byte data -> source s = 2 ->
  lookup "prog_ver" (scfg s) = Some (CQ pv) -> let b := Rdi.block_bytes (1536, data) in
  Rdi.uint b 65 1 <> 0 -> Rdi.sint b 13 4 <> 0 -> Rdi.uint b 5 2 + 65536 * Rdi.uint b 47 2 <> 0 ->
  exists s' e' lat lon k, read_dat file 1536 s = Ret (true, s') /\ ens s' = Some e' /\ get e' "latitude_gps" = [Some lat] /\ get e' "longitude_gps" = [Some lon] /\
    (lat == inject_Z (Rdi.sint b 13 4) * (180 # 2147483648))%Q /\
    (-180 < lon /\ lon <= 180)%Q /\ (lon == inject_Z (Rdi.uint b 5 2 + 65536 * Rdi.uint b 47 2) * (180 # 2147483648) + inject_Z k * 360)%Q.
Proof.
  intros En K A L B So Pv b Hq Ha Ho. destruct (winriver_block file s e data pv En K A L So Pv) as (s' & e' & R & E & La & Lo). fold b in La, Lo.
  assert (W : forall o, 0 <= Rdi.uint b o 2 < 65536).
  { intros o. assert (Bb : Forall Rdi.is_byte b) by (unfold b, Rdi.block_bytes; cbn [fst snd]; apply Forall_app; split; [|exact B]; unfold Rdi.le16; apply Forall_cons; [split; reflexivity || discriminate|apply Forall_cons; [split; reflexivity || discriminate|apply Forall_nil]]).
    assert (Nb : forall i, 0 <= nth i b 0 < 256). { intros i. destruct (Nat.lt_ge_cases i (length b)) as [H|H]; [exact (proj1 (Forall_forall _ _) Bb _ (nth_In _ _ H))|rewrite nth_overflow by exact H; lia]. }
    unfold Rdi.uint. cbn [seq map total fold_right]. change (256 ^ Z.of_nat 0) with 1. change (256 ^ Z.of_nat 1) with 256. pose proof (Nb (o - 1 + 0)%nat). pose proof (Nb (o - 1 + 1)%nat). lia. }
  destruct (longitude _ _ _ (W 5%nat) (W 47%nat) Hq Ho) as (q & k & Eq & Rg & V). rewrite Eq in Lo.
  exists s', e', (inject_Z (Rdi.sint b 13 4) * cfac)%Q, q, k. split; [exact R|]. split; [exact E|]. split.
  - rewrite La. f_equal. unfold lat_of. rewrite (proj2 (Z.eqb_neq _ _) Hq). unfold nonzero, qz. destruct (Qeq_bool _ 0) eqn:Z0; [|reflexivity]. exfalso. apply Qeq_bool_iff in Z0. unfold cfac, Qeq, Qmult, inject_Z in Z0. cbn [Qnum Qden] in Z0. lia.
  - split; [exact Lo|]. split; [reflexivity|]. split; [exact Rg|exact V].
Qed.
Lemma winriver_equator file s e data pv : ens s = Some e -> ek e = -1 \/ ek e = 0 -> Rdi.lies_at file (pos s) data -> (75 <= length data)%nat -> source s = 2 ->
  lookup "prog_ver" (scfg s) = Some (CQ pv) -> let b := Rdi.block_bytes (1536, data) in
  exists s' e', read_dat file 1536 s = Ret (true, s') /\ ens s' = Some e' /\ (Rdi.sint b 13 4 = 0 -> get e' "latitude_gps" = [None]) /\
    (Rdi.uint b 5 2 = 0 -> Rdi.uint b 47 2 = 0 -> get e' "longitude_gps" = [None]).
Proof.
  intros En K A L So Pv b. destruct (winriver_block file s e data pv En K A L So Pv) as (s' & e' & R & E & La & Lo). fold b in La, Lo. exists s', e'. split; [exact R|]. split; [exact E|].
  split; [intros Z0; rewrite La, Z0|intros Z1 Z2; rewrite Lo, Z1, Z2]; f_equal; unfold lat_of, lon_of; destruct (_ =? 0); reflexivity.
Qed.
