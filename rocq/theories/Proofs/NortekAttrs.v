(** Proofs about Model.NortekAttrs. *)
From Coq Require Import String.
From Coq Require Import ZArith QArith List Bool Lia.
From Verif.Model Require Import Nortek NortekFile ReadVector NortekHead NortekAttrs.
From Verif.Spec Require Import Nortek NortekData NortekEarth NortekHead NortekAttrs.
From Verif.Model Require DateText.
From Verif.Proofs Require Import NortekHead.
From Verif.Proofs Require DateText.
Import ListNotations.
Open Scope Z_scope.

Lemma bit_of m k : (k < 16)%nat -> nth k (int2binarray m 16) false = Z.testbit m (Z.of_nat k).
Proof.
  intros K. unfold int2binarray. rewrite (nth_indep _ false (negb (Z.land m (2 ^ Z.of_nat 0) =? 0))) by (rewrite map_length, seq_length; exact K).
  rewrite (map_nth (fun k => negb (Z.land m (2 ^ Z.of_nat k) =? 0)) (seq 0 16) 0%nat k), seq_nth by exact K. cbn [Nat.add].
  destruct (Z.testbit m (Z.of_nat k)) eqn:E.
  - apply negb_true_iff, Z.eqb_neq. intros H.
    assert (X : Z.testbit (Z.land m (2 ^ Z.of_nat k)) (Z.of_nat k) = true) by (rewrite Z.land_spec, E, Z.pow2_bits_true by lia; reflexivity).
    rewrite H, Z.testbit_0_l in X. discriminate X.
  - apply negb_false_iff, Z.eqb_eq. apply Z.bits_inj'. intros n Hn. rewrite Z.land_spec, Z.testbit_0_l. destruct (Z.eq_dec n (Z.of_nat k)) as [->|N]; [rewrite E; reflexivity|].
    rewrite Z.pow2_bits_false by lia. apply andb_false_r.
Qed.

Fixpoint distinct (l : list string) : bool := match l with [] => true | x :: l => negb (existsb (String.eqb x) l) && distinct l end.
Lemma distinct_ok l : distinct l = true -> NoDup l.
Proof.
  induction l as [|x l IH]; intros H; [constructor|]. cbn [distinct] in H. apply andb_true_iff in H as (H1 & H2). constructor; [|apply IH, H2].
  intros I. apply negb_true_iff in H1. assert (X : existsb (String.eqb x) l = true) by (apply existsb_exists; exists x; split; [exact I|apply String.eqb_refl]). congruence.
Qed.
Lemma bit_value m k : 0 <= m -> (k < 16)%nat -> (if nth k (int2binarray m 16) false then 1 else 0) = (m / 2 ^ Z.of_nat k) mod 2.
Proof. intros M K. rewrite bit_of by exact K. rewrite Z.testbit_eqb by lia. pose proof (Z.mod_pos_bound (m / 2 ^ Z.of_nat k) 2 ltac:(lia)). destruct (Z.eqb_spec ((m / 2 ^ Z.of_nat k) mod 2) 1) as [E|E]; lia. Qed.
Lemma power_ok v : 0 <= v < 65536 ->
  1 + (v / 32) mod 4 = (if nth 5 (int2binarray v 16) false then 1 else 0) + 2 * (if nth 6 (int2binarray v 16) false then 1 else 0) + 1.
Proof.
  intros B. rewrite !bit_value by lia. change (2 ^ Z.of_nat 5) with 32. change (2 ^ Z.of_nat 6) with 64.
  change 64 with (32 * 2). rewrite <- (Z.div_div v 32 2) by lia. change 4 with (2 * 2). rewrite Z.rem_mul_r by lia. lia.
Qed.
Lemma first_digit n x : 10 ^ Z.of_nat n <= x -> 48 < 48 + x / 10 ^ Z.of_nat n.
Proof. intros H. assert (0 < 10 ^ Z.of_nat n) by (apply Z.pow_pos_nonneg; lia). assert (1 <= x / 10 ^ Z.of_nat n) by (apply Z.div_le_lower_bound; lia). lia. Qed.
Lemma version_ok v : 0 <= v < 65536 -> version v (software_version v).
Proof.
  intros B. unfold software_version, decimal. cbv zeta.
  assert (G : forall n, 0 <= v < 10 ^ Z.of_nat n -> (0 < n)%nat -> (n = 1%nat \/ 10 ^ Z.of_nat (n - 1) <= v) ->
    version v (firstn 1 (DateText.digits n v) ++ [46] ++ firstn 2 (skipn 1 (DateText.digits n v)) ++ [46] ++ skipn 3 (DateText.digits n v))).
  { intros n H N L. pose proof (Proofs.DateText.digits_length n v) as LN. pose proof (Proofs.DateText.digits_only n v H) as D. pose proof (Proofs.DateText.digits_number n v H) as E.
    assert (F0 : n <> 1%nat -> hd 0 (DateText.digits n v) <> 48).
    { intros N1. destruct L as [L|L]; [contradiction|]. destruct n as [|n]; [lia|]. cbn [DateText.digits hd]. replace (S n - 1)%nat with n in L by lia. pose proof (first_digit n v L). lia. }
    assert (F1 : n = 1%nat -> DateText.digits n v = [48 + v]).
    { intros ->. cbn [DateText.digits Z.of_nat]. rewrite Z.div_1_r. reflexivity. }
    set (ds := DateText.digits n v) in *. exists (firstn 1 ds), (firstn 2 (skipn 1 ds)), (skipn 3 ds). split; [reflexivity|].
    assert (W : firstn 1 ds ++ firstn 2 (skipn 1 ds) ++ skipn 3 ds = ds).
    { replace (skipn 3 ds) with (skipn 2 (skipn 1 ds)) by (destruct ds as [|? [|? [|? ds']]]; reflexivity). rewrite !firstn_skipn. reflexivity. }
    rewrite W. split; [rewrite firstn_length; lia|]. split; [rewrite firstn_length; lia|]. split; [|split; [exact D|split; [exact E|]]].
    - intros C. rewrite firstn_length, skipn_length. destruct (Nat.le_gt_cases (length ds) 3) as [K|K]; [exfalso; apply C; apply skipn_all2; exact K|lia].
    - intros C. destruct (Nat.eq_dec n 1) as [N1|N1].
      + rewrite (F1 N1) in C. cbn [firstn] in C. assert (X : 48 + v = 48) by congruence. lia.
      + exfalso. apply (F0 N1). destruct ds; [discriminate C|]. cbn in C |- *. congruence. }
  destruct (Z.ltb_spec v 10); [apply (G 1%nat); [cbn; lia|lia|lia]|]. destruct (Z.ltb_spec v 100); [apply (G 2%nat); [cbn; lia|lia|right; cbn; lia]|].
  destruct (Z.ltb_spec v 1000); [apply (G 3%nat); [cbn; lia|lia|right; cbn; lia]|]. destruct (Z.ltb_spec v 10000); [apply (G 4%nat); [cbn; lia|lia|right; cbn; lia]|].
  apply (G 5%nat); [cbn; lia|lia|right; cbn; lia].
Qed.
Section Header.
Variables (hw head usr : bytes) (s : setup).
Hypothesis Y : says hw head usr s.
Definition thw := items LE hw_fmt (inner 44 hw).
Definition thead := items LE head_fmt (inner 220 head).
Definition tusr := items LE user_fmt (inner 508 usr).
(** all of them *)
Definition whole : dict :=
  inst_attrs (s_kind s) ++ tim_attrs tusr ++ usr_attrs tusr ++ (match s_kind s with Awac => awac_attrs tusr | _ => adv_attrs tusr end) ++ head_attrs thead ++ hdw_attrs thw ++
  duty_attrs tusr ++ [("fs", ARat (g_fs (configured s))); ("coord_sys", AWord (s_frame s))]%string.
Lemma attrs_are nens rest : read_attrs false nens (hw ++ head ++ usr ++ rest) = Some whole.
Proof.
  destruct (opened_as hw head usr s nens rest Y) as (axes & _ & O). destruct (sy_hw _ _ _ _ Y) as (B1 & _). pose proof (sy_head _ _ _ _ Y) as B2. pose proof (sy_usr _ _ _ _ Y) as B3.
  destruct (read_hw_ok _ _ _ _ Y) as (l & RH & _). pose proof (read_head_ok _ _ _ _ Y) as RE. destruct (read_user_ok _ _ _ _ Y) as (ax & _ & RU).
  unfold read_attrs. rewrite O. cbn [o_reader o_cfg o_frame]. unfold reader_of. cbn [rendian rinst]. cbv zeta.
  pose proof (head_block_at [] hw (head ++ usr ++ rest) 5 44 (values LE hw_fmt read_hw) B1) as E1. cbn [app length Nat.add] in E1. rewrite E1. clear E1. destruct B1 as (L1 & _).
  unfold values at 1. rewrite RH, (unpack_inner hw_fmt 44 hw eq_refl L1). cbn [option_map].
  pose proof (head_block_at hw head (usr ++ rest) 4 220 (values LE head_fmt read_head) B2) as E2. rewrite L1 in E2. change (44 + 4)%nat with 48%nat. rewrite E2. clear E2. destruct B2 as (L2 & _).
  unfold values at 1. rewrite RE, (unpack_inner head_fmt 220 head eq_refl L2). cbn [option_map].
  pose proof (head_block_at (hw ++ head) usr rest 0 508 (values LE user_fmt read_user) B3) as E3. rewrite app_length, L1, L2, <- app_assoc in E3.
  change (48 + (220 + 4))%nat with (48 + 224)%nat. rewrite E3. clear E3. destruct B3 as (L3 & _).
  unfold values at 1. rewrite RU, (unpack_inner user_fmt 508 usr eq_refl L3). reflexivity.
Qed.
Lemma duty_names : map fst (duty_attrs tusr) = [] \/ map fst (duty_attrs tusr) = ["duty_cycle_n_burst"; "duty_cycle_interval"]%string.
Proof. unfold duty_attrs. destruct (0 <? num_at tusr 131); [right|left]; reflexivity. Qed.
Lemma no_doubles : NoDup (map fst whole).
Proof.
  unfold whole. rewrite !map_app. unfold inst_attrs, tim_attrs, usr_attrs, awac_attrs, adv_attrs, head_attrs, hdw_attrs.
  destruct duty_names as [-> | ->]; destruct (s_kind s); cbn [map fst app]; apply distinct_ok; vm_compute; reflexivity.
Qed.
Lemma there nm a : In (nm, a) whole -> attribute whole nm a.
Proof.
  intros I. apply in_split in I as (pre & post & E). exists pre, post. split; [exact E|]. pose proof no_doubles as N. rewrite E, map_app in N. cbn [map fst] in N.
  apply NoDup_remove_2 in N. rewrite map_app. exact N.
Qed.
(** numbers of the blocks *)
Lemma hw_num q k i v : skipn q hw_fmt = Half :: tl (skipn q hw_fmt) -> count (firstn q hw_fmt) = k -> Nat.ltb (S (fmt_size (firstn q hw_fmt))) 44 = true ->
  (fmt_size (firstn q hw_fmt) + 2 = i)%nat -> unsigned_at LE hw i v -> num_at thw k = v.
Proof. intros E C S P. apply (num_get (firstn q hw_fmt) (tl (skipn q hw_fmt))); [|exact C|apply Nat.ltb_lt; exact S|exact P]. rewrite <- E. symmetry. apply firstn_skipn. Qed.
Lemma head_num q k i v : skipn q head_fmt = Half :: tl (skipn q head_fmt) -> count (firstn q head_fmt) = k -> Nat.ltb (S (fmt_size (firstn q head_fmt))) 220 = true ->
  (fmt_size (firstn q head_fmt) + 2 = i)%nat -> unsigned_at LE head i v -> num_at thead k = v.
Proof. intros E C S P. apply (num_get (firstn q head_fmt) (tl (skipn q head_fmt))); [|exact C|apply Nat.ltb_lt; exact S|exact P]. rewrite <- E. symmetry. apply firstn_skipn. Qed.
Lemma usr_num q k i v : skipn q user_fmt = Half :: tl (skipn q user_fmt) -> count (firstn q user_fmt) = k -> Nat.ltb (S (fmt_size (firstn q user_fmt))) 508 = true ->
  (fmt_size (firstn q user_fmt) + 2 = i)%nat -> unsigned_at LE usr i v -> num_at tusr k = v.
Proof. intros E C S P. apply (num_get (firstn q user_fmt) (tl (skipn q user_fmt))); [|exact C|apply Nat.ltb_lt; exact S|exact P]. rewrite <- E. symmetry. apply firstn_skipn. Qed.
Lemma in_tim x : In x (tim_attrs tusr) -> In x whole.
Proof. intros I. unfold whole. apply in_or_app. right. apply in_or_app. left. exact I. Qed.
Lemma in_usr x : In x (usr_attrs tusr) -> In x whole.
Proof. intros I. unfold whole. do 2 (apply in_or_app; right). apply in_or_app. left. exact I. Qed.
Lemma in_own x : In x (match s_kind s with Awac => awac_attrs tusr | _ => adv_attrs tusr end) -> In x whole.
Proof. intros I. unfold whole. do 3 (apply in_or_app; right). apply in_or_app. left. exact I. Qed.
Lemma in_head x : In x (head_attrs thead) -> In x whole.
Proof. intros I. unfold whole. do 4 (apply in_or_app; right). apply in_or_app. left. exact I. Qed.
Lemma in_hdw x : In x (hdw_attrs thw) -> In x whole.
Proof. intros I. unfold whole. do 5 (apply in_or_app; right). apply in_or_app. left. exact I. Qed.
Lemma in_last x : In x (duty_attrs tusr ++ [("fs", ARat (g_fs (configured s))); ("coord_sys", AWord (s_frame s))]%string) -> In x whole.
Proof. intros I. unfold whole. do 6 (apply in_or_app; right). exact I. Qed.
Lemma in_first x : In x (inst_attrs (s_kind s)) -> In x whole.
Proof. intros I. unfold whole. apply in_or_app. left. exact I. Qed.
Lemma hw_text q t k i : skipn q hw_fmt = Text t :: tl (skipn q hw_fmt) -> count (firstn q hw_fmt) = k -> fmt_size (firstn q hw_fmt) = i -> str_at thw k = firstn t (skipn i (inner 44 hw)).
Proof. intros E C P. apply (str_get (firstn q hw_fmt) t (tl (skipn q hw_fmt))); [|exact C|exact P]. rewrite <- E. symmetry. apply firstn_skipn. Qed.
Lemma usr_text q t k i : skipn q user_fmt = Text t :: tl (skipn q user_fmt) -> count (firstn q user_fmt) = k -> fmt_size (firstn q user_fmt) = i -> str_at tusr k = firstn t (skipn i (inner 508 usr)).
Proof. intros E C P. apply (str_get (firstn q user_fmt) t (tl (skipn q user_fmt))); [|exact C|exact P]. rewrite <- E. symmetry. apply firstn_skipn. Qed.
Lemma inner_text n b i m : (i + m <= n)%nat -> firstn m (skipn i (inner n b)) = text_at b (i + 2) m.
Proof.
  intros H. unfold inner, text_at. rewrite skipn_firstn_comm, skipn_plus, firstn_firstn. replace (Nat.min m (n - i)) with m by lia. rewrite (Nat.add_comm 2 i). reflexivity.
Qed.
Lemma before_ended t rest : ~ In 0 t -> rest = [] \/ (exists r, rest = 0 :: r) -> before_zero (t ++ rest) = t.
Proof.
  intros N R. induction t as [|c t IH].
  - destruct R as [->|(r & ->)]; reflexivity.
  - cbn [app before_zero]. destruct (Z.eqb_spec c 0) as [->|_]; [exfalso; apply N; left; reflexivity|]. f_equal. apply IH. intros I. apply N. right. exact I.
Qed.
Lemma chosen m k b no yes : (k < 16)%nat -> Z.of_nat k = b -> AWord (if Z.testbit m b then yes else no) = choose m k no yes.
Proof. intros K <-. unfold choose. rewrite bit_of by exact K. reflexivity. Qed.
Ltac which := unfold tim_attrs, usr_attrs, awac_attrs, adv_attrs, head_attrs, hdw_attrs, inst_attrs, truth; cbn [In app];
  repeat match goal with |- ?x = ?y \/ _ => constr_eq x y; left; exact eq_refl | |- _ \/ _ => right end.
Lemma numbers_in nm p unit v : In (nm, p, unit) (numbers ++ numbers_of (s_kind s)) -> recorded hw head usr p v -> In (nm, AInt (v * unit)) whole.
Proof.
  intros I R. apply in_app_or in I as [I|I].
  - cbn [numbers In] in I. repeat (destruct I as [I|I]; [injection I as <- <- <-; cbn [recorded] in R; rewrite ?Z.mul_1_r|]); [..|destruct I].
    + rewrite <- (usr_num 8 7 18 v eq_refl eq_refl eq_refl eq_refl R). apply in_usr. which.
    + rewrite <- (usr_num 14 13 30 v eq_refl eq_refl eq_refl eq_refl R). apply in_usr. which.
    + rewrite <- (usr_num 16 15 34 v eq_refl eq_refl eq_refl eq_refl R). apply in_usr. which.
    + rewrite <- (usr_num 31 30 70 v eq_refl eq_refl eq_refl eq_refl R). apply in_usr. which.
    + rewrite <- (head_num 2 1 6 v eq_refl eq_refl eq_refl eq_refl R). apply in_head. which.
    + rewrite <- (hw_num 4 3 22 v eq_refl eq_refl eq_refl eq_refl R). apply in_hdw. which.
    + rewrite <- (hw_num 5 4 24 v eq_refl eq_refl eq_refl eq_refl R). apply in_hdw. which.
    + rewrite <- (hw_num 6 5 26 v eq_refl eq_refl eq_refl eq_refl R). apply in_hdw. which.
  - apply in_own. destruct (s_kind s); cbn [numbers_of In] in I;
      repeat (destruct I as [I|I]; [injection I as <- <- <-; cbn [recorded] in R; rewrite Z.mul_1_r|]); try (destruct I);
      match type of R with
      | unsigned_at _ _ 14 _ => rewrite <- (usr_num 6 5 14 v eq_refl eq_refl eq_refl eq_refl R)
      | unsigned_at _ _ 16 _ => rewrite <- (usr_num 7 6 16 v eq_refl eq_refl eq_refl eq_refl R)
      | unsigned_at _ _ 444 _ => rewrite <- (usr_num 132 129 444 v eq_refl eq_refl eq_refl eq_refl R)
      | unsigned_at _ _ 446 _ => rewrite <- (usr_num 133 130 446 v eq_refl eq_refl eq_refl eq_refl R)
      end; which.
Qed.
Lemma switches_in nm p b no yes v : In (nm, p, b, no, yes) (switches ++ switches_of (s_kind s)) -> recorded hw head usr p v ->
  In (nm, AWord (if Z.testbit v b then yes else no)) whole.
Proof.
  intros I R. apply in_app_or in I as [I|I].
  - cbn [switches In] in I. repeat (destruct I as [I|I]; [injection I as <- <- <- <- <-; cbn [recorded] in R|]); [..|destruct I].
    + rewrite (chosen v 0 0) by first [lia|reflexivity]. rewrite <- (hw_num 7 6 28 v eq_refl eq_refl eq_refl eq_refl R). apply in_hdw. which.
    + rewrite (chosen v 0 0) by first [lia|reflexivity]. rewrite <- (head_num 1 0 4 v eq_refl eq_refl eq_refl eq_refl R). apply in_head. which.
    + rewrite (chosen v 1 1) by first [lia|reflexivity]. rewrite <- (head_num 1 0 4 v eq_refl eq_refl eq_refl eq_refl R). apply in_head. which.
    + rewrite (chosen v 2 2) by first [lia|reflexivity]. rewrite <- (head_num 1 0 4 v eq_refl eq_refl eq_refl eq_refl R). apply in_head. which.
    + rewrite (chosen v 0 0) by first [lia|reflexivity]. rewrite <- (usr_num 25 24 58 v eq_refl eq_refl eq_refl eq_refl R). apply in_usr. which.
    + rewrite (chosen v 2 2) by first [lia|reflexivity]. rewrite <- (usr_num 25 24 58 v eq_refl eq_refl eq_refl eq_refl R). apply in_usr. which.
    + rewrite (chosen v 3 3) by first [lia|reflexivity]. rewrite <- (usr_num 25 24 58 v eq_refl eq_refl eq_refl eq_refl R). apply in_usr. which.
    + rewrite (chosen v 5 5) by first [lia|reflexivity]. rewrite <- (usr_num 25 24 58 v eq_refl eq_refl eq_refl eq_refl R). apply in_usr. which.
    + rewrite (chosen v 8 8) by first [lia|reflexivity]. rewrite <- (usr_num 25 24 58 v eq_refl eq_refl eq_refl eq_refl R). apply in_usr. which.
    + rewrite (chosen v 1 1) by first [lia|reflexivity]. rewrite <- (usr_num 9 8 20 v eq_refl eq_refl eq_refl eq_refl R). apply in_tim. which.
    + rewrite (chosen v 7 7) by first [lia|reflexivity]. rewrite <- (usr_num 9 8 20 v eq_refl eq_refl eq_refl eq_refl R). apply in_tim. which.
    + rewrite (chosen v 8 8) by first [lia|reflexivity]. rewrite <- (usr_num 9 8 20 v eq_refl eq_refl eq_refl eq_refl R). apply in_tim. which.
    + rewrite (chosen v 9 9) by first [lia|reflexivity]. rewrite <- (usr_num 9 8 20 v eq_refl eq_refl eq_refl eq_refl R). apply in_tim. which.
  - apply in_own. destruct (s_kind s); cbn [switches_of In] in I; try (destruct I; fail);
      repeat (destruct I as [I|I]; [injection I as <- <- <- <- <-; cbn [recorded] in R|]); try (destruct I; fail).
    + rewrite (chosen v 1 1) by first [lia|reflexivity]. rewrite <- (usr_num 25 24 58 v eq_refl eq_refl eq_refl eq_refl R). which.
    + rewrite (chosen v 0 0) by first [lia|reflexivity]. rewrite <- (usr_num 128 125 436 v eq_refl eq_refl eq_refl eq_refl R). which.
    + rewrite (chosen v 1 1) by first [lia|reflexivity]. rewrite <- (usr_num 128 125 436 v eq_refl eq_refl eq_refl eq_refl R). which.
    + rewrite (chosen v 2 2) by first [lia|reflexivity]. rewrite <- (usr_num 128 125 436 v eq_refl eq_refl eq_refl eq_refl R). which.
Qed.
Lemma texts_in : In ("serial_number"%string, AText (text_at hw 4 8)) whole /\ In ("ProLogFWver"%string, AText (text_at hw 14 4)) whole /\
  In ("firmware_version"%string, AText (text_at hw 42 4)) whole.
Proof.
  assert (T : str_at thw 0 = firstn 14 (skipn 2 (inner 44 hw))) by exact (hw_text 1 14 0 2 eq_refl eq_refl eq_refl).
  split; [|split]; apply in_hdw; unfold hdw_attrs.
  - assert (X : firstn 8 (str_at thw 0) = text_at hw 4 8).
    { rewrite T, firstn_firstn. change (Nat.min 8 14) with 8%nat. apply (inner_text 44 hw 2 8). lia. }
    rewrite X. which.
  - assert (X : skipn 10 (str_at thw 0) = text_at hw 14 4).
    { rewrite T, skipn_firstn_comm, skipn_plus. change (2 + 10)%nat with 12%nat. change (14 - 10)%nat with 4%nat. apply (inner_text 44 hw 12 4). lia. }
    rewrite X. which.
  - assert (X : str_at thw 7 = text_at hw 42 4).
    { rewrite (hw_text 9 4 7 40 eq_refl eq_refl eq_refl). apply (inner_text 44 hw 40 4). lia. }
    rewrite X. cbn [In]. do 6 right. left. exact eq_refl.
Qed.
Lemma notes_in : (forall t, ended_at usr 40 6 t -> In ("deployment_name"%string, AText t) whole) /\ (forall t, ended_at usr 256 80 t -> In ("comments"%string, AText t) whole).
Proof.
  split; intros t (N & rest & E & R); apply in_usr; unfold usr_attrs.
  - assert (X : before_zero (str_at tusr 18) = t).
    { rewrite (usr_text 19 6 18 38 eq_refl eq_refl eq_refl), (inner_text 508 usr 38 6) by lia. change (38 + 2)%nat with 40%nat. rewrite E. apply before_ended; assumption. }
    rewrite X. which.
  - assert (X : before_zero (str_at tusr 123) = t).
    { rewrite (usr_text 124 80 123 254 eq_refl eq_refl eq_refl), (inner_text 508 usr 254 80) by (apply Nat.leb_le; reflexivity). change (254 + 2)%nat with 256%nat. rewrite E. apply before_ended; assumption. }
    rewrite X. which.
Qed.
Lemma others_in v : (recorded hw head usr (Usr 74) v -> In ("salinity"%string, ARat (inject_Z v / 10)%Q) whole) /\
  (recorded hw head usr (Usr 46) v -> In ("wrap_mode"%string, AWord (if (v =? 0)%Z then "False" else "True")%string) whole) /\
  (forall w, recorded hw head usr (Usr 384) v -> s_kind s = Awac -> In (v, w) methods -> In ("wave_processing_method"%string, AWord w) whole) /\
  (recorded hw head usr (Usr 38) v -> 0 < s_burst s -> In ("duty_cycle_n_burst"%string, AInt (s_burst s)) whole /\ In ("duty_cycle_interval"%string, AInt v) whole).
Proof.
  split; [|split; [|split]].
  - intros R. rewrite <- (usr_num 33 32 74 v eq_refl eq_refl eq_refl eq_refl R). apply in_usr. which.
  - intros R. rewrite <- (usr_num 20 19 46 v eq_refl eq_refl eq_refl eq_refl R). apply in_usr. which.
  - intros w R K M. apply in_own. rewrite K. unfold awac_attrs. rewrite (usr_num 126 124 384 v eq_refl eq_refl eq_refl eq_refl R).
    cbn [methods In] in M. repeat (destruct M as [M|M]; [injection M as <- <-; cbn [Z.to_nat Pos.to_nat Pos.iter_op Nat.add nth In]; right; left; exact eq_refl|]). destruct M.
  - intros R P. assert (D : duty_attrs tusr = [("duty_cycle_n_burst", AInt (s_burst s)); ("duty_cycle_interval", AInt v)]%string).
    { unfold duty_attrs. rewrite (usr_num 135 131 452 _ eq_refl eq_refl eq_refl eq_refl (sy_burst _ _ _ _ Y)), (usr_num 18 17 38 v eq_refl eq_refl eq_refl eq_refl R).
      destruct (Z.ltb_spec 0 (s_burst s)); [reflexivity|lia]. }
    split; apply in_last; rewrite D; which.
Qed.
Lemma word_range b i v : Forall is_byte b -> unsigned_at LE b i v -> 0 <= v < 65536.
Proof.
  intros F (b0 & b1 & E0 & E1 & W). rewrite Forall_forall in F. pose proof (F _ (nth_error_In _ _ E0)). pose proof (F _ (nth_error_In _ _ E1)).
  unfold holds_unsigned, word in W. unfold is_byte in *. lia.
Qed.
Lemma usr_bytes : Forall is_byte usr.
Proof. pose proof (sy_bytes _ _ _ _ Y) as B. apply Forall_app in B as (_ & B). apply Forall_app in B as (_ & B). exact B. Qed.
Lemma version_in v : recorded hw head usr (Usr 72) v -> exists t, version v t /\ In ("software_version"%string, AText t) whole.
Proof.
  intros R. cbn [recorded] in R. pose proof (word_range usr 72 v usr_bytes R) as B. exists (software_version v). split; [apply version_ok; exact B|].
  rewrite <- (usr_num 32 31 72 v eq_refl eq_refl eq_refl eq_refl R). apply in_usr. which.
Qed.
Lemma power_in v : recorded hw head usr (Usr 20) v -> exists n, power_bits v n /\ In ("power_level"%string, AInt n) whole.
Proof.
  intros R. cbn [recorded] in R. pose proof (word_range usr 20 v usr_bytes R) as B. exists (1 + (v / 32) mod 4). split; [reflexivity|].
  rewrite (power_ok v B). rewrite <- (usr_num 9 8 20 v eq_refl eq_refl eq_refl eq_refl R). apply in_tim. which.
Qed.
Lemma no_duty : s_burst s = 0 -> forall nm a, In (nm, a) whole -> nm <> "duty_cycle_n_burst"%string /\ nm <> "duty_cycle_interval"%string.
Proof.
  intros Z0 nm a I. assert (D : duty_attrs tusr = []).
  { unfold duty_attrs. rewrite (usr_num 135 131 452 _ eq_refl eq_refl eq_refl eq_refl (sy_burst _ _ _ _ Y)), Z0. reflexivity. }
  assert (J : In nm (map fst whole)) by (apply in_map_iff; exists (nm, a); split; [reflexivity|exact I]). clear I.
  unfold whole in J. rewrite D in J. unfold inst_attrs, tim_attrs, usr_attrs, awac_attrs, adv_attrs, head_attrs, hdw_attrs in J.
  destruct (s_kind s); cbn [map fst app In] in J; repeat (destruct J as [<-|J]; [split; discriminate|]); destruct J.
Qed.
Lemma settings_in : In ("fs"%string, ARat (g_fs (configured s))) whole /\ In ("coord_sys"%string, AWord (s_frame s)) whole /\ In ("inst_make", AWord "Nortek")%string whole /\
  In ("inst_model"%string, AWord (match s_kind s with Awac => "AWAC" | _ => "Vector" end)%string) whole /\
  In ("inst_type"%string, AWord (match s_kind s with Awac => "ADCP" | _ => "ADV" end)%string) whole.
Proof.
  split; [apply in_last, in_or_app; right; which|]. split; [apply in_last, in_or_app; right; which|].
  repeat split; apply in_first; which.
Qed.
End Header.
