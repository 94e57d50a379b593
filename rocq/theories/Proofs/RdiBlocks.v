(** Lemmas about Model.RdiBlocks: what a block reader does on the bytes of a block. *)
From Coq Require Import String.
From Coq Require Import ZArith QArith List Bool Lia.
From Verif.Model Require Import Nortek RdiBlocks.
From Verif.Model Require Ad2cp.
From Verif.Spec Require Rdi.
Import ListNotations.
Open Scope string_scope.
Open Scope list_scope.
Open Scope Z_scope.

(** ** Bytes at a position *)
Definition at_ (file : bytes) (p : Z) (x : bytes) : Prop := exists pre post, file = pre ++ x ++ post /\ p = Z.of_nat (length pre).
Lemma at_nonneg file p x : at_ file p x -> 0 <= p.
Proof. intros (pre & post & _ & ->). lia. Qed.
Lemma at_skip file p x n : at_ file p x -> (n <= length x)%nat -> at_ file (p + Z.of_nat n) (skipn n x).
Proof.
  intros (pre & post & -> & ->) L. exists (pre ++ firstn n x), post. split.
  - rewrite <- !app_assoc. f_equal. rewrite app_assoc. now rewrite firstn_skipn.
  - rewrite app_length, firstn_length_le by exact L. lia.
Qed.
Lemma at_app_l file p x y : at_ file p (x ++ y) -> at_ file p x.
Proof. intros (pre & post & -> & ->). exists pre, (y ++ post). now rewrite <- app_assoc. Qed.
Lemma at_app_r file p x y : at_ file p (x ++ y) -> at_ file (p + Z.of_nat (length x)) y.
Proof. intros H. apply at_skip with (n := length x) in H; [|rewrite app_length; lia]. now rewrite skipn_app, skipn_all, Nat.sub_diag in H. Qed.
Lemma f_read_at file p x n : at_ file p x -> 0 <= n <= Z.of_nat (length x) -> f_read file p n = firstn (Z.to_nat n) x.
Proof.
  intros (pre & post & -> & ->) B. unfold f_read. rewrite Nat2Z.id, skipn_app, skipn_all, Nat.sub_diag. cbn [skipn app].
  rewrite firstn_app. replace (Z.to_nat n - length x)%nat with 0%nat by lia. cbn. apply app_nil_r.
Qed.
Lemma ksize_pos k : (0 < Ad2cp.ksize k)%nat.
Proof. destruct k; cbn; lia. Qed.
Lemma values_firstn k n : forall m x, (n * Ad2cp.ksize k <= m)%nat -> Ad2cp.values k n (firstn m x) = Ad2cp.values k n x.
Proof.
  induction n as [|n IH]; intros m x L; [reflexivity|]. cbn [Ad2cp.values]. cbn in L. f_equal.
  - rewrite firstn_firstn, Nat.min_l by lia. reflexivity.
  - rewrite skipn_firstn_comm. apply IH. lia.
Qed.
Lemma skipn_add {A} a : forall b (l : list A), skipn a (skipn b l) = skipn (b + a) l.
Proof. induction b as [|b IH]; intros [|x l]; try reflexivity; [now rewrite !skipn_nil|]. cbn. apply IH. Qed.
Lemma values_length k n x : length (Ad2cp.values k n x) = n.
Proof. revert x. induction n; intros x; cbn; congruence. Qed.
Lemma values_map k n : forall x, Ad2cp.values k n x =
  map (fun j => Ad2cp.value k (firstn (Ad2cp.ksize k) (skipn (j * Ad2cp.ksize k) x))) (seq 0 n).
Proof.
  induction n as [|n IH]; intros x; [reflexivity|]. cbn [Ad2cp.values seq map]. f_equal. rewrite IH, <- seq_shift, map_map.
  apply map_ext. intros j. do 2 f_equal. rewrite skipn_add. f_equal.
Qed.
Lemma read_at file p x k n : at_ file p x -> (0 < n)%nat -> (n * Ad2cp.ksize k <= length x)%nat -> read file p k n = Ret (Ad2cp.values k n x).
Proof.
  intros H N L. unfold read. rewrite (f_read_at _ _ _ _ H) by lia. rewrite Nat2Z.id. pose proof (ksize_pos k).
  assert (E : length (firstn (n * Ad2cp.ksize k) x) = (n * Ad2cp.ksize k)%nat) by (now apply firstn_length_le).
  destruct (firstn (n * Ad2cp.ksize k) x) as [|b l] eqn:F.
  - cbn in E. nia.
  - rewrite E, Nat.eqb_refl, <- F. f_equal. now apply values_firstn.
Qed.

(** ** Lists of reads *)
Fixpoint pp (l : list item) (o : nat) (x : bytes) : list (string * list Z) :=
  match l with
  | [] => []
  | Rd nm k n :: l' => (nm, Ad2cp.values k n (skipn o x)) :: pp l' (o + n * Ad2cp.ksize k) x
  | Skip d :: l' => pp l' (o + Z.to_nat d) x
  end.
Fixpoint width (l : list item) : nat :=
  match l with [] => 0 | Rd _ k n :: l' => n * Ad2cp.ksize k + width l' | Skip d :: l' => Z.to_nat d + width l' end%nat.
Fixpoint forward (l : list item) : Prop :=
  match l with [] => True | Rd _ _ n :: l' => (0 < n)%nat /\ forward l' | Skip d :: l' => 0 <= d /\ forward l' end.
Lemma pp_shift l : forall o x, pp l o x = pp l 0 (skipn o x).
Proof.
  assert (G : forall l o m x, pp l (o + m) x = pp l m (skipn o x)).
  { clear. induction l as [|[nm k n|d] l IH]; intros o m x; [reflexivity| |]; cbn [pp].
    - f_equal; [now rewrite skipn_add|]. rewrite <- Nat.add_assoc. apply IH.
    - rewrite <- Nat.add_assoc. apply IH. }
  intros o x. rewrite <- G. f_equal. lia.
Qed.
Lemma parse_at file l : forall p x, at_ file p x -> forward l -> (width l <= length x)%nat ->
  parse file l p = Ret (pp l 0 x, p + Z.of_nat (width l)).
Proof.
  induction l as [|[nm k n|d] l IH]; intros p x H F W.
  - cbn. now rewrite Z.add_0_r.
  - destruct F as [N F]. cbn [width] in W. cbn [parse]. rewrite (read_at _ _ x) by (trivial; lia). cbn [bind].
    rewrite (IH _ (skipn (n * Ad2cp.ksize k) x)); [|apply at_skip; [exact H|lia]|exact F|rewrite skipn_length; lia].
    cbn [bind]. cbn [pp width]. rewrite Nat.add_0_l. rewrite <- pp_shift. do 2 f_equal. lia.
  - destruct F as [D F]. cbn [width] in W. cbn [parse]. pose proof (at_nonneg _ _ _ H). unfold seek. replace (p + d <? 0) with false by (symmetry; apply Z.ltb_ge; lia).
    cbn [bind]. replace d with (Z.of_nat (Z.to_nat d)) at 1 by lia.
    rewrite (IH _ (skipn (Z.to_nat d) x)); [|apply at_skip; [exact H|lia]|exact F|rewrite skipn_length; lia].
    cbn [pp width]. rewrite Nat.add_0_l, <- pp_shift. do 2 f_equal. lia.
Qed.
Lemma parse_app file l1 l2 p : parse file (l1 ++ l2) p =
  match parse file l1 p with
  | Ret (r1, q) => match parse file l2 q with Ret (r2, q') => Ret (r1 ++ r2, q') | Raise w => Raise w end
  | Raise w => Raise w
  end.
Proof.
  revert p. induction l1 as [|[nm k n|d] l1 IH]; intros p.
  - cbn. destruct (parse file l2 p) as [[r q]|w]; reflexivity.
  - cbn [app parse]. destruct (read file p k n) as [v|w]; [|reflexivity]. cbn [bind]. rewrite IH.
    destruct (parse file l1 _) as [[r1 q]|w]; [|reflexivity]. cbn [bind].
    destruct (parse file l2 q) as [[r2 q']|w]; reflexivity.
  - cbn [app parse]. destruct (seek p d) as [q|w]; [|reflexivity]. cbn [bind]. apply IH.
Qed.
Lemma parse_skips file l : Forall (fun i => exists d, i = Skip d /\ 0 <= d) l -> forall p, 0 <= p -> parse file l p = Ret ([], p + Z.of_nat (width l)).
Proof.
  induction 1 as [|i l (d & -> & D) H IH]; intros p P; [cbn; now rewrite Z.add_0_r|]. cbn [parse width].
  unfold seek. replace (p + d <? 0) with false by (symmetry; apply Z.ltb_ge; lia). cbn [bind]. rewrite IH by lia. do 2 f_equal. lia.
Qed.

(** ** Values by byte numbers *)
Lemma le_nth w : forall x, Ad2cp.le (firstn w x) = total (map (fun j => nth j x 0 * 256 ^ Z.of_nat j) (seq 0 w)).
Proof.
  induction w as [|w IH]; intros x; [reflexivity|]. destruct x as [|b x].
  - cbn [firstn Ad2cp.le]. symmetry. assert (G : forall l, total (map (fun j => nth j (@nil Z) 0 * 256 ^ Z.of_nat j) l) = 0).
    { induction l as [|a l IHl]; [reflexivity|]. cbn [map total fold_right]. destruct a; cbn [nth]; rewrite Z.mul_0_l; exact IHl. }
    apply G.
  - cbn [firstn Ad2cp.le seq map]. rewrite IH. cbn [total fold_right nth]. change (Z.of_nat 0) with 0. rewrite Z.pow_0_r, Z.mul_1_r. f_equal.
    rewrite <- seq_shift, map_map. fold (total (map (fun j => nth j x 0 * 256 ^ Z.of_nat j) (seq 0 w))).
    assert (G : forall l, 256 * total (map (fun j => nth j x 0 * 256 ^ Z.of_nat j) l) = total (map (fun j => nth j x 0 * 256 ^ Z.of_nat (S j)) l)).
    { induction l as [|a l IHl]; [reflexivity|]. cbn [map total fold_right]. cbn [map total fold_right] in IHl. rewrite Z.mul_add_distr_l. unfold total in IHl. rewrite IHl. f_equal.
      rewrite Nat2Z.inj_succ, Z.pow_succ_r by lia. ring. }
    apply G.
Qed.
Lemma nth_skipn_Z j o (x : bytes) : nth j (skipn o x) 0 = nth (o + j) x 0.
Proof. revert x. induction o as [|o IH]; intros [|b x]; try reflexivity; [now destruct j|]. cbn. apply IH. Qed.
Lemma le_uint id x o w : Ad2cp.le (firstn w (skipn o x)) = Rdi.uint (Rdi.block_bytes (id, x)) (o + 3) w.
Proof.
  rewrite le_nth. unfold Rdi.uint. f_equal. apply map_ext. intros j. f_equal. rewrite nth_skipn_Z.
  replace (o + 3 - 1 + j)%nat with (S (S (o + j))) by lia. reflexivity.
Qed.
Definition int_of (k : Ad2cp.kind) (b : bytes) (first : nat) : Z :=
  if Ad2cp.ksigned k then Rdi.sint b first (Ad2cp.ksize k) else Rdi.uint b first (Ad2cp.ksize k).
Lemma value_int k id x o : Ad2cp.value k (firstn (Ad2cp.ksize k) (skipn o x)) = int_of k (Rdi.block_bytes (id, x)) (o + 3).
Proof.
  unfold Ad2cp.value, int_of, Rdi.sint. rewrite (le_uint id). destruct k; cbn [Ad2cp.ksigned Ad2cp.ksize andb]; try reflexivity;
  repeat match goal with |- context[?a ^ ?b] => let c := eval compute in (a ^ b) in change (a ^ b) with c end;
  match goal with |- context[?a / 2] => let c := eval compute in (a / 2) in change (a / 2) with c end;
  match goal with |- context[Rdi.uint ?b ?o ?w] => generalize (Rdi.uint b o w) end; intros u;
  destruct (_ <=? u) eqn:A, (2 * u <? _) eqn:B; try reflexivity; (apply Z.leb_le in A || apply Z.leb_gt in A); (apply Z.ltb_lt in B || apply Z.ltb_ge in B); lia.
Qed.
Lemma values_int k id x o n : Ad2cp.values k n (skipn o x) =
  map (fun j => int_of k (Rdi.block_bytes (id, x)) (o + 3 + j * Ad2cp.ksize k)) (seq 0 n).
Proof.
  rewrite values_map. apply map_ext. intros j. rewrite skipn_add, (value_int k id). f_equal. lia.
Qed.
Lemma scaled_field k c id x o n : scaled c (Ad2cp.values k n (skipn o x)) =
  Rdi.field_value (Rdi.Field id (o + 3) (Ad2cp.ksize k) (Ad2cp.ksigned k) n c None) (Rdi.block_bytes (id, x)).
Proof.
  rewrite (values_int k id). unfold scaled, Rdi.field_value. rewrite map_map. apply map_ext. intros j. reflexivity.
Qed.
Lemma plain_scaled l : plain l = scaled 1 l.
Proof. unfold plain, scaled. apply map_ext. intros z. f_equal. unfold qz, Qmult, inject_Z. cbn. now rewrite Z.mul_1_r. Qed.

(** ** Writing *)
Lemma puts_vals l : forall e, puts l e = Ens (ek e) (e_cells e) (rev l ++ vals e).
Proof.
  unfold puts. induction l as [|[nm v] l IH]; intros e; [now destruct e|]. cbn [fold_left fst snd]. rewrite IH. unfold put. cbn [ek e_cells vals rev].
  now rewrite <- app_assoc.
Qed.
Lemma mem_In nm l : mem nm l = true <-> In nm l.
Proof.
  unfold mem. rewrite existsb_exists. split.
  - intros (x & I & E). apply String.eqb_eq in E. now subst.
  - intros I. exists nm. split; [exact I|apply String.eqb_refl].
Qed.
(** the groups of variables that are announced together *)
Definition groups : list (list string) :=
  [var_vars; ["pressure"; "pressure_std"]; ["vel"]; ["corr"]; ["amp"]; ["prcnt_gd"]; ["status"]; bottom_vars; alt_vars].
Definition closed (vars : list string) : Prop := forall g x, In g groups -> In (hd "" g) vars -> In x g -> In x vars.
Lemma groups_apart : forallb (fun g => forallb (fun g' => implb (mem (hd "" g') g) (forallb (fun x => mem x g) g')) groups) groups = true.
Proof. vm_compute. reflexivity. Qed.
Lemma iadd_closed vars g : In g groups -> closed vars -> closed (iadd vars g).
Proof.
  intros G C. unfold iadd. destruct (mem (hd "" g) vars); [exact C|]. intros g' x G' H X. apply in_or_app. apply in_app_or in H. destruct H as [H|H].
  - left. now apply (C g').
  - right. pose proof groups_apart as A. rewrite forallb_forall in A. specialize (A _ G). rewrite forallb_forall in A. specialize (A _ G').
    apply mem_In in H. rewrite H in A. cbn [implb] in A. rewrite forallb_forall in A. now apply mem_In, A.
Qed.
Lemma iadd_incl vars g : incl vars (iadd vars g).
Proof. unfold iadd. destruct (mem _ _); [apply incl_refl|apply incl_appl, incl_refl]. Qed.
Lemma iadd_all vars g : In g groups -> closed vars -> incl g (iadd vars g).
Proof.
  intros G C x X. unfold iadd. destruct (mem (hd "" g) vars) eqn:M; [apply mem_In in M; now apply (C g)|]. apply in_or_app. now right.
Qed.

Definition frame (s : st) := (hdr_nbyte s, hdr_offsets s, fixoffset s, source s, (winrivprob s, vmdas_search s, read_vmdas_done s), ens_bb s, id_positions s, scfg_bb s).
Record ready (N : Z) (pv : Q) (model : string) (s : st) (e : ensemble) : Prop := Ready {
  r_ens : ens s = Some e; r_cells : e_cells e = N; r_len : forall nm, In nm beam_vars -> length (get e nm) = Z.to_nat (4 * N);
  r_k : ek e = -1 \/ ek e = 0;
  r_pv : lookup "prog_ver" (scfg s) = Some (CQ pv); r_model : lookup "inst_model" (scfg s) = Some (CS model);
  r_n : lookup "n_cells" (scfg s) = Some (CZ N); r_source : source s = 0; r_prog : lookup "sourceprog" (scfg s) = None;
  r_closed : closed (vars_read s) }.
Record stepped (s : st) (e : ensemble) (dk : Z) (l : list (string * list (option Q))) (s' : st) : Prop := Stepped {
  t_frame : frame s' = frame s; t_cfg : scfg s' = scfg s; t_pos : pos s' = pos s + (nbyte s' - 2);
  t_ens : ens s' = Some (Ens (ek e + dk) (e_cells e) (rev l ++ vals e));
  t_incl : incl (vars_read s) (vars_read s'); t_vars : forall nm, In nm (map fst l) -> In nm (vars_read s');
  t_closed : closed (vars_read s') }.
Lemma k_fine e : ek e = -1 \/ ek e = 0 -> k_ok e = true.
Proof. intros [E|E]; unfold k_ok; rewrite E; reflexivity. Qed.

(** *** Skipping *)
Lemma skip_step n s e : 0 <= pos s -> 0 <= n -> ens s = Some e -> closed (vars_read s) -> exists s', skip_Nbyte n s = Ret s' /\ stepped s e 0 [] s'.
Proof.
  intros P N E C. unfold skip_Nbyte, seek. replace (pos s + n <? 0) with false by (symmetry; apply Z.ltb_ge; lia). cbn [bind]. eexists. split; [reflexivity|].
  constructor; cbn [pos nbyte frame hdr_nbyte hdr_offsets fixoffset source winrivprob vmdas_search read_vmdas_done ens_bb id_positions scfg scfg_bb ens vars_read with_nbyte at_pos]; try reflexivity; try exact C; try (intros ? []); [lia| |apply incl_refl].
  rewrite E, Z.add_0_r. now destruct e.
Qed.

(** *** Profiles *)
Lemma profile_step file x nm k c N pv model s e : ready N pv model s e -> at_ file (pos s) x -> 0 < N ->
  (Z.to_nat (4 * N) * Ad2cp.ksize k <= length x)%nat -> In [nm] groups -> In nm beam_vars ->
  exists s', read_profile file nm k c First s = Ret s' /\ stepped s e 0 [(nm, scaled c (Ad2cp.values k (Z.to_nat (4 * N)) x))] s'.
Proof.
  intros R A Np L G B. unfold read_profile, switch_profile. rewrite (r_ens _ _ _ _ _ R). cbn [or_raise bind].
  assert (E : (nm ++ "")%string = nm) by (clear; induction nm as [|ch nm IH]; [reflexivity|cbn; now rewrite IH]). rewrite E. cbn [append].
  change ("n_cells" ++ "")%string with "n_cells". unfold cfg_z. rewrite (r_n _ _ _ _ _ R). cbn [bind].
  change (pos (with_vars (iadd (vars_read s) [nm]) s)) with (pos s).
  rewrite (read_at _ _ x) by (trivial; lia). cbn [bind]. rewrite (k_fine e) by apply R. cbn [check bind]. rewrite (r_cells _ _ _ _ _ R), Z.leb_refl. cbn [check bind].
  eexists. split; [reflexivity|]. constructor; cbn [pos nbyte frame hdr_nbyte hdr_offsets fixoffset source winrivprob vmdas_search read_vmdas_done ens_bb id_positions scfg scfg_bb ens vars_read with_nbyte at_pos with_ens with_vars].
  - reflexivity.
  - reflexivity.
  - lia.
  - rewrite Z.add_0_r. unfold put. do 3 f_equal. cbn [rev app]. do 2 f_equal.
    rewrite skipn_all2; [apply app_nil_r|]. rewrite (r_len _ _ _ _ _ R) by exact B. lia.
  - apply iadd_incl.
  - intros y [<-|[]]. apply (iadd_all _ [nm]); [exact G|apply R|now left].
  - apply iadd_closed; [exact G|apply R].
Qed.

(** *** Altimeter *)
Lemma alt_step file x N pv model s e : ready N pv model s e -> at_ file (pos s) x -> (7 <= length x)%nat ->
  exists s', read_alt file s = Ret s' /\ stepped s e 0 (alt_values (pp alt_items 0 x)) s'.
Proof.
  intros R A L. unfold read_alt. rewrite (r_ens _ _ _ _ _ R). cbn [or_raise bind].
  change (pos (with_vars (iadd (vars_read s) alt_vars) s)) with (pos s).
  rewrite (parse_at _ _ _ x A); [|cbn; repeat split; lia|exact L]. cbn [bind]. rewrite (k_fine e) by apply R. cbn [check bind].
  eexists. split; [reflexivity|].
  assert (G : In alt_vars groups) by (cbn; tauto).
  constructor; cbn [pos nbyte frame hdr_nbyte hdr_offsets fixoffset source winrivprob vmdas_search read_vmdas_done ens_bb id_positions scfg scfg_bb ens vars_read with_nbyte at_pos with_ens with_vars].
  - reflexivity.
  - reflexivity.
  - reflexivity.
  - rewrite puts_vals, Z.add_0_r. reflexivity.
  - apply iadd_incl.
  - intros y Y. apply (iadd_all _ alt_vars G); [apply R|]. cbn in Y. cbn. tauto.
  - apply iadd_closed; [exact G|apply R].
Qed.

(** *** Bottom track *)
Definition eff_bottom (pv : Q) (x : bytes) : list (string * list (option Q)) :=
  bottom_values (pp (bottom_items false) 0 x) ++
  (if Qle_bool (53 # 10) pv then bottom_values2 (pp (bottom_items false) 0 x) (pp [Skip 7; Rd "range_msb" Ad2cp.U8 4] 68 x) else []).
Lemma bottom_step file x N pv model s e : ready N pv model s e -> at_ file (pos s) x ->
  ((if Qle_bool (53 # 10) pv then 79 else 68) <= length x)%nat ->
  exists s', read_bottom file s = Ret s' /\ stepped s e 0 (eff_bottom pv x) s'.
Proof.
  intros R A L. unfold read_bottom. cbn [ens with_vars]. rewrite (r_ens _ _ _ _ _ R). cbn [or_raise bind]. cbn [source with_vars]. rewrite (r_source _ _ _ _ _ R). cbn [Z.eqb].
  change (pos (with_vars (iadd (vars_read s) bottom_vars) s)) with (pos s).
  assert (L68 : (68 <= length x)%nat) by (destruct (Qle_bool _ _); lia).
  rewrite (parse_at _ _ _ x A); [|cbn; repeat split; lia|exact L68]. cbn [bind]. rewrite (k_fine e) by apply R. cbn [check bind].
  unfold cfg_q. cbn [scfg with_vars]. rewrite (r_pv _ _ _ _ _ R), (r_prog _ _ _ _ _ R). cbn [bind].
  change (Z.of_nat (width (bottom_items false))) with 68.
  assert (P : parse file (bottom_extra pv false) (pos s + 68) = Ret (if Qle_bool (53 # 10) pv then pp [Skip 7; Rd "range_msb" Ad2cp.U8 4] 68 x else [], pos s + (68 + bottom_extra_nbyte pv false))).
  { unfold bottom_extra, bottom_extra_nbyte. rewrite parse_app. pose proof (at_nonneg _ _ _ A).
    assert (K : parse file (if Qle_bool (53 # 10) pv then [Skip 7; Rd "range_msb" Ad2cp.U8 4] else []) (pos s + 68) =
      Ret (if Qle_bool (53 # 10) pv then pp [Skip 7; Rd "range_msb" Ad2cp.U8 4] 68 x else [], pos s + (68 + if Qle_bool (53 # 10) pv then 11 else 0))).
    { destruct (Qle_bool (53 # 10) pv).
      - change 68 with (Z.of_nat 68) at 1. rewrite (parse_at _ _ _ (skipn 68 x)); [|apply at_skip; [exact A|lia]|cbn; lia|rewrite skipn_length; cbn [width Ad2cp.ksize]; lia].
        rewrite <- pp_shift. do 2 f_equal. cbn. lia.
      - cbn [parse]. do 2 f_equal. }
    rewrite K. clear K. rewrite parse_skips.
    - rewrite app_nil_r. do 2 f_equal. destruct (Qle_bool (53 # 10) pv), (Qle_bool (162 # 10) pv), (Qle_bool (561 # 10) pv); cbn; lia.
    - destruct (Qle_bool (162 # 10) pv), (Qle_bool (561 # 10) pv); cbn; repeat (apply Forall_cons; [exists 4; split; [reflexivity|lia]|]); apply Forall_nil.
    - destruct (Qle_bool (53 # 10) pv); lia. }
  rewrite P. cbn [bind]. eexists. split; [reflexivity|].
  assert (G : In bottom_vars groups) by (cbn; tauto).
  constructor; cbn [pos nbyte frame hdr_nbyte hdr_offsets fixoffset source winrivprob vmdas_search read_vmdas_done ens_bb id_positions scfg scfg_bb ens vars_read with_nbyte at_pos with_ens with_vars].
  - reflexivity.
  - reflexivity.
  - lia.
  - rewrite !puts_vals, Z.add_0_r. cbn [ek e_cells vals]. do 2 f_equal. unfold eff_bottom. rewrite rev_app_distr, <- app_assoc. f_equal.
    destruct (Qle_bool (53 # 10) pv); reflexivity.
  - apply iadd_incl.
  - intros y Y. apply (iadd_all _ bottom_vars G); [apply R|]. unfold eff_bottom in Y. destruct (Qle_bool (53 # 10) pv); cbn in Y; cbn; tauto.
  - apply iadd_closed; [exact G|apply R].
Qed.

(** *** Variable leader *)
Definition eff_var (model : string) (pv : Q) (x : bytes) : list (string * list (option Q)) :=
  var_values (pp var_items 0 x) ++ var_values2 (pp (var_extra model pv) 40 x).
Lemma var_extra_width model pv : Z.of_nat (width (var_extra model pv)) = var_extra_nbyte model pv /\ forward (var_extra model pv).
Proof.
  unfold var_extra, var_extra_nbyte. destruct (String.eqb model "broadband"); [|destruct (String.eqb model "ocean surveyor")].
  - destruct (Qle_bool (555 # 100) pv); cbn; lia.
  - destruct (Qle_bool pv 23); cbn; lia.
  - destruct (Qle_bool (813 # 100) pv), (Qle_bool (824 # 100) pv), (Qle_bool (1605 # 100) pv), (Qle_bool 56 pv); cbn; lia.
Qed.
Lemma var_step file x N pv model s e : ready N pv model s e -> ek e = -1 -> at_ file (pos s) x ->
  (40 + width (var_extra model pv) <= length x)%nat ->
  exists s', read_var file false s = Ret s' /\ stepped s e 1 (eff_var model pv x) s'.
Proof.
  intros R K A L. unfold read_var. rewrite (r_ens _ _ _ _ _ R). cbn [or_raise bind with_ens ens].
  change (pos (with_vars _ _)) with (pos s).
  rewrite (parse_at _ _ _ x A); [|cbn; repeat split; lia|change (width var_items) with 40%nat; lia]. cbn [bind]. unfold k_ok. cbn [ek set_k]. rewrite K. change ((-1 + 1 =? -1) || (-1 + 1 =? 0)) with true. cbn [check bind].
  unfold cfg_s, cfg_q. cbn [scfg with_vars with_ens]. rewrite (r_model _ _ _ _ _ R), (r_pv _ _ _ _ _ R). cbn [bind].
  change (Z.of_nat (width var_items)) with (Z.of_nat 40). destruct (var_extra_width model pv) as [W F].
  rewrite (parse_at _ _ _ (skipn 40 x)); [|apply at_skip; [exact A|lia]|exact F|rewrite skipn_length; lia].
  rewrite <- pp_shift. cbn [bind]. eexists. split; [reflexivity|].
  assert (G : In var_vars groups) by (cbn; tauto). assert (G2 : In ["pressure"; "pressure_std"] groups) by (cbn; tauto).
  pose proof (r_closed _ _ _ _ _ R) as C.
  constructor; cbn [pos nbyte frame hdr_nbyte hdr_offsets fixoffset source winrivprob vmdas_search read_vmdas_done ens_bb id_positions scfg scfg_bb ens vars_read with_nbyte at_pos with_ens with_vars].
  - reflexivity.
  - reflexivity.
  - rewrite W. lia.
  - rewrite !puts_vals. cbn [ek e_cells vals set_k]. unfold eff_var. rewrite rev_app_distr, <- app_assoc, K. reflexivity.
  - destruct (is_other model); [eapply incl_tran; [|apply iadd_incl]|]; apply iadd_incl.
  - intros y Y. unfold eff_var in Y. rewrite map_app in Y. apply in_app_or in Y. destruct Y as [Y|Y].
    + assert (V : In y (iadd (vars_read s) var_vars)) by (apply (iadd_all _ var_vars G C); cbn in Y; cbn; tauto).
      destruct (is_other model); [now apply iadd_incl|exact V].
    + unfold var_values2 in Y. rewrite !map_app in Y.
      assert (V : In "rtc" (iadd (vars_read s) var_vars)) by (apply (iadd_all _ var_vars G C); cbn; tauto).
      assert (T : In y (map fst (match lookup "rtc4" (pp (var_extra model pv) 40 x) with Some _ => [("rtc", plain (rtc_with_century (pp (var_extra model pv) 40 x)))] | None => [] end)) -> y = "rtc").
      { destruct (lookup "rtc4" _); cbn; [intros [<-|[]]; reflexivity|intros []]. }
      assert (Q : is_other model = true \/ lookup "pressure" (pp (var_extra model pv) 40 x) = None /\ lookup "pressure_std" (pp (var_extra model pv) 40 x) = None).
      { unfold is_other, var_extra. destruct (String.eqb model "broadband"); [right|destruct (String.eqb model "ocean surveyor"); [right|now left]].
        - destruct (Qle_bool _ _); split; reflexivity.
        - destruct (Qle_bool _ _); split; reflexivity. }
      destruct Q as [Q|[Q1 Q2]].
      * rewrite Q. repeat (apply in_app_or in Y; destruct Y as [Y|Y]).
        -- destruct (lookup "pressure" _); [|destruct Y]. destruct Y as [<-|[]]. apply (iadd_all _ _ G2); [now apply iadd_closed|now left].
        -- destruct (lookup "pressure_std" _); [|destruct Y]. destruct Y as [<-|[]]. apply (iadd_all _ _ G2); [now apply iadd_closed|now right; left].
        -- rewrite (T Y). now apply iadd_incl.
      * rewrite Q1, Q2 in Y. cbn [map app] in Y. rewrite (T Y). destruct (is_other model); [now apply iadd_incl|exact V].
  - destruct (is_other model); [apply iadd_closed; [exact G2|]|]; now apply iadd_closed.
Qed.

(** *** Fixed leader *)
Lemma fixed_extra_width pv : Z.of_nat (width (fixed_extra pv)) = fixed_extra_nbyte pv /\ forward (fixed_extra pv).
Proof.
  unfold fixed_extra, fixed_extra_nbyte.
  destruct (Qle_bool (814 # 100) pv), (Qle_bool (824 # 100) pv), (Qle_bool (1605 # 100) pv), (Qle_bool (1627 # 100) pv); cbn; lia.
Qed.
Lemma Qle_bool_down a b v : Qle_bool b v = true -> (a <= b)%Q -> Qle_bool a v = true.
Proof. intros H L. apply Qle_bool_iff. apply Qle_bool_iff in H. now apply Qle_trans with b. Qed.
Lemma fixed_length_width pv : Rdi.fixed_length pv = 42 + fixed_extra_nbyte pv.
Proof.
  unfold Rdi.fixed_length, fixed_extra_nbyte.
  destruct (Qle_bool (1627 # 100) pv) eqn:A.
  - rewrite (Qle_bool_down (814 # 100) _ _ A), (Qle_bool_down (824 # 100) _ _ A), (Qle_bool_down (1605 # 100) _ _ A) by discriminate. reflexivity.
  - destruct (Qle_bool (1605 # 100) pv) eqn:B.
    + rewrite (Qle_bool_down (814 # 100) _ _ B), (Qle_bool_down (824 # 100) _ _ B) by discriminate. reflexivity.
    + destruct (Qle_bool (824 # 100) pv) eqn:C.
      * rewrite (Qle_bool_down (814 # 100) _ _ C) by discriminate. reflexivity.
      * destruct (Qle_bool (814 # 100) pv); reflexivity.
Qed.
Lemma land_mod a n : 0 <= n -> Z.land a (Z.ones n) = a mod 2 ^ n.
Proof. intros H. now apply Z.land_ones. Qed.
Definition fx (x : bytes) : bytes := Rdi.block_bytes (0, x).
Lemma tmp_byte x j : (j < 5)%nat -> nth j (raws (pp fixed_items 0 x) "tmp") 0 = Rdi.uint (fx x) (3 + j) 1.
Proof.
  intros J. change (raws (pp fixed_items 0 x) "tmp") with (Ad2cp.values Ad2cp.U8 5 (skipn 0 x)). rewrite (values_int _ 0).
  do 5 (destruct j as [|j]; [reflexivity|]). lia.
Qed.
Lemma raw_cells x : raw1 (pp fixed_items 0 x) "n_cells" = Rdi.cells (fx x).
Proof.
  change (raw1 (pp fixed_items 0 x) "n_cells") with (hd 0 (Ad2cp.values Ad2cp.U8 1 (skipn 7 x))). rewrite (values_int _ 0). reflexivity.
Qed.
Lemma extra_not nm pv x o : In nm ["cpu_serialnum"; "bandwidth"; "power_level"; "serialnum"; "beam_angle"] \/ lookup nm (pp (fixed_extra pv) o x) = None.
Proof.
  destruct (in_dec string_dec nm ["cpu_serialnum"; "bandwidth"; "power_level"; "serialnum"; "beam_angle"]) as [I|I]; [now left|right].
  assert (G : forall l, (forall i, In i l -> match i with Rd n _ _ => n <> nm | Skip _ => True end) -> forall o, lookup nm (pp l o x) = None).
  { clear. induction l as [|[n k c|d] l IH]; intros H o; [reflexivity| |].
    - cbn [pp lookup]. pose proof (H _ (or_introl eq_refl)) as Hn. cbn in Hn. apply String.eqb_neq in Hn. rewrite Hn. apply IH. intros i Hi. apply H. now right.
    - cbn [pp]. apply IH. intros i Hi. apply H. now right. }
  apply G. intros i Hi. unfold fixed_extra in Hi.
  destruct (Qle_bool (814 # 100) pv), (Qle_bool (824 # 100) pv), (Qle_bool (1605 # 100) pv), (Qle_bool (1627 # 100) pv); cbn in Hi;
  repeat (destruct Hi as [<-|Hi]; [try exact Logic.I; intros <-; apply I; cbn; tauto|]); destruct Hi.
Qed.
Lemma lookup_app {A} nm (l1 l2 : list (string * A)) : lookup nm (l1 ++ l2) = match lookup nm l1 with Some v => Some v | None => lookup nm l2 end.
Proof. induction l1 as [|[x v] l1 IH]; [reflexivity|]. cbn. destruct (String.eqb x nm); [reflexivity|exact IH]. Qed.

Lemma land_bit a k : 0 <= k -> (Z.land a (2 ^ k) =? 2 ^ k) = Z.testbit a k.
Proof.
  intros Hk. destruct (Z.testbit a k) eqn:E.
  - apply Z.eqb_eq. apply Z.bits_inj'. intros i Hi. rewrite Z.land_spec. destruct (Z.eq_dec i k) as [->|N]; [rewrite E; reflexivity|]. rewrite (Z.pow2_bits_false k i) by lia. apply andb_false_r.
  - apply Z.eqb_neq. intros H. assert (X : Z.testbit (Z.land a (2 ^ k)) k = true) by (rewrite H; apply Z.pow2_bits_true; exact Hk). rewrite Z.land_spec, E in X. discriminate.
Qed.
(** the names of the instruments *)
Lemma other_name nm v : mem nm ("unrecognized firmware version" :: map snd other_types) = false -> String.eqb (other_model v) nm = false.
Proof.
  intros H. destruct (String.eqb (other_model v) nm) eqn:E; [|reflexivity]. apply String.eqb_eq in E. subst nm. exfalso. rewrite <- Bool.not_true_iff_false in H. apply H. clear H.
  unfold mem. apply existsb_exists. exists (other_model v). split; [|apply String.eqb_refl]. unfold other_model. destruct (find _ _) as [p|] eqn:F; [|now left].
  apply find_some in F. right. apply in_map. apply F.
Qed.
Lemma other_bb v : String.eqb (other_model v) "broadband" = false. Proof. apply other_name. reflexivity. Qed.
Lemma other_os v : String.eqb (other_model v) "ocean surveyor" = false. Proof. apply other_name. reflexivity. Qed.
Lemma instrument_name fixed : inst_model_of (Rdi.version fixed) = Rdi.instrument fixed.
Proof.
  unfold Rdi.instrument. set (v := Rdi.version fixed). clearbody v.
  destruct (in_dec Z.eq_dec v (concat (map snd Rdi.instruments))) as [H|H].
  - cbn in H. repeat (destruct H as [<-|H]; [reflexivity|]). destruct H.
  - destruct (find (fun p => existsb (Z.eqb v) (snd p)) Rdi.instruments) as [p|] eqn:F.
    { exfalso. apply H. apply find_some in F. destruct F as [F1 F2]. apply existsb_exists in F2. destruct F2 as (k & K & E). apply Z.eqb_eq in E. subst k.
      apply in_concat. exists (snd p). split; [now apply in_map|exact K]. }
    clear F. unfold inst_model_of, other_model.
    assert (N : forall k, In k (concat (map snd Rdi.instruments)) -> (v =? k) = false) by (intros k K; apply Z.eqb_neq; intros ->; contradiction).
    rewrite (N 4), (N 5), (N 14), (N 23) by (cbn; tauto). cbn [orb].
    destruct (find (fun p => fst p =? v) other_types) as [p|] eqn:F; [|reflexivity]. exfalso. apply H. apply find_some in F. destruct F as [F1 F2]. apply Z.eqb_eq in F2. rewrite <- F2.
    assert (G : forallb (fun q => existsb (Z.eqb (fst q)) (concat (map snd Rdi.instruments))) other_types = true) by reflexivity.
    rewrite forallb_forall in G. specialize (G p F1). apply existsb_exists in G. destruct G as (k & K & E). apply Z.eqb_eq in E. rewrite E. exact K.
Qed.
Ltac here := unfold raw1, raws; cbn [pp app fixed_items lookup String.eqb Ascii.eqb Bool.eqb Nat.add Nat.mul Ad2cp.ksize Z.to_nat Pos.to_nat Pos.iter_op]; rewrite (values_int _ 0); reflexivity.
Lemma cfgseg_step file x s : at_ file (pos s) x -> Rdi.fixed_sound (fx x) ->
  exists new nb, read_cfgseg file false s = Ret (with_cfg (new ++ scfg s) (scfg_bb s) (with_nbyte nb (at_pos (pos s + nb) s))) /\
    40 <= nb /\ nb = 40 + fixed_extra_nbyte (Rdi.firmware (fx x)) /\
    lookup "prog_ver" new = Some (CQ (Rdi.firmware (fx x))) /\ lookup "inst_model" new = Some (CS (inst_model_of (Rdi.version (fx x)))) /\
    lookup "n_cells" new = Some (CZ (Rdi.cells (fx x))) /\ lookup "sourceprog" new = None /\
    forall nm v, In (nm, v) (Rdi.settings (fx x)) -> lookup nm new = Some v.
Proof.
  intros A (L & Ba & Fr & Si). unfold Rdi.len in L. rewrite fixed_length_width in L.
  assert (L' : (40 + width (fixed_extra (Rdi.firmware (fx x))) <= length x)%nat).
  { destruct (fixed_extra_width (Rdi.firmware (fx x))) as [W _]. assert (Lx : length (fx x) = S (S (length x))) by reflexivity. lia. }
  unfold read_cfgseg. rewrite (parse_at _ _ _ x A); [|cbn; repeat split; lia|change (width fixed_items) with 40%nat; lia]. cbn [bind].
  rewrite !tmp_byte by lia. cbn [Nat.add].
  assert (Bx : exists ba, nth_error [15; 20; 30] (Z.to_nat (Z.land (Rdi.uint (fx x) 6 1) 3)) = Some ba).
  { change 3 with (Z.ones 2). rewrite land_mod by lia. change (2 ^ 2) with 4. pose proof (Z.mod_pos_bound (Rdi.uint (fx x) 6 1) 4 ltac:(lia)) as B.
    destruct (nth_error [15; 20; 30] (Z.to_nat (Rdi.uint (fx x) 6 1 mod 4))) eqn:E; [eauto|]. apply nth_error_None in E. cbn [length] in E. lia. }
  destruct Bx as (ba & Eba). rewrite Eba. cbn [or_raise bind].
  assert (Fx : exists fr, nth_error [75; 150; 300; 600; 1200; 2400; 38] (Z.to_nat (Z.land (Rdi.uint (fx x) 5 1) 7)) = Some fr).
  { change 7 with (Z.ones 3). rewrite land_mod by lia. change (2 ^ 3) with 8. pose proof (Z.mod_pos_bound (Rdi.uint (fx x) 5 1) 8 ltac:(lia)) as B.
    destruct (nth_error [75; 150; 300; 600; 1200; 2400; 38] (Z.to_nat (Rdi.uint (fx x) 5 1 mod 8))) eqn:E; [eauto|]. apply nth_error_None in E. cbn [length] in E. lia. }
  destruct Fx as (fr & Efr). rewrite Efr. cbn [or_raise bind]. rewrite (proj2 (Z.ltb_lt _ _) Si). cbn [check bind].
  change (Z.of_nat (width fixed_items)) with (Z.of_nat 40). fold (Rdi.version (fx x)). change (qz (Rdi.version (fx x)) + qz (Rdi.uint (fx x) 4 1) * (1 # 100))%Q with (Rdi.firmware (fx x)).
  destruct (fixed_extra_width (Rdi.firmware (fx x))) as [W F].
  rewrite (parse_at _ _ _ (skipn 40 x)); [|apply at_skip; [exact A|lia]|exact F|rewrite skipn_length; lia]. rewrite <- pp_shift. cbn [bind].
  match goal with |- exists new nb, Ret (with_cfg (?n ++ _) _ _) = _ /\ _ => exists n end. exists (40 + fixed_extra_nbyte (Rdi.firmware (fx x))).
  split. { f_equal. f_equal. unfold with_nbyte, at_pos. cbn [pos nbyte hdr_nbyte hdr_offsets fixoffset source winrivprob vmdas_search read_vmdas_done ens_bb id_positions scfg scfg_bb ens vars_read]. f_equal. rewrite W. lia. }
  split. { rewrite <- W. lia. }
  split; [reflexivity|].
  assert (G : forall nm l, ~ In nm ["beam_angle"; "serialnum"; "power_level"; "bandwidth"] ->
    lookup nm ((match lookup "beam_angle" (pp (fixed_extra (Rdi.firmware (fx x))) 40 x) with Some v => [("beam_angle", CZ (hd 0 v))] | None => [] end) ++
      (match lookup "serialnum" (pp (fixed_extra (Rdi.firmware (fx x))) 40 x) with Some v => [("serialnum", CZ (hd 0 v))] | None => [] end) ++
      (match lookup "power_level" (pp (fixed_extra (Rdi.firmware (fx x))) 40 x) with Some v => [("power_level", CZ (hd 0 v))] | None => [] end) ++
      (match lookup "bandwidth" (pp (fixed_extra (Rdi.firmware (fx x))) 40 x) with Some v => [("bandwidth", CZ (hd 0 v))] | None => [] end) ++ l) = lookup nm l).
  { intros nm l H. rewrite !lookup_app.
    assert (N : forall k v, In k ["beam_angle"; "serialnum"; "power_level"; "bandwidth"] -> lookup nm (match lookup k (pp (fixed_extra (Rdi.firmware (fx x))) 40 x) with Some w => [(k, v w)] | None => [] end) = @None cval).
    { intros k v Hk. destruct (lookup k _); [|reflexivity]. cbn. destruct (String.eqb k nm) eqn:E; [|reflexivity]. apply String.eqb_eq in E. now subst. }
    rewrite (N "beam_angle"), (N "serialnum"), (N "power_level"), (N "bandwidth") by (cbn; tauto). reflexivity. }
  rewrite !G by (cbn; intuition discriminate). split; [reflexivity|]. split; [reflexivity|]. split; [cbn [lookup String.eqb Ascii.eqb Bool.eqb]; rewrite raw_cells; reflexivity|]. split; [reflexivity|].
  intros nm v H. unfold Rdi.settings in H. apply in_app_or in H. destruct H as [H|H].
  - cbn [In] in H.
    assert (Ebit : forall o k, 0 <= k -> (Z.land (Rdi.uint (fx x) o 1) (2 ^ k) =? 2 ^ k) = Rdi.bit (fx x) o k) by (intros o k Hk; apply land_bit; exact Hk).
    assert (Ecode : forall o lo w, 0 <= lo -> 0 <= w -> Z.land (Z.shiftr (Rdi.uint (fx x) o 1) lo) (Z.ones w) = Rdi.uint (fx x) o 1 / 2 ^ lo mod 2 ^ w) by (intros o lo w Hl Hw; rewrite Z.land_ones, Z.shiftr_div_pow2 by assumption; reflexivity).
    destruct H as [H|H]; [injection H as <- <-; rewrite G by (cbn; intuition discriminate); reflexivity|].
    destruct H as [H|H].
    { injection H as <- <-. rewrite G by (cbn; intuition discriminate). cbn [lookup String.eqb Ascii.eqb Bool.eqb]. do 2 f_equal. unfold Rdi.code. change (2 ^ 0) with 1. rewrite Z.div_1_r.
      change 7 with (Z.ones 3) in Efr. rewrite land_mod in Efr by lia. symmetry. exact (nth_error_nth _ _ 0 Efr). }
    destruct H as [H|H].
    { injection H as <- <-. rewrite G by (cbn; intuition discriminate). cbn [lookup String.eqb Ascii.eqb Bool.eqb]. change 8 with (2 ^ 3). rewrite Ebit by lia. reflexivity. }
    destruct H as [H|H].
    { injection H as <- <-. rewrite G by (cbn; intuition discriminate). cbn [lookup String.eqb Ascii.eqb Bool.eqb]. change 128 with (2 ^ 7). rewrite Ebit by lia. reflexivity. }
    destruct H as [H|H].
    { injection H as <- <-. rewrite lookup_app. unfold fixed_extra. destruct (Qle_bool (1627 # 100) (Rdi.firmware (fx x))) eqn:E27.
      - rewrite (Qle_bool_down (814 # 100) _ _ E27), (Qle_bool_down (824 # 100) _ _ E27), (Qle_bool_down (1605 # 100) _ _ E27) by discriminate.
        cbn [pp app lookup String.eqb Ascii.eqb Bool.eqb Nat.add Nat.mul Ad2cp.ksize Z.to_nat Pos.to_nat Pos.iter_op]. rewrite (values_int _ 0). reflexivity.
      - assert (Nn : forall l o, lookup "beam_angle" (pp ((if Qle_bool (814 # 100) (Rdi.firmware (fx x)) then [Rd "cpu_serialnum" Ad2cp.U8 8] else []) ++ (if Qle_bool (824 # 100) (Rdi.firmware (fx x)) then [Rd "bandwidth" Ad2cp.U16 1] else []) ++ (if Qle_bool (1605 # 100) (Rdi.firmware (fx x)) then [Rd "power_level" Ad2cp.U8 1] else []) ++ []) o l) = None).
        { intros l o. destruct (Qle_bool (814 # 100) _), (Qle_bool (824 # 100) _), (Qle_bool (1605 # 100) _); reflexivity. }
        rewrite Nn. cbn [lookup]. rewrite !lookup_app.
        match goal with |- context [lookup "beam_angle" (match ?a with Some v => [("serialnum", _)] | None => [] end)] => destruct a end;
        match goal with |- context [lookup "beam_angle" (match ?a with Some v => [("power_level", _)] | None => [] end)] => destruct a end;
        match goal with |- context [lookup "beam_angle" (match ?a with Some v => [("bandwidth", _)] | None => [] end)] => destruct a end;
        cbn [lookup String.eqb Ascii.eqb Bool.eqb]; do 2 f_equal; unfold Rdi.code; change (2 ^ 0) with 1; rewrite Z.div_1_r;
        change 3 with (Z.ones 2) in Eba; rewrite land_mod in Eba by lia; symmetry; exact (nth_error_nth _ _ 0 Eba). }
    destruct H as [H|H].
    { injection H as <- <-. rewrite G by (cbn; intuition discriminate). cbn [lookup String.eqb Ascii.eqb Bool.eqb]. change 16 with (2 ^ 4). rewrite Ebit by lia.
      unfold raw1, raws. cbn [pp app fixed_items lookup String.eqb Ascii.eqb Bool.eqb Nat.add Nat.mul Ad2cp.ksize Z.to_nat Pos.to_nat Pos.iter_op]. rewrite (values_int _ 0). reflexivity. }
    do 10 (destruct H as [H|H]; [injection H as <- <-; rewrite G by (cbn; intuition discriminate); cbn [lookup String.eqb Ascii.eqb Bool.eqb]; here|]).
    assert (Ecs : raw1 (pp fixed_items 0 x) "coord_sys" = Rdi.uint (fx x) 26 1) by here.
    destruct H as [H|H].
    { injection H as <- <-. rewrite G by (cbn; intuition discriminate). cbn [lookup String.eqb Ascii.eqb Bool.eqb]. rewrite Ecs. change (Z.land (Z.shiftr (Rdi.uint (fx x) 26 1) 3) 3) with (Z.land (Z.shiftr (Rdi.uint (fx x) 26 1) 3) (Z.ones 2)). rewrite Ecode by lia. reflexivity. }
    destruct H as [H|H]; [injection H as <- <-; rewrite G by (cbn; intuition discriminate); cbn [lookup String.eqb Ascii.eqb Bool.eqb]; rewrite Ecs; unfold yes_no; pose proof (Ebit 26%nat 2 ltac:(lia)) as Eb; change (2 ^ 2) with 4 in Eb; rewrite Eb; reflexivity|].
    destruct H as [H|H]; [injection H as <- <-; rewrite G by (cbn; intuition discriminate); cbn [lookup String.eqb Ascii.eqb Bool.eqb]; rewrite Ecs; unfold yes_no; pose proof (Ebit 26%nat 1 ltac:(lia)) as Eb; change (2 ^ 1) with 2 in Eb; rewrite Eb; reflexivity|].
    destruct H as [H|H]; [injection H as <- <-; rewrite G by (cbn; intuition discriminate); cbn [lookup String.eqb Ascii.eqb Bool.eqb]; rewrite Ecs; unfold yes_no; pose proof (Ebit 26%nat 0 ltac:(lia)) as Eb; change (2 ^ 0) with 1 in Eb; rewrite Eb; reflexivity|].
    repeat (destruct H as [H|H]; [injection H as <- <-; rewrite G by (cbn; intuition discriminate); cbn [lookup String.eqb Ascii.eqb Bool.eqb]; here|]).
    destruct H.
  - apply in_app_or in H. destruct H as [H|H]; [|apply in_app_or in H; destruct H as [H|H]; [|apply in_app_or in H; destruct H as [H|H]]].
    + destruct (Qle_bool (824 # 100) (Rdi.firmware (fx x))) eqn:E24; [|destruct H]. destruct H as [H|[]]. injection H as <- <-.
      unfold fixed_extra. rewrite E24, (Qle_bool_down (814 # 100) _ _ E24) by discriminate.
      destruct (Qle_bool (1605 # 100) (Rdi.firmware (fx x))), (Qle_bool (1627 # 100) (Rdi.firmware (fx x)));
        cbn [pp app lookup String.eqb Ascii.eqb Bool.eqb Nat.add Nat.mul Ad2cp.ksize Z.to_nat Pos.to_nat Pos.iter_op]; rewrite !(values_int _ 0); reflexivity.
    + destruct (Qle_bool (1605 # 100) (Rdi.firmware (fx x))) eqn:E05; [|destruct H]. destruct H as [H|[]]. injection H as <- <-.
      unfold fixed_extra. rewrite E05, (Qle_bool_down (814 # 100) _ _ E05), (Qle_bool_down (824 # 100) _ _ E05) by discriminate.
      destruct (Qle_bool (1627 # 100) (Rdi.firmware (fx x)));
        cbn [pp app lookup String.eqb Ascii.eqb Bool.eqb Nat.add Nat.mul Ad2cp.ksize Z.to_nat Pos.to_nat Pos.iter_op]; rewrite !(values_int _ 0); reflexivity.
    + destruct (Qle_bool (1627 # 100) (Rdi.firmware (fx x))) eqn:E27; [|destruct H]. destruct H as [H|[]]. injection H as <- <-.
      unfold fixed_extra. rewrite E27, (Qle_bool_down (814 # 100) _ _ E27), (Qle_bool_down (824 # 100) _ _ E27), (Qle_bool_down (1605 # 100) _ _ E27) by discriminate.
      cbn [pp app lookup String.eqb Ascii.eqb Bool.eqb Nat.add Nat.mul Ad2cp.ksize Z.to_nat Pos.to_nat Pos.iter_op]. rewrite !(values_int _ 0). reflexivity.
    + destruct H as [H|[]]. injection H as <- <-. rewrite G by (cbn; intuition discriminate). cbn [lookup String.eqb Ascii.eqb Bool.eqb]. now rewrite <- instrument_name.
Qed.
