(** Lemmas on the dataset of an AWAC file. *)
From Coq Require Import String.
From Coq Require Import ZArith QArith List Bool Lia.
From Verif.Model Require Import Nortek NortekFile NortekGuess NortekData Gaps HandleNan Time ReadVector ReadAwac.
From Verif.Model Require RdiBlocks.
From Verif.Spec Require Import Nortek NortekGuess NortekData Time HandleNan ReadVector ReadAwac.
From Verif.Spec Require SigData.
From Verif.Proofs Require Import Gaps NortekFile HandleNan Time ReadVector.
From Verif.Proofs Require NortekGuess Calendar Nortek NortekData.
Import ListNotations.
Open Scope nat_scope.

(** ** dates *)
Lemma date_recent l dt : Forall is_byte l -> rd_time l = Some dt -> Calendar.okd dt /\ (0 < RdiBlocks.epoch dt)%Z.
Proof.
  intros B. unfold rd_time. destruct l as [|mi [|sc [|dy [|hr [|yr [|mo l]]]]]]; try discriminate.
  set (d := Date _ _ _ _ _ _). destruct (valid_date d) eqn:V; [|discriminate]. intros X. injection X as <-.
  assert (Y : (1990 <= year d)%Z).
  { cbn [d year]. rewrite Forall_forall in B. assert (H : is_byte yr) by (apply B; cbn; auto 9). unfold is_byte in H.
    apply (fullyear_window (bcd2char yr)). apply Nortek.bcd_range. lia. }
  assert (O : Calendar.okd d) by (apply Calendar.valid_okd; [exact V|lia]). split; [exact O|].
  destruct (Calendar.okd_prev d O) as [E|(d' & O' & E)]; [rewrite E in Y; cbn in Y; lia|].
  rewrite <- E, Calendar.epoch_next by exact O'. pose proof (Calendar.epoch_nonneg d' O'). lia.
Qed.
Lemma ns_whole n : (0 <= n)%Z -> epoch2dt64 (inject_Z n) = (n * 1000000000)%Z.
Proof.
  intros H. rewrite epoch2dt64_floor by (right; exists n; reflexivity). rewrite <- inject_Z_mult. apply Qround.Qfloor_Z.
Qed.
Lemma dated_exact fs (ns : list Z) : Forall (fun n => (0 < n)%Z) ns ->
  dated_times fs (map (fun n => Some (inject_Z n)) ns) = Some (map (fun n => (n * 1000000000)%Z) ns).
Proof.
  intros P. unfold dated_times.
  assert (M : map missing_zero (map (fun n => Some (inject_Z n)) ns) = map (fun n => Some (inject_Z n)) ns).
  { rewrite map_map. apply map_ext_in. intros n Hn. cbn. destruct (Qeq_bool (inject_Z n) 0) eqn:Z; [|reflexivity].
    apply Qeq_bool_eq in Z. rewrite Forall_forall in P. specialize (P n Hn). unfold Qeq in Z. cbn in Z. lia. }
  rewrite M. replace (existsb _ _) with false.
  - cbn [option_map]. f_equal. rewrite map_map. apply map_ext_in. intros n Hn. apply ns_whole. rewrite Forall_forall in P. specialize (P n Hn). lia.
  - symmetry. clear. induction ns as [|n ns IH]; [reflexivity|exact IH].
Qed.

(** ** the lines of the cells *)
Lemma seq_map_nth {A} (f : nat -> A) n j d : j < n -> nth j (map f (seq 0 n)) d = f j.
Proof.
  intros L. rewrite (nth_indep _ d (f 0)) by (rewrite map_length, seq_length; exact L). rewrite map_nth, seq_nth by exact L. reflexivity.
Qed.
Lemma cells_length bins f : length (cells bins f) = 3 * bins.
Proof. unfold cells. cbn [flat_map]. rewrite !app_length, !map_length, !seq_length. cbn [length]. lia. Qed.
Lemma cells_nth bins f k j : k < 3 -> j < bins -> nth (k * bins + j) (cells bins f) [] = f k j.
Proof.
  intros K J. unfold cells. cbn [flat_map]. destruct k as [|[|[|k]]]; [| | |lia].
  - rewrite app_nth1 by (rewrite map_length, seq_length; lia). apply seq_map_nth. exact J.
  - rewrite app_nth2 by (rewrite map_length, seq_length; lia). rewrite map_length, seq_length. replace (1 * bins + j - bins) with j by lia.
    rewrite app_nth1 by (rewrite map_length, seq_length; lia). apply seq_map_nth. exact J.
  - rewrite app_nth2 by (rewrite map_length, seq_length; lia). rewrite map_length, seq_length. replace (2 * bins + j - bins) with (bins + j) by lia.
    rewrite app_nth2 by (rewrite map_length, seq_length; lia). rewrite map_length, seq_length. replace (bins + j - bins) with j by lia.
    rewrite app_nth1 by (rewrite map_length, seq_length; lia). apply seq_map_nth. exact J.
Qed.
Lemma cells_all bins f (P : series -> Prop) : (forall k j, P (f k j)) -> Forall P (cells bins f).
Proof.
  intros H. unfold cells. apply Forall_forall. intros x Hx. apply in_flat_map in Hx. destruct Hx as (k & _ & Hx). apply in_map_iff in Hx.
  destruct Hx as (j & <- & _). apply H.
Qed.

Lemma awac_long e beams bins l : 0 < bins -> Forall (long (length l)) (awac_vars e beams bins l).
Proof.
  intros B. unfold awac_vars. cbv zeta.
  assert (O : forall nm x, length x = length l -> long (length l) (NVar nm 1 [x])).
  { intros nm x H. apply rect; [discriminate|reflexivity|]. apply Forall_cons; [exact H|apply Forall_nil]. }
  assert (W : forall nm f, (forall k j, length (f k j) = length l) -> long (length l) (NVar nm 3 (cells bins f))).
  { intros nm f H. apply rect; [|discriminate|apply cells_all; exact H]. intros X. pose proof (cells_length bins f) as Y. rewrite X in Y. cbn in Y. lia. }
  repeat (apply Forall_cons; [first [apply O; rewrite ?floats_of_length, ?ints_of_length; apply decoded_length
                                    | apply W; intros k j; rewrite ?decoded_length, ?ints_of_length; reflexivity]|]).
  apply Forall_nil.
Qed.
Lemma awac_quiet e beams bins l : Forall quiet (awac_vars e beams bins l).
Proof. unfold awac_vars. repeat constructor. Qed.

Lemma awac_decode_ok e bs : 116 <= length bs -> exists x, decode_awac e bs = Some x.
Proof. intros L. do 28 (destruct bs as [|? bs]; [cbn in L; lia|]). eexists. reflexivity. Qed.

Lemma decoded_none {A B} (f : A -> option B) k : decoded f (repeat None k) = repeat None k.
Proof. induction k as [|k IH]; [reflexivity|]. cbn. f_equal. exact IH. Qed.
Section Core.
Variables (g : vec_cfg) (r : reader) (s : state) (prs : list bytes) (m : nat).
Hypothesis (Hm : three_by_three (g_beam2inst g)) (Hb : rbeams r <= 3) (Hn : 0 < rbins r).
Hypothesis (Hd : data s = map Some prs ++ repeat None m) (Hne : prs <> []).
Hypothesis (Hl : Forall (fun b => length b = 116 + rbeams r * 3 * rbins r) prs).
Hypothesis (Ht : Forall (fun b => exists dt, rd_time (skipn 2 b) = Some dt) prs) (Hby : Forall (Forall is_byte) prs).
Let n := length prs + m.
Let t := awac_times (data s).
Let mat := NVar "beam2inst_orientmat" 2 (map (map Some) (g_beam2inst g)).
Let vars := mat :: awac_vars (rendian r) (rbeams r) (rbins r) (data s).
Definition seconds_of (b : bytes) : Z := match rd_time (skipn 2 b) with Some dt => RdiBlocks.epoch dt | None => 0%Z end.
Lemma data_n : length (data s) = n.
Proof. rewrite Hd, app_length, map_length, repeat_length. reflexivity. Qed.
Lemma awac_t_length : length t = n.
Proof. unfold t, awac_times. rewrite decoded_length. exact data_n. Qed.
Lemma t_eq : t = map (fun b => Some (inject_Z (seconds_of b))) prs ++ repeat None m.
Proof.
  unfold t, awac_times. rewrite Hd. unfold decoded at 1. rewrite map_app, map_map. f_equal; [|apply (decoded_none _ m)].
  apply map_ext_in. intros b Ib. rewrite Forall_forall in Ht. destruct (Ht b Ib) as (dt & E). unfold seconds_of. rewrite E. reflexivity.
Qed.
Lemma awac_vars_rect v : In v vars -> rectangular v.
Proof.
  intros [<-|H].
  - destruct Hm as [M1 M2]. assert (F : Forall (fun l : list (option Q) => length l = 3) (map (map Some) (g_beam2inst g))).
    { apply Forall_forall. intros l I1. apply in_map_iff in I1. destruct I1 as (x & <- & Ix). rewrite map_length. rewrite Forall_forall in M2. apply M2. exact Ix. }
    apply (rect 3); [|discriminate|exact F]. destruct (g_beam2inst g); discriminate.
  - pose proof (awac_long (rendian r) (rbeams r) (rbins r) (data s) Hn) as F. rewrite Forall_forall in F. apply (F v H).
Qed.
Lemma awac_gap k : k < n -> (last_incomplete (NData t vars) k <-> length prs <= k).
Proof.
  intros L. unfold last_incomplete, missing_in. cbn [ntime nvars]. rewrite t_eq.
  assert (Q : forall v, In v vars -> imu_variable v -> False).
  { intros v I1 N. apply imu_spec in N. destruct I1 as [<-|I1]; [discriminate N|].
    pose proof (awac_quiet (rendian r) (rbeams r) (rbins r) (data s)) as F. rewrite Forall_forall in F. specialize (F v I1). unfold quiet in F. congruence. }
  split.
  - intros [H|(v & I1 & N & _)]; [|exfalso; exact (Q v I1 N)]. destruct (Nat.lt_ge_cases k (length prs)) as [X|X]; [|exact X]. exfalso.
    rewrite nth_error_app1 in H by (rewrite map_length; exact X). rewrite nth_error_map' in H. destruct (nth_error prs k); discriminate.
  - intros X. left. rewrite nth_error_app2 by (rewrite map_length; exact X). rewrite map_length. apply nth_error_repeat. lia.
Qed.
Let cut (v : nvar) : nvar := if Nat.eqb (width v) n then NVar (vname v) (ndim v) (map (firstn (length prs)) (lines v)) else v.
Lemma awac_finish : finish_awac g r s = Some (Dataset (map (fun b => (seconds_of b * 1000000000)%Z) prs) (map cut vars)).
Proof.
  unfold finish_awac. replace (existsb is_some (data s)) with true by (rewrite Hd; destruct prs; [congruence|reflexivity]).
  replace (Nat.ltb 3 (rbeams r)) with false by (symmetry; apply Nat.ltb_ge; exact Hb). cbn [negb orb].
  fold t. fold mat. fold vars.
  destruct (only_trailing (NData t vars) (length prs)) as (d' & E & T & V).
  - exact awac_vars_rect.
  - cbn [ntime]. intros X. pose proof awac_t_length as L. rewrite X in L. unfold n in L. destruct prs; [congruence|cbn in L; lia].
  - cbn [ntime]. rewrite awac_t_length. unfold n. lia.
  - cbn [ntime]. rewrite awac_t_length. exact awac_gap.
  - cbn [ntime nvars] in T, V. rewrite awac_t_length in V. fold cut in V. rewrite E. rewrite T, t_eq.
    replace (firstn (length prs) _) with (map (fun n => Some (inject_Z n)) (map seconds_of prs)).
    + rewrite dated_exact.
      * cbn [option_map]. rewrite V, map_map. reflexivity.
      * apply Forall_forall. intros z Hz. apply in_map_iff in Hz. destruct Hz as (b & <- & Ib). rewrite Forall_forall in Ht, Hby.
        destruct (Ht b Ib) as (dt & X). unfold seconds_of. rewrite X. apply (date_recent (skipn 2 b) dt); [|exact X].
        apply Forall_forall. intros y Hy. specialize (Hby b Ib). rewrite Forall_forall in Hby. apply Hby. rewrite <- (firstn_skipn 2 b). apply in_or_app. right. exact Hy.
    + rewrite firstn_app, map_length, Nat.sub_diag, firstn_O, app_nil_r, firstn_all2 by (rewrite map_length; lia). rewrite map_map. reflexivity.
Qed.
Lemma awac_cut_at v k i : width v = n -> i < length prs -> k < length (lines v) -> nth_error (nth k (lines (cut v)) []) i = nth_error (nth k (lines v) []) i.
Proof.
  intros W L K. unfold cut. rewrite W, Nat.eqb_refl. cbn [lines]. rewrite (nth_indep _ [] (firstn (length prs) [])) by (rewrite map_length; exact K).
  rewrite map_nth. apply firstn_nth_error. exact L.
Qed.
Lemma awac_at ns nm v k i : String.eqb "beam2inst_orientmat" nm = false ->
  find (fun v => String.eqb (vname v) nm) (awac_vars (rendian r) (rbeams r) (rbins r) (data s)) = Some v ->
  k < length (lines v) -> i < length prs -> at_sample (Dataset ns (map cut vars)) nm k i = nth_error (nth k (lines v) []) i.
Proof.
  intros Nm Fv K L. unfold at_sample. cbn [d_vars].
  rewrite (find_map cut _ vars) by (intros w; unfold cut; destruct (Nat.eqb (width w) n); reflexivity).
  unfold vars. cbn [find vname mat]. rewrite Nm, Fv. cbn [option_map]. apply awac_cut_at; [|exact L|exact K].
  apply find_some in Fv. destruct Fv as [Fv _].
  pose proof (awac_long (rendian r) (rbeams r) (rbins r) (data s) Hn) as F. rewrite data_n in F. rewrite Forall_forall in F. apply (F v Fv).
Qed.
Lemma data_at i b : nth_error prs i = Some b -> nth_error (data s) i = Some (Some b).
Proof.
  intros H. assert (L : i < length prs) by (apply nth_error_Some; congruence). rewrite Hd.
  rewrite nth_error_app1 by (rewrite map_length; exact L). rewrite nth_error_map', H. reflexivity.
Qed.
Lemma amp_there b k j : length b = 116 + rbeams r * 3 * rbins r -> k < rbeams r -> j < rbins r -> exists a, nth_error (awac_amp (rbeams r) (rbins r) b k) j = Some a.
Proof.
  intros L K J. destruct (nth_error _ _) as [a|] eqn:E; [exists a; reflexivity|]. exfalso. apply nth_error_None in E. unfold awac_amp in E.
  rewrite firstn_length, skipn_length, firstn_length, skipn_length, L in E. nia.
Qed.
Lemma words_length e : forall k l, length l = 2 * k -> length (words e l) = k.
Proof.
  induction k as [|k IH]; intros l H; [destruct l; [reflexivity|discriminate]|]. destruct l as [|x [|y l]]; [discriminate|cbn in H; lia|].
  cbn [words length]. rewrite IH; [reflexivity|]. cbn in H. lia.
Qed.
Lemma vel_there b k j : length b = 116 + rbeams r * 3 * rbins r -> k < rbeams r -> j < rbins r -> exists a, nth_error (awac_vel (rendian r) (rbeams r) (rbins r) b k) j = Some a.
Proof.
  intros L K J. destruct (nth_error _ _) as [a|] eqn:E; [exists a; reflexivity|]. exfalso. apply nth_error_None in E. unfold awac_vel in E.
  rewrite map_length, firstn_length, skipn_length, (words_length _ (rbeams r * rbins r)) in E; [nia|].
  rewrite firstn_length, skipn_length, L. nia.
Qed.
Lemma awac_core : exists d, finish_awac g r s = Some d /\ holds_profiles (rendian r) (rbeams r) (rbins r) prs d /\
  (m = 0 \/ n <> 3 -> matrix_is d (g_beam2inst g)).
Proof.
  eexists. split; [exact awac_finish|]. split.
  - split; [cbn [d_time]; apply map_length|]. intros i b Hi. assert (L : i < length prs) by (apply nth_error_Some; congruence).
    assert (Ib : In b prs) by (eapply nth_error_In; exact Hi).
    assert (LB : length b = 116 + rbeams r * 3 * rbins r) by (rewrite Forall_forall in Hl; apply Hl; exact Ib).
    split; [split; [|split]|].
    + destruct (awac_decode_ok (rendian r) b ltac:(lia)) as (x & X). exists x. split; [exact X|].
      assert (DX : nth_error (decoded (decode_awac (rendian r)) (data s)) i = Some (Some x)).
      { unfold decoded. rewrite nth_error_map', (data_at i b Hi). cbn. rewrite X. reflexivity. }
      intros nm f I1. unfold awac_readings in I1. cbn [In] in I1.
      repeat (destruct I1 as [I1|I1]; [assert (nm = fst (nm, f)) as -> by reflexivity; rewrite <- I1; assert (f = snd (nm, f)) as -> by reflexivity; rewrite <- I1; cbn [fst snd];
        erewrite awac_at; [|reflexivity|reflexivity|cbn; lia|exact L]; cbn [lines nth];
        unfold floats_of, ints_of; rewrite nth_error_map', DX; reflexivity|]). destruct I1.
    + intros k j K J. destruct (vel_there b k j LB K J) as (v & V). destruct (amp_there b k j LB K J) as (a & A). exists v, a.
      split; [exact V|]. unfold at_cell.
      split; [erewrite awac_at; [|reflexivity|reflexivity|cbn [lines]; rewrite cells_length; nia|exact L]; cbn [lines];
              rewrite cells_nth by lia; unfold decoded; rewrite nth_error_map', (data_at i b Hi); cbn [option_map]; unfold vel_cell;
              rewrite (proj2 (Nat.ltb_lt k (rbeams r)) K), V; reflexivity|].
      split; [exact A|].
      erewrite awac_at; [|reflexivity|reflexivity|cbn [lines]; rewrite cells_length; nia|exact L]; cbn [lines].
      rewrite cells_nth by lia. unfold ints_of. rewrite nth_error_map', (data_at i b Hi). cbn [option_map]. unfold amp_cell.
      rewrite (proj2 (Nat.ltb_lt k (rbeams r)) K). rewrite (nth_error_nth _ _ _ A). reflexivity.
    + intros k j K J. unfold at_cell. assert (X : Nat.ltb k (rbeams r) = false) by (apply Nat.ltb_ge; lia).
      split; (erewrite awac_at; [|reflexivity|reflexivity|cbn [lines]; rewrite cells_length; nia|exact L]); cbn [lines];
        rewrite cells_nth by lia; [unfold decoded|unfold ints_of]; rewrite nth_error_map', (data_at i b Hi); cbn [option_map];
        unfold vel_cell, amp_cell; rewrite X; reflexivity.
    + unfold dated_as. rewrite Forall_forall in Ht. destruct (Ht b Ib) as (dt & X). exists dt, (RdiBlocks.epoch dt). split; [exact X|].
      rewrite Forall_forall in Hby. specialize (Hby b Ib).
      split; [apply Calendar.epoch_elapsed; apply (date_recent (skipn 2 b) dt); [|exact X]|].
      * apply Forall_forall. intros y Hy. rewrite Forall_forall in Hby. apply Hby. rewrite <- (firstn_skipn 2 b). apply in_or_app. right. exact Hy.
      * cbn [d_time]. rewrite nth_error_map', Hi. cbn [option_map]. unfold seconds_of. rewrite X. reflexivity.
  - intros C. exists (cut mat). split; [cbn [d_vars]; change (map cut vars) with (cut mat :: map cut (tl vars)); cbn [find]; replace (String.eqb (vname (cut mat)) "beam2inst_orientmat") with true by (unfold cut; destruct (Nat.eqb (width mat) n); reflexivity); reflexivity|]. destruct Hm as [M1 M2].
    assert (F : Forall (fun l : list (option Q) => length l = 3) (map (map Some) (g_beam2inst g))).
    { apply Forall_forall. intros l I1. apply in_map_iff in I1. destruct I1 as (x & <- & Ix). rewrite map_length. rewrite Forall_forall in M2. apply M2. exact Ix. }
    assert (W : width mat = 3) by (apply (rect 3); [destruct (g_beam2inst g); discriminate|discriminate|exact F]).
    unfold cut. destruct (Nat.eqb_spec (width mat) n) as [E|E]; [|reflexivity]. cbn [lines].
    destruct C as [C|C]; [|congruence]. rewrite W in E. unfold mat. cbn [lines]. rewrite Forall_forall in F.
    transitivity (map (fun x : list (option Q) => x) (map (map Some) (g_beam2inst g))); [|apply map_id].
    apply map_ext_in. intros l Il. apply firstn_all2. rewrite (F l Il). unfold n in E. lia.
Qed.
End Core.

Lemma profiles_wf bins beams bs : Forall (awac_block bins beams) bs -> Forall (fun b => Forall is_byte (body b)) bs ->
  Forall (fun b => length b = 116 + beams * 3 * bins) (profiles bs) /\ Forall (fun b => exists dt, rd_time (skipn 2 b) = Some dt) (profiles bs) /\
  Forall (Forall is_byte) (profiles bs).
Proof.
  rewrite !Forall_forall. intros A B.
  assert (X : forall b, In b (profiles bs) -> exists k, In k bs /\ b = body k /\ kind 32 k = true).
  { unfold profiles. intros b H. apply in_map_iff in H. destruct H as (k & <- & H). apply filter_In in H. exists k. tauto. }
  repeat split; intros b H; destruct (X b H) as (k & I1 & -> & K); unfold kind in K; apply Z.eqb_eq in K; specialize (A k I1); specialize (B k I1);
    unfold awac_block in A; rewrite K in A; destruct A as [(_ & A1 & A2)|[(A & _)|[(A & _)|(A & _)]]]; try discriminate A; assumption.
Qed.

Theorem awac_file e cs bins beams header bs tail g : 22 <= length header -> length tail < 2 -> 0 < bins -> beams <= 3 -> three_by_three (g_beam2inst g) ->
  Forall (awac_block bins beams) bs -> Forall (fun b => Forall is_byte (body b)) bs ->
  Forall (verified (Reader e cs Awac bins beams None)) bs -> Forall (sized e) bs -> 0 < number 32 bs -> evenly 32 bs (file_of header bs tail) ->
  exists d, read_nortek_awac g (Reader e cs Awac bins beams None) (file_of header bs tail) (length header) = Some d /\
    holds_profiles e beams bins (profiles bs) d /\
    (3 <= number 32 bs -> matrix_is d (g_beam2inst g)).
Proof.
  intros Hh T B1 B2 M V By Ve Sz H Ev. destruct (NortekGuess.awac_read e cs bins beams header bs tail Hh T V Ve Sz H Ev) as (s & n & E & D).
  destruct (profiles_wf bins beams bs V By) as (P1 & P2 & P3).
  assert (LP : length (profiles bs) = number 32 bs) by (unfold profiles, number; apply map_length).
  assert (NE : profiles bs <> []) by (intros X; rewrite X in LP; cbn in LP; lia).
  destruct (awac_core g (Reader e cs Awac bins beams None) s (profiles bs) n M B2 B1 D NE P1 P2 P3) as (d & D1 & D2 & D3).
  exists d. unfold read_nortek_awac. rewrite E. split; [exact D1|]. split; [exact D2|]. intros L. apply D3. lia.
Qed.
