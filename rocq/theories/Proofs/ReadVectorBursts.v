(** Vector files recorded in bursts. *)
From Coq Require Import String.
From Coq Require Import ZArith QArith List Bool Lia.
From Verif.Model Require Import Nortek NortekFile NortekGuess NortekData Gaps HandleNan Microstrain Time ReadVector.
From Verif.Model Require RdiBlocks.
From Verif.Spec Require Import Nortek NortekData Gaps Time HandleNan ReadVector.
From Verif.Proofs Require Import Gaps NortekFile NortekData HandleNan Time.
Import ListNotations.
Open Scope nat_scope.
From Verif.Proofs Require Import ReadVector.
(** ** bursts *)
Lemma locate {A} (bss : list (list A)) : forall pre b post, concat bss = pre ++ b :: post ->
  exists bss1 bl bss2 pre' post', bss = bss1 ++ bl :: bss2 /\ pre = concat bss1 ++ pre' /\ bl = pre' ++ b :: post'.
Proof.
  induction bss as [|bl bss IH]; intros pre b post E; [destruct pre; discriminate|]. cbn [concat] in E.
  assert (X : (exists post', bl = pre ++ b :: post') \/ exists pre', pre = bl ++ pre' /\ concat bss = pre' ++ b :: post).
  { clear IH. revert pre E. induction bl as [|x bl IHb]; intros pre E; [right; exists pre; split; [reflexivity|exact E]|].
    destruct pre as [|y pre]; cbn in E; injection E as -> E.
    - left. exists bl. reflexivity.
    - destruct (IHb pre E) as [(q & ->)|(q & -> & E')]; [left; exists q; reflexivity|right; exists q; split; [reflexivity|exact E']]. }
  destruct X as [(q & ->)|(pre' & -> & E')].
  - exists [], (pre ++ b :: q), bss, pre, q. repeat split.
  - destruct (IH pre' b post E') as (bss1 & bl' & bss2 & p & q & -> & -> & ->).
    exists (bl :: bss1), (p ++ b :: q), bss2, p, q. cbn [concat app]. rewrite app_assoc. repeat split.
Qed.
Lemma count_concat nb bss : Forall (whole_burst nb) bss -> count (concat bss) = length bss * nb.
Proof.
  induction 1 as [|bl bss [H _] F IH]; [reflexivity|]. cbn [concat length]. rewrite count_app', IH. unfold count. rewrite H. cbn. lia.
Qed.
Lemma chunks {A} nb m : forall l : list A, m * nb <= length l ->
  firstn (m * nb) l = concat (map (fun i => firstn nb (skipn (i * nb) l)) (seq 0 m)).
Proof.
  induction m as [|m IH]; intros l L; [reflexivity|]. rewrite seq_S, map_app, concat_app, <- IH by lia. cbn [map concat plus].
  rewrite app_nil_r. rewrite <- (firstn_skipn (m * nb) l) at 1. rewrite firstn_app.
  rewrite firstn_length, Nat.min_l by lia. rewrite firstn_firstn, Nat.min_r by (cbn; lia). f_equal. f_equal. cbn. lia.
Qed.
Lemma firstn_skipn_nth {A} (l : list A) p n j : j < n -> nth_error (firstn n (skipn p l)) j = nth_error l (p + j).
Proof. intros L. rewrite firstn_nth_error by exact L. apply nth_error_skipn'. Qed.
Lemma concat_nth {A} nb (ls : list (list A)) : Forall (fun l => length l = nb) ls -> forall i j, j < nb ->
  nth_error (concat ls) (i * nb + j) = nth_error (nth i ls []) j.
Proof.
  induction 1 as [|l ls H F IH]; intros i j L.
  - destruct i; cbn [concat nth]; destruct (_ + j); destruct j; reflexivity.
  - destruct i as [|i]; cbn [concat nth].
    + cbn [Nat.mul plus]. rewrite nth_error_app1 by lia. reflexivity.
    + rewrite nth_error_app2 by (cbn; lia). rewrite H. replace (S i * nb + j - nb) with (i * nb + j) by (cbn; lia). apply IH. exact L.
Qed.
Lemma good_none off z : good_from off (repeat None z) = [].
Proof. revert off. induction z as [|z IH]; intros off; [reflexivity|]. cbn. apply IH. Qed.
Lemma burst_none fs z : burst_times fs (repeat None z) = repeat None z.
Proof.
  unfold burst_times, good_idx. rewrite good_none. cbn [tl].
  assert (X : nthq (repeat None z) 0 = None) by (destruct z; reflexivity). rewrite X.
  induction z as [|z IH]; [reflexivity|]. cbn [repeat map]. f_equal. apply IH. destruct z; reflexivity.
Qed.
Lemma concat_repeat {A} (x : A) nb q : concat (repeat (repeat x nb) q) = repeat x (q * nb).
Proof. induction q as [|q IH]; [reflexivity|]. cbn [repeat concat Nat.mul]. rewrite IH, <- repeat_app. reflexivity. Qed.
Lemma map_repeat' {A B} (f : A -> B) x q : map f (repeat x q) = repeat (f x) q.
Proof. induction q as [|q IH]; [reflexivity|]. cbn. rewrite IH. reflexivity. Qed.
Lemma all_none {A} (l : list (option A)) : (forall k, nth k l None = None) -> l = repeat None (length l).
Proof.
  induction l as [|x l IH]; intros H; [reflexivity|]. cbn [length repeat]. f_equal; [apply (H 0)|]. apply IH. intros k. apply (H (S k)).
Qed.
Lemma times_of_bursts fs nb cs z : 0 < nb -> Forall (fun l => length l = nb) cs ->
  sample_times fs nb (concat cs ++ repeat None z) = concat (map (burst_times fs) cs) ++ repeat None z.
Proof.
  intros N F. pose proof (Nat.div_mod z nb ltac:(lia)) as D. pose proof (Nat.mod_upper_bound z nb ltac:(lia)) as U.
  set (q := z / nb) in *. set (r := z mod nb) in *.
  assert (E : concat cs ++ repeat None z = concat (cs ++ repeat (repeat None nb) q) ++ @repeat (option Q) None r).
  { rewrite concat_app, concat_repeat, <- app_assoc, <- repeat_app. f_equal. f_equal. lia. }
  rewrite E, sample_times_bursts.
  - assert (R : concat (map (burst_times fs) (repeat (repeat None nb) q)) = repeat None (q * nb)).
    { rewrite map_repeat', (burst_none fs nb). exact (@concat_repeat (option Q) None nb q). }
    unfold series in *. rewrite map_app, concat_app, R, <- app_assoc. f_equal. rewrite repeat_length.
    replace (if r =? 0 then [] else burst_times fs (repeat None r)) with (@repeat (option Q) None r).
    + rewrite <- repeat_app. f_equal. lia.
    + rewrite (burst_none fs r). destruct (Nat.eqb_spec r 0) as [->|]; reflexivity.
  - exact N.
  - apply Forall_app. split; [exact F|]. apply Forall_forall. intros x Hx. apply repeat_spec in Hx. subst x. apply repeat_length.
  - rewrite repeat_length. exact U.
Qed.
Section Bursts.
Variables (e bl : endian) (nb n : nat) (bss : list (list blk)) (clocks : list (Q * Q)) (header : bytes).
Hypothesis (NB : 0 < nb) (WF : Forall (vector_block bl) (concat bss)) (WB : Forall (whole_burst nb) bss)
  (CL : Forall2 clock_of bss clocks) (TT : Forall three_times bss) (LN : count (concat bss) < n).
Let s := fold_left step (concat bss) (start header n).
Let T := sys_times e (sysd s).
Let m := length bss.
Lemma T_length : length T = n.
Proof. unfold T, sys_times. rewrite decoded_length. unfold s. destruct (state_lengths (concat bss) n header) as (_ & -> & _). reflexivity. Qed.
Lemma m_n : m * nb < n.
Proof. unfold m. rewrite <- (count_concat nb bss WB). exact LN. Qed.
Lemma burst_place bss1 b bss2 pre y post : bss = bss1 ++ b :: bss2 -> b = pre ++ y :: post -> is_sys y = true -> count pre < nb.
Proof.
  intros E Eb S1. assert (W : whole_burst nb b) by (rewrite Forall_forall in WB; apply WB; rewrite E; apply in_or_app; right; left; reflexivity).
  destruct W as [W1 W2]. specialize (W2 pre y post Eb S1). change (length (samples b)) with (count b) in W1. rewrite Eb, count_app', count_cons in W1.
  destruct (sys_not_velocity y S1) as [V _]. rewrite V in W1. assert (0 < count post) by (unfold count; destruct (samples post); [congruence|cbn; lia]). lia.
Qed.
Lemma count_before bss1 b bss2 : bss = bss1 ++ b :: bss2 -> count (concat bss1) = length bss1 * nb.
Proof. intros E. apply count_concat. rewrite E in WB. apply Forall_app in WB. apply WB. Qed.
Lemma place k v : valid T k v -> exists bss1 b bss2 pre y post d, bss = bss1 ++ b :: bss2 /\ b = pre ++ y :: post /\ is_sys y = true /\
  k = length bss1 * nb + count pre /\ rd_time (skipn 2 (body y)) = Some d /\ v = inject_Z (RdiBlocks.epoch d).
Proof.
  intros V. apply valid_nthq in V. destruct V as [_ V]. unfold nthq, T, sys_times in V. rewrite decoded_nth in V.
  destruct (nth k (sysd s) None) as [x|] eqn:E; [|discriminate]. unfold s in E. apply sys_origin in E.
  destruct E as [E|(p & y & q & Eb & Sb & <- & C)]; [rewrite start_sys in E; discriminate|].
  destruct (sys_block_time e y bl (in_block _ p y q WF Eb) Sb) as (d & T1 & D). rewrite D in V. injection V as <-.
  destruct (locate bss p y q Eb) as (bss1 & b & bss2 & pre & post & E1 & E2 & E3).
  exists bss1, b, bss2, pre, y, post, d. split; [exact E1|]. split; [exact E3|]. split; [exact Sb|]. split; [|split; [exact T1|reflexivity]].
  rewrite <- C, E2, count_app', (count_before bss1 b bss2 E1). reflexivity.
Qed.
Lemma burst_clock i b ab : nth_error bss i = Some b -> nth_error clocks i = Some ab -> clock_of b ab.
Proof.
  revert i. clear -CL. induction CL as [|x y l l' H F IH]; intros [|i] A B; try discriminate.
  - injection A as <-. injection B as <-. exact H.
  - apply (IH F i A B).
Qed.
Lemma chunk_valid i j v : i < m -> j < nb -> (valid (firstn nb (skipn (i * nb) T)) j v <-> valid T (i * nb + j) v).
Proof. intros A B. unfold valid. rewrite firstn_skipn_nth by exact B. tauto. Qed.
Lemma divide i j i' j' : j < nb -> j' < nb -> i * nb + j = i' * nb + j' -> i = i' /\ j = j'.
Proof.
  intros A B E. assert (X : i = i').
  { assert (Y : (i * nb + j) / nb = (i' * nb + j') / nb) by (rewrite E; reflexivity). rewrite !Nat.div_add_l, !Nat.div_small in Y by lia. lia. }
  subst. split; [reflexivity|lia].
Qed.
Lemma chunk_keeps i b ab : nth_error bss i = Some b -> nth_error clocks i = Some ab -> keeps_clock (firstn nb (skipn (i * nb) T)) ab.
Proof.
  intros Eb Ea. pose proof (burst_clock i b ab Eb Ea) as (_ & _ & CK).
  assert (Im : i < m) by (apply nth_error_Some; congruence).
  assert (TB : three_times b) by (rewrite Forall_forall in TT; apply TT; apply (nth_error_In _ _ Eb)).
  destruct (nth_error_split _ _ Eb) as (bss1 & bss2 & E & L1).
  assert (HERE : forall pre y post, b = pre ++ y :: post -> is_sys y = true -> count pre < nb /\ exists v, valid (firstn nb (skipn (i * nb) T)) (count pre) v).
  { intros pre y post Ey Sy. pose proof (burst_place bss1 b bss2 pre y post E Ey Sy) as Lp. split; [exact Lp|].
    assert (Eall : concat bss = (concat bss1 ++ pre) ++ y :: (post ++ concat bss2)).
    { rewrite E, concat_app. cbn [concat]. rewrite Ey, <- !app_assoc. reflexivity. }
    assert (Cp : count (concat bss1 ++ pre) = i * nb + count pre) by (rewrite count_app', (count_before bss1 b bss2 E), L1; reflexivity).
    destruct (time_there e bl (concat bss) n header WF (concat bss1 ++ pre) y (post ++ concat bss2) Eall Sy) as (v & V).
    { rewrite Cp. pose proof m_n. assert (i * nb + count pre < m * nb); [|lia].
      assert (S i * nb <= m * nb) by (apply Nat.mul_le_mono_r; lia). cbn in H0. lia. }
    exists v. apply chunk_valid; [exact Im|exact Lp|]. rewrite <- Cp. exact V. }
  destruct TB as (l0 & y0 & l1 & y1 & l2 & y2 & l3 & Eq & S0 & S1 & S2 & N1 & N2).
  assert (P1 : 0 < count l1) by (unfold count; destruct (samples l1); [congruence|cbn; lia]).
  assert (P2 : 0 < count l2) by (unfold count; destruct (samples l2); [congruence|cbn; lia]).
  destruct (sys_not_velocity y0 S0) as [V0 _]. destruct (sys_not_velocity y1 S1) as [V1 _].
  assert (C1 : count (l0 ++ y0 :: l1) = count l0 + count l1) by (rewrite count_app', count_cons, V0; reflexivity).
  assert (C2 : count (l0 ++ y0 :: l1 ++ y1 :: l2) = count l0 + count l1 + count l2)
    by (rewrite count_app', count_cons, V0, count_app', count_cons, V1; lia).
  assert (E1 : b = (l0 ++ y0 :: l1) ++ y1 :: (l2 ++ y2 :: l3)) by (rewrite Eq, <- app_assoc; reflexivity).
  assert (E2 : b = (l0 ++ y0 :: l1 ++ y1 :: l2) ++ y2 :: l3) by (rewrite Eq, <- !app_assoc; cbn; rewrite <- !app_assoc; reflexivity).
  exists (count l0), (count (l0 ++ y0 :: l1)), (count (l0 ++ y0 :: l1 ++ y1 :: l2)).
  split; [apply (HERE l0 y0 _ Eq S0)|]. split; [lia|]. split; [apply (HERE _ y1 _ E1 S1)|]. split; [lia|]. split; [apply (HERE _ y2 _ E2 S2)|].
  intros j v V. assert (Lj : j < nb).
  { apply valid_nthq in V. destruct V as [V _]. rewrite firstn_length in V. lia. }
  apply (chunk_valid i j v Im Lj) in V. destruct (place _ _ V) as (c1 & b' & c2 & pre & y & post & d & F1 & F2 & F3 & F4 & F5 & ->).
  pose proof (burst_place c1 b' c2 pre y post F1 F2 F3) as Lp. destruct (divide _ _ _ _ Lj Lp F4) as [Ei Ej].
  assert (b' = b) as ->.
  { rewrite F1 in Eb. rewrite nth_error_app2 in Eb by lia. replace (i - length c1) with 0 in Eb by lia. cbn in Eb. congruence. }
  destruct (CK pre y post F2 F3) as (d' & D1 & D2). rewrite F5 in D1. injection D1 as <-. rewrite Ej. exact D2.
Qed.
Lemma T_split : T = concat (map (fun i => firstn nb (skipn (i * nb) T)) (seq 0 m)) ++ repeat None (n - m * nb).
Proof.
  rewrite <- chunks by (rewrite T_length; pose proof m_n; lia). rewrite <- (firstn_skipn (m * nb) T) at 1. f_equal.
  rewrite (all_none (skipn (m * nb) T)) at 1; [rewrite skipn_length, T_length; reflexivity|]. intros k. rewrite nth_skipn_add.
  destruct (nth (m * nb + k) T None) as [v|] eqn:E; [|reflexivity]. exfalso.
  assert (V : valid T (m * nb + k) v) by (apply nthq_valid; exact E).
  destruct (place _ _ V) as (c1 & b' & c2 & pre & y & post & d & F1 & F2 & F3 & F4 & _).
  pose proof (burst_place c1 b' c2 pre y post F1 F2 F3) as Lp.
  assert (length c1 < m) by (unfold m; rewrite F1, app_length; cbn; lia).
  assert (S (length c1) * nb <= m * nb) by (apply Nat.mul_le_mono_r; lia). cbn in H0. lia.
Qed.
Lemma burst_time fs k : 
  (k < m * nb -> exists q, nth_error (sample_times fs nb T) k = Some (Some q) /\ (q == clock_in_bursts nb clocks k)%Q /\ (0 < q)%Q) /\
  (m * nb <= k < n -> nth_error (sample_times fs nb T) k = Some None).
Proof.
  set (cs := map (fun i => firstn nb (skipn (i * nb) T)) (seq 0 m)).
  assert (LC : length clocks = m).
  { unfold m. symmetry. clear -CL. induction CL as [|? ? ? ? H F IH]; [reflexivity|]. cbn. f_equal. apply IH. exact F. }
  assert (FC : Forall (fun l => length l = nb) cs).
  { apply Forall_forall. intros l Hl. apply in_map_iff in Hl. destruct Hl as (i & <- & Hi). apply in_seq in Hi. rewrite firstn_length, skipn_length, T_length.
    pose proof m_n. assert (S i * nb <= m * nb) by (apply Nat.mul_le_mono_r; lia). cbn in H0. lia. }
  assert (KC : Forall2 keeps_clock cs clocks).
  { assert (G : forall p q, p + q = m -> Forall2 keeps_clock (map (fun i => firstn nb (skipn (i * nb) T)) (seq p q)) (skipn p clocks)).
    { intros p q. revert p. induction q as [|q IH]; intros p E; [cbn; rewrite skipn_all2 by lia; constructor|].
      destruct (nth_error clocks p) as [ab|] eqn:Ea; [|apply nth_error_None in Ea; lia].
      destruct (nth_error bss p) as [b|] eqn:Eb; [|apply nth_error_None in Eb; unfold m in E; lia].
      assert (X : skipn p clocks = ab :: skipn (S p) clocks).
      { clear -Ea. revert p Ea. induction clocks as [|x l IH]; intros [|p] Ea; try discriminate; [injection Ea as ->; reflexivity|]. apply (IH p Ea). }
      rewrite X. cbn [seq map]. constructor; [apply (chunk_keeps p b ab Eb Ea)|]. apply IH. lia. }
    apply (G 0 m). lia. }
  assert (ST : sample_times fs nb T = concat (map (burst_times fs) cs) ++ repeat None (n - m * nb)).
  { rewrite T_split at 1. fold cs. apply times_of_bursts; assumption. }
  assert (SS : same_series (concat (map (burst_times fs) cs)) (concat (map (clock_reading nb) clocks))).
  { pose proof (burst_clocks fs nb cs clocks NB FC KC) as X.
    rewrite <- (app_nil_r (concat cs)) in X. change (@nil (option Q)) with (@repeat (option Q) None 0) in X.
    rewrite (times_of_bursts fs nb cs 0 NB FC) in X. cbn [repeat] in X. rewrite app_nil_r in X. exact X. }
  assert (LS : length (concat (map (burst_times fs) cs)) = m * nb).
  { rewrite (concat_same_length nb).
    - rewrite map_length. unfold cs. rewrite map_length, seq_length. reflexivity.
    - apply Forall_forall. intros l Hl. apply in_map_iff in Hl. destruct Hl as (x & <- & Hx). rewrite burst_times_length. rewrite Forall_forall in FC. apply FC. exact Hx. }
  split.
  - intros L. rewrite ST, nth_error_app1 by lia. pose proof (same_nth _ _ k SS) as N.
    pose proof (Nat.div_mod k nb ltac:(lia)) as D. pose proof (Nat.mod_upper_bound k nb ltac:(lia)) as U.
    assert (QI : k / nb < m) by (apply Nat.div_lt_upper_bound; lia).
    assert (CN : nth_error (concat (map (clock_reading nb) clocks)) k = Some (Some (clock_in_bursts nb clocks k))).
    { rewrite D at 1. rewrite (Nat.mul_comm nb). rewrite (concat_nth nb); [|apply Forall_forall; intros l Hl; apply in_map_iff in Hl; destruct Hl as (x & <- & _); unfold clock_reading; rewrite map_length, seq_length; reflexivity|exact U].
      rewrite (nth_indep _ [] (clock_reading nb (0, 0)%Q)) by (rewrite map_length, LC; exact QI). rewrite map_nth. apply clock_nth. exact U. }
    rewrite CN in N. destruct (nth_error (concat (map (burst_times fs) cs)) k) as [[q|]|]; try contradiction. exists q. split; [reflexivity|]. split; [exact N|].
    rewrite N. unfold clock_in_bursts. destruct (nth_error bss (k / nb)) as [b|] eqn:Eb; [|apply nth_error_None in Eb; unfold m in QI; lia].
    assert (Ea : nth_error clocks (k / nb) = Some (nth (k / nb) clocks (0, 0)%Q)) by (apply nth_error_nth'; lia).
    pose proof (burst_clock _ _ _ Eb Ea) as (A & A' & _). apply clock_positive; assumption.
  - intros L. rewrite ST, nth_error_app2 by lia. apply nth_error_repeat. lia.
Qed.
End Bursts.
Lemma burst_file r header bss clocks tail n g : rinst r = Vector -> rpings r = None -> cut_off tail ->
  Forall (vector_block (rendian r)) (concat bss) -> Forall (verified r) (concat bss) -> imu_after_velocity (concat bss) -> count (concat bss) < n ->
  three_by_three (g_beam2inst g) -> bss <> [] -> 0 < g_burst g -> Forall (whole_burst (g_burst g)) bss -> Forall2 clock_of bss clocks -> Forall three_times bss ->
  no_imu (concat bss) \/ imu_every (rendian r) (concat bss) ->
  exists d, read_dataset g r (file_of header (concat bss) tail) (length header) n = Some d /\
    holds_exactly (rendian r) (g_scale g) (samples (concat bss)) (clock_in_bursts (g_burst g) clocks) d /\
    let s := fold_left step (concat bss) (start header n) in
    others (rendian r) g (sysd s) (sample_times (g_fs g) (g_burst g) (sys_times (rendian r) (sysd s))) (imus s) (length (d_time d)) d.
Proof.
  intros I P CO WF V IM C M NE B WB CL TT EV. destruct (read_all r header (concat bss) tail n I P CO WF V IM C) as [p E].
  unfold read_dataset. rewrite E. pose proof (count_concat (g_burst g) bss WB) as CC.
  assert (T3 : three_times (concat bss)).
  { destruct bss as [|b bss]; [congruence|]. inversion TT; subst. cbn [concat]. apply three_longer. assumption. }
  assert (Pos : 0 < count (concat bss)) by (pose proof (some_sample _ T3); unfold count; destruct (samples (concat bss)); [congruence|cbn; lia]).
  assert (X : exists every : bool, if every then imu_every (rendian r) (concat bss) else no_imu (concat bss)) by (destruct EV as [EV|EV]; [exists false|exists true]; exact EV).
  destruct X as (every & X).
  destruct (of_state (rendian r) header (concat bss) n (count (concat bss)) g (clock_in_bursts (g_burst g) clocks) every p) as (d & D1 & D2 & D3 & D4 & _ & D6); try assumption.
  - lia.
  - apply has_sys; [exact T3|]. apply sys_room_lt. exact C.
  - intros k Hk. apply (burst_time (rendian r) (rendian r) (g_burst g) n bss clocks header B WF WB CL TT C (g_fs g) k). lia.
  - intros k Hk. apply (burst_time (rendian r) (rendian r) (g_burst g) n bss clocks header B WF WB CL TT C (g_fs g) k). lia.
  - exists d. split; [exact D1|]. assert (LD : length (d_time d) = length (samples (concat bss))) by (rewrite D2; destruct every; reflexivity).
    split; [|exact D6]. split; [exact LD|]. intros i byts Hb. split; [apply D4; exact Hb|]. apply D3. rewrite LD. apply nth_error_Some. congruence.
Qed.
