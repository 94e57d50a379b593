(** Properties C124-C126: GN2002 despiking. *)
From Coq Require Import Reals List Bool Arith Lra Lia.
From Verif.Model Require Import Despike.
From Verif.Spec Require Import Group Stats Despike.
From Verif.Proofs Require Despike.
Import ListNotations.
Open Scope R_scope.

(** ** C124: the flagged samples are those outside the ellipsoid of their window *)
Theorem C124_ellipsoid_partial : forall u npt mask i first k l, (0 < npt)%nat -> gn2002 2 u npt = inr mask -> judged u npt i first k ->
  samples u first k = map Some l -> regular l -> (nth_error mask i = Some true <-> outside l (i - first)).
Proof.
  intros u npt mask i first k l P E J S' Rg. destruct (Proofs.Despike.judged_flag u npt mask i first k P E J) as (I & F & K & ->).
  destruct (Proofs.Despike.flagged_iff l Rg) as (m & M & Lm & Ml & _). unfold Proofs.Despike.flags. rewrite S', M.
  assert (Ll : length l = k) by (rewrite <- (map_length Some l), <- S'; unfold samples; rewrite firstn_length, skipn_length; lia).
  rewrite <- (Ml (i - first)%nat) by lia. rewrite (nth_error_nth' m false) by lia. split; [now intros [= ->]|now intros ->].
Qed.
(** a deviation or a difference beyond sqrt(2 ln n) standard deviations is always flagged *)
Theorem C124_threshold : forall u npt mask i first k l, (0 < npt)%nat -> gn2002 2 u npt = inr mask -> judged u npt i first k ->
  samples u first k = map Some l -> regular l ->
  (exists f, In f [dev l; diff1 l; diff2 l] /\ 2 * ln (INR k) * spread l f < f (i - first)%nat * f (i - first)%nat) -> nth_error mask i = Some true.
Proof.
  intros u npt mask i first k l P E J S' Rg (f & In & H). apply (C124_ellipsoid_partial u npt mask i first k l P E J S' Rg).
  destruct (Proofs.Despike.judged_flag u npt mask i first k P E J) as (I & F & K & _).
  assert (Ll : length l = k) by (rewrite <- (map_length Some l), <- S'; unfold samples; rewrite firstn_length, skipn_length; lia). rewrite <- Ll in H.
  apply Proofs.Despike.beyond; [exact Rg|lia|]. destruct In as [<-|[<-|[<-|[]]]]; tauto.
Qed.
(** offsets, units and signs do not matter *)
Theorem C124_units : forall u npt c m, (0 < npt)%nat -> c <> 0 -> gn2002 2 (map (option_map (fun v => c * v + m)) u) npt = gn2002 2 u npt.
Proof. intros u npt c m P K. exact (Proofs.Despike.gn_affine c m npt K P 2 u). Qed.
Theorem C124_constant : forall u npt mask i first k v, (0 < npt)%nat -> gn2002 2 u npt = inr mask -> judged u npt i first k ->
  samples u first k = repeat (Some v) k -> nth_error mask i = Some false.
Proof.
  intros u npt mask i first k v P E J S'. destruct (Proofs.Despike.judged_flag u npt mask i first k P E J) as (I & F & K & ->).
  unfold Proofs.Despike.flags. rewrite S', Proofs.Despike.constant_window. rewrite (nth_error_nth' _ false) by (rewrite repeat_length; lia). now rewrite nth_repeat.
Qed.
(** eight samples with a spike *)
Definition ex : list R := [0; 0; 0; 1; 0; 0; 0; 0].
Lemma ex_dev : dev ex 3 = 7 / 8 /\ dev ex 1 = - (1 / 8) /\ dev ex 5 = - (1 / 8) /\ dev ex 0 = - (1 / 8) /\ dev ex 7 = - (1 / 8).
Proof. unfold dev, mean_of, ex. cbn [length total nth INR]. repeat split; field. Qed.
Lemma ex_regular : regular ex.
Proof.
  destruct ex_dev as (D3 & D1 & D5 & D0 & D7). split.
  - exists 2%nat. split; [cbn; lia|]. unfold diff1. cbn [length ex Nat.leb Nat.ltb Nat.add Nat.sub andb]. change (dev _ 3) with (dev ex 3). change (dev _ 1) with (dev ex 1). rewrite D3, D1. lra.
  - intros (k & m & H). pose proof (H 0%nat ltac:(cbn; lia)) as H0. pose proof (H 5%nat ltac:(cbn; lia)) as H5. rewrite D0 in H0. rewrite D5 in H5.
    assert (E0 : diff2 ex 0 = 0) by reflexivity.
    assert (E5 : diff2 ex 5 = 1 / 4).
    { unfold diff2. cbn [length ex Nat.leb Nat.ltb Nat.add Nat.sub andb]. unfold diff1. cbn [length ex Nat.leb Nat.ltb Nat.add Nat.sub andb].
      change (dev _ 7) with (dev ex 7). change (dev _ 5) with (dev ex 5). change (dev _ 3) with (dev ex 3). rewrite D7, D5, D3. field. }
    lra.
Qed.
Lemma no_gap u npt : Forall (fun v => v <> None) u -> forall g, ~ gap u npt g.
Proof.
  intros F g [(R1 & T & _) _]. specialize (T (fst g) ltac:(lia)). unfold is_true_at, missing_at in T. rewrite nth_error_map in T.
  destruct (nth_error u (fst g)) as [v|] eqn:E; [|discriminate]. rewrite Forall_forall in F. specialize (F v (nth_error_In _ _ E)). destruct v; [discriminate|congruence].
Qed.
Lemma ex_judged npt i : (8 <= npt)%nat -> (i < 8)%nat -> judged (map Some ex) npt i 0 8.
Proof.
  intros P I. exists 0%nat, 8%nat. split; [|split; [lia|]].
  - right. split; [|now split]. intros (_ & g1 & g2 & g3 & _ & G). apply Forall_inv in G. revert G. apply no_gap. unfold ex. repeat constructor; discriminate.
  - unfold window. cbn [Nat.sub]. replace (8 <=? npt)%nat with true by (symmetry; apply Nat.leb_le; lia). now split.
Qed.
Lemma ln8 : ln 8 < 3.
Proof.
  assert (H : ln 2 < 1) by (rewrite <- (ln_exp 1); apply ln_increasing; [lra|pose proof (exp_ineq1 1 ltac:(lra)); lra]).
  replace 8 with (2 * (2 * 2)) by ring. rewrite !ln_mult by lra. lra.
Qed.
Lemma ex_spread : spread ex (dev ex) = 7 / 64.
Proof. unfold spread, mean_of. change (length ex) with 8%nat. unfold dev, mean_of, ex. cbn [length total nth INR]. field. Qed.
Example C124_hyp : exists u npt mask i first k l, (0 < npt)%nat /\ gn2002 2 u npt = inr mask /\ judged u npt i first k /\ samples u first k = map Some l /\ regular l /\
  nth_error mask i = Some true /\ exists f, In f [dev l; diff1 l; diff2 l] /\ 2 * ln (INR k) * spread l f < f (i - first)%nat * f (i - first)%nat.
Proof.
  destruct (Proofs.Despike.gn_spec (map Some ex) 9 ltac:(discriminate) ltac:(lia)) as (mask & E & _).
  assert (Th : exists f, In f [dev ex; diff1 ex; diff2 ex] /\ 2 * ln (INR 8) * spread ex f < f (3 - 0)%nat * f (3 - 0)%nat).
  { exists (dev ex). split; [now left|]. rewrite ex_spread. change (3 - 0)%nat with 3%nat. rewrite (proj1 ex_dev). replace (INR 8) with 8 by (cbn; ring). pose proof ln8. lra. }
  exists (map Some ex), 9%nat, mask, 3%nat, 0%nat, 8%nat, ex. split; [lia|]. split; [exact E|]. split; [apply ex_judged; lia|]. split; [reflexivity|]. split; [exact ex_regular|].
  split; [|exact Th]. exact (C124_threshold _ 9 mask 3 0 8 ex ltac:(lia) E (ex_judged 9 3 ltac:(lia) ltac:(lia)) eq_refl ex_regular Th).
Qed.

(** ** C125: GN2002 always finishes, and judges every sample in a window around it *)
Theorem C125_finishes : forall u npt, u <> [] -> (0 < npt)%nat -> exists mask, gn2002 2 u npt = inr mask /\ length mask = length u.
Proof. intros u npt Ne P. destruct (Proofs.Despike.gn_spec u npt Ne P) as (mask & E & L & _). now exists mask. Qed.
Theorem C125_windows : forall u npt mask i, (0 < npt)%nat -> gn2002 2 u npt = inr mask -> (i < length u)%nat ->
  (exists first k, judged u npt i first k /\ (first <= i < first + k)%nat /\ (first + k <= length u)%nat /\ (k <= npt)%nat) \/
  (cut u npt /\ (exists g, gap u npt g /\ (fst g <= i < snd g)%nat) /\ nth_error mask i = Some false).
Proof.
  intros u npt mask i P E I. assert (Ne : u <> []) by (intros ->; cbn in I; lia).
  destruct (Proofs.Despike.gn_spec u npt Ne P) as (mask' & E' & _ & S'). rewrite E in E'. injection E' as <-.
  destruct (S' i I) as [(f & k & J & A & B & _)|H]; [left|now right]. exists f, k. split; [exact J|]. split; [exact A|]. split; [exact B|].
  destruct J as (s & e & _ & Ie & W). unfold window in W. destruct (Nat.leb_spec (e - s) npt); [lia|]. destruct (_ <=? _)%nat; lia.
Qed.
(** the windows tell all: records that agree on the window of a sample agree on its flag *)
Theorem C125_local : forall u u' npt mask mask' i j first first' k, (0 < npt)%nat -> gn2002 2 u npt = inr mask -> gn2002 2 u' npt = inr mask' ->
  judged u npt i first k -> judged u' npt j first' k -> (i - first = j - first')%nat -> samples u first k = samples u' first' k -> nth_error mask i = nth_error mask' j.
Proof.
  intros u u' npt mask mask' i j f f' k P E E' J J' D S'. destruct (Proofs.Despike.judged_flag u npt mask i f k P E J) as (_ & _ & _ & ->).
  destruct (Proofs.Despike.judged_flag u' npt mask' j f' k P E' J') as (_ & _ & _ & ->). now rewrite S', D.
Qed.
Example C125_hyp : exists u npt, u <> [] /\ (0 < npt)%nat /\ judged u npt 3 0 8.
Proof. exists (map Some ex), 8%nat. split; [discriminate|]. split; [lia|]. apply ex_judged; lia. Qed.
(** a record that is cut: three gaps of two samples, [npt = 20] *)
Example C125_cut : exists u, cut u 20 /\ region u 20 0 1.
Proof.
  set (o := Some 0). set (u := [o; None; None; o; None; None; o; None; None; o]). exists u.
  assert (G : forall a, In a [1; 4; 7]%nat -> gap u 20 (a, S (S a))).
  { intros a Ha. unfold gap. cbn [fst snd]. split; [|replace (20 / 10)%nat with 2%nat by reflexivity; lia]. 
    assert (T : forall x, In x [1; 2; 4; 5; 7; 8]%nat -> is_true_at (missing_at u) x) by (intros x Hx; cbn [In] in Hx; repeat (destruct Hx as [<-|Hx]; [reflexivity|]); contradiction).
    destruct Ha as [<-|[<-|[<-|[]]]]; (split; [cbn; lia|]); (split; [intros k Hk; apply T; cbn; lia|]); (split; [intros k Hk; injection Hk as ->; discriminate|discriminate]). }
  split.
  - split; [now exists 0|]. exists (1, 3)%nat, (4, 6)%nat, (7, 9)%nat. split; [repeat constructor; cbn; intuition discriminate|]. repeat constructor; apply G; cbn; auto.
  - split; [cbn; lia|]. split; [now left|]. split; [right; exists 3%nat; apply G; cbn; auto|]. intros g [(R1 & T & _) _]. right. destruct (fst g) as [|a] eqn:E; [|lia].
    specialize (T 0%nat ltac:(lia)). discriminate.
Qed.

(** ** C126: a missing sample turns the detection off in its window *)
Theorem C126_window_off : forall u npt mask i first k, (0 < npt)%nat -> gn2002 2 u npt = inr mask -> judged u npt i first k -> In None (samples u first k) -> nth_error mask i = Some false.
Proof.
  intros u npt mask i first k P E J N. destruct (Proofs.Despike.judged_flag u npt mask i first k P E J) as (I & F & K & ->).
  unfold Proofs.Despike.flags. rewrite (Proofs.Despike.nan_window _ N). rewrite nth_error_map. destruct (nth_error (samples u first k) (i - first)) eqn:En; [reflexivity|].
  apply nth_error_None in En. unfold samples in En. rewrite firstn_length, skipn_length in En. lia.
Qed.
Theorem C126_spike_lost_refuted : exists (l : list R) i j npt mask mask', i <> j /\ (i < length l)%nat /\ (j < length l)%nat /\
  gn2002 2 (map Some l) npt = inr mask /\ nth_error mask i = Some true /\
  gn2002 2 (firstn j (map Some l) ++ None :: skipn (S j) (map Some l)) npt = inr mask' /\ nth_error mask' i = Some false.
Proof.
  set (u' := firstn 7 (map Some ex) ++ None :: skipn 8 (map Some ex)).
  destruct (Proofs.Despike.gn_spec (map Some ex) 8 ltac:(discriminate) ltac:(lia)) as (mask & E & _).
  destruct (Proofs.Despike.gn_spec u' 8 ltac:(discriminate) ltac:(lia)) as (mask' & E' & _).
  exists ex, 3%nat, 7%nat, 8%nat, mask, mask'. split; [lia|]. split; [cbn; lia|]. split; [cbn; lia|]. split; [exact E|]. split; [|split; [exact E'|]].
  - refine (C124_threshold _ 8 mask 3 0 8 ex ltac:(lia) E (ex_judged 8 3 ltac:(lia) ltac:(lia)) eq_refl ex_regular _).
    exists (dev ex). split; [now left|]. rewrite ex_spread. change (3 - 0)%nat with 3%nat. rewrite (proj1 ex_dev). replace (INR 8) with 8 by (cbn; ring). pose proof ln8. lra.
  - apply (C126_window_off u' 8 mask' 3 0 8 ltac:(lia) E'); [|cbn; tauto].
    exists 0%nat, 8%nat. split; [|split; [lia|now split]]. right. split; [|now split]. intros (_ & g1 & g2 & g3 & N & G).
    assert (Un : forall g, gap u' 8 g -> g = (7, 8)%nat).
    { intros [a b] [(R1 & T & _) _]. cbn [fst snd] in *. change (length (missing_at u')) with 8%nat in R1.
      assert (At : forall x, (x < 8)%nat -> is_true_at (missing_at u') x -> x = 7%nat).
      { intros x X Hx. do 7 (destruct x as [|x]; [discriminate|]). lia. }
      assert (a = 7%nat) by (apply At; [lia|]; apply T; lia). assert (b - 1 = 7)%nat by (apply At; [lia|]; apply T; lia). f_equal; lia. }
    pose proof (Un _ (Forall_inv G)) as U1. pose proof (Un _ (Forall_inv (Forall_inv_tail G))) as U2. apply NoDup_cons_iff in N. destruct N as [N _]. apply N. left. congruence.
Qed.

(** All the theorems of this file, for one listing of axioms. *)
Definition all_theorems :=
  (@C124_ellipsoid_partial,
   @C124_threshold,
   @C124_units,
   @C124_constant,
   @C125_finishes,
   @C125_windows,
   @C125_local,
   @C126_window_off,
   @C126_spike_lost_refuted).
Print Assumptions all_theorems.
