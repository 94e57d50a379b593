(** Vector files without an IMU: the dataset and its velocities in earth coordinates. *)
From Coq Require Import String.
From Coq Require Import ZArith QArith Qreals Reals List Bool Lia Lqa.
From Coq Require Lra.
From Verif.Model Require Import Linalg Rotate.
From Verif.Spec Require Import Linalg Rotate.
From Verif.Spec Require Euler.
From Verif.Model Require Import Nortek NortekFile NortekGuess NortekData Gaps HandleNan ReadVector NortekEarth.
From Verif.Spec Require Import Nortek NortekGuess NortekData Gaps ReadVector.
From Verif.Model Require Import Euler.
From Verif.Spec Require NortekEarth VectorEarth ReadAwac.
From Verif.Proofs Require Linalg Euler Rotate ToEarth NortekEarth Gaps NortekFile NortekData ReadVector ReadVectorBursts ReadVectorMore.
Import ListNotations.
Open Scope string_scope.
Open Scope list_scope.
Open Scope nat_scope.

(** ** a mounting that does not change *)
Lemma filled_same a x k : (forall m v, valid a m v -> (v == x)%Q) -> (exists m v, valid a m v) -> k < length a -> exists v, nthq (fillgaps None true a) k = Some v /\ (v == x)%Q.
Proof.
  intros H (m0 & v0 & E0) L.
  destruct (nth_error a k) as [[y|]|] eqn:Ea; [| |apply nth_error_None in Ea; lia].
  - pose proof (Gaps.fillw_keep_valid line_index None true a k y Ea) as K. change (valid (fillgaps None true a) k y) in K.
    exists y. split; [apply Gaps.valid_nthq in K; apply K|apply (H k y Ea)].
  - assert (X : forall u, valid (fillgaps None true a) k u -> nthq (fillgaps None true a) k = Some u) by (intros u V; apply Gaps.valid_nthq in V; apply V).
    destruct (NortekData.left_or_none a k ltac:(lia)) as [(i & y & Li)|Li]; destruct (NortekData.right_or_none a k) as [(j & z & Rj)|Rj].
    + destruct (Gaps.fillgaps_inner None true a k i j y z Ea Li Rj) as [F _]. destruct (F I) as (u & Vu & On). exists u. split; [exact (X u Vu)|].
      destruct Li as (A1 & A2 & _), Rj as (B1 & B2 & _). unfold on_line in On. rewrite (H i y A2), (H j z B2) in On.
      pose proof (Gaps.qn_lt i j ltac:(lia)) as P.
      assert (Z0 : ((u - x) * (qn j - qn i) == 0)%Q) by (rewrite On; ring). apply Qmult_integral in Z0. destruct Z0; lra.
    + destruct (Gaps.fillgaps_tail None a k i y Ea Rj Li) as [F _]. exists y. split; [exact (X y (F I))|]. destruct Li as (_ & A2 & _). apply (H i y A2).
    + destruct (Gaps.fillgaps_head None a k j z Ea Li Rj) as [F _]. exists z. split; [exact (X z (F I))|]. destruct Rj as (_ & A2 & _). apply (H j z A2).
    + exfalso. assert (Hm : missing a m0).
      { assert (m0 < length a) by (apply nth_error_Some; unfold valid in E0; congruence).
        destruct (Nat.lt_trichotomy m0 k) as [Y|[->|Y]]; [apply Li; exact Y|exact Ea|apply Rj; lia]. }
      unfold missing, valid in *. congruence.
Qed.
Lemma same_mounting status b k : (forall m s, nth_error status m = Some (Some s) -> Z.testbit s 0 = b) -> (exists m s, nth_error status m = Some (Some s)) ->
  k < length status -> nth_error (orientation_down status) k = Some b.
Proof.
  intros H (m0 & s0 & E0) L. rewrite (nth_error_nth' _ false) by (rewrite NortekData.orient_length; exact L). f_equal.
  assert (V : forall m v, valid (NortekData.bits status) m v -> (v == inject_Z (Z.b2z b))%Q).
  { intros m v E. unfold valid, NortekData.bits in E. rewrite nth_error_map in E. destruct (nth_error status m) as [[s|]|] eqn:Es; cbn in E; try discriminate.
    injection E as <-. rewrite NortekData.land1, (H m s Es). reflexivity. }
  assert (F : forall m, m < length status -> (NortekData.fv status m == inject_Z (Z.b2z b))%Q).
  { intros m Hm. rewrite NortekData.fv_val. destruct (filled_same (NortekData.bits status) (inject_Z (Z.b2z b)) m V) as (v & -> & Ev).
    - exists m0. eexists. exact (NortekData.bits_valid status m0 s0 E0).
    - unfold NortekData.bits. now rewrite map_length.
    - exact Ev. }
  rewrite NortekData.down_at by exact L. pose proof (F k L) as Fk.
  destruct (Nat.ltb_spec (S k) (length status)) as [L1|L1].
  - assert (E1 : Qle_bool (NortekData.fv status (S k) - NortekData.fv status k) 0 = true) by (apply Qle_bool_iff; rewrite (F (S k) L1), Fk; lra). rewrite E1. cbn [negb andb].
    assert (E2 : (1 <=? k) && negb (Qle_bool 0 (NortekData.fv status k - NortekData.fv status (k - 1))) = false).
    { apply andb_false_iff. right. assert (E : Qle_bool 0 (NortekData.fv status k - NortekData.fv status (k - 1)) = true) by (apply Qle_bool_iff; rewrite (F (k - 1)) by lia; rewrite Fk; lra). now rewrite E. }
    rewrite E2. rewrite Fk. destruct b; reflexivity.
  - cbn [andb].
    assert (E2 : (1 <=? k) && negb (Qle_bool 0 (NortekData.fv status k - NortekData.fv status (k - 1))) = false).
    { apply andb_false_iff. right. assert (E : Qle_bool 0 (NortekData.fv status k - NortekData.fv status (k - 1)) = true) by (apply Qle_bool_iff; rewrite (F (k - 1)) by lia; rewrite Fk; lra). now rewrite E. }
    rewrite E2. rewrite Fk. destruct b; reflexivity.
Qed.
Lemma skipn_add {A} m k (l : list A) : skipn m (skipn k l) = skipn (k + m) l.
Proof. revert l. induction k as [|k IH]; intros l; [reflexivity|]. destruct l; [now rewrite !skipn_nil|apply IH]. Qed.
Lemma by_burst_at {A B} (f : list A -> list B) nb q : 0 < nb -> (forall c, length (f c) = length c) -> forall fuel l j, q < fuel -> j < nb -> q * nb + j < length l ->
  nth_error (by_burst fuel nb f l) (q * nb + j) = nth_error (f (firstn nb (skipn (q * nb) l))) j.
Proof.
  intros P Lf. induction q as [|q IH]; intros fuel l j Hq Hj L; (destruct fuel as [|fuel]; [lia|]); (destruct l as [|x l]; [cbn in L; lia|]); set (w := x :: l) in *;
    change (by_burst (S fuel) nb f w) with (f (firstn nb w) ++ by_burst fuel nb f (skipn nb w)).
  - cbn [Nat.mul Nat.add skipn] in *. apply nth_error_app1. rewrite Lf, firstn_length. lia.
  - assert (L1 : length (f (firstn nb w)) = nb) by (rewrite Lf, firstn_length; cbn [Nat.mul] in L; lia).
    rewrite nth_error_app2 by (rewrite L1; cbn [Nat.mul]; lia). rewrite L1. replace (S q * nb + j - nb) with (q * nb + j) by (cbn [Nat.mul]; lia).
    rewrite IH; [|lia|exact Hj|rewrite skipn_length; cbn [Nat.mul] in L; lia]. rewrite skipn_add. do 3 f_equal.
Qed.

(** ** the attitudes that are used *)
Lemma tail_spec (l : list triple) i0 : (i0 < length l) -> Euler.known (nth i0 l (None, None, None)) -> exists out, fill_tail l = Some out /\ length out = length l /\
  (forall i, i < length l -> Euler.known (nth i l (None, None, None)) -> forall k, k <= i -> nth k out (None, None, None) = nth k l (None, None, None)) /\
  (forall i, i < length l -> Euler.known (nth i l (None, None, None)) -> (forall m, i < m < length l -> Euler.unknown (nth m l (None, None, None))) ->
     forall k, i <= k < length l -> nth k out (None, None, None) = nth i l (None, None, None)).
Proof.
  intros Li K0. destruct (rev l) as [|t l'] eqn:E.
  { assert (X : l = []) by (rewrite <- (rev_involutive l), E; reflexivity). subst l. cbn in Li. lia. }
  assert (El : l = rev l' ++ [t]) by (rewrite <- (rev_involutive l), E; reflexivity).
  assert (Lt : nth (length l - 1) l (None, None, None) = t) by (rewrite El at 2; rewrite El, app_length, app_nth2 by (cbn; lia); cbn [length]; replace (length (rev l') + 1 - 1 - length (rev l')) with 0 by lia; reflexivity).
  assert (KU : forall s, Euler.known s -> ~ Euler.unknown s) by (intros s (h & p & r & ->) U; unfold Euler.unknown in U; discriminate).
  destruct (all_nan t) eqn:An.
  - assert (U : Euler.unknown t) by (destruct t as [[[?|] [?|]] [?|]]; try discriminate An; reflexivity).
    destruct (Euler.fill_tail_filled l t l' E U) as (out & g & F & Lo & Kg & Lg & Ng & Kept & Filled).
    { apply Exists_exists. exists (nth i0 l (None, None, None)). split; [now apply nth_In|exact K0]. }
    exists out. split; [exact F|]. split; [exact Lo|].
    assert (Le : forall i, i < length l -> Euler.known (nth i l (None, None, None)) -> i <= g) by (intros i Hi Ki; destruct (Nat.le_gt_cases i g) as [|G]; [assumption|exfalso; apply (Ng i); [lia|exact Ki]]).
    split; [intros i Hi Ki k Hk; apply Kept; pose proof (Le i Hi Ki); lia|]. intros i Hi Ki Nm k Hk. assert (G : g = i).
    { pose proof (Le i Hi Ki). destruct (Nat.eq_dec g i) as [|N]; [assumption|exfalso]. apply (KU _ Kg). apply Nm. lia. }
    subst g. apply Filled. exact Hk.
  - exists l. split; [|split; [reflexivity|split; [reflexivity|]]].
    + apply (Euler.fill_tail_kept l t l' E). intros U. unfold Euler.unknown in U. rewrite U in An. cbv in An. discriminate An.
    + intros i Hi Ki Nm k Hk. destruct (Nat.eq_dec k i) as [->|N]; [reflexivity|exfalso].
      assert (U : Euler.unknown (nth (length l - 1) l (None, None, None))) by (apply Nm; lia). rewrite Lt in U. unfold Euler.unknown in U. rewrite U in An. cbv in An. discriminate An.
Qed.

Lemma ten_signed e b0 b1 v : holds_signed e b0 b1 v -> Q2R (inject_Z (signed (word e b0 b1)) * (1 # 10)) = NortekEarth.tenths v.
Proof. intros H. rewrite (NortekData.signed_holds e b0 b1 v H). apply NortekEarth.tenth. Qed.
Lemma sys_bytes e b h p r : length b = 24 -> NortekEarth.signed_at e b 12 h -> NortekEarth.signed_at e b 14 p -> NortekEarth.signed_at e b 16 r ->
  exists x, decode_sys e b = Some x /\ Q2R (s_heading x) = NortekEarth.tenths h /\ Q2R (s_pitch x) = NortekEarth.tenths p /\ Q2R (s_roll x) = NortekEarth.tenths r.
Proof.
  intros L (h0 & h1 & H0 & H1 & Hh) (p0 & p1 & P0 & P1 & Hp) (r0 & r1 & R0 & R1 & Hr).
  do 24 (destruct b as [|? b]; [discriminate L|]). destruct b; [|discriminate L]. cbn [nth_error] in H0, H1, P0, P1, R0, R1.
  eexists. split; [reflexivity|]. cbn [s_heading s_pitch s_roll].
  assert (Y : forall (a c : Z), Some a = Some c -> a = c) by congruence. apply Y in H0, H1, P0, P1, R0, R1. subst.
  split; [now apply ten_signed|split; now apply ten_signed].
Qed.
Lemma status_byte e b x s : decode_sys e b = Some x -> nth_error b 21 = Some s -> s_status x = s.
Proof.
  intros D N. do 24 (destruct b as [|? b]; [discriminate D|]). destruct b; [|discriminate D]. cbn [nth_error] in N. cbn [decode_sys] in D.
  assert (X : forall y z : vec_sys, Some y = Some z -> y = z) by congruence. apply X in D. subst x. cbn [s_status]. congruence.
Qed.
Lemma vec_bytes e scale b x u v w : decode_vec e scale b = Some x -> NortekEarth.signed_at e b 8 u -> NortekEarth.signed_at e b 10 v -> NortekEarth.signed_at e b 12 w ->
  forall k, k < 3 -> Q2R (nth k (v_vel x) 0%Q) = (Q2R scale * (IZR (nth k [u; v; w] 0%Z) / 1000))%R.
Proof.
  intros D (h0 & h1 & H0 & H1 & Hh) (p0 & p1 & P0 & P1 & Hp) (r0 & r1 & R0 & R1 & Hr).
  do 20 (destruct b as [|? b]; [discriminate D|]). destruct b; [|discriminate D]. cbn [nth_error] in H0, H1, P0, P1, R0, R1. cbn [decode_vec] in D.
  assert (X : forall y z : vec_sample, Some y = Some z -> y = z) by congruence. apply X in D. subst x. cbn [v_vel].
  assert (Y : forall (a c : Z), Some a = Some c -> a = c) by congruence. apply Y in H0, H1, P0, P1, R0, R1. subst.
  assert (W : forall b0 b1 z, holds_signed e b0 b1 z -> Q2R (inject_Z (signed (word e b0 b1)) * (1 # 1000) * scale) = (Q2R scale * (IZR z / 1000))%R).
  { intros b0 b1 zz Hz. rewrite (NortekData.signed_holds e b0 b1 zz Hz), !Q2R_mult. replace (Q2R (inject_Z zz)) with (IZR zz) by (unfold Q2R, inject_Z; cbn; field).
    replace (Q2R (1 # 1000)) with (/ 1000)%R by (unfold Q2R; cbn; field). field. }
  intros k Hk. destruct k as [|[|[|k]]]; [| | |lia]; cbn [nth]; now apply W.
Qed.

(** ** the velocities *)
Section Dataset.
Context (e : endian) (bs : list blk) (g : vec_cfg) (clock : nat -> Q) (d : dataset) (down : bool).
Context (WF : Forall (vector_block e) bs) (Att : attitude_follows e bs clock d) (Smp : forall i byts, nth_error (samples bs) i = Some byts -> sample_is e (g_scale g) d i byts).
Context (Ln : length (samples bs) <= length (d_time d)) (Mx : ReadAwac.matrix_is d (g_beam2inst g)) (M3 : three_by_three (g_beam2inst g)) (Md : det3 (NortekEarth.reals (g_beam2inst g)) <> 0%R).
Context (Dn : forall i, i < length (d_time d) -> at_sample d "orientation_down" 0 i = Some (Some (if down then 1 else 0)%Q)).
Let T := length (d_time d).
Context (Sys : exists k x, sys_at e bs k x /\ k < length (d_time d)).
Lemma is_sys_at k h p r : VectorEarth.attitude_at e bs k h p r -> exists x, sys_at e bs k x /\
  Q2R (s_heading x) = NortekEarth.tenths h /\ Q2R (s_pitch x) = NortekEarth.tenths p /\ Q2R (s_roll x) = NortekEarth.tenths r.
Proof.
  intros (pre & b & post & E & Sb & C & N & H & P & R). pose proof (ReadVector.in_block bs pre b post WF E) as V.
  assert (L : length (body b) = 24).
  { unfold vector_block, is_sys in *. apply Z.eqb_eq in Sb. rewrite Sb in V. destruct V as [[V _]|[(_ & L & _)|[[V _]|[[V _]|[[V _]|[[V _]|[[V _]|[V _]]]]]]]]; try discriminate V. exact L. }
  destruct (sys_bytes e (body b) h p r L H P R) as (x & D & X). exists x. split; [|exact X]. exists pre, b, post. repeat split; assumption.
Qed.
Lemma at_sys k x : sys_at e bs k x -> k < T -> attitude d k = (Some (Q2R (s_heading x)), Some (Q2R (s_pitch x)), Some (Q2R (s_roll x))).
Proof.
  intros S0 L. unfold attitude.
  rewrite (NortekEarth.find_at d "heading" 0 k _ (proj1 (Att "heading" s_heading ltac:(cbn; tauto)) k x S0 L)), (NortekEarth.find_at d "pitch" 0 k _ (proj1 (Att "pitch" s_pitch ltac:(cbn; tauto)) k x S0 L)),
    (NortekEarth.find_at d "roll" 0 k _ (proj1 (Att "roll" s_roll ltac:(cbn; tauto)) k x S0 L)). reflexivity.
Qed.
Lemma on_line_real ti tj tk x y v : ~ (ti == tj)%Q -> on_line_t ti tj tk x y v -> Q2R v = (Q2R x + Q2R (tk - ti) / Q2R (tj - ti) * (Q2R y - Q2R x))%R.
Proof.
  intros N H. unfold on_line_t in H. apply Qeq_eqR in H. rewrite !Q2R_mult, (Q2R_minus v x), (Q2R_minus y x) in H.
  assert (Z0 : Q2R (tj - ti) <> 0%R). { intros Z0. apply N. assert ((tj - ti == 0)%Q) by (apply eqR_Qeq; rewrite Z0; unfold Q2R; cbn; ring). lra. }
  assert (E : (Q2R v - Q2R x = (Q2R y - Q2R x) * Q2R (tk - ti) / Q2R (tj - ti))%R) by (rewrite <- H; field; exact Z0).
  replace (Q2R v) with (Q2R x + (Q2R v - Q2R x))%R by ring. rewrite E. field. exact Z0.
Qed.
Lemma at_between i j k x y : sys_at e bs i x -> sys_at e bs j y -> i < k < j -> (forall m, i < m < j -> no_sys_at bs m) -> k < T -> ~ (clock i == clock j)%Q ->
  let w := VectorEarth.passed clock i j k in let mid (a b : Q) := (Q2R a + w * (Q2R b - Q2R a))%R in
  attitude d k = (Some (mid (s_heading x) (s_heading y)), Some (mid (s_pitch x) (s_pitch y)), Some (mid (s_roll x) (s_roll y))).
Proof.
  intros Si Sj K N L NE w mid.
  assert (One : forall nm f, In (nm, f) attitudes -> real (entry d nm 0 k) = Some (mid (f x) (f y))).
  { intros nm f I. destruct (proj1 (proj2 (Att nm f I)) i j k x y Si Sj K N L NE) as (v & V & O). rewrite (NortekEarth.find_at d nm 0 k _ V). cbn [real option_map]. f_equal.
    apply on_line_real; assumption. }
  unfold attitude. rewrite (One "heading" s_heading), (One "pitch" s_pitch), (One "roll" s_roll); [reflexivity| | |]; cbn; tauto.
Qed.
Lemma at_end k : k < T -> (forall m, k <= m -> no_sys_at bs m) -> Euler.unknown (attitude d k).
Proof.
  intros L N. unfold Euler.unknown, attitude.
  rewrite (NortekEarth.find_at d "heading" 0 k _ (proj2 (proj2 (Att "heading" s_heading ltac:(cbn; tauto))) k L (or_intror N))), (NortekEarth.find_at d "pitch" 0 k _ (proj2 (proj2 (Att "pitch" s_pitch ltac:(cbn; tauto))) k L (or_intror N))),
    (NortekEarth.find_at d "roll" 0 k _ (proj2 (proj2 (Att "roll" s_roll ltac:(cbn; tauto))) k L (or_intror N))). reflexivity.
Qed.
Lemma at_start k : k < T -> (forall m, m <= k -> no_sys_at bs m) -> Euler.unknown (attitude d k).
Proof.
  intros L N. unfold Euler.unknown, attitude.
  rewrite (NortekEarth.find_at d "heading" 0 k _ (proj2 (proj2 (Att "heading" s_heading ltac:(cbn; tauto))) k L (or_introl N))), (NortekEarth.find_at d "pitch" 0 k _ (proj2 (proj2 (Att "pitch" s_pitch ltac:(cbn; tauto))) k L (or_introl N))),
    (NortekEarth.find_at d "roll" 0 k _ (proj2 (proj2 (Att "roll" s_roll ltac:(cbn; tauto))) k L (or_introl N))). reflexivity.
Qed.
Lemma down_is i : i < T -> is_down d i = down.
Proof. intros L. unfold is_down. rewrite (NortekEarth.find_at d _ _ _ _ (Dn i L)). destruct down; reflexivity. Qed.
Let l := map (attitude d) (seq 0 T).
Lemma l_length : length l = T.
Proof. unfold l. now rewrite map_length, seq_length. Qed.
Lemma l_nth i : i < T -> nth i l (None, None, None) = attitude d i.
Proof. intros L. unfold l. rewrite (nth_indep _ _ (attitude d 0)) by now rewrite map_length, seq_length. rewrite map_nth, seq_nth by exact L. reflexivity. Qed.

Lemma velocities_ok nan frame u : In frame ["beam"; "inst"; "earth"] -> exists D d',
  earth_ready nan "vector" frame 1 (is_down d) None u d = Some (Ok D) /\ declination D = u /\ coord_sys D = frame /\ rotate2 D "earth" = Ok d' /\
  let used k h p r := forall v, VectorEarth.sample_at e bs k v ->
    value d' "vel" k 0 = Some (ToEarth.turned u (NortekEarth.to_earth frame (NortekEarth.reals (g_beam2inst g)) down h p r (VectorEarth.scaled g v))) in
  (forall k h p r, VectorEarth.attitude_at e bs k h p r -> used k (NortekEarth.tenths h) (NortekEarth.tenths p) (NortekEarth.tenths r)) /\
  (forall i j k h p r h' p' r', VectorEarth.attitude_at e bs i h p r -> VectorEarth.attitude_at e bs j h' p' r' -> i < k < j -> (forall m, i < m < j -> no_sys_at bs m) ->
     ~ (clock i == clock j)%Q -> let w := VectorEarth.passed clock i j k in used k (VectorEarth.between w h h') (VectorEarth.between w p p') (VectorEarth.between w r r')) /\
  (forall i k h p r, VectorEarth.attitude_at e bs i h p r -> i <= k -> (forall m, i < m -> no_sys_at bs m) -> used k (NortekEarth.tenths h) (NortekEarth.tenths p) (NortekEarth.tenths r)) /\
  (forall k, (forall m, m <= k -> no_sys_at bs m) -> used k nan nan nan).
Proof.
  intros Fr. destruct Sys as (k0 & x0 & S0 & L0). pose proof (NortekEarth.matrix_of nan d _ Mx) as EM.
  destruct (tail_spec l k0) as (out & FT & Lo & Kept & Tail).
  { rewrite l_length. exact L0. }
  { rewrite l_nth by exact L0. rewrite (at_sys k0 x0 S0 L0). do 3 eexists. reflexivity. }
  rewrite l_length in Lo, Kept, Tail.
  set (omats := map (fun p : nat * triple => let '(i, (h, p, r)) := p in nortek_omat (num nan h) (num nan p) (num nan r) (is_down d i)) (combine (seq 0 (length out)) out)).
  assert (Om : calc_omat nan d (is_down d) = Some omats) by (unfold calc_omat; fold T; fold l; rewrite FT; reflexivity).
  assert (Lom : length omats = T) by (unfold omats; rewrite map_length, combine_length, seq_length, Lo; lia).
  assert (Oo : Forall orthonormal omats) by (unfold omats; apply Forall_map, Forall_forall; intros [i [[h p] q]] _; apply Euler.nortek_proper).
  assert (Ma : is_mat 3 (matrix nan d)) by (rewrite EM; now apply NortekEarth.reals_shape).
  assert (Mn : det3 (matrix nan d) <> 0%R) by (rewrite EM; exact Md).
  destruct (NortekEarth.ready nan Rotate.Vector "vector" frame 1 (is_down d) u d omats (or_intror (conj eq_refl eq_refl)) Fr Om Lom Oo Ma Mn) as (D & d' & E1 & E2 & E3 & E4 & V).
  exists D, d'. repeat (split; [assumption|]).
  assert (Use : forall k (h p r : option R) v, VectorEarth.sample_at e bs k v -> nth k out (None, None, None) = (h, p, r) ->
    value d' "vel" k 0 = Some (ToEarth.turned u (NortekEarth.to_earth frame (NortekEarth.reals (g_beam2inst g)) down (num nan h) (num nan p) (num nan r) (VectorEarth.scaled g v)))).
  { intros k h p r v (b & x & y & z & Hb & -> & X & Y & Z0) Ho.
    assert (Lk : k < T) by (assert (k < length (samples bs)) by (apply nth_error_Some; congruence); unfold T; lia).
    rewrite (V k 0 (num nan h) (num nan p) (num nan r) down); [|clear V|lia].
    - rewrite EM. do 4 f_equal. destruct (Smp k b Hb) as (s & Ds & Vs & _). pose proof (vec_bytes e (g_scale g) b s x y z Ds X Y Z0) as VB.
      assert (One : forall m, m < 3 -> num nan (real (entry d "vel" (m * 1 + 0) k)) = (Q2R (g_scale g) * (IZR (nth m [x; y; z] 0%Z) / 1000))%R).
      { intros m Hm. replace (m * 1 + 0) with m by lia. destruct (Vs m Hm) as (Vm & _ & _). rewrite (NortekEarth.find_at d _ _ _ _ Vm). cbn [real option_map num]. exact (VB m Hm). }
      cbn [seq map]. unfold VectorEarth.scaled. cbn [map]. apply ToEarth.vec3_ext; [exact (One 0 ltac:(lia))|exact (One 1 ltac:(lia))|exact (One 2 ltac:(lia))].
    - unfold omats. rewrite nth_error_map.
      assert (Ec : nth_error (combine (seq 0 (length out)) out) k = Some (k, nth k out (None, None, None))).
      { rewrite (nth_error_nth' _ (0, ((None, None, None) : triple))) by (rewrite combine_length, seq_length; lia). f_equal.
        rewrite combine_nth by now rewrite seq_length. rewrite seq_nth by lia. reflexivity. }
      rewrite Ec, Ho. cbn [option_map]. rewrite (down_is k Lk). reflexivity. }
  assert (Short : forall k v, VectorEarth.sample_at e bs k v -> k < T).
  { intros k v (b & x & y & z & Hb & _). assert (k < length (samples bs)) by (apply nth_error_Some; congruence). unfold T. lia. }
  cbv zeta. split; [|split; [|split]].
  - intros k h p r At v Sv. apply (Use k (Some (NortekEarth.tenths h)) (Some (NortekEarth.tenths p)) (Some (NortekEarth.tenths r)) v Sv). pose proof (Short k v Sv) as L. destruct (is_sys_at k h p r At) as (x & Sx & <- & <- & <-).
    pose proof (at_sys k x Sx L) as A. rewrite (Kept k) by (try exact L; try exact (le_n k); rewrite l_nth, A by exact L; do 3 eexists; reflexivity). now rewrite l_nth.
  - intros i j k h p r h' p' r' Ai Aj K N NE v Sv. apply (Use k (Some (VectorEarth.between (VectorEarth.passed clock i j k) h h')) (Some (VectorEarth.between (VectorEarth.passed clock i j k) p p')) (Some (VectorEarth.between (VectorEarth.passed clock i j k) r r')) v Sv). pose proof (Short k v Sv) as L.
    destruct (is_sys_at i h p r Ai) as (x & Sx & Hx & Px & Rx). destruct (is_sys_at j h' p' r' Aj) as (y & Sy & Hy & Py & Ry).
    pose proof (at_between i j k x y Sx Sy K N L NE) as A. cbv zeta in A. rewrite (Kept k) by (try exact L; try exact (le_n k); rewrite l_nth, A by exact L; do 3 eexists; reflexivity). rewrite l_nth, A by exact L.
    unfold VectorEarth.between. rewrite Hx, Hy, Px, Py, Rx, Ry. reflexivity.
  - intros i k h p r At K N v Sv. apply (Use k (Some (NortekEarth.tenths h)) (Some (NortekEarth.tenths p)) (Some (NortekEarth.tenths r)) v Sv). pose proof (Short k v Sv) as L. destruct (is_sys_at i h p r At) as (x & Sx & <- & <- & <-).
    pose proof (at_sys i x Sx ltac:(lia)) as A.
    rewrite (Tail i); [now rewrite l_nth by lia|lia|rewrite l_nth, A by lia; do 3 eexists; reflexivity| |lia].
    intros m Hm. rewrite l_nth by lia. apply at_end; [lia|]. intros m' Hm'. apply N. lia.
  - intros k N v Sv. pose proof (Short k v Sv) as L. apply (Use k None None None v Sv).
    assert (K0 : k < k0). { destruct (Nat.le_gt_cases k0 k) as [K|K]; [exfalso|exact K]. destruct S0 as (pre & b & post & E & Sb & C & _). apply (N k0 K pre b post E Sb C). }
    rewrite (Kept k0 L0); [|rewrite l_nth by exact L0; rewrite (at_sys k0 x0 S0 L0); do 3 eexists; reflexivity|lia]. rewrite l_nth by exact L. apply at_start; assumption.
Qed.
End Dataset.

(** ** the file *)
Local Notation count := NortekFile.count.
Section Mounted.
Context (e : endian) (bs : list blk) (n : nat) (header : bytes) (g : vec_cfg) (t : series) (im : list (option (Z * bytes))) (d : dataset) (down : bool).
Let s := fold_left NortekFile.step bs (NortekFile.start header n).
Context (WF : Forall (vector_block e) bs) (Mt : VectorEarth.mounting bs down) (Oth : ReadVector.others e g (sysd s) t im (length (d_time d)) d) (La : length (d_time d) <= n).
Let nb := match g_burst g with O => n | S k => S k end.
Context (Has : forall i, i < length (d_time d) -> exists pre b post, bs = pre ++ b :: post /\ is_sys b = true /\ count pre < n /\ i / nb * nb <= count pre < i / nb * nb + nb).
Lemma mounted_at i : i < length (d_time d) -> at_sample d "orientation_down" 0 i = Some (Some (if down then 1 else 0)%Q).
Proof.
  intros L. pose proof (proj1 (proj2 (ReadVector.state_lengths bs n header))) as Ls. fold s in Ls.
  rewrite (proj1 Oth "orientation_down" (NVar "orientation_down" 1 [map (fun b : bool => Some (if b then 1 else 0)%Q)
     (by_burst (length (sysd s) / (match g_burst g with O => length (sysd s) | n => n end) + 1) (match g_burst g with O => length (sysd s) | n => n end) (fun b => orientation_down (map (option_map s_status) b)) (decoded (decode_sys e) (sysd s)))]) 0 i);
    [|reflexivity|reflexivity|cbn; lia|exact L].
  cbn [lines nth]. rewrite nth_error_map, Ls. fold nb.
  assert (P : 0 < nb) by (unfold nb; destruct (g_burst g); lia).
  set (dd := decoded (decode_sys e) (sysd s)). assert (Ld : length dd = n) by (unfold dd; rewrite ReadVector.decoded_length; exact Ls).
  pose proof (Nat.div_mod i nb ltac:(lia)) as DM. pose proof (Nat.mod_upper_bound i nb ltac:(lia)) as U. rewrite (Nat.mul_comm nb) in DM.
  rewrite DM. rewrite by_burst_at; [|exact P|intros c0; rewrite NortekData.orient_length; apply map_length| |exact U|lia].
  - rewrite (same_mounting _ down); [destruct down; reflexivity| | |].
    + intros m st E. rewrite nth_error_map in E. destruct (nth_error (firstn nb (skipn (i / nb * nb) dd)) m) as [[x|]|] eqn:Ex; cbn in E; try discriminate.
      assert (st = s_status x) as -> by congruence. apply nth_error_In in Ex. assert (I1 : In (Some x) dd).
      { rewrite <- (firstn_skipn (i / nb * nb) dd). apply in_or_app. right. rewrite <- (firstn_skipn nb (skipn (i / nb * nb) dd)). apply in_or_app. left. exact Ex. }
      unfold dd, decoded in I1. apply in_map_iff in I1. destruct I1 as ([b|] & D & I1); [|discriminate]. apply (In_nth _ _ None) in I1. destruct I1 as (j & _ & J).
      unfold s in J. apply ReadVector.sys_origin in J. destruct J as [J|(p & y & q & Eb & Sb & <- & _)]; [rewrite ReadVector.start_sys in J; discriminate|].
      destruct (Mt y ltac:(rewrite Eb; apply in_or_app; right; now left) Sb) as (st & S1 & S2). rewrite (status_byte e (body y) x st D S1). exact S2.
    + destruct (Has i L) as (pre & b & post & Eb & Sb & Cn & C1 & C2).
      destruct (ReadVector.sys_written (NortekFile.start header n) pre b post Sb) as (y & Y).
      { cbn [c NortekFile.start sysd]. rewrite repeat_length. exact Cn. }
      rewrite <- Eb in Y. cbn [c NortekFile.start] in Y. change (0 + count pre) with (count pre) in Y. fold s in Y.
      assert (O := Y). unfold s in O. apply ReadVector.sys_origin in O. destruct O as [O|(pre' & b' & post' & Eb' & Sb' & By & _)]; [rewrite ReadVector.start_sys in O; discriminate|].
      pose proof (ReadVector.in_block bs pre' b' post' WF Eb') as V.
      assert (L24 : length y = 24).
      { rewrite <- By. unfold vector_block, is_sys in *. apply Z.eqb_eq in Sb'. rewrite Sb' in V. destruct V as [[V _]|[(_ & L' & _)|[[V _]|[[V _]|[[V _]|[[V _]|[[V _]|[V _]]]]]]]]; try discriminate V. exact L'. }
      assert (Dx : exists x, decode_sys e y = Some x) by (clear - L24; do 24 (destruct y as [|? y]; [discriminate L24|]); destruct y; [|discriminate L24]; eexists; reflexivity).
      destruct Dx as (x & Dx). exists (count pre - i / nb * nb), (s_status x). rewrite nth_error_map.
      assert (N1 : nth_error (firstn nb (skipn (i / nb * nb) dd)) (count pre - i / nb * nb) = Some (Some x)).
      { rewrite ReadVectorBursts.firstn_skipn_nth by lia. replace (i / nb * nb + (count pre - i / nb * nb)) with (count pre) by lia.
        rewrite (nth_error_nth' _ None) by (rewrite Ld; exact Cn). f_equal. unfold dd. rewrite ReadVector.decoded_nth, Y. exact Dx. }
      rewrite N1. reflexivity.
    + rewrite map_length, firstn_length, skipn_length, Ld. lia.
  - assert (i / nb <= n / nb) by (apply Nat.div_le_mono; lia). lia.
Qed.
End Mounted.
Lemma last_here post : forall pre b, is_sys b = true -> exists pre' b' post', pre ++ b :: post = pre' ++ b' :: post' /\ is_sys b' = true /\ count pre' = count pre /\ none_before_velocity is_sys post' = true.
Proof.
  assert (H : forall post, none_before_velocity is_sys post = true \/ exists p y q, post = p ++ y :: q /\ is_sys y = true /\ count p = 0).
  { induction post0 as [|y q IH]; [left; reflexivity|]. cbn [none_before_velocity]. destruct (velocity y) eqn:V; [left; reflexivity|].
    destruct (is_sys y) eqn:S1; [right; exists [], y, q; repeat split; exact S1|]. cbn [negb andb]. destruct IH as [IH|(p & z & w & -> & S2 & C)]; [left; exact IH|right].
    exists (y :: p), z, w. split; [reflexivity|]. split; [exact S2|]. unfold NortekFile.count, samples in *. cbn [filter]. rewrite V. exact C. }
  remember (length post) as n eqn:E. revert post E. induction n as [n IH] using lt_wf_ind. intros post E pre b Sb. destruct (H post) as [N|(p & y & q & -> & Sy & C)].
  - exists pre, b, post. repeat split; assumption.
  - destruct (IH (length q) ltac:(rewrite E, app_length; cbn; lia) q eq_refl (pre ++ b :: p) y Sy) as (pre' & b' & post' & E1 & S2 & C2 & N).
    exists pre', b', post'. split; [rewrite <- E1, <- app_assoc; reflexivity|]. split; [exact S2|]. split; [|exact N]. rewrite C2, ReadVector.count_app'.
    destruct (ReadVector.sys_not_velocity b Sb) as [Vb _]. rewrite NortekFile.count_cons, Vb, C. lia.
Qed.
Lemma some_sys e bs pre b post : Forall (vector_block e) bs -> bs = pre ++ b :: post -> is_sys b = true -> exists x, sys_at e bs (count pre) x.
Proof.
  intros WF E Sb. destruct (last_here post pre b Sb) as (pre' & b' & post' & E' & Sb' & C & N). pose proof (ReadVector.in_block bs pre' b' post' WF ltac:(congruence)) as V.
  assert (L24 : length (body b') = 24).
  { unfold vector_block, is_sys in *. apply Z.eqb_eq in Sb'. rewrite Sb' in V. destruct V as [[V _]|[(_ & L' & _)|[[V _]|[[V _]|[[V _]|[[V _]|[[V _]|[V _]]]]]]]]; try discriminate V. exact L'. }
  assert (Dx : exists x, decode_sys e (body b') = Some x) by (clear - L24; revert L24; generalize (body b'); intros y L24; do 24 (destruct y as [|? y]; [discriminate L24|]); destruct y; [|discriminate L24]; eexists; reflexivity).
  destruct Dx as (x & Dx). exists x, pre', b', post'. split; [congruence|]. repeat split; assumption.
Qed.
Lemma vector_as_read r g header bs tail clock down : VectorEarth.plain_vector r g header bs tail clock down ->
  forall nan frame u, In frame ["beam"; "inst"; "earth"] -> exists D d',
  open_vector nan frame None u g r (file_of header bs tail) (length header) = Some (Ok D) /\ declination D = u /\ coord_sys D = frame /\ rotate2 D "earth" = Ok d' /\
  let e := rendian r in let used k h p r := forall v, VectorEarth.sample_at e bs k v ->
    value d' "vel" k 0 = Some (ToEarth.turned u (NortekEarth.to_earth frame (NortekEarth.reals (g_beam2inst g)) down h p r (VectorEarth.scaled g v))) in
  (forall k h p r, VectorEarth.attitude_at e bs k h p r -> used k (NortekEarth.tenths h) (NortekEarth.tenths p) (NortekEarth.tenths r)) /\
  (forall i j k h p r h' p' r', VectorEarth.attitude_at e bs i h p r -> VectorEarth.attitude_at e bs j h' p' r' -> i < k < j -> (forall m, i < m < j -> no_sys_at bs m) ->
     ~ (clock i == clock j)%Q -> let w := VectorEarth.passed clock i j k in used k (VectorEarth.between w h h') (VectorEarth.between w p p') (VectorEarth.between w r r')) /\
  (forall i k h p r, VectorEarth.attitude_at e bs i h p r -> i <= k -> (forall m, i < m -> no_sys_at bs m) -> used k (NortekEarth.tenths h) (NortekEarth.tenths p) (NortekEarth.tenths r)) /\
  (forall k, (forall m, m <= k -> no_sys_at bs m) -> used k nan nan nan).
Proof.
  intros [F1 F2 F3 F4 F5 F6 F7] nan frame u Fr. destruct (ReadVectorMore.guessed r header bs tail g F1 F2 F3) as (n & Cn & RD).
  unfold open_vector. rewrite RD. pose proof F1 as (_ & _ & WF & _ & _ & M3).
  assert (Cs : forall a b c0 k, attitude_follows (rendian r) bs a k -> (forall i, b i = a i) -> c0 = k -> attitude_follows (rendian r) bs b c0).
  { intros a b c0 k A E -> nm f I. destruct (A nm f I) as (A1 & A2 & A3). split; [exact A1|]. split; [|exact A3]. intros i j m x y Sx Sy K N L NE.
    rewrite !E in NE. rewrite !E. now apply A2. }
  destruct F5 as [(B & ab & CL & TT & Ck)|(B & bss & clocks & -> & NE & WB & CL & TT & Ck)].
  - destruct (ReadVectorMore.whole_more r header bs tail n g ab false F1 F2 Cn B CL TT F4) as (d & D1 & D2 & _ & D4 & _ & D6 & _ & D8). rewrite D1.
    destruct TT as (l0 & y0 & l1 & y1 & l2 & y2 & l3 & E & S0 & _).
    pose proof (ReadVector.sys_room_lt bs n Cn l0 y0 _ E S0) as R0.
    apply (velocities_ok (rendian r) bs g clock d down WF).
    + apply (Cs (clock_at ab) clock d d D6); [exact Ck|reflexivity].
    + exact D4.
    + rewrite D2. change (length (samples bs)) with (count bs). lia.
    + apply (proj2 D8). left. rewrite D2. symmetry. apply (ReadVector.state_lengths bs n header).
    + exact M3.
    + exact F6.
    + apply (mounted_at (rendian r) bs n header g _ _ d down WF F7 D8); [lia|]. intros i Hi. rewrite B. exists l0, y0, (l1 ++ y1 :: l2 ++ y2 :: l3).
      rewrite D2 in Hi. rewrite Nat.div_small by exact Hi. repeat split; try assumption; lia.
    + destruct (some_sys (rendian r) bs l0 y0 _ WF E S0) as (x & Sx). exists (count l0), x. split; [exact Sx|lia].
    + exact Fr.
  - destruct (ReadVectorMore.bursts_more r header bss clocks tail n g F1 F2 Cn NE B WB CL TT (or_introl F4)) as (d & D1 & [D2 D3] & D6 & _ & D8). rewrite D1. cbv zeta in D8.
    pose proof (ReadVectorBursts.count_concat (g_burst g) bss WB) as CC. change (length (samples (concat bss))) with (count (concat bss)) in D2.
    set (nb := g_burst g) in *.
    assert (Sys : forall q, q < length bss -> exists pre b post, concat bss = pre ++ b :: post /\ is_sys b = true /\ q * nb <= count pre /\ count pre + 2 < q * nb + nb).
    { intros q Hq. destruct (nth_error bss q) as [bl|] eqn:Eq; [|apply nth_error_None in Eq; lia]. destruct (nth_error_split _ _ Eq) as (b1 & b2 & Eb & L1).
      assert (I : In bl bss) by (rewrite Eb; apply in_or_app; right; now left). rewrite Forall_forall in TT. destruct (TT bl I) as (l0 & y0 & l1 & y1 & l2 & y2 & l3 & E & S0 & S1 & S2 & N1 & N2).
      exists (concat b1 ++ l0), y0, ((l1 ++ y1 :: l2 ++ y2 :: l3) ++ concat b2). split; [rewrite Eb, concat_app; cbn [concat]; rewrite E; repeat (rewrite <- !app_assoc; cbn [app]); reflexivity|]. split; [exact S0|].
      rewrite ReadVector.count_app', (ReadVectorBursts.count_before nb bss WB b1 bl b2 Eb), L1.
      assert (E2 : bl = (l0 ++ y0 :: l1 ++ y1 :: l2) ++ y2 :: l3) by (rewrite E; repeat rewrite <- app_assoc; cbn [app]; repeat rewrite <- app_assoc; reflexivity).
      pose proof (ReadVectorBursts.burst_place nb n bss B WB Cn b1 bl b2 _ y2 l3 Eb E2 S2) as P.
      assert (P1 : 0 < count l1) by (unfold NortekFile.count; destruct (samples l1); [congruence|cbn; lia]).
      assert (P2 : 0 < count l2) by (unfold NortekFile.count; destruct (samples l2); [congruence|cbn; lia]).
      rewrite ReadVector.count_app', NortekFile.count_cons, ReadVector.count_app', NortekFile.count_cons in P. destruct (velocity y0), (velocity y1); lia. }
    assert (Lb : 0 < length bss) by (destruct bss; [congruence|cbn; lia]).
    destruct (Sys 0 Lb) as (p0 & b0 & q0 & E0 & S0 & _ & C0).
    assert (Big : nb <= length bss * nb) by (destruct (length bss); [lia|cbn; lia]).
    apply (velocities_ok (rendian r) (concat bss) g clock d down WF).
    + apply (Cs (clock_in_bursts nb clocks) clock d d D6); [exact Ck|reflexivity].
    + intros i byts Hb. apply (D3 i byts Hb).
    + rewrite D2. reflexivity.
    + apply (proj2 D8). right. rewrite (proj1 (proj2 (ReadVector.state_lengths (concat bss) n header))). lia.
    + exact M3.
    + exact F6.
    + apply (mounted_at (rendian r) (concat bss) n header g _ _ d down WF F7 D8); [lia|]. intros i Hi. fold nb. assert (Enb : match nb with 0 => n | S k => S k end = nb) by (destruct nb; [lia|reflexivity]). rewrite Enb.
      rewrite D2, CC in Hi. assert (Q : i / nb < length bss) by (apply Nat.div_lt_upper_bound; lia).
      destruct (Sys (i / nb) Q) as (pre & b & post & E & Sb & C1 & C2). exists pre, b, post. repeat split; try assumption; try lia.
      rewrite E, ReadVector.count_app' in Cn. lia.
    + destruct (some_sys (rendian r) (concat bss) p0 b0 q0 WF E0 S0) as (x & Sx). exists (count p0), x. split; [exact Sx|lia].
    + exact Fr.
Qed.

(** ** headings on both sides of north *)
Import Lra.
Open Scope R_scope.
Lemma level_enu h x : NortekEarth.enu false h 0 0 [x; 0; 0] = [x * sin (h * PI / 180); x * cos (h * PI / 180); 0].
Proof.
  unfold NortekEarth.enu, NortekEarth.mounted, NortekEarth.product, NortekEarth.heading_matrix, NortekEarth.tilt_matrix. cbn [map combine fold_right fst snd].
  replace (PI * 0 / 180) with 0 by field. rewrite cos_0, sin_0. replace (PI * (h - 90) / 180) with (h * PI / 180 - PI / 2) by field.
  rewrite cos_minus, sin_minus, cos_PI2, sin_PI2. apply ToEarth.vec3_ext; ring.
Qed.
Lemma north_differs h x : x <> 0 -> 358 <= h <= 362 -> NortekEarth.enu false 180 0 0 [x; 0; 0] <> NortekEarth.enu false h 0 0 [x; 0; 0].
Proof.
  intros N [H1 H2] E. rewrite !level_enu in E. assert (E1 : nth 1 [x * sin (180 * PI / 180); x * cos (180 * PI / 180); 0] 0 = nth 1 [x * sin (h * PI / 180); x * cos (h * PI / 180); 0] 0) by now rewrite E.
  cbn [nth] in E1. replace (180 * PI / 180) with PI in E1 by field. rewrite cos_PI in E1. apply Rmult_eq_reg_l in E1; [|exact N].
  pose proof PI_RGT_0 as P. assert (C : 0 < cos (h * PI / 180)).
  { replace (h * PI / 180) with ((h - 360) * PI / 180 + 2 * INR 1 * PI) by (cbn; field). rewrite cos_period. apply cos_gt_0.
    - assert (-2 * PI / 180 <= (h - 360) * PI / 180) by (unfold Rdiv; apply Rmult_le_compat_r; [lra|apply Rmult_le_compat_r; lra]). lra.
    - assert ((h - 360) * PI / 180 <= 2 * PI / 180) by (unfold Rdiv; apply Rmult_le_compat_r; [lra|apply Rmult_le_compat_r; lra]). lra. }
  lra.
Qed.
Lemma midway clock i j k : ~ (clock i == clock j)%Q -> (2 * (clock k - clock i) == clock j - clock i)%Q -> VectorEarth.passed clock i j k = 1 / 2.
Proof.
  intros N H. unfold VectorEarth.passed. rewrite <- (Qeq_eqR _ _ H), Q2R_mult. replace (Q2R 2) with 2 by (unfold Q2R; cbn; field).
  assert (Q2R (clock k - clock i) <> 0); [|field; assumption]. intros Z0. apply N.
  assert (Z1 : (clock k - clock i == 0)%Q) by (apply eqR_Qeq; rewrite Z0; unfold Q2R; cbn; ring). rewrite Z1 in H. clear - H. Lqa.lra.
Qed.
