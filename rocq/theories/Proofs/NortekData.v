(** Values, times and orientation of the samples of a Nortek file. *)
From Coq Require Import ZArith QArith Qfield List Bool Lia Lqa Sorting.Sorted.
From Verif.Model Require Import Nortek Gaps NortekData.
From Verif.Spec Require Import Gaps NortekData.
From Verif.Proofs Require Import Gaps.
Import ListNotations.
Open Scope Z_scope.

Lemma signed_holds e b0 b1 v : holds_signed e b0 b1 v -> signed (word e b0 b1) = v.
Proof.
  intros [R H]. rewrite H. unfold signed. destruct (Z.le_gt_cases 0 v).
  - rewrite Z.mod_small by lia. destruct (Z.ltb_spec v 32768); lia.
  - replace (v mod 65536) with (v + 65536) by (symmetry; rewrite <- (Z.mod_add v 1 65536) by lia; rewrite Z.mod_small by lia; lia).
    destruct (Z.ltb_spec (v + 65536) 32768); lia.
Qed.

(** ** lines *)
Open Scope Q_scope.
Lemma qsum_ext {A} (f g : A -> Q) l : (forall x, In x l -> f x == g x) -> qsum (map f l) == qsum (map g l).
Proof.
  induction l as [|x l IH]; intros H; [reflexivity|]. cbn [map qsum fold_right]. fold (qsum (map f l)). fold (qsum (map g l)).
  rewrite (H x) by (left; reflexivity). rewrite IH; [reflexivity|]. intros y Hy. apply H. right. exact Hy.
Qed.
Lemma qsum_cons x l : qsum (x :: l) == x + qsum l.
Proof. reflexivity. Qed.
Lemma qsum_affine {A} (f : A -> Q) a b l :
  qsum (map (fun x => a + b * f x) l) == a * inject_Z (Z.of_nat (length l)) + b * qsum (map f l).
Proof.
  induction l as [|x l IH].
  - cbn [map length]. change (inject_Z (Z.of_nat 0)) with 0. cbn [qsum fold_right]. ring.
  - cbn [map]. rewrite !qsum_cons, IH. cbn [length]. rewrite Nat2Z.inj_succ. unfold Z.succ. rewrite inject_Z_plus. change (inject_Z 1) with 1. ring.
Qed.
Lemma len_pos {A} (l : list A) : l <> [] -> 0 < inject_Z (Z.of_nat (length l)).
Proof.
  intros H. destruct l as [|x l]; [congruence|]. unfold Qlt, inject_Z. cbn [Qnum Qden]. cbn [length]. lia.
Qed.
Lemma qmean_affine {A} (f : A -> Q) a b l : l <> [] -> qmean (map (fun x => a + b * f x) l) == a + b * qmean (map f l).
Proof.
  intros H. unfold qmean. rewrite qsum_affine, !map_length. pose proof (len_pos l H). field. lra.
Qed.
Lemma qmean_ext {A} (f g : A -> Q) l : (forall x, In x l -> f x == g x) -> qmean (map f l) == qmean (map g l).
Proof. intros H. unfold qmean. rewrite (qsum_ext f g l H), !map_length. reflexivity. Qed.

Lemma sq_nonneg x : 0 <= x * x.
Proof. destruct (Qlt_le_dec x 0) as [H|H]; [assert (0 <= - x) by lra; assert (0 <= (- x) * (- x)) by (apply Qmult_le_0_compat; assumption); lra|apply Qmult_le_0_compat; assumption]. Qed.
Lemma sq_pos x : ~ x == 0 -> 0 < x * x.
Proof.
  intros H. destruct (Qlt_le_dec 0 (x * x)) as [L|L]; [exact L|]. exfalso. apply H.
  pose proof (sq_nonneg x). assert (E : x * x == 0) by lra. apply Qmult_integral in E. tauto.
Qed.
Lemma sumsq_nonneg l m : 0 <= qsum (map (fun x => (x - m) * (x - m)) l).
Proof. induction l as [|x l IH]; [cbn; lra|]. cbn [map]. rewrite qsum_cons. pose proof (sq_nonneg (x - m)). lra. Qed.
Lemma sumsq_pos l m x : In x l -> ~ x == m -> 0 < qsum (map (fun x => (x - m) * (x - m)) l).
Proof.
  induction l as [|y l IH]; intros H N; [destruct H|]. cbn [map]. rewrite qsum_cons. destruct H as [->|H].
  - pose proof (sumsq_nonneg l m). pose proof (sq_pos (x - m)). assert (~ x - m == 0) by lra. specialize (H0 H1). lra.
  - specialize (IH H N). pose proof (sq_nonneg (y - m)). lra.
Qed.

Lemma combine_map2 {A} (f g : A -> Q) l : combine (map f l) (map g l) = map (fun x => (f x, g x)) l.
Proof. induction l as [|x l IH]; [reflexivity|]. cbn. rewrite IH. reflexivity. Qed.
(** a line fitted to points on a line is that line *)
Lemma line_fit_exact {A} (xf yf : A -> Q) l a b z : (forall k, In k l -> yf k == a + b * xf k) ->
  (exists i j, In i l /\ In j l /\ ~ xf i == xf j) -> line_fit (map xf l) (map yf l) z == a + b * z.
Proof.
  intros H (i & j & Hi & Hj & D). unfold line_fit.
  set (mx := qmean (map xf l)). set (my := qmean (map yf l)).
  assert (NE : l <> []) by (destruct l; [destruct Hi|discriminate]).
  assert (My : my == a + b * mx).
  { unfold my, mx. rewrite (qmean_ext yf (fun x => a + b * xf x) l H). apply qmean_affine. exact NE. }
  assert (P : 0 < qsum (map (fun x => (x - mx) * (x - mx)) (map xf l))).
  { destruct (Qeq_dec (xf i) mx) as [E|E].
    - apply (sumsq_pos _ _ (xf j)); [apply in_map; exact Hj|]. intros F. apply D. rewrite E, F. reflexivity.
    - apply (sumsq_pos _ _ (xf i)); [apply in_map; exact Hi|exact E]. }
  set (den := qsum (map (fun x => (x - mx) * (x - mx)) (map xf l))) in *.
  assert (Num : qsum (map (fun p => (fst p - mx) * (snd p - my)) (combine (map xf l) (map yf l))) == b * den).
  { rewrite combine_map2, map_map. unfold den. rewrite map_map.
    rewrite (qsum_ext _ (fun k => 0 + b * ((xf k - mx) * (xf k - mx)))).
    - rewrite (qsum_affine (fun k => (xf k - mx) * (xf k - mx)) 0 b l). ring.
    - intros k Hk. cbn [fst snd]. rewrite My, (H k Hk). ring. }
  rewrite Num, My. field. lra.
Qed.

Lemma nthq_valid t k v : nthq t k = Some v -> (k < length t)%nat /\ nth_error t k = Some (Some v).
Proof.
  unfold nthq. intros H. destruct (Nat.lt_ge_cases k (length t)) as [L|L]; [|rewrite nth_overflow in H by exact L; discriminate].
  split; [exact L|]. rewrite (nth_error_nth' t None L), H. reflexivity.
Qed.
Lemma qn_inj i j : NortekData.qn i == NortekData.qn j -> i = j.
Proof. unfold NortekData.qn. intros H. apply (proj1 (inject_Z_injective _ _)) in H. apply Nat2Z.inj. exact H. Qed.

(** three times or more: the first is left out, the line through the others *)
Lemma burst_line fs t a b i j : (forall k v, valid t k v -> (exists m w, (m < k)%nat /\ valid t m w) -> v == a + b * qn k) ->
  (exists m w, valid t m w /\ m < i)%nat -> (i < j)%nat -> (exists v, valid t i v) -> (exists v, valid t j v) ->
  same_series (burst_times fs t) (map (fun k => Some (a + b * qn k)) (seq 0 (length t))).
Proof.
  intros H (m & w & Vm & Lm) Lij (vi & Vi) (vj & Vj). unfold burst_times.
  pose proof (good_idx_sorted t) as ST.
  assert (G : forall k v, valid t k v -> In k (good_idx t)).
  { intros k v V. apply good_idx_in. apply valid_nthq in V. exists v. apply V. }
  destruct (good_idx t) as [|g0 gs] eqn:Eg; [exfalso; apply (G m w Vm)|]. cbn [tl].
  inversion ST as [|? ? ST1 ST2]; subst.
  assert (T : forall k v, valid t k v -> (m < k)%nat -> In k gs).
  { intros k v V L. destruct (G k v V) as [E|I]; [|exact I]. exfalso. destruct (G m w Vm) as [E'|I']; [lia|].
    rewrite Forall_forall in ST2. specialize (ST2 m I'). lia. }
  assert (Ii : In i gs) by (apply (T i vi Vi Lm)). assert (Ij : In j gs) by (apply (T j vj Vj); lia).
  assert (V0 : exists w0, valid t g0 w0).
  { assert (I0 : In g0 (good_idx t)) by (rewrite Eg; left; reflexivity). apply good_idx_in in I0. destruct I0 as [v0 E0].
    exists v0. unfold valid. apply nthq_valid in E0. apply E0. }
  assert (ON : forall k, In k gs -> val_or0 (nthq t k) == a + b * NortekData.qn k).
  { intros k Ik. assert (Ig : In k (good_idx t)) by (rewrite Eg; right; exact Ik). apply good_idx_in in Ig. destruct Ig as [v E].
    rewrite E. cbn [val_or0]. apply (H k v); [apply nthq_valid in E; apply E|]. destruct V0 as [w0 V0]. exists g0, w0. split; [|exact V0].
    rewrite Forall_forall in ST2. apply ST2. exact Ik. }
  destruct gs as [|p [|q r]]; [destruct Ii|destruct Ii as [<-|[]], Ij as [<-|[]]; lia|].
  set (gs := p :: q :: r) in *.
  unfold same_series. generalize (seq 0 (length t)). intros ks. induction ks as [|k ks IH]; [constructor|]. cbn [map]. constructor; [|exact IH].
  apply (line_fit_exact NortekData.qn (fun k => val_or0 (nthq t k)) gs a b (NortekData.qn k) ON).
  exists i, j. repeat split; [exact Ii|exact Ij|]. intros E. apply qn_inj in E. lia.
Qed.

(** ** orientation *)
Lemma left_or_none a k : (k <= length a)%nat -> (exists i x, left_nb a k i x) \/ none_before a k.
Proof.
  induction k as [|k IH]; intros L; [right; intros m Hm; lia|].
  destruct (nth_error a k) as [[x|]|] eqn:E.
  - left. exists k, x. split; [lia|]. split; [exact E|]. intros m Hm. lia.
  - destruct (IH ltac:(lia)) as [(i & x & A & B & C)|N].
    + left. exists i, x. split; [lia|]. split; [exact B|]. intros m Hm. destruct (Nat.eq_dec m k) as [->|]; [exact E|apply C; lia].
    + right. intros m Hm. destruct (Nat.eq_dec m k) as [->|]; [exact E|apply N; lia].
  - apply nth_error_None in E. lia.
Qed.
Lemma right_or_none a k : (exists j y, right_nb a k j y) \/ none_after a k.
Proof.
  assert (H : forall d, (exists j y, right_nb a k j y) \/ forall m, (k < m < k + d)%nat -> (m < length a)%nat -> missing a m).
  { induction d as [|d IH]; [right; intros; lia|]. destruct IH as [R|R]; [left; exact R|].
    destruct (nth_error a (k + d)) as [[y|]|] eqn:E.
    - destruct d as [|d]; [right; intros; lia|]. left. exists (k + S d)%nat, y. split; [lia|]. split; [exact E|]. intros m Hm.
      apply R; [lia|]. assert (nth_error a (k + S d) <> None) by congruence. apply nth_error_Some in H. lia.
    - right. intros m Hm Lm. destruct (Nat.eq_dec m (k + d)) as [->|]; [exact E|apply R; lia].
    - right. intros m Hm Lm. apply nth_error_None in E. apply R; lia. }
  destruct (H (length a)) as [R|R]; [left; exact R|right]. intros m Hm. apply R; lia.
Qed.

Lemma on_line_bounds i j k x y v : (i < k < j)%nat -> on_line i j k x y v -> 0 <= x <= 1 -> 0 <= y <= 1 -> 0 <= v <= 1.
Proof.
  unfold on_line. intros L H Hx Hy. pose proof (qn_lt i k ltac:(lia)). pose proof (qn_lt k j ltac:(lia)).
  assert (P : 0 < qn j - qn i) by lra. split.
  - apply Qnot_lt_le. intros N. assert ((v - x) * (qn j - qn i) < (- x) * (qn j - qn i)) by (apply Qmult_lt_compat_r; [exact P|lra]).
    assert (0 <= x * (qn j - qn k)) by (apply Qmult_le_0_compat; lra). assert (0 <= y * (qn k - qn i)) by (apply Qmult_le_0_compat; lra). lra.
  - apply Qnot_lt_le. intros N. assert ((1 - x) * (qn j - qn i) < (v - x) * (qn j - qn i)) by (apply Qmult_lt_compat_r; [exact P|lra]).
    assert (0 <= (1 - x) * (qn j - qn k)) by (apply Qmult_le_0_compat; lra). assert (0 <= (1 - y) * (qn k - qn i)) by (apply Qmult_le_0_compat; lra). lra.
Qed.
Lemma filled_bounds a k : (forall m v, valid a m v -> 0 <= v <= 1) -> 0 <= val_or0 (nthq (fillgaps None true a) k) <= 1.
Proof.
  intros H. destruct (nthq (fillgaps None true a) k) as [v|] eqn:E; [|cbn; lra]. cbn [val_or0].
  pose proof E as E'. apply nthq_valid in E'. destruct E' as [L V]. pose proof (fillw_length line_index None true a) as LF.
  change (length (fillgaps None true a) = length a) in LF. rewrite LF in L.
  destruct (nth_error a k) as [[x|]|] eqn:Ea; [| |apply nth_error_None in Ea; lia].
  - pose proof (fillw_keep_valid line_index None true a k x Ea) as K. change (valid (fillgaps None true a) k x) in K.
    unfold valid in K. assert (v = x) by congruence. subst. apply (H k x Ea).
  - destruct (left_or_none a k ltac:(lia)) as [(i & x & Li)|Li]; destruct (right_or_none a k) as [(j & y & Rj)|Rj].
    + destruct (fillgaps_inner None true a k i j x y Ea Li Rj) as [F _]. destruct (F I) as (u & Vu & On).
      unfold valid in Vu. assert (v = u) by congruence. subst. destruct Li as (A1 & A2 & _), Rj as (B1 & B2 & _).
      apply (on_line_bounds i j k x y u); [lia|exact On|apply (H i x A2)|apply (H j y B2)].
    + destruct (fillgaps_tail None a k i x Ea Rj Li) as [F _]. specialize (F I). unfold valid in F. assert (v = x) by congruence. subst.
      destruct Li as (_ & A2 & _). apply (H i x A2).
    + destruct (fillgaps_head None a k j y Ea Li Rj) as [F _]. specialize (F I). unfold valid in F. assert (v = y) by congruence. subst.
      destruct Rj as (_ & A2 & _). apply (H j y A2).
    + exfalso. assert (AM : forall m, (m < length a)%nat -> missing a m).
      { intros m Hm. destruct (Nat.lt_trichotomy m k) as [X|[->|X]]; [apply Li; exact X|exact Ea|apply Rj; lia]. }
      pose proof (fillw_all_missing line_index None true a AM) as FA. change (fillgaps None true a = a) in FA. rewrite FA in V. congruence.
Qed.

Definition bits (status : list (option Z)) : series := map (option_map (fun s => inject_Z (Z.land s 1))) status.
Lemma land1 s : Z.land s 1 = Z.b2z (Z.testbit s 0).
Proof. change 1%Z with (Z.ones 1) at 1. rewrite (Z.land_ones s 1) by lia. change (2 ^ 1)%Z with 2%Z. rewrite <- Z.bit0_mod. reflexivity. Qed.
Lemma bits_valid status k s : nth_error status k = Some (Some s) -> valid (bits status) k (inject_Z (Z.b2z (Z.testbit s 0))).
Proof. intros H. unfold valid, bits. rewrite nth_error_map, H. cbn. rewrite land1. reflexivity. Qed.
Lemma bits_missing status k : nth_error status k = Some None -> missing (bits status) k.
Proof. intros H. unfold missing, bits. rewrite nth_error_map, H. reflexivity. Qed.
Lemma bits_bounds status m v : valid (bits status) m v -> 0 <= v <= 1.
Proof.
  unfold valid, bits. rewrite nth_error_map. destruct (nth_error status m) as [[s|]|]; cbn; try discriminate. intros H. injection H as <-.
  rewrite land1. destruct (Z.testbit s 0); cbn; unfold Qle; cbn; lia.
Qed.
Definition fv (status : list (option Z)) (k : nat) : Q := nth k (map val_or0 (fillgaps None true (bits status))) 0.
Lemma fv_val status k : fv status k == val_or0 (nthq (fillgaps None true (bits status)) k).
Proof.
  unfold fv, nthq. destruct (Nat.lt_ge_cases k (length (fillgaps None true (bits status)))) as [L|L].
  - rewrite (nth_indep _ 0 (val_or0 None)) by (rewrite map_length; exact L). rewrite map_nth. reflexivity.
  - rewrite !nth_overflow by (try rewrite map_length; exact L). reflexivity.
Qed.
Lemma fv_bounds status k : 0 <= fv status k <= 1.
Proof. rewrite fv_val. apply filled_bounds. apply bits_bounds. Qed.
Lemma fv_status status k s : nth_error status k = Some (Some s) -> fv status k == inject_Z (Z.b2z (Z.testbit s 0)).
Proof.
  intros H. rewrite fv_val. pose proof (fillw_keep_valid line_index None true _ k _ (bits_valid status k s H)) as K.
  change (valid (fillgaps None true (bits status)) k (inject_Z (Z.b2z (Z.testbit s 0)))) in K. apply valid_nthq in K. destruct K as [_ K]. rewrite K. reflexivity.
Qed.
Lemma fv_length status : length (map val_or0 (fillgaps None true (bits status))) = length status.
Proof.
  rewrite map_length. pose proof (fillw_length line_index None true (bits status)) as LF.
  change (length (fillgaps None true (bits status)) = length (bits status)) in LF. rewrite LF. apply map_length.
Qed.
Lemma down_at status k : (k < length status)%nat -> nth k (orientation_down status) false =
  negb (Qeq_bool (if (S k <? length status)%nat && negb (Qle_bool (fv status (S k) - fv status k) 0) then 0
                  else if (1 <=? k)%nat && negb (Qle_bool 0 (fv status k - fv status (k - 1))) then 1 else fv status k) 0).
Proof.
  intros L. unfold orientation_down. fold (bits status). rewrite fv_length.
  match goal with |- nth k (map ?f _) false = _ => rewrite (nth_indep _ false (f 0%nat)) by (rewrite map_length, seq_length; exact L); rewrite (map_nth f), seq_nth by exact L end.
  reflexivity.
Qed.
Lemma orient_length status : length (orientation_down status) = length status.
Proof. unfold orientation_down. fold (bits status). rewrite map_length, seq_length. apply fv_length. Qed.
Lemma status_lt status k b : status_bit status k b -> (k < length status)%nat.
Proof. intros (s & H & _). apply nth_error_Some. congruence. Qed.

Lemma down_true status k : status_bit status k true -> nth k (orientation_down status) false = true.
Proof.
  intros H. pose proof (status_lt _ _ _ H) as L. destruct H as (s & Hs & B). rewrite down_at by exact L.
  pose proof (fv_status status k s Hs) as F. rewrite B in F. change (inject_Z (Z.b2z true)) with 1 in F.
  pose proof (fv_bounds status (S k)) as B2.
  assert (E1 : Qle_bool (fv status (S k) - fv status k) 0 = true) by (apply Qle_bool_iff; lra). rewrite E1. cbn [negb]. rewrite andb_false_r.
  destruct ((1 <=? k)%nat && negb (Qle_bool 0 (fv status k - fv status (k - 1)))); [reflexivity|].
  destruct (Qeq_bool (fv status k) 0) eqn:E2; [|reflexivity]. apply Qeq_bool_iff in E2. lra.
Qed.
(** a sample with status bit zero is reported as down exactly when the value before it is positive and
    the value after it is not *)
Lemma on_line_pos i j k x y v : (i < k < j)%nat -> on_line i j k x y v -> x == 1 -> y == 0 -> 0 < v.
Proof.
  unfold on_line. intros L H Hx Hy. rewrite Hx, Hy in H. pose proof (qn_lt i k ltac:(lia)). pose proof (qn_lt k j ltac:(lia)).
  apply Qnot_le_lt. intros N.
  assert ((v - 1) * (qn j - qn i) <= (- (1)) * (qn j - qn i)) by (apply Qmult_le_compat_r; lra). lra.
Qed.
Lemma on_line_zero i j k x y v : (i < k < j)%nat -> on_line i j k x y v -> x == 0 -> y == 0 -> v == 0.
Proof.
  unfold on_line. intros L H Hx Hy. rewrite Hx, Hy in H. pose proof (qn_lt i j ltac:(lia)).
  assert (E : v * (qn j - qn i) == 0) by lra. apply Qmult_integral in E. destruct E; lra.
Qed.
(** the value just before a sample with system data *)
Lemma before_value status k i : status_bit status k false -> previous_status status k i ->
  forall b, status_bit status i b -> if b then 0 < fv status (k - 1) else fv status (k - 1) == 0.
Proof.
  intros (s & Hs & B) (Lik & _ & Miss) b (si & Hi & Bi).
  destruct (Nat.eq_dec i (k - 1)) as [->|D].
  - pose proof (fv_status status (k - 1) si Hi) as F. rewrite Bi in F. destruct b; cbn in F; [rewrite F; reflexivity|exact F].
  - assert (M : missing (bits status) (k - 1)) by (apply bits_missing, Miss; lia).
    assert (Lf : left_nb (bits status) (k - 1) i (inject_Z (Z.b2z (Z.testbit si 0)))).
    { split; [lia|]. split; [apply bits_valid; exact Hi|]. intros m Hm. apply bits_missing, Miss. lia. }
    assert (Rt : right_nb (bits status) (k - 1) k (inject_Z (Z.b2z (Z.testbit s 0)))).
    { split; [lia|]. split; [apply bits_valid; exact Hs|]. intros m Hm. lia. }
    destruct (fillgaps_inner None true _ _ _ _ _ _ M Lf Rt) as [F _]. destruct (F I) as (v & V & On).
    assert (E : fv status (k - 1) == v) by (rewrite fv_val; apply valid_nthq in V; destruct V as [_ V]; rewrite V; reflexivity).
    rewrite B, Bi in On. destruct b.
    + rewrite E. apply (on_line_pos i k (k - 1) (inject_Z 1) (inject_Z 0) v); [lia|exact On|reflexivity|reflexivity].
    + rewrite E. apply (on_line_zero i k (k - 1) (inject_Z 0) (inject_Z 0) v); [lia|exact On|reflexivity|reflexivity].
Qed.
Lemma down_false status k : status_bit status k false ->
  (forall m, (m < k)%nat -> nth_error status m = Some None) \/ (exists i, previous_status status k i /\ status_bit status i false) ->
  nth k (orientation_down status) false = false.
Proof.
  intros H P. pose proof (status_lt _ _ _ H) as L. rewrite down_at by exact L.
  assert (F : fv status k == 0).
  { destruct H as (s & Hs & B). pose proof (fv_status status k s Hs) as F. rewrite B in F. exact F. }
  destruct ((S k <? length status)%nat && negb (Qle_bool (fv status (S k) - fv status k) 0)); [reflexivity|].
  assert (E : (1 <=? k)%nat && negb (Qle_bool 0 (fv status k - fv status (k - 1))) = false).
  { destruct (Nat.leb_spec 1 k) as [K|K]; [|reflexivity]. cbn [andb]. apply negb_false_iff, Qle_bool_iff.
    assert (Z0 : fv status (k - 1) == 0).
    { destruct P as [P|(i & Pi & Bi)].
      - destruct H as (s & Hs & B).
        assert (M : missing (bits status) (k - 1)) by (apply bits_missing, P; lia).
        assert (NB : none_before (bits status) (k - 1)) by (intros m Hm; apply bits_missing, P; lia).
        assert (Rt : right_nb (bits status) (k - 1) k (inject_Z (Z.b2z (Z.testbit s 0)))).
        { split; [lia|]. split; [apply bits_valid; exact Hs|]. intros m Hm. lia. }
        destruct (fillgaps_head None _ _ _ _ M NB Rt) as [Fh _]. specialize (Fh I).
        rewrite fv_val. apply valid_nthq in Fh. destruct Fh as [_ Fh]. rewrite Fh, B. reflexivity.
      - exact (before_value status k i H Pi false Bi). }
    lra. }
  rewrite E. apply negb_false_iff, Qeq_bool_iff. exact F.
Qed.
Lemma down_wrong status k i : status_bit status k false -> previous_status status k i -> status_bit status i true ->
  (k = length status - 1)%nat \/ status_bit status (S k) false -> nth k (orientation_down status) false = true.
Proof.
  intros H P Bi N. pose proof (status_lt _ _ _ H) as L. rewrite down_at by exact L.
  assert (F : fv status k == 0).
  { destruct H as (s & Hs & B). pose proof (fv_status status k s Hs) as F. rewrite B in F. exact F. }
  pose proof (before_value status k i H P true Bi) as Bf. cbv iota in Bf.
  assert (E1 : (S k <? length status)%nat && negb (Qle_bool (fv status (S k) - fv status k) 0) = false).
  { destruct N as [->|(s & Hs & B)]; [destruct (Nat.ltb_spec (S (length status - 1)) (length status)); [lia|reflexivity]|].
    assert (E : Qle_bool (fv status (S k) - fv status k) 0 = true).
    { apply Qle_bool_iff. pose proof (fv_status status (S k) s Hs) as F2. rewrite B in F2. change (inject_Z (Z.b2z false)) with 0 in F2. lra. }
    rewrite E. cbn [negb]. apply andb_false_r. }
  rewrite E1. destruct P as (Lik & _).
  assert (E2 : (1 <=? k)%nat && negb (Qle_bool 0 (fv status k - fv status (k - 1))) = true).
  { apply andb_true_iff. split; [apply Nat.leb_le; lia|]. apply negb_true_iff. destruct (Qle_bool 0 (fv status k - fv status (k - 1))) eqn:Q; [|reflexivity].
    apply Qle_bool_iff in Q. lra. }
  rewrite E2. reflexivity.
Qed.

(** ** burst by burst *)
Lemma bursts_concat f n : (0 < n)%nat -> forall bs fuel last, Forall (fun b => length b = n) bs -> (length last < n)%nat ->
  (length bs < fuel)%nat -> bursts fuel n f (concat bs ++ last) = concat (map f bs) ++ (if Nat.eqb (length last) 0 then [] else f last).
Proof.
  intros N bs. induction bs as [|b bs IH]; intros fuel last F L Fu.
  - destruct fuel as [|fuel]; [lia|]. cbn [concat map app bursts]. destruct last as [|x last]; [reflexivity|].
    set (l := x :: last) in *. change (f (firstn n l) ++ bursts fuel n f (skipn n l) = f l).
    rewrite firstn_all2, skipn_all2 by lia. destruct fuel; cbn; apply app_nil_r.
  - inversion F as [|? ? Lb F']; subst. destruct fuel as [|fuel]; [lia|]. cbn [concat map]. rewrite <- !app_assoc.
    assert (E : forall l, (0 < length l)%nat -> bursts (S fuel) (length b) f l = f (firstn (length b) l) ++ bursts fuel (length b) f (skipn (length b) l))
      by (intros [|y l] Hl; [cbn in Hl; lia|reflexivity]).
    rewrite E by (rewrite app_length; lia). rewrite firstn_app, firstn_all, Nat.sub_diag, firstn_O, app_nil_r.
    rewrite skipn_app, skipn_all, Nat.sub_diag, skipn_O. cbn [app]. rewrite IH; [reflexivity|exact F'|exact L|cbn [length] in Fu; lia].
Qed.
Lemma concat_same_length {A} n (bs : list (list A)) : Forall (fun b => length b = n) bs -> length (concat bs) = (length bs * n)%nat.
Proof. induction 1 as [|b bs H F IH]; [reflexivity|]. cbn [concat length]. rewrite app_length, IH, H. reflexivity. Qed.
Lemma sample_times_bursts fs n bs last : (0 < n)%nat -> Forall (fun b => length b = n) bs -> (length last < n)%nat ->
  sample_times fs n (concat bs ++ last) = concat (map (burst_times fs) bs) ++ (if Nat.eqb (length last) 0 then [] else burst_times fs last).
Proof.
  intros N F L. unfold sample_times. destruct (Nat.eqb_spec n 0) as [->|_]; [lia|].
  apply bursts_concat; [exact N|exact F|exact L|]. rewrite app_length, (concat_same_length n bs F).
  rewrite Nat.div_add_l by lia. rewrite Nat.div_small by lia. lia.
Qed.
Lemma sample_times_continuous fs t : t <> [] -> sample_times fs 0 t = burst_times fs t.
Proof.
  intros H. unfold sample_times. cbn [Nat.eqb]. destruct t as [|x t]; [congruence|].
  cbn [bursts]. rewrite firstn_all, skipn_all. apply app_nil_r.
Qed.
Lemma same_app a b a' b' : same_series a a' -> same_series b b' -> same_series (a ++ b) (a' ++ b').
Proof. apply Forall2_app. Qed.
Lemma burst_clocks fs n bs clocks : (0 < n)%nat -> Forall (fun b => length b = n) bs -> Forall2 keeps_clock bs clocks ->
  same_series (sample_times fs n (concat bs)) (concat (map (clock_reading n) clocks)).
Proof.
  intros N F K. rewrite <- (app_nil_r (concat bs)). rewrite (sample_times_bursts fs n bs []) by (try assumption; cbn; lia).
  cbn [length Nat.eqb]. rewrite app_nil_r. clear N. revert F. induction K as [|b [x y] bs clocks H K IH]; intros F; [constructor|].
  inversion F as [|? ? Lb F']; subst. cbn [map concat]. apply same_app; [|apply IH; exact F'].
  destruct H as (i0 & i & j & (v0 & V0) & L0 & Vi & L1 & Vj & H). apply (burst_line fs b x y i j); try assumption.
  - intros k v V _. apply (H k v V).
  - exists i0, v0. split; assumption.
Qed.

(** ** velocities of an AWAC *)
Lemma words_nth e bs : forall k, (nth_error (words e bs) k) = match nth_error bs (2 * k), nth_error bs (S (2 * k)) with Some b0, Some b1 => Some (word e b0 b1) | _, _ => None end.
Proof.
  assert (H : forall n bs, (length bs <= n)%nat -> forall k, (nth_error (words e bs) k) = match nth_error bs (2 * k), nth_error bs (S (2 * k)) with Some b0, Some b1 => Some (word e b0 b1) | _, _ => None end).
  { clear bs. induction n as [|n IH]; intros bs L k.
    - destruct bs; [|cbn in L; lia]. destruct k; reflexivity.
    - destruct bs as [|b0 [|b1 bs]].
      + destruct k; reflexivity.
      + destruct k as [|k]; [reflexivity|]. replace (2 * S k)%nat with (S (S (2 * k))) by lia. cbn [words nth_error].
        destruct (2 * k)%nat; reflexivity.
      + destruct k as [|k]; [reflexivity|]. replace (2 * S k)%nat with (S (S (2 * k))) by lia. cbn [words nth_error].
        apply IH. cbn in L. lia. }
  apply (H (length bs)). lia.
Qed.
Lemma nth_error_firstn' {A} n (l : list A) k : (k < n)%nat -> nth_error (firstn n l) k = nth_error l k.
Proof. revert l k. induction n as [|n IH]; intros l k L; [lia|]. destruct l as [|x l]; [reflexivity|]. destruct k as [|k]; [reflexivity|]. cbn. apply IH. lia. Qed.
Lemma nth_error_skipn' {A} p k (l : list A) : nth_error (skipn p l) k = nth_error l (p + k).
Proof. revert l. induction p as [|p IH]; intros l; [reflexivity|]. destruct l as [|x l]; [destruct k; reflexivity|]. apply IH. Qed.
Lemma awac_velocity e nbeams nbins bs k j b0 b1 v : (k < nbeams)%nat -> (j < nbins)%nat ->
  nth_error bs (116 + 2 * (k * nbins + j)) = Some b0 -> nth_error bs (117 + 2 * (k * nbins + j)) = Some b1 -> holds_signed e b0 b1 v ->
  exists x, nth_error (awac_vel e nbeams nbins bs k) j = Some x /\ (x == inject_Z v / 1000)%Q.
Proof.
  intros K J H0 H1 H. unfold awac_vel. rewrite nth_error_map, nth_error_firstn' by exact J. rewrite nth_error_skipn', words_nth.
  assert (B : (k * nbins + j < nbeams * nbins)%nat) by nia.
  rewrite !nth_error_firstn' by lia. rewrite !nth_error_skipn'.
  rewrite H0. replace (116 + S (2 * (k * nbins + j)))%nat with (117 + 2 * (k * nbins + j))%nat by lia. rewrite H1.
  cbn [option_map]. eexists. split; [reflexivity|]. rewrite (signed_holds e b0 b1 v H). reflexivity.
Qed.
