From Coq Require Import ZArith List Bool Lia Sorting.Sorted.
From Verif.Model Require Import Slice1d.
From Verif.Spec Require Import Slice1d.
Import ListNotations.

(** digits of [k], least significant first; the last digit is not reduced *)
Fixpoint dig (k : nat) (ds : list nat) : list nat :=
  match ds with
  | [] => []
  | d :: ds' => match ds' with [] => [k] | _ => (k mod d) :: dig (k / d) ds' end
  end.
Fixpoint val (ds is : list nat) : nat :=
  match ds, is with d :: ds', i :: is' => i + d * val ds' is' | _, _ => 0 end.

Lemma dig_len ds : forall k, length (dig k ds) = length ds.
Proof. induction ds as [|d [|d' ds] IH]; intros k; try reflexivity. change (S (length (dig (k / d) (d' :: ds))) = S (length (d' :: ds))). now rewrite IH. Qed.

Lemma dig_cons k d d' ds : dig k (d :: d' :: ds) = (k mod d) :: dig (k / d) (d' :: ds).
Proof. reflexivity. Qed.

Lemma bump_dig k d ds : exists i r, dig k (d :: ds) = i :: r.
Proof. destruct ds; [now exists k, []|]. rewrite dig_cons. eauto. Qed.

Lemma carry_bump ds : Forall (fun d => 0 < d) ds -> forall k, carry (bump (dig k ds)) ds = dig (S k) ds.
Proof.
  induction ds as [|d [|d' ds] IH]; intros F k; try reflexivity.
  inversion F as [|? ? Hd F']; subst. rewrite !dig_cons. cbn [bump].
  destruct (bump_dig (k / d) d' ds) as (i & r & E). rewrite E. cbn [carry].
  pose proof (Nat.div_mod k d ltac:(lia)) as DM. pose proof (Nat.mod_upper_bound k d ltac:(lia)) as MB.
  pose proof (Nat.div_mod (S k) d ltac:(lia)) as DM2. pose proof (Nat.mod_upper_bound (S k) d ltac:(lia)) as MB2.
  destruct (Nat.leb d (S (k mod d))) eqn:L.
  - apply Nat.leb_le in L. assert (k mod d = d - 1) by lia.
    assert (Q : S k / d = S (k / d) /\ S k mod d = 0).
    { assert (S k = d * S (k / d) + 0) by nia. split; symmetry; [eapply Nat.div_unique|eapply Nat.mod_unique]; try exact H0; lia. }
    destruct Q as [Q1 Q2]. rewrite Q1, Q2. f_equal. rewrite <- (IH F'). rewrite E. reflexivity.
  - apply Nat.leb_gt in L.
    assert (Q : S k / d = k / d /\ S k mod d = S (k mod d)).
    { assert (S k = d * (k / d) + S (k mod d)) by lia. split; symmetry; [eapply Nat.div_unique|eapply Nat.mod_unique]; try exact H; lia. }
    destruct Q as [Q1 Q2]. now rewrite Q1, Q2, E.
Qed.

Lemma carry_zero ds : Forall (fun d => 0 < d) ds -> carry (repeat 0 (length ds)) ds = dig 0 ds.
Proof.
  assert (Z : forall ds, Forall (fun d => 0 < d) ds -> dig 0 ds = repeat 0 (length ds)).
  { induction ds0 as [|d [|d' ds0] IH]; intros F; try reflexivity. inversion F; subst.
    rewrite dig_cons. rewrite Nat.mod_0_l, Nat.div_0_l by lia. rewrite IH by easy. reflexivity. }
  intros F. rewrite Z by easy. destruct ds as [|d [|d' ds]]; try reflexivity. inversion F; subst.
  cbn [length repeat carry]. destruct (Nat.leb_spec d 0); [lia|easy].
Qed.

Lemma odometer_eq ds : Forall (fun d => 0 < d) ds -> forall n k ind, carry ind ds = dig k ds ->
  odometer n ind ds = map (fun k => rev (dig k ds)) (seq k n).
Proof.
  intros F. induction n as [|n IH]; intros k ind E; [reflexivity|]. cbn [odometer seq map]. rewrite E.
  f_equal. apply IH. now apply carry_bump.
Qed.

(** ** digits and values *)
Definition within (is ds : list nat) := Forall2 lt is ds.

Lemma product_cons d ds : product (d :: ds) = d * product ds.
Proof. reflexivity. Qed.

Lemma dig_within ds : ds <> [] -> Forall (fun d => 0 < d) ds -> forall k, k < product ds ->
  within (dig k ds) ds /\ val ds (dig k ds) = k.
Proof.
  induction ds as [|d [|d' ds] IH]; intros N F k L; [easy| |].
  - rewrite product_cons in L. cbn in L. split; [repeat constructor; lia|]. cbn. lia.
  - inversion F; subst. rewrite product_cons in L. rewrite dig_cons.
    destruct (IH ltac:(discriminate) H2 (k / d)) as [I1 I2].
    { apply Nat.div_lt_upper_bound; lia. }
    split.
    + constructor; [apply Nat.mod_upper_bound; lia|exact I1].
    + change (k mod d + d * val (d' :: ds) (dig (k / d) (d' :: ds)) = k). rewrite I2.
      rewrite (Nat.div_mod k d) at 3 by lia. lia.
Qed.

Lemma dig_val ds : forall is, within is ds -> dig (val ds is) ds = is /\ val ds is < product ds.
Proof.
  induction ds as [|d [|d' ds] IH]; intros is W.
  - inversion W; subst. split; [easy|cbn; lia].
  - inversion W as [|i ? is' ? H1 H2]; subst. inversion H2; subst. cbn. split; [f_equal; lia|lia].
  - inversion W as [|i ? is' ? H1 H2]; subst. destruct (IH is' H2) as [I1 I2].
    rewrite product_cons. set (v := val (d' :: ds) is') in *.
    change (val (d :: d' :: ds) (i :: is')) with (i + d * v).
    split; [|nia]. rewrite dig_cons.
    assert (Q : (i + d * v) / d = v /\ (i + d * v) mod d = i).
    { split; symmetry; [apply (Nat.div_unique _ _ v i)|apply (Nat.mod_unique _ _ v i)]; lia. }
    destruct Q as [-> ->]. now rewrite I1.
Qed.

Lemma val_order ds : forall is js, within is ds -> within js ds -> val ds is < val ds js ->
  exists p i j, nth_error is p = Some i /\ nth_error js p = Some j /\ i < j /\
    forall q, p < q -> nth_error is q = nth_error js q.
Proof.
  induction ds as [|d ds IH]; intros is js W V L.
  - inversion W; inversion V; subst. cbn in L. lia.
  - inversion W as [|i ? is' ? H1 H2]; subst. inversion V as [|j ? js' ? H3 H4]; subst.
    cbn [val] in L. destruct (Nat.lt_trichotomy (val ds is') (val ds js')) as [T|[T|T]].
    + destruct (IH _ _ H2 H4 T) as (p & x & y & A & B & C & D). exists (S p), x, y.
      repeat split; auto. intros [|q] Hq; [lia|]. cbn. apply D. lia.
    + assert (is' = js'). { destruct (dig_val ds is' H2) as [<- _]. destruct (dig_val ds js' H4) as [<- _]. now rewrite T. }
      subst js'. exists 0, i, j. repeat split; [nia|]. intros [|q] Hq; [lia|reflexivity].
    + nia.
Qed.

Lemma nth_error_rev {A} (l : list A) p : p < length l -> nth_error (rev l) p = nth_error l (length l - 1 - p).
Proof.
  revert p. induction l as [|a l IH]; intros p H; [cbn in H; lia|]. cbn [rev length].
  destruct (Nat.eq_dec p (length l)) as [->|N].
  - rewrite nth_error_app2 by (rewrite rev_length; lia). rewrite rev_length, Nat.sub_diag.
    replace (S (length l) - 1 - length l) with 0 by lia. reflexivity.
  - cbn [length] in H. rewrite nth_error_app1 by (rewrite rev_length; lia). rewrite IH by lia.
    replace (S (length l) - 1 - p) with (S (length l - 1 - p)) by lia. reflexivity.
Qed.

(** ** inserting and removing the axis *)
Lemma nth_insert {A} (y : A) : forall a l p, a <= length l ->
  nth_error (insert_at a y l) p =
    if Nat.ltb p a then nth_error l p else if Nat.eqb p a then Some y else nth_error l (p - 1).
Proof.
  induction a as [|a IH]; intros l p L.
  - destruct l; destruct p; cbn; try reflexivity; rewrite Nat.sub_0_r; reflexivity.
  - destruct l as [|x l]; [cbn in L; lia|]. destruct p as [|p]; [reflexivity|].
    cbn [insert_at nth_error]. rewrite IH by (cbn in L; lia). change (S p <? S a) with (p <? a).
    change (S p =? S a) with (p =? a).
    destruct (Nat.ltb_spec p a); [easy|]. destruct (Nat.eqb_spec p a); [easy|].
    replace (S p - 1) with (S (p - 1)) by lia. reflexivity.
Qed.
Lemma nth_remove {A} : forall a (l : list A) p,
  nth_error (remove_at a l) p = if Nat.ltb p a then nth_error l p else nth_error l (S p).
Proof.
  induction a as [|a IH]; intros l p.
  - destruct l; [destruct p; reflexivity|reflexivity].
  - destruct l as [|x l]; [destruct p; destruct (_ <? _); reflexivity|].
    destruct p as [|p]; [reflexivity|]. cbn [remove_at nth_error]. rewrite IH. reflexivity.
Qed.
Lemma remove_len {A} : forall a (l : list A), a < length l -> length (remove_at a l) = length l - 1.
Proof.
  induction a as [|a IH]; intros [|x l] H; cbn in *; try lia. rewrite IH by lia. lia.
Qed.
Lemma insert_len {A} (y : A) : forall a l, length (insert_at a y l) = S (length l).
Proof. induction a as [|a IH]; intros [|x l]; cbn; try reflexivity. now rewrite IH. Qed.

Lemma Forall2_length {A B} (R : A -> B -> Prop) l m : Forall2 R l m -> length l = length m.
Proof. induction 1; cbn; congruence. Qed.

Lemma within_nth is ds : within is ds <-> length is = length ds /\
  forall p n, nth_error ds p = Some n -> exists i, nth_error is p = Some i /\ i < n.
Proof.
  split.
  - intros W. split; [now apply Forall2_length in W|]. intros p n. revert p.
    induction W; intros [|p] H'; cbn in *; try discriminate.
    + injection H' as ->. eauto.
    + now apply IHW.
  - intros [L H]. revert ds L H. induction is as [|i is IH]; intros [|d ds] L H; try discriminate; [constructor|].
    constructor.
    + destruct (H 0 d eq_refl) as (i' & E & Hi). cbn in E. injection E as ->. exact Hi.
    + apply IH; [cbn in L; lia|]. intros p n Hp. exact (H (S p) n Hp).
Qed.

Lemma within_rev is ds : within is ds -> within (rev is) (rev ds).
Proof.
  induction 1; [constructor|]. cbn. apply Forall2_app; [exact IHForall2|repeat constructor; easy].
Qed.

Lemma line_iff shape a t : a < length shape ->
  line_of shape a t <-> exists is, within is (remove_at a shape) /\ t = insert_at a None (map Some is).
Proof.
  intros Ha. split.
  - intros [L H].
    assert (G : forall u, (forall x, In x u -> x <> None) -> exists is : list nat, u = map Some is).
    { induction u as [|x u IH]; intros Hu; [now exists []|]. destruct IH as [is ->]; [intros; apply Hu; now right|].
      destruct x as [i|]; [exists (i :: is); reflexivity|]. now destruct (Hu None (or_introl eq_refl)). }
    destruct (G (remove_at a t)) as [is Eis].
    { intros x Hx. apply In_nth_error in Hx as [p Hp]. rewrite nth_remove in Hp.
      destruct (Nat.ltb_spec p a) as [Lp|Lp].
      - destruct (nth_error shape p) as [n|] eqn:En.
        + destruct (H _ _ En) as [_ H2]. destruct H2 as (i & Ei & _); [lia|]. rewrite Ei in Hp. congruence.
        + apply nth_error_None in En. lia.
      - assert (S p < length t) by (apply nth_error_Some; congruence).
        destruct (nth_error shape (S p)) as [n|] eqn:En.
        + destruct (H _ _ En) as [_ H2]. destruct H2 as (i & Ei & _); [lia|]. rewrite Ei in Hp. congruence.
        + apply nth_error_None in En. lia. }
    exists is. assert (Lis : length is = length shape - 1).
    { rewrite <- (map_length Some is), <- Eis, remove_len; lia. }
    split.
    + apply within_nth. split; [rewrite remove_len; lia|]. intros p n Hp. rewrite nth_remove in Hp.
      assert (Q : forall r, nth_error (remove_at a t) p = Some (Some r) -> nth_error is p = Some r).
      { intros r Hr. rewrite Eis, nth_error_map in Hr. destruct (nth_error is p); cbn in Hr; congruence. }
      rewrite nth_remove in Q. destruct (Nat.ltb_spec p a) as [Lp|Lp].
      * destruct (H _ _ Hp) as [_ H2]. destruct H2 as (i & Ei & Hi); [lia|]. eauto.
      * destruct (H _ _ Hp) as [_ H2]. destruct H2 as (i & Ei & Hi); [lia|]. eauto.
    + assert (E2 : forall p, nth_error t p = nth_error (insert_at a None (map Some is)) p).
      { intros p. rewrite nth_insert by (rewrite map_length; lia). rewrite <- Eis, !nth_remove.
        destruct (Nat.ltb_spec p a); [reflexivity|]. destruct (Nat.eqb_spec p a) as [->|].
        - destruct (nth_error shape a) as [n|] eqn:En; [|apply nth_error_None in En; lia].
          now destruct (H _ _ En) as [H1 _]; apply H1.
        - destruct (Nat.ltb_spec (p - 1) a); [lia|]. now replace (S (p - 1)) with p by lia. }
      clear - E2. revert E2. generalize (insert_at a None (map Some is)). induction t as [|x t IH]; intros [|y u] E.
      * reflexivity.
      * specialize (E 0). discriminate.
      * specialize (E 0). discriminate.
      * pose proof (E 0) as E0. cbn in E0. injection E0 as ->. f_equal. apply IH. intros p. exact (E (S p)).
  - intros (is & W & ->). apply within_nth in W as [L W].
    assert (Lis : length is = length shape - 1) by (rewrite L, remove_len; lia).
    split; [rewrite insert_len, map_length; lia|]. intros p n Hp. split; intros Hpa.
    + subst p. rewrite nth_insert by (rewrite map_length; lia). now rewrite Nat.ltb_irrefl, Nat.eqb_refl.
    + rewrite nth_insert by (rewrite map_length; lia). destruct (Nat.ltb_spec p a).
      * destruct (W p n) as (i & Ei & Hi); [rewrite nth_remove; destruct (Nat.ltb_spec p a); [easy|lia]|].
        exists i. rewrite nth_error_map, Ei. easy.
      * destruct (Nat.eqb_spec p a); [easy|].
        destruct (W (p - 1) n) as (i & Ei & Hi).
        { rewrite nth_remove; destruct (Nat.ltb_spec (p - 1) a); [lia|]. now replace (S (p - 1)) with p by lia. }
        exists i. rewrite nth_error_map, Ei. easy.
Qed.

Lemma order_insert a is js : a <= length is -> length is = length js ->
  (exists p i j, nth_error is p = Some i /\ nth_error js p = Some j /\ i < j /\
     forall q, q < p -> nth_error is q = nth_error js q) ->
  row_major (insert_at a None (map Some is)) (insert_at a None (map Some js)).
Proof.
  intros La Lij (p & i & j & Ei & Ej & Hij & Hq).
  exists (if Nat.ltb p a then p else S p), i, j.
  assert (N : forall ks : list nat, length ks = length is -> nth_error (insert_at a None (map Some ks)) (if p <? a then p else S p) = nth_error (map Some ks) p).
  { intros ks Lk. rewrite nth_insert by (rewrite map_length; lia). destruct (Nat.ltb_spec p a).
    - destruct (Nat.ltb_spec p a); [reflexivity|lia].
    - destruct (Nat.ltb_spec (S p) a); [lia|]. destruct (Nat.eqb_spec (S p) a); [lia|].
      now replace (S p - 1) with p by lia. }
  rewrite !N by lia. rewrite !nth_error_map, Ei, Ej. repeat split; auto.
  intros q Lq. rewrite !nth_insert by (rewrite map_length; lia). rewrite !nth_error_map.
  destruct (Nat.ltb_spec q a); [rewrite Hq; [reflexivity|]|].
  - destruct (Nat.ltb_spec p a); lia.
  - destruct (Nat.eqb_spec q a); [reflexivity|]. rewrite Hq; [reflexivity|]. destruct (Nat.ltb_spec p a); lia.
Qed.

Lemma product_pos l : 0 < product l <-> Forall (fun d => 0 < d) l.
Proof.
  induction l as [|d l IH]; [split; [constructor|cbn; lia]|]. rewrite product_cons. split.
  - intros H. constructor; [nia|]. apply IH. nia.
  - intros F. inversion F; subst. apply IH in H2. nia.
Qed.
Lemma product_app l m : product (l ++ m) = product l * product m.
Proof.
  induction l as [|d l IH]; [cbn [app]; change (product []) with 1; lia|].
  change ((d :: l) ++ m) with (d :: (l ++ m)). rewrite !product_cons, IH. lia.
Qed.
Lemma product_rev l : product (rev l) = product l.
Proof. induction l as [|d l IH]; [reflexivity|]. cbn [rev]. rewrite product_app, IH, !product_cons. change (product []) with 1. lia. Qed.

Lemma sorted_seq {B} (R : B -> B -> Prop) (f : nat -> B) : forall n s,
  (forall i j, s <= i -> i < j -> j < s + n -> R (f i) (f j)) -> StronglySorted R (map f (seq s n)).
Proof.
  induction n as [|n IH]; intros s H; cbn; constructor.
  - apply IH. intros. apply H; lia.
  - apply Forall_forall. intros x Hx. apply in_map_iff in Hx as (j & <- & Hj). apply in_seq in Hj. apply H; lia.
Qed.

Theorem slices_correct shape axis a : 2 <= length shape ->
  (0 <= Z.of_nat a < Z.of_nat (length shape))%Z ->
  axis = Z.of_nat a \/ axis = (Z.of_nat a - Z.of_nat (length shape))%Z ->
  exists out, slice1d_along_axis shape axis = Some out /\
    (forall t, In t out <-> line_of shape a t) /\ StronglySorted row_major out.
Proof.
  intros L2 La Hax. unfold slice1d_along_axis.
  assert (Ea : (if (axis <? 0)%Z then (axis + Z.of_nat (length shape))%Z else axis) = Z.of_nat a).
  { destruct (Z.ltb_spec axis 0); lia. }
  rewrite Ea. destruct (Z.leb_spec 0 (Z.of_nat a)); [|lia].
  destruct (Z.ltb_spec (Z.of_nat a) (Z.of_nat (length shape))); [|lia]. cbn [andb].
  rewrite Nat2Z.id. assert (Lr : length (remove_at a shape) = length shape - 1) by (apply remove_len; lia).
  set (dims := remove_at a shape) in *.
  assert (Nd : dims <> []) by (intros E; rewrite E in Lr; cbn in Lr; lia).
  destruct dims as [|d0 dr] eqn:Ed; [easy|]. rewrite <- Ed in *. clear Ed d0 dr.
  eexists. split; [reflexivity|].
  destruct (Nat.eq_dec (product dims) 0) as [Z0|Zp].
  { rewrite Z0. cbn. split; [|constructor]. intros t. split; [intros []|]. intros Hl.
    apply line_iff in Hl as (is & W & _); [|lia]. fold dims in W. clear - Z0 W.
    assert (0 < product dims); [|lia]. apply product_pos. clear Z0. induction W; constructor; [lia|easy]. }
  assert (F : Forall (fun d => 0 < d) dims) by (apply product_pos; lia).
  assert (Fr : Forall (fun d => 0 < d) (rev dims)) by now apply Forall_rev.
  assert (Nr : rev dims <> []). { intros E. apply (f_equal (@length _)) in E. rewrite rev_length in E. destruct dims; easy. }
  rewrite (odometer_eq (rev dims) Fr (product dims) 0).
  2:{ rewrite <- Lr, <- rev_length. now apply carry_zero. }
  rewrite map_map.
  assert (DW : forall k, k < product dims -> within (dig k (rev dims)) (rev dims) /\ val (rev dims) (dig k (rev dims)) = k).
  { intros k Hk. apply dig_within; auto. now rewrite product_rev. }
  split.
  - intros t. rewrite in_map_iff, line_iff by lia. fold dims. split.
    + intros (k & <- & Hk). apply in_seq in Hk. exists (rev (dig k (rev dims))). split; [|easy].
      rewrite <- (rev_involutive dims) at 2. apply within_rev, DW. lia.
    + intros (is & W & ->). apply within_rev in W. destruct (dig_val _ _ W) as [V1 V2].
      rewrite product_rev in V2. exists (val (rev dims) (rev is)). split; [|apply in_seq; lia].
      now rewrite V1, rev_involutive.
  - apply sorted_seq. intros i j _ Hij Hj.
    destruct (DW i ltac:(lia)) as [W1 V1]. destruct (DW j ltac:(lia)) as [W2 V2].
    pose proof (Forall2_length _ _ _ W1) as Li. pose proof (Forall2_length _ _ _ W2) as Lj. rewrite rev_length in Li, Lj.
    apply order_insert; [rewrite rev_length; lia|rewrite !rev_length; lia|].
    destruct (val_order _ _ _ W1 W2) as (p & x & y & A & B & C & D); [lia|].
    set (n := length dims) in *. assert (Pn : p < n). { rewrite <- Li. apply nth_error_Some. congruence. }
    exists (n - 1 - p), x, y. rewrite !nth_error_rev by lia. rewrite Li, Lj.
    replace (n - 1 - (n - 1 - p)) with p by lia. repeat split; auto.
    intros q Hq. rewrite !nth_error_rev by lia. rewrite Li, Lj. apply D. lia.
Qed.

Theorem slices_raise shape axis : slice1d_along_axis shape axis = None <->
  length shape <= 1 \/ ~ (- Z.of_nat (length shape) <= axis < Z.of_nat (length shape))%Z.
Proof.
  split.
  - intros H. destruct (le_lt_dec (length shape) 1) as [L|L]; [now left|right]. intros R.
    set (a := Z.to_nat (if (axis <? 0)%Z then (axis + Z.of_nat (length shape))%Z else axis)).
    destruct (slices_correct shape axis a) as (out & E & _); [lia| | |congruence].
    + subst a. destruct (Z.ltb_spec axis 0); lia.
    + subst a. destruct (Z.ltb_spec axis 0); [right|left]; lia.
  - unfold slice1d_along_axis. intros H.
    set (ax := if (axis <? 0)%Z then (axis + Z.of_nat (length shape))%Z else axis).
    destruct (Z.leb_spec 0 ax); [|reflexivity]. destruct (Z.ltb_spec ax (Z.of_nat (length shape))); [|reflexivity].
    cbn [andb]. destruct H as [H|H].
    + assert (L : length (remove_at (Z.to_nat ax) shape) = 0) by (rewrite remove_len; lia).
      destruct (remove_at (Z.to_nat ax) shape); [reflexivity|discriminate].
    + exfalso. apply H. subst ax. destruct (Z.ltb_spec axis 0); lia.
Qed.
