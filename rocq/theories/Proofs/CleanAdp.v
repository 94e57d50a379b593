From Coq Require Import String.
From Coq Require Import ZArith Reals List Bool Lia Lra.
From Verif.Model Require Import Linalg Stats Rotate CleanAdp.
From Verif.Spec Require Import CleanAdp.
Import ListNotations.
Open Scope R_scope.

(** ** set_range_offset *)
Lemma offset_add a b d : set_range_offset b (set_range_offset a d) = set_range_offset (a + b) d.
Proof.
  unfold set_range_offset. cbn [dims h_deploy]. f_equal.
  - rewrite map_map. apply map_ext. intros [n v]. cbn [fst snd]. destruct (contains "range" n) eqn:E; cbn [fst snd]; rewrite E; [|reflexivity].
    f_equal. rewrite map_map. apply map_ext. intros x. ring.
  - f_equal. destruct (h_deploy d); ring.
Qed.
Lemma offset_dims h d k n v : nth_error (dims d) k = Some (n, v) ->
  nth_error (dims (set_range_offset h d)) k = Some (n, if contains "range" n then map (fun x => x + h) v else v).
Proof. intros H. cbn [set_range_offset dims]. rewrite nth_error_map, H. cbn. now destruct (contains "range" n). Qed.
Lemma offset_number h d : length (dims (set_range_offset h d)) = length (dims d).
Proof. apply map_length. Qed.

(** ** depth *)
Lemma density_pos p t s : 0 <= p -> t <= 60 -> 0 <= s -> 0 < density p t s.
Proof. unfold density. intros. lra. Qed.
Lemma depth_zero h t s : depth_from_P h 0 t s = match h with Some x => x | None => 0 end.
Proof. unfold depth_from_P, Rdiv. destruct h; ring. Qed.
Lemma depth_inc h p q t s : 0 <= p -> p < q -> t <= 60 -> 0 <= s -> depth_from_P h p t s < depth_from_P h q t s.
Proof.
  intros P Q T S. unfold depth_from_P. apply Rplus_lt_compat_r.
  assert (D1 := density_pos p t s P T S). assert (D2 := density_pos q t s ltac:(lra) T S).
  set (a := density p t s) in *. set (b := density q t s) in *.
  assert (X : p * b < q * a) by (unfold a, b, density; nra).
  apply Rmult_lt_reg_r with (981/100 * a); [lra|]. apply Rmult_lt_reg_r with (981/100 * b); [lra|].
  replace (p * 10000 / (981/100 * a) * (981/100 * a) * (981/100 * b)) with (p * b * (10000 * 981/100)) by (field; lra).
  replace (q * 10000 / (981/100 * b) * (981/100 * a) * (981/100 * b)) with (q * a * (10000 * 981/100)) by (field; lra).
  apply Rmult_lt_compat_r; [lra|exact X].
Qed.
Lemma depth_offset x p t s : depth_from_P (Some x) p t s = depth_from_P None p t s + x.
Proof. unfold depth_from_P. ring. Qed.

(** ** masks *)
Lemma blank_where_spec {A} (f : A -> A) : forall mask a, length mask = length a ->
  changed_where (fun k => nth_error mask k = Some true) f a (blank_where f mask a).
Proof.
  unfold blank_where. induction mask as [|m mask IH]; intros [|x a] L; try discriminate; [split; [reflexivity|intros [|k] y H; discriminate]|].
  destruct (IH a ltac:(cbn in L; lia)) as [LL H]. split; [cbn; now rewrite LL|]. intros [|k] y Y; [|now apply H].
  injection Y as <-. cbn. destruct m; split; intros E; try reflexivity; [now elim E|discriminate].
Qed.
Lemma changed_iff {A} (p q : nat -> Prop) (f : A -> A) a b : (forall k, (k < length a)%nat -> (p k <-> q k)) -> changed_where p f a b -> changed_where q f a b.
Proof.
  intros E [L H]. split; [exact L|]. intros k x X. destruct (H k x X) as [H1 H2].
  assert (k < length a)%nat by (apply nth_error_Some; congruence). rewrite <- E by easy. auto.
Qed.
Lemma Rltb_true x y : Rltb x y = true <-> x < y.
Proof. unfold Rltb. destruct (Rlt_dec x y); split; easy. Qed.

Lemma beyond_nth lim range k r : nth_error range k = Some r ->
  nth_error (map (beyond lim) range) k = Some true <-> exists l, lim = Some l /\ l < r.
Proof.
  intros H. rewrite nth_error_map, H. cbn. unfold beyond. destruct lim as [l|].
  - split; [intros E; exists l; split; [easy|apply Rltb_true; congruence]|]. intros (l' & E & L). injection E as <-. f_equal. now apply Rltb_true.
  - split; [discriminate|]. now intros (l & E & _).
Qed.
Lemma beyond_spec attr val h depth cs range col : length col = length range ->
  exists out, nan_beyond_surface (Some attr) None val h (Some depth) cs range col = inr out /\
    changed_where (fun k => exists r, nth_error range k = Some r /\ clear_range attr cs (match h with Some x => x | None => 0 end) depth < r) (blank val) col out.
Proof.
  intros L. unfold nan_beyond_surface. cbn [surface_angle]. rewrite L, Nat.eqb_refl. eexists. split; [reflexivity|].
  eapply changed_iff; [|apply blank_where_spec; rewrite map_length; congruence]. cbv beta. intros k K.
  destruct (nth_error range k) as [r|] eqn:E; [|apply nth_error_None in E; lia].
  rewrite (beyond_nth _ range k r E). unfold surface_limit, clear_range.
  replace (attr * (PI / 180)) with (attr * PI / 180) by field. split.
  - intros (l & EL & LR). exists r. split; [easy|]. injection EL as <-. destruct h as [x|]; lra.
  - intros (r' & ER & LR). injection ER as <-. eexists. split; [reflexivity|]. destruct h as [x|]; lra.
Qed.
Lemma beyond_missing_depth attr arg val h cs range col out : nan_beyond_surface attr arg val h None cs range col = inr out -> out = col.
Proof.
  unfold nan_beyond_surface. destruct (surface_angle attr arg) as [|angle]; [discriminate|]. destruct (Nat.eqb_spec (length col) (length range)) as [L|]; [|discriminate].
  cbn [surface_limit]. intros E. injection E as <-. revert L. revert range. induction col as [|x col IH]; intros [|r range] L; try discriminate; [reflexivity|].
  cbn. f_equal. apply IH. cbn in L. lia.
Qed.
Lemma echo_spec val depth range col : length col = length range ->
  changed_where (fun k => exists r, nth_error range k = Some r /\ depth < r) (blank val) col (nan_beyond_echo val (Some depth) range col).
Proof.
  intros L. eapply changed_iff; [|apply blank_where_spec; rewrite map_length; congruence]. cbv beta. intros k K.
  destruct (nth_error range k) as [r|] eqn:E; [|apply nth_error_None in E; lia]. rewrite (beyond_nth _ range k r E). split.
  - intros (l & EL & LR). injection EL as <-. eauto.
  - intros (r' & ER & LR). injection ER as <-. eauto.
Qed.

(** the angle given in degrees *)
Lemma PI_bounds : 31035/10000 < PI < 33/10.
Proof.
  pose proof (PI_2_3_7_ineq 0) as [A B]. cbn [sum_f_R0] in A, B. unfold tg_alt, PI_2_3_7_tg, Ratan_seq in A, B. cbn [pow plus mult INR] in A, B.
  simpl in A, B. split; lra.
Qed.
Lemma cos_30_rad : cos 30 < 1/2.
Proof.
  destruct PI_bounds as [A B]. rewrite <- cos_PI3. rewrite <- (cos_neg 30). replace (cos (- (30))) with (cos (- (30) + 2 * INR 5 * PI)) by (rewrite cos_period; reflexivity).
  apply cos_decreasing_1; replace (INR 5) with 5 by (simpl; ring); lra.
Qed.
Lemma cos_30_deg : 1/2 < cos (30 * PI / 180).
Proof. pose proof PI_RGT_0. rewrite <- cos_PI3. apply cos_decreasing_1; lra. Qed.

(** ** correlation *)
Lemma low_spec t corr k : nth_error (map (low t) corr) k = Some true <-> low_corr t corr k.
Proof.
  rewrite nth_error_map. unfold low_corr. destruct (nth_error corr k) as [[[x|]|z]|]; cbn [option_map low].
  - destruct (Rle_dec x t) as [L|L]; split; try easy.
    + intros _. exists x. auto.
    + intros (y & Y & [E|(z & _ & E)]); [|discriminate]. injection E as <-. contradiction.
  - split; [discriminate|]. intros (y & _ & [E|(z & _ & E)]); discriminate.
  - destruct (Rle_dec (IZR z) t) as [L|L]; split; try easy.
    + intros _. exists (IZR z). split; [easy|]. right. eauto.
    + intros (y & Y & [E|(z' & E' & E)]); [discriminate|]. injection E as <-. subst. contradiction.
  - split; [discriminate|]. intros (y & _ & [E|(z & _ & E)]); discriminate.
Qed.
Lemma filter_corr frame t vel corr amp : length amp = length corr ->
  let '(_, c, a) := correlation_filter frame t vel corr amp in
  changed_where (low_corr t corr) erased corr c /\ changed_where (low_corr t corr) erased amp a.
Proof.
  intros L. unfold correlation_filter.
  assert (E : forall x : num, blank None x = erased x) by (intros [x|z]; reflexivity).
  split; (eapply changed_iff; [intros k _; apply low_spec|]);
    [destruct (blank_where_spec (blank None) (map (low t) corr) corr) as [A B]|destruct (blank_where_spec (blank None) (map (low t) corr) amp) as [A B]];
    try (rewrite map_length; congruence); (split; [exact A|]); intros k x X; destruct (B k x X) as [B1 B2]; rewrite <- E; auto.
Qed.
Lemma filter_beam t vel corr amp : length vel = length corr ->
  changed_where (low_corr t corr) (fun _ => None) vel (fst (fst (correlation_filter None t vel corr amp))).
Proof.
  intros L. unfold correlation_filter. cbn [fst]. eapply changed_iff; [intros k _; apply low_spec|]. apply blank_where_spec. rewrite map_length. congruence.
Qed.
Lemma complete_some l : complete (map Some l) = Some l.
Proof. induction l as [|x l IH]; cbn; [reflexivity|]. now rewrite IH. Qed.
Lemma complete_in l x : complete l = Some x -> l = map Some x.
Proof.
  revert x. induction l as [|[v|] l IH]; intros x H; cbn in H; [injection H as <-; reflexivity| |discriminate].
  destruct (complete l) as [y|]; [|discriminate]. injection H as <-. cbn. f_equal. now apply IH.
Qed.
Lemma filter_frame to_beam back t v corr amp : length v = length corr -> length (to_beam v) = length v -> back (to_beam v) = v ->
  let vel := fst (fst (correlation_filter (Some (to_beam, back)) t (map Some v) corr amp)) in
  ((forall k, ~ low_corr t corr k) -> vel = map Some v) /\ ((exists k, low_corr t corr k) -> vel = repeat None (length v)).
Proof.
  intros L LB B. unfold correlation_filter. cbn [fst]. unfold lift at 2 4. rewrite complete_some.
  destruct (blank_where_spec (fun _ : option R => None) (map (low t) corr) (map Some (to_beam v))) as [A C]; [rewrite !map_length; congruence|].
  set (w := blank_where _ _ _) in *. rewrite map_length in A. split.
  - intros N. assert (E : w = map Some (to_beam v)).
    { apply nth_ext with (d := None) (d' := None); [now rewrite A, map_length|]. intros k K. rewrite A in K.
      assert (X : nth_error (map Some (to_beam v)) k = Some (nth k (map Some (to_beam v)) None)) by (apply nth_error_nth'; now rewrite map_length).
      destruct (C k _ X) as [_ C2]. apply nth_error_nth. apply C2. intros Q. apply low_spec in Q. now apply (N k). }
    rewrite E. unfold lift. now rewrite complete_some, B.
  - intros (k & K). assert (W : nth_error w k = Some None).
    { assert (k < length (to_beam v))%nat.
      { rewrite LB, L. apply low_spec in K. rewrite <- (map_length (low t) corr). apply nth_error_Some. congruence. }
      apply (C k (nth k (map Some (to_beam v)) None)); [apply nth_error_nth'; now rewrite map_length|]. now apply low_spec. }
    unfold lift. destruct (complete w) as [x|] eqn:E.
    + apply complete_in in E. rewrite E, nth_error_map in W. destruct (nth_error x k); discriminate.
    + rewrite A. now rewrite LB.
Qed.

(** ** find_surface *)
Lemma max_list_in l : max_list l = 0%Z \/ In (max_list l) l.
Proof. induction l as [|x l IH]; [now left|]. cbn [max_list fold_right]. fold (max_list l). destruct (Z.max_spec x (max_list l)) as [[_ ->]|[_ ->]]; [|right; now left]. destruct IH; [now left|right; now right]. Qed.
Lemma max_list_ge l x : In x l -> (x <= max_list l)%Z.
Proof. induction l as [|y l IH]; intros H; [destruct H|]. cbn [max_list fold_right]. fold (max_list l). destruct H as [->|H]; [lia|]. apply IH in H. lia. Qed.
Lemma inds2_spec amp nc b p j : (nc <= 256)%nat -> last_with (nc - 1) (fun c => (amp b (S c) p < amp b c p)%Z) j -> inds2 amp nc b p = Z.of_nat (S j).
Proof.
  intros N (J & D & F). unfold inds2. set (g := fun c => if Z.ltb (echo_diff amp b c p) 0 then Z.modulo (Z.of_nat c) 256 else 0%Z).
  assert (M : max_list (map g (seq 0 (nc - 1))) = Z.of_nat j).
  { assert (GJ : g j = Z.of_nat j). { unfold g, echo_diff. destruct (Z.ltb_spec (amp b (S j) p - amp b j p) 0); [|lia]. apply Z.mod_small. lia. }
    apply Z.le_antisymm.
    - destruct (max_list_in (map g (seq 0 (nc - 1)))) as [->|I]; [lia|]. apply in_map_iff in I as (c & <- & C). apply in_seq in C.
      unfold g, echo_diff. destruct (Z.ltb_spec (amp b (S c) p - amp b c p) 0); [|lia]. rewrite Z.mod_small by lia.
      destruct (le_lt_dec c j); [lia|]. exfalso. apply (F c); lia.
    - rewrite <- GJ. apply max_list_ge. apply in_map. apply in_seq. lia. }
  rewrite M. rewrite Z.mod_small; lia.
Qed.
Lemma min_ge d l m : (m <= d)%nat -> (forall x, In x l -> (m <= x)%nat) -> (m <= fold_right Nat.min d l)%nat.
Proof. induction l as [|y l IH]; intros D H; [exact D|]. cbn. specialize (IH D (fun x I => H x (or_intror I))). specialize (H y (or_introl eq_refl)). lia. Qed.
Lemma weak_far thresh amp nb nc p : (1 <= nb)%nat -> (forall b, (b < nb)%nat -> (nb <= argmax nc (fun c => amp b c p))%nat) -> weak thresh amp nb nc p = true.
Proof.
  intros NB H. unfold weak. set (inds := map _ _). assert (G : (nb <= fold_right Nat.min (hd O inds) inds)%nat).
  { assert (A : forall x, In x inds -> (nb <= x)%nat) by (intros x I; apply in_map_iff in I as (b & <- & B); apply in_seq in B; apply H; lia).
    apply min_ge; [|exact A]. apply A. unfold inds. destruct nb; [lia|]. now left. }
  replace (nb - _)%nat with O by lia. reflexivity.
Qed.
Lemma argmax_ge n f m : (forall i, (i < m)%nat -> (f i < f m)%Z) -> (m < n)%nat -> (m <= argmax n f)%nat /\ (argmax n f < n)%nat.
Proof.
  intros H. assert (G : forall q, ((q <= m)%nat -> (1 <= q)%nat -> (argmax q f < q)%nat) /\ ((m < q)%nat -> (m <= argmax q f < q)%nat /\ (f m <= f (argmax q f))%Z)).
  { induction q as [|[|n'] IH]; [split; intros; exfalso; lia|split; intros; cbn; [lia|replace m with O by lia; lia]|].
    set (k := S n') in *. destruct IH as [I1 I2]. change (argmax (S k) f) with (let a := argmax k f in if Z.ltb (f a) (f k) then k else a). cbv zeta. split.
    - intros A B. specialize (I1 ltac:(lia) ltac:(lia)). destruct (Z.ltb_spec (f (argmax k f)) (f k)); lia.
    - intros A. destruct (Nat.eq_dec m k) as [->|].
      + specialize (I1 ltac:(lia) ltac:(lia)). specialize (H (argmax k f) ltac:(lia)). destruct (Z.ltb_spec (f (argmax k f)) (f k)); lia.
      + destruct (I2 ltac:(lia)) as [R1 R2]. destruct (Z.ltb_spec (f (argmax k f)) (f k)); lia. }
  intros L. destruct (G n) as [_ G2]. specialize (G2 L). lia.
Qed.
Lemma surface_ok thresh range amp nb nc np : (nc <= np)%nat -> exists out, find_surface thresh range amp nb nc np = Some out /\ length out = np /\
  forall p, (p < np)%nat -> nth p out None = if Nat.ltb p nc && weak thresh amp nb nc p then None else Some (surface_estimate range amp nb nc p).
Proof.
  intros H. unfold find_surface. destruct (Nat.ltb_spec np nc); [lia|]. eexists. split; [reflexivity|]. rewrite map_length, seq_length. split; [reflexivity|].
  intros p P. set (g := fun p => if Nat.ltb p nc && weak thresh amp nb nc p then None else Some (surface_estimate range amp nb nc p)).
  rewrite (nth_indep _ None (g O)) by (rewrite map_length, seq_length; exact P). rewrite (map_nth g). rewrite seq_nth by easy. reflexivity.
Qed.
(** the estimate lies among the ranges *)
Lemma insert_in x l y : In y (insert x l) <-> y = x \/ In y l.
Proof. induction l as [|z l IH]; cbn; [intuition|]. destruct (Rle_dec x z); cbn; [intuition|]. rewrite IH. intuition. Qed.
Lemma sort_in l y : In y (sort l) <-> In y l.
Proof. induction l as [|x l IH]; cbn; [easy|]. fold (sort l). rewrite insert_in, IH. intuition. Qed.
Lemma insert_len x l : length (insert x l) = S (length l).
Proof. induction l as [|z l IH]; cbn; [reflexivity|]. destruct (Rle_dec x z); cbn; [reflexivity|]. now rewrite IH. Qed.
Lemma sort_len l : length (sort l) = length l.
Proof. induction l as [|x l IH]; cbn; [reflexivity|]. fold (sort l). now rewrite insert_len, IH. Qed.
Lemma median_bounds l lo hi : l <> [] -> (forall x, In x l -> lo <= x <= hi) -> lo <= median l <= hi.
Proof.
  intros N H. unfold median. rewrite sort_len. assert (L : (1 <= length l)%nat) by (destruct l; [easy|cbn; lia]).
  assert (A : forall k, (k < length l)%nat -> lo <= nth k (sort l) 0 <= hi).
  { intros k K. apply H, sort_in, nth_In. now rewrite sort_len. }
  pose proof (A ((length l - 1) / 2)%nat ltac:(apply Nat.div_lt_upper_bound; lia)). pose proof (A (length l / 2)%nat ltac:(apply Nat.div_lt_upper_bound; lia)). lra.
Qed.
