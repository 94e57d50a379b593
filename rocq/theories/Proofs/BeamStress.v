From Coq Require Import Reals List Bool Lra Lia.
From Verif.Model Require Import Linalg Stats Vel BeamStress.
From Verif.Spec Require Import Stats BeamStress.
From Verif.Proofs Require Import Stats.
Import ListNotations.
Open Scope R_scope.

(** ** variances of projections *)
Lemma average_comb n x y z u v w b : (1 <= n)%nat -> length u = n -> length v = n -> length w = n -> length b = n ->
  (forall k, (k < n)%nat -> nth k b 0 = x * nth k u 0 + y * nth k v 0 + z * nth k w 0) ->
  average b = x * average u + y * average v + z * average w.
Proof.
  intros N Lu Lv Lw Lb V. unfold average. rewrite Lu, Lv, Lw, Lb.
  rewrite (total_ext n (fun k => nth k b 0) (fun k => x * nth k u 0 + y * nth k v 0 + z * nth k w 0) V).
  rewrite (total_add n (fun k => x * nth k u 0 + y * nth k v 0)), total_add, !total_scal.
  assert (0 < INR n) by (apply lt_0_INR; lia). field. lra.
Qed.
Lemma cov_comb n x y z u v w b : (1 <= n)%nat -> length u = n -> length v = n -> length w = n -> length b = n ->
  (forall k, (k < n)%nat -> nth k b 0 = x * nth k u 0 + y * nth k v 0 + z * nth k w 0) ->
  cov b b = x * x * cov u u + y * y * cov v v + z * z * cov w w + 2 * x * y * cov u v + 2 * x * z * cov u w + 2 * y * z * cov v w.
Proof.
  intros N Lu Lv Lw Lb V. unfold cov. rewrite (average_comb n x y z u v w b) by easy. rewrite Lu, Lv, Lw, Lb.
  set (au := average u). set (av := average v). set (aw := average w).
  rewrite (total_ext n _ (fun k => x * x * ((nth k u 0 - au) * (nth k u 0 - au)) + (y * y * ((nth k v 0 - av) * (nth k v 0 - av)) +
    (z * z * ((nth k w 0 - aw) * (nth k w 0 - aw)) + (2 * x * y * ((nth k u 0 - au) * (nth k v 0 - av)) +
    (2 * x * z * ((nth k u 0 - au) * (nth k w 0 - aw)) + 2 * y * z * ((nth k v 0 - av) * (nth k w 0 - aw))))))))
    by (intros k Hk; rewrite V by easy; ring).
  rewrite (total_add n (fun k => x * x * _)), (total_add n (fun k => y * y * _)), (total_add n (fun k => z * z * _)),
    (total_add n (fun k => 2 * x * y * _)), (total_add n (fun k => 2 * x * z * _)), !total_scal.
  assert (0 < INR n) by (apply lt_0_INR; lia). field. lra.
Qed.
Lemma nanvar_cov b : b <> [] -> nanvar (map Some b) = Some (cov b b).
Proof.
  intros N. pose proof (INR_len_pos b N) as P. unfold nanvar. rewrite (nanmean_some (map Some b)) by now rewrite vals_some. rewrite vals_some, map_map. cbn [osub omul].
  rewrite <- (map_map (fun x => (x - rsum b / INR (length b)) * (x - rsum b / INR (length b))) Some), nanmean_some; rewrite vals_some.
  - f_equal. rewrite map_length. unfold cov, average. rewrite (rsum_map _ _ 0), rsum_total. reflexivity.
  - destruct b; easy.
Qed.
Lemma variance_at i o th nb n m beams noise j : (1 <= n)%nat -> homogeneous i o th nb n m beams -> (j < nb)%nat ->
  osub (nanvar (nth j (map (map Some) beams) [])) (Some (noise * noise)) =
  let '(x, y, z) := beam i o th j in
  Some (x * x * uu m + y * y * vv m + z * z * ww m + 2 * x * y * uv m + 2 * x * z * uw m + 2 * y * z * vw m - noise * noise).
Proof.
  intros N (L & H) Hj. destruct (H j Hj) as (u & v & w & Lu & (E1 & E2 & E3 & E4 & E5 & E6) & Lv & Lw & Lb & V).
  change ([] : list (option R)) with (map Some ([] : list R)). rewrite (map_nth (map Some)).
  destruct (beam i o th j) as [[x y] z]. rewrite nanvar_cov by (intros Z; rewrite Z in Lb; cbn in Lb; lia).
  cbn [osub]. f_equal. rewrite (cov_comb n x y z u v w) by (try easy; try lia; rewrite <- Lu; exact V). rewrite E1, E2, E3, E4, E5, E6. reflexivity.
Qed.

(** ** four beams *)
Lemma four i o angle noise n m beams : i <> OtherInst -> o <> Neither -> sin (deg2rad angle) <> 0 -> cos (deg2rad angle) <> 0 -> (1 <= n)%nat ->
  homogeneous i o (deg2rad angle) 4 n m beams ->
  stress_4beam i o (Some angle) None noise (map (map Some) beams) =
  inr (Some (uw m), Some (match i with Trdi => - vw m | _ => vw m end)).
Proof.
  intros Hi Ho Hs Hc N H. unfold stress_4beam. cbn [beam_angle].
  set (th := deg2rad angle) in *. pose proof (fun j => variance_at i o th 4 n m beams noise j N H) as V.
  pose proof (V 0%nat ltac:(lia)) as V0. pose proof (V 1%nat ltac:(lia)) as V1. pose proof (V 2%nat ltac:(lia)) as V2. pose proof (V 3%nat ltac:(lia)) as V3. clear V.
  destruct i, o; try easy; cbn [beam_order beam_variance map nth]; rewrite V0, V1, V2, V3; unfold beam, inst_beam; cbn [osub odiv];
    (destruct (Req_EM_T (4 * sin th * cos th) 0) as [Z|_]; [exfalso; apply Rmult_integral in Z as [Z|Z]; [|easy]; lra|]); f_equal; f_equal; f_equal; field; easy.
Qed.

(** ** five beams, no tilt *)
Lemma five_values th b0 b1 b2 b3 b4 upvp : sin th <> 0 -> cos th <> 0 ->
  stress_5beam_values th 0 0 upvp b0 b1 b2 b3 b4 =
  ((b1 + b0 - 2 * (cos th)^2 * b4) / (2 * (sin th)^2), (b3 + b0 - 2 * (cos th)^2 * b4) / (2 * (sin th)^2),
   (b1 - b0 - 4 * (sin th)^6 * (cos th)^2 * b4) / (2 * sin th * cos th), (b0 - b1) / (4 * sin th * cos th), (b2 - b3) / (4 * sin th * cos th)).
Proof.
  intros Hs Hc. unfold stress_5beam_values. cbv zeta. set (s := sin th) in *. set (c := cos th) in *.
  repeat (apply (f_equal2 pair)); field; easy.
Qed.
Lemma five i o angle noise upvp n m beams : i <> OtherInst -> o <> Neither -> sin (deg2rad angle) <> 0 -> cos (deg2rad angle) <> 0 -> (1 <= n)%nat ->
  homogeneous i o (deg2rad angle) 5 n m beams ->
  let s := sin (deg2rad angle) in let c := cos (deg2rad angle) in
  stress_5beam i o (Some angle) None noise 0 0 upvp beams =
  inr (uu m - noise * noise,
       (uu m + vv m) / 2 + c / s * (uw m - match i with Trdi => - vw m | _ => vw m end) - noise * noise,
       -2 * uw m - 2 * s^5 * c * (ww m - noise * noise),
       uw m, match i with Trdi => - vw m | _ => vw m end).
Proof.
  intros Hi Ho Hs Hc N H s c. unfold stress_5beam. cbn [beam_angle].
  set (th := deg2rad angle) in *. pose proof (fun j => variance_at i o th 5 n m beams noise j N H) as V.
  pose proof (V 0%nat ltac:(lia)) as V0. pose proof (V 1%nat ltac:(lia)) as V1. pose proof (V 2%nat ltac:(lia)) as V2. pose proof (V 3%nat ltac:(lia)) as V3. pose proof (V 4%nat ltac:(lia)) as V4. clear V.
  assert (T : c * c = 1 - s * s) by (unfold s, c; pose proof (sin2_cos2 th) as T; unfold Rsqr in T; lra).
  assert (Es : sin th = s) by reflexivity. assert (Ec : cos th = c) by reflexivity.
  destruct i, o; try easy; cbn [beam_order beam_variance map nth app]; rewrite V0, V1, V2, V3, V4; unfold beam, inst_beam; cbn [osub];
    rewrite five_values by easy; rewrite Es, Ec in *; f_equal;
    repeat (apply (f_equal2 pair)); try (field_simplify_eq; [|easy]; replace (c^2) with (1 - s * s) by (rewrite <- T; ring); ring);
    try (field_simplify_eq; [|easy]; replace (c^3) with (c * (1 - s * s)) by (rewrite <- T; ring); ring).
Qed.

(** ** realisable: the same velocity at every beam *)
Fixpoint combine3 (x y z : R) (u v w : list R) : list R :=
  match u, v, w with a :: u', b :: v', c :: w' => (x * a + y * b + z * c) :: combine3 x y z u' v' w' | _, _, _ => [] end.
Lemma combine3_spec x y z u : forall v w, length v = length u -> length w = length u ->
  length (combine3 x y z u v w) = length u /\ forall k, (k < length u)%nat -> nth k (combine3 x y z u v w) 0 = x * nth k u 0 + y * nth k v 0 + z * nth k w 0.
Proof.
  induction u as [|a u IH]; intros [|b v] [|c w] Lv Lw; try discriminate; [split; [easy|intros k Hk; cbn in Hk; lia]|].
  destruct (IH v w) as [L V]; [cbn in *; lia|cbn in *; lia|]. split; [cbn; now rewrite L|]. intros [|k] Hk; [easy|]. cbn in *. apply V. lia.
Qed.
Definition beam_series (i : inst) (o : facing) (th : R) (u v w : list R) (j : nat) : list R :=
  let '(x, y, z) := beam i o th j in combine3 x y z u v w.
Definition beams_of (i : inst) (o : facing) (th : R) (nb : nat) (u v w : list R) : list (list R) :=
  map (beam_series i o th u v w) (seq 0 nb).
Definition moments_of (u v w : list R) : moments :=
  {| uu := cov u u; vv := cov v v; ww := cov w w; uv := cov u v; uw := cov u w; vw := cov v w |}.
Lemma beams_of_homogeneous i o th nb u v w : length v = length u -> length w = length u ->
  homogeneous i o th nb (length u) (moments_of u v w) (beams_of i o th nb u v w).
Proof.
  intros Lv Lw. split; [unfold beams_of; now rewrite map_length, seq_length|]. intros j Hj. exists u, v, w. split; [easy|]. split; [now repeat split|].
  assert (E : nth j (beams_of i o th nb u v w) [] = beam_series i o th u v w j).
  { unfold beams_of. rewrite (nth_indep _ [] (beam_series i o th u v w 0)) by now rewrite map_length, seq_length.
    now rewrite map_nth, seq_nth. }
  unfold projects. rewrite E. unfold beam_series. destruct (beam i o th j) as [[x y] z]. destruct (combine3_spec x y z u v w Lv Lw) as [L V]. now repeat split.
Qed.

(** ** shear *)
Lemma map_seq_shift {A} (f : nat -> A) a m : map f (seq a m) = map (fun k => f (a + k)%nat) (seq 0 m).
Proof.
  revert a f. induction m as [|m IH]; intros a f; [easy|]. cbn [seq map]. rewrite Nat.add_0_r. f_equal. rewrite IH, (IH 1%nat). apply map_ext. intros k. f_equal. lia.
Qed.
Lemma map2_maps {A B C D} (g : B -> C -> D) (f : A -> B) (h : A -> C) l : map2 g (map f l) (map h l) = map (fun x => g (f x) (h x)) l.
Proof. induction l; cbn; congruence. Qed.
Lemma diff_map f n : forall a, diff (map f (seq a n)) = map (fun k => f (S k) - f k) (seq a (n - 1)).
Proof.
  induction n as [|n IH]; intros a; [easy|]. destruct n as [|n]; [easy|]. cbn [seq map diff Nat.sub].
  change (f (S a) - f a :: diff (map f (seq (S a) (S n))) = f (S a) - f a :: map (fun k => f (S k) - f k) (seq (S a) n)). f_equal.
  rewrite IH. now replace (S n - 1)%nat with n by lia.
Qed.
Lemma diff_len l : length (diff l) = (length l - 1)%nat.
Proof. induction l as [|a [|b l] IH]; [easy|easy|]. cbn [diff length Nat.sub] in *. rewrite IH. cbn. lia. Qed.
Lemma map2_length {A B C} (f : A -> B -> C) l : forall m, length (map2 f l m) = Nat.min (length l) (length m).
Proof. induction l as [|a l IH]; intros [|b m]; cbn; congruence. Qed.
Lemma map_const {A B} (f : A -> B) c l : (forall x, In x l -> f x = c) -> map f l = repeat c (length l).
Proof. induction l as [|a l IH]; intros H; cbn; [easy|]. rewrite H by now left. f_equal. apply IH. intros. apply H. now right. Qed.
Lemma skipn_seq k : forall a n, skipn k (seq a n) = seq (a + k) (n - k).
Proof. induction k as [|k IH]; intros a [|n]; cbn [skipn seq Nat.sub]; try (now rewrite ?Nat.add_0_r). rewrite IH. f_equal. lia. Qed.
Lemma firstn_seq k : forall a n, firstn k (seq a n) = seq a (Nat.min k n).
Proof. induction k as [|k IH]; intros a [|n]; cbn; try easy. now rewrite IH. Qed.
Definition grid (z0 h : R) (n : nat) : list R := map (fun k => z0 + INR k * h) (seq 0 n).
Definition line (m c : R) (z : list R) : list R := map (fun x => m * x + c) z.
Lemma line_grid m c z0 h a n : line m c (map (fun k => z0 + INR k * h) (seq a n)) = map (fun k => m * (z0 + INR k * h) + c) (seq a n).
Proof. unfold line. now rewrite map_map. Qed.
Lemma first_line m c z0 h a n : h <> 0 -> diffz_first (line m c (map (fun k => z0 + INR k * h) (seq a n))) (map (fun k => z0 + INR k * h) (seq a n)) = repeat m (n - 1).
Proof.
  intros H. unfold diffz_first. rewrite line_grid, !diff_map, map2_maps, (map_const _ m); [now rewrite seq_length|].
  intros k _. rewrite S_INR. field. lra.
Qed.
Lemma centered_line m c z0 h n : h <> 0 -> diffz_centered (line m c (grid z0 h n)) (grid z0 h n) = repeat m (n - 2).
Proof.
  intros H. unfold diffz_centered, grid. rewrite line_grid, diff_map, !skipn_map, !skipn_seq, firstn_map, firstn_seq, map_length, seq_length.
  replace (Nat.min (n - 2) n) with (n - 2)%nat by lia. rewrite (map_seq_shift _ (0 + 2)), (map_seq_shift _ (0 + 1)).
  replace (n - 1 - 1)%nat with (n - 2)%nat by lia. rewrite map_map, map2_maps, map2_maps, (map_const _ m); [now rewrite seq_length|].
  intros k _. rewrite !S_INR, !plus_INR. cbn [INR]. field. lra.
Qed.
Lemma last2_map f n : (2 <= n)%nat -> last2 (map f (seq 0 n)) = map f (seq (n - 2) 2).
Proof. intros H. unfold last2. rewrite map_length, seq_length, skipn_map, skipn_seq. now replace (n - (n - 2))%nat with 2%nat by lia. Qed.
Lemma extended_line m c z0 h n : (2 <= n)%nat -> h <> 0 -> diffz_extended (line m c (grid z0 h n)) (grid z0 h n) = repeat m n.
Proof.
  intros N H. unfold diffz_extended. rewrite centered_line by easy. unfold grid.
  assert (E : forall f, firstn 2 (map f (seq 0 n)) = map f (seq 0 2) :> list R) by (intros f; rewrite firstn_map, firstn_seq; now replace (Nat.min 2 n) with 2%nat by lia).
  rewrite (line_grid m c z0 h 0 n) at 1 2. rewrite !E, !last2_map by easy. rewrite <- !line_grid, !first_line by easy.
  rewrite <- !repeat_app. f_equal. lia.
Qed.
Lemma shear_line st m c z0 h n : (2 <= n)%nat -> h <> 0 -> st <> OtherStyle ->
  exists rng, calc_dvdz st (line m c (grid z0 h n)) (grid z0 h n) = Some (repeat m (length rng), rng) /\
    calc_dudz st false (line m c (grid z0 h n)) (grid z0 h n) = Some (repeat m (length rng), rng) /\ incl rng (grid z0 h n).
Proof.
  intros N H S. assert (L : length (grid z0 h n) = n) by (unfold grid; now rewrite map_length, seq_length).
  assert (I : forall k (l : list R), incl (skipn k l) l) by (intros k l x Hx; rewrite <- (firstn_skipn k l); apply in_or_app; now right).
  assert (I' : forall k (l : list R), incl (firstn k l) l) by (intros k l x Hx; rewrite <- (firstn_skipn k l); apply in_or_app; now left).
  unfold calc_dvdz, calc_dudz. destruct st; try easy; cbn [diff_func]; eexists; (split; [|split]).
  all: try (do 2 f_equal; unfold grid at 1 2; rewrite first_line by easy; rewrite skipn_length, L; reflexivity).
  all: try (do 2 f_equal; rewrite centered_line by easy; rewrite firstn_length, skipn_length, L; f_equal; lia).
  all: try (do 2 f_equal; rewrite extended_line by easy; now rewrite L).
  - apply I.
  - intros x Hx. apply I' in Hx. now apply I in Hx.
  - apply incl_refl.
Qed.
Lemma shear_sizes st dat z out rng : length dat = length z -> (2 <= length z)%nat -> calc_dvdz st dat z = Some (out, rng) -> length out = length rng.
Proof.
  intros L N. unfold calc_dvdz. destruct st; cbn [diff_func]; intros E; try discriminate.
  all: match type of E with Some (?a, ?b) = _ => assert (a = out) as <- by congruence; assert (b = rng) as <- by congruence end.
  - unfold diffz_first. rewrite map2_length, !diff_len, skipn_length. lia.
  - unfold diffz_centered. rewrite !map2_length, map_length, !skipn_length, diff_len, !firstn_length, skipn_length. lia.
  - unfold diffz_extended, diffz_first, diffz_centered, last2. rewrite !app_length, !map2_length, map_length, !diff_len, !skipn_length, !firstn_length, diff_len. lia.
Qed.
Lemma first_any m c z : (forall d, In d (diff z) -> d <> 0) -> diffz_first (line m c z) z = repeat m (length z - 1).
Proof.
  intros H. assert (E : diff (line m c z) = map (Rmult m) (diff z)).
  { clear H. unfold line. induction z as [|a [|b z] IH]; [easy|easy|]. cbn [map diff] in *. rewrite IH. f_equal. ring. }
  unfold diffz_first. rewrite E. rewrite <- (map_id (diff z)) at 2. rewrite map2_maps, (map_const _ m); [now rewrite diff_len|].
  intros d Hd. specialize (H d Hd). field. easy.
Qed.

(** ** the angle used *)
Lemma other_angle i o a b noise beams x y : let d t := 4 * sin (deg2rad t) * cos (deg2rad t) in d a <> 0 -> d b <> 0 ->
  stress_4beam i o (Some a) None noise beams = inr (Some x, Some y) ->
  forall arg, stress_4beam i o (Some b) arg noise beams = inr (Some (x * d a / d b), Some (y * d a / d b)).
Proof.
  cbv zeta. intros A B E arg. unfold stress_4beam, beam_angle in *. destruct (beam_order i o) as [|ord]; [discriminate|].
  set (l := beam_variance _ _ _) in *. cbv zeta in E.
  match type of E with inr (?X, ?Y) = _ => assert (E1 : X = Some x) by congruence; assert (E2 : Y = Some y) by congruence end. clear E.
  destruct (osub (nth 0 l None) (nth 1 l None)) as [p|]; [|discriminate]. destruct (osub (nth 2 l None) (nth 3 l None)) as [q|]; [|discriminate].
  cbn [odiv] in *. set (da := 4 * sin (deg2rad a) * cos (deg2rad a)) in *. set (db := 4 * sin (deg2rad b) * cos (deg2rad b)) in *.
  unfold odiv in *. destruct (Req_EM_T da 0) as [Z|_]; [now elim A|]. destruct (Req_EM_T db 0) as [Z|_]; [now elim B|].
  assert (p = x * da) by (injection E1 as E1; rewrite <- E1; field; exact A). assert (q = y * da) by (injection E2 as E2; rewrite <- E2; field; exact A).
  subst p q. reflexivity.
Qed.

(** ** five beams, pitched *)
Lemma MVT_bound f f' d B : (forall x, derivable_pt_lim f x (f' x)) -> (forall x, Rabs x <= Rabs d -> Rabs (f' x) <= B) -> Rabs (f d - f 0) <= B * Rabs d.
Proof.
  intros F H. destruct (Rtotal_order d 0) as [L|[->|G]].
  - destruct (MVT_cor2 f f' d 0 L (fun c _ => F c)) as (c & E & C). rewrite Rabs_minus_sym, E, Rabs_mult, Rminus_0_l, Rabs_Ropp.
    apply Rmult_le_compat_r; [apply Rabs_pos|]. apply H. rewrite !Rabs_left by lra. lra.
  - rewrite !Rminus_diag_eq by reflexivity. rewrite Rabs_R0. lra.
  - destruct (MVT_cor2 f f' 0 d G (fun c _ => F c)) as (c & E & C). rewrite E, Rabs_mult, Rminus_0_r.
    apply Rmult_le_compat_r; [apply Rabs_pos|]. apply H. rewrite !Rabs_right by lra. lra.
Qed.
Lemma abs_sin d : Rabs (sin d) <= Rabs d.
Proof.
  pose proof (MVT_bound sin cos d 1 derivable_pt_lim_sin) as M. rewrite sin_0, Rminus_0_r, Rmult_1_l in M. apply M.
  intros x _. apply Rabs_le. pose proof (COS_bound x). lra.
Qed.
Lemma abs_sin_x_cos d : Rabs (sin d - d * cos d) <= d * d * Rabs d.
Proof.
  pose proof (MVT_bound (fun x => sin x - x * cos x) (fun x => x * sin x) d (d * d)) as M. cbn beta in M. rewrite sin_0, Rmult_0_l, Rminus_0_r, Rminus_0_r in M.
  apply M.
  - intros x. replace (x * sin x) with (cos x - (1 * cos x + x * - sin x)) by ring.
    apply (derivable_pt_lim_minus sin (fun x => x * cos x)); [apply derivable_pt_lim_sin|].
    apply (derivable_pt_lim_mult id cos); [apply derivable_pt_lim_id|apply derivable_pt_lim_cos].
  - intros x Hx. rewrite Rabs_mult. pose proof (abs_sin x). pose proof (Rabs_pos x). pose proof (Rabs_pos (sin x)).
    assert (Rabs x * Rabs (sin x) <= Rabs x * Rabs x) by nra. assert (Rabs x * Rabs x <= Rabs d * Rabs d) by nra.
    assert (Rabs d * Rabs d = d * d) by (rewrite <- Rabs_mult; apply Rabs_right; nra). lra.
Qed.
Lemma cos_lower d : 1 - d * d <= cos d.
Proof.
  pose proof (MVT_bound cos (fun x => - sin x) d (Rabs d) derivable_pt_lim_cos) as M. rewrite cos_0 in M.
  assert (Rabs (cos d - 1) <= Rabs d * Rabs d). { apply M. intros x Hx. rewrite Rabs_Ropp. pose proof (abs_sin x). lra. }
  assert (Rabs d * Rabs d = d * d) by (rewrite <- Rabs_mult; apply Rabs_right; nra). pose proof (RRle_abs (- (cos d - 1))) as A. rewrite Rabs_Ropp in A. lra.
Qed.
Lemma pitched_variance p th n m beams noise j : (1 <= n)%nat -> homogeneous_pitched p th n m beams -> (j < 5)%nat ->
  osub (nanvar (nth j (map (map Some) beams) [])) (Some (noise * noise)) =
  let '(x, y, z) := pitched_beam p th j in
  Some (x * x * uu m + y * y * vv m + z * z * ww m + 2 * x * y * uv m + 2 * x * z * uw m + 2 * y * z * vw m - noise * noise).
Proof.
  intros N (L & H) Hj. destruct (H j Hj) as (u & v & w & Lu & (E1 & E2 & E3 & E4 & E5 & E6) & Lv & Lw & Lb & V).
  change ([] : list (option R)) with (map Some ([] : list R)). rewrite (map_nth (map Some)).
  destruct (pitched_beam p th j) as [[x y] z]. rewrite nanvar_cov by (intros Z; rewrite Z in Lb; cbn in Lb; lia).
  cbn [osub]. f_equal. rewrite (cov_comb n x y z u v w) by (easy || lia). rewrite E1, E2, E3, E4, E5, E6. reflexivity.
Qed.
(** the formulas, after the division by the common denominator *)
Lemma five_values_phi3 th phi3 b0 b1 b2 b3 b4 upvp : sin th <> 0 -> cos th <> 0 ->
  let '(upup, _, _, upwp, vpwp) := stress_5beam_values th 0 phi3 upvp b0 b1 b2 b3 b4 in
  upup = (b1 + b0 - 2 * (cos th)^2 * b4) / (2 * (sin th)^2) - phi3 * (b1 - b0) / (2 * sin th * cos th) /\
  upwp = (b0 - b1) / (4 * sin th * cos th) - phi3 * (b1 + b0 - 2 * b4) / ((sin th)^2 * cos th) /\
  vpwp = (b2 - b3) / (4 * sin th * cos th) - 2 * phi3 * upvp / cos th.
Proof.
  intros Hs Hc. unfold stress_5beam_values. cbv zeta. set (s := sin th) in *. set (c := cos th) in *.
  repeat split; field; easy.
Qed.
Definition upup_pitched (p noise : R) (m : moments) : R :=
  let D := cos p in let E := sin p in
  uu m + E * E * (ww m - uu m) + 2 * p * D * E * (uu m - ww m) + 2 * (D * E - p * (D * D - E * E)) * uw m - noise * noise.
Definition upwp_pitched (p th : R) (m : moments) : R :=
  let D := cos p in let E := sin p in
  (D * D - E * E) * uw m - D * E * (uu m - ww m) + 2 * p / cos th * ((D * D - E * E) * (uu m - ww m) + 4 * D * E * uw m).
Definition vpwp_pitched (p th upvp : R) (m : moments) : R := cos p * vw m - sin p * uv m + 2 * p / cos th * upvp.
Lemma five_pitched angle noise pitch upvp n m beams : sin (deg2rad angle) <> 0 -> cos (deg2rad angle) <> 0 -> (1 <= n)%nat ->
  homogeneous_pitched (deg2rad pitch) (deg2rad angle) n m beams -> exists vpvp wpwp,
  stress_5beam_tilted Signature Up (Some angle) None noise pitch 0 upvp beams =
  inr (upup_pitched (deg2rad pitch) noise m, vpvp, wpwp, upwp_pitched (deg2rad pitch) (deg2rad angle) m, vpwp_pitched (deg2rad pitch) (deg2rad angle) upvp m).
Proof.
  intros Hs Hc N H. unfold stress_5beam_tilted, stress_5beam. cbn [beam_angle beam_order tilts].
  set (th := deg2rad angle) in *. set (p := deg2rad pitch) in *. replace (deg2rad 0) with 0 by (unfold deg2rad; field).
  pose proof (fun j => pitched_variance p th n m beams noise j N H) as V.
  pose proof (V 0%nat ltac:(lia)) as V0. pose proof (V 1%nat ltac:(lia)) as V1. pose proof (V 2%nat ltac:(lia)) as V2. pose proof (V 3%nat ltac:(lia)) as V3. pose proof (V 4%nat ltac:(lia)) as V4. clear V.
  cbn [beam_variance map nth app]. unfold beam_variance. cbn [map nth]. rewrite V0, V1, V2, V3, V4. unfold pitched_beam, inst_beam. cbv zeta beta iota.
  match goal with |- context [stress_5beam_values ?a ?b ?c ?d ?e ?f ?g ?h ?i] => pose proof (five_values_phi3 a c e f g h i d Hs Hc) as F;
    destruct (stress_5beam_values a b c d e f g h i) as [[[[upup vpvp] wpwp] upwp] vpwp] end.
  destruct F as (F1 & F2 & F3). exists vpvp, wpwp.
  assert (T : cos th * cos th = 1 - sin th * sin th) by (pose proof (sin2_cos2 th) as T; unfold Rsqr in T; lra).
  assert (U : cos p * cos p = 1 - sin p * sin p) by (pose proof (sin2_cos2 p) as U; unfold Rsqr in U; lra).
  unfold upup_pitched, upwp_pitched, vpwp_pitched. set (s := sin th) in *. set (c := cos th) in *. set (D := cos p) in *. set (E := sin p) in *. cbv zeta.
  f_equal. repeat (apply (f_equal2 pair)); try reflexivity.
  - rewrite F1. field_simplify_eq; [|easy]. ring [T U].
  - rewrite F2. field_simplify_eq; [|easy]. ring [T U].
  - rewrite F3. field_simplify_eq; [|easy]. ring [T U].
Qed.

Lemma upup_first_order p noise m : Rabs p <= 1 ->
  Rabs (upup_pitched p noise m - (uu m - noise * noise)) <= (3 * Rabs (uu m - ww m) + 4 * Rabs (uw m)) * (p * p).
Proof.
  intros P. unfold upup_pitched. cbv zeta. pose proof (abs_sin p) as A. pose proof (abs_sin_x_cos p) as B.
  assert (C : Rabs (cos p) <= 1) by (apply Rabs_le; pose proof (COS_bound p); lra).
  set (D := cos p) in *. set (E := sin p) in *. set (a := Rabs p) in *.
  assert (Q : a * a = p * p) by (unfold a; rewrite <- Rabs_mult; apply Rabs_right; nra).
  assert (a0 : 0 <= a) by apply Rabs_pos. pose proof (Rabs_pos D) as D0. pose proof (Rabs_pos E) as E0.
  replace (_ - _) with ((2 * (p * (D * E)) - E * E) * (uu m - ww m) + 2 * (D * (E - p * D) + p * (E * E)) * uw m) by ring.
  eapply Rle_trans; [apply Rabs_triang|]. rewrite Rmult_plus_distr_r.
  assert (E2 : Rabs E * Rabs E <= a * a) by nra. assert (DE : Rabs D * Rabs E <= a) by nra.
  apply Rplus_le_compat.
  - rewrite Rabs_mult. replace (3 * Rabs (uu m - ww m) * (p * p)) with (3 * (p * p) * Rabs (uu m - ww m)) by ring.
    apply Rmult_le_compat_r; [apply Rabs_pos|]. unfold Rminus. eapply Rle_trans; [apply Rabs_triang|].
    rewrite Rabs_Ropp, !Rabs_mult, (Rabs_right 2) by lra. fold a. rewrite <- Q.
    assert (a * (Rabs D * Rabs E) <= a * a) by (apply Rmult_le_compat_l; easy). lra.
  - rewrite !Rabs_mult, (Rabs_right 2) by lra. replace (4 * Rabs (uw m) * (p * p)) with (2 * (2 * (p * p)) * Rabs (uw m)) by ring.
    apply Rmult_le_compat_r; [apply Rabs_pos|]. apply Rmult_le_compat_l; [lra|]. eapply Rle_trans; [apply Rabs_triang|]. rewrite !Rabs_mult. fold a.
    set (F := Rabs (E - p * D)) in *. assert (F0 : 0 <= F) by apply Rabs_pos. rewrite <- Q in *.
    assert (a * a * a <= a * a) by nra. assert (Rabs D * F <= 1 * F) by (apply Rmult_le_compat_r; easy).
    assert (a * (Rabs E * Rabs E) <= a * (a * a)) by (apply Rmult_le_compat_l; easy). nra.
Qed.
Lemma upwp_wrong p th : 0 < cos th -> 0 < p <= 1/4 ->
  p / 2 <= upwp_pitched p th {| uu := 1; vv := 0; ww := 0; uv := 0; uw := 0; vw := 0 |}.
Proof.
  intros C P. unfold upwp_pitched. cbn [uu ww uw]. cbv zeta. pose proof (abs_sin p) as A. rewrite (Rabs_right p) in A by lra.
  pose proof (Rabs_pos (sin p)). pose proof (RRle_abs (sin p)). pose proof (COS_bound p). pose proof (COS_bound th).
  assert (S : 0 <= sin p) by (apply sin_ge_0; pose proof PI2_3_2; lra).
  assert (T : cos p * cos p = 1 - sin p * sin p) by (pose proof (sin2_cos2 p) as T; unfold Rsqr in T; lra).
  assert (sin p * sin p <= 1/16) by nra. assert (cos p * sin p <= p) by nra.
  assert (I : 1 <= / cos th). { rewrite <- Rinv_1. apply Rinv_le_contravar; lra. }
  unfold Rdiv. assert (p <= p * / cos th) by nra. set (q := p * / cos th) in *.
  replace (2 * p * / cos th) with (2 * q) by (unfold q; ring). rewrite T. nra.
Qed.
Lemma vpwp_wrong p th : 0 < cos th -> 0 < p <= 1/4 ->
  p / 2 <= vpwp_pitched p th 1 {| uu := 1; vv := 1; ww := 0; uv := 1; uw := 0; vw := 0 |}.
Proof.
  intros C P. unfold vpwp_pitched. cbn [uv vw]. pose proof (abs_sin p) as A. rewrite (Rabs_right p) in A by lra.
  pose proof (RRle_abs (sin p)). pose proof (COS_bound th).
  assert (I : 1 <= / cos th). { rewrite <- Rinv_1. apply Rinv_le_contravar; lra. }
  unfold Rdiv. assert (p <= p * / cos th) by nra. set (q := p * / cos th) in *.
  replace (2 * p * / cos th) with (2 * q) by (unfold q; ring). lra.
Qed.
Definition pitched_series (p th : R) (u v w : list R) (j : nat) : list R :=
  let '(x, y, z) := pitched_beam p th j in combine3 x y z u v w.
Definition pitched_beams_of (p th : R) (u v w : list R) : list (list R) := map (pitched_series p th u v w) (seq 0 5).
Lemma pitched_beams_homogeneous p th u v w m : length v = length u -> length w = length u -> has_moments m u v w ->
  homogeneous_pitched p th (length u) m (pitched_beams_of p th u v w).
Proof.
  intros Lv Lw M. split; [reflexivity|]. intros j Hj. exists u, v, w. split; [easy|]. split; [easy|].
  assert (E : nth j (pitched_beams_of p th u v w) [] = pitched_series p th u v w j).
  { unfold pitched_beams_of. rewrite (nth_indep _ [] (pitched_series p th u v w 0)) by now rewrite map_length, seq_length.
    now rewrite map_nth, seq_nth. }
  rewrite E. unfold pitched_series. destruct (pitched_beam p th j) as [[x y] z]. destruct (combine3_spec x y z u v w Lv Lw) as [L V]. now repeat split.
Qed.
