From Coq Require Import String Reals List Bool ZArith Lra Lia.
From Verif.Model Require Import Linalg Rotate Motion.
From Verif.Spec Require Import Linalg Rotate Motion.
From Verif.Proofs Require Import Linalg Rotate RotateProps.
Import ListNotations.
Open Scope R_scope.

(** * C54 *)
Lemma vec3_of v : is_vec 3 v -> exists a b c, v = [a;b;c]. Proof. apply is_vec3. Qed.

Lemma calc_velrot_false om angrt pos v : calc_velrot "nortek vector" om angrt pos false = inr v ->
  v = map (velrot1 (vsub (firstn 3 pos) [635/100000; 635/100000; 14986/100000])) angrt.
Proof. cbn. congruence. Qed.

Lemma imu_eq : imu_position = [635/100000; 635/100000; 14986/100000].
Proof. unfold imu_position. apply vec3_ext; lra. Qed.

Lemma velrot1_cross r w : velrot1 r w = cross w r.
Proof. unfold velrot1, cross, comp. apply vec3_ext; ring. Qed.

Lemma vsub3 a b : is_vec 3 a -> is_vec 3 b -> vsub a b = minus3 a b.
Proof.
  intros Ha Hb. destruct (is_vec3 a Ha) as (x & y & z & ->). destruct (is_vec3 b Hb) as (x' & y' & z' & ->).
  reflexivity.
Qed.

Lemma velrot_cross om angrt pos v : is_vec 3 pos ->
  calc_velrot "nortek vector" om angrt pos false = inr v ->
  List.length v = List.length angrt /\
  forall k w, nth_error angrt k = Some w -> nth_error v k = Some (cross w (minus3 pos imu_position)).
Proof.
  intros Hp E. rewrite (calc_velrot_false _ _ _ _ E). split; [apply map_length|].
  intros k w Hk. rewrite nth_error_map, Hk. cbn [option_map]. f_equal.
  rewrite velrot1_cross. f_equal. rewrite firstn_all2 by (unfold is_vec in Hp; lia).
  rewrite <- imu_eq. apply vsub3; [exact Hp|reflexivity].
Qed.

Lemma zipw_nth {A B C} (f : A -> B -> C) a b k x y :
  nth_error a k = Some x -> nth_error b k = Some y -> nth_error (zipw f a b) k = Some (f x y).
Proof.
  revert b k. induction a as [|p a IH]; intros b k H1 H2; [destruct k; discriminate|].
  destruct b as [|q b]; [destruct k; discriminate|].
  destruct k as [|k]; simpl in *; [congruence|]. apply IH; assumption.
Qed.
Lemma zipw_length {A B C} (f : A -> B -> C) a b : List.length a = List.length b ->
  List.length (zipw f a b) = List.length a.
Proof. revert b; induction a as [|p a IH]; intros [|q b] H; simpl in *; try lia. rewrite IH; lia. Qed.

Lemma in_earth_mv O x : is_mat 3 O -> is_vec 3 x -> mv (tr 3 O) x = in_earth O x.
Proof.
  intros HO Hx. destruct (is_mat3 O HO) as (a & b & c & d & e & f & g & h & i & ->).
  destruct (is_vec3 x Hx) as (p & q & r & ->). unfold in_earth, comp, entry. cbn.
  apply vec3_ext; ring.
Qed.

Lemma velrot_earth om angrt pos v : is_vec 3 pos -> Forall orthonormal om ->
  List.length om = List.length angrt ->
  calc_velrot "nortek vector" om angrt pos true = inr v ->
  List.length v = List.length angrt /\
  forall k O w, nth_error om k = Some O -> nth_error angrt k = Some w ->
    nth_error v k = Some (in_earth O (cross w (minus3 pos imu_position))).
Proof.
  intros Hp HO HL E.
  destruct (velrot_cross om angrt pos
              (map (velrot1 (vsub (firstn 3 pos) [635/100000; 635/100000; 14986/100000])) angrt) Hp) as [L N].
  { reflexivity. }
  assert (Ev : v = zipw (fun O x => mv (tr 3 O) x) om
     (map (velrot1 (vsub (firstn 3 pos) [635/100000; 635/100000; 14986/100000])) angrt)).
  { unfold calc_velrot, body2imu in E. cbn [String.eqb Ascii.eqb Bool.eqb] in E. congruence. }
  subst v. split; [rewrite zipw_length; [exact HL|rewrite L; exact HL]|].
  intros k O w HOk Hw. rewrite (zipw_nth _ _ _ k O _ HOk (N k w Hw)). f_equal.
  apply in_earth_mv; [|reflexivity]. rewrite Forall_forall in HO. apply HO. eapply nth_error_In; exact HOk.
Qed.

(** a proper rotation keeps cross products *)
Lemma cof_rows a b c d e f g h i : proper_rotation [[a;b;c];[d;e;f];[g;h;i]] ->
  (a = e*i - f*h /\ b = f*g - d*i /\ c = d*h - e*g) /\
  (d = h*c - i*b /\ e = i*a - g*c /\ f = g*b - h*a) /\
  (g = b*f - c*e /\ h = c*d - a*f /\ i = a*e - b*d).
Proof.
  intros [O D]. destruct (orth_eqs _ _ _ _ _ _ _ _ _ O) as [(A1 & A2 & A3 & A4 & A5 & A6) (B1 & B2 & B3 & B4 & B5 & B6)].
  unfold det3, entry in D. cbn in D.
  (* cofactor = det * entry: expand each cofactor in the orthonormal basis of rows *)
  assert (R1 : forall p q r, p*a+q*b+r*c = 1 -> p*d+q*e+r*f = 0 -> p*g+q*h+r*i = 0 -> p = a /\ q = b /\ r = c).
  { intros p q r H1 H2 H3. split; [|split].
    - transitivity (p*(a*a+d*d+g*g) + q*(a*b+d*e+g*h) + r*(a*c+d*f+g*i)).
      + rewrite B1, B4, B5; ring.
      + transitivity (a*(p*a+q*b+r*c) + d*(p*d+q*e+r*f) + g*(p*g+q*h+r*i)); [ring|]. rewrite H1, H2, H3. ring.
    - transitivity (p*(a*b+d*e+g*h) + q*(b*b+e*e+h*h) + r*(b*c+e*f+h*i)).
      + rewrite B2, B4, B6; ring.
      + transitivity (b*(p*a+q*b+r*c) + e*(p*d+q*e+r*f) + h*(p*g+q*h+r*i)); [ring|]. rewrite H1, H2, H3. ring.
    - transitivity (p*(a*c+d*f+g*i) + q*(b*c+e*f+h*i) + r*(c*c+f*f+i*i)).
      + rewrite B3, B5, B6; ring.
      + transitivity (c*(p*a+q*b+r*c) + f*(p*d+q*e+r*f) + i*(p*g+q*h+r*i)); [ring|]. rewrite H1, H2, H3. ring. }
  assert (R2 : forall p q r, p*a+q*b+r*c = 0 -> p*d+q*e+r*f = 1 -> p*g+q*h+r*i = 0 -> p = d /\ q = e /\ r = f).
  { intros p q r H1 H2 H3. split; [|split].
    - transitivity (p*(a*a+d*d+g*g) + q*(a*b+d*e+g*h) + r*(a*c+d*f+g*i)).
      + rewrite B1, B4, B5; ring.
      + transitivity (a*(p*a+q*b+r*c) + d*(p*d+q*e+r*f) + g*(p*g+q*h+r*i)); [ring|]. rewrite H1, H2, H3. ring.
    - transitivity (p*(a*b+d*e+g*h) + q*(b*b+e*e+h*h) + r*(b*c+e*f+h*i)).
      + rewrite B2, B4, B6; ring.
      + transitivity (b*(p*a+q*b+r*c) + e*(p*d+q*e+r*f) + h*(p*g+q*h+r*i)); [ring|]. rewrite H1, H2, H3. ring.
    - transitivity (p*(a*c+d*f+g*i) + q*(b*c+e*f+h*i) + r*(c*c+f*f+i*i)).
      + rewrite B3, B5, B6; ring.
      + transitivity (c*(p*a+q*b+r*c) + f*(p*d+q*e+r*f) + i*(p*g+q*h+r*i)); [ring|]. rewrite H1, H2, H3. ring. }
  assert (R3 : forall p q r, p*a+q*b+r*c = 0 -> p*d+q*e+r*f = 0 -> p*g+q*h+r*i = 1 -> p = g /\ q = h /\ r = i).
  { intros p q r H1 H2 H3. split; [|split].
    - transitivity (p*(a*a+d*d+g*g) + q*(a*b+d*e+g*h) + r*(a*c+d*f+g*i)).
      + rewrite B1, B4, B5; ring.
      + transitivity (a*(p*a+q*b+r*c) + d*(p*d+q*e+r*f) + g*(p*g+q*h+r*i)); [ring|]. rewrite H1, H2, H3. ring.
    - transitivity (p*(a*b+d*e+g*h) + q*(b*b+e*e+h*h) + r*(b*c+e*f+h*i)).
      + rewrite B2, B4, B6; ring.
      + transitivity (b*(p*a+q*b+r*c) + e*(p*d+q*e+r*f) + h*(p*g+q*h+r*i)); [ring|]. rewrite H1, H2, H3. ring.
    - transitivity (p*(a*c+d*f+g*i) + q*(b*c+e*f+h*i) + r*(c*c+f*f+i*i)).
      + rewrite B3, B5, B6; ring.
      + transitivity (c*(p*a+q*b+r*c) + f*(p*d+q*e+r*f) + i*(p*g+q*h+r*i)); [ring|]. rewrite H1, H2, H3. ring. }
  split; [|split].
  - destruct (R1 (e*i-f*h) (f*g-d*i) (d*h-e*g)) as (X & Y & Z); [lra|ring|ring|]. repeat split; congruence.
  - destruct (R2 (h*c-i*b) (i*a-g*c) (g*b-h*a)) as (X & Y & Z); [ring|lra|ring|]. repeat split; congruence.
  - destruct (R3 (b*f-c*e) (c*d-a*f) (a*e-b*d)) as (X & Y & Z); [ring|ring|lra|]. repeat split; congruence.
Qed.

Lemma in_earth_cross O w r : proper_rotation O ->
  in_earth O (cross w r) = cross (in_earth O w) (in_earth O r).
Proof.
  intros P. destruct (is_mat3 O (proj1 (proj1 P))) as (a & b & c & d & e & f & g & h & i & ->).
  destruct (cof_rows _ _ _ _ _ _ _ _ _ P) as ((X1 & X2 & X3) & (Y1 & Y2 & Y3) & (Z1 & Z2 & Z3)).
  unfold in_earth, cross, comp, entry. cbn [map seq nth].
  generalize (nth 0 w 0) (nth 1 w 0) (nth 2 w 0) (nth 0 r 0) (nth 1 r 0) (nth 2 r 0).
  intros w0 w1 w2 r0 r1 r2. apply vec3_ext.
  - rewrite X1, Y1, Z1 at 1. ring.
  - rewrite X2, Y2, Z2 at 1. ring.
  - rewrite X3, Y3, Z3 at 1. ring.
Qed.

Lemma cross_perp_l a b : dot3 (cross a b) a = 0. Proof. unfold dot3, cross, comp. cbn. ring. Qed.
Lemma cross_perp_r a b : dot3 (cross a b) b = 0. Proof. unfold dot3, cross, comp. cbn. ring. Qed.

Lemma cross_lin_l k a a' b : cross (plus3 (times3 k a) a') b = plus3 (times3 k (cross a b)) (cross a' b).
Proof. unfold cross, plus3, times3, comp. cbn [nth]. apply vec3_ext; ring. Qed.
Lemma cross_lin_r k a b b' : cross a (plus3 (times3 k b) b') = plus3 (times3 k (cross a b)) (cross a b').
Proof. unfold cross, plus3, times3, comp. cbn [nth]. apply vec3_ext; ring. Qed.

(** * C55 *)
Lemma lookup_app nm l l' : lookup nm (l ++ l') =
  match lookup nm l with Some v => Some v | None => lookup nm l' end.
Proof.
  induction l as [|[k w] l IH]; [reflexivity|]. simpl. destruct (String.eqb k nm); [reflexivity|exact IH].
Qed.

Lemma lookup_put nm k v l : lookup nm (put k v l) = if String.eqb nm k then Some v else lookup nm l.
Proof.
  unfold put. destruct (lookup k l) as [w|] eqn:E.
  - rewrite lookup_update. destruct (String.eqb_spec nm k) as [->|N].
    + rewrite E. reflexivity.
    + destruct (lookup nm l); reflexivity.
  - rewrite lookup_app. simpl. destruct (String.eqb_spec nm k) as [->|N].
    + rewrite E, String.eqb_refl. reflexivity.
    + destruct (lookup nm l); [reflexivity|]. destruct (String.eqb_spec k nm); [congruence|reflexivity].
Qed.

Lemma lookup_none nm l : lookup nm l = None <-> ~ In nm (map fst l).
Proof.
  induction l as [|[k w] l IH]; simpl; [tauto|].
  destruct (String.eqb_spec k nm) as [->|N]; [split; [discriminate|tauto]|]. rewrite IH. tauto.
Qed.

Lemma put_keys k v l : map fst (put k v l) =
  match lookup k l with Some _ => map fst l | None => map fst l ++ [k] end.
Proof.
  unfold put. destruct (lookup k l); [apply update_keys|]. rewrite map_app. reflexivity.
Qed.

Lemma put_nodup k v l : NoDup (map fst l) -> NoDup (map fst (put k v l)).
Proof.
  intros N. rewrite put_keys. destruct (lookup k l) eqn:E; [exact N|].
  apply lookup_none in E. revert E N. generalize (map fst l). intros ks E N.
  induction N as [|x ks Hx N IH]; simpl; [constructor; [simpl; tauto|constructor]|].
  constructor.
  - rewrite in_app_iff. simpl. intros [H|[H|[]]]; [tauto|]. apply E. left. congruence.
  - apply IH. intros H. apply E. right; exact H.
Qed.

Lemma assoc_ext l1 l2 : map fst l1 = map fst l2 -> NoDup (map fst l1) ->
  (forall nm, In nm (map fst l1) -> lookup nm l1 = lookup nm l2) -> l1 = l2.
Proof.
  revert l2. induction l1 as [|[k v] l1 IH]; intros [|[k' v'] l2] E N H; simpl in *; try discriminate; [reflexivity|].
  injection E as <- E. inversion N as [|? ? N1 N2]; subst.
  pose proof (H k (or_introl eq_refl)) as H0. rewrite String.eqb_refl in H0. injection H0 as <-.
  f_equal. apply IH; [exact E|exact N2|]. intros nm Hn. specialize (H nm (or_intror Hn)).
  destruct (String.eqb_spec k nm) as [->|]; [tauto|exact H].
Qed.

(** ** vectors of every time *)
Lemma vecs_of_vecs l : vecs (of_vecs l) = l.
Proof. unfold vecs, of_vecs. cbn [cells]. rewrite map_map. apply map_id. Qed.

Lemma of_vecs_vecs v : ncomp v = 3%nat -> one_cell v -> of_vecs (vecs v) = v.
Proof.
  destruct v as [n c]. unfold one_cell, of_vecs, vecs. cbn [ncomp cells]. intros -> H. f_equal.
  rewrite map_map. rewrite <- (map_id c) at 2. apply map_ext_in. intros x Hx.
  rewrite Forall_forall in H. specialize (H x Hx). destruct x as [|y [|z x]]; simpl in *; try discriminate. reflexivity.
Qed.

Definition vec_list T (l : list vec) : Prop := List.length l = T /\ Forall (is_vec 3) l.

Lemma of_vecs_shaped T l : vec_list T l -> shaped T (of_vecs l).
Proof.
  intros [L F]. split; [unfold of_vecs; cbn [cells]; rewrite map_length; exact L|].
  unfold of_vecs. cbn [ncomp cells]. rewrite Forall_map. eapply Forall_impl; [|exact F].
  intros x Hx. constructor; [exact Hx|constructor].
Qed.

Lemma vecs_list T v : shaped T v -> ncomp v = 3%nat -> one_cell v -> vec_list T (vecs v).
Proof.
  intros [L F] N O. unfold vec_list, vecs. rewrite map_length. split; [exact L|].
  rewrite Forall_map. rewrite N in F. unfold one_cell in O. rewrite Forall_forall in *. intros c Hc. specialize (F c Hc).
  specialize (O c Hc). destruct c as [|x [|y c]]; simpl in O; try discriminate. inversion F; assumption.
Qed.

Lemma one_cell_of_vecs l : one_cell (of_vecs l).
Proof. unfold one_cell, of_vecs. cbn [cells]. rewrite Forall_map. apply Forall_forall. reflexivity. Qed.

Definition turn (om : list mat) (l : list vec) : list vec := zipw (fun O x => mv (tr 3 O) x) om l.
Definition turnback (om : list mat) (l : list vec) : list vec := zipw (fun O x => mv (tr 3 (tr 3 O)) x) om l.

Lemma zip_of_vecs fs l : zip_var fs (of_vecs l) = of_vecs (zipw (fun f x => f x) fs l).
Proof.
  unfold zip_var, of_vecs. cbn [ncomp cells]. f_equal. revert l. induction fs as [|f fs IH]; intros [|x l]; try reflexivity.
  cbn. f_equal. apply IH.
Qed.

Lemma zipw_map_l {A A' B C} (f : A' -> B -> C) (g : A -> A') a b :
  zipw f (map g a) b = zipw (fun x y => f (g x) y) a b.
Proof. revert b; induction a as [|x a IH]; intros [|y b]; simpl; try reflexivity. rewrite IH. reflexivity. Qed.

Lemma fwd_of_vecs om l : zip_var (vec_fs false om) (of_vecs l) = of_vecs (turn om l).
Proof. rewrite zip_of_vecs. unfold vec_fs, turn. rewrite zipw_map_l. reflexivity. Qed.
Lemma bwd_of_vecs om l : zip_var (vec_fs true om) (of_vecs l) = of_vecs (turnback om l).
Proof. rewrite zip_of_vecs. unfold vec_fs, turnback. rewrite zipw_map_l. reflexivity. Qed.

Lemma turn_list om l : vec_list (List.length om) l -> vec_list (List.length om) (turn om l).
Proof.
  intros [L F]. split; [apply zipw_length; congruence|]. clear F L. unfold turn. revert l.
  induction om as [|O om IH]; intros [|x l]; cbn [zipw]; try constructor.
  - unfold is_vec. rewrite mv_length, tr_length. reflexivity.
  - apply IH.
Qed.
Lemma turnback_list om l : vec_list (List.length om) l -> vec_list (List.length om) (turnback om l).
Proof.
  intros [L F]. split; [apply zipw_length; congruence|]. clear F L. unfold turnback. revert l.
  induction om as [|O om IH]; intros [|x l]; cbn [zipw]; try constructor.
  - unfold is_vec. rewrite mv_length, tr_length. reflexivity.
  - apply IH.
Qed.

Lemma turn_turnback om l : Forall orthonormal om -> vec_list (List.length om) l -> turn om (turnback om l) = l.
Proof.
  intros HO [L F]. unfold turn, turnback. revert l L F. induction HO as [|O om Ho HO IH]; intros [|x l] L F; try discriminate L; [reflexivity|].
  cbn [zipw]. inversion F as [|? ? Fx Fl]; subst. f_equal; [|apply IH; [injection L as L; exact L|exact Fl]].
  rewrite (tr_tr3 O (proj1 Ho)). apply orth_tr_mv; assumption.
Qed.

Lemma vadd_vec3 a b : is_vec 3 a -> is_vec 3 b -> is_vec 3 (vadd a b).
Proof.
  intros Ha Hb. destruct (is_vec3 a Ha) as (x & y & z & ->). destruct (is_vec3 b Hb) as (x' & y' & z' & ->). reflexivity.
Qed.
Lemma vadd_plus3 a b : is_vec 3 a -> is_vec 3 b -> vadd a b = plus3 a b.
Proof.
  intros Ha Hb. destruct (is_vec3 a Ha) as (x & y & z & ->). destruct (is_vec3 b Hb) as (x' & y' & z' & ->). reflexivity.
Qed.
Lemma mv_vadd M a b : is_mat 3 M -> is_vec 3 a -> is_vec 3 b -> mv M (vadd a b) = vadd (mv M a) (mv M b).
Proof.
  intros HM Ha Hb. destruct (is_mat3 M HM) as (m0&m1&m2&m3&m4&m5&m6&m7&m8&->).
  destruct (is_vec3 a Ha) as (x & y & z & ->). destruct (is_vec3 b Hb) as (x' & y' & z' & ->).
  cbn. apply vec3_ext; ring.
Qed.

Lemma vadd_list T a b : vec_list T a -> vec_list T b -> vec_list T (zipw vadd a b).
Proof.
  intros [L F] [L' F']. split; [rewrite zipw_length; congruence|]. clear L L'. revert b F'.
  induction F as [|x a Fx F IH]; intros [|y b] F'; simpl; try constructor.
  - inversion F'; subst. apply vadd_vec3; assumption.
  - inversion F'; subst. apply IH; assumption.
Qed.

Lemma turn_vadd om a b : Forall orthonormal om -> vec_list (List.length om) a -> vec_list (List.length om) b ->
  turn om (zipw vadd a b) = zipw vadd (turn om a) (turn om b).
Proof.
  intros HO [L F] [L' F']. unfold turn. revert a L F b L' F'.
  induction HO as [|O om Ho HO IH]; intros [|x a] L F [|y b] L' F'; try discriminate L; try discriminate L'; [reflexivity|].
  cbn [zipw]. inversion F; subst. inversion F'; subst. f_equal; [|apply IH; try assumption; simpl in L, L'; lia].
  apply mv_vadd; try assumption. apply is_mat_tr3, Ho.
Qed.

(** ** lengths of what is computed *)
Lemma zip3_list T a b c : List.length a = T -> List.length b = T -> List.length c = T -> vec_list T (zip3 a b c).
Proof.
  intros <- Hb Hc. split.
  - revert b Hb c Hc. induction a as [|x a IH]; intros [|y b] Hb [|z c] Hc; simpl in *; try lia.
    rewrite IH; lia.
  - clear Hb Hc. revert b c. induction a as [|x a IH]; intros [|y b] [|z c]; simpl; try constructor; auto. reflexivity.
Qed.

Lemma map_opt_Forall2 {A B} (f : A -> option B) l r : map_opt f l = Some r -> Forall2 (fun x y => f x = Some y) l r.
Proof.
  revert r; induction l as [|x l IH]; simpl; intros r H; [injection H as <-; constructor|].
  destruct (f x) as [y|] eqn:E; [|discriminate]. destruct (map_opt f l) as [r'|]; [|discriminate].
  injection H as <-. constructor; [exact E|apply IH; reflexivity].
Qed.

Lemma sub_series_length a b : List.length a = List.length b -> List.length (sub_series a b) = List.length a.
Proof. revert b; induction a as [|p a IH]; intros [|q b] H; simpl in *; try lia. rewrite IH; lia. Qed.

Lemma cumtrapz_from_length dx acc x0 x : List.length (cumtrapz_from dx acc x0 x) = S (List.length x).
Proof. revert acc x0; induction x as [|y x IH]; intros acc x0; simpl; [reflexivity|]. rewrite IH. reflexivity. Qed.

Lemma low_length lp fa s x y : keeps_length lp -> low_accel lp fa s x = Some y -> List.length y = List.length x.
Proof.
  intros K. unfold low_accel. destruct (Req_EM_T fa 0); [intros [= <-]; apply map_length|]. apply K.
Qed.

Lemma integrate_length lp fv s x low y : keeps_length lp -> List.length low = List.length x -> x <> [] ->
  integrate lp fv s x low = Some y -> List.length y = List.length x.
Proof.
  intros K L N. unfold integrate.
  assert (D : List.length (cumtrapz (1 / s) (sub_series x low)) = List.length x).
  { destruct x as [|x0 x]; [congruence|]. destruct low as [|l0 low]; [discriminate|]. cbn [sub_series cumtrapz].
    rewrite cumtrapz_from_length. cbn [List.length]. f_equal. apply sub_series_length. simpl in L. lia. }
  destruct (Rlt_dec 0 fv).
  - destruct (lp 2%nat fv s _) as [l|] eqn:E; [|discriminate]. intros [= <-].
    rewrite sub_series_length; [exact D|]. rewrite (K _ _ _ _ _ E). reflexivity.
  - intros [= <-]. exact D.
Qed.

Lemma concat_length2 {A B} (l : list (list A)) (r : list (list B)) :
  Forall2 (fun x y => List.length x = List.length y) l r -> List.length (concat l) = List.length (concat r).
Proof. intros H; induction H; simpl; [reflexivity|]. rewrite !app_length. congruence. Qed.

Lemma take_bursts_total k n x : (k * n <= List.length x)%nat ->
  Forall (fun b => List.length b = n) (take_bursts k n x) /\ List.length (concat (take_bursts k n x)) = (k * n)%nat
  /\ concat (take_bursts k n x) = firstn (k * n) x.
Proof.
  revert x. induction k as [|k IH]; intros x H; simpl; [auto|].
  destruct (IH (skipn n x)) as (A & B & C); [rewrite skipn_length; simpl in H; lia|].
  simpl in H.
  split; [constructor; [rewrite firstn_length; lia|exact A]|].
  split; [rewrite app_length, B, firstn_length; lia|].
  rewrite C. rewrite <- (firstn_skipn n (firstn (n + k * n) x)).
  rewrite firstn_firstn, Nat.min_l by lia. f_equal. rewrite skipn_firstn_comm. f_equal. lia.
Qed.

Lemma component_lengths lp n fa fv s x lo ve : keeps_length lp ->
  component_motion lp n fa fv s x = inr (lo, ve) ->
  List.length ve = List.length x /\ (n <> Some 0%nat -> List.length lo = List.length x).
Proof.
  intros K. unfold component_motion.
  destruct (map_opt _ (bursts n x)) as [lows|] eqn:E1; [|discriminate].
  destruct (map_opt _ (combine _ _)) as [vs|] eqn:E2; [|discriminate].
  destruct (Nat.eqb_spec (List.length (concat vs)) (List.length x)) as [E|]; [|discriminate].
  intros H. injection H as <- <-. split; [exact E|]. intros Nn.
  apply map_opt_Forall2 in E1. apply map_opt_Forall2 in E2.
  assert (L1 : List.length (concat lows) = List.length (concat (bursts n x))).
  { symmetry. apply concat_length2. clear - E1 K. induction E1; constructor; [|assumption]. symmetry. eapply low_length; eassumption. }
  rewrite L1, <- E. destruct n as [n|].
  - assert (n0 : n <> 0%nat) by congruence.
    cbn [bursts] in *. unfold reshape_bursts in *.
    destruct (take_bursts_total (List.length x / n) n x) as (A & B & C).
    { rewrite Nat.mul_comm. apply Nat.mul_div_le. exact n0. }
    apply concat_length2. clear - E1 E2 K A n0.
    revert lows vs E1 E2 A. generalize (take_bursts (List.length x / n) n x). intros bs.
    induction bs as [|b bs IH]; intros lows vs E1 E2 A; inversion E1; subst; simpl in E2; inversion E2; subst; constructor.
    + inversion A; subst. symmetry. eapply integrate_length; [exact K| | |eassumption].
      * cbn [fst snd]. eapply low_length; eassumption.
      * cbn [fst]. intros ->. simpl in n0. congruence.
    + inversion A; subst. eapply IH; eassumption.
  - cbn [bursts concat]. rewrite app_nil_r. symmetry. exact E.
Qed.

Lemma duty_pos n iv t r : check_duty_cycle n iv t = inr r -> r <> Some 0%nat.
Proof.
  unfold check_duty_cycle. destruct n as [[|n]|]; try (intros [= <-]; discriminate).
  destruct (burst_intervals _ _); [discriminate|]. cbv zeta. destruct (Z.ltb _ _); [discriminate|].
  destruct iv; [|discriminate]. destruct (_ && _)%bool; [discriminate|]. intros [= <-]; discriminate.
Qed.

(** ** what a successful correction went through *)
Definition added (d : ds) (velrot acclow velacc : list vec) : ds :=
  set_rotate_vars (set_data d (put "velrot" (of_vecs velrot)
     (put "acclow" (of_vecs acclow) (put "velacc" (of_vecs velacc) (data d)))))
     (rotate_vars d ++ ["velrot"; "velacc"; "acclow"]%string).
Definition turned (te : bool) (acc : list vec) (d2 : ds) : res :=
  if te then inst2earth_of false false
      (filter (fun nm => negb (existsb (String.eqb nm) ["accel"; "acclow"; "velacc"]%string)) (rotate_vars d2))
      (set_data d2 (put "accel" (of_vecs acc) (data d2)))
  else inst2earth_of true true ["acclow"; "velacc"]%string d2.
Definition finished (d3 : ds) (vel : var) : ds :=
  let d5 := set_rotate_vars (set_data d3 (put "vel_raw" vel (data d3))) (rotate_vars d3 ++ ["vel_raw"]%string) in
  set_data d5 (put "vel" (of_vecs (zipw vadd (vecs vel) (zipw vadd (get "velrot" d5) (get "velacc" d5)))) (data d5)).

Lemma correct_inv lp aa av te sp m m' : correct_motion lp aa av te sp m = inr m' ->
  (has "accel" (base m) = true /\ accel_nan m = false /\ has "angrt" (base m) = true /\ angrt_nan m = false /\
   has "velrot" (base m) = false /\ corrected m = false /\ has_imu m = true) /\
  exists d acc n c0 c1 c2 velrot d3 vel,
    (if String.eqb (coord_sys (base m)) "inst" then inr (base m) else lift (rotate2 (base m) "inst")) = inr d /\
    earth_accel d = inr acc /\
    check_duty_cycle (n_burst m) (interval m) (times m) = inr n /\
    (let ff := filt_freqs (accel_freq m) (vel_freq m) aa av in
     let one i := component_motion lp n (fst ff) (snd ff) (fs m) (series i acc) in
     one 0%nat = inr c0 /\ one 1%nat = inr c1 /\ one 2%nat = inr c2) /\
    head_velocity sp d (head_vec m) = inr velrot /\
    turned te acc (added d velrot (zip3 (fst c0) (fst c1) (fst c2)) (zip3 (snd c0) (snd c1) (snd c2))) = Ok d3 /\
    lookup "vel" (data d3) = Some vel /\
    m' = after m (finished d3 vel) (fst (filt_freqs (accel_freq m) (vel_freq m) aa av)).
Proof.
  unfold correct_motion.
  destruct (has "accel" (base m)); [|discriminate]. destruct (accel_nan m); [discriminate|].
  destruct (has "angrt" (base m)); [|discriminate]. destruct (angrt_nan m); [discriminate|].
  destruct (has "velrot" (base m)); [discriminate|]. destruct (corrected m); [discriminate|].
  destruct (has_imu m); [|discriminate]. cbn [negb orb]. cbv zeta. intros H.
  split; [repeat split|].
  destruct (if String.eqb (coord_sys (base m)) "inst" then inr (base m) else lift (rotate2 (base m) "inst"))
    as [e|d] eqn:Ed; cbn [andThen] in H; [discriminate|].
  destruct (check_inst2head d); [discriminate|].
  destruct (earth_accel d) as [e|acc] eqn:Ea; cbn [andThen] in H; [discriminate|].
  destruct (check_duty_cycle (n_burst m) (interval m) (times m)) as [e|n] eqn:En; cbn [andThen] in H; [discriminate|].
  destruct (component_motion lp n _ _ _ (series 0 acc)) as [e|c0] eqn:E0; cbn [andThen] in H; [discriminate|].
  destruct (component_motion lp n _ _ _ (series 1 acc)) as [e|c1] eqn:E1; cbn [andThen] in H; [discriminate|].
  destruct (component_motion lp n _ _ _ (series 2 acc)) as [e|c2] eqn:E2; cbn [andThen] in H; [discriminate|].
  destruct (head_velocity sp d (head_vec m)) as [e|vr] eqn:Ev; cbn [andThen] in H; [discriminate|].
  change (if te then _ else _) with
    (turned te acc (added d vr (zip3 (fst c0) (fst c1) (fst c2)) (zip3 (snd c0) (snd c1) (snd c2)))) in H.
  destruct (turned te acc _) as [d3|e d3] eqn:E3; cbn [lift andThen] in H; [|discriminate].
  destruct (lookup "vel" (data d3)) as [vel|] eqn:El; [|discriminate].
  change (inr (after m (finished d3 vel) (fst (filt_freqs (accel_freq m) (vel_freq m) aa av))) = inr m' :> merr + mds) in H.
  assert (H' : m' = after m (finished d3 vel) (fst (filt_freqs (accel_freq m) (vel_freq m) aa av))) by congruence.
  exists d, acc, n, c0, c1, c2, vr, d3, vel.
  repeat (split; [first [reflexivity|assumption|(split; [|split]; assumption)]|]). exact H'.
Qed.

Lemma named d nm : admissible Vector d -> plain_adv d -> In nm ["vel"; "accel"; "angrt"]%string ->
  exists l, lookup nm (data d) = Some (of_vecs l) /\ vec_list (List.length (orientmat d)) l /\ get nm d = l.
Proof.
  intros A P Hn. destruct (pa_in _ P nm Hn) as [Hr Ho].
  destruct (adm_vars _ _ A nm Hr) as (v & Hv & Sv & Rv). cbn [rotatable] in Rv.
  specialize (Ho v Hv). exists (vecs v). rewrite (of_vecs_vecs v Rv Ho). split; [exact Hv|].
  split; [apply vecs_list; assumption|]. unfold get. rewrite Hv. reflexivity.
Qed.

Lemma okv T l : vec_list T l -> okvar Vector T (of_vecs l).
Proof. intros H. split; [apply of_vecs_shaped; exact H|reflexivity]. Qed.

Lemma vec_earthF d rev v : earthF Vector rev d v = zip_var (vec_fs rev (orientmat d)) v.
Proof. reflexivity. Qed.

Lemma inst2earth_of_ok d rev force names : admissible Vector d ->
  (force = true \/ coord_sys d = if rev : bool then "earth"%string else "inst"%string) ->
  all_named names (okvar Vector (List.length (orientmat d))) (data d) ->
  inst2earth_of rev force names d =
  Ok (relabel Vector (if rev then "inst" else "earth")%string
        (set_data d (iter_data names (zip_var (vec_fs rev (orientmat d))) (data d)))).
Proof.
  intros A C HN. pose proof A as A'. apply adm_split in A'. destruct A' as (S & _ & _ & _ & W).
  unfold inst2earth_of.
  replace (negb force && negb (String.eqb (lower (coord_sys d)) (if rev then "earth" else "inst")))%bool with false.
  2: { destruct C as [->| ->]; [reflexivity|]. destruct rev, force; reflexivity. }
  change (map (fun O => let rmat := tr 3 O in mv (if rev then tr 3 rmat else rmat)) (orientmat d))
    with (vec_fs rev (orientmat d)).
  rewrite (over_vars_ok names _ (zip_var (vec_fs rev (orientmat d))) (okvar Vector (List.length (orientmat d)))).
  - cbn [bind]. apply adm_set_coords; [exact A|]. destruct rev; simpl; tauto.
  - intros v Pv. split.
    + rewrite (proj2 Pv). cbn [Nat.eqb]. apply map_time_ok. unfold vec_fs. rewrite map_length. apply Pv.
    + destruct (earthF_ok Vector d rev v S Pv) as [[P1 P2] _]. rewrite vec_earthF in *. eapply okvar_shape; eassumption.
  - apply W.
  - exact HN.
Qed.

(** putting a well-shaped variable keeps the dataset admissible *)
Lemma adm_put d nm l : admissible Vector d -> vec_list (List.length (orientmat d)) l ->
  admissible Vector (set_data d (put nm (of_vecs l) (data d))).
Proof.
  intros A V. destruct A as [a1 a2 a3 a4 a5 a6 a7 a8 a9 a10 a11]. constructor; cbn; try assumption.
  - apply put_nodup. exact a9.
  - intros n Hn. rewrite lookup_put. destruct (String.eqb n nm).
    + eexists; split; [reflexivity|]. apply okv. exact V.
    + apply a10. exact Hn.
  - intros M HM. destruct (a11 M HM) as (b1 & b2 & v & b3 & b4 & b5). split; [exact b1|]. split; [exact b2|].
    rewrite lookup_put. destruct (String.eqb "vel" nm); [|exists v; auto].
    eexists; split; [reflexivity|]. destruct (okv _ _ V) as [S N]. split; [exact S|exact N].
Qed.

Lemma adm_names d names : admissible Vector d ->
  (forall nm, In nm names -> exists l, lookup nm (data d) = Some (of_vecs l) /\ vec_list (List.length (orientmat d)) l) ->
  admissible Vector (set_rotate_vars d (rotate_vars d ++ names)).
Proof.
  intros A H. destruct A as [a1 a2 a3 a4 a5 a6 a7 a8 a9 a10 a11]. constructor; cbn; try assumption.
  intros n Hn. apply in_app_or in Hn. destruct Hn as [Hn|Hn]; [apply a10; exact Hn|].
  destruct (H n Hn) as (l & Hl & Vl). exists (of_vecs l). split; [exact Hl|]. apply okv. exact Vl.
Qed.

Lemma set_data_twice d X Y : set_data (set_data d X) Y = set_data d Y.
Proof. reflexivity. Qed.

Lemma added_adm d VR AL VA : admissible Vector d ->
  vec_list (List.length (orientmat d)) VR -> vec_list (List.length (orientmat d)) AL ->
  vec_list (List.length (orientmat d)) VA -> admissible Vector (added d VR AL VA).
Proof.
  intros A HR HL HA. unfold added.
  pose proof (adm_put d "velacc" VA A HA) as A1.
  pose proof (adm_put _ "acclow" AL A1 HL) as A2. cbn [data set_data] in A2. rewrite set_data_twice in A2.
  pose proof (adm_put _ "velrot" VR A2 HR) as A3. cbn [data set_data] in A3. rewrite set_data_twice in A3.
  pose proof (adm_names _ ["velrot"; "velacc"; "acclow"]%string A3) as A4. cbn [rotate_vars set_data] in A4.
  apply A4. intros nm Hn. cbn [data set_data]. rewrite !lookup_put.
  destruct Hn as [<-|[<-|[<-|[]]]]; cbn; eauto.
Qed.

Lemma lookup_added nm d VR AL VA : lookup nm (data (added d VR AL VA)) =
  if String.eqb nm "velrot" then Some (of_vecs VR)
  else if String.eqb nm "acclow" then Some (of_vecs AL)
  else if String.eqb nm "velacc" then Some (of_vecs VA) else lookup nm (data d).
Proof. unfold added. cbn [data set_rotate_vars set_data]. rewrite !lookup_put. reflexivity. Qed.

Lemma all_rot d names : admissible Vector d -> incl names (rotate_vars d) ->
  all_named names (okvar Vector (List.length (orientmat d))) (data d).
Proof. intros A I nm Hn. destruct (adm_vars _ _ A nm (I nm Hn)) as (v & Hv & S & Rv). exists v. split; [exact Hv|split; assumption]. Qed.

Definition kept_names (rv : list string) : list string :=
  filter (fun nm => negb (existsb (String.eqb nm) ["accel"; "acclow"; "velacc"]%string)) rv.

Definition turned_data (te : bool) (acc : list vec) (d2 : ds) : list (string * var) :=
  if te then iter_data (kept_names (rotate_vars d2)) (zip_var (vec_fs false (orientmat d2)))
               (put "accel" (of_vecs acc) (data d2))
  else iter_data ["acclow"; "velacc"]%string (zip_var (vec_fs true (orientmat d2))) (data d2).

Lemma turned_ok te acc d VR AL VA : admissible Vector d -> coord_sys d = "inst"%string ->
  vec_list (List.length (orientmat d)) acc ->
  vec_list (List.length (orientmat d)) VR -> vec_list (List.length (orientmat d)) AL ->
  vec_list (List.length (orientmat d)) VA ->
  turned te acc (added d VR AL VA) =
  Ok (relabel Vector (frame_name te) (set_data (added d VR AL VA) (turned_data te acc (added d VR AL VA)))).
Proof.
  intros A C Hacc HR HL HA. pose proof (added_adm d VR AL VA A HR HL HA) as A2.
  unfold turned, turned_data. destruct te.
  - set (d2 := added d VR AL VA) in *.
    assert (A3 : admissible Vector (set_data d2 (put "accel" (of_vecs acc) (data d2)))) by (apply adm_put; [exact A2|exact Hacc]).
    rewrite (inst2earth_of_ok _ false false _ A3); [reflexivity|right; exact C|].
    apply (all_rot _ _ A3). cbn [rotate_vars set_data]. intros nm Hn. apply filter_In in Hn. apply Hn.
  - rewrite (inst2earth_of_ok _ true true _ A2); [reflexivity|left; reflexivity|].
    apply (all_rot _ _ A2). intros nm Hn. unfold added. cbn [rotate_vars set_rotate_vars].
    apply in_or_app. right. simpl in *. tauto.
Qed.

Lemma iter0 {A} (f : A -> A) x : Nat.iter 0 f x = x. Proof. reflexivity. Qed.
Lemma iter1 {A} (f : A -> A) x : Nat.iter 1 f x = f x. Proof. reflexivity. Qed.

Lemma count_one nm names : NoDup names -> In nm names -> count nm names = 1%nat.
Proof. intros N I. apply NoDup_count_occ'; assumption. Qed.

Lemma count_app nm a b : count nm (a ++ b) = (count nm a + count nm b)%nat.
Proof. apply count_occ_app. Qed.

Lemma new_not_rotated d nm : admissible Vector d -> plain_adv d ->
  In nm ["velrot"; "velacc"; "acclow"; "vel_raw"]%string -> ~ In nm (rotate_vars d).
Proof.
  intros A P Hn Hr. destruct (adm_vars _ _ A nm Hr) as (v & Hv & _). rewrite (pa_new _ P nm Hn) in Hv. discriminate.
Qed.

Lemma count_filter (f : string -> bool) nm l :
  count nm (filter f l) = if f nm then count nm l else 0%nat.
Proof.
  unfold count. induction l as [|x l IH]; simpl; [destruct (f nm); reflexivity|].
  destruct (string_dec x nm) as [->|N].
  - destruct (f nm) eqn:E; [simpl; destruct (string_dec nm nm); congruence|exact IH].
  - destruct (f x); [simpl; destruct (string_dec x nm); [congruence|]|]; exact IH.
Qed.

(** the dataset in the instrument frame and everything computed from it *)
Record stage (d : ds) (acc VR AL VA : list vec) : Prop := {
  sg_adm : admissible Vector d;
  sg_plain : plain_adv d;
  sg_inst : coord_sys d = "inst"%string;
  sg_acc : vec_list (List.length (orientmat d)) acc;
  sg_acc_eq : acc = turn (orientmat d) (get "accel" d);
  sg_vr : vec_list (List.length (orientmat d)) VR;
  sg_al : vec_list (List.length (orientmat d)) AL;
  sg_va : vec_list (List.length (orientmat d)) VA }.

Definition out_vel (te : bool) (d : ds) (VR VA : list vec) : list vec :=
  if te then zipw vadd (turn (orientmat d) (get "vel" d)) (zipw vadd (turn (orientmat d) VR) VA)
  else zipw vadd (get "vel" d) (zipw vadd VR (turnback (orientmat d) VA)).

Definition d3_of te acc d VR AL VA : ds :=
  relabel Vector (frame_name te) (set_data (added d VR AL VA) (turned_data te acc (added d VR AL VA))).

Lemma lookup_turned_true nm acc d VR AL VA : stage d acc VR AL VA ->
  lookup nm (turned_data true acc (added d VR AL VA)) =
  if String.eqb nm "accel" then Some (of_vecs acc)
  else if String.eqb nm "velrot" then Some (of_vecs (turn (orientmat d) VR))
  else if String.eqb nm "acclow" then Some (of_vecs AL)
  else if String.eqb nm "velacc" then Some (of_vecs VA)
  else option_map (Nat.iter (count nm (rotate_vars d)) (zip_var (vec_fs false (orientmat d)))) (lookup nm (data d)).
Proof.
  intros S. unfold turned_data. change (orientmat (added d VR AL VA)) with (orientmat d).
  rewrite lookup_iter. unfold kept_names. rewrite count_filter.
  change (rotate_vars (added d VR AL VA)) with (rotate_vars d ++ ["velrot"; "velacc"; "acclow"]%string).
  rewrite count_app, lookup_put, lookup_added.
  destruct (String.eqb_spec nm "accel") as [->|N1]; [reflexivity|].
  destruct (String.eqb_spec nm "velrot") as [->|N2].
  { rewrite (count_notin "velrot" (rotate_vars d)).
    2: { apply (new_not_rotated d _ (sg_adm _ _ _ _ _ S) (sg_plain _ _ _ _ _ S)). simpl; tauto. }
    cbn. f_equal. rewrite fwd_of_vecs. reflexivity. }
  destruct (String.eqb_spec nm "acclow") as [->|N3]; [reflexivity|].
  destruct (String.eqb_spec nm "velacc") as [->|N4]; [reflexivity|].
  replace (negb (existsb (String.eqb nm) ["accel"; "acclow"; "velacc"]%string)) with true.
  2: { cbn [existsb]. destruct (String.eqb_spec nm "accel"); [contradiction|].
       destruct (String.eqb_spec nm "acclow"); [contradiction|]. destruct (String.eqb_spec nm "velacc"); [contradiction|]. reflexivity. }
  rewrite (count_notin nm ["velrot"; "velacc"; "acclow"]%string), Nat.add_0_r; [reflexivity|].
  simpl. intuition congruence.
Qed.

Lemma lookup_turned_false nm acc d VR AL VA :
  lookup nm (turned_data false acc (added d VR AL VA)) =
  if String.eqb nm "velrot" then Some (of_vecs VR)
  else if String.eqb nm "acclow" then Some (of_vecs (turnback (orientmat d) AL))
  else if String.eqb nm "velacc" then Some (of_vecs (turnback (orientmat d) VA))
  else lookup nm (data d).
Proof.
  unfold turned_data. change (orientmat (added d VR AL VA)) with (orientmat d).
  rewrite lookup_iter, lookup_added.
  destruct (String.eqb_spec nm "velrot") as [->|N2]; [reflexivity|].
  destruct (String.eqb_spec nm "acclow") as [->|N3]; [cbn; rewrite bwd_of_vecs; reflexivity|].
  destruct (String.eqb_spec nm "velacc") as [->|N4]; [cbn; rewrite bwd_of_vecs; reflexivity|].
  rewrite count_notin by (simpl; intuition congruence). destruct (lookup nm (data d)); reflexivity.
Qed.

Lemma vel_in_d3 te acc d VR AL VA : stage d acc VR AL VA ->
  lookup "vel" (data (d3_of te acc d VR AL VA)) =
  Some (of_vecs (if te then turn (orientmat d) (get "vel" d) else get "vel" d)).
Proof.
  intros S. unfold d3_of. change (data (relabel _ _ (set_data _ ?X))) with X.
  destruct (named d "vel" (sg_adm _ _ _ _ _ S) (sg_plain _ _ _ _ _ S) ltac:(simpl; tauto)) as (l & Hl & Vl & ->).
  destruct te.
  - rewrite (lookup_turned_true _ _ _ _ _ _ S). cbn [String.eqb Ascii.eqb Bool.eqb]. rewrite Hl. cbn [option_map].
    rewrite count_one; [cbn [Nat.iter nat_rect]; rewrite fwd_of_vecs; reflexivity|apply (sg_plain _ _ _ _ _ S)|].
    apply (pa_in _ (sg_plain _ _ _ _ _ S)). simpl; tauto.
  - rewrite lookup_turned_false. exact Hl.
Qed.

Definition out_ds te acc d VR AL VA : ds :=
  finished (d3_of te acc d VR AL VA) (of_vecs (if te then turn (orientmat d) (get "vel" d) else get "vel" d)).

Lemma lookup_out nm te acc d VR AL VA : stage d acc VR AL VA ->
  lookup nm (data (out_ds te acc d VR AL VA)) =
  if String.eqb nm "vel" then Some (of_vecs (out_vel te d VR VA))
  else if String.eqb nm "vel_raw" then Some (of_vecs (if te then turn (orientmat d) (get "vel" d) else get "vel" d))
  else lookup nm (turned_data te acc (added d VR AL VA)).
Proof.
  intros S. unfold out_ds, finished. cbv zeta.
  set (d5 := set_rotate_vars _ _).
  change (data (set_data ?a ?b)) with b.
  assert (D5 : forall n, lookup n (data d5) =
     if String.eqb n "vel_raw" then Some (of_vecs (if te then turn (orientmat d) (get "vel" d) else get "vel" d))
     else lookup n (turned_data te acc (added d VR AL VA))).
  { intros n. unfold d5. cbn [data set_rotate_vars set_data]. rewrite lookup_put. reflexivity. }
  rewrite lookup_put, D5. destruct (String.eqb nm "vel"); [|reflexivity]. f_equal. f_equal.
  rewrite vecs_of_vecs. unfold out_vel, get. rewrite !D5. cbn [String.eqb Ascii.eqb Bool.eqb].
  destruct te.
  - rewrite !(lookup_turned_true _ _ _ _ _ _ S). cbn [String.eqb Ascii.eqb Bool.eqb]. rewrite !vecs_of_vecs. reflexivity.
  - rewrite !lookup_turned_false. cbn [String.eqb Ascii.eqb Bool.eqb]. rewrite !vecs_of_vecs. reflexivity.
Qed.

Lemma out_keys te acc d VR AL VA : stage d acc VR AL VA ->
  map fst (data (out_ds te acc d VR AL VA)) = map fst (data (added d VR AL VA)) ++ ["vel_raw"%string].
Proof.
  intros S. unfold out_ds, finished. cbv zeta. change (data (set_data ?a ?b)) with b.
  rewrite put_keys. cbn [data set_rotate_vars set_data]. rewrite lookup_put. cbn [String.eqb Ascii.eqb Bool.eqb].
  change (lookup "vel" (data (d3_of te acc d VR AL VA))) with (lookup "vel" (data (d3_of te acc d VR AL VA))).
  rewrite vel_in_d3 by exact S. rewrite put_keys.
  assert (N : lookup "vel_raw" (data (d3_of te acc d VR AL VA)) = None).
  { unfold d3_of. change (data (relabel _ _ (set_data _ ?X))) with X.
    pose proof (pa_new _ (sg_plain _ _ _ _ _ S) "vel_raw" ltac:(simpl; tauto)) as E.
    destruct te; [rewrite (lookup_turned_true _ _ _ _ _ _ S)|rewrite lookup_turned_false];
      cbn [String.eqb Ascii.eqb Bool.eqb]; rewrite E; reflexivity. }
  rewrite N. f_equal. unfold d3_of. change (data (relabel _ _ (set_data _ ?X))) with X.
  unfold turned_data. destruct te; rewrite iter_data_keys; [|reflexivity].
  rewrite put_keys, lookup_added. cbn [String.eqb Ascii.eqb Bool.eqb].
  destruct (named d "accel" (sg_adm _ _ _ _ _ S) (sg_plain _ _ _ _ _ S) ltac:(simpl; tauto)) as (l & -> & _). reflexivity.
Qed.

Lemma d3_adm te acc d VR AL VA : stage d acc VR AL VA -> admissible Vector (d3_of te acc d VR AL VA).
Proof.
  intros S. pose proof (added_adm d VR AL VA (sg_adm _ _ _ _ _ S) (sg_vr _ _ _ _ _ S) (sg_al _ _ _ _ _ S) (sg_va _ _ _ _ _ S)) as A2.
  unfold d3_of, turned_data. set (d2 := added d VR AL VA) in *.
  assert (FOK : forall rev v, okvar Vector (List.length (orientmat d2)) v ->
    okvar Vector (List.length (orientmat d2)) (zip_var (vec_fs rev (orientmat d2)) v) /\
    shaped (List.length (orientmat d2)) (zip_var (vec_fs rev (orientmat d2)) v) /\
    ncomp (zip_var (vec_fs rev (orientmat d2)) v) = ncomp v).
  { intros rev v Pv. pose proof A2 as A'. apply adm_split in A'. destruct A' as (St & _).
    destruct (earthF_ok Vector d2 rev v St Pv) as [[P1 P2] _]. rewrite vec_earthF in *.
    split; [eapply okvar_shape; eassumption|auto]. }
  destruct te.
  - pose proof (adm_put d2 "accel" acc A2 (sg_acc _ _ _ _ _ S)) as A3.
    set (d2' := set_data d2 (put "accel" (of_vecs acc) (data d2))) in *.
    apply (adm_relabel Vector d2' _ "earth" A3); [simpl; tauto|].
    apply wfd_iter with (P := okvar Vector (List.length (orientmat d2))); [apply adm_split in A3; apply A3| |exact (FOK false)].
    intros nm v Hn Hv. apply filter_In in Hn.
    destruct (adm_vars _ _ A3 nm (proj1 Hn)) as (w & Hw & Sw & Rw).
    assert (E : Some w = Some v) by (rewrite <- Hw, <- Hv; reflexivity). injection E as ->. split; assumption.
  - apply (adm_relabel Vector d2 _ "inst" A2); [simpl; tauto|].
    apply wfd_iter with (P := okvar Vector (List.length (orientmat d2))); [apply adm_split in A2; apply A2| |exact (FOK true)].
    intros nm v Hn Hv. assert (Hr : In nm (rotate_vars d2)).
    { unfold d2, added. cbn [rotate_vars set_rotate_vars]. apply in_or_app; right. simpl in *; tauto. }
    destruct (adm_vars _ _ A2 nm Hr) as (w & Hw & Sw & Rw). rewrite Hv in Hw. injection Hw as ->. split; assumption.
Qed.

Lemma out_vel_list te d acc VR AL VA : stage d acc VR AL VA -> vec_list (List.length (orientmat d)) (out_vel te d VR VA).
Proof.
  intros S. destruct (named d "vel" (sg_adm _ _ _ _ _ S) (sg_plain _ _ _ _ _ S) ltac:(simpl; tauto)) as (l & Hl & Vl & El).
  unfold out_vel. rewrite El. pose proof (sg_vr _ _ _ _ _ S). pose proof (sg_va _ _ _ _ _ S).
  destruct te; repeat apply vadd_list; try assumption; try (apply turn_list; assumption). apply turnback_list; assumption.
Qed.

Lemma out_adm te acc d VR AL VA : stage d acc VR AL VA -> admissible Vector (out_ds te acc d VR AL VA).
Proof.
  intros S. pose proof (d3_adm te acc d VR AL VA S) as A3.
  destruct (named d "vel" (sg_adm _ _ _ _ _ S) (sg_plain _ _ _ _ _ S) ltac:(simpl; tauto)) as (l & Hl & Vl & El).
  assert (V : vec_list (List.length (orientmat d)) (if te then turn (orientmat d) (get "vel" d) else get "vel" d)).
  { rewrite El. destruct te; [apply turn_list|]; exact Vl. }
  unfold out_ds. set (vv := if te then _ else _) in *.
  pose proof (adm_put _ "vel_raw" vv A3 V) as A4.
  pose proof (adm_names _ ["vel_raw"%string] A4) as A5.
  assert (A5' := A5 ltac:(intros nm [<-|[]]; exists vv; cbn [data set_data]; rewrite lookup_put; split; [reflexivity|exact V])).
  clear A5. pose proof (adm_put _ "vel" (out_vel te d VR VA) A5' (out_vel_list te d acc VR AL VA S)) as A6.
  pose proof (lookup_out "vel" te acc d VR AL VA S) as LV. cbn [String.eqb Ascii.eqb Bool.eqb] in LV.
  unfold out_ds, finished in LV. cbv zeta in LV. change (data (set_data ?a ?b)) with b in LV.
  rewrite lookup_put in LV. cbn [String.eqb Ascii.eqb Bool.eqb] in LV. fold vv in LV.
  assert (LV' : of_vecs (zipw vadd (vecs (of_vecs vv))
    (zipw vadd (get "velrot" (set_rotate_vars (set_data (d3_of te acc d VR AL VA) (put "vel_raw" (of_vecs vv) (data (d3_of te acc d VR AL VA))))
         (rotate_vars (d3_of te acc d VR AL VA) ++ ["vel_raw"%string])))
       (get "velacc" (set_rotate_vars (set_data (d3_of te acc d VR AL VA) (put "vel_raw" (of_vecs vv) (data (d3_of te acc d VR AL VA))))
         (rotate_vars (d3_of te acc d VR AL VA) ++ ["vel_raw"%string]))))) = of_vecs (out_vel te d VR VA)) by congruence.
  unfold finished. cbv zeta. rewrite LV'. exact A6.
Qed.

Lemma frame_out te acc d VR AL VA : coord_sys (out_ds te acc d VR AL VA) = frame_name te.
Proof. reflexivity. Qed.
Lemma orientmat_out te acc d VR AL VA : orientmat (out_ds te acc d VR AL VA) = orientmat d.
Proof. reflexivity. Qed.
Lemma rv_out te acc d VR AL VA : rotate_vars (out_ds te acc d VR AL VA) =
  (rotate_vars d ++ ["velrot"; "velacc"; "acclow"]%string) ++ ["vel_raw"%string].
Proof. reflexivity. Qed.

(** ** going to earth afterwards *)
Lemma to_earth_step d : admissible Vector d -> coord_sys d = "inst"%string ->
  rotate2 d "earth" = Ok (relabel Vector "earth" (set_data d (iter_data (rotate_vars d) (zip_var (vec_fs false (orientmat d))) (data d)))).
Proof.
  intros A C. unfold rotate2. rewrite C.
  pose proof A as A'. apply adm_split in A'. destruct A' as (S & _).
  rewrite (check_i2h_ok Vector) by exact S. rewrite (proj1 (st_make _ _ S)).
  cbn [lower lower_ascii String.eqb rc_index].
  change (rot_loop 4 Vector false "earth" d = Ok (relabel Vector "earth"
     (set_data d (iter_data (rotate_vars d) (zip_var (vec_fs false (orientmat d))) (data d))))).
  cbn [rot_loop]. rewrite C. change (String.eqb (lower "inst") "earth") with false. cbv iota.
  rewrite (one_step_ok Vector d 1 false A); [|lia|exact C|discriminate]. reflexivity.
Qed.

Lemma ds_eq a b : make_model a = make_model b -> inst_model a = inst_model b -> coord_sys a = coord_sys b ->
  dir a = dir b -> dirIMU a = dirIMU b -> beam_labels a = beam_labels b -> orientation a = orientation b ->
  beam2inst a = beam2inst b -> orientmat a = orientmat b -> heading a = heading b -> inst2head a = inst2head b ->
  inst2head_was_set a = inst2head_was_set b -> principal_heading a = principal_heading b ->
  declination a = declination b -> rotate_vars a = rotate_vars b -> data a = data b -> a = b.
Proof. destruct a, b. cbn. intros; subst; reflexivity. Qed.

Lemma same_earth acc d VR AL VA : stage d acc VR AL VA ->
  rotate2 (out_ds false acc d VR AL VA) "earth" = Ok (out_ds true acc d VR AL VA).
Proof.
  intros S. rewrite (to_earth_step _ (out_adm false acc d VR AL VA S) eq_refl). f_equal.
  pose proof (sg_adm _ _ _ _ _ S) as A. pose proof (sg_plain _ _ _ _ _ S) as P.
  apply ds_eq; try reflexivity.
  - cbn. destruct (dirIMU d); reflexivity.
  - change (data (relabel ?a ?b (set_data ?c ?e))) with e.
    rewrite rv_out, orientmat_out.
    apply assoc_ext.
    + rewrite iter_data_keys, !out_keys by exact S. reflexivity.
    + rewrite iter_data_keys. apply (adm_keys _ _ (out_adm false acc d VR AL VA S)).
    + intros nm _. rewrite lookup_iter, !lookup_out by exact S. rewrite lookup_turned_false, (lookup_turned_true _ _ _ _ _ _ S).
      rewrite !count_app.
      assert (NR : forall n, In n ["velrot"; "velacc"; "acclow"; "vel_raw"]%string -> count n (rotate_vars d) = 0%nat).
      { intros n Hn. apply count_notin. apply new_not_rotated; assumption. }
      assert (OR : forall n, In n ["vel"; "accel"; "angrt"]%string -> count n (rotate_vars d) = 1%nat).
      { intros n Hn. apply count_one; [apply P|apply (pa_in _ P n Hn)]. }
      destruct (named d "vel" A P ltac:(simpl; tauto)) as (l & Hl & Vl & El).
      pose proof (adm_omat _ _ A) as HO.
      destruct (String.eqb_spec nm "vel") as [->|N1].
      { rewrite OR by (simpl; tauto).
        change (count "vel" ["velrot"; "velacc"; "acclow"]%string) with 0%nat.
        change (count "vel" ["vel_raw"]%string) with 0%nat. cbn [plus option_map Nat.iter nat_rect]. f_equal.
        rewrite fwd_of_vecs. f_equal. unfold out_vel. rewrite El.
        rewrite !turn_vadd; try assumption; try apply S; try (apply vadd_list); try apply S; try (apply turnback_list; apply S).
        rewrite turn_turnback by (assumption || apply S). reflexivity. }
      destruct (String.eqb_spec nm "vel_raw") as [->|N2].
      { rewrite NR by (simpl; tauto). change (count "vel_raw" ["velrot"; "velacc"; "acclow"]%string) with 0%nat.
        change (count "vel_raw" ["vel_raw"]%string) with 1%nat. cbn [plus option_map Nat.iter nat_rect].
        rewrite fwd_of_vecs. reflexivity. }
      rewrite (count_notin nm ["vel_raw"%string]) by (simpl; intuition congruence).
      destruct (String.eqb_spec nm "accel") as [->|N3].
      { rewrite OR by (simpl; tauto). change (count "accel" ["velrot"; "velacc"; "acclow"]%string) with 0%nat.
        cbn [String.eqb Ascii.eqb Bool.eqb].
        destruct (named d "accel" A P ltac:(simpl; tauto)) as (la & Hla & Vla & Ela). rewrite Hla.
        cbn [plus option_map Nat.iter nat_rect]. rewrite fwd_of_vecs. rewrite (sg_acc_eq _ _ _ _ _ S), Ela. reflexivity. }
      destruct (String.eqb_spec nm "velrot") as [->|N4].
      { rewrite NR by (simpl; tauto). change (count "velrot" ["velrot"; "velacc"; "acclow"]%string) with 1%nat.
        cbn [plus option_map Nat.iter nat_rect]. rewrite fwd_of_vecs. reflexivity. }
      destruct (String.eqb_spec nm "acclow") as [->|N5].
      { rewrite NR by (simpl; tauto). change (count "acclow" ["velrot"; "velacc"; "acclow"]%string) with 1%nat.
        cbn [plus option_map Nat.iter nat_rect]. rewrite fwd_of_vecs, turn_turnback by (assumption || apply S). reflexivity. }
      destruct (String.eqb_spec nm "velacc") as [->|N6].
      { rewrite NR by (simpl; tauto). change (count "velacc" ["velrot"; "velacc"; "acclow"]%string) with 1%nat.
        cbn [plus option_map Nat.iter nat_rect]. rewrite fwd_of_vecs, turn_turnback by (assumption || apply S). reflexivity. }
      rewrite (count_notin nm ["velrot"; "velacc"; "acclow"]%string) by (simpl; intuition congruence).
      rewrite !Nat.add_0_r. reflexivity.
Qed.

(** ** rotating to the instrument frame first *)
Definition widths (v : var) : list nat := map (@List.length vec) (cells v).
Definition same_layout (X Y : list (string * var)) : Prop :=
  forall nm, match lookup nm X, lookup nm Y with
             | None, None => True
             | Some v, Some w => widths v = widths w
             | _, _ => False
             end.

Lemma layout_refl X : same_layout X X.
Proof. intros nm. destruct (lookup nm X); [reflexivity|exact I]. Qed.
Lemma layout_trans X Y Z : same_layout X Y -> same_layout Y Z -> same_layout X Z.
Proof.
  intros H1 H2 nm. specialize (H1 nm). specialize (H2 nm).
  destruct (lookup nm X), (lookup nm Y), (lookup nm Z); try tauto. congruence.
Qed.

Lemma layout_iter names F X :
  (forall nm v k, In nm names -> lookup nm X = Some v -> widths (Nat.iter k F v) = widths v) ->
  same_layout X (iter_data names F X).
Proof.
  intros H nm. rewrite lookup_iter. destruct (lookup nm X) as [v|] eqn:E; [|exact I]. cbn [option_map].
  destruct (in_dec string_dec nm names) as [Hi|Hi]; [symmetry; apply (H nm); assumption|].
  rewrite count_notin by exact Hi. reflexivity.
Qed.

Lemma widths_map_cells f k v : widths (Nat.iter k (map_cells f) v) = widths v.
Proof.
  induction k as [|k IH]; [reflexivity|]. cbn [Nat.iter nat_rect]. rewrite <- IH. unfold widths. cbn [map_cells cells].
  rewrite map_map. apply map_ext. intros c. apply map_length.
Qed.

Lemma widths_zip fs v : List.length (cells v) = List.length fs -> widths (zip_var fs v) = widths v.
Proof.
  unfold widths, zip_var. cbn [cells]. generalize (cells v). clear v. induction fs as [|f fs IH]; intros [|x c] L; simpl in *; try lia; [reflexivity|].
  rewrite map_length, IH by lia. reflexivity.
Qed.

Lemma move_layout d low rev X : statics Vector d -> wfd Vector d X -> same_layout X (move Vector low rev d X).
Proof.
  intros S W.
  assert (B : forall r Y, same_layout Y (beam_data r d Y)) by (intros; apply layout_iter; intros; apply widths_map_cells).
  assert (H : forall r Y, same_layout Y (head_data r d Y)).
  { intros r Y. unfold head_data. destruct (inst2head d); [|apply layout_refl]. apply layout_iter; intros; apply widths_map_cells. }
  destruct low as [|[|low]]; cbn [move].
  - destruct rev; eapply layout_trans; [apply H|apply B|apply B|apply H].
  - apply layout_iter. intros nm v k Hn Hv.
    destruct (wfd_vars _ _ _ W nm Hn) as (w & Hw & Pw). rewrite Hv in Hw. injection Hw as ->.
    assert (K : okvar Vector (List.length (orientmat d)) (Nat.iter k (earthF Vector rev d) w) /\
                widths (Nat.iter k (earthF Vector rev d) w) = widths w); [|apply K].
    induction k as [|k [P E]]; [split; [exact Pw|reflexivity]|]. cbn [Nat.iter nat_rect].
    destruct (earthF_ok Vector d rev _ S P) as [[P1 P2] _]. split; [eapply okvar_shape; eassumption|].
    etransitivity; [|exact E]. rewrite vec_earthF. apply widths_zip. unfold vec_fs. rewrite map_length. apply P.
  - unfold prin_data. destruct (principal_heading d); [|apply layout_refl].
    apply layout_iter; intros; apply widths_map_cells.
Qed.

Lemma one_cell_widths v w : widths v = widths w -> one_cell v -> one_cell w.
Proof.
  unfold one_cell, widths. intros E H.
  assert (F : Forall (fun n => n = 1%nat) (map (@List.length vec) (cells w))).
  { rewrite <- E, Forall_map. exact H. }
  rewrite Forall_map in F. exact F.
Qed.

Lemma plain_layout d d' : plain_adv d -> rotate_vars d' = rotate_vars d -> same_layout (data d) (data d') -> plain_adv d'.
Proof.
  intros [P1 P2 P3] R L. constructor.
  - rewrite R. exact P1.
  - intros nm Hn. rewrite R. destruct (P2 nm Hn) as [Q1 Q2]. split; [exact Q1|]. intros w Hw.
    specialize (L nm). rewrite Hw in L. destruct (lookup nm (data d)) as [v|] eqn:E; [|contradiction].
    eapply one_cell_widths; [exact L|]. apply Q2. reflexivity.
  - intros nm Hn. specialize (L nm). rewrite (P3 nm Hn) in L. destruct (lookup nm (data d')); [contradiction|reflexivity].
Qed.

Lemma plain_rotate d out d' : admissible Vector d -> plain_adv d -> rotate2 d out = Ok d' -> plain_adv d'.
Proof.
  intros A P H. destruct (adm_index _ _ A) as (i & Hi & C).
  destruct (rotate2_inv Vector d i out d' A C Hi H) as (j & Hj & Ho & HC & ->).
  assert (S := proj1 (proj1 (adm_split _ _) A)).
  assert (W : wfd Vector d (data d)) by (apply adm_split in A; apply A).
  eapply plain_layout; [exact P|reflexivity|].
  apply (chain_rel Vector d 0 same_layout S); try lia.
  - apply layout_refl.
  - apply layout_trans.
  - intros. apply move_layout; assumption.
  - exact W.
Qed.

Lemma inst_first m d : admissible Vector (base m) -> plain_adv (base m) ->
  (if String.eqb (coord_sys (base m)) "inst" then inr (base m) else lift (rotate2 (base m) "inst")) = inr d ->
  rotate2 (base m) "inst" = Ok d /\ admissible Vector d /\ plain_adv d /\ coord_sys d = "inst"%string.
Proof.
  intros A P H. destruct (String.eqb_spec (coord_sys (base m)) "inst") as [C|C].
  - injection H as <-. split; [|auto].
    rewrite (rotate2_ok Vector (base m) 1 1 "inst" A C); try lia; try reflexivity.
    + rewrite goto_self; [reflexivity|exact A|exact C].
    + intros [E|E]; discriminate.
  - destruct (rotate2 (base m) "inst") as [d'|e d'] eqn:E; [|discriminate]. injection H as <-.
    split; [reflexivity|]. split; [apply (round_trip Vector (base m) "inst" d' A E)|].
    split; [eapply plain_rotate; eassumption|].
    destruct (adm_index _ _ A) as (i & Hi & Ci).
    destruct (rotate2_inv Vector (base m) i "inst" d' A Ci Hi E) as (j & Hj & Ho & HC & ->). symmetry; exact Ho.
Qed.

(** ** everything together *)
Lemma series_length i l : List.length (series i l) = List.length l. Proof. apply map_length. Qed.

Lemma head_list sp d hv VR : admissible Vector d -> plain_adv d -> head_velocity sp d hv = inr VR ->
  vec_list (List.length (orientmat d)) VR.
Proof.
  intros A P. destruct (named d "angrt" A P ltac:(simpl; tauto)) as (l & Hl & [Ll Fl] & El).
  unfold head_velocity. destruct hv as [v|]; [|discriminate]. rewrite El.
  assert (K : forall f, (forall w, is_vec 3 (f w)) -> vec_list (List.length (orientmat d)) (map f l)).
  { intros f Hf. split; [rewrite map_length; exact Ll|]. rewrite Forall_map. apply Forall_forall. intros; apply Hf. }
  destruct sp.
  - destruct (body2imu (make_model d)) as [e|b]; [discriminate|].
    destruct (inst2head d) as [rot|]; [|discriminate]. destruct (singular 3 (beam2inst d)); [discriminate|].
    cbv zeta. intros E.
    assert (E' : VR = map (fun w => separate1 (beam2inst d) rot (map (fun p => velrot1 (vsub p b) w) (probe_pos rot v))) l) by congruence.
    rewrite E'. apply K. intros w. unfold separate1, is_vec. rewrite mv_length, tr_length. reflexivity.
  - unfold calc_velrot. destruct (body2imu (make_model d)) as [e|b]; [discriminate|]. intros E.
    assert (E' : VR = map (velrot1 (vsub (firstn 3 v) b)) l) by congruence. rewrite E'. apply K. reflexivity.
Qed.

Lemma correct_stage lp aa av te sp m m' : keeps_length lp -> admissible Vector (base m) -> plain_adv (base m) ->
  correct_motion lp aa av te sp m = inr m' ->
  let ff := filt_freqs (accel_freq m) (vel_freq m) aa av in
  exists d n c0 c1 c2 VR,
    let acc := turn (orientmat d) (get "accel" d) in
    let one i := component_motion lp n (fst ff) (snd ff) (fs m) (series i acc) in
    let AL := zip3 (fst c0) (fst c1) (fst c2) in
    let VA := zip3 (snd c0) (snd c1) (snd c2) in
    rotate2 (base m) "inst" = Ok d /\
    check_duty_cycle (n_burst m) (interval m) (times m) = inr n /\
    one 0%nat = inr c0 /\ one 1%nat = inr c1 /\ one 2%nat = inr c2 /\
    head_velocity sp d (head_vec m) = inr VR /\
    stage d acc VR AL VA /\
    m' = after m (out_ds te acc d VR AL VA) (fst ff).
Proof.
  intros K A P H ff. destruct (correct_inv _ _ _ _ _ _ _ H) as (_ & d & acc & n & c0 & c1 & c2 & VR & d3 & vel & H1 & H2 & H3 & H4 & H5 & H6 & H7 & H8).
  destruct (inst_first m d A P H1) as (R & Ad & Pd & Cd).
  assert (Ea : acc = turn (orientmat d) (get "accel" d)).
  { unfold earth_accel in H2. rewrite Cd in H2. cbn [String.eqb Ascii.eqb Bool.eqb] in H2. unfold turn. congruence. }
  assert (Va : vec_list (List.length (orientmat d)) acc).
  { destruct (named d "accel" Ad Pd ltac:(simpl; tauto)) as (l & _ & Vl & El). rewrite Ea, El. apply turn_list. exact Vl. }
  cbv zeta in H4. fold ff in H4. destruct H4 as (E0 & E1 & E2).
  pose proof (duty_pos _ _ _ _ H3) as Np.
  assert (LL : forall i c, component_motion lp n (fst ff) (snd ff) (fs m) (series i acc) = inr c ->
     List.length (fst c) = List.length (orientmat d) /\ List.length (snd c) = List.length (orientmat d)).
  { intros i [lo ve] E. destruct (component_lengths lp n _ _ _ _ lo ve K E) as [L1 L2].
    rewrite series_length, (proj1 Va) in L1, L2. cbn [fst snd]. auto. }
  destruct (LL _ _ E0), (LL _ _ E1), (LL _ _ E2).
  assert (S : stage d acc VR (zip3 (fst c0) (fst c1) (fst c2)) (zip3 (snd c0) (snd c1) (snd c2))).
  { constructor; try assumption; try (apply zip3_list; assumption). eapply head_list; eassumption. }
  exists d, n, c0, c1, c2, VR. cbv zeta. rewrite <- Ea.
  repeat (split; [assumption|]).
  rewrite (turned_ok te acc d VR _ _ Ad Cd Va) in H6 by apply S.
  change (Ok (d3_of te acc d VR (zip3 (fst c0) (fst c1) (fst c2)) (zip3 (snd c0) (snd c1) (snd c2))) = Ok d3) in H6.
  assert (E3 : d3_of te acc d VR (zip3 (fst c0) (fst c1) (fst c2)) (zip3 (snd c0) (snd c1) (snd c2)) = d3) by congruence.
  rewrite <- E3 in H7, H8. rewrite (vel_in_d3 te acc d VR _ _ S) in H7.
  assert (E4 : vel = of_vecs (if te then turn (orientmat d) (get "vel" d) else get "vel" d)) by congruence.
  rewrite H8, E4. reflexivity.
Qed.

Lemma same_earth_both lp aa av sp m m1 m2 : keeps_length lp -> admissible Vector (base m) -> plain_adv (base m) ->
  correct_motion lp aa av true sp m = inr m1 -> correct_motion lp aa av false sp m = inr m2 ->
  rotate2 (base m2) "earth" = Ok (base m1).
Proof.
  intros K A P H1 H2.
  destruct (correct_stage _ _ _ _ _ _ _ K A P H1) as (d & n & c0 & c1 & c2 & VR & a1 & a2 & a3 & a4 & a5 & a6 & a7 & ->).
  destruct (correct_stage _ _ _ _ _ _ _ K A P H2) as (d' & n' & c0' & c1' & c2' & VR' & b1 & b2 & b3 & b4 & b5 & b6 & b7 & ->).
  assert (d' = d) by congruence. subst d'.
  assert (n' = n) by congruence. subst n'.
  assert (c0' = c0) by congruence. assert (c1' = c1) by congruence. assert (c2' = c2) by congruence.
  assert (VR' = VR) by congruence. subst c0' c1' c2' VR'.
  unfold after. cbn [base]. apply same_earth. exact a7.
Qed.

Lemma value_of_vecs d nm l k : lookup nm (data d) = Some (of_vecs l) -> value d nm k 0 = nth_error l k.
Proof.
  intros H. unfold value. rewrite H. unfold of_vecs. cbn [cells]. rewrite nth_error_map.
  destruct (nth_error l k); reflexivity.
Qed.

Lemma nth_vec3 T l k x : vec_list T l -> nth_error l k = Some x -> is_vec 3 x.
Proof. intros [_ F] H. rewrite Forall_forall in F. apply F. eapply nth_error_In; exact H. Qed.

Lemma nth_some {A} (l : list A) k : (k < List.length l)%nat -> exists x, nth_error l k = Some x.
Proof. intros H. destruct (nth_error l k) eqn:E; [eauto|]. apply nth_error_None in E. lia. Qed.

Lemma sum_rule lp aa av te sp m m' : keeps_length lp -> admissible Vector (base m) -> plain_adv (base m) ->
  correct_motion lp aa av te sp m = inr m' ->
  orientmat (base m') = orientmat (base m) /\
  forall k, (k < List.length (orientmat (base m)))%nat ->
  exists x r a, value (base m') "vel_raw" k 0 = Some x /\ value (base m') "velrot" k 0 = Some r /\
    value (base m') "velacc" k 0 = Some a /\ value (base m') "vel" k 0 = Some (plus3 x (plus3 r a)).
Proof.
  intros K A P H.
  destruct (correct_stage _ _ _ _ _ _ _ K A P H) as (d & n & c0 & c1 & c2 & VR & a1 & a2 & a3 & a4 & a5 & a6 & S & ->).
  set (acc := turn (orientmat d) (get "accel" d)) in *.
  set (AL := zip3 (fst c0) (fst c1) (fst c2)) in *. set (VA := zip3 (snd c0) (snd c1) (snd c2)) in *.
  assert (OM : orientmat (base m) = orientmat d).
  { destruct (adm_index _ _ A) as (i & Hi & C).
    destruct (rotate2_inv Vector (base m) i "inst" d A C Hi a1) as (j & Hj & Ho & HC & ->). reflexivity. }
  unfold after. cbn [base]. split; [rewrite orientmat_out; congruence|].
  intros k Hk. rewrite OM in Hk.
  destruct (named d "vel" (sg_adm _ _ _ _ _ S) (sg_plain _ _ _ _ _ S) ltac:(simpl; tauto)) as (l & Hl & Vl & El).
  pose proof (lookup_out "vel" te acc d VR AL VA S) as L1.
  pose proof (lookup_out "vel_raw" te acc d VR AL VA S) as L2.
  pose proof (lookup_out "velrot" te acc d VR AL VA S) as L3.
  pose proof (lookup_out "velacc" te acc d VR AL VA S) as L4.
  cbn [String.eqb Ascii.eqb Bool.eqb] in L1, L2, L3, L4.
  pose proof (sg_vr _ _ _ _ _ S) as V3. pose proof (sg_va _ _ _ _ _ S) as V4.
  destruct te.
  - rewrite (lookup_turned_true _ _ _ _ _ _ S) in L3. rewrite (lookup_turned_true _ _ _ _ _ _ S) in L4. cbn [String.eqb Ascii.eqb Bool.eqb] in L3, L4.
    pose proof (turn_list _ _ V3) as V3'. pose proof (turn_list _ _ Vl) as Vl'. rewrite El in L2.
    destruct (nth_some (turn (orientmat d) l) k) as (x & Hx); [rewrite (proj1 Vl'); exact Hk|].
    destruct (nth_some (turn (orientmat d) VR) k) as (r & Hr); [rewrite (proj1 V3'); exact Hk|].
    destruct (nth_some VA k) as (a & Ha); [rewrite (proj1 V4); exact Hk|].
    exists x, r, a. rewrite (value_of_vecs _ _ _ k L2), (value_of_vecs _ _ _ k L3), (value_of_vecs _ _ _ k L4), (value_of_vecs _ _ _ k L1).
    split; [exact Hx|]. split; [exact Hr|]. split; [exact Ha|].
    unfold out_vel. rewrite El. erewrite zipw_nth; [|exact Hx|eapply zipw_nth; [exact Hr|exact Ha]].
    pose proof (nth_vec3 _ _ _ _ Vl' Hx). pose proof (nth_vec3 _ _ _ _ V3' Hr). pose proof (nth_vec3 _ _ _ _ V4 Ha).
    rewrite (vadd_plus3 r a), vadd_plus3; try assumption; reflexivity.
  - rewrite lookup_turned_false in L3. rewrite lookup_turned_false in L4. cbn [String.eqb Ascii.eqb Bool.eqb] in L3, L4.
    pose proof (turnback_list _ _ V4) as V4'. rewrite El in L2.
    destruct (nth_some l k) as (x & Hx); [rewrite (proj1 Vl); exact Hk|].
    destruct (nth_some VR k) as (r & Hr); [rewrite (proj1 V3); exact Hk|].
    destruct (nth_some (turnback (orientmat d) VA) k) as (a & Ha); [rewrite (proj1 V4'); exact Hk|].
    exists x, r, a. rewrite (value_of_vecs _ _ _ k L2), (value_of_vecs _ _ _ k L3), (value_of_vecs _ _ _ k L4), (value_of_vecs _ _ _ k L1).
    split; [exact Hx|]. split; [exact Hr|]. split; [exact Ha|].
    unfold out_vel. rewrite El. erewrite zipw_nth; [|exact Hx|eapply zipw_nth; [exact Hr|exact Ha]].
    pose proof (nth_vec3 _ _ _ _ Vl Hx). pose proof (nth_vec3 _ _ _ _ V3 Hr). pose proof (nth_vec3 _ _ _ _ V4' Ha).
    rewrite (vadd_plus3 r a), vadd_plus3; try assumption; reflexivity.
Qed.

Lemma raw_rule lp aa av te sp m m' : keeps_length lp -> admissible Vector (base m) -> plain_adv (base m) ->
  correct_motion lp aa av te sp m = inr m' ->
  coord_sys (base m') = frame_name te /\ corrected m' = true /\ admissible Vector (base m') /\
  exists d', rotate2 (base m) (frame_name te) = Ok d' /\
    lookup "vel_raw" (data (base m')) = lookup "vel" (data d').
Proof.
  intros K A P H.
  destruct (correct_stage _ _ _ _ _ _ _ K A P H) as (d & n & c0 & c1 & c2 & VR & a1 & a2 & a3 & a4 & a5 & a6 & S & ->).
  set (acc := turn (orientmat d) (get "accel" d)) in *.
  unfold after. cbn [base corrected]. split; [reflexivity|]. split; [reflexivity|].
  split; [apply out_adm; exact S|].
  pose proof (sg_adm _ _ _ _ _ S) as Ad. pose proof (sg_plain _ _ _ _ _ S) as Pd.
  destruct (named d "vel" Ad Pd ltac:(simpl; tauto)) as (l & Hl & Vl & El).
  destruct te.
  - exists (relabel Vector "earth" (set_data d (iter_data (rotate_vars d) (zip_var (vec_fs false (orientmat d))) (data d)))).
    split.
    + eapply (route Vector (base m) "inst" d "earth"); [exact A|exact a1|].
      apply to_earth_step; [exact Ad|apply S].
    + rewrite lookup_out by exact S. cbn [String.eqb Ascii.eqb Bool.eqb].
      change (data (relabel ?a ?b (set_data ?c ?e))) with e. rewrite lookup_iter, Hl, El. cbn [option_map].
      rewrite count_one; [|apply Pd|apply (pa_in _ Pd); simpl; tauto]. cbn [Nat.iter nat_rect]. rewrite fwd_of_vecs. reflexivity.
  - exists d. split; [exact a1|]. rewrite lookup_out by exact S. cbn [String.eqb Ascii.eqb Bool.eqb]. rewrite Hl, El. reflexivity.
Qed.

Lemma once lp aa av te sp m m' lp' aa' av' te' sp' : keeps_length lp -> admissible Vector (base m) -> plain_adv (base m) ->
  correct_motion lp aa av te sp m = inr m' -> correct_motion lp' aa' av' te' sp' m' = inl AlreadyCorrected.
Proof.
  intros K A P H.
  destruct (correct_inv _ _ _ _ _ _ _ H) as ((i1 & i2 & i3 & i4 & i5 & i6 & i7) & _).
  destruct (correct_stage _ _ _ _ _ _ _ K A P H) as (d & n & c0 & c1 & c2 & VR & a1 & a2 & a3 & a4 & a5 & a6 & S & ->).
  pose proof (sg_adm _ _ _ _ _ S) as Ad. pose proof (sg_plain _ _ _ _ _ S) as Pd.
  set (acc := turn (orientmat d) (get "accel" d)) in *.
  unfold correct_motion. unfold after at 1 2 3 4 5 6 7 8. cbn [base accel_nan angrt_nan has_imu corrected].
  rewrite i2, i4.
  assert (HA : forall nm, In nm ["accel"; "angrt"]%string ->
     has nm (out_ds te acc d VR (zip3 (fst c0) (fst c1) (fst c2)) (zip3 (snd c0) (snd c1) (snd c2))) = true).
  { intros nm Hn. unfold has. rewrite lookup_out by exact S.
    destruct (named d nm Ad Pd ltac:(simpl in *; tauto)) as (l & Hl & _ & _).
    destruct te; [rewrite (lookup_turned_true _ _ _ _ _ _ S)|rewrite lookup_turned_false];
    destruct Hn as [<-|[<-|[]]]; cbn [String.eqb Ascii.eqb Bool.eqb]; rewrite ?Hl; reflexivity. }
  rewrite !HA by (simpl; tauto). cbn [negb]. rewrite orb_true_r. reflexivity.
Qed.

Lemma rejects lp aa av te sp m :
  corrected m = true \/ has "velrot" (base m) = true \/ accel_nan m = true \/ angrt_nan m = true \/
  has_imu m = false \/ has "accel" (base m) = false ->
  exists e, correct_motion lp aa av te sp m = inl e.
Proof.
  intros H. destruct (correct_motion lp aa av te sp m) as [e|m'] eqn:E; [eauto|].
  destruct (correct_inv _ _ _ _ _ _ _ E) as ((i1 & i2 & i3 & i4 & i5 & i6 & i7) & _).
  exfalso. destruct H as [H|[H|[H|[H|[H|H]]]]]; congruence.
Qed.

(** the head velocity and the measured rotation rate *)
Lemma velrot_rule lp aa av m m' : keeps_length lp -> admissible Vector (base m) -> plain_adv (base m) ->
  correct_motion lp aa av false false m = inr m' ->
  exists d hv, rotate2 (base m) "inst" = Ok d /\ head_vec m = Some hv /\
    forall k w, is_vec 3 hv -> value d "angrt" k 0 = Some w ->
      value (base m') "velrot" k 0 = Some (cross w (minus3 hv imu_position)).
Proof.
  intros K A P H.
  destruct (correct_stage _ _ _ _ _ _ _ K A P H) as (d & n & c0 & c1 & c2 & VR & a1 & a2 & a3 & a4 & a5 & a6 & S & ->).
  pose proof (sg_adm _ _ _ _ _ S) as Ad. pose proof (sg_plain _ _ _ _ _ S) as Pd.
  unfold head_velocity in a6. destruct (head_vec m) as [hv|]; [|discriminate].
  exists d, hv. split; [exact a1|]. split; [reflexivity|]. intros k w Hh Hw.
  destruct (named d "angrt" Ad Pd ltac:(simpl; tauto)) as (l & Hl & Vl & El).
  rewrite (value_of_vecs _ _ _ k Hl) in Hw. rewrite El in a6.
  unfold after. cbn [base].
  pose proof (lookup_out "velrot" false (turn (orientmat d) (get "accel" d)) d VR _ _ S) as L.
  rewrite lookup_turned_false in L. cbn [String.eqb Ascii.eqb Bool.eqb] in L. rewrite (value_of_vecs _ _ _ k L).
  assert (MK : body2imu (make_model d) = inr [635/100000; 635/100000; 14986/100000] \/ exists e, body2imu (make_model d) = inl e).
  { unfold body2imu. destruct (String.eqb _ _); eauto. }
  unfold calc_velrot in a6. destruct MK as [MK|(e & MK)]; rewrite MK in a6; [|discriminate].
  assert (E : VR = map (velrot1 (vsub (firstn 3 hv) [635/100000; 635/100000; 14986/100000])) l) by congruence.
  apply (velrot_cross [] l hv VR Hh); [rewrite E; reflexivity|exact Hw].
Qed.

(** success *)
Lemma component_ok lp fa fv s x : (forall o f sm y, exists z, lp o f sm y = Some z) -> keeps_length lp -> x <> [] ->
  exists c, component_motion lp None fa fv s x = inr c.
Proof.
  intros T K N. unfold component_motion. cbn [bursts map_opt].
  assert (E1 : exists low, low_accel lp fa s x = Some low).
  { unfold low_accel. destruct (Req_EM_T fa 0); [eauto|apply T]. }
  destruct E1 as (low & E1). rewrite E1. cbn [combine map_opt fst snd].
  assert (E2 : exists v, integrate lp fv s x low = Some v).
  { unfold integrate. destruct (Rlt_dec 0 fv); [|eauto]. destruct (T 2%nat fv s (cumtrapz (1/s) (sub_series x low))) as (z & ->). eauto. }
  destruct E2 as (v & E2). rewrite E2. cbn [concat]. rewrite !app_nil_r.
  rewrite (integrate_length lp fv s x low v K) by (try assumption; eapply low_length; eassumption).
  rewrite Nat.eqb_refl. eauto.
Qed.

Lemma succeeds lp aa av te m hv : (forall o f sm y, exists z, lp o f sm y = Some z) -> keeps_length lp ->
  admissible Vector (base m) -> plain_adv (base m) -> coord_sys (base m) = "inst"%string ->
  make_model (base m) = "nortek vector"%string -> orientmat (base m) <> [] ->
  has_imu m = true -> corrected m = false -> accel_nan m = false -> angrt_nan m = false ->
  n_burst m = None -> head_vec m = Some hv ->
  exists m', correct_motion lp aa av te false m = inr m'.
Proof.
  intros T K A P C MK NE H1 H2 H3 H4 H5 H6. unfold correct_motion.
  destruct (named (base m) "accel" A P ltac:(simpl; tauto)) as (la & La & Va & Ga).
  destruct (named (base m) "angrt" A P ltac:(simpl; tauto)) as (lw & Lw & Vw & Gw).
  destruct (named (base m) "vel" A P ltac:(simpl; tauto)) as (lv & Lv & Vv & Gv).
  assert (W : has "accel" (base m) = true) by (unfold has; rewrite La; reflexivity). rewrite W. clear W.
  assert (W : has "angrt" (base m) = true) by (unfold has; rewrite Lw; reflexivity). rewrite W. clear W.
  assert (W : has "velrot" (base m) = false).
  { unfold has. rewrite (pa_new _ P "velrot") by (simpl; tauto). reflexivity. } rewrite W. clear W.
  rewrite H1, H2, H3, H4. cbn [negb orb]. rewrite C, String.eqb_refl. cbn [andThen].
  assert (St := proj1 (proj1 (adm_split _ _) A)). rewrite (check_i2h_ok Vector) by exact St. cbv zeta.
  assert (EA : earth_accel (base m) = inr (turn (orientmat (base m)) la)).
  { unfold earth_accel. rewrite C, String.eqb_refl, Ga. reflexivity. }
  rewrite EA. cbn [andThen]. rewrite H5. cbn [check_duty_cycle andThen].
  pose proof (turn_list _ _ Va) as Vt.
  assert (NX : forall i, series i (turn (orientmat (base m)) la) <> []).
  { intros i E. apply (f_equal (@List.length R)) in E. rewrite series_length, (proj1 Vt) in E.
    destruct (orientmat (base m)); [congruence|discriminate]. }
  set (fa := fst (filt_freqs (accel_freq m) (vel_freq m) aa av)). set (fv := snd (filt_freqs (accel_freq m) (vel_freq m) aa av)).
  destruct (component_ok lp fa fv (fs m) _ T K (NX 0%nat)) as (c0 & E0). rewrite E0. cbn [andThen].
  destruct (component_ok lp fa fv (fs m) _ T K (NX 1%nat)) as (c1 & E1). rewrite E1. cbn [andThen].
  destruct (component_ok lp fa fv (fs m) _ T K (NX 2%nat)) as (c2 & E2). rewrite E2. cbn [andThen].
  assert (LL : forall i c, component_motion lp None fa fv (fs m) (series i (turn (orientmat (base m)) la)) = inr c ->
     List.length (fst c) = List.length (orientmat (base m)) /\ List.length (snd c) = List.length (orientmat (base m))).
  { intros i [lo ve] E. destruct (component_lengths lp None _ _ _ _ lo ve K E) as [L1 L2].
    rewrite series_length, (proj1 Vt) in L1, L2. cbn [fst snd]. split; [apply L2; discriminate|exact L1]. }
  destruct (LL _ _ E0), (LL _ _ E1), (LL _ _ E2).
  assert (EH : exists VR, head_velocity false (base m) (head_vec m) = inr VR).
  { rewrite H6. unfold head_velocity, calc_velrot. rewrite MK. cbn. eauto. }
  destruct EH as (VR & EH). rewrite EH. cbn [andThen].
  assert (S : stage (base m) (turn (orientmat (base m)) la) VR (zip3 (fst c0) (fst c1) (fst c2)) (zip3 (snd c0) (snd c1) (snd c2))).
  { constructor; try assumption; try (apply zip3_list; assumption); [rewrite Ga; reflexivity|]. eapply head_list; eassumption. }
  change (if te then _ else _) with
    (turned te (turn (orientmat (base m)) la) (added (base m) VR (zip3 (fst c0) (fst c1) (fst c2)) (zip3 (snd c0) (snd c1) (snd c2)))).
  rewrite (turned_ok te _ (base m) VR _ _ A C Vt) by apply S. cbn [lift andThen].
  pose proof (vel_in_d3 te _ _ _ _ _ S) as LV. unfold d3_of in LV. rewrite LV. eauto.
Qed.
