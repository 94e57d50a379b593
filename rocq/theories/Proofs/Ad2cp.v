(** AD2CP blocks, bit fields, [_collapse]. *)
From Coq Require Import String.
From Coq Require Import ZArith List Bool Lia.
From Verif.Model Require Import Nortek Ad2cp.
From Verif.Spec Require Import Nortek Ad2cp.
From Verif.Proofs Require Import Nortek.
Import ListNotations.
Open Scope Z_scope.

(** ** layouts *)
Lemma fN_prod f : fN f = prod (fshape f).
Proof. unfold fN. destruct (fshape f); reflexivity. Qed.
Lemma fcount_prod f : (0 < prod (fshape f))%nat -> fcount f = prod (fshape f).
Proof. intros H. unfold fcount. rewrite fN_prod. destruct (Nat.ltb_spec 1 (prod (fshape f))); lia. Qed.
Lemma le_bytes_length n : forall v, length (le_bytes n v) = n.
Proof. induction n as [|n IH]; intros v; [reflexivity|]. cbn. rewrite IH. reflexivity. Qed.
Lemma le_le_bytes n : forall v, le (le_bytes n v) = v mod 2 ^ (8 * Z.of_nat n).
Proof.
  induction n as [|n IH]; intros v.
  - cbn. rewrite Z.mod_1_r. reflexivity.
  - cbn [le_bytes le]. rewrite IH. replace (8 * Z.of_nat (S n)) with (8 + 8 * Z.of_nat n) by lia.
    rewrite Z.pow_add_r by lia. change (2 ^ 8) with 256. symmetry. apply Z.rem_mul_r; [lia|apply Z.pow_pos_nonneg; lia].
Qed.
Lemma value_bytes k v : in_range k v -> value k (le_bytes (ksize k) v) = v.
Proof.
  unfold in_range, value. rewrite le_le_bytes. set (w := 8 * Z.of_nat (ksize k)).
  assert (W : 8 <= w) by (unfold w; destruct k; cbn; lia).
  assert (P : 2 ^ w = 2 * 2 ^ (w - 1)) by (rewrite <- Z.pow_succ_r by lia; f_equal; lia).
  assert (Q : 0 < 2 ^ (w - 1)) by (apply Z.pow_pos_nonneg; lia).
  assert (D : 2 ^ w / 2 = 2 ^ (w - 1)) by (rewrite P, Z.mul_comm, Z.div_mul; lia). rewrite D.
  destruct (ksigned k); cbn [andb].
  - intros [A B]. destruct (Z.lt_ge_cases v 0) as [N|N].
    + assert (E : v mod 2 ^ w = v + 2 ^ w) by (rewrite <- (Z_mod_plus_full v 1), Z.mod_small by lia; lia). rewrite E.
      destruct (Z.leb_spec (2 ^ (w - 1)) (v + 2 ^ w)); lia.
    + rewrite Z.mod_small by lia. destruct (Z.leb_spec (2 ^ (w - 1)) v); lia.
  - intros H. apply Z.mod_small. exact H.
Qed.
Lemma firstn_exact {A} (a b : list A) : firstn (length a) (a ++ b) = a.
Proof. rewrite firstn_app, firstn_all, Nat.sub_diag, firstn_O, app_nil_r. reflexivity. Qed.
Lemma skipn_exact {A} (a b : list A) : skipn (length a) (a ++ b) = b.
Proof. rewrite skipn_app, skipn_all, Nat.sub_diag. reflexivity. Qed.
Lemma values_bytes k vs rest : Forall (in_range k) vs -> values k (length vs) (concat (map (le_bytes (ksize k)) vs) ++ rest) = vs.
Proof.
  intros H. induction H as [|v vs R H IH]; [reflexivity|]. cbn [map concat length values].
  rewrite <- app_assoc. pose proof (le_bytes_length (ksize k) v) as L.
  set (e := le_bytes (ksize k) v) in *. set (r := concat (map (le_bytes (ksize k)) vs) ++ rest) in *.
  replace (firstn (ksize k) (e ++ r)) with e by (rewrite <- L; symmetry; apply firstn_exact).
  replace (skipn (ksize k) (e ++ r)) with r by (rewrite <- L; symmetry; apply skipn_exact).
  rewrite IH. unfold e. rewrite value_bytes by exact R. reflexivity.
Qed.
Lemma enc_length k vs : length (concat (map (le_bytes (ksize k)) vs)) = (length vs * ksize k)%nat.
Proof. induction vs as [|v vs IH]; [reflexivity|]. cbn [map concat length]. rewrite app_length, le_bytes_length, IH. reflexivity. Qed.
Lemma holds_length l vals bs : holds l vals bs -> length bs = nbyte l.
Proof.
  induction 1 as [|f l vs vals sk bs P L R K H IH]; [reflexivity|].
  rewrite !app_length, enc_length, IH, K, L. unfold nbyte. cbn [map fold_right]. unfold fsize. rewrite fcount_prod by exact P. lia.
Qed.
Lemma holds_unpack l vals bs : holds l vals bs -> unpack l bs = concat vals /\ split_fields l (concat vals) = vals.
Proof.
  induction 1 as [|f l vs vals sk bs P L R K H IH]; [split; reflexivity|]. destruct IH as [I1 I2].
  cbn [unpack concat split_fields]. rewrite fN_prod, <- L, firstn_exact, skipn_exact, I2. split; [|reflexivity].
  rewrite fcount_prod by exact P. rewrite <- L. rewrite values_bytes by exact R. f_equal.
  assert (E : fsize f = length (concat (map (le_bytes (ksize (fkind f))) vs) ++ sk))
    by (unfold fsize; rewrite fcount_prod by exact P; rewrite app_length, enc_length, K, L; reflexivity).
  rewrite E, app_assoc, skipn_exact. exact I1.
Qed.
Lemma read_holds l vals bs rest : holds l vals bs -> read l CsNone (bs ++ rest) = Some (vals, rest).
Proof.
  intros H. unfold read. rewrite <- (holds_length l vals bs H), firstn_exact, skipn_exact, Nat.eqb_refl.
  destruct (holds_unpack l vals bs H) as [E1 E2]. cbn [cs_ok]. rewrite E1, E2. reflexivity.
Qed.
Lemma read_consumes l cs bs out rest : read l cs bs = Some (out, rest) ->
  exists block, bs = block ++ rest /\ length block = nbyte l /\ length out = length l.
Proof.
  unfold read. destruct (Nat.eqb_spec (length (firstn (nbyte l) bs)) (nbyte l)) as [E|]; [|discriminate].
  destruct (cs_ok _ _ _); [|discriminate]. intros H. injection H as <- <-. exists (firstn (nbyte l) bs).
  rewrite firstn_skipn. split; [reflexivity|]. split; [exact E|].
  generalize (unpack l (firstn (nbyte l) bs)). clear. induction l as [|f l IH]; intros d; [reflexivity|]. cbn. rewrite IH. reflexivity.
Qed.
Lemma unpack_length l : Forall (fun f => 0 < prod (fshape f))%nat l -> forall bs, length (unpack l bs) = fold_right Nat.add 0%nat (map (fun f => prod (fshape f)) l).
Proof.
  assert (V : forall k n bs, length (values k n bs) = n) by (intros k n; induction n as [|n IH]; intros bs; [reflexivity|cbn; rewrite IH; reflexivity]).
  induction 1 as [|f l P F IH]; intros bs; [reflexivity|]. cbn [unpack map fold_right]. rewrite app_length, V, IH, fcount_prod by exact P. reflexivity.
Qed.
Lemma split_shapes l : forall d, length d = fold_right Nat.add 0%nat (map (fun f => prod (fshape f)) l) ->
  map (@length Z) (split_fields l d) = map (fun f => prod (fshape f)) l.
Proof.
  induction l as [|f l IH]; intros d H; [reflexivity|]. cbn [map fold_right] in H. cbn [split_fields map]. rewrite fN_prod.
  rewrite firstn_length_le by lia. rewrite IH by (rewrite skipn_length; lia). reflexivity.
Qed.
Lemma read_shapes l cs bs out rest : Forall (fun f => 0 < prod (fshape f))%nat l -> read l cs bs = Some (out, rest) ->
  map (@length Z) out = map (fun f => prod (fshape f)) l.
Proof.
  intros F. unfold read. destruct (Nat.eqb_spec (length (firstn (nbyte l) bs)) (nbyte l)) as [E|]; [|discriminate].
  destruct (cs_ok _ _ _); [|discriminate]. intros H. injection H as <- <-. apply split_shapes. apply unpack_length. exact F.
Qed.
(** ** the checksum in the last word *)
Lemma holds_app l1 v1 b1 l2 v2 b2 : holds l1 v1 b1 -> holds l2 v2 b2 -> holds (l1 ++ l2) (v1 ++ v2) (b1 ++ b2).
Proof.
  induction 1 as [|f l vs vals sk bs P L R K H IH]; intros H2; [exact H2|]. cbn [app]. rewrite <- !app_assoc. constructor; auto.
Qed.
Lemma holds_word nm w : 0 <= w < 65536 -> holds [scalar nm U16] [[w]] (le_bytes 2 w).
Proof.
  intros H. replace (le_bytes 2 w) with (concat (map (le_bytes (ksize U16)) [w]) ++ [] ++ []) by (cbn; reflexivity).
  apply (holds_cons (scalar nm U16)); try reflexivity; [cbn; lia| |constructor].
  constructor; [unfold in_range; cbn; lia|constructor].
Qed.
Lemma word_le w : 0 <= w < 65536 -> words LE (le_bytes 2 w) = [w].
Proof.
  intros H. cbn [le_bytes words word]. f_equal. assert (D : w / 256 mod 256 = w / 256).
  { apply Z.mod_small. split; [apply Z.div_pos; lia|]. apply Z.div_lt_upper_bound; lia. }
  rewrite D. rewrite (Z.div_mod w 256) at 3 by lia. lia.
Qed.
Lemma last_concat (vals : list (list Z)) w : last (concat (vals ++ [[w]])) 0 = w.
Proof. rewrite concat_app. cbn. apply last_last. Qed.
Lemma read_checksum l nm vals bs w rest : holds l vals bs -> Nat.Even (length bs) -> 0 <= w < 65536 ->
  read (l ++ [scalar nm U16]) CsTrue (bs ++ le_bytes 2 w ++ rest) =
  (if w =? sum16 bs then Some (vals ++ [[w]], rest) else None).
Proof.
  intros H Ev W. pose proof (holds_app l vals bs _ _ _ H (holds_word nm w W)) as HH.
  unfold read. rewrite app_assoc. rewrite <- (holds_length _ _ _ HH), firstn_exact, skipn_exact, Nat.eqb_refl.
  destruct (holds_unpack _ _ _ HH) as [E1 E2]. rewrite E1, E2. cbn [cs_ok]. rewrite last_concat.
  assert (EV : Nat.even (length (bs ++ le_bytes 2 w)) = true).
  { rewrite app_length, le_bytes_length. apply Nat.even_spec. destruct Ev as [h Eh]. exists (S h). lia. }
  rewrite EV. cbn [andb]. rewrite words_app by exact Ev. rewrite word_le by exact W. rewrite total_app. cbn [total fold_right].
  unfold sum16, cs0. replace (total (words LE bs) + (w + 0) + (46476 - w)) with (46476 + total (words LE bs)) by lia.
  rewrite (Z.eqb_sym w). reflexivity.
Qed.
Lemma burst_any l bs : (nbyte l <= length bs)%nat -> exists out, read_burst l bs = Some (out, skipn (nbyte l) bs).
Proof.
  intros L. unfold read_burst, read. rewrite firstn_length_le by exact L. rewrite Nat.eqb_refl. cbn [cs_ok]. eexists. reflexivity.
Qed.
Lemma hdr_any b1 b2 b3 b4 b5 b6 b7 b8 b9 rest : read_hdr (165 :: b1 :: b2 :: b3 :: b4 :: b5 :: b6 :: b7 :: b8 :: b9 :: rest) =
  Some ([[165]; [value U8 [b1]]; [value U8 [b2]]; [value U8 [b3]]; [value U16 [b4; b5]]; [value U16 [b6; b7]]; [value U16 [b8; b9]]], rest).
Proof. reflexivity. Qed.

(** ** bits *)
Lemma bits_test d s t k : 0 <= s <= t -> 0 <= k -> Z.testbit (bits d s t) k = (k <? t - s) && Z.testbit d (s + k).
Proof.
  intros H K. unfold bits. rewrite Z.land_spec, Z.shiftr_spec by lia. rewrite <- (Z.ones_equiv (t - s)) || idtac.
  replace (2 ^ (t - s) - 1) with (Z.ones (t - s)) by (rewrite Z.ones_equiv; lia).
  destruct (Z.ltb_spec k (t - s)) as [L|L].
  - rewrite Z.ones_spec_low by lia. rewrite andb_true_r. cbn. f_equal. lia.
  - rewrite Z.ones_spec_high by lia. rewrite andb_false_r. reflexivity.
Qed.
Lemma bits_number d s t : 0 <= s <= t -> bits d s t = (d / 2 ^ s) mod 2 ^ (t - s).
Proof.
  intros H. unfold bits. replace (2 ^ (t - s) - 1) with (Z.ones (t - s)) by (rewrite Z.ones_equiv; lia).
  rewrite Z.land_ones by lia. rewrite Z.shiftr_div_pow2 by lia. reflexivity.
Qed.
Lemma bits_packed hi v lo s t : 0 <= s <= t -> 0 <= v < 2 ^ (t - s) -> 0 <= lo < 2 ^ s -> bits (hi * 2 ^ t + v * 2 ^ s + lo) s t = v.
Proof.
  intros H Hv Hl. rewrite bits_number by exact H.
  assert (P : 0 < 2 ^ s) by (apply Z.pow_pos_nonneg; lia).
  replace (hi * 2 ^ t + v * 2 ^ s + lo) with ((hi * 2 ^ (t - s) + v) * 2 ^ s + lo).
  - rewrite Z.div_add_l by lia. rewrite (Z.div_small lo) by lia. rewrite Z.add_0_r, Z.add_comm, Z.mod_add by (apply Z.pow_nonzero; lia).
    apply Z.mod_small. exact Hv.
  - rewrite Z.mul_add_distr_r, <- Z.mul_assoc, <- Z.pow_add_r by lia. replace (t - s + s) with t by lia. reflexivity.
Qed.
Lemma getbit_test v n : 0 <= n -> getbit v n = Z.testbit v n.
Proof.
  intros H. unfold getbit. change 1 with (Z.ones 1). rewrite Z.land_ones by lia. change (2 ^ 1) with 2.
  rewrite <- Z.bit0_mod, Z.shiftr_spec by lia. rewrite Z.add_0_l. destruct (Z.testbit v n); reflexivity.
Qed.
Lemma bit1_test v n : 0 <= n -> bit1 v n = Z.b2z (Z.testbit v n).
Proof.
  intros H. unfold bit1. rewrite bits_number by lia. replace (n + 1 - n) with 1 by lia. change (2 ^ 1) with 2.
  rewrite <- Z.shiftr_div_pow2, <- Z.bit0_mod, Z.shiftr_spec by lia. rewrite Z.add_0_l. reflexivity.
Qed.
Lemma beams_packed cells c nb id : 0 <= cells < 1024 -> 0 <= c < 4 -> id <> 28 -> id <> 26 -> id <> 31 ->
  beams_cy_int2dict (cells + 1024 * c + 4096 * nb) id =
  BeamsCy cells (Some (nth (Z.to_nat c) [ENU; XYZ; Beam; NoAxes] NoAxes)) (Some nb).
Proof.
  intros A B I1 I2 I3. unfold beams_cy_int2dict.
  destruct (Z.eqb_spec id 28); [congruence|]. destruct (Z.eqb_spec id 26); [congruence|]. destruct (Z.eqb_spec id 31); [congruence|]. cbn [orb].
  set (w := cells + 1024 * c + 4096 * nb).
  assert (E1 : Z.land w (2 ^ 10 - 1) = cells).
  { change (2 ^ 10 - 1) with (Z.ones 10). rewrite Z.land_ones by lia. change (2 ^ 10) with 1024.
    unfold w. replace (cells + 1024 * c + 4096 * nb) with (cells + (c + 4 * nb) * 1024) by lia. rewrite Z.mod_add by lia. apply Z.mod_small. lia. }
  assert (E2 : Z.land (Z.shiftr w 10) 3 = c).
  { change 3 with (Z.ones 2). rewrite Z.land_ones by lia. rewrite Z.shiftr_div_pow2 by lia. change (2 ^ 10) with 1024. change (2 ^ 2) with 4.
    unfold w. replace (cells + 1024 * c + 4096 * nb) with ((c + nb * 4) * 1024 + cells) by lia. rewrite Z.div_add_l by lia.
    rewrite (Z.div_small cells) by lia. rewrite Z.add_0_r, Z.mod_add by lia. apply Z.mod_small. lia. }
  assert (E3 : Z.shiftr w 12 = nb).
  { rewrite Z.shiftr_div_pow2 by lia. change (2 ^ 12) with 4096. unfold w.
    replace (cells + 1024 * c + 4096 * nb) with (nb * 4096 + (cells + 1024 * c)) by lia. rewrite Z.div_add_l by lia.
    rewrite (Z.div_small (cells + 1024 * c)) by lia. lia. }
  rewrite E1, E2, E3. reflexivity.
Qed.

(** ** collapse *)
Lemma count_occurrences vec x : count vec x = occurrences vec x.
Proof.
  unfold count, occurrences. induction vec as [|y vec IH]; [reflexivity|]. cbn. destruct (Z.eqb_spec x y) as [->|N].
  - destruct (Z.eq_dec y y); [|congruence]. cbn. rewrite IH. reflexivity.
  - destruct (Z.eq_dec y x); [congruence|]. exact IH.
Qed.
Lemma insert_In x l y : In y (insert x l) <-> y = x \/ In y l.
Proof.
  induction l as [|z l IH]; cbn; [intuition|]. destruct (Z.ltb_spec x z).
  - cbn. intuition.
  - destruct (Z.eqb_spec x z) as [->|].
    + cbn. intuition.
    + cbn. rewrite IH. intuition.
Qed.
Lemma unique_In vec y : In y (unique vec) <-> In y vec.
Proof.
  induction vec as [|x vec IH]; [reflexivity|]. cbn [unique fold_right]. fold (unique vec). rewrite insert_In, IH. cbn. intuition.
Qed.
Lemma uniform_spec vec : isuniform vec [] = true <-> vec <> [] /\ all_equal vec.
Proof.
  unfold isuniform, all_equal. destruct vec as [|x vec]; [split; [discriminate|intros [H _]; congruence]|].
  rewrite forallb_forall. split.
  - intros H. split; [discriminate|]. assert (E : forall y, In y (x :: vec) -> y = x).
    { intros y [->|Hy]; [reflexivity|]. apply H in Hy. apply Z.eqb_eq in Hy. congruence. }
    intros y z Hy Hz. rewrite (E y Hy), (E z Hz). reflexivity.
  - intros [_ H] y Hy. apply Z.eqb_eq. apply H; [left; reflexivity|right; exact Hy].
Qed.
Lemma argmax_spec f l : forall best, In (argmax_by f best l) (best :: l) /\ forall x, In x (best :: l) -> (f x <= f (argmax_by f best l))%nat.
Proof.
  induction l as [|x l IH]; intros best; cbn [argmax_by].
  - split; [left; reflexivity|]. intros x [<-|[]]. lia.
  - destruct (IH (if (f best <? f x)%nat then x else best)) as [I1 I2]. split.
    + destruct I1 as [E|I1]; [|right; right; exact I1]. rewrite <- E. destruct (f best <? f x)%nat; [right; left; reflexivity|left; reflexivity].
    + intros y Hy. destruct (Nat.ltb_spec (f best) (f x)) as [L|L].
      * destruct Hy as [<-|[<-|Hy]]; [|apply I2; left; reflexivity|apply I2; right; exact Hy].
        specialize (I2 x (or_introl eq_refl)). lia.
      * destruct Hy as [<-|[<-|Hy]]; [apply I2; left; reflexivity| |apply I2; right; exact Hy].
        specialize (I2 best (or_introl eq_refl)). lia.
Qed.
Lemma max_In x l : In (fold_right Z.max x l) (x :: l).
Proof.
  induction l as [|y l IH]; [left; reflexivity|]. cbn [fold_right]. destruct (Z.max_spec y (fold_right Z.max x l)) as [[_ ->]|[_ ->]].
  - destruct IH as [E|I]; [left; exact E|right; right; exact I].
  - right. left. reflexivity.
Qed.
Lemma collapse_uniform vec x exclude : In x vec -> all_equal vec -> collapse vec exclude = Some x.
Proof.
  intros I H. assert (U : isuniform vec [] = true) by (apply uniform_spec; split; [destruct vec; [destruct I|discriminate]|exact H]).
  unfold collapse. destruct vec as [|y vec]; [destruct I|]. rewrite U. f_equal. apply H; [left; reflexivity|exact I].
Qed.
Lemma zmem_In x l : zmem x l = true <-> In x l.
Proof.
  unfold zmem. rewrite existsb_exists. split; [intros (y & I & E); apply Z.eqb_eq in E; subst; exact I|intros I; exists x; split; [exact I|apply Z.eqb_refl]].
Qed.
Lemma filter_le_1 (l : list Z) p x y : (length (filter p l) <= 1)%nat -> In x (filter p l) -> In y (filter p l) -> x = y.
Proof. destruct (filter p l) as [|a [|b r]]; cbn; [intros _ []|intros _ [->|[]] [->|[]]; reflexivity|lia]. Qed.
Lemma insert_NoDup_sorted x l : NoDup l -> (forall a b l1 l2, l = l1 ++ a :: l2 -> In b l2 -> a < b) ->
  NoDup (insert x l) /\ (forall a b l1 l2, insert x l = l1 ++ a :: l2 -> In b l2 -> a < b).
Proof.
  induction l as [|z l IH]; intros ND S; cbn [insert].
  - split; [constructor; [intros []|constructor]|]. intros a b l1 l2 E I. destruct l1 as [|q [|]]; try discriminate. injection E as <- <-. destruct I.
  - inversion ND as [|? ? NI ND']; subst.
    assert (SZ : forall b, In b l -> z < b) by (intros b I; apply (S z b [] l eq_refl I)).
    assert (S' : forall a b l1 l2, l = l1 ++ a :: l2 -> In b l2 -> a < b) by (intros a b l1 l2 E I; apply (S a b (z :: l1) l2); [rewrite E; reflexivity|exact I]).
    destruct (Z.ltb_spec x z) as [L|L].
    + split.
      * constructor; [|exact ND]. intros [->|I]; [lia|]. specialize (SZ x I). lia.
      * intros a b l1 l2 E I. destruct l1 as [|q l1]; [injection E as <- <-; destruct I as [<-|I]; [exact L|specialize (SZ b I); lia]|].
        injection E as _ E. apply (S a b l1 l2 E I).
    + destruct (Z.eqb_spec x z) as [->|N]; [split; assumption|]. destruct (IH ND' S') as [I1 I2]. split.
      * constructor; [|exact I1]. rewrite insert_In. intros [->|I]; [lia|contradiction].
      * intros a b l1 l2 E I. destruct l1 as [|q l1].
        -- injection E as <- <-. apply insert_In in I. destruct I as [->|I]; [lia|apply SZ; exact I].
        -- injection E as _ E. apply (I2 a b l1 l2 E I).
Qed.
Lemma unique_NoDup vec : NoDup (unique vec).
Proof.
  assert (H : NoDup (unique vec) /\ (forall a b l1 l2, unique vec = l1 ++ a :: l2 -> In b l2 -> a < b)); [|apply H].
  induction vec as [|x vec IH]; [split; [constructor|intros a b [|] l2 E; discriminate]|].
  cbn [unique fold_right]. fold (unique vec). apply insert_NoDup_sorted; apply IH.
Qed.
Lemma excluded_uniform vec exclude x : exclude <> [] -> In x vec -> ~ In x exclude -> (forall y, In y vec -> In y exclude \/ y = x) -> collapse vec exclude = Some x.
Proof.
  intros NE I NI H. unfold collapse. destruct vec as [|y vec'] eqn:Ev; [destruct I|]. rewrite <- Ev in *.
  destruct (isuniform vec []) eqn:U.
  - apply uniform_spec in U. destruct U as [_ U]. f_equal. apply U; [rewrite Ev; left; reflexivity|exact I].
  - assert (F : forall z, In z (filter (fun x => negb (zmem x exclude)) (unique vec)) <-> z = x).
    { intros z. rewrite filter_In, unique_In, negb_true_iff. split.
      - intros [Iz Nz]. destruct (H z Iz) as [X|X]; [|exact X]. apply zmem_In in X. congruence.
      - intros ->. split; [exact I|]. destruct (zmem x exclude) eqn:Z; [|reflexivity]. apply zmem_In in Z. contradiction. }
    assert (ND : NoDup (filter (fun x => negb (zmem x exclude)) (unique vec))) by (apply NoDup_filter, unique_NoDup).
    unfold isuniform. destruct exclude as [|e0 es] eqn:Ee; [congruence|]. rewrite <- Ee in *.
    destruct (filter (fun x => negb (zmem x exclude)) (unique vec)) as [|a [|b r]].
    + exfalso. apply (proj2 (F x) eq_refl).
    + cbn. f_equal. apply F. left. reflexivity.
    + exfalso. assert (a = x) by (apply F; left; reflexivity). assert (b = x) by (apply F; right; left; reflexivity). subst a b.
      inversion ND as [|? ? N _]; subst. apply N. left. reflexivity.
Qed.
Lemma collapse_occurs vec exclude v : collapse vec exclude = Some v -> In v vec.
Proof.
  unfold collapse. destruct vec as [|x vec'] eqn:Ev; [discriminate|]. rewrite <- Ev.
  destruct (isuniform vec []); [intros H; injection H as <-; rewrite Ev; left; reflexivity|].
  destruct (isuniform vec exclude).
  - destruct (filter _ (unique vec)) as [|y l] eqn:F; [discriminate|]. intros H. injection H as <-.
    assert (I : In y (filter (fun x => negb (zmem x exclude)) (unique vec))) by (rewrite F; left; reflexivity).
    apply filter_In in I. apply unique_In. apply I.
  - destruct (unique vec) as [|u us] eqn:U; [discriminate|]. destruct (forallb _ _); intros H; injection H as <-.
    + destruct (max_In x vec) as [E|I]; [rewrite <- E; rewrite Ev; left; reflexivity|exact I].
    + apply unique_In. rewrite U. apply argmax_spec.
Qed.
Lemma collapse_mode vec exclude v : collapse vec exclude = Some v ->
  (exclude = [] \/ exists x y, In x vec /\ In y vec /\ x <> y /\ ~ In x exclude /\ ~ In y exclude) ->
  forall x, (occurrences vec x <= occurrences vec v)%nat.
Proof.
  intros C NU x. pose proof (collapse_occurs vec exclude v C) as Iv.
  destruct (in_dec Z.eq_dec x vec) as [Ix|Nx]; [|unfold occurrences; rewrite (proj1 (count_occ_not_In Z.eq_dec vec x) Nx); lia].
  rewrite <- !count_occurrences.
  unfold collapse in C. destruct vec as [|h vec'] eqn:Ev; [discriminate|]. rewrite <- Ev in *.
  destruct (isuniform vec []) eqn:U.
  - apply uniform_spec in U. destruct U as [_ U]. rewrite (U x v Ix Iv). lia.
  - assert (UE : isuniform vec exclude = false).
    { destruct exclude as [|e es] eqn:Ee; [exact U|]. rewrite <- Ee in *. destruct NU as [NU|(a & b & Ia & Ib & D & Na & Nb)]; [congruence|].
      unfold isuniform. rewrite Ee. rewrite <- Ee. apply Nat.leb_gt.
      destruct (Nat.le_gt_cases (length (filter (fun x => negb (zmem x exclude)) (unique vec))) 1) as [L|L]; [|exact L].
      exfalso. apply D. apply (filter_le_1 _ _ a b L); apply filter_In; (split; [apply unique_In; assumption|]);
        apply negb_true_iff; destruct (zmem _ exclude) eqn:Z; try reflexivity; apply zmem_In in Z; contradiction. }
    rewrite UE in C. destruct (unique vec) as [|u us] eqn:Un; [discriminate|].
    assert (Ux : In x (u :: us)) by (rewrite <- Un; apply unique_In; exact Ix).
    assert (Uv : In v (u :: us)) by (rewrite <- Un; apply unique_In; exact Iv).
    destruct (forallb _ _) eqn:F.
    + rewrite forallb_forall in F. pose proof (F x Ux) as E1. pose proof (F v Uv) as E2. apply Nat.eqb_eq in E1, E2. lia.
    + injection C as <-. apply argmax_spec. exact Ux.
Qed.
Lemma collapse_some vec : vec <> [] -> exists v, collapse vec [] = Some v.
Proof.
  intros N. unfold collapse. destruct vec as [|x vec'] eqn:Ev; [congruence|]. rewrite <- Ev.
  destruct (isuniform vec []); [eexists; reflexivity|].
  destruct (unique vec) as [|u us] eqn:U.
  - exfalso. assert (I : In x (unique vec)) by (apply unique_In; rewrite Ev; left; reflexivity). rewrite U in I. destruct I.
  - destruct (forallb _ _); eexists; reflexivity.
Qed.

(** ** raw altimeter pings *)
Definition alt_prefix (f : list (string * bool)) : layout :=
  burst_hdr ++
    (if flag f "le" then [scalar "le_dist_alt" F32; scalar "le_quality_alt" U16; scalar "status_alt" U16] else []) ++
    (if flag f "ast" then [scalar "ast_dist_alt" F32; scalar "ast_quality_alt" U16; scalar "ast_offset_time_alt" S16;
                           scalar "pressure_alt" F32; Field "spare" U8 7 []] else []) ++ [scalar "nsamp_alt" U32; scalar "dsamp_alt" U16]%string.
Lemma alt_layout config ahrs nb nc sz l : altimeter_only config ahrs -> calc_burst_struct config nb nc = Some l ->
  with_samples sz l = alt_prefix (headconfig config BurstMode) ++ [Field "samp_alt" S16 0 [sz]] ++ (if ahrs then ahrs_def else []).
Proof.
  unfold altimeter_only, calc_burst_struct, alt_prefix. intros (E1 & E2 & E3 & E4 & E5 & E6 & E7 & E8). rewrite E1, E2, E3, E4, E5, E6, E7, E8.
  intros H. match type of H with Some ?x = Some l => assert (E : l = x) by congruence end. rewrite E. clear.
  destruct (flag _ "le"), (flag _ "ast"), ahrs; reflexivity.
Qed.
Lemma alt_prefix_size f : exists q, fold_left native_end (alt_prefix f) 0%nat = (4 * q + 2)%nat /\ nbyte (alt_prefix f) = (4 * q + 2)%nat.
Proof.
  unfold alt_prefix. destruct (flag f "le"), (flag f "ast"); [exists 27%nat|exists 22%nat|exists 25%nat|exists 20%nat]; split; vm_compute; reflexivity.
Qed.
Lemma nbyte_app l1 l2 : nbyte (l1 ++ l2) = (nbyte l1 + nbyte l2)%nat.
Proof. unfold nbyte. induction l1 as [|f l1 IH]; [reflexivity|]. cbn [app map fold_right]. rewrite IH. lia. Qed.
Lemma align_even q k : align (2 * q) S16 = (2 * q)%nat /\ align (4 * k) F32 = (4 * k)%nat /\ align (4 * k + 2) F32 = (4 * k + 4)%nat.
Proof.
  unfold align. cbn [ksize]. repeat split.
  - replace (2 * q + 2 - 1)%nat with (q * 2 + 1)%nat by lia. rewrite Nat.div_add_l by lia. change (1 / 2)%nat with 0%nat. lia.
  - replace (4 * k + 4 - 1)%nat with (k * 4 + 3)%nat by lia. rewrite Nat.div_add_l by lia. change (3 / 4)%nat with 0%nat. lia.
  - replace (4 * k + 2 + 4 - 1)%nat with ((k + 1) * 4 + 1)%nat by lia. rewrite Nat.div_add_l by lia. change (1 / 4)%nat with 0%nat. lia.
Qed.
Lemma samp_count sz : (0 < sz)%nat -> fcount (Field "samp_alt" S16 0 [sz]) = sz.
Proof. intros H. rewrite fcount_prod; cbn; lia. Qed.
Lemma ahrs_aligned p : fold_left native_end ahrs_def p = (align (align (align p F32 + 36) F32 + 16) F32 + 12)%nat.
Proof.
  unfold ahrs_def. cbn [fold_left]. unfold native_end. cbn [fkind fskip ksize].
  change (fcount (Field "orientmat" F32 0 [3%nat; 3%nat])) with 9%nat. change (fcount (Field "quaternions" F32 0 [4%nat])) with 4%nat.
  change (fcount (Field "angrt" F32 0 [3%nat])) with 3%nat. rewrite !Nat.add_0_r. reflexivity.
Qed.
Lemma ahrs_native k : fold_left native_end ahrs_def (4 * k)%nat = (4 * k + 64)%nat /\ fold_left native_end ahrs_def (4 * k + 2)%nat = (4 * k + 68)%nat.
Proof.
  rewrite !ahrs_aligned. split.
  - rewrite (proj1 (proj2 (align_even 0 k))).
    replace (4 * k + 36)%nat with (4 * (k + 9))%nat by lia. rewrite (proj1 (proj2 (align_even 0 (k + 9)))).
    replace (4 * (k + 9) + 16)%nat with (4 * (k + 13))%nat by lia. rewrite (proj1 (proj2 (align_even 0 (k + 13)))). lia.
  - rewrite (proj2 (proj2 (align_even 0 k))).
    replace (4 * k + 4 + 36)%nat with (4 * (k + 10))%nat by lia. rewrite (proj1 (proj2 (align_even 0 (k + 10)))).
    replace (4 * (k + 10) + 16)%nat with (4 * (k + 14))%nat by lia. rewrite (proj1 (proj2 (align_even 0 (k + 14)))). lia.
Qed.
Lemma alt_native config ahrs nb nc sz l : altimeter_only config ahrs -> calc_burst_struct config nb nc = Some l -> (0 < sz)%nat ->
  calcsize_native (with_samples sz l) = (nbyte (with_samples sz l) + (if ahrs then if Nat.even sz then 2 else 0 else 0))%nat.
Proof.
  intros A C P. rewrite (alt_layout config ahrs nb nc sz l A C). unfold calcsize_native. rewrite !fold_left_app, !nbyte_app.
  destruct (alt_prefix_size (headconfig config BurstMode)) as (q & -> & ->).
  assert (N : nbyte [Field "samp_alt" S16 0 [sz]] = (2 * sz)%nat).
  { unfold nbyte. cbn [map fold_right]. unfold fsize. rewrite samp_count by exact P. cbn. lia. }
  rewrite N. cbn [fold_left]. unfold native_end at 2. rewrite samp_count by exact P. cbn [fkind fskip ksize].
  replace (4 * q + 2)%nat with (2 * (2 * q + 1))%nat by lia. rewrite (proj1 (align_even (2 * q + 1) 0)).
  destruct ahrs; [|cbn; lia]. destruct (Nat.even sz) eqn:E.
  - apply Nat.even_spec in E. destruct E as [h ->].
    replace (2 * (2 * q + 1) + 2 * h * 2 + 0)%nat with (4 * (q + h) + 2)%nat by lia. rewrite (proj2 (ahrs_native (q + h))).
    replace (nbyte ahrs_def) with 64%nat by reflexivity. lia.
  - assert (O : Nat.odd sz = true) by (unfold Nat.odd; rewrite E; reflexivity). apply Nat.odd_spec in O. destruct O as [h ->].
    replace (2 * (2 * q + 1) + (2 * h + 1) * 2 + 0)%nat with (4 * (q + h + 1))%nat by lia. rewrite (proj1 (ahrs_native (q + h + 1))).
    replace (nbyte ahrs_def) with 64%nat by reflexivity. lia.
Qed.
Lemma altraw_works config ahrs nb nc sz l bs : altimeter_only config ahrs -> calc_burst_struct config nb nc = Some l -> (0 < sz)%nat ->
  (ahrs = false \/ Nat.even sz = false) -> altraw_read sz l bs = read (with_samples sz l) CsNone bs.
Proof.
  intros A C P D. pose proof (alt_native config ahrs nb nc sz l A C P) as E.
  assert (E' : calcsize_native (with_samples sz l) = nbyte (with_samples sz l)) by (destruct D as [D|D]; rewrite D in E; destruct ahrs; lia).
  unfold altraw_read, read. cbn zeta. rewrite E'.
  destruct (Nat.eqb (length (firstn (nbyte (with_samples sz l)) bs)) (nbyte (with_samples sz l))); reflexivity.
Qed.
Lemma altraw_fails config nb nc sz l bs : altimeter_only config true -> calc_burst_struct config nb nc = Some l -> (0 < sz)%nat ->
  Nat.even sz = true -> altraw_read sz l bs = None.
Proof.
  intros A C P E. pose proof (alt_native config true nb nc sz l A C P) as N. rewrite E in N.
  unfold altraw_read. cbn zeta. destruct (Nat.eqb_spec (length (firstn (calcsize_native (with_samples sz l)) bs)) (calcsize_native (with_samples sz l))) as [L|]; [|reflexivity].
  destruct (Nat.eqb_spec (length (firstn (calcsize_native (with_samples sz l)) bs)) (nbyte (with_samples sz l))) as [M|]; [|reflexivity]. lia.
Qed.

(** ** every block of bytes is the encoding of what is read from it *)
Lemma le_bytes_plus n : forall v k, le_bytes n (v + k * 2 ^ (8 * Z.of_nat n)) = le_bytes n v.
Proof.
  induction n as [|n IH]; intros v k; [reflexivity|]. cbn [le_bytes]. replace (8 * Z.of_nat (S n)) with (8 + 8 * Z.of_nat n) by lia.
  rewrite Z.pow_add_r by lia. change (2 ^ 8) with 256. replace (v + k * (256 * 2 ^ (8 * Z.of_nat n))) with (v + (k * 2 ^ (8 * Z.of_nat n)) * 256) by lia.
  rewrite Z.mod_add by lia. rewrite Z.div_add by lia. rewrite IH. reflexivity.
Qed.
Lemma le_bytes_le bs : all_bytes bs -> le_bytes (length bs) (le bs) = bs.
Proof.
  induction 1 as [|b bs B H IH]; [reflexivity|]. cbn [length le le_bytes].
  replace (b + 256 * le bs) with (b + le bs * 256) by lia. rewrite Z.mod_add, Z.mod_small by lia. rewrite Z.div_add by lia. rewrite (Z.div_small b) by lia.
  rewrite Z.add_0_l, IH. reflexivity.
Qed.
Lemma le_range bs : all_bytes bs -> 0 <= le bs < 2 ^ (8 * Z.of_nat (length bs)).
Proof.
  induction 1 as [|b bs B H IH]; [cbn; lia|]. cbn [length le]. replace (8 * Z.of_nat (S (length bs))) with (8 + 8 * Z.of_nat (length bs)) by lia.
  rewrite Z.pow_add_r by lia. change (2 ^ 8) with 256. lia.
Qed.
Lemma bytes_value k bs : all_bytes bs -> length bs = ksize k -> le_bytes (ksize k) (value k bs) = bs /\ in_range k (value k bs).
Proof.
  intros B L. pose proof (le_range bs B) as R. rewrite L in R. unfold value, in_range. set (w := 8 * Z.of_nat (ksize k)) in *.
  assert (W : 8 <= w) by (unfold w; destruct k; cbn; lia).
  assert (P : 2 ^ w = 2 * 2 ^ (w - 1)) by (rewrite <- Z.pow_succ_r by lia; f_equal; lia).
  assert (D : 2 ^ w / 2 = 2 ^ (w - 1)) by (rewrite P, Z.mul_comm, Z.div_mul; lia). rewrite D.
  assert (E : le_bytes (ksize k) (le bs) = bs) by (rewrite <- L; apply le_bytes_le, B).
  destruct (ksigned k); cbn [andb]; [|split; [exact E|exact R]].
  destruct (Z.leb_spec (2 ^ (w - 1)) (le bs)).
  - split; [|lia]. replace (le bs - 2 ^ w) with (le bs + -1 * 2 ^ w) by lia. unfold w. rewrite le_bytes_plus. exact E.
  - split; [exact E|lia].
Qed.
Lemma all_firstn n bs : all_bytes bs -> all_bytes (firstn n bs).
Proof. intros H. revert n. induction H as [|b bs B H IH]; intros [|n]; cbn; constructor; try exact B; try apply IH. Qed.
Lemma all_skipn n bs : all_bytes bs -> all_bytes (skipn n bs).
Proof. intros H. revert n. induction H as [|b bs B H IH]; intros [|n]; cbn; try constructor; auto. Qed.
Lemma bytes_values k n : forall bs, all_bytes bs -> (n * ksize k <= length bs)%nat ->
  concat (map (le_bytes (ksize k)) (values k n bs)) = firstn (n * ksize k) bs /\ Forall (in_range k) (values k n bs) /\ length (values k n bs) = n.
Proof.
  induction n as [|n IH]; intros bs B L; [repeat split; constructor|]. cbn [values map concat Nat.mul length].
  cbn [Nat.mul] in L. destruct (bytes_value k (firstn (ksize k) bs)) as [E1 E2]; [apply all_firstn, B|apply firstn_length_le; lia|].
  destruct (IH (skipn (ksize k) bs)) as (I1 & I2 & I3); [apply all_skipn, B|rewrite skipn_length; lia|].
  rewrite E1, I1, I3. split; [|split; [constructor; assumption|reflexivity]].
  rewrite <- (firstn_skipn (ksize k) bs) at 3. rewrite firstn_app, firstn_length_le by lia.
  rewrite (firstn_all2 (firstn (ksize k) bs)) by (rewrite firstn_length; lia). f_equal. f_equal. lia.
Qed.
Lemma holds_any l : Forall (fun f => 0 < prod (fshape f))%nat l -> forall bs, all_bytes bs -> length bs = nbyte l ->
  holds l (split_fields l (unpack l bs)) bs.
Proof.
  induction 1 as [|f l P H IH]; intros bs B L.
  - destruct bs; [constructor|discriminate].
  - assert (LN : length bs = (fsize f + nbyte l)%nat) by exact L. pose proof (fcount_prod f P) as FC. unfold fsize in LN.
    destruct (bytes_values (fkind f) (fcount f) bs B) as (E1 & E2 & E3); [lia|].
    cbn [unpack split_fields]. rewrite fN_prod, <- FC, <- E3 at 1. rewrite firstn_exact.
    replace (fN f) with (length (values (fkind f) (fcount f) bs)) by (rewrite E3, fN_prod; exact FC). rewrite skipn_exact.
    set (vs := values (fkind f) (fcount f) bs) in *.
    assert (EB : bs = concat (map (le_bytes (ksize (fkind f))) vs) ++ firstn (fskip f) (skipn (fcount f * ksize (fkind f)) bs) ++ skipn (fsize f) bs).
    { rewrite E1. rewrite <- (firstn_skipn (fcount f * ksize (fkind f)) bs) at 1. f_equal. set (r := skipn (fcount f * ksize (fkind f)) bs).
      rewrite <- (firstn_skipn (fskip f) r) at 1. f_equal. unfold r, fsize. clear. generalize (fcount f * ksize (fkind f))%nat. intros a. revert a.
      induction bs as [|x bs IH]; intros a; [rewrite !skipn_nil; reflexivity|]. destruct a; [reflexivity|]. cbn [skipn Nat.add]. apply IH. }
    rewrite EB at 2. apply holds_cons.
    + exact P.
    + rewrite E3. exact FC.
    + exact E2.
    + apply firstn_length_le. rewrite skipn_length. lia.
    + apply IH; [apply all_skipn, B|]. rewrite skipn_length. unfold fsize. lia.
Qed.
