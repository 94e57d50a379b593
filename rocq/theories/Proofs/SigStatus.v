(** Proofs for the status variables of Signature datasets. *)
From Coq Require Import String.
From Coq Require Import ZArith List Bool Lia.
From Verif.Model Require Import Ad2cp SigStatus.
From Verif.Spec Require Ad2cp.
From Verif.Spec Require Import SigStatus.
From Verif.Proofs Require Ad2cp.
Import ListNotations.
Open Scope Z_scope.

Lemma bit_flag v n : 0 <= n -> bit1 v n = flag v n.
Proof. intros H. rewrite Ad2cp.bit1_test by exact H. unfold flag. destruct (Z.testbit v n); reflexivity. Qed.
Lemma entry_flag v nm b : In (nm, b) status_bits -> entry (status2data v) nm = flag v b.
Proof.
  intros I. unfold status_bits in I. cbn [In] in I. repeat (destruct I as [I|I]; [injection I as <- <-; rewrite <- bit_flag by lia; reflexivity|]). destruct I.
Qed.
Lemma vars_names status : map fst (status_vars status) = map fst status_bits.
Proof. reflexivity. Qed.
Lemma vars_column status nm b : In (nm, b) status_bits -> In (nm, map (fun v => flag v b) status) (status_vars status).
Proof.
  intros I. unfold status_vars. apply in_map_iff. exists nm. split.
  - f_equal. apply map_ext. intros v. apply entry_flag. exact I.
  - unfold status_bits in I. cbn [In] in *. repeat (destruct I as [I|I]; [injection I as <- _; tauto|]). destruct I.
Qed.

Lemma ones words b : Ad2cp.occurrences (map (fun v => flag v b) words) 1 = how_many words b.
Proof.
  induction words as [|v r IH]; [reflexivity|]. cbn [map how_many]. unfold Ad2cp.occurrences in *. cbn [count_occ].
  destruct (Z.eq_dec (flag v b) 1) as [E|E]; unfold flag in E; destruct (Z.testbit v b); try congruence; rewrite IH; reflexivity.
Qed.
Lemma zeros words b : (Ad2cp.occurrences (map (fun v => flag v b) words) 0 + how_many words b)%nat = length words.
Proof.
  induction words as [|v r IH]; [reflexivity|]. cbn [map how_many length]. unfold Ad2cp.occurrences in *. cbn [count_occ].
  destruct (Z.eq_dec (flag v b) 0) as [E|E]; unfold flag in E; destruct (Z.testbit v b); try congruence; lia.
Qed.
Lemma flag_cases v b : flag v b = 0 \/ flag v b = 1.
Proof. unfold flag. destruct (Z.testbit v b); tauto. Qed.
Lemma max_ge x l y : In y l -> y <= fold_right Z.max x l.
Proof. induction l as [|z l IH]; [intros []|]. cbn [fold_right]. intros [->|I]; [lia|]. specialize (IH I). lia. Qed.
(** 0 is chosen only if it is strictly more frequent *)
Lemma zero_chosen vec : (forall x, In x vec -> x = 0 \/ x = 1) -> collapse vec [] = Some 0 -> (Ad2cp.occurrences vec 1 < Ad2cp.occurrences vec 0)%nat.
Proof.
  intros B C. pose proof (Ad2cp.collapse_occurs _ _ _ C) as I0. pose proof (Ad2cp.collapse_mode _ _ _ C (or_introl eq_refl) 1) as M.
  destruct (Nat.eq_dec (Ad2cp.occurrences vec 1) (Ad2cp.occurrences vec 0)) as [E|N]; [exfalso|lia].
  assert (I1 : In 1 vec).
  { apply (count_occ_In Z.eq_dec). unfold Ad2cp.occurrences in E. rewrite E. apply (count_occ_In Z.eq_dec). exact I0. }
  unfold collapse in C. destruct vec as [|x vec'] eqn:Ev; [discriminate|]. rewrite <- Ev in *.
  destruct (isuniform vec []) eqn:U.
  { apply Ad2cp.uniform_spec in U. destruct U as [_ U]. specialize (U 0 1 I0 I1). discriminate. }
  destruct (unique vec) as [|u us] eqn:Un; [discriminate|].
  assert (F : forallb (fun e => Nat.eqb (count vec e) (count vec u)) (u :: us) = true).
  { apply forallb_forall. intros e He. apply Nat.eqb_eq. rewrite !Ad2cp.count_occurrences.
    assert (Bu : u = 0 \/ u = 1) by (apply B, Ad2cp.unique_In; rewrite Un; left; reflexivity).
    assert (Be : e = 0 \/ e = 1) by (apply B, Ad2cp.unique_In; rewrite Un; exact He).
    destruct Bu as [-> | ->], Be as [-> | ->]; lia. }
  rewrite F in C. assert (Z0 : fold_right Z.max x vec = 0) by congruence. pose proof (max_ge x vec 1 I1). lia.
Qed.
Lemma majority words b : words <> [] ->
  collapse (map (fun v => flag v b) words) [] = Some (if (length words <=? 2 * how_many words b)%nat then 1 else 0).
Proof.
  intros N. set (vec := map (fun v => flag v b) words).
  assert (B : forall x, In x vec -> x = 0 \/ x = 1).
  { intros x I. apply in_map_iff in I as (v & <- & _). apply flag_cases. }
  destruct (Ad2cp.collapse_some vec) as (c & C); [unfold vec; destruct words; [congruence|discriminate]|].
  rewrite C. f_equal. pose proof (ones words b) as O1. pose proof (zeros words b) as O0. fold vec in O1, O0.
  destruct (B c (Ad2cp.collapse_occurs _ _ _ C)) as [-> | ->].
  - pose proof (zero_chosen vec B C) as S. destruct (Nat.leb_spec (length words) (2 * how_many words b)); [lia|reflexivity].
  - pose proof (Ad2cp.collapse_mode _ _ _ C (or_introl eq_refl) 0) as M. destruct (Nat.leb_spec (length words) (2 * how_many words b)); [reflexivity|lia].
Qed.
Lemma used_spec val : existsb (fun v => negb (bit1 v 15 =? 0)) val = true <-> exists v, In v val /\ in_use v.
Proof.
  rewrite existsb_exists. unfold in_use. split; intros (v & I & H); exists v; (split; [exact I|]); rewrite bit_flag in * by lia; unfold flag in *; destruct (Z.testbit v 15); try reflexivity; discriminate.
Qed.
Definition shown (val : list Z) (p : string * Z) : string * Z := (fst p, if (length val <=? 2 * how_many val (snd p))%nat then 1 else 0).
Lemma used_attrs val : (exists v, In v val /\ in_use v) -> collapse_all (status02data val) = Some (map (shown val) idle_bits).
Proof.
  intros U. assert (N : val <> []) by (destruct U as (v & I & _); destruct val; [destruct I|discriminate]).
  apply used_spec in U. unfold status02data. rewrite U.
  assert (M : forall b, 0 <= b -> collapse (map (fun v => bit1 v b) val) [] = Some (if (length val <=? 2 * how_many val b)%nat then 1 else 0)).
  { intros b H. rewrite <- (majority val b N). f_equal. apply map_ext. intros v. apply bit_flag. exact H. }
  cbn [collapse_all]. rewrite !M by lia. reflexivity.
Qed.
Lemma unused_attrs val : (forall v, In v val -> ~ in_use v) -> collapse_all (status02data val) = Some [].
Proof.
  intros U. unfold status02data. destruct (existsb _ val) eqn:E; [|reflexivity]. apply used_spec in E as (v & I & H). destruct (U v I H).
Qed.
Lemma used_or_not val : (exists v, In v val /\ in_use v) \/ (forall v, In v val -> ~ in_use v).
Proof.
  destruct (existsb (fun v => negb (bit1 v 15 =? 0)) val) eqn:E; [left; apply used_spec; exact E|right].
  intros v I H. assert (X : existsb (fun v => negb (bit1 v 15 =? 0)) val = true) by (apply used_spec; exists v; split; assumption). congruence.
Qed.
Lemma read_total status0 status : exists a, read_status status0 status = Some (status_vars status, a).
Proof.
  unfold read_status. destruct (used_or_not status0) as [U|U]; [rewrite used_attrs by exact U|rewrite unused_attrs by exact U]; eexists; reflexivity.
Qed.
Lemma read_vars status0 status vars a : read_status status0 status = Some (vars, a) -> vars = status_vars status.
Proof. destruct (read_total status0 status) as (a' & E). rewrite E. congruence. Qed.
Lemma read_used status0 status vars a : read_status status0 status = Some (vars, a) -> (exists v, In v status0 /\ in_use v) -> a = map (shown status0) idle_bits.
Proof. unfold read_status. intros R U. rewrite used_attrs in R by exact U. congruence. Qed.
Lemma read_unused status0 status vars a : read_status status0 status = Some (vars, a) -> (forall v, In v status0 -> ~ in_use v) -> a = [].
Proof. unfold read_status. intros R U. rewrite unused_attrs in R by exact U. congruence. Qed.
Lemma variables status0 status vars a : read_status status0 status = Some (vars, a) -> map fst vars = map fst status_bits /\
  forall nm b, In (nm, b) status_bits -> exists col, In (nm, col) vars /\ length col = length status /\
    forall k v, nth_error status k = Some v -> nth_error col k = Some (flag v b).
Proof.
  intros R. rewrite (read_vars _ _ _ _ R). split; [reflexivity|]. intros nm b I. exists (map (fun v => flag v b) status). split; [apply vars_column; exact I|].
  split; [apply map_length|]. intros k v H. rewrite nth_error_map, H. reflexivity.
Qed.
Lemma how_many_all words b f : (forall v, In v words -> flag v b = f) -> how_many words b = if f =? 1 then length words else O.
Proof.
  induction words as [|v r IH]; intros H; [destruct (f =? 1); reflexivity|].
  pose proof (H v (or_introl eq_refl)) as E. rewrite <- E in *. cbn [how_many length]. rewrite IH by (intros w I; apply H; right; exact I).
  unfold flag. destruct (Z.testbit v b); reflexivity.
Qed.
Lemma idle status0 status vars a : read_status status0 status = Some (vars, a) ->
  ((forall v, In v status0 -> ~ in_use v) -> a = []) /\
  ((exists v, In v status0 /\ in_use v) -> map fst a = map fst idle_bits /\
    forall nm b, In (nm, b) idle_bits -> In (nm, if (length status0 <=? 2 * how_many status0 b)%nat then 1 else 0) a).
Proof.
  intros R. split; [exact (read_unused _ _ _ _ R)|]. intros U. rewrite (read_used _ _ _ _ R U). split; [reflexivity|].
  intros nm b I. change (nm, if (length status0 <=? 2 * how_many status0 b)%nat then 1 else 0) with (shown status0 (nm, b)). apply in_map. exact I.
Qed.
Lemma idle_agreed status0 status vars a nm b f : read_status status0 status = Some (vars, a) -> (exists v, In v status0 /\ in_use v) ->
  In (nm, b) idle_bits -> (forall v, In v status0 -> flag v b = f) -> In (nm, f) a.
Proof.
  intros R U I H. destruct (proj2 (idle _ _ _ _ R) U) as [_ X]. specialize (X nm b I). rewrite (how_many_all _ _ f H) in X.
  destruct U as (v & Iv & _). pose proof (H v Iv) as E. destruct status0 as [|w r]; [destruct Iv|].
  destruct (flag_cases v b) as [F|F]; rewrite F in E; subst f; cbn [Z.eqb Pos.eqb] in X.
  - replace (length (w :: r) <=? 2 * 0)%nat with false in X by reflexivity. exact X.
  - destruct (Nat.leb_spec (length (w :: r)) (2 * length (w :: r))); [exact X|lia].
Qed.
