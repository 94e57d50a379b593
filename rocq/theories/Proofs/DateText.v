(** Lemmas on dates as text. *)
From Coq Require Import ZArith List Bool Lia.
From Verif.Model Require Import DateText.
From Verif.Spec Require Import DateText.
Import ListNotations.
Open Scope Z_scope.

Lemma pow_pos n : 0 < 10 ^ Z.of_nat n.
Proof. apply Z.pow_pos_nonneg; lia. Qed.
Lemma pow_succ n : 10 ^ Z.of_nat (S n) = 10 * 10 ^ Z.of_nat n.
Proof. rewrite Nat2Z.inj_succ, Z.pow_succ_r by lia. reflexivity. Qed.
Lemma digits_length n x : length (digits n x) = n.
Proof. revert x. induction n as [|n IH]; intros x; [reflexivity|]. cbn [digits length]. rewrite IH. reflexivity. Qed.
Lemma digits_only n x : 0 <= x < 10 ^ Z.of_nat n -> digit_only (digits n x).
Proof.
  revert x. induction n as [|n IH]; intros x H; [constructor|]. cbn [digits]. rewrite pow_succ in H. pose proof (pow_pos n) as P.
  constructor; [|apply IH, Z.mod_pos_bound; exact P].
  assert (0 <= x / 10 ^ Z.of_nat n) by (apply Z.div_pos; lia). assert (x / 10 ^ Z.of_nat n < 10) by (apply Z.div_lt_upper_bound; lia). lia.
Qed.
Lemma number_from l : forall k, fold_left (fun n c => 10 * n + (c - 48)) l k = k * 10 ^ Z.of_nat (length l) + number l.
Proof.
  induction l as [|c l IH]; intros k; [unfold number; cbn; lia|]. cbn [fold_left length]. unfold number. cbn [fold_left]. rewrite IH, (IH (10 * 0 + (c - 48))), pow_succ. ring.
Qed.
Lemma digits_number n x : 0 <= x < 10 ^ Z.of_nat n -> number (digits n x) = x.
Proof.
  revert x. induction n as [|n IH]; intros x H; [cbn in *; lia|]. pose proof (pow_pos n) as P. cbn [digits]. unfold number. cbn [fold_left]. rewrite number_from, digits_length, IH by (apply Z.mod_pos_bound; exact P).
  rewrite (Z.div_mod x (10 ^ Z.of_nat n)) at 3 by lia. ring.
Qed.
Lemma digits_sort n x y a b : 0 <= x < 10 ^ Z.of_nat n -> 0 <= y < 10 ^ Z.of_nat n ->
  (sorts_before (digits n x ++ a) (digits n y ++ b) <-> x < y \/ (x = y /\ sorts_before a b)).
Proof.
  revert x y. induction n as [|n IH]; intros x y Hx Hy.
  - cbn in Hx, Hy |- *. split; [intros H; right; split; [lia|exact H]|intros [H|[_ H]]; [lia|exact H]].
  - pose proof (pow_pos n) as P. cbn [digits app sorts_before]. set (q := 10 ^ Z.of_nat n) in *.
    pose proof (Z.mod_pos_bound x q P) as Bx. pose proof (Z.mod_pos_bound y q P) as By. rewrite (IH _ _ Bx By).
    pose proof (Z.div_mod x q ltac:(lia)) as Ex. pose proof (Z.div_mod y q ltac:(lia)) as Ey.
    assert (C : x / q < y / q \/ x / q = y / q \/ y / q < x / q) by lia. split.
    + intros [H|[H [K|[K L]]]]; [left; nia|left; nia|right; split; [nia|exact L]].
    + intros [H|[H L]].
      * destruct C as [C|[C|C]]; [left; lia|right; split; [lia|left; nia]|nia].
      * subst y. right. split; [reflexivity|]. right. split; [reflexivity|exact L].
Qed.
Lemma year_full y : 1000 <= y -> year_text y = digits 4 y.
Proof. intros H. unfold year_text. destruct (Z.ltb_spec y 10), (Z.ltb_spec y 100), (Z.ltb_spec y 1000); try lia. reflexivity. Qed.
Lemma year_fits y : 1 <= y <= 9999 -> exists n, year_text y = digits n y /\ 0 <= y < 10 ^ Z.of_nat n.
Proof.
  intros H. unfold year_text. destruct (Z.ltb_spec y 10); [exists 1%nat; split; [reflexivity|cbn; lia]|]. destruct (Z.ltb_spec y 100); [exists 2%nat; split; [reflexivity|cbn; lia]|].
  destruct (Z.ltb_spec y 1000); [exists 3%nat; split; [reflexivity|cbn; lia]|]. exists 4%nat. split; [reflexivity|cbn; lia].
Qed.
Lemma default_text t : strftime default_format t = Some (year_text (year t) ++ [45] ++ digits 2 (month t) ++ [45] ++ digits 2 (day t) ++ [32] ++ digits 2 (hour t) ++ [58] ++
  digits 2 (minute t) ++ [58] ++ digits 2 (second t) ++ [46] ++ digits 6 (micro t)).
Proof. unfold default_format. cbn [strftime directive Z.eqb Pos.eqb option_map]. rewrite app_nil_r. reflexivity. Qed.
Lemma text_reads t : is_date t -> exists s, strftime default_format t = Some s /\ reads s t.
Proof.
  intros (Y & MO & D & H & M & S & F). eexists. split; [apply default_text|]. destruct (year_fits _ Y) as (n & E & B).
  exists (year_text (year t)), (digits 2 (month t)), (digits 2 (day t)), (digits 2 (hour t)), (digits 2 (minute t)), (digits 2 (second t)), (digits 6 (micro t)).
  split; [reflexivity|]. split; [|split; [|split]].
  - rewrite E. repeat (apply Forall_cons; [apply digits_only; first [exact B|cbn; lia]|]). apply Forall_nil.
  - cbn [map]. unfold fields. rewrite E, (digits_number n) by exact B. rewrite !digits_number by (cbn; lia). reflexivity.
  - cbn [map]. rewrite !digits_length. reflexivity.
  - intros L. rewrite year_full by exact L. apply digits_length.
Qed.
Lemma some_inj {A} (x y : A) : Some x = Some y -> x = y.
Proof. congruence. Qed.
Lemma same_char c a b : sorts_before ([c] ++ a) ([c] ++ b) <-> sorts_before a b.
Proof. cbn [app sorts_before]. split; [intros [H|[_ H]]; [lia|exact H]|intros H; right; split; [reflexivity|exact H]]. Qed.
Lemma text_order s t a b : is_date s -> is_date t -> 1000 <= year s -> 1000 <= year t -> strftime default_format s = Some a -> strftime default_format t = Some b ->
  (sorts_before a b <-> earlier s t).
Proof.
  intros (Y & MO & D & H & M & S & F) (Y' & MO' & D' & H' & M' & S' & F') L L' A B. rewrite default_text in A, B. apply some_inj in A, B. rewrite <- A, <- B.
  rewrite !year_full by assumption.
  rewrite (digits_sort 4) by (cbn; lia). rewrite same_char, (digits_sort 2) by (cbn; lia). rewrite same_char, (digits_sort 2) by (cbn; lia). rewrite same_char, (digits_sort 2) by (cbn; lia).
  rewrite same_char, (digits_sort 2) by (cbn; lia). rewrite same_char, (digits_sort 2) by (cbn; lia). rewrite same_char.
  rewrite <- (app_nil_r (digits 6 (micro s))), <- (app_nil_r (digits 6 (micro t))), (digits_sort 6) by (cbn; lia). unfold earlier, fields. cbn [sorts_before]. tauto.
Qed.
Lemma prefix_same {A} (a b x y : list A) : length a = length b -> a ++ x = b ++ y -> a = b /\ x = y.
Proof. revert b. induction a as [|u a IH]; intros [|v b] L E; try discriminate L; [split; [reflexivity|exact E]|]. cbn in E. injection E as -> E. destruct (IH b ltac:(cbn in L; lia) E) as [-> ->]. split; reflexivity. Qed.
(** the part before the first 45 *)
Lemma up_to_dash a b x y : digit_only a -> digit_only b -> a ++ [45] ++ x = b ++ [45] ++ y -> a = b /\ x = y.
Proof.
  intros A. revert b. induction A as [|u a Hu _ IH]; intros b B E.
  - destruct b as [|v b]; [cbn in E; injection E as ->; split; reflexivity|]. cbn in E. injection E as <- _. inversion B; lia.
  - destruct b as [|v b]; [cbn in E; injection E as -> _; lia|]. cbn in E. injection E as -> E. inversion B; subst. destruct (IH b ltac:(assumption) E) as [-> ->]. split; reflexivity.
Qed.
Lemma reads_one s t u : reads s t -> reads s u -> t = u.
Proof.
  intros (y & m & d & H & M & S & f & E & D & N & L & _) (y' & m' & d' & H' & M' & S' & f' & E' & D' & N' & L' & _).
  rewrite E in E'. clear E. inversion D as [|? ? Dy _]; subst. inversion D' as [|? ? Dy' _]; subst. cbn [map] in L, L'. injection L as L1 L2 L3 L4 L5 L6. injection L' as K1 K2 K3 K4 K5 K6.
  destruct (up_to_dash _ _ _ _ Dy Dy' E') as [<- E1].
  apply prefix_same in E1 as [<- E1]; [|congruence]. apply prefix_same in E1 as [_ E1]; [|reflexivity].
  apply prefix_same in E1 as [<- E1]; [|congruence]. apply prefix_same in E1 as [_ E1]; [|reflexivity].
  apply prefix_same in E1 as [<- E1]; [|congruence]. apply prefix_same in E1 as [_ E1]; [|reflexivity].
  apply prefix_same in E1 as [<- E1]; [|congruence]. apply prefix_same in E1 as [_ E1]; [|reflexivity].
  apply prefix_same in E1 as [<- E1]; [|congruence]. apply prefix_same in E1 as [_ <-]; [|reflexivity].
  rewrite N in N'. destruct t, u. unfold fields in N'. cbn in N'. injection N' as -> -> -> -> -> -> ->. reflexivity.
Qed.
Lemma each_text fmt l r : fold_right (fun t r => match strftime fmt t, r with Some a, Some b => Some (a :: b) | _, _ => None end) (Some []) l = Some r <->
  Forall2 (fun t s => strftime fmt t = Some s) l r.
Proof.
  revert r. induction l as [|t l IH]; intros r; cbn [fold_right].
  - split; [intros H; injection H as <-; constructor|intros H; inversion H; reflexivity].
  - split.
    + intros H. destruct (strftime fmt t) as [a|] eqn:E; [|discriminate H]. destruct (fold_right _ _ l) as [b|] eqn:F; [|discriminate H]. injection H as <-. constructor; [exact E|]. apply IH. reflexivity.
    + intros H. inversion H as [|? s ? r' E F]; subst. rewrite E. apply IH in F. rewrite F. reflexivity.
Qed.
Lemma plain_part s fmt t : ~ In 37 s -> strftime (s ++ fmt) t = option_map (app s) (strftime fmt t).
Proof.
  induction s as [|c s IH]; intros N; [cbn [app]; destruct (strftime fmt t); reflexivity|].
  assert (C : c <> 37) by (intros ->; apply N; left; reflexivity). cbn [app].
  assert (X : strftime (c :: s ++ fmt) t = option_map (cons c) (strftime (s ++ fmt) t)).
  { cbn [strftime]. destruct (s ++ fmt); repeat match goal with |- context [match ?p with xI _ => _ | xO _ => _ | xH => _ end] => destruct p | |- context [match c with Z0 => _ | _ => _ end] => destruct c end; try reflexivity; exfalso; apply C; reflexivity. }
  rewrite X, IH by (intros I; apply N; right; exact I). destruct (strftime fmt t); reflexivity.
Qed.
Lemma format_parts t ps : is_date t -> Forall part_ok ps -> exists ss, strftime (concat (map written ps)) t = Some (concat ss) /\ Forall2 (says_part t) ps ss.
Proof.
  intros DT. induction 1 as [|p ps P _ (ss & E & F)]; [exists []; split; [reflexivity|constructor]|]. destruct p as [s|c]; cbn [map concat written].
  - exists (s :: ss). split; [|constructor; [reflexivity|exact F]]. rewrite plain_part by exact P. rewrite E. reflexivity.
  - destruct DT as (Y & MO & D & H & M & S & U). destruct (year_fits _ Y) as (n & EY & BY).
    assert (X : exists s, directive c t = Some s /\ letter_means c t s).
    { cbn [part_ok In] in P. destruct P as [<-|[<-|[<-|[<-|[<-|[<-|[<-|[]]]]]]]].
      - exists (year_text (year t)). split; [reflexivity|]. rewrite EY. split; [apply digits_number; exact BY|apply digits_only; exact BY].
      - eexists. split; [reflexivity|]. split; [split; [apply digits_length|apply digits_number; cbn; lia]|apply digits_only; cbn; lia].
      - eexists. split; [reflexivity|]. split; [split; [apply digits_length|apply digits_number; cbn; lia]|apply digits_only; cbn; lia].
      - eexists. split; [reflexivity|]. split; [split; [apply digits_length|apply digits_number; cbn; lia]|apply digits_only; cbn; lia].
      - eexists. split; [reflexivity|]. split; [split; [apply digits_length|apply digits_number; cbn; lia]|apply digits_only; cbn; lia].
      - eexists. split; [reflexivity|]. split; [split; [apply digits_length|apply digits_number; cbn; lia]|apply digits_only; cbn; lia].
      - eexists. split; [reflexivity|]. split; [split; [apply digits_length|apply digits_number; cbn; lia]|apply digits_only; cbn; lia]. }
    destruct X as (s & EX & LM). exists (s :: ss). split; [|constructor; [exact LM|exact F]].
    change (strftime ([37; c] ++ concat (map written ps)) t) with (match directive c t, strftime (concat (map written ps)) t with Some a, Some b => Some (a ++ b) | _, _ => None end).
    rewrite EX, E. reflexivity.
Qed.
