From Coq Require Import String List Bool.
From Verif.Model Require Import CheckDs.
Import ListNotations.

Section Proofs.
Context {V : Type} (veqb : V -> V -> bool).
Hypothesis veqb_ok : forall x y, veqb x y = true <-> x = y.
Implicit Types a : @attrs V.

Lemma get_put k v k' a : get k' (put k v a) = if String.eqb k' k then Some v else get k' a.
Proof.
  induction a as [|[k1 v1] a IH]; cbn; [reflexivity|]. destruct (String.eqb_spec k k1) as [->|N]; cbn.
  - destruct (String.eqb_spec k' k1); reflexivity.
  - rewrite IH. destruct (String.eqb_spec k' k1) as [->|]; [|reflexivity].
    destruct (String.eqb_spec k1 k); [congruence|reflexivity].
Qed.

Lemma get_update k b : NoDup (map fst b) -> forall a,
  get k (update a b) = match get k b with Some v => Some v | None => get k a end.
Proof.
  induction b as [|[k1 v1] b IH]; intros ND a; [reflexivity|]. cbn [update map fst] in *.
  inversion ND as [|? ? N1 N2]; subst. rewrite IH by easy. rewrite get_put. cbn [get].
  destruct (String.eqb_spec k k1) as [->|]; [|reflexivity].
  replace (get k1 b) with (@None V); [reflexivity|]. symmetry. clear - N1.
  induction b as [|[k2 v2] b IH]; cbn in *; [reflexivity|]. destruct (String.eqb_spec k1 k2); [subst; tauto|]. apply IH. tauto.
Qed.
Lemma keys_put k v a : map fst (put k v a) = map fst a ++ (if existsb (String.eqb k) (map fst a) then [] else [k]).
Proof.
  induction a as [|[k1 v1] a IH]; cbn; [reflexivity|]. destruct (String.eqb k k1); cbn; [now rewrite app_nil_r|]. now rewrite IH.
Qed.
Lemma nodup_put k v a : NoDup (map fst a) -> NoDup (map fst (put k v a)).
Proof.
  intros H. rewrite keys_put. destruct (existsb _ _) eqn:E; [now rewrite app_nil_r|].
  assert (N : ~ In k (map fst a)).
  { intros I. assert (existsb (String.eqb k) (map fst a) = true); [|congruence].
    apply existsb_exists. exists k. split; [easy|apply String.eqb_refl]. }
  clear E. induction (map fst a) as [|x l IH]; cbn; [repeat constructor; easy|].
  inversion H; subst. constructor; [|apply IH; cbn in N; tauto].
  rewrite in_app_iff. cbn in *. intuition congruence.
Qed.
Lemma nodup_update b : forall a, NoDup (map fst a) -> NoDup (map fst (update a b)).
Proof. induction b as [|[k v] b IH]; intros a H; [easy|]. apply IH. now apply nodup_put. Qed.

Lemma loop_ok props : NoDup (map fst props) -> forall out out', check_loop veqb props out = inr out' ->
  forall k, get k out' = match get k props with Some v => Some v | None => get k out end.
Proof.
  induction props as [|[k1 v1] props IH]; intros ND out out' H k; cbn in *; [congruence|].
  inversion ND as [|? ? N1 N2]; subst.
  assert (P : check_loop veqb props (put k1 v1 out) = inr out').
  { destruct (get k1 out) as [w|]; [|easy]. now destruct (veqb w v1). }
  rewrite (IH N2 _ _ P), get_put. destruct (String.eqb_spec k k1) as [->|]; [|reflexivity].
  replace (get k1 props) with (@None V); [reflexivity|]. symmetry. clear - N1.
  induction props as [|[k2 v2] b IH]; cbn in *; [reflexivity|]. destruct (String.eqb_spec k1 k2); [subst; tauto|]. apply IH. tauto.
Qed.
Lemma loop_keeps props : forall out, match check_loop veqb props out with
  | inr out' => forall k w, get k out = Some w -> get k out' = Some w
  | inl (_, out') => forall k w, get k out = Some w -> get k out' = Some w end.
Proof.
  induction props as [|[k1 v1] props IH]; intros out; cbn; [easy|].
  assert (P : (forall w, get k1 out = Some w -> w = v1) -> forall k w, get k out = Some w -> get k (put k1 v1 out) = Some w).
  { intros E k w G. rewrite get_put. destruct (String.eqb_spec k k1) as [->|]; [|easy]. now rewrite (E w G). }
  destruct (get k1 out) as [w1|] eqn:G.
  - destruct (veqb w1 v1) eqn:E; [|easy]. apply veqb_ok in E. specialize (IH (put k1 v1 out)).
    assert (Q := P (fun w Hw => ltac:(congruence))).
    destruct (check_loop veqb props (put k1 v1 out)) as [[e o]|o]; intros k w Hk; apply IH, Q, Hk.
  - specialize (IH (put k1 v1 out)). assert (Q := P (fun w Hw => ltac:(discriminate))).
    destruct (check_loop veqb props (put k1 v1 out)) as [[e o]|o]; intros k w Hk; apply IH, Q, Hk.
Qed.
Lemma loop_raises props : NoDup (map fst props) -> forall out,
  (exists out', check_loop veqb props out = inr out') <->
  (forall k v w, get k props = Some v -> get k out = Some w -> w = v).
Proof.
  induction props as [|[k1 v1] props IH]; intros ND out; cbn; [split; [easy|eauto]|].
  inversion ND as [|? ? N1 N2]; subst.
  assert (G1 : get k1 props = None).
  { clear - N1. induction props as [|[k2 v2] b IH]; cbn in *; [reflexivity|]. destruct (String.eqb_spec k1 k2); [subst; tauto|]. apply IH. tauto. }
  assert (S : (exists out', check_loop veqb props (put k1 v1 out) = inr out') <->
    (forall k v w, k <> k1 -> get k props = Some v -> get k out = Some w -> w = v)).
  { rewrite (IH N2). split.
    - intros H k v w Hk Hv Hw. apply (H k v w Hv). rewrite get_put. now destruct (String.eqb_spec k k1).
    - intros H k v w Hv Hw. rewrite get_put in Hw. destruct (String.eqb_spec k k1) as [->|]; [congruence|]. now apply (H k). }
  assert (D : forall w1, get k1 out = Some w1 -> veqb w1 v1 = false -> ~ (forall k v w, (if String.eqb k k1 then Some v1 else get k props) = Some v -> get k out = Some w -> w = v)).
  { intros w1 Hw Hf H. specialize (H k1 v1 w1). rewrite String.eqb_refl in H. specialize (H eq_refl Hw).
    apply veqb_ok in H. congruence. }
  assert (E : (forall w, get k1 out = Some w -> w = v1) ->
    ((forall k v w, k <> k1 -> get k props = Some v -> get k out = Some w -> w = v) <->
     (forall k v w, (if String.eqb k k1 then Some v1 else get k props) = Some v -> get k out = Some w -> w = v))).
  { intros H1. split.
    - intros H k v w Hv Hw. destruct (String.eqb_spec k k1) as [->|N]; [injection Hv as <-; now apply H1|now apply (H k)].
    - intros H k v w Hk Hv Hw. apply (H k v w); [|easy]. now destruct (String.eqb_spec k k1). }
  destruct (get k1 out) as [w1|] eqn:G.
  - destruct (veqb w1 v1) eqn:W.
    + rewrite S. apply E. intros w Hw. apply veqb_ok in W. congruence.
    + split; [intros [? ?]; discriminate|]. intros H. now destruct (D w1 eq_refl W).
  - rewrite S. apply E. easy.
Qed.

Variables (b : @binner V) (shapes : list (list nat)) (raw : @attrs V).
Hypothesis raw_dict : NoDup (map fst raw).

Definition own : @attrs V := [("fs"%string, b_fs b); ("n_bin"%string, b_n_bin b); ("n_fft"%string, b_n_fft b);
          ("description"%string, b_description b)].
Lemma own_nodup : NoDup (map fst own).
Proof. cbn. repeat constructor; cbn; intuition discriminate. Qed.
Lemma get_props k : get k (props_of b raw) = match get k raw with Some v => Some v | None => get k own end.
Proof. unfold props_of. fold own. now apply get_update. Qed.
Lemma props_nodup : NoDup (map fst (props_of b raw)).
Proof. apply nodup_update, own_nodup. Qed.

Lemma success_loop out out' : check_ds veqb b shapes raw out = inr out' ->
  check_loop veqb (props_of b raw) (match out with None => [] | Some a => a end) = inr out' /\ get "fs"%string raw = Some (b_fs b).
Proof.
  unfold check_ds. destruct (existsb _ shapes); [discriminate|]. destruct (get "fs"%string raw) as [f|]; [|discriminate].
  destruct (veqb f (b_fs b)) eqn:E; [|discriminate]. apply veqb_ok in E. intros H. split; [easy|congruence].
Qed.

Theorem success_attrs out out' : check_ds veqb b shapes raw out = inr out' ->
  forall k, get k out' = match get k raw with Some v => Some v | None =>
    match get k own with Some v => Some v | None => get k (match out with None => [] | Some a => a end) end end.
Proof.
  intros H k. apply success_loop in H as [H _]. rewrite (loop_ok _ props_nodup _ _ H), get_props.
  now destruct (get k raw).
Qed.
Theorem keeps out : match check_ds veqb b shapes raw (Some out) with
  | inr out' => forall k w, get k out = Some w -> get k out' = Some w
  | inl (_, out') => forall k w, get k out = Some w -> get k out' = Some w end.
Proof.
  unfold check_ds. destruct (existsb _ shapes); [easy|]. destruct (get "fs"%string raw); [|easy].
  destruct (veqb _ _); [|easy]. apply loop_keeps.
Qed.
Theorem succeeds_iff out : (exists out', check_ds veqb b shapes raw (Some out) = inr out') <->
  (forall s n, In s shapes -> In n s -> n <> 0) /\ get "fs"%string raw = Some (b_fs b) /\
  (forall k v w, get k raw = Some v -> get k out = Some w -> w = v) /\
  (forall k v w, get k raw = None -> get k own = Some v -> get k out = Some w -> w = v).
Proof.
  assert (EX : existsb (existsb (Nat.eqb 0)) shapes = false <-> (forall s n, In s shapes -> In n s -> n <> 0)).
  { split.
    - intros H s n Hs Hn ->. assert (existsb (existsb (Nat.eqb 0)) shapes = true); [|congruence].
      apply existsb_exists. exists s. split; [easy|]. apply existsb_exists. exists 0. easy.
    - intros H. apply not_true_is_false. intros E. apply existsb_exists in E as (s & Hs & E).
      apply existsb_exists in E as (n & Hn & E). apply PeanoNat.Nat.eqb_eq in E. exact (H s n Hs Hn (eq_sym E)). }
  unfold check_ds. destruct (existsb (existsb (Nat.eqb 0)) shapes) eqn:E.
  { split; [intros [? ?]; discriminate|]. intros [H _]. apply EX in H. discriminate. }
  destruct (get "fs"%string raw) as [f|]; [|split; [intros [? ?]; discriminate|intros (_ & ? & _); discriminate]].
  destruct (veqb f (b_fs b)) eqn:F.
  - apply veqb_ok in F. subst f. rewrite loop_raises by apply props_nodup. split.
    + intros H. split; [now apply EX|]. split; [easy|]. split.
      * intros k v w Hv Hw. apply (H k v w); [|easy]. now rewrite get_props, Hv.
      * intros k v w Hn Hv Hw. apply (H k v w); [|easy]. now rewrite get_props, Hn.
    + intros (_ & _ & H1 & H2) k v w Hv Hw. rewrite get_props in Hv. destruct (get k raw) eqn:G.
      * apply (H1 k v w); [congruence|easy].
      * now apply (H2 k v w).
  - split; [intros [? ?]; discriminate|]. intros (_ & H & _). exfalso. injection H as ->.
    assert (veqb (b_fs b) (b_fs b) = true) by now apply veqb_ok. congruence.
Qed.
End Proofs.

Section Summary.
Context {V : Type} (veqb : V -> V -> bool).
Hypothesis veqb_ok : forall x y, veqb x y = true <-> x = y.
Open Scope string_scope.

Theorem success_summary (b : @binner V) shapes raw out out' : NoDup (map fst raw) ->
  check_ds veqb b shapes raw out = inr out' ->
  (forall k v, get k raw = Some v -> get k out' = Some v) /\
  get "fs" out' = Some (b_fs b) /\
  (get "n_bin" raw = None -> get "n_bin" out' = Some (b_n_bin b)) /\
  (get "n_fft" raw = None -> get "n_fft" out' = Some (b_n_fft b)) /\
  (get "description" raw = None -> get "description" out' = Some (b_description b)) /\
  (forall k, get k raw = None -> k <> "fs" -> k <> "n_bin" -> k <> "n_fft" -> k <> "description" ->
     get k out' = match out with Some o => get k o | None => None end).
Proof.
  intros ND H. destruct (success_loop veqb veqb_ok b shapes raw out out' H) as [_ F].
  pose proof (success_attrs veqb veqb_ok b shapes raw ND out out' H) as A.
  split; [intros k v Hv; now rewrite A, Hv|]. split; [now rewrite A, F|].
  split; [intros N; now rewrite A, N|]. split; [intros N; now rewrite A, N|]. split; [intros N; now rewrite A, N|].
  intros k N N1 N2 N3 N4. rewrite A, N. unfold own. cbn [get].
  destruct (String.eqb_spec k "fs"); [easy|]. destruct (String.eqb_spec k "n_bin"); [easy|].
  destruct (String.eqb_spec k "n_fft"); [easy|]. destruct (String.eqb_spec k "description"); [easy|]. now destruct out.
Qed.

Lemma get_in_own (b : @binner V) k v : get k (own b) = Some v <-> In (k, v) (own b).
Proof.
  split.
  - unfold own. cbn [get In]. intros H.
    repeat (match type of H with (if String.eqb ?a ?c then _ else _) = _ =>
      destruct (String.eqb_spec a c) as [->|]; [injection H as <-; tauto|] end). discriminate.
  - unfold own. cbn [get In]. intros [H|[H|[H|[H|[]]]]]; injection H as <- <-; reflexivity.
Qed.

Theorem succeeds_iff' (b : @binner V) shapes raw out : NoDup (map fst raw) ->
  (exists out', check_ds veqb b shapes raw (Some out) = inr out') <->
  (forall s n, In s shapes -> In n s -> n <> 0) /\ get "fs" raw = Some (b_fs b) /\
  (forall k v w, get k raw = Some v -> get k out = Some w -> w = v) /\
  (forall k v w, get k raw = None -> In (k, v) (own b) -> get k out = Some w -> w = v).
Proof.
  intros ND. rewrite (succeeds_iff veqb veqb_ok b shapes raw ND out).
  split; intros (H1 & H2 & H3 & H4); repeat split; auto; intros k v w Hn Hv Hw; apply (H4 k v w); auto; now apply get_in_own.
Qed.
End Summary.
