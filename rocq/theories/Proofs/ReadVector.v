(** Lemmas on the dataset of a Vector file. *)
From Coq Require Import String.
From Coq Require Import ZArith QArith List Bool Lia.
From Verif.Model Require Import Nortek NortekFile NortekGuess NortekData Gaps HandleNan Microstrain Time ReadVector.
From Verif.Model Require RdiBlocks.
From Verif.Spec Require Import Nortek NortekData Gaps Time HandleNan ReadVector.
From Verif.Proofs Require Import Gaps NortekFile NortekData HandleNan Time.
Import ListNotations.
Open Scope nat_scope.

(** ** lists *)
Lemma decoded_nth {A B} (f : A -> option B) l k : nth k (decoded f l) None = match nth k l None with Some a => f a | None => None end.
Proof. unfold decoded. revert k. induction l as [|x l IH]; intros [|k]; try reflexivity. apply IH. Qed.
Lemma decoded_length {A B} (f : A -> option B) l : length (decoded f l) = length l.
Proof. apply map_length. Qed.
Lemma nth_error_map' {A B} (f : A -> B) l k : nth_error (map f l) k = option_map f (nth_error l k).
Proof. revert k. induction l as [|x l IH]; intros [|k]; try reflexivity. apply IH. Qed.
Lemma nth_error_opt {A} (l : list (option A)) k : k < length l -> nth_error l k = Some (nth k l None).
Proof. intros H. apply nth_error_nth'. exact H. Qed.
Lemma firstn_nth_error {A} a (l : list A) k : k < a -> nth_error (firstn a l) k = nth_error l k.
Proof. revert a k. induction l as [|x l IH]; intros [|a] [|k] H; try reflexivity; try lia. cbn. apply IH. lia. Qed.
Lemma find_map {A} (f : A -> A) p l : (forall x, p (f x) = p x) -> find p (map f l) = option_map f (find p l).
Proof. intros H. induction l as [|x l IH]; [reflexivity|]. cbn. rewrite H. destruct (p x); [reflexivity|exact IH]. Qed.

Lemma nth_error_ext' {A} (l l' : list A) : (forall k, nth_error l k = nth_error l' k) -> l = l'.
Proof.
  revert l'. induction l as [|x l IH]; intros [|y l'] H; try reflexivity; try (specialize (H 0); discriminate).
  f_equal; [specialize (H 0); injection H as ->; reflexivity|]. apply IH. intros k. apply (H (S k)).
Qed.

(** ** lengths *)
Lemma fill_one_o_length t a i j : j < length a -> length (fill_one_o t a i j) = length a.
Proof.
  intros H. unfold fill_one_o. destruct (Nat.ltb_spec 1 (j - i)); [|reflexivity].
  apply set_range_length. rewrite map_length, seq_length. lia.
Qed.
Lemma fill_loop_o_length t gd : forall a, Forall (fun g => g < length a) gd -> length (fill_loop_o t a gd) = length a.
Proof.
  induction gd as [|i gd IH]; intros a F; [reflexivity|]. destruct gd as [|j gd]; [reflexivity|].
  inversion F as [|? ? F1 F2]; subst. inversion F2 as [|? ? F3 F4]; subst.
  change (length (fill_loop_o t (fill_one_o t a i j) (j :: gd)) = length a).
  rewrite IH; rewrite fill_one_o_length by exact F3; [reflexivity|exact F2].
Qed.
Lemma interp_o_length t a : length (interpgaps_o t a) = length a.
Proof. apply fill_loop_o_length. apply Forall_forall. intros g H. apply good_idx_lt. exact H. Qed.
Lemma burst_times_length fs t : length (burst_times fs t) = length t.
Proof.
  unfold burst_times. destruct (tl (good_idx t)) as [|i [|j r]].
  - destruct (nthq t 0); rewrite map_length; [apply seq_length|reflexivity].
  - rewrite map_length. apply seq_length.
  - rewrite map_length. apply seq_length.
Qed.
Lemma bursts_length f n : (forall t, length (f t) = length t) -> forall fuel t, length (bursts fuel n f t) = length t.
Proof.
  intros F. induction fuel as [|fuel IH]; intros [|x t]; try reflexivity. cbn [bursts]. rewrite app_length, F, IH, <- app_length, firstn_skipn. reflexivity.
Qed.
Lemma sample_times_length fs n t : length (sample_times fs n t) = length t.
Proof. unfold sample_times. destruct (Nat.eqb n 0); apply bursts_length; apply burst_times_length. Qed.
Lemma by_burst_length {A B} n (f : list A -> list B) : (forall l, length (f l) = length l) -> 0 < n -> forall fuel l,
  length l <= fuel * n -> length (by_burst fuel n f l) = length l.
Proof.
  intros F N. induction fuel as [|fuel IH]; intros l L; [destruct l; [reflexivity|cbn in L; lia]|]. destruct l as [|x l]; [reflexivity|].
  cbn [by_burst]. rewrite app_length, F, IH.
  - rewrite <- app_length, firstn_skipn. reflexivity.
  - rewrite skipn_length. cbn [Nat.mul] in L. lia.
Qed.

(** ** the variables are as long as the time *)
Lemma rect n nm nd ls : ls <> [] -> (nd = 1 -> length ls = 1) -> Forall (fun l => length l = n) ls -> rectangular (NVar nm nd ls) /\ width (NVar nm nd ls) = n.
Proof.
  intros NE ND F. assert (W : width (NVar nm nd ls) = n).
  { unfold width. cbn [lines]. destruct ls as [|l ls]; [congruence|]. inversion F; subst. reflexivity. }
  split; [|exact W]. split; [exact NE|]. split; [exact ND|]. cbn [lines]. intros l Hl. rewrite W. rewrite Forall_forall in F. apply F. exact Hl.
Qed.
Definition long (n : nat) (v : nvar) : Prop := rectangular v /\ width v = n.
Lemma floats_of_length {A} (f : A -> Q) l : length (floats_of f l) = length l. Proof. apply map_length. Qed.
Lemma ints_of_length {A} (f : A -> Z) l : length (ints_of f l) = length l. Proof. apply map_length. Qed.
Lemma vec_long e g l : Forall (long (length l)) (vec_vars e g l).
Proof.
  unfold vec_vars. cbv zeta.
  assert (W : forall nm nd (f : nat -> series), (forall k, length (f k) = length l) -> nd <> 1 -> long (length l) (NVar nm nd (map f [0; 1; 2]))).
  { intros nm nd f F ND. apply rect; [discriminate|congruence|]. repeat constructor; apply F. }
  constructor; [apply W; [intros k; unfold floats_of, decoded; rewrite !map_length; reflexivity|discriminate]|].
  constructor; [apply W; [intros k; unfold ints_of, decoded; rewrite !map_length; reflexivity|discriminate]|].
  constructor; [apply W; [intros k; unfold ints_of, decoded; rewrite !map_length; reflexivity|discriminate]|].
  constructor; [|constructor]. apply rect; [discriminate|reflexivity|]. repeat constructor. unfold decoded. rewrite !map_length. reflexivity.
Qed.
Lemma sys_long e g l t : Forall (long (length l)) (sys_vars e g l t).
Proof.
  unfold sys_vars.
  assert (S1 : forall nm f, long (length l) (NVar nm 1 [interpgaps_o t (floats_of f (decoded (decode_sys e) l))])).
  { intros nm f. apply rect; [discriminate|reflexivity|]. constructor; [|constructor]. rewrite interp_o_length, floats_of_length. apply decoded_length. }
  assert (I1 : forall nm f, long (length l) (NVar nm 1 [ints_of f (decoded (decode_sys e) l)])).
  { intros nm f. apply rect; [discriminate|reflexivity|]. constructor; [|constructor]. rewrite ints_of_length. apply decoded_length. }
  repeat (constructor; [apply S1 || apply I1|]). constructor; [|constructor].
  apply rect; [discriminate|reflexivity|]. constructor; [|constructor]. rewrite map_length.
  destruct l as [|b l]; [destruct (g_burst g); reflexivity|]. set (L := b :: l).
  set (nb := match g_burst g with O => length L | S n => S n end). assert (NB : 0 < nb) by (unfold nb; destruct (g_burst g); cbn; lia).
  rewrite by_burst_length; [apply decoded_length| |exact NB|].
  - intros x. rewrite orient_length, map_length. reflexivity.
  - rewrite decoded_length. pose proof (Nat.div_mod (length L) nb ltac:(lia)) as D. pose proof (Nat.mod_upper_bound (length L) nb ltac:(lia)). lia.
Qed.
Lemma imu_long e g l : Forall (long (length l)) (imu_vars e g l).
Proof.
  unfold imu_vars. destruct (first_of l) as [[id x]|]; [|constructor]. cbv zeta.
  set (d := map (option_map (fun m => sci_imu (g_fs g) id (decode_imu e m))) l).
  assert (R : forall (f : imu_sample -> list (option Q)) k, length (map (fun x => match x with Some m => nth k (f m) None | None => None end) d) = length l)
    by (intros f k; unfold d; rewrite !map_length; reflexivity).
  assert (W : forall nm nd f ks, ks <> [] -> nd <> 1 -> long (length l) (NVar nm nd (map (fun k => map (fun x => match x with Some m => nth k (f m) None | None => None end) d) ks))).
  { intros nm nd f ks NE ND. apply rect; [destruct ks; [congruence|discriminate]|congruence|]. apply Forall_forall. intros y Hy. apply in_map_iff in Hy.
    destruct Hy as (k & <- & _). apply R. }
  destruct (Z.eqb id 195); [|destruct (Z.eqb id 204)]; repeat (constructor; [apply W; discriminate|]); constructor.
Qed.

(** names *)
Definition quiet (v : nvar) : Prop := imu_name (vname v) = false.
Lemma vec_quiet e g l : Forall quiet (vec_vars e g l).
Proof. unfold vec_vars. repeat constructor. Qed.
Lemma sys_quiet e g l t : Forall quiet (sys_vars e g l t).
Proof. unfold sys_vars. repeat constructor. Qed.

(** ** from the arrays to the dataset *)
Lemma decode_ok e sc bs : length bs = 20 -> exists x, decode_vec e sc bs = Some x.
Proof.
  intros L. do 20 (destruct bs as [|? bs]; [discriminate|]). destruct bs; [|discriminate]. eexists. reflexivity.
Qed.
Lemma same_instant_eq ns x y : (x == y)%Q -> same_instant ns x -> same_instant ns y.
Proof. unfold same_instant. intros E [A B]. rewrite E in A, B. split; assumption. Qed.

Lemma dated_ok fs t (clk : nat -> Q) : (forall k, k < length t -> exists q, nth_error t k = Some (Some q) /\ (q == clk k)%Q /\ (0 < q)%Q) ->
  exists ns, dated_times fs t = Some ns /\ length ns = length t /\
    forall k, k < length t -> exists x, nth_error ns k = Some x /\ same_instant x (clk k).
Proof.
  intros H. assert (M : map missing_zero t = t).
  { apply nth_error_ext'. intros k. rewrite nth_error_map'. destruct (Nat.lt_ge_cases k (length t)) as [L|L].
    - destruct (H k L) as (q & E & _ & P). rewrite E. cbn. destruct (Qeq_bool q 0) eqn:Z; [|reflexivity].
      apply Qeq_bool_eq in Z. rewrite Z in P. exfalso. apply (Qlt_irrefl 0 P).
    - apply nth_error_None in L. rewrite L. reflexivity. }
  unfold dated_times. rewrite M. replace (existsb _ t) with false.
  - cbn [option_map]. eexists. split; [reflexivity|]. split; [apply map_length|]. intros k L. destruct (H k L) as (q & E & C & P).
    exists (epoch2dt64 q). split; [rewrite nth_error_map', E; reflexivity|]. apply (same_instant_eq _ _ _ C). apply epoch2dt64_same_instant.
    left. apply Qlt_le_weak. exact P.
  - symmetry. destruct (existsb _ t) eqn:X; [|reflexivity]. apply existsb_exists in X. destruct X as (x & I & N). exfalso.
    apply In_nth_error in I. destruct I as (k & E). assert (L : k < length t) by (apply nth_error_Some; congruence).
    destruct (H k L) as (q & E' & _). rewrite E in E'. injection E' as ->. discriminate.
Qed.

(** the other variables are found at the samples that are left *)
Definition others (e : endian) (g : vec_cfg) (sy : list (option bytes)) (t : series) (im : list (option (Z * bytes))) (a : nat) (d : dataset) : Prop :=
  (forall nm v k i, existsb (fun x => String.eqb x nm) ["beam2inst_orientmat"; "vel"; "amp"; "corr"; "pressure"]%string = false ->
    find (fun v => String.eqb (vname v) nm) (sys_vars e g sy t ++ imu_vars e g im) = Some v ->
    k < length (lines v) -> i < a -> at_sample d nm k i = nth_error (nth k (lines v) []) i) /\
  (a = length sy \/ length sy <> 3 ->
    exists v, find (fun v => String.eqb (vname v) "beam2inst_orientmat") (d_vars d) = Some v /\ lines v = map (map Some) (g_beam2inst g)).
Section Core.
Variables (g : vec_cfg) (e : endian) (s : state) (n a : nat) (clk : nat -> Q) (smp : list bytes).
Hypothesis (Hm : three_by_three (g_beam2inst g)).
Hypothesis (Ld : length (data s) = n) (Ls : length (sysd s) = n) (Li : length (imus s) = n).
Hypothesis (Hd : data s = map Some smp ++ repeat None (n - length smp)) (Hne : smp <> []) (H20 : Forall (fun b => length b = 20) smp).
Hypothesis (Hs : existsb is_some (sysd s) = true).
Let t := sample_times (g_fs g) (g_burst g) (sys_times e (sysd s)).
Hypothesis (Ha : 0 < a <= n).
Hypothesis (Ht : forall k, k < a -> exists q, nth_error t k = Some (Some q) /\ (q == clk k)%Q /\ (0 < q)%Q).
Definition imu_gap (e : endian) (g : vec_cfg) (l : list (option (Z * bytes))) (k : nat) : Prop :=
  exists v, In v (imu_vars e g l) /\ imu_name (vname v) = true /\ (ndim v = 1 \/ ndim v = 2) /\ missing_in (last (lines v) []) k.
Hypothesis (Hg : forall k, k < n -> ((nth_error t k = Some None \/ imu_gap e g (imus s) k) <-> a <= k)).

Let mat := NVar "beam2inst_orientmat" 2 (map (map Some) (g_beam2inst g)).
Let vars := mat :: vec_vars e g (data s) ++ sys_vars e g (sysd s) t ++ imu_vars e g (imus s).
Lemma t_length : length t = n.
Proof. unfold t, sys_times. rewrite sample_times_length, decoded_length. exact Ls. Qed.
Lemma some_data : existsb is_some (data s) = true.
Proof. rewrite Hd. destruct smp; [congruence|reflexivity]. Qed.
Lemma data_eq : vector_data g e s = Some (NData t vars).
Proof. unfold vector_data. rewrite some_data, Hs. reflexivity. Qed.
Lemma vars_rect v : In v vars -> rectangular v.
Proof.
  intros [<-|H].
  - destruct Hm as [M1 M2]. assert (F : Forall (fun l : list (option Q) => length l = 3) (map (map Some) (g_beam2inst g))).
    { apply Forall_forall. intros l Hl. apply in_map_iff in Hl. destruct Hl as (r & <- & Hr). rewrite map_length. rewrite Forall_forall in M2. apply M2. exact Hr. }
    apply (rect 3); [|discriminate|exact F]. destruct (g_beam2inst g); discriminate.
  - apply in_app_or in H. destruct H as [H|H]; [|apply in_app_or in H; destruct H as [H|H]].
    + pose proof (vec_long e g (data s)) as F. rewrite Forall_forall in F. apply (F v H).
    + pose proof (sys_long e g (sysd s) t) as F. rewrite Forall_forall in F. apply (F v H).
    + pose proof (imu_long e g (imus s)) as F. rewrite Forall_forall in F. apply (F v H).
Qed.
Lemma gap_iff k : k < n -> (last_incomplete (NData t vars) k <-> a <= k).
Proof.
  intros L. rewrite <- (Hg k L). unfold last_incomplete, missing_in. cbn [ntime nvars]. split.
  - intros [H|(v & I & N & W & D & M)]; [left; exact H|right]. exists v. apply imu_spec in N.
    split; [|split; [exact N|split; [exact D|exact M]]].
    destruct I as [<-|I]; [discriminate N|]. apply in_app_or in I. destruct I as [I|I]; [|apply in_app_or in I; destruct I as [I|I]].
    + pose proof (vec_quiet e g (data s)) as F. rewrite Forall_forall in F. specialize (F v I). unfold quiet in F. congruence.
    + pose proof (sys_quiet e g (sysd s) t) as F. rewrite Forall_forall in F. specialize (F v I). unfold quiet in F. congruence.
    + exact I.
  - intros [H|(v & I & N & D & M)]; [left; exact H|right]. exists v. split; [right; apply in_or_app; right; apply in_or_app; right; exact I|].
    split; [apply imu_spec; exact N|]. split; [|split; [exact D|exact M]].
    pose proof (imu_long e g (imus s)) as F. rewrite Forall_forall in F. destruct (F v I) as [_ W]. rewrite W, Li. symmetry. apply t_length.
Qed.
Let cut (v : nvar) : nvar := if Nat.eqb (width v) n then NVar (vname v) (ndim v) (map (firstn a) (lines v)) else v.
Lemma finish_eq : exists ns, finish g e s = Some (Dataset ns (map cut vars)) /\ length ns = a /\
  forall k, k < a -> exists x, nth_error ns k = Some x /\ same_instant x (clk k).
Proof.
  destruct (only_trailing (NData t vars) a) as (d' & E & T & V).
  - exact vars_rect.
  - cbn [ntime]. intros X. pose proof t_length as L. rewrite X in L. cbn in L. lia.
  - cbn [ntime]. rewrite t_length. lia.
  - cbn [ntime]. rewrite t_length. exact gap_iff.
  - cbn [ntime nvars] in T, V. rewrite t_length in V. fold cut in V.
    assert (LT : length (ntime d') = a) by (rewrite T, firstn_length, t_length; lia).
    destruct (dated_ok (g_fs g) (ntime d') clk) as (ns & E1 & L1 & P1).
    + intros k L. rewrite T, firstn_nth_error by lia. apply Ht. lia.
    + exists ns. unfold finish. rewrite data_eq, E, E1. cbn [option_map]. rewrite V. split; [reflexivity|]. split; [lia|].
      intros k L. apply P1. lia.
Qed.
Lemma cut_name v : vname (cut v) = vname v.
Proof. unfold cut. destruct (Nat.eqb (width v) n); reflexivity. Qed.
Lemma cut_at v k i : width v = n -> i < a -> k < length (lines v) -> nth_error (nth k (lines (cut v)) []) i = nth_error (nth k (lines v) []) i.
Proof.
  intros W L K. unfold cut. rewrite W, Nat.eqb_refl. cbn [lines]. rewrite (nth_indep _ [] (firstn a [])) by (rewrite map_length; exact K).
  rewrite map_nth. apply firstn_nth_error. exact L.
Qed.
Let d0 := decoded (decode_vec e (g_scale g)) (data s).
Lemma vec_at ns : (forall k i, k < 3 -> i < a ->
    at_sample (Dataset ns (map cut vars)) "vel" k i = nth_error (floats_of (fun x => nth k (v_vel x) 0%Q) d0) i /\
    at_sample (Dataset ns (map cut vars)) "amp" k i = nth_error (ints_of (fun x => nth k (v_amp x) 0%Z) d0) i /\
    at_sample (Dataset ns (map cut vars)) "corr" k i = nth_error (ints_of (fun x => nth k (v_corr x) 0%Z) d0) i) /\
  (forall i, i < a -> at_sample (Dataset ns (map cut vars)) "pressure" 0 i
     = nth_error (map (fun x => Some (match x with Some a => v_pressure a | None => 0%Q end)) d0) i).
Proof.
  assert (W : forall v, In v (vec_vars e g (data s)) -> width v = n).
  { pose proof (vec_long e g (data s)) as F. rewrite Ld in F. rewrite Forall_forall in F. intros v Hv. apply (F v Hv). }
  unfold at_sample. cbn [d_vars].
  assert (F : forall nm, find (fun v => String.eqb (vname v) nm) (map cut vars) = option_map cut (find (fun v => String.eqb (vname v) nm) vars)).
  { intros nm. apply find_map. intros v. rewrite cut_name. reflexivity. }
  split.
  - intros k i K L. rewrite !F. unfold vars, vec_vars. cbn [find vname mat String.eqb Ascii.eqb Bool.eqb app option_map].
    split; [|split]; (rewrite cut_at; [|apply W; unfold vec_vars; cbn [In]; auto 6|exact L|cbn [lines]; rewrite map_length; exact K]);
      cbn [lines]; destruct k as [|[|[|k]]]; try reflexivity; lia.
  - intros i L. rewrite !F. unfold vars, vec_vars. cbn [find vname mat String.eqb Ascii.eqb Bool.eqb app option_map].
    rewrite cut_at; [reflexivity|apply W; unfold vec_vars; cbn [In]; auto 6|exact L|cbn; lia].
Qed.
Lemma mat_at ns : a = length (sysd s) \/ length (sysd s) <> 3 -> exists v,
  find (fun v => String.eqb (vname v) "beam2inst_orientmat") (d_vars (Dataset ns (map cut vars))) = Some v /\ lines v = map (map Some) (g_beam2inst g).
Proof.
  intros C. exists (cut mat). split; [cbn [d_vars]; rewrite (find_map cut _ vars) by (intros w; rewrite cut_name; reflexivity); reflexivity|].
  rewrite Ls in C. destruct Hm as [M1 M2]. unfold cut. destruct (Nat.eqb_spec (width mat) n) as [W|W]; [|reflexivity]. cbn [lines mat].
  assert (W3 : width mat = 3).
  { unfold width, mat. cbn [lines]. destruct (g_beam2inst g) as [|r l]; [discriminate|]. cbn [map hd]. rewrite map_length. apply (Forall_inv M2). }
  destruct C as [C|C]; [|congruence]. rewrite <- (map_id (map (map Some) (g_beam2inst g))) at 2. apply map_ext_in. intros l Hl. apply in_map_iff in Hl. destruct Hl as (r & <- & Hr).
  rewrite Forall_forall in M2. apply firstn_all2. rewrite map_length, (M2 r Hr). lia.
Qed.
Lemma others_at ns : others e g (sysd s) t (imus s) a (Dataset ns (map cut vars)).
Proof.
  split; [|exact (mat_at ns)]. intros nm v k i Nm Fv K L. unfold at_sample. cbn [d_vars].
  rewrite (find_map cut _ vars) by (intros w; rewrite cut_name; reflexivity).
  assert (X : find (fun v => String.eqb (vname v) nm) vars = Some v).
  { unfold vars, vec_vars. cbn [app find vname mat]. cbn [existsb] in Nm. repeat (apply Bool.orb_false_iff in Nm; destruct Nm as [? Nm]).
    repeat match goal with H : String.eqb _ nm = false |- _ => rewrite H; clear H end. exact Fv. }
  rewrite X. cbn [option_map]. apply cut_at; [|exact L|exact K].
  apply find_some in Fv. destruct Fv as [Fv _]. apply in_app_or in Fv. destruct Fv as [Fv|Fv].
  - pose proof (sys_long e g (sysd s) t) as F. rewrite Ls in F. rewrite Forall_forall in F. apply (F v Fv).
  - pose proof (imu_long e g (imus s)) as F. rewrite Li in F. rewrite Forall_forall in F. apply (F v Fv).
Qed.
Lemma d0_at i : i < n -> nth_error d0 i = Some (match nth_error smp i with Some b => decode_vec e (g_scale g) b | None => None end).
Proof.
  intros L. unfold d0, decoded. rewrite nth_error_map', Hd. destruct (Nat.lt_ge_cases i (length smp)) as [L1|L1].
  - rewrite nth_error_app1 by (rewrite map_length; exact L1). rewrite nth_error_map'. destruct (nth_error smp i) eqn:E; [reflexivity|].
    apply nth_error_None in E. lia.
  - rewrite nth_error_app2 by (rewrite map_length; exact L1). rewrite map_length.
    assert (E : nth_error smp i = None) by (apply nth_error_None; exact L1). rewrite E.
    rewrite nth_error_repeat by lia. reflexivity.
Qed.
Lemma core : exists d, finish g e s = Some d /\ length (d_time d) = a /\ (forall i, i < a -> time_is d i (clk i)) /\
  (forall i byts, i < a -> nth_error smp i = Some byts -> sample_is e (g_scale g) d i byts) /\
  (forall i, length smp <= i < a -> sample_made_up d i) /\ others e g (sysd s) t (imus s) a d.
Proof.
  destruct finish_eq as (ns & E & L & T). exists (Dataset ns (map cut vars)). split; [exact E|]. split; [exact L|].
  split; [intros i Hi; destruct (T i Hi) as (x & X); exists x; exact X|]. destruct (vec_at ns) as [V P]. split; [|split; [|apply others_at]].
  - intros i byts Hi Hb. assert (Lb : length byts = 20) by (rewrite Forall_forall in H20; apply H20; apply (nth_error_In _ _ Hb)).
    destruct (decode_ok e (g_scale g) byts Lb) as (x & X). exists x. split; [exact X|].
    assert (D : nth_error d0 i = Some (Some x)) by (rewrite d0_at by lia; rewrite Hb, X; reflexivity). split.
    + intros k K. destruct (V k i K Hi) as (V1 & V2 & V3). rewrite V1, V2, V3. unfold floats_of, ints_of. rewrite !nth_error_map', D. repeat split.
    + rewrite P by exact Hi. rewrite nth_error_map', D. reflexivity.
  - intros i Hi. assert (D : nth_error d0 i = Some None).
    { rewrite d0_at by lia. replace (nth_error smp i) with (@None bytes); [reflexivity|]. symmetry. apply nth_error_None. lia. }
    split.
    + intros k K. destruct (V k i K ltac:(lia)) as (V1 & V2 & V3). rewrite V1, V2, V3. unfold floats_of, ints_of. rewrite !nth_error_map', D. repeat split.
    + rewrite P by lia. rewrite nth_error_map', D. reflexivity.
Qed.
End Core.

(** ** which blocks the entries come from *)
Lemma upd_some {A} k j (x : A) l y : nth j (upd k x l) None = Some y -> (j = k /\ y = x /\ k < length l) \/ nth j l None = Some y.
Proof.
  intros H. destruct (Nat.eq_dec j k) as [->|N]; [|right; rewrite <- H; symmetry; apply upd_other; exact N].
  destruct (Nat.lt_ge_cases k (length l)) as [L|L]; [left|right].
  - rewrite upd_same in H by exact L. injection H as <-. tauto.
  - rewrite nth_overflow in H by (rewrite upd_length; exact L). discriminate.
Qed.
Lemma upd_stays {A} k j (x : A) l y : nth j l None = Some y -> exists z, nth j (upd k x l) None = Some z.
Proof.
  intros H. destruct (Nat.eq_dec j k) as [->|N]; [|rewrite upd_other by exact N; exists y; exact H].
  destruct (Nat.lt_ge_cases k (length l)) as [L|L]; [exists x; apply upd_same; exact L|]. rewrite nth_overflow in H by exact L. discriminate.
Qed.
Lemma sys_not_velocity b : is_sys b = true -> velocity b = false /\ is_imu b = false.
Proof. unfold is_sys, velocity, is_imu. intros H. apply Z.eqb_eq in H. rewrite H. split; reflexivity. Qed.
Lemma imu_not_velocity b : is_imu b = true -> velocity b = false /\ is_sys b = false.
Proof. unfold is_sys, velocity, is_imu. intros H. apply Z.eqb_eq in H. rewrite H. split; reflexivity. Qed.
Lemma step_sysd s b : sysd (step s b) = if is_sys b then upd (c s) (body b) (sysd s) else sysd s.
Proof.
  unfold step. destruct (velocity b) eqn:V.
  - destruct (is_excl b V) as [-> _]. reflexivity.
  - destruct (is_sys b); [reflexivity|]. destruct (is_imu b); reflexivity.
Qed.
Lemma step_imus s b : imus (step s b) = if is_imu b then upd (Nat.pred (c s)) (nth 3 (body b) 0%Z, skipn 4 (body b)) (imus s) else imus s.
Proof.
  unfold step. destruct (velocity b) eqn:V.
  - destruct (is_excl b V) as [_ ->]. reflexivity.
  - destruct (is_sys b) eqn:S1; [destruct (sys_not_velocity b S1) as [_ ->]; reflexivity|]. destruct (is_imu b); reflexivity.
Qed.
Lemma sys_origin bs : forall s k x, nth k (sysd (fold_left step bs s)) None = Some x ->
  nth k (sysd s) None = Some x \/ exists pre b post, bs = pre ++ b :: post /\ is_sys b = true /\ body b = x /\ c s + count pre = k.
Proof.
  induction bs as [|b bs IH]; intros s k x H; [left; exact H|]. cbn [fold_left] in H. destruct (IH _ _ _ H) as [H1|(pre & b' & post & -> & A & B & C)].
  - rewrite step_sysd in H1. destruct (is_sys b) eqn:S1; [|left; exact H1]. apply upd_some in H1.
    destruct H1 as [(-> & -> & L)|H1]; [right|left; exact H1]. exists [], b, bs. repeat split; [exact S1|]. unfold count. cbn. lia.
  - right. exists (b :: pre), b', post. repeat split; [exact A|exact B|]. rewrite count_cons. rewrite step_c in C. destruct (velocity b); lia.
Qed.
Lemma sys_stays bs : forall s k x, nth k (sysd s) None = Some x -> exists y, nth k (sysd (fold_left step bs s)) None = Some y.
Proof.
  induction bs as [|b bs IH]; intros s k x H; [exists x; exact H|]. cbn [fold_left].
  assert (X : exists z, nth k (sysd (step s b)) None = Some z).
  { rewrite step_sysd. destruct (is_sys b); [apply (upd_stays _ _ _ _ x H)|exists x; exact H]. }
  destruct X as (z & X). apply (IH _ _ z X).
Qed.
Lemma sys_written s pre b post : is_sys b = true -> c s + count pre < length (sysd s) ->
  exists y, nth (c s + count pre) (sysd (fold_left step (pre ++ b :: post) s)) None = Some y.
Proof.
  intros S1 L. rewrite fold_left_app. cbn [fold_left]. apply (sys_stays post _ _ (body b)). rewrite step_sysd, S1, fold_c.
  apply upd_same. destruct (fold_lengths pre s) as (_ & -> & _). exact L.
Qed.
Lemma imu_origin bs : forall s k x, nth k (imus (fold_left step bs s)) None = Some x ->
  nth k (imus s) None = Some x \/ exists pre b post, bs = pre ++ b :: post /\ is_imu b = true /\ (nth 3 (body b) 0%Z, skipn 4 (body b)) = x /\ Nat.pred (c s + count pre) = k.
Proof.
  induction bs as [|b bs IH]; intros s k x H; [left; exact H|]. cbn [fold_left] in H. destruct (IH _ _ _ H) as [H1|(pre & b' & post & -> & A & B & C)].
  - rewrite step_imus in H1. destruct (is_imu b) eqn:S1; [|left; exact H1]. apply upd_some in H1.
    destruct H1 as [(-> & -> & L)|H1]; [right|left; exact H1]. exists [], b, bs. repeat split; [exact S1|]. unfold count. cbn. lia.
  - right. exists (b :: pre), b', post. repeat split; [exact A|exact B|]. rewrite count_cons. rewrite step_c in C. destruct (velocity b); lia.
Qed.
Lemma imu_stays bs : forall s k x, nth k (imus s) None = Some x -> exists y, nth k (imus (fold_left step bs s)) None = Some y.
Proof.
  induction bs as [|b bs IH]; intros s k x H; [exists x; exact H|]. cbn [fold_left].
  assert (X : exists z, nth k (imus (step s b)) None = Some z).
  { rewrite step_imus. destruct (is_imu b); [apply (upd_stays _ _ _ _ x H)|exists x; exact H]. }
  destruct X as (z & X). apply (IH _ _ z X).
Qed.
Lemma imu_written s pre b post : is_imu b = true -> Nat.pred (c s + count pre) < length (imus s) ->
  exists y, nth (Nat.pred (c s + count pre)) (imus (fold_left step (pre ++ b :: post) s)) None = Some y.
Proof.
  intros S1 L. rewrite fold_left_app. cbn [fold_left]. apply (imu_stays post _ _ (nth 3 (body b) 0%Z, skipn 4 (body b))). rewrite step_imus, S1, fold_c.
  apply upd_same. destruct (fold_lengths pre s) as (_ & _ & ->). exact L.
Qed.
Lemma imu_absent bs : no_imu bs -> forall s, imus (fold_left step bs s) = imus s /\ imu_seen (fold_left step bs s) = imu_seen s.
Proof.
  induction 1 as [|b bs H F IH]; intros s; [split; reflexivity|]. cbn [fold_left]. destruct (IH (step s b)) as [-> ->]. rewrite step_imus, H.
  split; [reflexivity|]. unfold step. destruct (velocity b); [reflexivity|]. destruct (is_sys b); [reflexivity|]. rewrite H. reflexivity.
Qed.

(** ** the clock *)
Lemma sys_block_time e b bl : vector_block bl b -> is_sys b = true ->
  exists d, rd_time (skipn 2 (body b)) = Some d /\ match decode_sys e (body b) with
    | Some x => option_map (fun dt => inject_Z (RdiBlocks.epoch dt)) (s_date x) | None => None end = Some (inject_Z (RdiBlocks.epoch d)).
Proof.
  unfold vector_block, is_sys. intros V S1. apply Z.eqb_eq in S1. rewrite S1 in V.
  destruct V as [[V _]|[(_ & L & d & T)|[[V _]|[[V _]|[[V _]|[[V _]|[[V _]|[V _]]]]]]]]; try discriminate V.
  exists d. split; [exact T|]. revert L T. generalize (body b). intros bs L T.
  do 24 (destruct bs as [|? bs]; [discriminate|]). destruct bs; [|discriminate]. cbn [skipn] in T. cbn [decode_sys s_date]. 
  match goal with |- option_map _ ?r = _ => change r with (rd_time [z1; z2; z3; z4; z5; z6; z7; z8; z9; z10; z11; z12; z13; z14; z15; z16; z17; z18; z19; z20; z21; z22]) end.
  rewrite T. reflexivity.
Qed.
Lemma count_app' a b : count (a ++ b) = count a + count b.
Proof. unfold count, samples. rewrite filter_app, map_app, app_length. reflexivity. Qed.
Lemma in_block {P : blk -> Prop} bs pre b post : Forall P bs -> bs = pre ++ b :: post -> P b.
Proof. intros F ->. apply Forall_app in F. destruct F as [_ F]. inversion F; assumption. Qed.
Definition sys_room (bs : list blk) (n : nat) : Prop := forall pre b post, bs = pre ++ b :: post -> is_sys b = true -> count pre < n.
Lemma sys_room_lt bs n : count bs < n -> sys_room bs n.
Proof. intros L pre b post -> _. rewrite count_app' in L. lia. Qed.
Section Clock.
Variables (e bl : endian) (bs : list blk) (n : nat) (header : bytes) (ab : Q * Q).
Hypothesis (WF : Forall (vector_block bl) bs) (CL : clock_of bs ab).
Let s := fold_left step bs (start header n).
Lemma start_sys k : nth k (sysd (start header n)) None = None.
Proof. cbn [sysd start]. destruct (Nat.lt_ge_cases k n); [apply nth_repeat|apply nth_overflow; rewrite repeat_length; exact H]. Qed.
Lemma start_imu k : nth k (imus (start header n)) None = None.
Proof. cbn [imus start]. destruct (Nat.lt_ge_cases k n); [apply nth_repeat|apply nth_overflow; rewrite repeat_length; exact H]. Qed.
Lemma times_on_clock k v : valid (sys_times e (sysd s)) k v -> (v == clock_at ab k)%Q.
Proof.
  intros V. apply valid_nthq in V. destruct V as [_ V]. unfold nthq, sys_times in V. rewrite decoded_nth in V.
  destruct (nth k (sysd s) None) as [x|] eqn:E; [|discriminate]. unfold s in E. apply sys_origin in E.
  destruct E as [E|(pre & b & post & Eb & Sb & <- & C)]; [rewrite start_sys in E; discriminate|].
  destruct (sys_block_time e b bl (in_block bs pre b post WF Eb) Sb) as (d & T & D). rewrite D in V. injection V as <-.
  destruct CL as (_ & _ & CL'). destruct (CL' pre b post Eb Sb) as (d' & T' & Q'). rewrite T in T'. injection T' as <-.
  unfold clock_at. cbn [c start] in C. change (length (samples pre)) with (count pre) in Q'. rewrite <- C. exact Q'.
Qed.
Lemma time_there pre b post : bs = pre ++ b :: post -> is_sys b = true -> count pre < n -> exists v, valid (sys_times e (sysd s)) (count pre) v.
Proof.
  intros Eb Sb L. destruct (sys_written (start header n) pre b post Sb) as (y & Y).
  { cbn [c start sysd]. rewrite repeat_length. exact L. }
  rewrite <- Eb in Y. cbn [c start] in Y. change (0 + count pre) with (count pre) in Y. fold s in Y.
  assert (O := Y). unfold s in O. apply sys_origin in O. destruct O as [O|(pre' & b' & post' & Eb' & Sb' & By & _)]; [rewrite start_sys in O; discriminate|].
  destruct (sys_block_time e b' bl (in_block bs pre' b' post' WF Eb') Sb') as (d & T & D). rewrite By in D.
  exists (inject_Z (RdiBlocks.epoch d)). apply valid_nthq. split.
  - unfold sys_times. rewrite decoded_length. unfold s. destruct (fold_lengths bs (start header n)) as (_ & -> & _). cbn [sysd start]. rewrite repeat_length. exact L.
  - unfold nthq, sys_times. rewrite decoded_nth, Y. exact D.
Qed.
Lemma keeps : sys_room bs n -> three_times bs -> keeps_clock (sys_times e (sysd s)) ab.
Proof.
  intros L (l0 & y0 & l1 & y1 & l2 & y2 & l3 & E & S0 & S1 & S2 & N1 & N2).
  assert (P1 : 0 < count l1) by (unfold count; destruct (samples l1); [congruence|cbn; lia]).
  assert (P2 : 0 < count l2) by (unfold count; destruct (samples l2); [congruence|cbn; lia]).
  destruct (sys_not_velocity y0 S0) as [V0 _]. destruct (sys_not_velocity y1 S1) as [V1 _].
  assert (C1 : count (l0 ++ y0 :: l1) = count l0 + count l1) by (rewrite count_app', count_cons, V0; reflexivity).
  assert (C2 : count (l0 ++ y0 :: l1 ++ y1 :: l2) = count l0 + count l1 + count l2)
    by (rewrite count_app', count_cons, V0, count_app', count_cons, V1; lia).
  assert (E0 : bs = l0 ++ y0 :: (l1 ++ y1 :: l2 ++ y2 :: l3)) by exact E.
  assert (E1 : bs = (l0 ++ y0 :: l1) ++ y1 :: (l2 ++ y2 :: l3)) by (rewrite E, <- app_assoc; reflexivity).
  assert (E2 : bs = (l0 ++ y0 :: l1 ++ y1 :: l2) ++ y2 :: l3) by (rewrite E, <- !app_assoc; cbn; rewrite <- !app_assoc; reflexivity).
  pose proof (L _ _ _ E0 S0) as R0. pose proof (L _ _ _ E1 S1) as R1. pose proof (L _ _ _ E2 S2) as R2.
  exists (count l0), (count (l0 ++ y0 :: l1)), (count (l0 ++ y0 :: l1 ++ y1 :: l2)).
  split; [apply (time_there l0 y0 _ E0 S0 R0)|]. split; [lia|]. split; [apply (time_there _ y1 _ E1 S1 R1)|].
  split; [lia|]. split; [apply (time_there _ y2 _ E2 S2 R2)|].
  intros k v V. apply (times_on_clock k v V).
Qed.
End Clock.

Lemma same_nth a b k : same_series a b -> match nth_error a k, nth_error b k with
  | Some (Some p), Some (Some q) => (p == q)%Q | Some None, Some None => True | None, None => True | _, _ => False end.
Proof.
  intros H. revert k. induction H as [|x y a b E H IH]; intros [|k]; cbn [nth_error]; [exact I|exact I| |apply IH].
  destruct x, y; try exact E; destruct E.
Qed.
Lemma clock_nth n ab k : k < n -> nth_error (clock_reading n ab) k = Some (Some (clock_at ab k)).
Proof.
  intros L. unfold clock_reading. rewrite nth_error_map'. rewrite (nth_error_nth' _ 0) by (rewrite seq_length; exact L).
  rewrite seq_nth by exact L. reflexivity.
Qed.
Lemma clock_positive ab k : (0 < fst ab)%Q -> (0 <= snd ab)%Q -> (0 < clock_at ab k)%Q.
Proof.
  intros A B. unfold clock_at. apply (Qlt_le_trans _ (fst ab + 0)).
  - rewrite Qplus_0_r. exact A.
  - apply Qplus_le_compat; [apply Qle_refl|]. apply Qmult_le_0_compat; [exact B|]. change 0%Q with (inject_Z 0). rewrite <- Zle_Qle. apply Nat2Z.is_nonneg.
Qed.
Lemma continuous_times fs t ab k : keeps_clock t ab -> (0 < fst ab)%Q -> (0 <= snd ab)%Q -> k < length t ->
  exists q, nth_error (sample_times fs 0 t) k = Some (Some q) /\ (q == clock_at ab k)%Q /\ (0 < q)%Q.
Proof.
  intros K A B L.
  assert (S1 : same_series (sample_times fs 0 t) (clock_reading (length t) ab)).
  { assert (NE : t <> []) by (destruct t; [cbn in L; lia|discriminate]). rewrite (sample_times_continuous fs t NE).
    destruct K as (i0 & i & j & (v0 & V0) & L0 & Vi & L1 & Vj & H). apply (burst_line fs t (fst ab) (snd ab) i j); try assumption.
    - intros m v V _. apply (H m v V).
    - exists i0, v0. split; assumption. }
  pose proof (same_nth _ _ k S1) as N. rewrite (clock_nth _ ab k L) in N.
  destruct (nth_error (sample_times fs 0 t) k) as [[q|]|]; try contradiction. exists q. split; [reflexivity|]. split; [exact N|].
  rewrite N. apply clock_positive; assumption.
Qed.

(** ** IMU data *)
Lemma first_of_none {A} n : @first_of A (repeat None n) = None.
Proof. induction n as [|n IH]; [reflexivity|exact IH]. Qed.
Lemma first_of_in {A} (l : list (option A)) x : first_of l = Some x -> In (Some x) l.
Proof. induction l as [|[y|] l IH]; intros H; [discriminate| |right; apply IH; exact H]. injection H as ->. left. reflexivity. Qed.
Lemma first_of_some {A} (l : list (option A)) k x : nth k l None = Some x -> exists y, first_of l = Some y.
Proof.
  revert k. induction l as [|[y|] l IH]; intros [|k] H; try discriminate; [exists y; reflexivity|exists y; reflexivity|]. apply (IH k H).
Qed.
Lemma no_gap e g n k : ~ imu_gap e g (repeat None n) k.
Proof. intros (v & I & _). unfold imu_vars in I. rewrite first_of_none in I. destruct I. Qed.
Lemma floats_length e : forall m bs, length bs <= m -> 4 * length (floats e bs) <= length bs /\ length bs < 4 * length (floats e bs) + 4.
Proof.
  induction m as [|m IH]; intros bs L.
  - destruct bs; [cbn; lia|cbn in L; lia].
  - destruct bs as [|a [|b [|c [|d bs]]]]; try (cbn; lia). cbn [floats length] in *. specialize (IH bs ltac:(lia)). lia.
Qed.
Lemma three_ok (fl : list (option Q)) k : Forall (fun x => x <> None) fl -> k + 3 <= length fl ->
  exists x y z, firstn 3 (skipn k fl) = [Some x; Some y; Some z].
Proof.
  intros F L. assert (F' : Forall (fun x => x <> None) (skipn k fl)).
  { apply Forall_forall. intros x Hx. rewrite Forall_forall in F. apply F. rewrite <- (firstn_skipn k fl). apply in_or_app. right. exact Hx. }
  pose proof (skipn_length k fl) as SL. destruct (skipn k fl) as [|[x|] [|[y|] [|[z|] r]]]; cbn in SL; try lia;
    inversion F' as [|? ? A F1]; subst; try congruence; inversion F1 as [|? ? B F2]; subst; try congruence; inversion F2 as [|? ? C F3]; subst; try congruence.
  exists x, y, z. reflexivity.
Qed.
Definition known (id : Z) (len : nat) : Prop := (id = 195%Z /\ len = 64) \/ (id = 204%Z /\ len = 78) \/ (id = 211%Z /\ len = 42).
Lemma imu_block_known bl b : vector_block bl b -> is_imu b = true -> known (nth 3 (body b) 0%Z) (length (skipn 4 (body b))).
Proof.
  unfold vector_block, is_imu. intros V S1. apply Z.eqb_eq in S1. rewrite S1 in V.
  destruct V as [[V _]|[[V _]|[[V _]|[[V _]|[(_ & s0 & s1 & n & id & vals & -> & K)|[[V _]|[[V _]|[V _]]]]]]]]; try discriminate V.
  cbn [nth app skipn]. exact K.
Qed.
Lemma last_row fs e id vals : known id (length vals) -> Forall (fun x => x <> None) (floats e vals) ->
  let x := sci_imu fs id (decode_imu e (id, vals)) in
  nth 2 (i_accel x) None <> None /\ nth 2 (i_angrt x) None <> None /\ (id <> 195%Z -> nth 2 (i_mag x) None <> None).
Proof.
  intros K F. pose proof (floats_length e (length vals) vals (le_n _)) as L.
  destruct K as [[-> K]|[[-> K]|[-> K]]]; rewrite K in L; cbv zeta; unfold sci_imu, decode_imu; cbn [fst snd Z.eqb Pos.eqb orb i_accel i_angrt i_mag i_omat].
  - destruct (three_ok _ 3 F ltac:(lia)) as (x1 & y1 & z1 & ->). destruct (three_ok _ 0 F ltac:(lia)) as (x2 & y2 & z2 & ->).
    cbn [remap map nth oneg oscale option_map]. repeat split; congruence.
  - destruct (three_ok _ 0 F ltac:(lia)) as (x1 & y1 & z1 & ->). destruct (three_ok _ 3 F ltac:(lia)) as (x2 & y2 & z2 & ->).
    destruct (three_ok _ 6 F ltac:(lia)) as (x3 & y3 & z3 & ->).
    cbn [remap map nth oneg oscale option_map]. repeat split; congruence.
  - destruct (three_ok _ 3 F ltac:(lia)) as (x1 & y1 & z1 & ->). destruct (three_ok _ 0 F ltac:(lia)) as (x2 & y2 & z2 & ->).
    destruct (three_ok _ 6 F ltac:(lia)) as (x3 & y3 & z3 & ->).
    cbn [remap map nth oneg oscale option_map]. repeat split; congruence.
Qed.
Lemma gap_at e g (l : list (option (Z * bytes))) id k : k < length l ->
  (forall j m, nth j l None = Some m -> fst m = id /\ known id (length (snd m)) /\ Forall (fun x => x <> None) (floats e (snd m))) ->
  (exists j m, nth j l None = Some m) ->
  (imu_gap e g l k <-> nth k l None = None).
Proof.
  intros L H (j & m & J). unfold imu_gap, imu_vars. destruct (@first_of_some (Z * bytes) l j m J) as ([id' x] & E). rewrite E.
  assert (id' = id) as ->.
  { apply first_of_in in E. apply (In_nth _ _ None) in E. destruct E as (p & _ & E). destruct (H p _ E) as (X & _). exact X. }
  cbv zeta. set (d := map (option_map (fun m => sci_imu (g_fs g) id (decode_imu e m))) l).
  set (row := fun (f : imu_sample -> list (option Q)) k => map (fun x => match x with Some m => nth k (f m) None | None => None end) d).
  assert (R : forall f : imu_sample -> list (option Q), missing_in (row f 2) k <->
     match nth k l None with Some m => nth 2 (f (sci_imu (g_fs g) id (decode_imu e m))) None = None | None => True end).
  { intros f. unfold missing_in, row, d. rewrite !nth_error_map', (nth_error_opt l k L). destruct (nth k l None) as [y|]; cbn [option_map].
    - split; [intros X; injection X as X; exact X|intros ->; reflexivity].
    - split; [intros _; exact I|reflexivity]. }
  assert (NG : nth k l None <> None -> (~ missing_in (row i_accel 2) k) /\ (~ missing_in (row i_angrt 2) k) /\ (id <> 195%Z -> ~ missing_in (row i_mag 2) k)).
  { intros N. destruct (nth k l None) as [[id1 vals]|] eqn:En; [|congruence]. destruct (H k _ En) as (X & Kn & F). cbn [fst snd] in X, Kn, F. subst id1.
    destruct (last_row (g_fs g) e id vals Kn F) as (A & B & C). rewrite !R. split; [exact A|]. split; [exact B|exact C]. }
  split.
  - intros (v & I & Nm & Nd & M). destruct (nth k l None) as [y|] eqn:En; [|reflexivity]. exfalso.
    destruct (NG ltac:(congruence)) as (A & B & C).
    destruct (Z.eqb_spec id 195) as [->|N195]; [|destruct (Z.eqb_spec id 204) as [->|_]].
    + destruct I as [<-|[<-|[<-|[]]]]; [apply A; exact M|apply B; exact M|discriminate Nm].
    + destruct I as [<-|[<-|[<-|[<-|[]]]]]; [apply A; exact M|apply B; exact M|apply C; [exact N195|exact M]|discriminate Nm].
    + destruct I as [<-|[<-|[<-|[]]]]; [apply B; exact M|apply A; exact M|apply C; [exact N195|exact M]].
  - intros En. exists (NVar "accel" 2 (map (row i_accel) [0; 1; 2])). split.
    + destruct (Z.eqb id 195); [|destruct (Z.eqb id 204)]; cbn [In]; auto.
    + split; [reflexivity|]. split; [right; reflexivity|]. change (missing_in (row i_accel 2) k). rewrite R, En. exact I.
Qed.

(** ** whole files *)
Lemma samples20 bl bs : Forall (vector_block bl) bs -> Forall (fun b => length b = 20) (samples bs).
Proof.
  intros F. apply Forall_forall. intros x Hx. unfold samples in Hx. apply in_map_iff in Hx. destruct Hx as (b & <- & Hb). apply filter_In in Hb.
  destruct Hb as [Hb V]. rewrite Forall_forall in F. specialize (F b Hb). unfold velocity in V. apply Z.eqb_eq in V. unfold vector_block in F. rewrite V in F.
  destruct F as [[_ F]|[[F _]|[[F _]|[[F _]|[[F _]|[[F _]|[[F _]|[F _]]]]]]]]; try discriminate F. exact F.
Qed.
Lemma imu_state e bl bs n header : Forall (vector_block bl) bs -> imu_after_velocity bs -> imu_every e bs -> count bs <= n -> 0 < count bs ->
  let l := imus (fold_left step bs (start header n)) in
  exists id, (forall j m, nth j l None = Some m -> fst m = id /\ known id (length (snd m)) /\ Forall (fun x => x <> None) (floats e (snd m)) /\ j < count bs) /\
    (forall j, j < count bs -> exists m, nth j l None = Some m).
Proof.
  intros WF IA ((id & I1) & I2) L P l. exists id. split.
  - intros j m E. unfold l in E. apply imu_origin in E. destruct E as [E|(pre & b & post & Eb & Ib & <- & C)]; [rewrite start_imu in E; discriminate|].
    assert (Inb : In b bs) by (rewrite Eb; apply in_or_app; right; left; reflexivity).
    destruct (I1 b Inb Ib) as [A B]. cbn [fst snd]. split; [exact A|]. split; [rewrite <- A; apply (imu_block_known bl b); [|exact Ib]; rewrite Forall_forall in WF; apply WF; exact Inb|].
    split; [exact B|]. cbn [c start] in C. pose proof (imu_hyp bs IA pre b post Eb Ib) as X. rewrite Eb, count_app'. lia.
  - intros j Hj. destruct (split_at bs j Hj) as (pre & v & post & Eb & Vv & Cp).
    destruct (I2 pre v post Eb Vv) as (mid & i & post' & -> & Sm & Ii).
    assert (E2 : bs = (pre ++ v :: mid) ++ i :: post') by (rewrite Eb, <- app_assoc; reflexivity).
    assert (Cm : count (pre ++ v :: mid) = S j).
    { rewrite count_app', count_cons, Vv. assert (count mid = 0) by (unfold count; rewrite Sm; reflexivity). lia. }
    destruct (imu_written (start header n) (pre ++ v :: mid) i post' Ii) as (y & Y).
    { rewrite Cm. cbn [c start imus]. rewrite repeat_length. cbn. lia. }
    rewrite Cm in Y. cbn [c start plus Nat.pred] in Y. rewrite <- E2 in Y. exists y. exact Y.
Qed.
Lemma exists_some {A} (l : list (option A)) k x : nth k l None = Some x -> existsb is_some l = true.
Proof.
  intros H. apply existsb_exists. exists (Some x). split; [|reflexivity]. rewrite <- H. apply nth_In.
  destruct (Nat.lt_ge_cases k (length l)) as [L|L]; [exact L|]. rewrite nth_overflow in H by exact L. discriminate.
Qed.
Lemma has_sys bs n header : three_times bs -> sys_room bs n -> existsb is_some (sysd (fold_left step bs (start header n))) = true.
Proof.
  intros (l0 & y0 & l1 & y1 & l2 & y2 & l3 & E & S0 & _) L.
  destruct (sys_written (start header n) l0 y0 (l1 ++ y1 :: l2 ++ y2 :: l3) S0) as (y & Y).
  { cbn [c start sysd]. rewrite repeat_length. apply (L _ _ _ E S0). }
  rewrite <- E in Y. apply (exists_some _ _ _ Y).
Qed.
Lemma state_lengths bs n header : let s := fold_left step bs (start header n) in length (data s) = n /\ length (sysd s) = n /\ length (imus s) = n.
Proof. cbv zeta. destruct (fold_lengths bs (start header n)) as (A & B & C). rewrite A, B, C. cbn [data sysd imus start]. rewrite !repeat_length. tauto. Qed.
Lemma some_sample bs : three_times bs -> samples bs <> [].
Proof.
  intros (l0 & y0 & l1 & y1 & l2 & y2 & l3 & -> & _ & _ & _ & N & _) H. apply N. unfold samples in *. rewrite filter_app, map_app in H.
  apply app_eq_nil in H. destruct H as [_ H]. cbn [filter] in H.
  assert (G : forall b l, map body (if velocity b then b :: filter velocity l else filter velocity l) = [] -> map body (filter velocity l) = [])
    by (intros b l X; destruct (velocity b); [discriminate|exact X]).
  apply G in H. rewrite filter_app, map_app in H. apply app_eq_nil in H. apply H.
Qed.

(** the dataset of the blocks [bs] in arrays of [n] entries, of which [a0] get a time *)
Lemma of_state e header bs n a0 g clk (every : bool) p : Forall (vector_block e) bs -> imu_after_velocity bs ->
  count bs <= a0 <= n -> 0 < count bs -> three_by_three (g_beam2inst g) -> existsb is_some (sysd (fold_left step bs (start header n))) = true ->
  (if every then imu_every e bs else no_imu bs) ->
  let t := sample_times (g_fs g) (g_burst g) (sys_times e (sysd (fold_left step bs (start header n)))) in
  (forall k, k < a0 -> exists q, nth_error t k = Some (Some q) /\ (q == clk k)%Q /\ (0 < q)%Q) ->
  (forall k, a0 <= k < n -> nth_error t k = Some None) ->
  exists d, finish g e (at_pos p (fold_left step bs (start header n))) = Some d /\
    length (d_time d) = (if every then count bs else a0) /\ (forall i, i < length (d_time d) -> time_is d i (clk i)) /\
    (forall i byts, nth_error (samples bs) i = Some byts -> sample_is e (g_scale g) d i byts) /\
    (forall i, count bs <= i < length (d_time d) -> sample_made_up d i) /\
    others e g (sysd (fold_left step bs (start header n))) t (imus (fold_left step bs (start header n))) (length (d_time d)) d.
Proof.
  intros WF IM A Pos M HS EV t T1 T2. set (s := fold_left step bs (start header n)) in *.
  destruct (state_lengths bs n header) as (L1 & L2 & L3). fold s in L1, L2, L3.
  set (a := if every then count bs else a0).
  destruct (core g e (at_pos p s) n a clk (samples bs)) as (d & D1 & D2 & D3 & D4 & D5 & D6); cbn [data sysd imus at_pos]; try assumption.
  - unfold s. rewrite (fold_data bs (start header n) [] n); [reflexivity|reflexivity|reflexivity|lia].
  - intros X. unfold count in Pos. rewrite X in Pos. cbn in Pos. lia.
  - apply (samples20 e). exact WF.
  - unfold a. destruct every; lia.
  - intros k Hk. apply T1. unfold a in Hk. destruct every; lia.
  - intros k Hk. fold t. unfold a. destruct every.
    + destruct (imu_state e e bs n header WF IM EV ltac:(lia) Pos) as (id & J1 & J2). fold s in J1, J2.
      rewrite (gap_at e g (imus s) id k); [|lia|intros j m Hj; destruct (J1 j m Hj) as (X1 & X2 & X3 & _); tauto|].
      * split.
        -- intros [X|X]; [|destruct (Nat.lt_ge_cases k (count bs)) as [Lk|Lk]; [|exact Lk]; destruct (J2 k Lk) as (m & Em); congruence].
           destruct (Nat.lt_ge_cases k a0) as [Lk|Lk]; [|lia]. destruct (T1 k Lk) as (q & Q1 & _). congruence.
        -- intros Lk. right. destruct (nth k (imus s) None) as [m|] eqn:Em; [|reflexivity]. destruct (J1 k m Em) as (_ & _ & _ & X). lia.
      * destruct (J2 0 Pos) as (m & Em). exists 0, m. exact Em.
    + unfold s. destruct (imu_absent bs EV (start header n)) as [X _]. rewrite X. cbn [imus start]. split.
      * intros [Y|Y]; [|destruct (no_gap e g n k Y)]. destruct (Nat.lt_ge_cases k a0) as [Lk|Lk]; [|lia]. destruct (T1 k Lk) as (q & Q1 & _). congruence.
      * intros Lk. left. apply T2. lia.
  - exists d. split; [exact D1|]. split; [exact D2|]. rewrite D2. split; [exact D3|]. split; [|split; [exact D5|exact D6]].
    intros i byts Hb. apply D4; [|exact Hb]. assert (X : i < length (samples bs)) by (apply nth_error_Some; congruence).
    change (length (samples bs)) with (count bs) in X. unfold a. destruct every; lia.
Qed.
Lemma of_state_continuous e header bs n g ab (every : bool) p : Forall (vector_block e) bs -> imu_after_velocity bs ->
  count bs <= n -> sys_room bs n -> three_by_three (g_beam2inst g) -> g_burst g = 0 -> clock_of bs ab -> three_times bs ->
  (if every then imu_every e bs else no_imu bs) ->
  exists d, finish g e (at_pos p (fold_left step bs (start header n))) = Some d /\
    length (d_time d) = (if every then count bs else n) /\ (forall i, i < length (d_time d) -> time_is d i (clock_at ab i)) /\
    (forall i byts, nth_error (samples bs) i = Some byts -> sample_is e (g_scale g) d i byts) /\
    (forall i, count bs <= i < length (d_time d) -> sample_made_up d i) /\
    others e g (sysd (fold_left step bs (start header n))) (sample_times (g_fs g) 0 (sys_times e (sysd (fold_left step bs (start header n)))))
      (imus (fold_left step bs (start header n))) (length (d_time d)) d.
Proof.
  intros WF IM C R M B CL TT EV.
  assert (Pos : 0 < count bs) by (pose proof (some_sample bs TT); unfold count; destruct (samples bs); [congruence|cbn; lia]).
  rewrite <- B. apply of_state; try assumption.
  - lia.
  - apply has_sys; assumption.
  - intros k Hk. rewrite B. apply continuous_times; [apply (keeps e e); assumption|apply CL|apply CL|].
    unfold sys_times. rewrite decoded_length. destruct (state_lengths bs n header) as (_ & -> & _). exact Hk.
  - intros k Hk. lia.
Qed.
Lemma whole_file r header bs tail n g ab (every : bool) : rinst r = Vector -> rpings r = None -> cut_off tail ->
  Forall (vector_block (rendian r)) bs -> Forall (verified r) bs -> imu_after_velocity bs -> count bs < n -> three_by_three (g_beam2inst g) ->
  g_burst g = 0 -> clock_of bs ab -> three_times bs -> (if every then imu_every (rendian r) bs else no_imu bs) ->
  exists d, read_dataset g r (file_of header bs tail) (length header) n = Some d /\
    length (d_time d) = (if every then count bs else n) /\ (forall i, i < length (d_time d) -> time_is d i (clock_at ab i)) /\
    (forall i byts, nth_error (samples bs) i = Some byts -> sample_is (rendian r) (g_scale g) d i byts) /\
    (forall i, count bs <= i < length (d_time d) -> sample_made_up d i) /\
    others (rendian r) g (sysd (fold_left step bs (start header n))) (sample_times (g_fs g) 0 (sys_times (rendian r) (sysd (fold_left step bs (start header n)))))
      (imus (fold_left step bs (start header n))) (length (d_time d)) d.
Proof.
  intros I P CO WF V IM C M B CL TT EV. destruct (read_all r header bs tail n I P CO WF V IM C) as [p E].
  unfold read_dataset. rewrite E. apply of_state_continuous; try assumption; [lia|]. apply sys_room_lt. exact C.
Qed.

(** the first samples: up to [v], and with an IMU the block after it *)
Lemma first_samples r header bs1 v rest n k : rinst r = Vector -> rpings r = Some k -> k = S (count bs1) -> velocity v = true ->
  Forall (vector_block (rendian r)) (bs1 ++ [v]) -> Forall (verified r) (bs1 ++ [v]) -> imu_after_velocity bs1 ->
  readfile r (header ++ concat (map bytes_of (bs1 ++ [v])) ++ rest) (length header) n
    = Some (last_imu r (header ++ concat (map bytes_of (bs1 ++ [v])) ++ rest) (fold_left step (bs1 ++ [v]) (start header k))).
Proof.
  intros I P K Vv WF Ve IM. set (file := header ++ concat (map bytes_of (bs1 ++ [v])) ++ rest).
  apply Forall_app in WF. destruct WF as [WF1 WF2]. inversion WF2 as [|? ? WF3 _]; subst x l.
  apply Forall_app in Ve. destruct Ve as [V1 V2]. inversion V2 as [|? ? V3 _]; subst x l.
  assert (SK : skipn (pos (start header k)) file = concat (map bytes_of bs1) ++ bytes_of v ++ rest).
  { unfold file. cbn [pos start]. rewrite skipn_app, skipn_all, Nat.sub_diag. cbn [skipn app]. rewrite map_app, concat_app. cbn [map concat].
    rewrite app_nil_r, <- !app_assoc. reflexivity. }
  unfold readfile. rewrite P. fold (start header k).
  assert (FL : length bs1 < length file).
  { unfold file. rewrite !app_length. pose proof (blocks_length (bs1 ++ [v])) as X. rewrite app_length in X. cbn in X. lia. }
  replace (S (length file)) with (length bs1 + S (length file - length bs1)) by lia.
  set (s1 := fold_left step bs1 (start header k)).
  destruct (state_lengths bs1 k header) as (L1 & L2 & L3). fold s1 in L1, L2, L3.
  assert (C1 : c s1 = count bs1) by (unfold s1; rewrite fold_c; reflexivity).
  rewrite (run_pre r file I bs1 (start header k) (S (length file - length bs1)) (bytes_of v ++ rest)); try assumption.
  - fold s1. cbn [readfile_loop]. rewrite (readnext_block r file s1 v rest); try assumption.
    + replace (enough r (step s1 v)) with true; [rewrite fold_left_app; reflexivity|]. unfold enough. rewrite P, step_c, Vv, C1, K.
      symmetry. apply Nat.leb_le. lia.
    + unfold s1. rewrite fold_pos. apply skip_next. exact SK.
    + destruct (is_excl v Vv) as [B1 B2]. unfold room. rewrite B1, B2. repeat split; try discriminate. lia.
  - apply (rooms_ok bs1 _ k); try apply repeat_length; [cbn [c start]; lia|]. intros pre b post E Ib. apply (imu_hyp bs1 IM pre b post E Ib).
  - intros m Hm. rewrite P in Hm. injection Hm as <-. cbn [c start]. lia.
Qed.
Lemma sys_in_front bs1 v pre b post : velocity v = true -> bs1 ++ [v] = pre ++ b :: post -> is_sys b = true ->
  exists post1, bs1 = pre ++ b :: post1.
Proof.
  intros Vv E Sb. destruct (@exists_last _ (b :: post)) as (q & x & X); [discriminate|]. rewrite X, app_assoc in E. apply app_inj_tail in E.
  destruct E as [E <-]. destruct q as [|b' q].
  - cbn in X. injection X as <- _. destruct (sys_not_velocity b Sb) as [A _]. congruence.
  - injection X as <- _. exists q. exact E.
Qed.
Lemma sys_in_front2 bs1 v i pre b post : velocity v = true -> is_imu i = true -> bs1 ++ [v; i] = pre ++ b :: post -> is_sys b = true ->
  exists post1, bs1 = pre ++ b :: post1.
Proof.
  intros Vv Ii E Sb. change [v; i] with ([v] ++ [i]) in E. rewrite app_assoc in E.
  destruct (@exists_last _ (b :: post)) as (q & x & X); [discriminate|]. rewrite X, app_assoc in E. apply app_inj_tail in E.
  destruct E as [E <-]. destruct q as [|b' q].
  - cbn in X. injection X as <- _. destruct (imu_not_velocity b Ii) as [_ A]. congruence.
  - injection X as <- _. apply (sys_in_front bs1 v pre b q Vv E Sb).
Qed.
Lemma three_longer bs l : three_times bs -> three_times (bs ++ l).
Proof.
  intros (l0 & y0 & l1 & y1 & l2 & y2 & l3 & E & H). exists l0, y0, l1, y1, l2, y2, (l3 ++ l). split; [|exact H].
  rewrite E. rewrite <- app_assoc. cbn. rewrite <- app_assoc. cbn. rewrite <- app_assoc. reflexivity.
Qed.
Lemma imu_seen_stays bs : forall s, imu_seen s = true -> imu_seen (fold_left step bs s) = true.
Proof.
  induction bs as [|b bs IH]; intros s H; [exact H|]. cbn [fold_left]. apply IH. unfold step.
  destruct (velocity b); [exact H|]. destruct (is_sys b); [exact H|]. destruct (is_imu b); [reflexivity|exact H].
Qed.
Lemma imu_seen_some bs pre b post s : bs = pre ++ b :: post -> is_imu b = true -> imu_seen (fold_left step bs s) = true.
Proof.
  intros -> Ib. rewrite fold_left_app. cbn [fold_left]. apply imu_seen_stays. destruct (imu_not_velocity b Ib) as [A B]. unfold step. rewrite A, B, Ib. reflexivity.
Qed.
Lemma first_dataset r header bs1 v post rest n g ab k (every : bool) : rinst r = Vector -> rpings r = Some k -> k = S (count bs1) -> velocity v = true ->
  Forall (vector_block (rendian r)) (bs1 ++ v :: post) -> Forall (verified r) (bs1 ++ v :: post) -> imu_after_velocity (bs1 ++ v :: post) ->
  three_by_three (g_beam2inst g) -> g_burst g = 0 -> clock_of bs1 ab -> three_times bs1 ->
  (if every then exists i, post = [i] /\ is_imu i = true /\ imu_every (rendian r) (bs1 ++ v :: post) else post = [] /\ no_imu bs1) ->
  exists d, read_dataset g r (header ++ concat (map bytes_of (bs1 ++ v :: post)) ++ rest) (length header) n = Some d /\
    holds_exactly (rendian r) (g_scale g) (samples bs1 ++ [body v]) (clock_at ab) d.
Proof.
  intros I P K Vv WF Ve IM M B CL TT EV. set (e := rendian r) in *. unfold read_dataset.
  assert (SM : samples (bs1 ++ [v]) = samples bs1 ++ [body v]).
  { unfold samples. rewrite filter_app, map_app. cbn [filter]. rewrite Vv. reflexivity. }
  assert (CK : count (bs1 ++ [v]) = k) by (unfold count; rewrite SM, app_length, K; cbn; unfold count; lia).
  assert (IM1 : imu_after_velocity bs1).
  { intros pre b q E Ib. apply (IM pre b (q ++ v :: post)); [rewrite E, <- app_assoc; reflexivity|exact Ib]. }
  destruct every.
  - destruct EV as (i & -> & Ii & EV). change (v :: [i]) with ([v] ++ [i]) in *. rewrite (app_assoc bs1 [v] [i]) in *.
    assert (WF' := WF). assert (Ve' := Ve). apply Forall_app in WF'. destruct WF' as [WF1 WF2]. apply Forall_app in Ve'. destruct Ve' as [V1 V2].
    inversion WF2 as [|? ? WFi _]; subst x l. inversion V2 as [|? ? Vi _]; subst x l.
    replace (header ++ concat (map bytes_of ((bs1 ++ [v]) ++ [i])) ++ rest) with (header ++ concat (map bytes_of (bs1 ++ [v])) ++ (bytes_of i ++ rest))
      by (rewrite (map_app bytes_of (bs1 ++ [v])), concat_app; cbn [map concat]; rewrite app_nil_r, <- !app_assoc; reflexivity).
    pose proof (first_samples r header bs1 v (bytes_of i ++ rest) n k I P K Vv WF1 V1 IM1) as RF.
    match goal with |- context [readfile ?x1 ?x2 ?x3 ?x4] => replace (readfile x1 x2 x3 x4) with
      (Some (last_imu r (header ++ concat (map bytes_of (bs1 ++ [v])) ++ (bytes_of i ++ rest)) (fold_left step (bs1 ++ [v]) (start header k)))) by (symmetry; exact RF) end.
    clear RF. set (file := header ++ concat (map bytes_of (bs1 ++ [v])) ++ bytes_of i ++ rest).
    set (s1 := fold_left step (bs1 ++ [v]) (start header k)).
    destruct (state_lengths (bs1 ++ [v]) k header) as (L1 & L2 & L3). fold s1 in L1, L2, L3.
    assert (C1 : c s1 = k) by (unfold s1; rewrite fold_c; exact CK).
    assert (SEEN : imu_seen s1 = true).
    { pose proof (some_sample bs1 TT) as NE. destruct (split_at bs1 0) as (pre & w & q & E & Vw & _).
      { unfold count. destruct (samples bs1); [congruence|cbn; lia]. }
      destruct EV as [_ EV2]. destruct (EV2 pre w (q ++ [v; i])) as (mid & i' & post' & E' & Sm & Ii').
      { rewrite E, <- !app_assoc. reflexivity. }
      { exact Vw. }
      assert (IN : exists q', q = mid ++ i' :: q').
      { clear - E' Sm Ii' Vv. revert mid E' Sm. induction q as [|x q IH]; intros mid E' Sm.
        - destruct mid as [|m mid]; cbn in E'; injection E' as E1 E2; [subst i'|subst m].
          + destruct (imu_not_velocity v Ii') as [A _]. congruence.
          + exfalso. unfold samples in Sm. cbn [filter] in Sm. rewrite Vv in Sm. discriminate.
        - destruct mid as [|m mid]; cbn in E'; injection E' as E1 E2; [subst i'; exists q; reflexivity|subst m].
          destruct (IH mid E2) as (q' & ->); [|exists q'; reflexivity]. unfold samples in *. cbn [filter] in Sm. destruct (velocity x); [discriminate|exact Sm]. }
      destruct IN as (q' & ->). unfold s1. apply (imu_seen_some (bs1 ++ [v]) (pre ++ w :: mid) i' (q' ++ [v])); [|exact Ii'].
      rewrite E, <- !app_assoc. cbn. rewrite <- app_assoc. reflexivity. }
    assert (LAST : last_imu r file s1 = fold_left step ((bs1 ++ [v]) ++ [i]) (start header k)).
    { unfold last_imu. rewrite SEEN, (readnext_block r file s1 i rest); [rewrite fold_left_app; reflexivity|exact I| |exact WFi|exact Vi|].
      - unfold s1. rewrite fold_pos. cbn [pos start]. apply (skip_next file (length header)). unfold file. rewrite skipn_app, skipn_all, Nat.sub_diag. reflexivity.
      - destruct (imu_not_velocity i Ii) as [A A']. unfold room. rewrite A, A'. repeat split; try discriminate; lia. }
    rewrite LAST.
    assert (Vi' : velocity i = false) by (apply (imu_not_velocity i Ii)).
    assert (CK2 : count ((bs1 ++ [v]) ++ [i]) = k) by (rewrite count_app', CK, count_cons, Vi'; cbn; lia).
    assert (SM2 : samples ((bs1 ++ [v]) ++ [i]) = samples bs1 ++ [body v]).
    { unfold samples in *. rewrite filter_app, map_app, SM. cbn [filter]. rewrite Vi'. cbn. apply app_nil_r. }
    destruct (of_state_continuous e header ((bs1 ++ [v]) ++ [i]) k g ab true (pos (fold_left step ((bs1 ++ [v]) ++ [i]) (start header k)))) as (d & D1 & D2 & D3 & D4 & _); try assumption.
    + lia.
    + intros pre b q E Sb. rewrite <- app_assoc in E. destruct (sys_in_front2 bs1 v i pre b q Vv Ii E Sb) as (q1 & E1). rewrite K, E1, count_app'. lia.
    + destruct CL as (A & A' & CL). split; [exact A|]. split; [exact A'|]. intros pre b q E Sb. rewrite <- app_assoc in E.
      destruct (sys_in_front2 bs1 v i pre b q Vv Ii E Sb) as (q1 & E1). apply (CL pre b q1 E1 Sb).
    + apply three_longer. apply three_longer. exact TT.
    + exists d. split; [rewrite <- D1; f_equal; destruct (fold_left step ((bs1 ++ [v]) ++ [i]) (start header k)); reflexivity|].
      rewrite SM2 in D4. split; [rewrite D2, CK2, <- CK; unfold count; rewrite SM; reflexivity|]. intros j byts Hj. split; [apply D4; exact Hj|].
      apply D3. rewrite D2, CK2, <- CK. unfold count. rewrite SM. apply nth_error_Some. congruence.
  - destruct EV as (-> & NI). pose proof (first_samples r header bs1 v rest n k I P K Vv WF Ve IM1) as RF.
    match goal with |- context [readfile ?x1 ?x2 ?x3 ?x4] => replace (readfile x1 x2 x3 x4) with
      (Some (last_imu r (header ++ concat (map bytes_of (bs1 ++ [v])) ++ rest) (fold_left step (bs1 ++ [v]) (start header k)))) by (symmetry; exact RF) end.
    clear RF.
    assert (NI2 : no_imu (bs1 ++ [v])).
    { apply Forall_app. split; [exact NI|]. constructor; [|constructor]. apply (is_excl v Vv). }
    set (s1 := fold_left step (bs1 ++ [v]) (start header k)).
    assert (LAST : forall file, last_imu r file s1 = s1).
    { intros file. unfold last_imu. destruct (imu_absent (bs1 ++ [v]) NI2 (start header k)) as [_ X]. fold s1 in X. rewrite X. reflexivity. }
    rewrite LAST.
    destruct (of_state_continuous e header (bs1 ++ [v]) k g ab false (pos s1)) as (d & D1 & D2 & D3 & D4 & _); try assumption.
    + lia.
    + intros pre b q E Sb. destruct (sys_in_front bs1 v pre b q Vv E Sb) as (q1 & E1). rewrite K, E1, count_app'. lia.
    + destruct CL as (A & A' & CL). split; [exact A|]. split; [exact A'|]. intros pre b q E Sb.
      destruct (sys_in_front bs1 v pre b q Vv E Sb) as (q1 & E1). apply (CL pre b q1 E1 Sb).
    + apply three_longer. exact TT.
    + exists d. split; [rewrite <- D1; f_equal; fold s1; destruct s1; reflexivity|].
      rewrite SM in D4. split; [rewrite D2, <- CK; unfold count; rewrite SM; reflexivity|]. intros j byts Hj. split; [apply D4; exact Hj|].
      apply D3. rewrite D2, <- CK. unfold count. rewrite SM. apply nth_error_Some. congruence.
Qed.

