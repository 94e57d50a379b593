(** Properties C27, C31, C32 and C84: detrending, bin statistics, metadata of binned data. *)
From Coq Require Import String Reals List QArith Lra Lia.
From Verif.Model Require Import Reshape Stats CheckDs.
From Verif.Spec Require Import Reshape Stats.
From Verif.Proofs Require Stats CheckDs.
Import ListNotations.
Open Scope R_scope.

(** ** C27 *)
Theorem C27_detrend_leaves_residual : forall a, (2 <= length a)%nat ->
  exists r, detrend (map Some a) = map Some r /\ residual a r.
Proof. exact Stats.detrend_residual. Qed.

(** the residual is unique, so the previous theorem determines the result *)
Theorem C27_residual_unique : forall a r r', residual a r -> residual a r' -> r = r'.
Proof. exact Stats.residual_unique. Qed.

Theorem C27_line_removed_is_least_squares : forall a r,
  (2 <= length a)%nat -> detrend (map Some a) = map Some r -> forall alpha beta,
  total (length a) (fun k => nth k r 0 * nth k r 0) <=
  total (length a) (fun k => (nth k a 0 - (alpha + beta * INR k)) * (nth k a 0 - (alpha + beta * INR k))).
Proof. exact Stats.detrend_least. Qed.

Theorem C27_affine_input_gives_zero : forall a alpha beta, (2 <= length a)%nat ->
  (forall k, (k < length a)%nat -> nth k a 0 = alpha + beta * INR k) ->
  detrend (map Some a) = repeat (Some 0) (length a).
Proof. exact Stats.detrend_affine. Qed.

Theorem C27_idempotent : forall a, (2 <= length a)%nat ->
  detrend (detrend (map Some a)) = detrend (map Some a).
Proof. exact Stats.detrend_idem. Qed.

Theorem C27_linear : forall c d a b ra rb, (2 <= length a)%nat -> length b = length a ->
  detrend (map Some a) = map Some ra -> detrend (map Some b) = map Some rb ->
  detrend (map Some (map2 (fun x y => c * x + d * y) a b)) = map Some (map2 (fun x y => c * x + d * y) ra rb).
Proof. exact Stats.detrend_linear. Qed.

Example C27_hyp : residual [1; 3; 2] [-1/2; 1; -1/2] /\
  detrend (map Some [1; 3; 2]) = map Some [-1/2; 1; -1/2].
Proof.
  assert (R : residual [1; 3; 2] [-1/2; 1; -1/2]).
  { split; [reflexivity|]. split; [cbn; lra|]. split; [cbn; lra|]. exists (3/2), (1/2).
    intros [|[|[|k]]] Hk; cbn in *; try lra. lia. }
  split; [exact R|]. apply Stats.detrend_is; [cbn; lia|exact R].
Qed.

(** ** C84: a missing sample; the valid samples 0, 1 lie on a line, yet do not become zero *)
Theorem C84_detrend_with_missing_refuted : exists a,
  (forall k x, nth_error a k = Some (Some x) -> x = INR k) /\ (2 <= length (present a))%nat /\
  exists k y, nth_error (detrend a) k = Some (Some y) /\ y <> 0.
Proof.
  exists [Some 0; Some 1; None]. split; [|split; [cbn; lia|]].
  - intros [|[|[|[|k]]]] x H; cbn in H; try discriminate; injection H as <-; cbn; lra.
  - exists 1%nat, (1/2). rewrite Stats.detrend_nan. split; [reflexivity|lra].
Qed.
(** what does hold: missing samples stay missing *)
Theorem C84_missing_stay_missing_partial : forall a k, nth_error a k = Some None -> nth_error (detrend a) k = Some None.
Proof. exact Stats.detrend_missing. Qed.
Example C84_hyp : nth_error [Some 0; Some 1; None] 2 = Some None.
Proof. reflexivity. Qed.

(** ** C31 *)
Theorem C31_bin_mean : forall arr n, (1 <= n <= length arr)%nat ->
  exists out, bin_mean arr (inject_Z (Z.of_nat n)) = inr out /\ length out = (length arr / n)%nat /\
    forall i, (i < length arr / n)%nat -> exists m, nth_error out i = Some m /\ is_mean (samples arr (i * n) n) m.
Proof. exact Stats.bin_mean_ok. Qed.

(** the mean lies between the extreme valid samples of the bin *)
Theorem C31_mean_between : forall l m lo hi, is_mean l (Some m) ->
  (forall x, In (Some x) l -> lo <= x <= hi) -> lo <= m <= hi.
Proof. exact Stats.is_mean_bounds. Qed.

Theorem C31_demean : forall arr n, (1 <= n <= length arr)%nat ->
  exists out, bin_demean arr 0 (inject_Z (Z.of_nat n)) = inr out /\ length out = (length arr / n)%nat /\
    forall i, (i < length arr / n)%nat -> exists row, nth_error out i = Some row /\
      let bin := samples arr (i * n) n in
      length row = n /\ sum_list (present row) = 0 /\
      (forall j, nth_error bin j = Some None -> nth_error row j = Some None) /\
      (forall j x, nth_error bin j = Some (Some x) ->
         exists m, is_mean bin (Some m) /\ nth_error row j = Some (Some (x - m))).
Proof. exact Stats.bin_demean_ok. Qed.

(** variance: mean of the squared deviations from the mean *)
Theorem C31_bin_var : forall arr n, (1 <= n <= length arr)%nat ->
  exists out, bin_var arr (inject_Z (Z.of_nat n)) = inr out /\ length out = (length arr / n)%nat /\
    forall i, (i < length arr / n)%nat -> exists v, nth_error out i = Some v /\
      let bin := samples arr (i * n) n in
      (v = None <-> present bin = []) /\
      forall m x, is_mean bin (Some m) -> v = Some x ->
        0 <= x /\ x * INR (length (present bin)) = sum_list (map (fun y => (y - m) * (y - m)) (present bin)) /\
        (x = 0 <-> exists c, In (Some c) bin /\ forall y, In (Some y) bin -> y = c).
Proof. exact Stats.bin_var_ok. Qed.

Theorem C31_std_squared_is_var : forall arr n vs ss, (1 <= n <= length arr)%nat ->
  bin_var arr (inject_Z (Z.of_nat n)) = inr vs -> bin_std arr (inject_Z (Z.of_nat n)) = inr ss ->
  length ss = length vs /\ forall i v s, nth_error vs i = Some (Some v) -> nth_error ss i = Some (Some s) ->
    0 <= s /\ s * s = v.
Proof. exact Stats.bin_std_ok. Qed.

Example C31_hyp : (1 <= 2 <= length [Some 1; None; Some 3; Some 5; Some 7])%nat /\
  is_mean [Some 3; Some 5] (Some 4) /\ is_mean [Some 1; None] (Some 1) /\
  bin_mean [Some 1; None; Some 3; Some 5; Some 7] (inject_Z 2) = inr [Some (1 / 1); Some ((3 + (5 + 0)) / (1 + 1))].
Proof.
  split; [cbn; lia|]. split; [split; [discriminate|unfold sum_list; cbn; lra]|].
  split; [split; [discriminate|unfold sum_list; cbn; lra]|].
  change (inr [nanmean [Some 1; None]; nanmean [Some 3; Some 5]] = (inr [Some (1 / 1); Some ((3 + (5 + 0)) / (1 + 1))] : reshape_err + list (option R))).
  unfold nanmean. cbn [vals rsum fold_right length INR]. do 3 f_equal. lra.
Qed.

(** ** C32 *)
Theorem C32_success_attributes_partial : forall (V : Type) (veqb : V -> V -> bool), (forall x y, veqb x y = true <-> x = y) ->
  forall b shapes raw out out', NoDup (map fst raw) ->
  check_ds veqb b shapes raw out = inr out' ->
  (forall k v, get k raw = Some v -> get k out' = Some v) /\
  get "fs"%string out' = Some (b_fs b) /\
  (get "n_bin"%string raw = None -> get "n_bin"%string out' = Some (b_n_bin b)) /\
  (get "n_fft"%string raw = None -> get "n_fft"%string out' = Some (b_n_fft b)) /\
  (get "description"%string raw = None -> get "description"%string out' = Some (b_description b)) /\
  (forall k, get k raw = None ->
     k <> "fs"%string -> k <> "n_bin"%string -> k <> "n_fft"%string -> k <> "description"%string ->
     get k out' = match out with Some o => get k o | None => None end).
Proof. exact @CheckDs.success_summary. Qed.

(** whether it succeeds or not, no attribute already present changes *)
Theorem C32_existing_attributes_kept : forall (V : Type) (veqb : V -> V -> bool), (forall x y, veqb x y = true <-> x = y) ->
  forall b shapes raw out,
  match check_ds veqb b shapes raw (Some out) with
  | inr out' => forall k w, get k out = Some w -> get k out' = Some w
  | inl (_, out') => forall k w, get k out = Some w -> get k out' = Some w end.
Proof. exact @CheckDs.keeps. Qed.

Theorem C32_raises_exactly_on_conflict : forall (V : Type) (veqb : V -> V -> bool), (forall x y, veqb x y = true <-> x = y) ->
  forall b shapes raw out, NoDup (map fst raw) ->
  (exists out', check_ds veqb b shapes raw (Some out) = inr out') <->
  (forall s n, In s shapes -> In n s -> n <> 0%nat) /\ get "fs"%string raw = Some (b_fs b) /\
  (forall k v w, get k raw = Some v -> get k out = Some w -> w = v) /\
  (forall k v w, get k raw = None ->
     In (k, v) [("fs"%string, b_fs b); ("n_bin"%string, b_n_bin b); ("n_fft"%string, b_n_fft b);
                ("description"%string, b_description b)] -> get k out = Some w -> w = v).
Proof. exact @CheckDs.succeeds_iff'. Qed.

(** The bin size of the binner is not recorded when the input already carries one (data binned
    twice): bins of 10 are labelled as bins of 5. *)
Theorem C32_binner_attribute_lost_refuted : exists (b : @binner nat) raw out',
  check_ds Nat.eqb b [[20]]%nat raw None = inr out' /\ get "n_bin"%string out' <> Some (b_n_bin b).
Proof.
  exists (Binner 4 10 10 0)%nat, [("fs"%string, 4%nat); ("n_bin"%string, 5%nat)]. eexists.
  split; [reflexivity|]. cbn. discriminate.
Qed.
Example C32_hyp : check_ds Nat.eqb (Binner 4 10 10 0)%nat [[20]]%nat [("fs"%string, 4%nat); ("depth"%string, 7%nat)]
    (Some [("x"%string, 1%nat); ("n_bin"%string, 10%nat)]) =
  inr [("x"%string, 1%nat); ("n_bin"%string, 10%nat); ("fs"%string, 4%nat); ("n_fft"%string, 10%nat);
       ("description"%string, 0%nat); ("depth"%string, 7%nat)].
Proof. reflexivity. Qed.

(** All the theorems of this file, for one listing of axioms. *)
Definition all_theorems :=
  (@C27_detrend_leaves_residual,
   @C27_residual_unique,
   @C27_line_removed_is_least_squares,
   @C27_affine_input_gives_zero,
   @C27_idempotent,
   @C27_linear,
   @C84_detrend_with_missing_refuted,
   @C84_missing_stay_missing_partial,
   @C31_bin_mean,
   @C31_mean_between,
   @C31_demean,
   @C31_bin_var,
   @C31_std_squared_is_var,
   @C32_success_attributes_partial,
   @C32_existing_attributes_kept,
   @C32_raises_exactly_on_conflict,
   @C32_binner_attribute_lost_refuted).
Print Assumptions all_theorems.
