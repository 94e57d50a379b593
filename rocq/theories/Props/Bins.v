(** Properties C25 to C30: runs of True, one-dimensional slices, binning. *)
From Coq Require Import ZArith QArith Qround List Bool Lia Sorting.Sorted.
From Verif.Model Require Import Group Slice1d Reshape.
From Verif.Spec Require Import Group Slice1d Reshape.
From Verif.Proofs Require Group Slice1d Reshape.
Import ListNotations.
Open Scope nat_scope.

(** ** C25 *)
(** The claim, for every array and every minimal length, holds when the first sample is False
    or when there is at most the run at the start... *)
Theorem C25_group_maximal_runs_partial : forall bl m,
  hd false bl = false \/ ~ later_run bl -> lists_runs bl m (group bl m).
Proof. exact Group.group_ok. Qed.
Print Assumptions C25_group_maximal_runs_partial.

(** ... and fails in every other case. *)
Theorem C25_group_wrong_otherwise : forall bl,
  hd false bl = true -> later_run bl -> ~ lists_runs bl 0 (group bl 0).
Proof. exact Group.group_bad. Qed.
Print Assumptions C25_group_wrong_otherwise.

Example C25_hyp_partial : let bl := [false; true; true; false; true] in
  hd false bl = false /\ group bl 0 = [(1, 3); (4, 5)] /\ group bl 2 = [(1, 3)].
Proof. repeat split. Qed.
Example C25_hyp_start : hd false [true; true; false] = true /\ group [true; true; false] 1 = [(0, 2)].
Proof. repeat split. Qed.

(** the slice (1,5) covers samples that are False *)
Theorem C25_group_refuted : exists bl u d k,
  In (u, d) (group bl 0) /\ u <= k < d /\ nth_error bl k = Some false /\
  ~ lists_runs bl 0 (group bl 0).
Proof.
  exists [true; false; false; true; true], 1, 5, 1. split; [right; left; reflexivity|].
  split; [lia|]. split; [reflexivity|]. apply Group.group_bad; [reflexivity|].
  exists 3, 5. split; [|lia]. split; [simpl; lia|]. split; [|split; [|easy]].
  - intros k Hk. assert (k = 3 \/ k = 4) as [->| ->] by lia; reflexivity.
  - intros k Hk. assert (k = 2) as -> by lia. discriminate.
Qed.
Print Assumptions C25_group_refuted.

(** ** C26 *)
Theorem C26_slices_exactly_once_in_order : forall shape axis a, 2 <= length shape ->
  (0 <= Z.of_nat a < Z.of_nat (length shape))%Z ->
  axis = Z.of_nat a \/ axis = (Z.of_nat a - Z.of_nat (length shape))%Z ->
  exists out, slice1d_along_axis shape axis = Some out /\
    (forall t, In t out <-> line_of shape a t) /\ StronglySorted row_major out.
Proof. exact Slice1d.slices_correct. Qed.
Print Assumptions C26_slices_exactly_once_in_order.

(** row-major order is irreflexive, so "in order" includes "once" *)
Theorem C26_row_major_irreflexive : forall t, ~ row_major t t.
Proof. exact (fun t '(ex_intro _ p (ex_intro _ i (ex_intro _ j (conj Hi (conj Hj (conj L _)))))) =>
  Nat.lt_irrefl i (eq_ind_r (fun x => i < x) L (f_equal (fun o => match o with Some (Some x) => x | _ => 0 end) (eq_trans (eq_sym Hi) Hj)))). Qed.
Print Assumptions C26_row_major_irreflexive.

Theorem C26_raises : forall shape axis, slice1d_along_axis shape axis = None <->
  length shape <= 1 \/ ~ (- Z.of_nat (length shape) <= axis < Z.of_nat (length shape))%Z.
Proof. exact Slice1d.slices_raise. Qed.
Print Assumptions C26_raises.

Example C26_hyp : slice1d_along_axis [2; 7; 2] (-2) =
  Some [[Some 0; None; Some 0]; [Some 0; None; Some 1]; [Some 1; None; Some 0]; [Some 1; None; Some 1]].
Proof. reflexivity. Qed.

(** ** C28 *)
Theorem C28_reshape_consecutive_bins : forall A (zero : A) arr n, 1 <= n <= length arr ->
  exists rows, reshape zero arr 0 (inject_Z (Z.of_nat n)) = inr rows /\
    table rows (length arr / n) n /\
    (forall i j, i < length arr / n -> j < n -> cell rows i j = nth_error arr (i * n + j)) /\
    exists lost, arr = concat rows ++ lost /\ length lost = length arr mod n.
Proof. exact @Reshape.reshape_whole. Qed.
Print Assumptions C28_reshape_consecutive_bins.

Theorem C28_reshape_too_short : forall A (zero : A) arr n_pad q,
  (inject_Z (Z.of_nat (length arr)) < q)%Q -> reshape zero arr n_pad q = inl BinTooLong.
Proof. exact @Reshape.reshape_too_short. Qed.
Print Assumptions C28_reshape_too_short.

Example C28_hyp : reshape 0 [1; 2; 3; 4; 5; 6; 7] 0 (inject_Z 3) = inr [[1; 2; 3]; [4; 5; 6]]
  /\ reshape 0 [1; 2] 0 (inject_Z 3) = inl BinTooLong.
Proof. split; reflexivity. Qed.

(** ** C29; padding up to twice the bin (the claim asks for up to once) *)
Theorem C29_reshape_padding : forall A (zero : A) arr n_pad n,
  1 <= n <= length arr -> n_pad <= 2 * n ->
  let nb := length arr / n in
  exists out, reshape zero arr n_pad (inject_Z (Z.of_nat n)) = inr out /\
    table out nb (n + n_pad) /\
    forall i c, i < nb -> c < n + n_pad ->
      cell out i c = Some (at_or zero (firstn (nb * n) arr)
                             (Z.of_nat (i * n) + Z.of_nat c - Z.of_nat (n_pad / 2))).
Proof. exact @Reshape.reshape_padded_whole. Qed.
Print Assumptions C29_reshape_padding.

Example C29_hyp : reshape 0 [1; 2; 3; 4; 5; 6; 7; 8; 9; 10] 3 (inject_Z 3) =
  inr [[0; 1; 2; 3; 4; 5]; [3; 4; 5; 6; 7; 8]; [6; 7; 8; 9; 0; 0]].
Proof. reflexivity. Qed.

(** ** C30 *)
Theorem C30_reshape_fractional : forall A (zero : A) arr q rows,
  (1 <= q)%Q -> fractional q -> reshape zero arr 0 q = inr rows ->
  exists pos nb, let m := Z.to_nat (Qfloor q) in
    table rows nb m /\ length arr / m - 1 <= nb <= length arr / m /\
    (forall j k, j < k -> pos j < pos k) /\ (forall k, pos (S k) <= pos k + 2) /\
    (forall i, pos (i * m) = Z.to_nat (Qfloor (inject_Z (Z.of_nat i) * q))) /\
    (forall i j, i < nb -> j < m ->
       cell rows i j = nth_error arr (pos (i * m + j)) /\ pos (i * m + j) < length arr).
Proof. exact @Reshape.reshape_frac. Qed.
Print Assumptions C30_reshape_fractional.

(** dropping one bin may not be enough: the exact condition under which it raises *)
Theorem C30_reshape_fractional_raises : forall A (zero : A) arr n_pad q,
  (1 <= q)%Q -> fractional q -> (q <= inject_Z (Z.of_nat (length arr)))%Q ->
  let m := Z.to_nat (Qfloor q) in let nb := length arr / m in
  reshape zero arr n_pad q = inl IndexError <->
    2 <= nb /\ (inject_Z (Z.of_nat (length arr))
                <= inject_Z (Z.of_nat ((nb - 1) * m - 1)) * q / inject_Z (Z.of_nat m))%Q.
Proof. exact @Reshape.reshape_frac_raises. Qed.
Print Assumptions C30_reshape_fractional_raises.

Example C30_hyp : fractional (5 # 2) /\
  reshape 0 [0; 1; 2; 3; 4; 5; 6; 7] 0 (5 # 2) = inr [[0; 1]; [2; 3]; [5; 6]] /\
  reshape 0 (seq 0 20) 0 (5 # 2) = inl IndexError.
Proof.
  split; [|split; reflexivity]. intros z H. unfold Qeq in H. simpl in H. lia.
Qed.
