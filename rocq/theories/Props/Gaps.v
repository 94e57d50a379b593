(** Properties C22-C24: gap filling. *)
From Coq Require Import ZArith QArith List Lia Lqa.
From Verif.Model Require Import Gaps.
From Verif.Spec Require Import Gaps.
From Verif.Proofs Require Gaps.
Import ListNotations.
Open Scope nat_scope.

(** A series with a leading gap of one, an inner gap of two and a trailing gap of one. *)
Definition ex : list (option Q) :=
  [None; Some 1%Q; None; None; Some 4%Q; Some 5%Q; None].
Example ex_neighbours : missing ex 2 /\ left_nb ex 2 1 1 /\ right_nb ex 2 4 4
  /\ missing ex 0 /\ none_before ex 0 /\ right_nb ex 0 1 1
  /\ missing ex 6 /\ none_after ex 6 /\ left_nb ex 6 5 5.
Proof.
  unfold left_nb, right_nb, none_before, none_after, valid, missing.
  repeat split; simpl; try lia;
    intros m H; simpl in *; do 7 (destruct m as [|m]; [reflexivity || lia|]); lia.
Qed.

(** ** C23 fillgaps *)
Theorem C23_fillgaps_length : forall maxgap extrap a, length (fillgaps maxgap extrap a) = length a.
Proof. exact (Gaps.fillw_length line_index). Qed.
Print Assumptions C23_fillgaps_length.

Theorem C23_fillgaps_keeps_valid : forall maxgap extrap a k v,
  valid a k v -> valid (fillgaps maxgap extrap a) k v.
Proof. exact (Gaps.fillw_keep_valid line_index). Qed.
Print Assumptions C23_fillgaps_keeps_valid.

Theorem C23_fillgaps_inner_gap : forall maxgap extrap a k i j x y,
  missing a k -> left_nb a k i x -> right_nb a k j y ->
  (fits (j - i - 1) maxgap ->
     exists v, valid (fillgaps maxgap extrap a) k v /\ on_line i j k x y v) /\
  (~ fits (j - i - 1) maxgap -> missing (fillgaps maxgap extrap a) k).
Proof. exact Gaps.fillgaps_inner. Qed.
Print Assumptions C23_fillgaps_inner_gap.

Theorem C23_fillgaps_ends_without_extrap : forall maxgap a k,
  missing a k -> none_before a k \/ none_after a k -> missing (fillgaps maxgap false a) k.
Proof. exact Gaps.fillgaps_ends. Qed.
Print Assumptions C23_fillgaps_ends_without_extrap.

Theorem C23_fillgaps_head_extrap : forall maxgap a k j y,
  missing a k -> none_before a k -> right_nb a k j y ->
  (fits j maxgap -> valid (fillgaps maxgap true a) k y) /\
  (~ fits j maxgap -> missing (fillgaps maxgap true a) k).
Proof. exact Gaps.fillgaps_head. Qed.
Print Assumptions C23_fillgaps_head_extrap.

Theorem C23_fillgaps_tail_extrap : forall maxgap a k i x,
  missing a k -> none_after a k -> left_nb a k i x ->
  (fits (length a - i - 1) maxgap -> valid (fillgaps maxgap true a) k x) /\
  (~ fits (length a - i - 1) maxgap -> missing (fillgaps maxgap true a) k).
Proof. exact Gaps.fillgaps_tail. Qed.
Print Assumptions C23_fillgaps_tail_extrap.

Theorem C23_fillgaps_all_missing : forall maxgap extrap a,
  (forall k, k < length a -> missing a k) -> fillgaps maxgap extrap a = a.
Proof. exact (Gaps.fillw_all_missing line_index). Qed.
Print Assumptions C23_fillgaps_all_missing.
Example C23_hyp : fits (4 - 1 - 1) (Some 2) /\ ~ fits (4 - 1 - 1) (Some 1)
  /\ Forall2 (fun p q => match p, q with Some u, Some v => Qeq u v | None, None => True | _, _ => False end)
       (fillgaps (Some 2) true ex)
       [Some 1; Some 1; Some 2; Some 3; Some 4; Some 5; Some 5]%Q
  /\ fillgaps (Some 1) false ex = ex
  /\ (forall k, k < length [@None Q; None] -> missing [None; None] k).
Proof.
  split; [simpl; lia|]. split; [simpl; lia|].
  split; [vm_compute; repeat constructor|].
  split; [reflexivity|]. intros [|[|k]] H; try reflexivity. simpl in H; lia.
Qed.

(** ** C24 interpgaps *)
Theorem C24_interpgaps_length : forall t maxgap extrap a,
  length (interpgaps t maxgap extrap a) = length a.
Proof. exact (fun t => Gaps.fillw_length (line_time t)). Qed.
Print Assumptions C24_interpgaps_length.

Theorem C24_interpgaps_keeps_valid : forall t maxgap extrap a k v,
  valid a k v -> valid (interpgaps t maxgap extrap a) k v.
Proof. exact (fun t => Gaps.fillw_keep_valid (line_time t)). Qed.
Print Assumptions C24_interpgaps_keeps_valid.

(** same samples left missing as by fillgaps *)
Theorem C24_interpgaps_same_selection : forall t maxgap extrap a k,
  missing (interpgaps t maxgap extrap a) k <-> missing (fillgaps maxgap extrap a) k.
Proof. exact Gaps.interp_same_selection. Qed.
Print Assumptions C24_interpgaps_same_selection.

Theorem C24_interpgaps_linear_in_time : forall t maxgap extrap a k i j x y,
  missing a k -> left_nb a k i x -> right_nb a k j y -> fits (j - i - 1) maxgap ->
  ~ (nth j t 0 == nth i t 0)%Q ->
  exists v, valid (interpgaps t maxgap extrap a) k v /\
            on_line_t (nth i t 0%Q) (nth j t 0%Q) (nth k t 0%Q) x y v.
Proof. exact Gaps.interpgaps_line. Qed.
Print Assumptions C24_interpgaps_linear_in_time.

Theorem C24_interpgaps_between : forall t maxgap extrap a k i j x y v,
  missing a k -> left_nb a k i x -> right_nb a k j y ->
  (nth i t 0 < nth k t 0)%Q -> (nth k t 0 < nth j t 0)%Q ->
  valid (interpgaps t maxgap extrap a) k v -> ((x <= v <= y) \/ (y <= v <= x))%Q.
Proof. exact Gaps.interp_between. Qed.
Print Assumptions C24_interpgaps_between.

Theorem C24_interpgaps_even_time : forall t t0 dt maxgap extrap a, ~ (dt == 0)%Q ->
  (forall m, m < length a -> (nth m t 0 == t0 + qn m * dt)%Q) ->
  forall k v w, valid (interpgaps t maxgap extrap a) k v ->
    valid (fillgaps maxgap extrap a) k w -> (v == w)%Q.
Proof. exact Gaps.interp_even. Qed.
Print Assumptions C24_interpgaps_even_time.
Example C24_hyp : let t := [10; 20; 22; 28; 30; 40; 50]%Q in
  (nth 1 t 0 < nth 2 t 0)%Q /\ (nth 2 t 0 < nth 4 t 0)%Q /\ ~ (nth 4 t 0 == nth 1 t 0)%Q /\
  exists v, valid (interpgaps t None false ex) 2 v /\ (v == 8 # 5)%Q.
Proof.
  repeat split; try discriminate. eexists. split; [reflexivity|]. reflexivity.
Qed.
Example C24_hyp_even : forall m, m < length ex ->
  (nth m [5; 7; 9; 11; 13; 15; 17]%Q 0 == 5 + qn m * 2)%Q.
Proof. intros m H. do 7 (destruct m as [|m]; [reflexivity|]). simpl in H; lia. Qed.

(** ** C22 _fill_time_gaps *)
Theorem C22_fill_time_gaps_raises : forall e fs,
  fill_time_gaps e fs = None <-> ~ (exists k v, valid e k v).
Proof. exact Gaps.ftg_raises. Qed.
Print Assumptions C22_fill_time_gaps_raises.

Theorem C22_fill_time_gaps_complete : forall e fs out, fill_time_gaps e fs = Some out ->
  length out = length e /\ (forall k, k < length e -> exists v, valid out k v) /\
  (forall k v, valid e k v -> valid out k v).
Proof. exact Gaps.ftg_complete. Qed.
Print Assumptions C22_fill_time_gaps_complete.

Theorem C22_fill_time_gaps_inner : forall e fs out k i j x y,
  fill_time_gaps e fs = Some out -> missing e k -> left_nb e k i x -> right_nb e k j y ->
  exists v, valid out k v /\ on_line i j k x y v.
Proof. exact Gaps.ftg_inner. Qed.
Print Assumptions C22_fill_time_gaps_inner.

Theorem C22_fill_time_gaps_head : forall e fs out k j y,
  fill_time_gaps e fs = Some out -> missing e k -> none_before e k -> right_nb e k j y ->
  exists v, valid out k v /\ (v == y - qn (j - k) / fs)%Q.
Proof. exact Gaps.ftg_head. Qed.
Print Assumptions C22_fill_time_gaps_head.

Theorem C22_fill_time_gaps_tail : forall e fs out k i x,
  fill_time_gaps e fs = Some out -> missing e k -> none_after e k -> left_nb e k i x ->
  exists v, valid out k v /\ (v == x + qn (k - i) / fs)%Q.
Proof. exact Gaps.ftg_tail. Qed.
Print Assumptions C22_fill_time_gaps_tail.

Theorem C22_fill_time_gaps_increasing : forall e fs out,
  (0 < fs)%Q -> fill_time_gaps e fs = Some out ->
  (forall i j x y, i < j -> valid e i x -> valid e j y -> (x < y)%Q) ->
  forall i j x y, i < j -> valid out i x -> valid out j y -> (x < y)%Q.
Proof. exact Gaps.ftg_increasing. Qed.
Print Assumptions C22_fill_time_gaps_increasing.
Example C22_hyp : (0 < 4)%Q /\ (exists out, fill_time_gaps ex 4 = Some out) /\
  (forall i j x y, i < j -> valid ex i x -> valid ex j y -> (x < y)%Q).
Proof.
  split; [reflexivity|]. split; [eexists; reflexivity|].
  intros i j x y H Hi Hj. unfold valid in *.
  do 7 (destruct i as [|i]; [do 7 (destruct j as [|j]; [simpl in *; try lia; try discriminate;
     injection Hi as <-; injection Hj as <-; reflexivity|]); destruct j; discriminate|]).
  destruct i; discriminate.
Qed.
