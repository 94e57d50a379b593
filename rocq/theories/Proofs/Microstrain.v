(** The remapping of the IMU axes. *)
From Coq Require Import ZArith Reals List Bool Lra Lia.
From Verif.Model Require Import Linalg Microstrain.
From Verif.Spec Require Import Linalg Motion.
From Verif.Proofs Require Import Linalg.
Import ListNotations.
Open Scope R_scope.

Lemma remap_rotation : exists Rot, proper_rotation Rot /\ forall v, is_vec 3 v -> remap_vec v = mv Rot v.
Proof.
  exists [[0; 0; -1]; [0; 1; 0]; [1; 0; 0]]. split.
  - split; [|unfold det3, entry; cbn; ring]. apply orth_of_eqs; repeat split; ring.
  - intros v H. apply is_vec3 in H. destruct H as (a & b & c & ->). cbn. apply vec3_ext; ring.
Qed.
Lemma remap_axes x y z : remap_vec [x; y; z] = [- z; y; x].
Proof. reflexivity. Qed.
Lemma remap_keeps v w : is_vec 3 v -> is_vec 3 w ->
  dot3 (remap_vec v) (remap_vec w) = dot3 v w /\ cross (remap_vec v) (remap_vec w) = remap_vec (cross v w).
Proof.
  intros H1 H2. apply is_vec3 in H1, H2. destruct H1 as (a & b & c & ->), H2 as (d & e & f & ->).
  split; [unfold dot3, comp; cbn; ring|]. unfold cross, comp; cbn. apply vec3_ext; ring.
Qed.
Lemma omat_orth M : orthonormal M -> orthonormal (remap_omat M).
Proof.
  intros H. destruct H as [H0 H1]. destruct (is_mat3 M H0) as (a & b & c & d & e & f & g & h & i & ->).
  assert (O : orthonormal [[a;b;c];[d;e;f];[g;h;i]]) by (split; assumption).
  apply orth_eqs in O. cbn. apply orth_of_eqs; repeat match goal with H : _ /\ _ |- _ => destruct H end; repeat split; lra.
Qed.
Lemma omat_det M : is_mat 3 M -> det3 (remap_omat M) = det3 M.
Proof.
  intros H. destruct (is_mat3 M H) as (a & b & c & d & e & f & g & h & i & ->). unfold det3, entry; cbn. ring.
Qed.
Lemma omat_proper M : proper_rotation M -> proper_rotation (remap_omat M).
Proof. intros [H D]. split; [apply omat_orth; exact H|]. rewrite omat_det; [exact D|apply H]. Qed.
Lemma omat_consistent M n e d : is_mat 3 M -> mv (remap_omat M) [e; n; - d] = remap_vec (mv M [n; e; d]).
Proof.
  intros H. destruct (is_mat3 M H) as (a & b & c & d' & e' & f & g & h & i & ->). cbn. apply vec3_ext; ring.
Qed.
Lemma scaled_rates id fs v : is_vec 3 v ->
  (id = 195%Z \/ id = 211%Z -> sci_angrt id fs v = map (Rmult fs) (remap_vec v) /\
     sci_accel id fs v = map (fun x => fs * (980665 / 100000) * x) (remap_vec v)) /\
  (id = 204%Z -> sci_angrt id fs v = remap_vec v /\ sci_accel id fs v = map (Rmult (980665 / 100000)) (remap_vec v)).
Proof.
  intros H. apply is_vec3 in H. destruct H as (a & b & c & ->). split; [intros [-> | ->]|intros ->]; (split; [reflexivity|]); try reflexivity;
    cbn; apply vec3_ext; ring.
Qed.
