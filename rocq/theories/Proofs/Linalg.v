From Coq Require Import Reals List Lia Lra.
From Verif.Model Require Import Linalg.
From Verif.Spec Require Import Linalg.
Import ListNotations.
Open Scope R_scope.

Lemma is_vec3 v : is_vec 3 v -> exists a b c, v = [a; b; c].
Proof.
  unfold is_vec. destruct v as [|a [|b [|c [|x v]]]]; simpl; try discriminate. eauto.
Qed.
Lemma is_vec4 v : is_vec 4 v -> exists a b c d, v = [a; b; c; d].
Proof.
  unfold is_vec. destruct v as [|a [|b [|c [|d [|x v]]]]]; simpl; try discriminate. eauto.
Qed.

Lemma is_mat3 M : is_mat 3 M -> exists a b c d e f g h i, M = [[a;b;c];[d;e;f];[g;h;i]].
Proof.
  intros [L F]. destruct M as [|r0 [|r1 [|r2 [|x M]]]]; try discriminate.
  inversion F as [|? ? F0 F']; subst. inversion F' as [|? ? F1 F'']; subst.
  inversion F'' as [|? ? F2 _]; subst.
  destruct (is_vec3 _ F0) as (a & b & c & ->). destruct (is_vec3 _ F1) as (d & e & f & ->).
  destruct (is_vec3 _ F2) as (g & h & i & ->). repeat eexists.
Qed.
Lemma is_mat4 M : is_mat 4 M -> exists a b c d e f g h i j k l m n o p,
  M = [[a;b;c;d];[e;f;g;h];[i;j;k;l];[m;n;o;p]].
Proof.
  intros [L F]. destruct M as [|r0 [|r1 [|r2 [|r3 [|x M]]]]]; try discriminate.
  inversion F as [|? ? F0 F']; subst. inversion F' as [|? ? F1 F'']; subst.
  inversion F'' as [|? ? F2 F''']; subst. inversion F''' as [|? ? F3 _]; subst.
  destruct (is_vec4 _ F0) as (? & ? & ? & ? & ->). destruct (is_vec4 _ F1) as (? & ? & ? & ? & ->).
  destruct (is_vec4 _ F2) as (? & ? & ? & ? & ->). destruct (is_vec4 _ F3) as (? & ? & ? & ? & ->).
  repeat eexists.
Qed.

Lemma mv_length M v : length (mv M v) = length M.
Proof. apply map_length. Qed.
Lemma tr_length n M : length (tr n M) = n.
Proof. unfold tr. rewrite map_length, seq_length. reflexivity. Qed.
Lemma inv_length n M : length (inv n M) = n.
Proof. unfold inv. rewrite map_length, seq_length. reflexivity. Qed.

(** ** 3x3 orthonormal matrices *)
Lemma orth_eqs a b c d e f g h i : orthonormal [[a;b;c];[d;e;f];[g;h;i]] ->
  (a*a+b*b+c*c = 1 /\ d*d+e*e+f*f = 1 /\ g*g+h*h+i*i = 1 /\
   a*d+b*e+c*f = 0 /\ a*g+b*h+c*i = 0 /\ d*g+e*h+f*i = 0) /\
  (a*a+d*d+g*g = 1 /\ b*b+e*e+h*h = 1 /\ c*c+f*f+i*i = 1 /\
   a*b+d*e+g*h = 0 /\ a*c+d*f+g*i = 0 /\ b*c+e*f+h*i = 0).
Proof.
  intros [_ H].
  pose proof (H 0%nat 0%nat ltac:(lia) ltac:(lia)) as H00.
  pose proof (H 1%nat 1%nat ltac:(lia) ltac:(lia)) as H11.
  pose proof (H 2%nat 2%nat ltac:(lia) ltac:(lia)) as H22.
  pose proof (H 0%nat 1%nat ltac:(lia) ltac:(lia)) as H01.
  pose proof (H 0%nat 2%nat ltac:(lia) ltac:(lia)) as H02.
  pose proof (H 1%nat 2%nat ltac:(lia) ltac:(lia)) as H12.
  unfold dot3, column, entry, comp, kron in *. simpl in *. tauto.
Qed.

Lemma orth_of_eqs a b c d e f g h i :
  (a*a+b*b+c*c = 1 /\ d*d+e*e+f*f = 1 /\ g*g+h*h+i*i = 1 /\
   a*d+b*e+c*f = 0 /\ a*g+b*h+c*i = 0 /\ d*g+e*h+f*i = 0) ->
  (a*a+d*d+g*g = 1 /\ b*b+e*e+h*h = 1 /\ c*c+f*f+i*i = 1 /\
   a*b+d*e+g*h = 0 /\ a*c+d*f+g*i = 0 /\ b*c+e*f+h*i = 0) ->
  orthonormal [[a;b;c];[d;e;f];[g;h;i]].
Proof.
  intros (A1 & A2 & A3 & A4 & A5 & A6) (B1 & B2 & B3 & B4 & B5 & B6). split.
  - split; [reflexivity|]. repeat constructor.
  - intros p q Hp Hq. unfold dot3, column, entry, comp, kron.
    destruct p as [|[|[|p]]]; try lia; destruct q as [|[|[|q]]]; try lia; simpl; split; lra.
Qed.

Lemma vec3_ext a b c a' b' c' : a = a' -> b = b' -> c = c' -> [a;b;c] = [a';b';c'] :> list R.
Proof. intros; subst; reflexivity. Qed.

(** A linear combination of equations: [x = y + sum of coefficients times (lhs - rhs)]. *)
Lemma orth_tr_mv M v : orthonormal M -> is_vec 3 v -> mv (tr 3 M) (mv M v) = v.
Proof.
  intros O V. destruct (is_mat3 M (proj1 O)) as (a & b & c & d & e & f & g & h & i & ->).
  destruct (orth_eqs _ _ _ _ _ _ _ _ _ O) as [_ (B1 & B2 & B3 & B4 & B5 & B6)].
  destruct (is_vec3 v V) as (x & y & z & ->). cbn.
  apply vec3_ext.
  - replace x with (x * (a*a+d*d+g*g) + y * (a*b+d*e+g*h) + z * (a*c+d*f+g*i)) at 4
      by (rewrite B1, B4, B5; ring). ring.
  - replace y with (x * (a*b+d*e+g*h) + y * (b*b+e*e+h*h) + z * (b*c+e*f+h*i)) at 4
      by (rewrite B2, B4, B6; ring). ring.
  - replace z with (x * (a*c+d*f+g*i) + y * (b*c+e*f+h*i) + z * (c*c+f*f+i*i)) at 4
      by (rewrite B3, B5, B6; ring). ring.
Qed.

Lemma orth_mv_tr M v : orthonormal M -> is_vec 3 v -> mv M (mv (tr 3 M) v) = v.
Proof.
  intros O V. destruct (is_mat3 M (proj1 O)) as (a & b & c & d & e & f & g & h & i & ->).
  destruct (orth_eqs _ _ _ _ _ _ _ _ _ O) as [(A1 & A2 & A3 & A4 & A5 & A6) _].
  destruct (is_vec3 v V) as (x & y & z & ->). cbn.
  apply vec3_ext.
  - replace x with (x * (a*a+b*b+c*c) + y * (a*d+b*e+c*f) + z * (a*g+b*h+c*i)) at 4
      by (rewrite A1, A4, A5; ring). ring.
  - replace y with (x * (a*d+b*e+c*f) + y * (d*d+e*e+f*f) + z * (d*g+e*h+f*i)) at 4
      by (rewrite A2, A4, A6; ring). ring.
  - replace z with (x * (a*g+b*h+c*i) + y * (d*g+e*h+f*i) + z * (g*g+h*h+i*i)) at 4
      by (rewrite A3, A5, A6; ring). ring.
Qed.

Lemma tr_tr3 M : is_mat 3 M -> tr 3 (tr 3 M) = M.
Proof. intros H. destruct (is_mat3 M H) as (a & b & c & d & e & f & g & h & i & ->). reflexivity. Qed.

Lemma orth_tr M : orthonormal M -> orthonormal (tr 3 M).
Proof.
  intros O. destruct (is_mat3 M (proj1 O)) as (a & b & c & d & e & f & g & h & i & ->).
  destruct (orth_eqs _ _ _ _ _ _ _ _ _ O) as [A B]. cbn. apply orth_of_eqs; assumption.
Qed.

Lemma is_mat_tr3 M : is_mat 3 M -> is_mat 3 (tr 3 M).
Proof.
  intros H. destruct (is_mat3 M H) as (a & b & c & d & e & f & g & h & i & ->).
  split; [reflexivity|repeat constructor].
Qed.

Lemma det_det3 M : is_mat 3 M -> det 3 M = det3 M.
Proof.
  intros H. destruct (is_mat3 M H) as (a & b & c & d & e & f & g & h & i & ->).
  unfold det3, entry, sgn. cbn. ring.
Qed.

(** orthonormality is preserved by products *)
Lemma mm3 M N v : is_mat 3 M -> is_mat 3 N -> is_vec 3 v -> mv (mm 3 M N) v = mv M (mv N v).
Proof.
  intros HM HN HV. destruct (is_mat3 M HM) as (a & b & c & d & e & f & g & h & i & ->).
  destruct (is_mat3 N HN) as (a' & b' & c' & d' & e' & f' & g' & h' & i' & ->).
  destruct (is_vec3 v HV) as (x & y & z & ->). cbn. apply vec3_ext; ring.
Qed.

Lemma mm_is_mat M N : is_mat 3 M -> is_mat 3 (mm 3 M N).
Proof.
  intros HM. destruct (is_mat3 M HM) as (a & b & c & d & e & f & g & h & i & ->).
  split; [reflexivity|repeat constructor].
Qed.

Lemma norm2_mv M v : orthonormal M -> is_vec 3 v -> norm2 (mv M v) = norm2 v.
Proof.
  intros O V. destruct (is_mat3 M (proj1 O)) as (a & b & c & d & e & f & g & h & i & ->).
  destruct (orth_eqs _ _ _ _ _ _ _ _ _ O) as [_ (B1 & B2 & B3 & B4 & B5 & B6)].
  destruct (is_vec3 v V) as (x & y & z & ->). unfold norm2, dot3, comp. cbn.
  transitivity (x*x*(a*a+d*d+g*g) + y*y*(b*b+e*e+h*h) + z*z*(c*c+f*f+i*i)
                + 2*x*y*(a*b+d*e+g*h) + 2*x*z*(a*c+d*f+g*i) + 2*y*z*(b*c+e*f+h*i)); [ring|].
  rewrite B1, B2, B3, B4, B5, B6. ring.
Qed.

Lemma orth_mm M N : orthonormal M -> orthonormal N -> orthonormal (mm 3 M N).
Proof.
  intros OM ON. destruct (is_mat3 M (proj1 OM)) as (a & b & c & d & e & f & g & h & i & ->).
  destruct (is_mat3 N (proj1 ON)) as (a' & b' & c' & d' & e' & f' & g' & h' & i' & ->).
  destruct (orth_eqs _ _ _ _ _ _ _ _ _ OM) as [(A1 & A2 & A3 & A4 & A5 & A6) (B1 & B2 & B3 & B4 & B5 & B6)].
  destruct (orth_eqs _ _ _ _ _ _ _ _ _ ON) as [(C1 & C2 & C3 & C4 & C5 & C6) (D1 & D2 & D3 & D4 & D5 & D6)].
  cbn. apply orth_of_eqs.
  - assert (R : forall p q r s t u,
      (a'*p+(d'*q+(g'*r+0)))*(a'*s+(d'*t+(g'*u+0))) + (b'*p+(e'*q+(h'*r+0)))*(b'*s+(e'*t+(h'*u+0)))
      + (c'*p+(f'*q+(i'*r+0)))*(c'*s+(f'*t+(i'*u+0))) = p*s+q*t+r*u).
    { intros. transitivity (p*s*(a'*a'+b'*b'+c'*c') + q*t*(d'*d'+e'*e'+f'*f') + r*u*(g'*g'+h'*h'+i'*i')
        + (p*t+q*s)*(a'*d'+b'*e'+c'*f') + (p*u+r*s)*(a'*g'+b'*h'+c'*i') + (q*u+r*t)*(d'*g'+e'*h'+f'*i')); [ring|].
      rewrite C1, C2, C3, C4, C5, C6. ring. }
    rewrite !R. tauto.
  - assert (R : forall p q r s t u,
      (p*a+(q*b+(r*c+0)))*(s*a+(t*b+(u*c+0))) + (p*d+(q*e+(r*f+0)))*(s*d+(t*e+(u*f+0)))
      + (p*g+(q*h+(r*i+0)))*(s*g+(t*h+(u*i+0))) = p*s+q*t+r*u).
    { intros. transitivity (p*s*(a*a+d*d+g*g) + q*t*(b*b+e*e+h*h) + r*u*(c*c+f*f+i*i)
        + (p*t+q*s)*(a*b+d*e+g*h) + (p*u+r*s)*(a*c+d*f+g*i) + (q*u+r*t)*(b*c+e*f+h*i)); [ring|].
      rewrite B1, B2, B3, B4, B5, B6. ring. }
    rewrite !R. tauto.
Qed.

Lemma det3_mm M N : is_mat 3 M -> is_mat 3 N -> det3 (mm 3 M N) = det3 M * det3 N.
Proof.
  intros HM HN. destruct (is_mat3 M HM) as (a & b & c & d & e & f & g & h & i & ->).
  destruct (is_mat3 N HN) as (a' & b' & c' & d' & e' & f' & g' & h' & i' & ->).
  unfold det3, entry. cbn. ring.
Qed.

Lemma proper_mm M N : proper_rotation M -> proper_rotation N -> proper_rotation (mm 3 M N).
Proof.
  intros [OM DM] [ON DN]. split; [apply orth_mm; assumption|].
  rewrite det3_mm, DM, DN by (apply OM || apply ON). ring.
Qed.

Lemma det3_tr M : is_mat 3 M -> det3 (tr 3 M) = det3 M.
Proof.
  intros HM. destruct (is_mat3 M HM) as (a & b & c & d & e & f & g & h & i & ->).
  unfold det3, entry. cbn. ring.
Qed.

(** ** inverses *)
Lemma inv3_l M v : is_mat 3 M -> det 3 M <> 0 -> is_vec 3 v -> mv (inv 3 M) (mv M v) = v.
Proof.
  intros HM D HV. destruct (is_mat3 M HM) as (a & b & c & d & e & f & g & h & i & ->).
  destruct (is_vec3 v HV) as (x & y & z & ->).
  unfold inv. remember (det 3 [[a;b;c];[d;e;f];[g;h;i]]) as D0 eqn:E.
  cbn in E |- *. unfold sgn in *. cbn in E |- *.
  apply vec3_ext; apply (Rmult_eq_reg_l D0); try exact D;
    field_simplify; try exact D; rewrite E; ring.
Qed.

Lemma inv3_r M v : is_mat 3 M -> det 3 M <> 0 -> is_vec 3 v -> mv M (mv (inv 3 M) v) = v.
Proof.
  intros HM D HV. destruct (is_mat3 M HM) as (a & b & c & d & e & f & g & h & i & ->).
  destruct (is_vec3 v HV) as (x & y & z & ->).
  unfold inv. remember (det 3 [[a;b;c];[d;e;f];[g;h;i]]) as D0 eqn:E.
  cbn in E |- *. unfold sgn in *. cbn in E |- *.
  apply vec3_ext; apply (Rmult_eq_reg_l D0); try exact D;
    field_simplify; try exact D; rewrite E; ring.
Qed.

Lemma vec4_ext a b c d a' b' c' d' : a = a' -> b = b' -> c = c' -> d = d' ->
  [a;b;c;d] = [a';b';c';d'] :> list R.
Proof. intros; subst; reflexivity. Qed.

Lemma inv4_l M v : is_mat 4 M -> det 4 M <> 0 -> is_vec 4 v -> mv (inv 4 M) (mv M v) = v.
Proof.
  intros HM D HV. destruct (is_mat4 M HM) as (a&b&c&d&e&f&g&h&i&j&k&l&m&n&o&p&->).
  destruct (is_vec4 v HV) as (x & y & z & w & ->).
  unfold inv, Rdiv. remember (det 4 [[a;b;c;d];[e;f;g;h];[i;j;k;l];[m;n;o;p]]) as D0 eqn:E.
  pose proof (Rinv_r D0 D) as Q. generalize dependent (/ D0). intros q Q.
  cbn in E |- *. unfold sgn in *. cbn in E |- *.
  apply vec4_ext; [transitivity (D0 * q * x)|transitivity (D0 * q * y)
                  |transitivity (D0 * q * z)|transitivity (D0 * q * w)];
    try (rewrite Q; ring); clear Q D; subst D0; ring.
Qed.

Lemma inv4_r M v : is_mat 4 M -> det 4 M <> 0 -> is_vec 4 v -> mv M (mv (inv 4 M) v) = v.
Proof.
  intros HM D HV. destruct (is_mat4 M HM) as (a&b&c&d&e&f&g&h&i&j&k&l&m&n&o&p&->).
  destruct (is_vec4 v HV) as (x & y & z & w & ->).
  unfold inv, Rdiv. remember (det 4 [[a;b;c;d];[e;f;g;h];[i;j;k;l];[m;n;o;p]]) as D0 eqn:E.
  pose proof (Rinv_r D0 D) as Q. generalize dependent (/ D0). intros q Q.
  cbn in E |- *. unfold sgn in *. cbn in E |- *.
  apply vec4_ext; [transitivity (D0 * q * x)|transitivity (D0 * q * y)
                  |transitivity (D0 * q * z)|transitivity (D0 * q * w)];
    try (rewrite Q; ring); clear Q D; subst D0; ring.
Qed.
