(** C143-C147: averages and variances of whole datasets, and the settings of the binner. *)
From Coq Require Import String.
From Coq Require Import Reals List QArith Bool Arith Lia Lra.
From Verif.Model Require Import Reshape Stats SigData DoAvg.
From Verif.Spec Require Import Stats DoAvg.
From Verif.Proofs Require DoAvg.
Import ListNotations.
Open Scope string_scope.
Open Scope nat_scope.

(** C143. Averaging over [n] samples: every named variable along a time axis is there, on the same axes, each line
    being the means of [n] successive samples of its own line; the coordinate of its time axis is the mean instant of
    each bin; "U_std" is the standard deviation of the speed over each bin. *)
Theorem C143_averages_partial : forall raw size n, sound size raw -> 1 <= n -> forall names, ready raw n names ->
  exists out, do_avg raw (inject_Z (Z.of_nat n)) names (Dataset [] []) = inr out
  /\ (forall ky v o, In ky names -> get (vars raw) ky = Some v -> on_time o v -> ~ altimeter v -> ~ counter ky -> ky <> "U_std" ->
       (exists w, get (vars out) ky = Some w /\ lines (means n) v w)
       /\ exists t, get (coords out) o = Some t /\ means n (axis_values raw o (size o)) t)
  /\ (forall ky v, In ky names -> get (vars raw) ky = Some v -> ~ altimeter v ->
       exists vel s w, get (vars raw) "vel" = Some vel /\ speeds vel s /\ get (vars out) "U_std" = Some w /\ lines (deviations n) s w).
Proof. exact Proofs.DoAvg.averaged. Qed.
(** Variances likewise, under the name with the suffix. *)
Theorem C143_variances_partial : forall raw size n, sound size raw -> 1 <= n -> forall suffix names, ready raw n names ->
  exists out, do_var raw (inject_Z (Z.of_nat n)) suffix names (Dataset [] []) = inr out
  /\ (forall ky v o, In ky names -> get (vars raw) ky = Some v -> on_time o v -> ~ altimeter v -> ~ counter ky ->
       (exists w, get (vars out) (ky ++ suffix) = Some w /\ lines (variances n) v w)
       /\ exists t, get (coords out) o = Some t /\ means n (axis_values raw o (size o)) t).
Proof. exact Proofs.DoAvg.varied. Qed.

(** five samples of a velocity of two components, of the heading and of a matrix without time *)
Definition few : dataset := Dataset
  [("vel", Var ["dir"; "time"] [2] 5 [[Some 3; Some 1; None; Some 2; Some 5]; [Some 4; Some 0; Some 1; Some 2; Some 5]]%R);
   ("heading", Var ["time"] [] 5 [[Some 359; Some 1; Some 359; Some 1; Some 7]]%R);
   ("beam2inst_orientmat", Var ["x1"; "x2"] [2] 2 [[Some 1; Some 0]; [Some 0; Some 1]]%R)]
  [("time", [Some 0; Some 1; Some 2; Some 3; Some 4]%R)].
Definition few_sizes (o : string) : nat := if String.eqb o "time" then 5 else if String.eqb o "time_gps" then 1 else 2.
Definition few_names := ["vel"; "heading"; "beam2inst_orientmat"].
Example C143_sound : sound few_sizes few.
Proof.
  split.
  - intros ky v [H|[H|[H|[]]]]; injection H as <- <-; (split; [discriminate|split; [reflexivity|split; [reflexivity|split; [discriminate|repeat constructor]]]]).
  - intros nm t [H|[]]. injection H as <- <-. reflexivity.
Qed.
Example C143_ready : ready few 2 few_names.
Proof.
  assert (V : on_time "time" (Var ["dir"; "time"] [2] 5 [[Some 3; Some 1; None; Some 2; Some 5]; [Some 4; Some 0; Some 1; Some 2; Some 5]]%R)).
  { split; [reflexivity|]. exists ["dir"]. split; [reflexivity|]. intros o [<-|[]]. discriminate. }
  split.
  - intros ky [<-|[<-|[<-|[]]]]; (eexists; split; [reflexivity|]; intros _).
    + right. exists "time". split; [exact V|cbn; lia].
    + right. exists "time". split; [|cbn; lia]. split; [reflexivity|]. exists []. split; [reflexivity|]. intros o [].
    + left. intros o [<-|[<-|[]]]; discriminate.
  - exists (Var ["dir"; "time"] [2] 5 [[Some 3; Some 1; None; Some 2; Some 5]; [Some 4; Some 0; Some 1; Some 2; Some 5]]%R), "time", 2, [].
    split; [reflexivity|]. split; [exact V|]. split; [cbn; lia|]. split; [reflexivity|lia].
Qed.
Example C143_heading : let v := Var ["time"] [] 5 [[Some 359; Some 1; Some 359; Some 1; Some 7]]%R in
  get (vars few) "heading" = Some v /\ on_time "time" v /\ ~ altimeter v /\ ~ counter "heading".
Proof.
  cbn. split; [reflexivity|]. split; [split; [reflexivity|]; exists []; split; [reflexivity|intros o []]|].
  split; [intros [o [[<-|[]] H]]; discriminate H|discriminate].
Qed.

(** C144. Not so for the rest. Variables without time, such as the matrix beam2inst_orientmat that rotations need, are
    missing from the averages whenever a bin has two samples or more. *)
Theorem C144_static_lost_refuted : forall raw size n, sound size raw -> 1 <= n -> forall names out ky v,
  do_avg raw (inject_Z (Z.of_nat n)) names (Dataset [] []) = inr out -> 2 <= n -> get (vars raw) ky = Some v ->
  without_time v -> 1 <= len v -> ky <> "U_std" -> get (vars out) ky = None.
Proof. exact Proofs.DoAvg.static_lost. Qed.
Example C144_static_case : exists out v, do_avg few (inject_Z (Z.of_nat 2)) few_names (Dataset [] []) = inr out
  /\ get (vars few) "beam2inst_orientmat" = Some v /\ without_time v /\ 1 <= len v.
Proof.
  destruct (C143_averages_partial few few_sizes 2 C143_sound ltac:(lia) few_names C143_ready) as [out [E _]].
  exists out. eexists. split; [exact E|]. split; [reflexivity|]. split; [|cbn; lia]. intros o [<-|[<-|[]]]; discriminate.
Qed.
(** One variable along a time axis shorter than a bin, such as a few positions on time_gps, leaves no dataset at all. *)
Theorem C144_short_axis_refuted : forall raw size n, sound size raw -> forall names out ky v o, In ky names ->
  get (vars raw) ky = Some v -> ~ altimeter v -> In o (dims v) -> times o -> size o < n ->
  exists e, do_avg raw (inject_Z (Z.of_nat n)) names out = inl e.
Proof. exact Proofs.DoAvg.short_fails. Qed.
Definition with_gps : dataset := Dataset (app (vars few) [("latitude_gps", Var ["time_gps"] [] 1 [[Some 44%R]])]) (coords few).
Example C144_short_case : let v := Var ["time_gps"] [] 1 [[Some 44%R]] in
  sound few_sizes with_gps /\ get (vars with_gps) "latitude_gps" = Some v /\ ~ altimeter v /\ In "time_gps" (dims v)
  /\ times "time_gps" /\ few_sizes "time_gps" < 2.
Proof.
  cbn. split; [|split; [reflexivity|split; [intros [o [[<-|[]] H]]; discriminate H|split; [now left|split; [reflexivity|cbn; lia]]]]].
  split.
  - intros ky v [H|[H|[H|[H|[]]]]]; injection H as <- <-; (split; [discriminate|split; [reflexivity|split; [reflexivity|split; [discriminate|repeat constructor]]]]).
  - intros nm t [H|[]]. injection H as <- <-. reflexivity.
Qed.
(** Nor is there one without a variable "vel", as in Signature files of averages only. *)
Theorem C144_no_velocity_refuted : forall raw n names out ky v, get (vars raw) "vel" = None -> In ky names ->
  get (vars raw) ky = Some v -> ~ altimeter v -> exists e, do_avg raw (inject_Z (Z.of_nat n)) names out = inl e.
Proof. exact Proofs.DoAvg.no_velocity. Qed.
Example C144_no_velocity_case : exists raw v, get (vars raw) "vel" = None /\ get (vars raw) "vel_avg" = Some v /\ ~ altimeter v.
Proof.
  exists (Dataset [("vel_avg", Var ["dir"; "time_avg"] [1] 2 [[Some 1; Some 2]]%R)] []). eexists. split; [reflexivity|]. split; [reflexivity|].
  intros [o [[<-|[<-|[]]] H]]; discriminate H.
Qed.

(** C145. The mean of headings is the mean of numbers: bins in which the instrument points one degree to either side of
    north get the heading south. *)
Theorem C145_heading_refuted : exists raw size v out w,
  sound size raw /\ ready raw 2 ["heading"] /\ get (vars raw) "heading" = Some v /\ rows v = [[Some 359; Some 1]]%R
  /\ do_avg raw (inject_Z (Z.of_nat 2)) ["heading"] (Dataset [] []) = inr out /\ get (vars out) "heading" = Some w
  /\ rows w = [[Some 180%R]].
Proof.
  pose (hv := Var ["time"] [] 2 [[Some 359; Some 1]]%R).
  pose (vv := Var ["dir"; "time"] [2] 2 [[Some 3; Some 1]; [Some 4; Some 0]]%R).
  pose (raw := Dataset [("vel", vv); ("heading", hv)] []).
  pose (size := fun o : string => 2).
  assert (Ov : on_time "time" vv) by (split; [reflexivity|]; exists ["dir"]; split; [reflexivity|]; intros o [<-|[]]; discriminate).
  assert (Oh : on_time "time" hv) by (split; [reflexivity|]; exists []; split; [reflexivity|]; intros o []).
  assert (S : sound size raw).
  { split; [|intros nm t []]. intros ky v [H|[H|[]]]; injection H as <- <-;
      (split; [discriminate|split; [reflexivity|split; [reflexivity|split; [discriminate|repeat constructor]]]]). }
  assert (R : ready raw 2 ["heading"]).
  { split.
    - intros ky [<-|[]]. exists hv. split; [reflexivity|]. intros _. right. exists "time". split; [exact Oh|cbn; lia].
    - exists vv, "time", 2, []. split; [reflexivity|]. split; [exact Ov|]. split; [cbn; lia|]. split; [reflexivity|lia]. }
  destruct (C143_averages_partial raw size 2 S ltac:(lia) _ R) as [out [E [H _]]].
  destruct (H "heading" hv "time") as [[w [Gw [_ [_ L]]]] _]; [now left|reflexivity|exact Oh| |discriminate|discriminate|].
  { intros [o [[<-|[]] C]]. discriminate C. }
  exists raw, size, hv, out, w. split; [exact S|]. split; [exact R|]. split; [reflexivity|]. split; [reflexivity|]. split; [exact E|].
  split; [exact Gw|]. cbn in L. inversion L as [|a b l m [Lb M] F]; subst. inversion F; subst.
  change (Datatypes.length b = 1) in Lb. destruct b as [|x [|y b]]; try discriminate Lb.
  destruct (M 0) as [x' [Ex Mx]]; [cbn; lia|]. cbn in Ex. injection Ex as <-. unfold samples in Mx. cbn in Mx.
  destruct x as [x|]; [|discriminate Mx]. destruct Mx as [_ Mx]. unfold sum_list in Mx. cbn in Mx.
  replace x with 180%R by lra. reflexivity.
Qed.

(** C146. Spectra, covariances and coherences along an axis called "time" get the mean instants of the bins as their
    coordinate, and the other axes keep theirs. *)
Theorem C146_coordinates_partial : forall own axes n t, 1 <= n -> get own "time" = Some t -> n <= length t ->
  exists cs t', new_coords own axes (inject_Z (Z.of_nat n)) = inr cs /\ means n t t' /\
    cs = map (fun a => if contains "time" (fst a) then (fst a, length t', Some t') else (a, None)) axes.
Proof. exact Proofs.DoAvg.new_coords_ok. Qed.
Example C146_case : 1 <= 2 /\ get (coords few) "time" = Some [Some 0; Some 1; Some 2; Some 3; Some 4]%R /\ 2 <= length [Some 0; Some 1; Some 2; Some 3; Some 4]%R.
Proof. repeat split; cbn; lia. Qed.
(** Along a time axis of another name (fifth beams, averages) there is an error. *)
Theorem C146_other_axes_refuted : forall own axes n_bin, get own "time" = None ->
  (exists a, In a axes /\ contains "time" (fst a) = true) -> new_coords own axes n_bin = inl AttributeError.
Proof. exact Proofs.DoAvg.new_coords_fails. Qed.
Example C146_fifth_beam : let own := [("time_b5", [Some 0; Some 1]%R)] in
  get own "time" = None /\ exists a, In a [("range_b5", 3); ("time_b5", 2)] /\ contains "time" (fst a) = true.
Proof. cbn. split; [reflexivity|]. exists ("time_b5", 2). split; [right; now left|reflexivity]. Qed.

(** C147. The lengths of transforms of a binner are those asked for up to the length of a bin, and never more, both when it
    is made and when they are overridden; without any they are the bin's, and that of coherences the other's. *)
Theorem C147_new : forall n_bin n_fft n_fft_coh, let b := new_binner n_bin n_fft n_fft_coh in
  n_bin_of b = n_bin /\ (n_fft_of b <= n_bin)%Z /\ (n_fft_coh_of b <= n_bin)%Z
  /\ (forall x, n_fft = Some x -> (x <= n_bin)%Z -> n_fft_of b = x)
  /\ (forall x, n_fft_coh = Some x -> (x <= n_bin)%Z -> n_fft_coh_of b = x)
  /\ (n_fft_coh = None -> n_fft_coh_of b = n_fft_of b) /\ (n_fft = None -> n_fft_of b = n_bin).
Proof. exact Proofs.DoAvg.new_binner_lengths. Qed.
Theorem C147_override : forall n_bin f0 c0 x, let b := new_binner n_bin f0 c0 in
  (parse_nfft b x <= n_bin)%Z /\ (parse_nfft_coh b x <= n_bin)%Z
  /\ (forall y, x = Some y -> (y <= n_bin)%Z -> parse_nfft b x = y /\ parse_nfft_coh b x = y)
  /\ (x = None -> parse_nfft b x = n_fft_of b /\ parse_nfft_coh b x = n_fft_coh_of b).
Proof. exact Proofs.DoAvg.override_lengths. Qed.
Example C147_case : new_binner 100 (Some 128%Z) (Some 50%Z) = Lengths 100 100 50 /\ parse_nfft (new_binner 100 (Some 128%Z) (Some 50%Z)) (Some 64%Z) = 64%Z.
Proof. split; reflexivity. Qed.

(** All the theorems of this file, for one listing of axioms. *)
Definition all_theorems :=
  (@C143_averages_partial,
   @C143_variances_partial,
   @C144_static_lost_refuted,
   @C144_short_axis_refuted,
   @C144_no_velocity_refuted,
   @C145_heading_refuted,
   @C146_coordinates_partial,
   @C146_other_axes_refuted,
   @C147_new,
   @C147_override).
Print Assumptions all_theorems.
