(** C180: attributes of Nortek datasets. *)
From Coq Require Import String.
From Coq Require Import ZArith QArith List Bool Lia.
From Verif.Model Require Import Nortek NortekFile NortekHead NortekAttrs.
From Verif.Spec Require Import Nortek NortekGuess NortekData NortekEarth NortekHead NortekAttrs.
From Verif.Proofs Require NortekAttrs.
Import ListNotations.
Open Scope Z_scope.

(** Whole numbers. *)
Theorem C180_numbers : forall hw head usr s nens rest, says hw head usr s ->
  exists d, read_attrs false nens (hw ++ head ++ usr ++ rest) = Some d /\
    forall name p unit v, In (name, p, unit) (numbers ++ numbers_of (s_kind s)) -> recorded hw head usr p v -> attribute d name (AInt (v * unit)).
Proof.
  intros hw head usr s nens rest Y. eexists. split; [exact (Proofs.NortekAttrs.attrs_are hw head usr s Y nens rest)|].
  intros name p unit v I R. apply Proofs.NortekAttrs.there. exact (Proofs.NortekAttrs.numbers_in hw head usr s name p unit v I R).
Qed.
(** One bit each. *)
Theorem C180_switches : forall hw head usr s nens rest, says hw head usr s ->
  exists d, read_attrs false nens (hw ++ head ++ usr ++ rest) = Some d /\
    forall name p b no yes v, In (name, p, b, no, yes) (switches ++ switches_of (s_kind s)) -> recorded hw head usr p v ->
      attribute d name (AWord (if Z.testbit v b then yes else no)).
Proof.
  intros hw head usr s nens rest Y. eexists. split; [exact (Proofs.NortekAttrs.attrs_are hw head usr s Y nens rest)|].
  intros name p b no yes v I R. apply Proofs.NortekAttrs.there. exact (Proofs.NortekAttrs.switches_in hw head usr s name p b no yes v I R).
Qed.
(** Texts: three of fixed length, two that end at the first zero. *)
Theorem C180_texts : forall hw head usr s nens rest, says hw head usr s ->
  exists d, read_attrs false nens (hw ++ head ++ usr ++ rest) = Some d /\
    attribute d "serial_number" (AText (text_at hw 4 8)) /\ attribute d "ProLogFWver" (AText (text_at hw 14 4)) /\
    attribute d "firmware_version" (AText (text_at hw 42 4)) /\
    (forall t, ended_at usr 40 6 t -> attribute d "deployment_name" (AText t)) /\
    (forall t, ended_at usr 256 80 t -> attribute d "comments" (AText t)).
Proof.
  intros hw head usr s nens rest Y. eexists. split; [exact (Proofs.NortekAttrs.attrs_are hw head usr s Y nens rest)|].
  destruct (Proofs.NortekAttrs.texts_in hw head usr s) as (A & B & C). destruct (Proofs.NortekAttrs.notes_in hw head usr s) as (D & E).
  repeat split; intros; apply Proofs.NortekAttrs.there; auto.
Qed.
(** The others: salinity, in tenths in the file; whether files wrap; how waves are processed; the version of the software;
    the power level. *)
Theorem C180_others : forall hw head usr s nens rest, says hw head usr s ->
  exists d, read_attrs false nens (hw ++ head ++ usr ++ rest) = Some d /\
    (forall v, recorded hw head usr (Usr 74) v -> attribute d "salinity" (ARat (inject_Z v / 10))) /\
    (recorded hw head usr (Usr 46) 0 -> attribute d "wrap_mode" (AWord "False")) /\
    (forall v, recorded hw head usr (Usr 46) v -> v <> 0 -> attribute d "wrap_mode" (AWord "True")) /\
    (forall v w, s_kind s = Awac -> recorded hw head usr (Usr 384) v -> In (v, w) methods -> attribute d "wave_processing_method" (AWord w)) /\
    (forall v, recorded hw head usr (Usr 72) v -> exists t, version v t /\ attribute d "software_version" (AText t)) /\
    (forall v, recorded hw head usr (Usr 20) v -> exists n, power_bits v n /\ attribute d "power_level" (AInt n)).
Proof.
  intros hw head usr s nens rest Y. eexists. split; [exact (Proofs.NortekAttrs.attrs_are hw head usr s Y nens rest)|].
  split; [|split; [|split; [|split; [|split]]]].
  - intros v R. apply Proofs.NortekAttrs.there. exact (proj1 (Proofs.NortekAttrs.others_in hw head usr s Y v) R).
  - intros R. apply Proofs.NortekAttrs.there. exact (proj1 (proj2 (Proofs.NortekAttrs.others_in hw head usr s Y 0)) R).
  - intros v R N. apply Proofs.NortekAttrs.there. pose proof (proj1 (proj2 (Proofs.NortekAttrs.others_in hw head usr s Y v)) R) as X.
    destruct (Z.eqb_spec v 0); [contradiction|exact X].
  - intros v w K R M. apply Proofs.NortekAttrs.there. exact (proj1 (proj2 (proj2 (Proofs.NortekAttrs.others_in hw head usr s Y v))) w R K M).
  - intros v R. destruct (Proofs.NortekAttrs.version_in hw head usr s Y v R) as (t & V & I). exists t. split; [exact V|]. apply Proofs.NortekAttrs.there, I.
  - intros v R. destruct (Proofs.NortekAttrs.power_in hw head usr s Y v R) as (n & V & I). exists n. split; [exact V|]. apply Proofs.NortekAttrs.there, I.
Qed.
(** The duty cycle is there when the instrument samples in bursts, and only then. *)
Theorem C180_duty : forall hw head usr s nens rest, says hw head usr s ->
  exists d, read_attrs false nens (hw ++ head ++ usr ++ rest) = Some d /\
    (forall v, recorded hw head usr (Usr 38) v -> 0 < s_burst s -> attribute d "duty_cycle_n_burst" (AInt (s_burst s)) /\ attribute d "duty_cycle_interval" (AInt v)) /\
    (s_burst s = 0 -> forall a, ~ attribute d "duty_cycle_n_burst" a /\ ~ attribute d "duty_cycle_interval" a).
Proof.
  intros hw head usr s nens rest Y. eexists. split; [exact (Proofs.NortekAttrs.attrs_are hw head usr s Y nens rest)|]. split.
  - intros v R P. destruct (proj2 (proj2 (proj2 (Proofs.NortekAttrs.others_in hw head usr s Y v))) R P) as (A & B).
    split; apply Proofs.NortekAttrs.there; assumption.
  - intros Z0 a. split; intros (pre & post & E & _).
    + destruct (Proofs.NortekAttrs.no_duty hw head usr s Y Z0 "duty_cycle_n_burst"%string a) as (N & _); [rewrite E; apply in_or_app; right; left; reflexivity|]. apply N. reflexivity.
    + destruct (Proofs.NortekAttrs.no_duty hw head usr s Y Z0 "duty_cycle_interval"%string a) as (_ & N); [rewrite E; apply in_or_app; right; left; reflexivity|]. apply N. reflexivity.
Qed.
(** Instrument, sampling rate in Hz, coordinate system. *)
Theorem C180_instrument : forall hw head usr s nens rest, says hw head usr s ->
  exists d, read_attrs false nens (hw ++ head ++ usr ++ rest) = Some d /\
    attribute d "inst_make" (AWord "Nortek") /\ attribute d "coord_sys" (AWord (s_frame s)) /\
    (s_kind s = Awac -> attribute d "inst_model" (AWord "AWAC") /\ attribute d "inst_type" (AWord "ADCP") /\ attribute d "fs" (ARat (1 / inject_Z (s_interval s)))) /\
    (s_kind s = Vector -> attribute d "inst_model" (AWord "Vector") /\ attribute d "inst_type" (AWord "ADV") /\ attribute d "fs" (ARat (512 / inject_Z (s_interval s)))).
Proof.
  intros hw head usr s nens rest Y. eexists. split; [exact (Proofs.NortekAttrs.attrs_are hw head usr s Y nens rest)|].
  destruct (Proofs.NortekAttrs.settings_in hw head usr s) as (A & B & C & D & E). unfold configured in A. cbn [ReadVector.g_fs] in A.
  split; [|split; [|split]]; try (apply Proofs.NortekAttrs.there; assumption).
  - intros K. rewrite K in A, D, E. repeat split; apply Proofs.NortekAttrs.there; assumption.
  - intros K. rewrite K in A, D, E. repeat split; apply Proofs.NortekAttrs.there; assumption.
Qed.

(** ** Example: a Vector in bursts of 300 samples, once an hour *)
Local Definition two (x : Z) : bytes := [x mod 256; x mod 65536 / 256].
Local Definition hw0 : bytes :=
  [165; 5; 24; 0] ++ [86; 69; 67] ++ [32; 49; 50; 51; 52; 255; 0; 49; 46; 48; 48] ++ repeat 0 4 ++ two 9 ++ two 3 ++ two 144 ++ two 1 ++ repeat 0 12 ++ [51; 46; 49; 48; 7; 8].
Local Definition head0 : bytes :=
  [165; 4; 112; 0] ++ two 5 ++ two 6000 ++ repeat 0 22 ++ two 4096 ++ two 8192 ++ two 0 ++ two 0 ++ two 4096 ++ two 0 ++ two 0 ++ two (-4096) ++ two 2048 ++ repeat 0 176.
Local Definition usr0 : bytes :=
  [165; 0; 0; 1; 0; 0; 40; 0] ++ repeat 0 6 ++ two 2 ++ [128; 0; 3; 0] ++ two 98 ++ repeat 0 8 ++ two 1 ++ two 1 ++ two 1 ++ two 132 ++ two 3600 ++ [65; 66; 0; 7; 0; 0] ++ two 1 ++ repeat 0 10 ++
  two 33 ++ repeat 0 12 ++ two 13602 ++ two 350 ++ repeat 0 180 ++ [66] ++ repeat 0 127 ++ [4] ++ repeat 0 67 ++ two 300 ++ repeat 0 58.
Local Definition s0 : setup := Setup Vector 6000 [[4096; 8192; 0]; [0; 4096; 0]; [0; -4096; 2048]] 128 "inst" 3 1 false 300 40 132.
Local Lemma plain_by b i n : forallb (fun k => match nth_error b k with Some c => (0 <=? c) && (c <? 128) | None => false end) (seq i n) = true -> plain_text b i n.
Proof.
  intros H k K. rewrite forallb_forall in H. specialize (H k). destruct (nth_error b k) as [c|].
  - exists c. split; [reflexivity|]. assert (X := H ltac:(apply in_seq; lia)). apply andb_true_iff in X as (X1 & X2). apply Z.leb_le in X1. apply Z.ltb_lt in X2. lia.
  - discriminate (H ltac:(apply in_seq; lia)).
Qed.
Local Lemma bytes_by b : forallb (fun y => (0 <=? y) && (y <? 256)) b = true -> Forall is_byte b.
Proof.
  intros H. apply Forall_forall. intros y I. rewrite forallb_forall in H. specialize (H y I). apply andb_true_iff in H as (H1 & H2).
  apply Z.leb_le in H1. apply Z.ltb_lt in H2. unfold is_byte. lia.
Qed.
Local Ltac word_here := do 2 eexists; split; [reflexivity|]; split; [reflexivity|reflexivity].
Example C180_hyp : says hw0 head0 usr0 s0 /\ recorded hw0 head0 usr0 (Usr 74) 350 /\ recorded hw0 head0 usr0 (Usr 58) 33 /\ recorded hw0 head0 usr0 (Hw 26) 144 /\
  recorded hw0 head0 usr0 (Head 4) 5 /\ recorded hw0 head0 usr0 (Usr 38) 3600 /\ recorded hw0 head0 usr0 (Usr 46) 1 /\ recorded hw0 head0 usr0 (Usr 72) 13602 /\
  recorded hw0 head0 usr0 (Usr 20) 98 /\ version 13602 [49; 46; 51; 54; 46; 48; 50] /\ power_bits 98 4 /\ ended_at usr0 40 6 [65; 66] /\ 0 < s_burst s0.
Proof.
  split; [|repeat (split; [word_here|]); split; [|split; [reflexivity|split; [|reflexivity]]]].
  - constructor; try (apply bytes_by; vm_compute; reflexivity); try word_here.
    + split; [split; reflexivity|word_here].
    + eexists. split; [cbn; tauto|]. repeat (apply Forall2_cons; [cbn; lia|]). apply Forall2_nil.
    + repeat split; apply plain_by; vm_compute; reflexivity.
    + split; reflexivity.
    + do 9 eexists. split; [reflexivity|]. intros k x E. do 9 (destruct k as [|k]; [injection E as <-; do 2 eexists; split; [reflexivity|]; split; [reflexivity|]; split; [lia|reflexivity]|]). destruct k; discriminate E.
    + split; reflexivity.
    + repeat split; apply plain_by; vm_compute; reflexivity.
    + exists 4. split; [word_here|reflexivity].
    + split; [word_here|reflexivity].
    + exists 1. split; [word_here|cbn; tauto].
    + exists 33. split; [word_here|reflexivity].
  - exists [49], [51; 54], [48; 50]. split; [reflexivity|]. split; [reflexivity|]. split; [cbn; lia|]. split; [reflexivity|]. split; [repeat (apply Forall_cons; [lia|]); apply Forall_nil|]. split; [reflexivity|discriminate].
  - split; [cbn; lia|]. exists [0; 7; 0; 0]. split; [reflexivity|]. right. eexists. reflexivity.
Qed.

(** All the theorems of this file, for one listing of axioms. *)
Definition all_theorems :=
  (@C180_numbers,
   @C180_switches,
   @C180_texts,
   @C180_others,
   @C180_duty,
   @C180_instrument).
Print Assumptions all_theorems.
