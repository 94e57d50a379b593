(** C178, C179: Nortek files from their first byte. *)
From Coq Require Import String.
From Coq Require Import ZArith QArith Qreals Reals List Bool Lia Lra.
From Verif.Model Require Import Rotate.
From Verif.Spec Require Import Rotate.
From Verif.Model Require Import Nortek NortekFile NortekData HandleNan ReadVector ReadAwac NortekEarth NortekHead.
From Verif.Spec Require Import Nortek NortekGuess NortekData ReadVector NortekEarth VectorEarth NortekHead.
From Verif.Model Require RdiBlocks.
From Verif.Spec Require Linalg.
From Verif.Proofs Require NortekEarth VectorEarth NortekHead ReadAwac Reduce.
Import ListNotations.
Open Scope string_scope.
Open Scope list_scope.
Open Scope nat_scope.

(** ** C178 *)
(** Missing: Vectrinos, texts that are not ASCII, settings that no later step uses. Files of the other byte order are C64. *)
Theorem C178_settings_partial : forall hw head usr s nens rest, says hw head usr s ->
  exists o, open_nortek false nens (hw ++ head ++ usr ++ rest) = Some o /\
    o_reader o = reader_of s nens /\ o_cfg o = configured s /\ o_frame o = s_frame s /\ o_freq o = s_freq s /\
    u_blank (o_user o) = s_blank s /\ u_bin_length (o_user o) = s_length s /\ o_start o = length (hw ++ head ++ usr).
Proof.
  intros hw head usr s nens rest Y. destruct (Proofs.NortekHead.opened_as hw head usr s nens rest Y) as (axes & _ & E).
  eexists. split; [exact E|]. repeat split; reflexivity.
Qed.

(** ** C179 *)
(** Profiles turn into earth velocities with the matrix and from the coordinate system that the header says. What this misses
    of the profiles is C174. *)
Theorem C179_awac_partial : forall hw head usr s bs tail, says hw head usr s -> s_kind s = Awac -> s_beams s = 3%Z -> known_frequency (s_freq s) ->
  awac_file LE false (Z.to_nat (s_bins s)) (hw ++ head ++ usr) bs tail (configured s) -> no_configuration bs ->
  forall nan u, exists D d',
  read_nortek nan None u false None (file_of (hw ++ head ++ usr) bs tail) = Some (Ok D) /\
  declination D = u /\ coord_sys D = s_frame s /\ rotate2 D "earth" = Ok d' /\
  forall i b h p r j v down, profile_at LE (Z.to_nat (s_bins s)) bs i b h p r j v -> points_down b down ->
    s_frame s = "earth" \/ (down = false /\ (0 <= p)%Z /\ (0 <= r)%Z) ->
    value d' "vel" i j = Some (turned u (to_earth (s_frame s) (map (map (fun x => IZR x / 4096)%R) (s_matrix s)) down (tenths h) (tenths p) (tenths r) (metres v))).
Proof. exact Proofs.NortekHead.awac_from_start. Qed.
(** The same for a Vector; [plain_vector] is the class of files of C175. *)
Theorem C179_vector_partial : forall hw head usr s bs tail clock down, says hw head usr s -> s_kind s = Vector ->
  plain_vector (reader_of s None) (configured s) (hw ++ head ++ usr) bs tail clock down -> no_configuration bs ->
  forall nan u, exists D d',
  read_nortek nan None u false None (file_of (hw ++ head ++ usr) bs tail) = Some (Ok D) /\
  declination D = u /\ coord_sys D = s_frame s /\ rotate2 D "earth" = Ok d' /\
  (forall k h p rl, attitude_at LE bs k h p rl -> turned_with s bs down u d' k (tenths h) (tenths p) (tenths rl)) /\
  (forall i j k h p rl h' p' rl', attitude_at LE bs i h p rl -> attitude_at LE bs j h' p' rl' -> i < k < j ->
     (forall m, i < m < j -> no_sys_at bs m) -> ~ (clock i == clock j)%Q ->
     let w := passed clock i j k in turned_with s bs down u d' k (between w h h') (between w p p') (between w rl rl')) /\
  (forall i k h p rl, attitude_at LE bs i h p rl -> i <= k -> (forall m, i < m -> no_sys_at bs m) ->
     turned_with s bs down u d' k (tenths h) (tenths p) (tenths rl)).
Proof. exact Proofs.NortekHead.vector_from_start. Qed.

(** The ranges of an AWAC, cm for cm, by the manufacturer's formulas: cells of [length / 256 * coefficient * cos 25] metres
    after a blanking of [counts * 0.0229 * cos 25 - cell], both rounded to centimetres. *)
Theorem C179_ranges_partial : forall hw head usr s bs tail coef, says hw head usr s -> s_kind s = Awac -> s_beams s = 3%Z -> In (s_freq s, coef) coefficients ->
  awac_file LE false (Z.to_nat (s_bins s)) (hw ++ head ++ usr) bs tail (configured s) -> no_configuration bs ->
  exists r cell blank, read_ranges false None (file_of (hw ++ head ++ usr) bs tail) = Some (r, cell, blank) /\
    Z.of_nat (length r) = s_bins s /\ (forall k x, nth_error r k = Some x -> x = blank + (INR k + 1) * cell)%R /\
    (Rabs (cell - IZR (s_length s) / 256 * coef * cos (25 * (PI / 180))) <= 1 / 200)%R /\
    (Rabs (blank - (IZR (s_blank s) * (229 / 10000) * cos (25 * (PI / 180)) - cell)) <= 1 / 200)%R.
Proof. exact Proofs.NortekHead.ranges_from_start. Qed.
(** Other frequencies are not known. *)
Theorem C179_frequency : forall hw head usr s rest nens nan M u, says hw head usr s -> s_kind s = Awac -> ~ known_frequency (s_freq s) ->
  read_nortek nan M u false nens (hw ++ head ++ usr ++ rest) = None.
Proof. exact Proofs.NortekHead.unknown_frequency. Qed.

(** ** Examples: an AWAC of 1000 kHz with two cells, its velocities in beam coordinates; a Vector at 4 Hz in earth coordinates
    with velocities in steps of 0.1 mm/s *)
Local Open Scope Z_scope.
Local Definition two (x : Z) : bytes := [x mod 256; x mod 65536 / 256].
Local Definition hw0 (k : instrument) : bytes :=
  [165; 5; 24; 0] ++ (match k with Awac => [87; 112; 82] | _ => [86; 69; 67] end) ++ [32; 49; 50; 51; 52; 255; 0; 49; 46; 48; 48] ++ repeat 0 24 ++ [51; 46; 49; 48; 7; 8].
Local Definition head0 : bytes :=
  [165; 4; 112; 0; 7; 0; 232; 3] ++ repeat 0 22 ++ two 4096 ++ two 8192 ++ two 0 ++ two 0 ++ two 4096 ++ two 0 ++ two 0 ++ two (-4096) ++ two 2048 ++ repeat 0 176.
Local Definition usr0 (code mode : Z) : bytes :=
  [165; 0; 0; 1; 0; 0; 40; 0] ++ repeat 0 8 ++ [128; 0; 3; 0] ++ repeat 0 12 ++ [code; 0; 2; 0; 132; 0; 0; 0; 65] ++ repeat 0 17 ++ [mode] ++ repeat 0 197 ++ [66] ++
  repeat 0 127 ++ [4] ++ repeat 0 127.
Local Definition s0 (k : instrument) (frame : string) (fine : bool) : setup := Setup k 1000 [[4096; 8192; 0]; [0; 4096; 0]; [0; -4096; 2048]] 128 frame 3 2 fine 0 40 132.
Local Lemma plain_by b i n : forallb (fun k => match nth_error b k with Some c => (0 <=? c) && (c <? 128) | None => false end) (seq i n) = true -> plain_text b i n.
Proof.
  intros H k K. rewrite forallb_forall in H. specialize (H k). destruct (nth_error b k) as [c|].
  - exists c. split; [reflexivity|]. assert (X := H ltac:(apply in_seq; lia)). apply andb_true_iff in X as (X1 & X2). apply Z.leb_le in X1. apply Z.ltb_lt in X2. lia.
  - discriminate (H ltac:(apply in_seq; lia)).
Qed.
Local Lemma bytes_by b : forallb (fun y => (0 <=? y) && (y <? 256)) b = true -> Forall is_byte b.
Proof.
  intros H. apply Forall_forall. intros y I. rewrite forallb_forall in H. specialize (H y I). apply andb_true_iff in H as (H1 & H2).
  apply Z.leb_le in H1. apply Z.ltb_lt in H2. unfold is_byte. lia.
Qed.
Local Ltac word_here := do 2 eexists; split; [reflexivity|]; split; [reflexivity|reflexivity].
Example C178_hyp : says (hw0 Awac) head0 (usr0 2 0) (s0 Awac "beam" false) /\ says (hw0 Vector) head0 (usr0 0 16) (s0 Vector "earth" true).
Proof.
  split; constructor; try (apply bytes_by; vm_compute; reflexivity); try word_here.
  all: try (split; [split; reflexivity|word_here]).
  all: try (split; reflexivity).
  all: try (eexists; split; [cbn; tauto|]; repeat (apply Forall2_cons; [cbn; lia|]); apply Forall2_nil).
  all: try (repeat split; apply plain_by; vm_compute; reflexivity).
  all: try (do 9 eexists; split; [reflexivity|]; intros k x E; do 9 (destruct k as [|k]; [injection E as <-; do 2 eexists; split; [reflexivity|]; split; [reflexivity|]; split; [lia|reflexivity]|]); destruct k; discriminate E).
  all: try (split; [word_here|reflexivity]).
  all: try (exists 4; split; [word_here|reflexivity]).
  - exists 2. split; [word_here|cbn; tauto].
  - exists 0. split; [word_here|reflexivity].
  - exists 0. split; [word_here|cbn; tauto].
  - exists 16. split; [word_here|reflexivity].
Qed.
Local Definition start (k : instrument) (code mode : Z) : bytes := hw0 k ++ head0 ++ usr0 code mode.
Local Definition prof (sec h p r x y z : Z) : blk :=
  Blk 32 ([69; 0; 53; sec; 9; 18; 18; 2] ++ repeat 7 8 ++ two h ++ two p ++ two r ++ [0; 0] ++ repeat 7 4 ++ repeat 0 88 ++
          two x ++ two 7 ++ two y ++ two 8 ++ two z ++ two 9 ++ [11; 12; 13; 14; 15; 16]) [1; 2].
Local Definition three : list blk := [prof 0 3000 25 100 1000 (-200) 30; prof 16 3000 25 100 1000 (-200) 30; prof 32 3000 25 100 1000 0 0].
Local Lemma prof_ok b : In b three -> awac_block 2 3 b /\ Forall is_byte (body b) /\ verified (Reader LE false Awac 2 3 None) b /\ sized LE b.
Proof.
  intros I. split; [|split; [|split]].
  - left. destruct I as [<-|[<-|[<-|[]]]]; (split; [reflexivity|]; split; [reflexivity|eexists; reflexivity]).
  - apply bytes_by. destruct I as [<-|[<-|[<-|[]]]]; reflexivity.
  - exists 1, 2. split; [destruct I as [<-|[<-|[<-|[]]]]; reflexivity|left; reflexivity].
  - right. split; [destruct I as [<-|[<-|[<-|[]]]]; discriminate|]. exists 69, 0. destruct I as [<-|[<-|[<-|[]]]]; eexists; split; reflexivity.
Qed.
Local Lemma start_length k code mode : length (start k code mode) = 784%nat.
Proof. unfold start. rewrite !app_length. destruct k; reflexivity. Qed.
Local Lemma det_ok k frame fine : Spec.Linalg.det3 (reals (g_beam2inst (configured (s0 k frame fine)))) <> 0%R.
Proof. rewrite (Proofs.NortekHead.matrix_reals (s0 k frame fine)). cbn [s0 s_matrix map]. unfold Spec.Linalg.det3. cbn. lra. Qed.
Example C179_awac_hyp : awac_file LE false 2 (start Awac 2 0) three [] (configured (s0 Awac "beam" false)) /\ no_configuration three /\
  (exists b, profile_at LE 2 three 0 b 3000 25 100 0 [1000; -200; 30] /\ points_down b false) /\ known_frequency 1000 /\ In (1000, (478 / 10000)%R) coefficients.
Proof.
  split; [|split; [|split; [|split]]].
  - constructor.
    + rewrite start_length. lia.
    + cbn. lia.
    + lia.
    + split; [split; [reflexivity|repeat constructor]|apply det_ok].
    + apply Forall_forall. intros b I. apply (prof_ok b I).
    + apply Forall_forall. intros b I. apply (prof_ok b I).
    + apply Forall_forall. intros b I. apply (prof_ok b I).
    + apply Forall_forall. intros b I. apply (prof_ok b I).
    + cbn. lia.
    + left. cbn. lia.
  - intros b I. destruct I as [<-|[<-|[<-|[]]]]; cbn; lia.
  - eexists. split; [split; [reflexivity|]; split; [|split; [lia|]]|eexists; split; reflexivity].
    + split; [do 2 eexists; split; [reflexivity|]; split; reflexivity|]. split; do 2 eexists; (split; [reflexivity|]; split; [reflexivity|]; split; [lia|reflexivity]).
    + do 3 eexists. split; [reflexivity|]. repeat split; do 2 eexists; (split; [reflexivity|]; split; [reflexivity|]; split; [lia|reflexivity]).
  - cbn. tauto.
  - cbn. tauto.
Qed.

(** two samples a second, system data every second; burst sampling is in C175 *)
Local Definition v (x y z : Z) : blk := Blk 16 (repeat 0 8 ++ two x ++ two y ++ two z ++ repeat 0 6) [1; 2].
Local Definition y (sec h : Z) : blk := Blk 17 ([14; 0] ++ [53; sec; 9; 18; 18; 2] ++ [7; 7; 7; 7] ++ two h ++ two 20 ++ two (-30) ++ [0; 0; 0; 2; 0; 0]) [1; 2].
Local Definition r0 : reader := reader_of (s0 Vector "earth" true) None.
Local Definition t0 : Q := inject_Z (RdiBlocks.epoch (Date 2012 2 9 12 35 0)).
Local Definition bs0 : list blk := [v 5 6 7; y 0 100; v 1 (-2) 3; v 250 0 0; y 1 200; v 4 5 6; v 7 8 9; y 2 250; v 5 5 5; v 6 6 6].
Local Lemma v_ok a b c : vector_block LE (v a b c) /\ verified r0 (v a b c) /\ sized LE (v a b c).
Proof. split; [left; split; reflexivity|]. split; [exists 1%Z, 2%Z; split; [reflexivity|left; reflexivity]|]. left. reflexivity. Qed.
Local Lemma y_ok sec h : (0 <= sec < 3)%Z -> vector_block LE (y sec h) /\ verified r0 (y sec h) /\ sized LE (y sec h) /\
  rd_time (skipn 2 (body (y sec h))) = Some (Date 2012 2 9 12 35 sec).
Proof.
  intros H. assert (sec = 0 \/ sec = 1 \/ sec = 2)%Z as D by lia.
  assert (R : rd_time (skipn 2 (body (y sec h))) = Some (Date 2012 2 9 12 35 sec)) by (destruct D as [->|[->| ->]]; reflexivity).
  split; [right; left; split; [reflexivity|split; [reflexivity|exists (Date 2012 2 9 12 35 sec); exact R]]|].
  split; [exists 1%Z, 2%Z; split; [reflexivity|left; reflexivity]|]. split; [right; split; [discriminate|exists 14%Z, 0%Z; eexists; split; reflexivity]|exact R].
Qed.
(** going through the blocks of a concrete list *)
Local Fixpoint along (P : list blk -> blk -> list blk -> Prop) (pre bs : list blk) : Prop :=
  match bs with [] => True | b :: post => P pre b post /\ along P (pre ++ [b]) post end.
Local Lemma walk P bs : along P [] bs -> forall pre b post, bs = pre ++ b :: post -> P pre b post.
Proof.
  assert (G : forall bs q pre b post, along P q bs -> bs = pre ++ b :: post -> P (q ++ pre) b post).
  { clear bs. induction bs as [|x bs IH]; intros q pre b post H E; [destruct pre; discriminate|]. destruct H as [H1 H2]. destruct pre as [|z pre].
    - injection E as <- <-. rewrite app_nil_r. exact H1.
    - injection E as <- E. specialize (IH (q ++ [x]) pre b post H2 E). rewrite <- app_assoc in IH. exact IH. }
  intros H pre b post E. apply (G bs [] pre b post H E).
Qed.
Local Ltac each := refine (walk _ _ _); cbn [along app concat bs0]; repeat match goal with |- _ /\ _ => split | |- True => exact I end.
Local Lemma all_ok : Forall (fun b => vector_block LE b /\ verified r0 b /\ sized LE b) bs0.
Proof. repeat (apply Forall_cons; [match goal with |- context [v ?a ?b ?c] => exact (v_ok a b c) | |- context [y ?a ?b] => destruct (y_ok a b ltac:(lia)) as (? & ? & ? & _); tauto end|]). apply Forall_nil. Qed.
Local Lemma each_ok (P : blk -> Prop) : (forall b, vector_block LE b /\ verified r0 b /\ sized LE b -> P b) -> Forall P bs0.
Proof. intros H. eapply Forall_impl; [exact H|exact all_ok]. Qed.
Local Ltac blocks_ok := apply each_ok; intros ? (? & ? & ?); assumption.
Example C179_vector_hyp : plain_vector r0 (configured (s0 Vector "earth" true)) (start Vector 0 16) bs0 [] (clock_at (t0 - (1 # 2), 1 # 2)%Q) false /\
  no_configuration bs0 /\ attitude_at LE bs0 1 100 20 (-30) /\ sample_at LE bs0 1 [1; -2; 3].
Proof.
  split; [|split; [|split]].
  - constructor.
    + split; [reflexivity|]. split; [left; cbn; lia|]. split; [blocks_ok|]. split; [blocks_ok|]. split; [each; discriminate|]. split; [reflexivity|repeat constructor].
    + reflexivity.
    + split; [rewrite start_length; lia|]. split; [blocks_ok|]. split; [exists [v 5 6 7], (y 0 100); eexists; split; [reflexivity|split; [reflexivity|discriminate]]|].
      split; [left; cbn; lia|]. split; cbn; try (repeat constructor); lia.
    + repeat constructor.
    + left. split; [reflexivity|]. exists (t0 - (1 # 2), 1 # 2)%Q. split; [|split; [|reflexivity]].
      * split; [reflexivity|]. split; [discriminate|]. each; first [discriminate|intros _; eexists; split; [apply y_ok; lia|reflexivity]].
      * exists [v 5 6 7], (y 0 100), [v 1 (-2) 3; v 250 0 0], (y 1 200), [v 4 5 6; v 7 8 9], (y 2 250), [v 5 5 5; v 6 6 6]. repeat split; discriminate.
    + apply det_ok.
    + intros b I Sb. cbn [In bs0] in I. repeat (destruct I as [<-|I]; [first [discriminate Sb|exists 2; split; reflexivity]|]). destruct I.
  - intros b I. cbn [In bs0] in I. repeat (destruct I as [<-|I]; [cbn; lia|]). destruct I.
  - exists [v 5 6 7], (y 0 100). eexists. repeat (split; [reflexivity|]). split; [|split]; do 2 eexists; (split; [reflexivity|]; split; [reflexivity|]; split; [lia|reflexivity]).
  - do 4 eexists. split; [reflexivity|]. split; [reflexivity|]. split; [|split]; do 2 eexists; (split; [reflexivity|]; split; [reflexivity|]; split; [lia|reflexivity]).
Qed.

(** All the theorems of this file, for one listing of axioms. *)
Definition all_theorems :=
  (@C178_settings_partial,
   @C179_awac_partial,
   @C179_vector_partial,
   @C179_ranges_partial,
   @C179_frequency).
Print Assumptions all_theorems.
