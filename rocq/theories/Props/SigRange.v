(** C177: the ranges of the cells of a Signature dataset. *)
From Coq Require Import String.
From Coq Require Import ZArith QArith Reals List Bool Lia Lra.
From Verif.Model Require Import Nortek Ad2cp Ad2cpIndex SigData ReadSig SigRange.
From Verif.Spec Require Import Ad2cp Ad2cpIndex SigData ReadSig SigRange.
From Verif.Proofs Require Ad2cp SigRange.
Import ListNotations.
Open Scope Z_scope.

(** ** C177 *)
(** Missing: the echosounder, dual profiles, what C170 misses. Blanking in mm is refuted below. *)
Theorem C177_range_partial : forall conf ids enss file rebuild existing start stop fuel id nc cell blank,
  sig_file conf ids enss file -> (rebuild = true \/ existing = None) -> (length file < fuel)%nat -> (start < upto enss stop)%nat ->
  In id ids -> In id velocity_ids -> cells_recorded conf id nc -> settings conf enss start stop id cell blank true ->
  exists r, read_range fuel rebuild existing file start stop id = Some r /\ centres nc (IZR cell / 1000) (blanking blank true) r.
Proof.
  intros conf ids enss file rebuild existing start stop fuel id nc cell blank SF RB FU SU II IV CR ST.
  apply (SigRange.range_is conf ids enss file rebuild existing start stop fuel id nc cell blank SF RB FU SU II IV CR). intros k p I E. destruct (ST k p I E) as (A & B & _). split; assumption.
Qed.

(** Pings with other counts: zeros of the fifth beam are passed over, bursts and averages take the most frequent. Missing: as before. *)
Theorem C177_mixed_partial : forall conf ids enss file rebuild existing start stop fuel id nc cells cell blanks blank,
  sig_file conf ids enss file -> (rebuild = true \/ existing = None) -> (length file < fuel)%nat -> (start < upto enss stop)%nat ->
  In id ids -> In id velocity_ids -> cells_recorded conf id nc ->
  (forall k p, in_ping enss start stop k p -> p_id p = id -> exists s, has conf p "status" [s] /\ Z.testbit s 1 = true) ->
  counts conf enss start stop id "cell_size" cells -> agreed id cells cell -> counts conf enss start stop id "blank_dist" blanks -> agreed id blanks blank ->
  exists r, read_range fuel rebuild existing file start stop id = Some r /\ centres nc (IZR cell / 1000) (blanking blank true) r.
Proof.
  intros conf ids enss file rebuild existing start stop fuel id nc cells cell blanks blank SF RB FU SU II IV CR _.
  exact (SigRange.range_agreed conf ids enss file rebuild existing start stop fuel id nc cells cell blanks blank SF RB FU SU II IV CR).
Qed.

(** ** Examples: three bursts of four beams with two cells; [lo] is the first byte of the status *)
Definition body (lo num : Z) : bytes :=
  [3; 76; 32; 0; 7; 0; 0; 0; 120; 4; 13; 12; 30; 10 + num; 136; 19; 152; 58; 210; 4; 16; 39; 0; 0; 40; 35; 156; 255; 200; 0; 2; 72; 244; 1; 50; 0; 33; 170; 120; 0;
   100; 0; 200; 0; 212; 254; 0; 0; 0; 0; 0; 64; 232; 3; 0; 0; 60; 0; 253; 254; 0; 0; 196; 9; 0; 0; 0; 0; lo; 0; 0; 8; num; 0; 0; 0; 100; 0; 56; 255; 44; 1; 144; 1; 100; 0; 56; 255; 44; 1; 144; 1].
Definition lay : layout := match reader_for 21 32 18434 with Some l => l | None => [] end.
Definition ping (lo num : Z) : piece := Piece 21 (split_fields lay (unpack lay (body lo num))) ([165; 10; 21; 16; 92; 0; 0; 0; 0; 0] ++ body lo num).
Definition text : piece := Piece 160 [] [165; 10; 160; 16; 2; 0; 0; 0; 0; 0; 16; 65].
Definition conf0 : Z -> Z * Z := fun _ => (32, 18434).
Definition pings (lo : Z) : list (list piece) := map (fun num => [ping lo num]) [5; 6; 7].
Definition file0 (lo : Z) : bytes := bytes_of [text] ++ concat (map bytes_of (pings lo)).
Lemma good_ping lo num : 0 <= lo < 256 -> 0 <= num < 50 -> good_piece conf0 (ping lo num).
Proof.
  intros H N. split; [cbn; lia|]. exists (body lo num). split; [|split; [|split; [|split]]].
  - exists 10, 16, 92, 0, 0, 0, 0, 0. split; [reflexivity|]. cbn. lia.
  - unfold short. cbn. lia.
  - discriminate.
  - intros _. split; [cbn; lia|]. split; [discriminate|]. repeat split; reflexivity.
  - intros _. exists lay. split; [reflexivity|]. apply Ad2cp.holds_any; [| |reflexivity].
    + apply Forall_forall. intros f Hf. unfold lay in Hf. cbn in Hf. repeat (destruct Hf as [<-|Hf]; [cbn; lia|]). destruct Hf.
    + unfold body, all_bytes. repeat (apply Forall_cons; [lia|]). apply Forall_nil.
Qed.
Lemma good_text : good_piece conf0 text.
Proof.
  split; [cbn; lia|]. exists [16; 65]. split; [|split; [|split; [|split]]].
  - exists 10, 16, 2, 0, 0, 0, 0, 0. split; [reflexivity|]. cbn. lia.
  - unfold short. cbn. lia.
  - discriminate.
  - discriminate.
  - cbn. lia.
Qed.
Example C177_file : forall lo, 0 <= lo < 256 -> sig_file conf0 [21] (pings lo) (file0 lo).
Proof.
  intros lo HL. exists 5, [text]. eexists. split; [|split; [cbn; lia|split]].
  - constructor.
    + reflexivity.
    + apply Forall_cons; [split; [exact good_text|reflexivity]|apply Forall_nil].
    + apply NoDup_cons; [intros []|apply NoDup_nil].
    + intros e ps H. destruct e as [|[|[|e]]]; cbn in H; try (destruct e; discriminate H); injection H as <-;
        (split; [reflexivity|]; split; [eexists; eexists; split; reflexivity|]; split; [apply Forall_cons; [apply good_ping; lia|apply Forall_nil]|];
         apply Forall_cons; [intros _; reflexivity|apply Forall_nil]).
    + lia.
    + cbn. lia.
    + cbn. lia.
  - intros ps [<-|[<-|[<-|[]]]]; reflexivity.
  - intros [_ [C|[]]]. discriminate C.
Qed.
Lemma has_at lo num nm i raws f : nth_error lay i = Some f -> fname f = nm -> nth_error (p_vals (ping lo num)) i = Some raws -> has conf0 (ping lo num) nm raws.
Proof. intros A B C. exists lay, i, f. split; [reflexivity|]. tauto. Qed.
Lemma in_pings lo k p : in_ping (pings lo) 1 None k p -> exists num, p = ping lo num.
Proof.
  intros (_ & ps & E & I). destruct k as [|[|k]]; cbn in E; [| |destruct k; discriminate E]; injection E as <-; destruct I as [<-|[]]; eexists; reflexivity.
Qed.
Example C177_cells : cells_recorded conf0 21 2.
Proof. exists lay, 4%nat. split; [reflexivity|]. cbn. do 36 right. left. reflexivity. Qed.
(** cells of 0.5 m; 50 cm with bit 1, 50 mm without *)
Example C177_settings_cm : settings conf0 (pings 2) 1 None 21 500 50 true.
Proof.
  intros k p I _. destruct (in_pings 2 k p I) as (num & ->). split; [eapply (has_at 2 num "cell_size" 18); reflexivity|]. split; [eapply (has_at 2 num "blank_dist" 19); reflexivity|].
  eexists. split; [eapply (has_at 2 num "status" 34); reflexivity|reflexivity].
Qed.
Example C177_settings_mm : settings conf0 (pings 0) 1 None 21 500 50 false.
Proof.
  intros k p I _. destruct (in_pings 0 k p I) as (num & ->). split; [eapply (has_at 0 num "cell_size" 18); reflexivity|]. split; [eapply (has_at 0 num "blank_dist" 19); reflexivity|].
  eexists. split; [eapply (has_at 0 num "status" 34); reflexivity|reflexivity].
Qed.
Example C177_range_reached : exists r, read_range (S (length (file0 2))) true None (file0 2) 1 None 21 = Some r /\ centres 2 (500 / 1000) (50 / 100) r.
Proof.
  exact (C177_range_partial conf0 [21] (pings 2) (file0 2) true None 1 None (S (length (file0 2))) 21 2 500 50 (C177_file 2 ltac:(lia)) (or_introl eq_refl) (Nat.lt_succ_diag_r _) ltac:(cbn; lia)
    (or_introl eq_refl) (or_introl eq_refl) C177_cells C177_settings_cm).
Qed.
(** blanking in mm: the ranges are those of ten times the blanking *)
Theorem C177_mm_refuted : exists conf ids enss file start stop id nc cell blank r, sig_file conf ids enss file /\ (start < upto enss stop)%nat /\ In id ids /\ In id velocity_ids /\
  cells_recorded conf id nc /\ settings conf enss start stop id cell blank false /\ read_range (S (length file)) true None file start stop id = Some r /\
  ~ centres nc (IZR cell / 1000) (blanking blank false) r.
Proof.
  destruct (SigRange.range_is conf0 [21] (pings 0) (file0 0) true None 1 None (S (length (file0 0))) 21 2 500 50 (C177_file 0 ltac:(lia)) (or_introl eq_refl) (Nat.lt_succ_diag_r _) ltac:(cbn; lia)
    (or_introl eq_refl) (or_introl eq_refl) C177_cells) as (r & E & C).
  { intros k p I Ei. destruct (C177_settings_mm k p I Ei) as (A & B & _). split; assumption. }
  exists conf0, [21], (pings 0), (file0 0), 1%nat, None, 21, 2%nat, 500, 50, r. split; [apply C177_file; lia|]. split; [cbn; lia|]. split; [left; reflexivity|]. split; [left; reflexivity|].
  split; [exact C177_cells|]. split; [exact C177_settings_mm|]. split; [exact E|]. intros C'. pose proof (proj2 C 0%nat ltac:(lia)) as X. rewrite (proj2 C' 0%nat ltac:(lia)) in X. unfold blanking in X. lra.
Qed.

(** the fifth beam: of four pings the first three have no cell size; and bursts whose most frequent size is 0 *)
Definition body5 (a b num : Z) : bytes :=
  [3; 76; 32; 0; 7; 0; 0; 0; 120; 4; 13; 12; 30; 10 + num; 136; 19; 152; 58; 210; 4; 16; 39; 0; 0; 40; 35; 156; 255; 200; 0; 2; 72; a; b; 50; 0; 33; 170; 120; 0;
   100; 0; 200; 0; 212; 254; 0; 0; 0; 0; 0; 64; 232; 3; 0; 0; 60; 0; 253; 254; 0; 0; 196; 9; 0; 0; 0; 0; 2; 0; 0; 8; num; 0; 0; 0; 100; 0; 56; 255; 44; 1; 144; 1; 100; 0; 56; 255; 44; 1; 144; 1].
Definition ping5 (id a b num : Z) : piece := Piece id (split_fields lay (unpack lay (body5 a b num))) ([165; 10; id; 16; 92; 0; 0; 0; 0; 0] ++ body5 a b num).
Definition pings5 (id : Z) : list (list piece) := [[ping5 id 0 0 5]; [ping5 id 0 0 6]; [ping5 id 0 0 7]; [ping5 id 244 1 8]].
Definition file5 (id : Z) : bytes := bytes_of [text] ++ concat (map bytes_of (pings5 id)).
Lemma good_ping5 id a b num : In id [21; 24] -> 0 <= a < 256 -> 0 <= b < 256 -> 0 <= num < 50 -> good_piece conf0 (ping5 id a b num).
Proof.
  intros Hid Ha Hb N. split; [destruct Hid as [<-|[<-|[]]]; cbn; lia|]. exists (body5 a b num). split; [|split; [|split; [|split]]].
  - exists 10, 16, 92, 0, 0, 0, 0, 0. split; [reflexivity|]. destruct Hid as [<-|[<-|[]]]; cbn; lia.
  - unfold short. cbn. lia.
  - destruct Hid as [<-|[<-|[]]]; discriminate.
  - intros _. split; [cbn; lia|]. split; [destruct Hid as [<-|[<-|[]]]; discriminate|]. repeat split; reflexivity.
  - intros _. exists lay. split; [destruct Hid as [<-|[<-|[]]]; reflexivity|]. apply Ad2cp.holds_any; [| |reflexivity].
    + apply Forall_forall. intros f Hf. unfold lay in Hf. cbn in Hf. repeat (destruct Hf as [<-|Hf]; [cbn; lia|]). destruct Hf.
    + unfold body5, all_bytes. repeat (apply Forall_cons; [lia|]). apply Forall_nil.
Qed.
Example C177_file5 : forall id, In id [21; 24] -> sig_file conf0 [id] (pings5 id) (file5 id).
Proof.
  intros id Hid. destruct Hid as [<-|[<-|[]]].
  - exists 5, [text]. eexists. split; [|split; [cbn; lia|split]].
    + constructor.
      * reflexivity.
      * apply Forall_cons; [split; [exact good_text|reflexivity]|apply Forall_nil].
      * apply NoDup_cons; [intros []|apply NoDup_nil].
      * intros e ps H. destruct e as [|[|[|[|e]]]]; cbn in H; try (destruct e; discriminate H); injection H as <-;
          (split; [reflexivity|]; split; [eexists; eexists; split; reflexivity|]; split; [apply Forall_cons; [apply good_ping5; [cbn; tauto|lia|lia|lia]|apply Forall_nil]|];
           apply Forall_cons; [intros _; reflexivity|apply Forall_nil]).
      * lia.
      * cbn. lia.
      * cbn. lia.
    + intros ps [<-|[<-|[<-|[<-|[]]]]]; reflexivity.
    + intros [[C1|[]] [C2|[]]]; discriminate.
  - exists 5, [text]. eexists. split; [|split; [cbn; lia|split]].
    + constructor.
      * reflexivity.
      * apply Forall_cons; [split; [exact good_text|reflexivity]|apply Forall_nil].
      * apply NoDup_cons; [intros []|apply NoDup_nil].
      * intros e ps H. destruct e as [|[|[|[|e]]]]; cbn in H; try (destruct e; discriminate H); injection H as <-;
          (split; [reflexivity|]; split; [eexists; eexists; split; reflexivity|]; split; [apply Forall_cons; [apply good_ping5; [cbn; tauto|lia|lia|lia]|apply Forall_nil]|];
           apply Forall_cons; [intros _; reflexivity|apply Forall_nil]).
      * lia.
      * cbn. lia.
      * cbn. lia.
    + intros ps [<-|[<-|[<-|[<-|[]]]]]; reflexivity.
    + intros [[C1|[]] [C2|[]]]; discriminate.
Qed.
Lemma has_at5 id a b num nm i raws f : In id [21; 24] -> nth_error lay i = Some f -> fname f = nm -> nth_error (p_vals (ping5 id a b num)) i = Some raws -> has conf0 (ping5 id a b num) nm raws.
Proof. intros Hid A B C. exists lay, i, f. split; [destruct Hid as [<-|[<-|[]]]; reflexivity|]. tauto. Qed.
Example C177_mixed_hyp : forall id, In id [21; 24] ->
  counts conf0 (pings5 id) 0 None id "cell_size" [0; 0; 0; 500] /\ agreed id [0; 0; 0; 500] (if id =? 24 then 500 else 0) /\
  counts conf0 (pings5 id) 0 None id "blank_dist" [50; 50; 50; 50] /\ agreed id [50; 50; 50; 50] 50 /\
  (forall k p, in_ping (pings5 id) 0 None k p -> p_id p = id -> exists s, has conf0 p "status" [s] /\ Z.testbit s 1 = true).
Proof.
  intros id Hid.
  assert (W : forall k p, in_ping (pings5 id) 0 None k p -> (k = 0%nat /\ p = ping5 id 0 0 5) \/ (k = 1%nat /\ p = ping5 id 0 0 6) \/ (k = 2%nat /\ p = ping5 id 0 0 7) \/ (k = 3%nat /\ p = ping5 id 244 1 8)).
  { intros k p (_ & ps & E & I). destruct k as [|[|[|[|k]]]]; cbn in E; [..|destruct k; discriminate E]; injection E as <-; destruct I as [<-|[]]; tauto. }
  split; [split; [reflexivity|]|split; [|split; [split; [reflexivity|]|split]]].
  - intros k p I _. destruct (W k p I) as [(-> & ->)|[(-> & ->)|[(-> & ->)|(-> & ->)]]]; (eapply (has_at5 id _ _ _ "cell_size" 18); [exact Hid|reflexivity..]).
  - destruct Hid as [<-|[<-|[]]].
    + change (if 21 =? 24 then 500 else 0) with 0. split; [left; reflexivity|]. right. right. split; [discriminate|]. intros v N. unfold occurrences. cbn [count_occ]. destruct (Z.eq_dec 0 v); [congruence|]. destruct (Z.eq_dec 500 v); cbn; lia.
    + change (if 24 =? 24 then 500 else 0) with 500. split; [cbn; tauto|]. right. left. split; [reflexivity|]. split; [discriminate|]. intros v V. cbn in V |- *. lia.
  - intros k p I _. destruct (W k p I) as [(-> & ->)|[(-> & ->)|[(-> & ->)|(-> & ->)]]]; (eapply (has_at5 id _ _ _ "blank_dist" 19); [exact Hid|reflexivity..]).
  - split; [left; reflexivity|]. left. intros v V. cbn in V. lia.
  - intros k p I _. destruct (W k p I) as [(-> & ->)|[(-> & ->)|[(-> & ->)|(-> & ->)]]]; eexists; (split; [eapply (has_at5 id _ _ _ "status" 34); [exact Hid|reflexivity..]|reflexivity]).
Qed.

(** All the theorems of this file, for one listing of axioms. *)
Definition all_theorems :=
  (@C177_range_partial,
   @C177_mixed_partial,
   @C177_mm_refuted).
Print Assumptions all_theorems.
