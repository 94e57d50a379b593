(** Lemmas on ranges of Signature datasets. *)
From Coq Require Import String.
From Coq Require Import ZArith Reals List Bool Lia Lra.
From Verif.Model Require Import Nortek Ad2cp Ad2cpIndex SigData ReadSig SigRange.
From Verif.Spec Require Import Ad2cp Ad2cpIndex SigData ReadSig SigRange.
From Verif.Proofs Require Import Ad2cp Ad2cpIndex SigData ReadSig.
Import ListNotations.
Open Scope Z_scope.

Lemma find_field l nm f : NoDup (map fname l) -> In f l -> fname f = nm -> find (fun f => String.eqb (fname f) nm) l = Some f.
Proof.
  induction l as [|g l IH]; intros ND I E; [destruct I|]. cbn [find]. inversion ND as [|? ? N ND']; subst. destruct I as [->|I]; [rewrite String.eqb_refl; reflexivity|].
  destruct (String.eqb (fname g) (fname f)) eqn:Eg; [|exact (IH ND' I eq_refl)]. apply String.eqb_eq in Eg. exfalso. apply N. rewrite Eg. apply in_map, I.
Qed.
Lemma size_number id config beams l f : reader_for id config beams = Some l -> In f l -> In (fname f) ["cell_size"; "blank_dist"]%string -> forall v, stored id f v = Int v.
Proof.
  intros HR I N v. destruct (fields_known _ _ _ _ _ HR I) as (nb & nc & If'). unfold stored.
  assert (X : String.eqb (fname f) "samp_alt" = false) by (destruct N as [<-|[<-|[]]]; reflexivity). rewrite X, andb_false_r.
  each_field If'; try (subst f; reflexivity); try (subst f; exfalso; cbn in N; repeat destruct N as [N|N]; (discriminate || destruct N)). destruct If'.
Qed.
Lemma nth_map_seq (g : nat -> R) n i : (i < n)%nat -> nth i (map g (seq 0 n)) 0%R = g i.
Proof. intros H. rewrite (nth_indep _ 0%R (g 0%nat)) by (rewrite map_length, seq_length; exact H). rewrite map_nth, seq_nth by exact H. reflexivity. Qed.
Section Value.
  Variables (id config beams : Z) (l : layout) (pings : list (option (list (list Z)))).
  Hypothesis HR : reader_for id config beams = Some l.
  Hypothesis HP : pings <> [].
  Lemma column_is nm vs : In nm ["cell_size"; "blank_dist"]%string -> length vs = length pings -> (forall k, (k < length pings)%nat -> recorded l pings k nm [nth k vs 0]) ->
    ints (table id l pings) nm = vs.
  Proof.
    intros IN LV H. pose proof (reader_names _ _ _ _ HR) as ND. assert (L0 : (0 < length pings)%nat) by (destruct pings; [contradiction|cbn; lia]).
    destruct (H 0%nat L0) as (_ & i & f & _ & Hf & Hn & _). unfold ints. rewrite <- Hn. rewrite (table_get id l pings i f ND Hf). rewrite map_map.
    assert (A : forall k c, nth_error pings k = Some c -> exists vals, c = Some vals /\ nth i vals [] = [nth k vs 0]).
    { intros k c Hk. assert (Lk : (k < length pings)%nat) by (apply nth_error_Some; congruence).
      destruct (H k Lk) as (vals & i' & f' & Hp & Hf' & Hn' & Hv). assert (i' = i).
      { rewrite NoDup_nth_error in ND. apply ND; [rewrite map_length; apply nth_error_Some; rewrite Hf'; discriminate|]. rewrite !nth_error_map, Hf, Hf'. cbn [option_map]. congruence. }
      subst i'. exists vals. split; [congruence|]. exact (nth_error_nth _ _ _ Hv). }
    assert (St : forall v, stored id f v = Int v) by (apply (size_number id config beams l f HR (nth_error_In _ _ Hf)); rewrite Hn; exact IN).
    clear - A St LV. revert vs LV A. induction pings as [|c ps IH]; intros [|v vs] LV A; try discriminate LV; [reflexivity|]. cbn [map].
    destruct (A 0%nat c eq_refl) as (vals & -> & E). rewrite E. cbn [map nth]. rewrite St. cbn [first_int]. f_equal.
    apply IH; [cbn in LV; lia|]. intros k x Ix. exact (A (S k) x Ix).
  Qed.
  Lemma agreed_collapse vs n : In id velocity_ids -> agreed id vs n -> collapse vs (if zmem id [24; 26] then [0] else []) = Some n.
  Proof.
    intros IV (I & [A|[(E & NZ & A)|(NE & A)]]).
    - apply collapse_uniform; [exact I|]. intros x y X Y. rewrite (A x X), (A y Y). reflexivity.
    - subst id. apply excluded_uniform; [discriminate|exact I| |].
      + intros [X|[]]. congruence.
      + intros y Y. destruct (A y Y) as [->|X]; [left; left; reflexivity|right; exact X].
    - assert (Z0 : zmem id [24; 26] = false) by (destruct IV as [<-|[<-|[<-|[]]]]; [reflexivity|reflexivity|contradiction]). rewrite Z0.
      destruct (collapse_some vs) as (v & C); [destruct vs; [destruct I|discriminate]|]. rewrite C. f_equal.
      destruct (Z.eq_dec v n) as [X|X]; [exact X|]. pose proof (collapse_mode vs [] v C (or_introl eq_refl) n). pose proof (A v X). lia.
  Qed.
  Lemma value_is nm vs n : In nm ["cell_size"; "blank_dist"]%string -> In id velocity_ids -> length vs = length pings -> agreed id vs n ->
    (forall k, (k < length pings)%nat -> recorded l pings k nm [nth k vs 0]) ->
    one_value id l pings nm = Some (IZR n * (if String.eqb nm "cell_size" then 1 / 1000 else 1 / 100))%R.
  Proof.
    intros IN II LV AG H. unfold one_value. rewrite (column_is nm vs IN LV H), (agreed_collapse vs n II AG).
    destruct II as [<-|[<-|[<-|[]]]]; destruct IN as [<-|[<-|[]]]; cbv [sci_func Z.eqb Pos.eqb andb get sci_burst String.eqb Ascii.eqb Bool.eqb]; f_equal; ring.
  Qed.
End Value.
Lemma range_agreed conf ids enss file rebuild existing start stop fuel id nc cells cell blanks blank :
  sig_file conf ids enss file -> (rebuild = true \/ existing = None) -> (length file < fuel)%nat -> (start < upto enss stop)%nat ->
  In id ids -> In id velocity_ids -> cells_recorded conf id nc ->
  counts conf enss start stop id "cell_size" cells -> agreed id cells cell -> counts conf enss start stop id "blank_dist" blanks -> agreed id blanks blank ->
  exists r, read_range fuel rebuild existing file start stop id = Some r /\ centres nc (IZR cell / 1000)%R (IZR blank / 100)%R r.
Proof.
  intros (m & hd & L & R & N2 & HLen & OP) RB FU SU II IV (l & nb & HR & IF) [LC HC] AC [LB HB] AB.
  destruct (read_pings_whole conf ids m hd enss file L rebuild existing start stop fuel R N2 HLen RB FU OP SU) as (ids' & f & ND & IN & RD & E).
  assert (ID : In id data_ids) by (cbn in *; tauto). assert (I' : In id ids') by (apply IN; split; assumption).
  pose proof (RD id I') as HR'. assert (FL : f id = l) by congruence.
  set (pings := pings_of (columns 0 (between start (upto enss stop) enss)) (upto enss stop - start) id).
  assert (EACH : forall k, (k < length pings)%nat -> exists p, in_ping enss start stop k p /\ p_id p = id /\ nth_error pings k = Some (Some (p_vals p))).
  { intros k K. unfold pings in K. rewrite pings_length in K.
    assert (UL : (upto enss stop <= length enss)%nat) by (unfold upto; destruct stop; lia).
    destruct (nth_error enss (start + k)) as [ps|] eqn:Ep; [|apply nth_error_None in Ep; lia].
    pose proof R as [_ _ _ RE _ _ _]. destruct (good_ens_piece conf ids m (Z.of_nat (start + k)) ps id (RE _ _ Ep) II) as (p & Ip & Eid & _ & _).
    assert (IPp : in_ping enss start stop k p) by (split; [lia|exists ps; split; assumption]). exists p. split; [exact IPp|]. split; [exact Eid|].
    unfold pings. rewrite <- Eid. apply (pings_at conf ids m hd enss file start stop k p R IPp). rewrite Eid. exact ID. }
  assert (NE : pings <> []) by (intros Z0; assert (LZ : length pings = 0%nat) by (rewrite Z0; reflexivity); unfold pings in LZ; rewrite pings_length in LZ; lia).
  assert (FI : find (fun r => fst (fst r) =? id) (map (fun id => (id, f id, pings_of (columns 0 (between start (upto enss stop) enss)) (upto enss stop - start) id)) ids') = Some (id, l, pings)).
  { clear - ND I' FL. revert ND I'. induction ids' as [|x t IH]; intros ND I'; [destruct I'|]. cbn [map find fst]. inversion ND as [|? ? N ND']; subst. destruct (Z.eqb_spec x id) as [->|NX].
    - reflexivity.
    - apply IH; [exact ND'|]. destruct I' as [->|I']; [contradiction|exact I']. }
  assert (V : forall nm vs n, In nm ["cell_size"; "blank_dist"]%string -> length vs = (upto enss stop - start)%nat -> agreed id vs n ->
    (forall k p, in_ping enss start stop k p -> p_id p = id -> has conf p nm [nth k vs 0]) ->
    one_value id l pings nm = Some (IZR n * (if String.eqb nm "cell_size" then 1 / 1000 else 1 / 100))%R).
  { intros nm vs n Inm LV AG H. apply (value_is id _ _ l pings HR NE nm vs n Inm IV); [unfold pings; rewrite pings_length; exact LV|exact AG|]. intros k K. destruct (EACH k K) as (p & IPp & Eid & PA).
    apply (has_recorded conf p nm _ l pings k (H k p IPp Eid)); [rewrite Eid; exact HR|exact PA]. }
  eexists. split.
  - unfold read_range. rewrite E, FI. unfold range_of, vel_cells. rewrite (find_field l "vel"%string _ (reader_names _ _ _ _ HR) IF eq_refl). cbn [fshape].
    rewrite (V "cell_size"%string cells cell ltac:(cbn; tauto) LC AC HC), (V "blank_dist"%string blanks blank ltac:(cbn; tauto) LB AB HB). reflexivity.
  - split; [rewrite map_length, seq_length; reflexivity|]. intros i Hi. rewrite (nth_map_seq _ nc i Hi).
    change (String.eqb "cell_size" "cell_size") with true. change (String.eqb "blank_dist" "cell_size") with false. cbv iota. rewrite plus_INR. cbn [INR]. field.
Qed.
Lemma all_the_same conf enss start stop id nm n : (start < upto enss stop)%nat -> (forall k p, in_ping enss start stop k p -> p_id p = id -> has conf p nm [n]) ->
  counts conf enss start stop id nm (repeat n (upto enss stop - start)) /\ agreed id (repeat n (upto enss stop - start)) n.
Proof.
  intros SU H. split; [split; [apply repeat_length|]|split].
  - intros k p I E. rewrite (nth_indep _ 0 n), nth_repeat by (rewrite repeat_length; destruct I; lia). exact (H k p I E).
  - destruct (upto enss stop - start)%nat eqn:X; [lia|]. left. reflexivity.
  - left. intros v V. exact (repeat_spec _ _ _ V).
Qed.
Lemma range_is conf ids enss file rebuild existing start stop fuel id nc cell blank :
  sig_file conf ids enss file -> (rebuild = true \/ existing = None) -> (length file < fuel)%nat -> (start < upto enss stop)%nat ->
  In id ids -> In id velocity_ids -> cells_recorded conf id nc ->
  (forall k p, in_ping enss start stop k p -> p_id p = id -> has conf p "cell_size" [cell] /\ has conf p "blank_dist" [blank]) ->
  exists r, read_range fuel rebuild existing file start stop id = Some r /\ centres nc (IZR cell / 1000)%R (IZR blank / 100)%R r.
Proof.
  intros SF RB FU SU II IV CR ST.
  destruct (all_the_same conf enss start stop id "cell_size" cell SU (fun k p a b => proj1 (ST k p a b))) as (C1 & C2).
  destruct (all_the_same conf enss start stop id "blank_dist" blank SU (fun k p a b => proj2 (ST k p a b))) as (B1 & B2).
  exact (range_agreed conf ids enss file rebuild existing start stop fuel id nc _ cell _ blank SF RB FU SU II IV CR C1 C2 B1 B2).
Qed.
