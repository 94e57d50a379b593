(** Lemmas on reading Signature files as a whole. *)
From Coq Require Import String.
From Coq Require Import ZArith QArith Reals List Bool Lia.
From Verif.Model Require Import Nortek Ad2cp Ad2cpIndex SigData ReadSig.
From Verif.Spec Require Import Ad2cp Ad2cpIndex SigData ReadSig.
From Verif.Proofs Require Import Ad2cp Ad2cpIndex SigData.
Import ListNotations.
Open Scope Z_scope.

(** ** what is in a column *)
Lemma stored_fold evs id c vals : (forall v, In (id, c, v) evs -> v = vals) -> forall acc,
  fold_left (fun acc e => if (fst (fst e) =? id) && Nat.eqb (snd (fst e)) c then Some (snd e) else acc) evs acc =
  if existsb (fun e : event => (fst (fst e) =? id) && Nat.eqb (snd (fst e)) c) evs then Some vals else acc.
Proof.
  induction evs as [|[[i k] v] evs IH]; intros U acc; [reflexivity|]. cbn [fold_left existsb fst snd].
  rewrite IH by (intros w W; apply U; right; exact W). destruct ((i =? id) && Nat.eqb k c) eqn:E; cbn [orb].
  - apply andb_true_iff in E. destruct E as [E1 E2]. apply Z.eqb_eq in E1. apply Nat.eqb_eq in E2. subst.
    rewrite (U v (or_introl eq_refl)). match goal with |- context [existsb ?g evs] => destruct (existsb g evs); reflexivity end.
  - reflexivity.
Qed.
Lemma stored_one evs id c vals : In (id, c, vals) evs -> (forall v, In (id, c, v) evs -> v = vals) -> last_stored evs id c = Some vals.
Proof.
  intros I U. unfold last_stored. rewrite (stored_fold evs id c vals U).
  assert (X : existsb (fun e : event => (fst (fst e) =? id) && Nat.eqb (snd (fst e)) c) evs = true).
  { apply existsb_exists. exists (id, c, vals). split; [exact I|]. cbn [fst snd]. rewrite Z.eqb_refl, Nat.eqb_refl. reflexivity. }
  rewrite X. reflexivity.
Qed.
Lemma kept_in c ps id k v : In (id, k, v) (kept c ps) <-> k = c /\ exists p, In p ps /\ In (p_id p) data_ids /\ p_id p = id /\ p_vals p = v.
Proof.
  unfold kept. rewrite in_map_iff. split.
  - intros (p & E & I). apply filter_In in I. destruct I as [I Z]. apply zmem_In in Z. injection E as <- <- <-. split; [reflexivity|]. exists p. tauto.
  - intros (-> & p & I & D & <- & <-). exists p. split; [reflexivity|]. apply filter_In. split; [exact I|]. apply zmem_In, D.
Qed.
Lemma columns_in enss : forall c id k v, In (id, k, v) (columns c enss) <->
  exists j ps p, nth_error enss j = Some ps /\ k = (c + j)%nat /\ In p ps /\ In (p_id p) data_ids /\ p_id p = id /\ p_vals p = v.
Proof.
  induction enss as [|ps enss IH]; intros c id k v; cbn [columns].
  - split; [intros []|]. intros (j & ps & p & E & _). destruct j; discriminate E.
  - rewrite in_app_iff, kept_in, IH. split.
    + intros [(-> & p & A)|(j & qs & p & E & -> & A)].
      * exists 0%nat, ps, p. split; [reflexivity|]. split; [lia|exact A].
      * exists (S j), qs, p. split; [exact E|]. split; [lia|exact A].
    + intros (j & qs & p & E & -> & A). destruct j as [|j].
      * left. injection E as <-. split; [lia|]. exists p. exact A.
      * right. exists j, qs, p. split; [exact E|]. split; [lia|exact A].
Qed.
Lemma one_piece ps : NoDup (filter numbered (map p_id ps)) -> forall p q, In p ps -> In q ps -> p_id p = p_id q -> numbered (p_id p) = true -> p = q.
Proof.
  induction ps as [|a ps IH]; intros ND p q Ip Iq E N; [destruct Ip|]. cbn [map filter] in ND.
  assert (H : forall x, In x ps -> p_id x = p_id p -> In (p_id p) (filter numbered (map p_id ps))).
  { intros x Ix Ex. apply filter_In. split; [|exact N]. rewrite <- Ex. apply in_map, Ix. }
  destruct Ip as [->|Ip]; destruct Iq as [->|Iq]; [reflexivity| | |].
  - rewrite N in ND. inversion ND as [|y l A B]. subst. exfalso. apply A. apply (H q Iq). symmetry; exact E.
  - rewrite <- E, N in ND. inversion ND as [|y l A B]. subst. exfalso. apply A. apply (H p Ip eq_refl).
  - apply IH; try assumption. destruct (numbered (p_id a)); [inversion ND; assumption|exact ND].
Qed.
Lemma data_numbered id : In id data_ids -> numbered id = true.
Proof. unfold data_ids. cbn. intros I. repeat (destruct I as [<-|I]; [reflexivity|]). destruct I. Qed.
Lemma nth_first {A} n (l : list A) k : (k < n)%nat -> nth_error (firstn n l) k = nth_error l k.
Proof. revert l k. induction n as [|n IH]; intros l k H; [lia|]. destruct l as [|x l]; [reflexivity|]. destruct k as [|k]; [reflexivity|]. cbn [firstn nth_error]. apply IH. lia. Qed.
Lemma nth_between {A} (l : list A) start up k : (start + k < up)%nat -> nth_error (between start up l) k = nth_error l (start + k).
Proof.
  intros H. unfold between. rewrite (nth_first _ _ k) by lia. clear H. revert k l. induction start as [|s IH]; intros k l; [reflexivity|].
  destruct l as [|x l]; [cbn; destruct k; reflexivity|]. cbn [skipn Nat.add nth_error]. apply IH.
Qed.

(** ** the readers *)
Lemma readers_full conf ids m enss pos : enss <> [] -> (forall i ps, nth_error enss i = Some ps -> good_ens conf ids m (0 + Z.of_nat i) ps) ->
  exists ids' f, burst_readers (all_ents m 0 pos enss) = Some (map (fun id => (id, f id)) ids') /\ NoDup ids' /\
    (forall id, In id ids' <-> In id ids /\ In id data_ids) /\
    (forall id, In id ids' -> reader_for id (fst (conf id)) (snd (conf id)) = Some (f id)).
Proof.
  intros NE G. destruct enss as [|ps0 enss'] eqn:Ee; [congruence|]. rewrite <- Ee in *.
  assert (G0 : good_ens conf ids m 0 ps0) by (apply (G 0%nat ps0); rewrite Ee; reflexivity).
  set (l := all_ents m 0 pos enss).
  assert (IDS : map eid l = concat (repeat ids (length enss))) by (apply (all_ids conf ids m enss 0), G).
  assert (IN : forall x, In x (unique (map eid l)) <-> In x ids).
  { intros x. rewrite unique_In, IDS, in_concat. split.
    - intros (q & I & J). apply repeat_spec in I. subst. exact J.
    - intros I. exists ids. split; [rewrite Ee; left; reflexivity|exact I]. }
  set (f := fun id => match reader_for id (fst (conf id)) (snd (conf id)) with Some y => y | None => [] end).
  assert (RDR : forall id, In id ids -> In id config_ids -> In id data_ids /\ reader_for id (fst (conf id)) (snd (conf id)) = Some (f id)).
  { intros id I C. destruct (good_ens_piece _ _ _ _ _ _ G0 I) as (p & Ip & <- & K & (NA & body & _ & _ & _ & _ & D)).
    assert (DI : In (p_id p) data_ids).
    { unfold config_ids in C. cbn in C. unfold data_ids. cbn in *. intuition. }
    split; [exact DI|]. destruct (D DI) as (y & Hy & _). unfold f. rewrite Hy. reflexivity. }
  assert (ONE : forall id, In id (filter (fun id => zmem id config_ids) (unique (map eid l))) -> config_one l id = Some (f id)).
  { intros id I. apply filter_In in I. destruct I as [I C]. apply IN in I. apply zmem_In in C.
    rewrite (config_one_uniform l id (fst (conf id)) (snd (conf id))).
    - apply RDR; assumption.
    - assert (J : In id (map eid l)) by (apply unique_In, IN, I). apply in_map_iff in J. destruct J as (x & E & J). exists x. split; assumption.
    - intros x Ix <-. apply (all_conf conf ids m enss 0 pos x G Ix). }
  unfold burst_readers. rewrite (config_all_some l f _ ONE). eexists. exists f. split; [reflexivity|]. split; [apply NoDup_filter, unique_NoDup|]. split.
  - intros id. rewrite filter_In, IN, zmem_In. split.
    + intros [I C]. split; [exact I|]. exact (proj1 (RDR id I C)).
    + intros [I D]. split; [exact I|]. unfold data_ids in D; unfold config_ids; cbn in *; intuition.
  - intros id I. apply filter_In in I. destruct I as [I C]. apply IN in I. apply zmem_In in C. exact (proj2 (RDR id I C)).
Qed.

(** ** the whole file *)
Lemma dual_regular ids n : (0 < n)%nat -> is_dual false (concat (repeat ids n)) = true -> In 21 ids /\ In 22 ids.
Proof.
  intros N D. unfold is_dual in D. cbn [orb] in D. apply andb_true_iff in D. destruct D as [A B]. apply zmem_In in A, B.
  apply in_concat in A, B. destruct A as (x & I & A), B as (y & J & B). apply repeat_spec in I, J. subst. split; assumption.
Qed.
Definition shifted (start : nat) (r : reduced) : reduced := Reduced (shift_ensembles start (data_vars r)) (times r) (fs r) (has_imu r) (tmat r).
Lemma read_pings_whole conf ids m hd enss file L rebuild existing start stop fuel :
  regular conf ids m hd enss file -> (2 <= length enss)%nat -> (forall ps, In ps enss -> Z.of_nat (length (bytes_of ps)) = L) ->
  (rebuild = true \/ existing = None) -> (length file < fuel)%nat -> one_profile ids -> (start < upto enss stop)%nat ->
  exists ids' f, NoDup ids' /\ (forall id, In id ids' <-> In id ids /\ In id data_ids) /\
    (forall id, In id ids' -> reader_for id (fst (conf id)) (snd (conf id)) = Some (f id)) /\
    read_pings fuel false rebuild existing file start stop =
      Pings false (map (fun id => (id, f id, pings_of (columns 0 (between start (upto enss stop) enss)) (upto enss stop - start) id)) ids').
Proof.
  intros R N2 HL RB FU OP SU. pose proof (read_regular conf ids m hd enss file L false rebuild existing start stop fuel R N2 HL RB FU SU) as RR.
  pose proof R as [RF RH RI RE R1 R2 RS].
  assert (G : forall i ps, nth_error enss i = Some ps -> good_ens conf ids m (0 + Z.of_nat i) ps) by (intros i ps Hi; rewrite Z.add_0_l; apply RE, Hi).
  assert (PC : (length hd + pieces enss < fuel)%nat).
  { pose proof (head_length conf hd RH). pose proof (concat_pieces_length conf ids m 0 enss G). rewrite RF, app_length in FU. lia. }
  destruct (get_regular conf ids m hd enss file fuel false R PC) as [G1 G2].
  assert (GI : get_index fuel false rebuild existing file = Index (all_ents m 0 (lens hd) enss)).
  { destruct RB as [->| ->]; [apply G2|]. destruct rebuild; [apply G2|]. exact G1. }
  destruct (readers_full conf ids m enss (lens hd) ltac:(intros ->; cbn in N2; lia) G) as (ids' & f & BR & ND & IN & RD).
  exists ids', f. split; [exact ND|]. split; [exact IN|]. split; [exact RD|].
  unfold read_ad2cp in RR. rewrite GI in RR. unfold read_pings. rewrite GI, RR.
  rewrite firsts_first_pings, (firsts_all conf ids m enss 0 (lens hd) None G Logic.I), RF, (whole L hd enss HL N2), BR, starts_length, Nat.sub_0_r.
  rewrite (all_ids conf ids m enss 0) by exact G.
  destruct (is_dual false (concat (repeat ids (length enss)))) eqn:D; [exfalso; apply OP; apply (dual_regular ids (length enss)); [lia|exact D]|].
  change (match stop with None => length enss | Some s => Nat.min s (length enss) end) with (upto enss stop).
  assert (NA : forall id, In id ids' -> zmem id [26; 31] = false).
  { intros id I. apply IN in I. destruct I as [_ I]. unfold data_ids in I. cbn in I. repeat (destruct I as [<-|I]; [reflexivity|]). destruct I. }
  assert (AR : forall evs nens nalt, arrays evs (map (fun id => (id, f id)) ids') nens nalt = map (fun id => (id, f id, pings_of evs nens id)) ids').
  { intros evs nens nalt. unfold arrays. clear -NA. induction ids' as [|id t IH]; [reflexivity|]. cbn [map filter fst].
    assert (Z0 : zmem id [26; 31] = false) by (apply NA; left; reflexivity). rewrite Z0. cbn [andb negb map fst snd]. unfold sampled at 1. rewrite !Z0.
    f_equal. apply IH. intros x Ix. apply NA. right. exact Ix. }
  rewrite AR. reflexivity.
Qed.
Lemma read_whole conf ids m hd enss file L rebuild existing start stop fuel fh strings :
  regular conf ids m hd enss file -> (2 <= length enss)%nat -> (forall ps, In ps enss -> Z.of_nat (length (bytes_of ps)) = L) ->
  (rebuild = true \/ existing = None) -> (length file < fuel)%nat -> one_profile ids -> (start < upto enss stop)%nat ->
  exists ids' f, NoDup ids' /\ (forall id, In id ids' <-> In id ids /\ In id data_ids) /\
    (forall id, In id ids' -> reader_for id (fst (conf id)) (snd (conf id)) = Some (f id)) /\
    read_signature fuel fh strings false rebuild existing file start stop =
      match signature fh false strings (map (fun id => (id, f id, pings_of (columns 0 (between start (upto enss stop) enss)) (upto enss stop - start) id)) ids') with
      | Some r => Dataset (shifted start r) | None => Failed end.
Proof.
  intros R N2 HL RB FU OP SU. destruct (read_pings_whole conf ids m hd enss file L rebuild existing start stop fuel R N2 HL RB FU OP SU) as (ids' & f & ND & IN & RD & E).
  exists ids', f. split; [exact ND|]. split; [exact IN|]. split; [exact RD|]. unfold read_signature. rewrite E. reflexivity.
Qed.
Lemma ping_stored conf ids m hd enss file start stop k p : regular conf ids m hd enss file -> in_ping enss start stop k p -> In (p_id p) data_ids ->
  last_stored (columns 0 (between start (upto enss stop) enss)) (p_id p) k = Some (p_vals p).
Proof.
  intros R (LT & ps & E & I) D. destruct R as [_ _ RI RE _ _ _].
  assert (E' : nth_error (between start (upto enss stop) enss) k = Some ps) by (rewrite nth_between by exact LT; exact E).
  apply stored_one.
  - apply columns_in. exists k, ps, p. split; [exact E'|]. split; [reflexivity|]. tauto.
  - intros v V. apply columns_in in V. destruct V as (j & qs & q & Ej & Ek & Iq & Dq & Eq & <-).
    cbn [Nat.add] in Ek. subst j. rewrite E' in Ej. injection Ej as <-. f_equal. apply (one_piece ps); try assumption.
    + rewrite (proj1 (RE _ _ E)). exact RI.
    + rewrite Eq. apply data_numbered, D.
Qed.
Lemma pings_at conf ids m hd enss file start stop k p : regular conf ids m hd enss file -> in_ping enss start stop k p -> In (p_id p) data_ids ->
  nth_error (pings_of (columns 0 (between start (upto enss stop) enss)) (upto enss stop - start) (p_id p)) k = Some (Some (p_vals p)).
Proof.
  intros R I D. unfold pings_of. rewrite nth_error_map.
  assert (S : nth_error (seq 0 (upto enss stop - start)) k = Some k).
  { destruct I as [LT _]. rewrite (nth_error_nth' _ 0%nat) by (rewrite seq_length; lia). rewrite seq_nth by lia. reflexivity. }
  rewrite S. cbn [option_map]. rewrite (ping_stored _ _ _ _ _ _ _ _ _ _ R I D). reflexivity.
Qed.
Lemma pings_length evs n id : length (pings_of evs n id) = n.
Proof. unfold pings_of. rewrite map_length, seq_length. reflexivity. Qed.
Lemma tag_data id tag : In (id, tag) profile_tags -> In id data_ids.
Proof. unfold profile_tags, data_ids. cbn. intros I. repeat (destruct I as [E|I]; [injection E as <- _; tauto|]). destruct I. Qed.
(** a record that was read: where it is *)
Lemma read_record conf ids m hd enss file L rebuild existing start stop fuel fh strings r :
  regular conf ids m hd enss file -> (2 <= length enss)%nat -> (forall ps, In ps enss -> Z.of_nat (length (bytes_of ps)) = L) ->
  (rebuild = true \/ existing = None) -> (length file < fuel)%nat -> one_profile ids -> (start < upto enss stop)%nat ->
  read_signature fuel fh strings false rebuild existing file start stop = Dataset r ->
  exists recs r0, signature fh false strings recs = Some r0 /\ r = shifted start r0 /\ NoDup (SigData.ids recs) /\
    (forall id, In id (SigData.ids recs) <-> In id ids /\ In id data_ids) /\
    forall k p, in_ping enss start stop k p -> In (p_id p) data_ids ->
      exists l pings, In (p_id p, l, pings) recs /\ reader_for (p_id p) (fst (conf (p_id p))) (snd (conf (p_id p))) = Some l /\
        length pings = (upto enss stop - start)%nat /\ nth_error pings k = Some (Some (p_vals p)).
Proof.
  intros R N2 HL RB FU OP SU H.
  destruct (read_whole conf ids m hd enss file L rebuild existing start stop fuel fh strings R N2 HL RB FU OP SU) as (ids' & f & ND & IN & RD & E).
  rewrite E in H. eexists. destruct (signature fh false strings _) as [r0|] eqn:S in H; [|discriminate H]. exists r0. injection H as <-.
  split; [exact S|]. split; [reflexivity|].
  assert (EI : SigData.ids (map (fun id => (id, f id, pings_of (columns 0 (between start (upto enss stop) enss)) (upto enss stop - start) id)) ids') = ids').
  { unfold SigData.ids. rewrite map_map. cbn [fst]. apply map_id. }
  rewrite EI. split; [exact ND|]. split; [exact IN|]. intros k p I D.
  assert (Iid : In (p_id p) ids').
  { apply IN. split; [|exact D]. destruct I as (LT & ps & Ep & Ip). destruct R as [_ _ _ RE _ _ _]. rewrite <- (proj1 (RE _ _ Ep)).
    apply filter_In. split; [apply in_map, Ip|apply data_numbered, D]. }
  exists (f (p_id p)). eexists. split; [apply in_map_iff; exists (p_id p); split; [reflexivity|exact Iid]|]. split; [apply RD, Iid|].
  split; [apply pings_length|]. exact (pings_at _ _ _ _ _ _ _ _ _ _ R I D).
Qed.
Lemma has_recorded conf p nm raws l pings k : has conf p nm raws -> reader_for (p_id p) (fst (conf (p_id p))) (snd (conf (p_id p))) = Some l ->
  nth_error pings k = Some (Some (p_vals p)) -> recorded l pings k nm raws.
Proof.
  intros (l' & i & f & HR & A & B & C) HR' P. rewrite HR' in HR. injection HR as <-. exists (p_vals p), i, f. tauto.
Qed.
Lemma shift_get start d key : prefix "ensemble" key = false -> get (shift_ensembles start d) key = get d key.
Proof.
  intros N. induction d as [|[k v] d IH]; [reflexivity|]. cbn [shift_ensembles map fst snd get]. destruct (String.eqb k key) eqn:E; [|exact IH].
  apply String.eqb_eq in E. subst. rewrite N. reflexivity.
Qed.
Lemma shift_shows start d key k col : prefix "ensemble" key = false -> shows d key k col -> shows (shift_ensembles start d) key k col.
Proof. intros N (v & G & H). exists v. split; [rewrite shift_get by exact N; exact G|exact H]. Qed.
Lemma shift_ens start d key k n : prefix "ensemble" key = true -> shows d key k [Int n] -> shows (shift_ensembles start d) key k [Int (n + Z.of_nat start)].
Proof.
  intros N (v & G & H). exists (map (map (fun x => match x with Int n => Int (n + Z.of_nat start) | y => y end)) v). split.
  - clear H. induction d as [|[k' v'] d IH]; [discriminate G|]. cbn [shift_ensembles map fst snd get] in *. destruct (String.eqb k' key) eqn:E; [|exact (IH G)].
    apply String.eqb_eq in E. subst. rewrite N. injection G as ->. reflexivity.
  - etransitivity; [apply nth_error_map|]. change (option_map (map (fun x => match x with Int n => Int (n + Z.of_nat start) | y => y end)) (nth_error v k) = Some [Int (n + Z.of_nat start)]). rewrite H. reflexivity.
Qed.
Lemma prefix_app s t : prefix s (s ++ t) = true.
Proof. induction s as [|c s IH]; [destruct t; reflexivity|]. cbn [append prefix]. destruct (Ascii.ascii_dec c c) as [_|N]; [exact IH|congruence]. Qed.
Lemma no_ensemble nm id tag : In nm carried \/ In nm sensors -> In (id, tag) profile_tags -> prefix "ensemble" (nm ++ tag) = false.
Proof.
  intros C T. assert (T' : In tag [""; "_avg"; "_bt"; "_b5"; "_echo"]%string).
  { unfold profile_tags in T. cbn in T. cbn. repeat (destruct T as [E|T]; [injection E as _ <-; tauto|]). destruct T. }
  assert (F : forallb (fun nm => forallb (fun tag => negb (prefix "ensemble" (nm ++ tag))) [""; "_avg"; "_bt"; "_b5"; "_echo"]%string) (app carried sensors) = true) by reflexivity.
  rewrite forallb_forall in F. specialize (F nm ltac:(apply in_or_app; exact C)). rewrite forallb_forall in F. specialize (F tag T').
  apply negb_true_iff in F. exact F.
Qed.

(** ** the properties of datasets, for files *)
Section Files.
  Variables (conf : Z -> Z * Z) (ids : list Z) (enss : list (list piece)) (file : Nortek.bytes) (rebuild : bool) (existing : option (list entry))
    (start : nat) (stop : option nat) (fuel : nat) (fh : filehead) (strings : bool).
  Hypothesis SF : sig_file conf ids enss file.
  Hypothesis RB : rebuild = true \/ existing = None.
  Hypothesis FU : (length file < fuel)%nat.
  Section Read.
  Variable r : reduced.
  Hypothesis RS : read_signature fuel fh strings false rebuild existing file start stop = Dataset r.
  Variables (k : nat) (p : piece) (tag : string).
  Hypothesis IP : in_ping enss start stop k p.
  Hypothesis TG : In (p_id p, tag) profile_tags.
  Lemma in_record : exists recs r0 l pings, signature fh false strings recs = Some r0 /\ r = shifted start r0 /\ NoDup (SigData.ids recs) /\
    (forall id, In id (SigData.ids recs) <-> In id ids /\ In id data_ids) /\
    In (p_id p, l, pings) recs /\ reader_for (p_id p) (fst (conf (p_id p))) (snd (conf (p_id p))) = Some l /\
    length pings = (upto enss stop - start)%nat /\ nth_error pings k = Some (Some (p_vals p)).
  Proof.
    destruct SF as (m & hd & L & R & N2 & HL & OP). destruct IP as [LT _].
    destruct (read_record conf ids m hd enss file L rebuild existing start stop fuel fh strings r R N2 HL RB FU OP ltac:(lia) RS) as (recs & r0 & S & E & ND & IN & P).
    destruct (P k p IP (tag_data _ _ TG)) as (l & pings & I & HR & LN & N). exists recs, r0, l, pings. tauto.
  Qed.
  Lemma file_quantities nm raws res qs : In nm carried \/ (In nm sensors /\ ~ In 24 ids) -> has conf p nm raws -> get resolution nm = Some res ->
    ~ (p_id p = 23 /\ nm = "mag"%string) -> Forall2 (nearest res) qs raws ->
    exists col, shows (data_vars r) (nm ++ tag) k col /\ Forall2 (within (res / 2)) qs col.
  Proof.
    intros C H Rs M Q. destruct in_record as (recs & r0 & l & pings & S & -> & ND & IN & I & HR & _ & N).
    assert (C' : In nm carried \/ (In nm sensors /\ ~ In 24 (SigData.ids recs))) by (destruct C as [C|[C D]]; [left; exact C|right; split; [exact C|]]; intros X; apply D, IN, X).
    destruct (single_quantities _ _ _ _ _ _ _ _ _ _ _ _ _ _ _ S ND I TG HR C' (has_recorded _ _ _ _ _ _ _ H HR N) Rs M Q) as (col & Sh & W).
    exists col. split; [|exact W]. apply shift_shows; [|exact Sh]. apply (no_ensemble nm (p_id p) tag); [|exact TG]. destruct C as [C|[C _]]; tauto.
  Qed.
  Lemma file_velocity raws s qs : has conf p "vel" raws -> has conf p "vel_scale" [s] -> Forall2 (nearest (powerRZ 10 s)) qs raws ->
    exists col, shows (data_vars r) ("vel" ++ tag) k col /\ Forall2 (within (powerRZ 10 s / 2)) qs col.
  Proof.
    intros H H' Q. destruct in_record as (recs & r0 & l & pings & S & -> & ND & IN & I & HR & _ & N).
    destruct (single_velocity _ _ _ _ _ _ _ _ _ _ _ _ _ _ S ND I TG HR (has_recorded _ _ _ _ _ _ _ H HR N) (has_recorded _ _ _ _ _ _ _ H' HR N) Q) as (col & Sh & W).
    exists col. split; [|exact W]. apply shift_shows; [|exact Sh]. apply (no_ensemble "vel" (p_id p) tag); [left; left; reflexivity|exact TG].
  Qed.
  Lemma file_times y mo d h mi s u n : has conf p "year" [y] -> has conf p "month" [mo] -> has conf p "day" [d] -> has conf p "hour" [h] ->
    has conf p "minute" [mi] -> has conf p "second" [s] -> has conf p "usec100" [u] ->
    Nortek.valid_date (Nortek.Date (y + 1900) (mo + 1) d h mi s) = true -> 0 <= u < 10000 -> elapsed (Nortek.Date (y + 1900) (mo + 1) d h mi s) n ->
    exists ts t, get (times r) ("time" ++ tag)%string = Some ts /\ nth_error ts k = Some (Some t) /\ (t == inject_Z n + inject_Z u / 10000)%Q.
  Proof.
    intros A1 A2 A3 A4 A5 A6 A7 V U E. destruct in_record as (recs & r0 & l & pings & S & -> & ND & IN & I & HR & _ & N). cbn [shifted times].
    refine (single_times _ _ _ _ _ _ _ _ _ _ _ _ _ _ _ _ _ _ _ S ND I TG HR _ _ _ _ _ _ _ V U E); (eapply has_recorded; [|exact HR|exact N]); assumption.
  Qed.
  Lemma file_ensemble : shows (data_vars r) ("ensemble" ++ tag) k [Int (Z.of_nat (start + k) + 1)].
  Proof.
    destruct in_record as (recs & r0 & l & pings & S & -> & ND & IN & I & HR & LN & N). cbn [shifted data_vars].
    assert (LK : (k < length pings)%nat) by (apply nth_error_Some; rewrite N; discriminate).
    pose proof (single_ensemble _ _ _ _ _ _ _ _ _ S ND I TG LK) as Sh. apply (shift_ens start) in Sh; [|apply prefix_app].
    replace (Z.of_nat (start + k) + 1) with (Z.of_nat k + 1 + Z.of_nat start) by lia. exact Sh.
  Qed.
  Lemma file_orient raws : (p_id p = 21 \/ (p_id p = 22 /\ In "vel"%string (match reader_for 22 (fst (conf 22)) (snd (conf 22)) with Some l => map fname l | None => [] end))) ->
    has conf p "orientmat" raws -> exists col, shows (data_vars r) "orientmat" k col /\ transposed (map (fun b => Flt (f32 b)) raws) col /\ has_imu r = true.
  Proof.
    intros C H. destruct SF as (_ & _ & _ & _ & _ & _ & OP). destruct in_record as (recs & r0 & l & pings & S & -> & ND & IN & I & HR & LN & N). cbn [shifted data_vars has_imu].
    destruct (raw_float _ _ _ _ _ _ _ _ HR (has_recorded _ _ _ _ _ _ _ H HR N) ltac:(cbn; tauto)) as (v & G & Nv).
    assert (SC : sci_func (p_id p) "orientmat" = None) by (unfold sci_func; rewrite !andb_false_r; reflexivity). rewrite SC in Nv.
    assert (Iid : In (p_id p) ids).
    { apply (proj1 (IN (p_id p))). unfold SigData.ids. apply in_map_iff. exists (p_id p, l, pings). split; [reflexivity|exact I]. }
    assert (C' : p_id p = 21 \/ (p_id p = 22 /\ ~ In 21 (SigData.ids recs) /\ NoDup (map fname l) /\ In "vel"%string (map fname l))).
    { destruct C as [C|[C D]]; [left; exact C|right]. split; [exact C|]. split.
      - intros X. apply IN in X. destruct X as [X _]. apply OP. split; [exact X|]. rewrite <- C. exact Iid.
      - split; [exact (reader_names _ _ _ _ HR)|]. rewrite C in HR. rewrite HR in D. exact D. }
    destruct (single_orient _ _ _ _ _ _ _ _ S ND I C' G) as [O M]. eexists. split; [|split; [apply swap_transposed|exact M]].
    apply shift_shows; [reflexivity|]. exists (map swap_axes v). split; [exact O|]. rewrite nth_error_map. etransitivity; [apply f_equal; exact Nv|]. reflexivity.
  Qed.
  End Read.
  (** bursts *)
  Lemma file_readable low a o w an on wn l : (start < upto enss stop)%nat -> In 21 ids -> (forall id, In id ids -> In id data_ids -> id = 21) ->
    reader_for 21 (fst (conf 21)) (snd (conf 21)) = Some l -> In "vel"%string (map fname l) ->
    (forall k p, in_ping enss start stop k p -> p_id p = 21 -> has conf p "status" [status_codes low a o w]) ->
    0 <= low < 2 ^ 22 -> In (a, an) orient_status -> In (o, on) nortek_orient -> In (w, wn) wake ->
    exists r, read_signature fuel fh strings false rebuild existing file start stop = Dataset r.
  Proof.
    intros SU I21 ONLY HR HV ST LO IA IO IW. destruct SF as (m & hd & L & R & N2 & HL & OP).
    destruct (read_whole conf ids m hd enss file L rebuild existing start stop fuel fh strings R N2 HL RB FU OP SU) as (ids' & f & ND & IN & RD & E).
    assert (E1 : ids' = [21]).
    { assert (X : In 21 ids') by (apply IN; split; [exact I21|left; reflexivity]).
      assert (Y : forall x, In x ids' -> x = 21) by (intros x Hx; apply IN in Hx; destruct Hx; apply ONLY; assumption).
      destruct ids' as [|b t]; [destruct X|]. rewrite (Y b (or_introl eq_refl)) in *. destruct t as [|c t]; [reflexivity|].
      rewrite (Y c (or_intror (or_introl eq_refl))) in ND. inversion ND as [|? ? NI _]. exfalso. apply NI. left. reflexivity. }
    subst ids'. rewrite E. cbn [map].
    assert (FL : f 21 = l) by (specialize (RD 21 (or_introl eq_refl)); congruence). rewrite FL.
    set (pings := pings_of _ _ 21).
    assert (SS : same_status l pings (status_codes low a o w)).
    { intros k K. unfold pings in K. rewrite pings_length in K.
      assert (UL : (upto enss stop <= length enss)%nat) by (unfold upto; destruct stop; lia).
      destruct (nth_error enss (start + k)) as [ps|] eqn:Ep; [|apply nth_error_None in Ep; lia].
      pose proof R as [_ _ _ RE _ _ _]. destruct (good_ens_piece conf ids m (Z.of_nat (start + k)) ps 21 (RE _ _ Ep) I21) as (p & Ip & Eid & _ & _).
      assert (IPp : in_ping enss start stop k p) by (split; [lia|exists ps; split; assumption]).
      assert (PA : nth_error pings k = Some (Some (p_vals p))).
      { unfold pings. rewrite <- Eid. apply (pings_at conf ids m hd enss file start stop k p R IPp). rewrite Eid. left. reflexivity. }
      apply (has_recorded conf p _ _ l pings k); [exact (ST k p IPp Eid)|rewrite Eid; exact HR|exact PA]. }
    assert (NE : pings <> []) by (intros Z0; assert (LZ : length pings = 0%nat) by (rewrite Z0; reflexivity); unfold pings in LZ; rewrite pings_length in LZ; lia).
    destruct (burst_readable fh strings _ _ l pings low a o w an on wn HR HV NE SS LO IA IO IW) as (r & Er). rewrite Er. eexists. reflexivity.
  Qed.
End Files.
