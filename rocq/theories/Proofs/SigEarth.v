(** Lemmas on Signature files from bytes to earth velocities. *)
From Coq Require Import String.
From Coq Require Import ZArith Reals List Bool Lia Lra.
From Verif.Model Require Import Nortek Ad2cp Ad2cpIndex SigData ReadSig SigEarth.
From Verif.Spec Require Import Ad2cp Ad2cpIndex SigData ReadSig SigEarth.
From Verif.Proofs Require Import Ad2cp Ad2cpIndex SigData ReadSig.
From Verif.Model Require Linalg Rotate Euler.
From Verif.Spec Require Linalg Rotate NortekEarth.
From Verif.Proofs Require Linalg Rotate SigRotate ToEarth Euler.
Import ListNotations.
Open Scope Z_scope.

(** ** the layout of bursts *)
Lemma word_axes nc code nb frame : nc < 1024 -> 0 <= nc -> 0 <= nb -> In (code, frame) frame_codes ->
  exists c, frame_of (Some c) = Some frame /\ beams_cy_int2dict (nc + 1024 * (code + 4 * nb)) 21 = BeamsCy nc (Some c) (Some nb).
Proof.
  intros H1 H0 H2 I. assert (C : 0 <= code < 4) by (cbn in I; repeat (destruct I as [I|I]; [injection I as <- _; lia|]); destruct I).
  unfold beams_cy_int2dict. cbn [Z.eqb Pos.eqb orb]. change (2 ^ 10 - 1) with (Z.ones 10). rewrite Z.land_ones, Z.shiftr_div_pow2, Z.shiftr_div_pow2 by lia.
  change (2 ^ 10) with 1024. change (2 ^ 12) with 4096. change 3 with (Z.ones 2). rewrite Z.land_ones by lia. change (2 ^ 2) with 4.
  assert (E1 : (nc + 1024 * (code + 4 * nb)) mod 1024 = nc).
  { rewrite Z.mul_comm, Z_mod_plus_full. apply Z.mod_small. lia. }
  assert (E2 : (nc + 1024 * (code + 4 * nb)) / 1024 = code + 4 * nb).
  { rewrite Z.mul_comm, Z_div_plus_full by lia. rewrite Z.div_small by lia. lia. }
  assert (E3 : (nc + 1024 * (code + 4 * nb)) / 4096 = nb).
  { change 4096 with (1024 * 4). rewrite <- Z.div_div by lia. rewrite E2, Z.mul_comm, Z_div_plus_full by lia. rewrite Z.div_small by lia. lia. }
  assert (E4 : (code + 4 * nb) mod 4 = code).
  { rewrite Z.mul_comm, Z_mod_plus_full. apply Z.mod_small. lia. }
  rewrite E1, E2, E3, E4. cbn in I. repeat (destruct I as [I|I]; [injection I as <- <-; eexists; split; [|reflexivity]; reflexivity|]). destruct I.
Qed.
Lemma burst_layout config nc code nb frame l : nc < 1024 -> 0 <= nc -> 0 <= nb -> In (code, frame) frame_codes -> Z.testbit config 5 = true ->
  reader_for 21 config (nc + 1024 * (code + 4 * nb)) = Some l -> exists rest, l = burst_hdr ++ Field "vel" S16 0 [Z.to_nat nb; Z.to_nat nc] :: rest.
Proof.
  intros H1 H0 H2 I V. destruct (word_axes nc code nb frame H1 H0 H2 I) as (c & _ & E). unfold reader_for. rewrite E. cbn [Z.eqb Pos.eqb n_beams n_cells].
  unfold calc_burst_struct. destruct (flag _ "echo"); [discriminate|]. intros H. apply some_inj in H. rewrite <- H. rewrite <- (getbit_test config 5) in V by lia.
  assert (F : flag (headconfig config BurstMode) "vel" = true) by exact V. rewrite F. eexists. reflexivity.
Qed.
(** ** the values of a record *)
Lemma holds_lengths l vals bs : holds l vals bs -> forall i f raws, nth_error l i = Some f -> nth_error vals i = Some raws -> length raws = prod (fshape f).
Proof.
  induction 1 as [|f l vs vals skip bs P L R S H IH]; intros i g raws E1 E2; [destruct i; discriminate|].
  destruct i as [|i]; [injection E1 as <-; injection E2 as <-; exact L|]. exact (IH i g raws E1 E2).
Qed.
Lemma holds_present l vals bs : holds l vals bs -> forall i f, nth_error l i = Some f -> exists raws, nth_error vals i = Some raws.
Proof.
  induction 1 as [|f l vs vals skip bs P L R S H IH]; intros i g E1; [destruct i; discriminate|].
  destruct i as [|i]; [eexists; reflexivity|]. exact (IH i g E1).
Qed.
Lemma first_app {A} n (x y : list A) : length x = n -> firstn n (x ++ y) = x.
Proof. intros <-. rewrite firstn_app, firstn_all, Nat.sub_diag. cbn. apply app_nil_r. Qed.
Lemma skip_plus {A} n (x y : list A) m : length x = n -> skipn (n + m) (x ++ y) = skipn m y.
Proof. intros <-. rewrite skipn_app. rewrite skipn_all2 by lia. cbn [app]. f_equal. lia. Qed.
Lemma holds_word_at l vals bs : holds l vals bs -> forall i nm, nth_error l i = Some (scalar nm U16) ->
  exists v, nth_error vals i = Some [v] /\ le (firstn 2 (skipn (nbyte (firstn i l)) bs)) = v.
Proof.
  induction 1 as [|f l vs vals skip bs P L R S H IH]; intros i nm E; [destruct i; discriminate|]. destruct i as [|i].
  - injection E as ->. cbn [scalar fkind fshape prod fold_right ksize fskip] in *. destruct vs as [|v [|? ?]]; try discriminate L. exists v. split; [reflexivity|].
    change (nbyte (firstn 0 (scalar nm U16 :: l))) with 0%nat. cbn [skipn map concat]. rewrite app_nil_r. rewrite first_app by apply le_bytes_length. inversion R as [|? ? Rv _]; subst.
    exact (value_bytes U16 v Rv).
  - destruct (IH i nm E) as (v & E1 & E2). exists v. split; [exact E1|]. cbn [firstn nbyte map fold_right]. rewrite app_assoc. rewrite skip_plus; [exact E2|].
    rewrite app_length, enc_length, L, S. unfold fsize, fcount, fN. clear - P. destruct (fshape f) as [|a s]; [reflexivity|]. cbv beta iota. destruct (Nat.ltb_spec 1 (prod (a :: s))) as [X|X]; [reflexivity|]. assert (E9 : prod (a :: s) = 1%nat) by lia. rewrite E9. reflexivity.
Qed.
Lemma beam_config_value rest vals body head : holds (burst_hdr ++ rest) vals body -> length head = 10%nat ->
  nth_error vals 17 = Some [u16 40 (head ++ body)].
Proof.
  intros H Hd. destruct (holds_word_at _ _ _ H 17 "beam_config" eq_refl) as (v & E1 & E2). rewrite E1. do 2 f_equal. unfold u16.
  change 40%nat with (10 + 30)%nat. rewrite skip_plus by exact Hd. symmetry. exact E2.
Qed.

(** ** keys of dictionaries *)
Lemma set_fst {A} (d : dict A) k v x : In x (map fst (set d k v)) <-> x = k \/ In x (map fst d).
Proof.
  induction d as [|[a b] d IH]; cbn [set map fst In]; [intuition|]. destruct (String.eqb_spec a k) as [->|N]; cbn [map fst In]; [intuition|]. rewrite IH. intuition.
Qed.
Lemma set_nodup {A} (d : dict A) k v : NoDup (map fst d) -> NoDup (map fst (set d k v)).
Proof.
  induction d as [|[a b] d IH]; intros N; cbn [set map fst]; [constructor; [intros []|constructor]|]. cbn [map fst] in N. inversion N as [|x y N1 N2]; subst.
  destruct (String.eqb_spec a k) as [->|NE]; cbn [map fst]; [exact N|]. constructor; [|apply IH, N2]. rewrite set_fst. intros [E|I]; [exact (NE E)|exact (N1 I)].
Qed.
Lemma copied_nodup tag d out o : copy_always tag d always out = Some o -> NoDup (map fst out) -> NoDup (map fst (copy_there tag d if_there o)).
Proof.
  assert (A : forall names out o, copy_always tag d names out = Some o -> NoDup (map fst out) -> NoDup (map fst o)).
  { induction names as [|n names IH]; intros out0 o0 H O; cbn [copy_always] in H; [injection H as <-; exact O|]. destruct (get d n); [|discriminate].
    apply (IH _ _ H). apply set_nodup, O. }
  assert (B : forall names o, NoDup (map fst o) -> NoDup (map fst (copy_there tag d names o))).
  { induction names as [|n names IH]; intros o0 O; [exact O|]. unfold copy_there. cbn [fold_left]. apply IH. destruct (get d n); [apply set_nodup|]; exact O. }
  intros H O. apply B. exact (A always out o H O).
Qed.
Lemma filter_nodup {A} (P : string * A -> bool) (d : dict A) : NoDup (map fst d) -> NoDup (map fst (filter P d)).
Proof.
  induction d as [|[a b] d IH]; intros N; [constructor|]. cbn [map fst] in N. inversion N as [|x y N1 N2]; subst. cbn [filter].
  destruct (P (a, b)); [|apply IH, N2]. cbn [map fst]. constructor; [|apply IH, N2]. intros I. apply N1. apply in_map_iff in I. destruct I as (q & E & I). apply filter_In in I.
  rewrite <- E. apply in_map, I.
Qed.
Lemma only_one (keys : list string) ky (P : string -> bool) : NoDup keys -> (forall k, In k keys -> P k = true -> k = ky) -> P ky = true ->
  filter P keys = if has_key keys ky then [ky] else [].
Proof.
  intros N O T. unfold has_key. induction keys as [|k keys IH]; [reflexivity|]. inversion N as [|x y N1 N2]; subst. cbn [filter existsb].
  destruct (String.eqb_spec ky k) as [<-|NE]; cbn [orb].
  - rewrite T. f_equal. rewrite IH; [|exact N2|intros k I; apply O; right; exact I].
    destruct (existsb (String.eqb ky) keys) eqn:E; [|reflexivity]. exfalso. apply N1. apply existsb_exists in E. destruct E as (x & I & E). apply String.eqb_eq in E. now subst.
  - destruct (P k) eqn:Pk; [exfalso; apply NE; symmetry; apply O; [left; reflexivity|exact Pk]|]. apply IH; [exact N2|intros k' I; apply O; right; exact I].
Qed.
Lemma imu_names ky k : In ky ["accel"; "angrt"; "mag"]%string -> In k all_names -> String.eqb k ky || prefix (ky ++ "_") k = true -> k = ky.
Proof.
  assert (K : forallb (fun ky => forallb (fun k => negb (String.eqb k ky || prefix (ky ++ "_") k) || String.eqb k ky) all_names) ["accel"; "angrt"; "mag"]%string = true) by (vm_compute; reflexivity).
  rewrite forallb_forall in K. intros I J P. specialize (K ky I). rewrite forallb_forall in K. specialize (K k J). rewrite P in K. cbn [negb orb] in K. apply String.eqb_eq, K.
Qed.
Lemma get_fst {A} (d : dict A) k : get d k <> None <-> In k (map fst d).
Proof.
  induction d as [|[a b] d IH]; cbn [get map fst In]; [tauto|]. destruct (String.eqb_spec a k) as [->|N]; [split; [tauto|discriminate]|]. rewrite IH. intuition congruence.
Qed.
Lemma has_key_get {A} (d : dict A) k : has_key (map fst d) k = match get d k with Some _ => true | None => false end.
Proof.
  unfold has_key. induction d as [|[a b] d IH]; [reflexivity|]. cbn [map fst existsb get]. rewrite String.eqb_sym. destruct (String.eqb a k); [reflexivity|exact IH].
Qed.

(** ** bursts *)
Section Record.
  Variables (fh : filehead) (strings : bool) (config : Z) (nb nc : nat) (code : Z) (frame : string) (l : layout) (pings : list (option (list (list Z)))) (low a o w : Z) (an on wn : string).
  Let word := Z.of_nat nc + 1024 * (code + 4 * Z.of_nat nb).
  Hypothesis Hnc : Z.of_nat nc < 1024.
  Hypothesis Hcode : In (code, frame) frame_codes.
  Hypothesis Hvel : Z.testbit config 5 = true.
  Hypothesis HR : reader_for 21 config word = Some l.
  Hypothesis HP : pings <> [].
  Hypothesis HS : same_status l pings (status_codes low a o w).
  Hypothesis HL : 0 <= low < 2 ^ 22.
  Hypothesis HA : In (a, an) orient_status.
  Hypothesis HO : In (o, on) nortek_orient.
  Hypothesis HW : In (w, wn) wake.
  Hypothesis HB : forall k, (k < length pings)%nat -> exists vals body, nth_error pings k = Some (Some vals) /\ holds l vals body /\ nth_error vals 17 = Some [word].
  Let d := snd (record_of (21, l, pings)).

  Lemma layout_is : exists rest, l = burst_hdr ++ Field "vel" S16 0 [nb; nc] :: rest.
  Proof. destruct (burst_layout config (Z.of_nat nc) code (Z.of_nat nb) frame l Hnc ltac:(lia) ltac:(lia) Hcode Hvel HR) as (rest & E). rewrite !Nat2Z.id in E. now exists rest. Qed.
  Lemma names_nodup : NoDup (map fname l). Proof. exact (reader_names _ _ _ _ HR). Qed.
  Lemma var_length nm v : nm <> "ensemble"%string -> get d nm = Some v -> length v = length pings.
  Proof.
    intros N G. destruct (record_per 21 l nm names_nodup N) as [T|[g T]]; specialize (T pings); pose proof (eq_trans (eq_sym G) T) as E; [discriminate E|].
    injection E as ->. apply map_length.
  Qed.
  Lemma there nm : In nm (map fname l) -> exists v, get d nm = Some v.
  Proof. intros I. pose proof (record_has 21 l pings nm names_nodup I) as H. unfold d. destruct (get _ nm) as [v|]; [now exists v|contradiction]. Qed.
  Lemma hdr_there nm : In nm (map fname burst_hdr) -> exists v, get d nm = Some v.
  Proof. intros I. apply there. destruct layout_is as (rest & ->). rewrite map_app. apply in_or_app. now left. Qed.
  Lemma vel_there : exists v, get d "vel" = Some v.
  Proof. apply there. destruct layout_is as (rest & ->). rewrite map_app. apply in_or_app. right. left. reflexivity. Qed.
  Lemma beam_config_column : ints d "beam_config" = repeat word (length pings).
  Proof.
    unfold ints, d. rewrite record_get by discriminate. destruct layout_is as (rest & El).
    assert (Hi : nth_error l 17 = Some (scalar "beam_config" U16)) by (rewrite El; reflexivity).
    pose proof (table_get 21 l pings 17 _ names_nodup Hi) as T. change (fname (scalar "beam_config" U16)) with "beam_config"%string in T. rewrite T. cbn [option_map].
    change (sci_func 21 "beam_config") with (@None (R * R)). cbv iota beta. rewrite map_map.
    assert (A : forall c, In c pings -> exists vals, c = Some vals /\ nth 17 vals [] = [word]).
    { intros c Ic. apply In_nth_error in Ic. destruct Ic as (k & Hk). assert (Lk : (k < length pings)%nat) by (apply nth_error_Some; congruence).
      destruct (HB k Lk) as (vals & body & Ek & _ & E). rewrite Hk in Ek. injection Ek as ->. exists vals. split; [reflexivity|]. exact (nth_error_nth _ _ _ E). }
    clear - A. induction pings as [|c ps IH]; [reflexivity|]. cbn [map length repeat]. destruct (A c (or_introl eq_refl)) as (vals & -> & E). rewrite E. cbn [map].
    change (first_int [stored 21 (scalar "beam_config" U16) word]) with word. f_equal. apply IH. intros x Ix. apply A. right. exact Ix.
  Qed.
  Lemma word_is : exists c, frame_of (Some c) = Some frame /\ beam_word [(21, d)] 21 = Some (BeamsCy (Z.of_nat nc) (Some c) (Some (Z.of_nat nb))).
  Proof.
    destruct (word_axes (Z.of_nat nc) code (Z.of_nat nb) frame Hnc ltac:(lia) ltac:(lia) Hcode) as (c & F & E). exists c. split; [exact F|]. unfold beam_word.
    change (find_id [(21, d)] 21) with (Some d). cbv iota. change (zmem 21 [24; 26]) with false. cbv iota. rewrite beam_config_column.
    assert (C : collapse (repeat word (length pings)) [] = Some word).
    { destruct pings as [|x ps]; [contradiction|]. cbn [length repeat]. unfold collapse, isuniform.
      assert (U : forallb (Z.eqb word) (repeat word (length ps)) = true) by (apply forallb_forall; intros y I; apply repeat_spec in I; subst; apply Z.eqb_refl). rewrite U. reflexivity. }
    rewrite C. unfold word. rewrite E. reflexivity.
  Qed.
  Lemma attrs_are : exists has_angrt, reorg_attrs [(21, d)] =
    Some (Attributes frame on ([("vel"%string, nb); ("accel"%string, 3%nat)] ++ (if has_angrt : bool then [("angrt"%string, 3%nat)] else []) ++ [("mag"%string, 3%nat)]) (Nat.max (Nat.min nb 4) 3) (Nat.eqb (Nat.max (Nat.min nb 4) 3) 4)) /\
    (has_angrt = true -> exists v, get d "angrt" = Some v).
  Proof.
    assert (HD : forall n, In n always -> get d n <> None).
    { intros n I. destruct (names_in_hdr n I) as [->|J]; [apply record_ensemble|]. destruct (hdr_there n J) as (v & E). intros X. pose proof (eq_trans (eq_sym X) E) as Y. discriminate Y. }
    destruct (copy_always_some "" d always [] HD) as (o1 & C).
    set (out := copy_there "" d if_there o1).
    assert (E1 : reorg_vars [(21, d)] tags [] = Some out).
    { unfold tags. cbn [reorg_vars]. change (find_id [(21, d)] 21) with (Some d). cbv beta iota. rewrite C. reflexivity. }
    assert (KO : Forall (fun p => In (fst p) all_names) out).
    { apply (copied_keys "" d (fun k => In k all_names)) with (out := []); [intros n I; rewrite append_nil; exact I|exact C|constructor]. }
    assert (KN : NoDup (map fst out)) by (apply (copied_nodup "" d [] o1 C); constructor).
    assert (G : forall nm v, In nm all_names -> get d nm = Some v -> get out nm = Some (if String.eqb nm "ensemble" then plus_one v else v)).
    { intros nm v I G. rewrite <- (append_nil nm) at 1. exact (reorg_get [(21, d)] tags [] out 21 "" d nm v tags_ids (fun x Hx => Hx) E1 (or_introl eq_refl) eq_refl I G). }
    destruct (hdr_there "status0"%string ltac:(cbn; tauto)) as (v0 & G0).
    destruct (status_column _ _ _ _ _ HR HS) as (v & Gs & Ev). fold d in Gs.
    pose proof (G "status0"%string v0 ltac:(cbn; tauto) G0) as O0. pose proof (G "status"%string v ltac:(cbn; tauto) Gs) as Os.
    cbn [String.eqb Ascii.eqb Bool.eqb] in O0, Os.
    assert (ST : status_of out = Some (Status wn on an)).
    { unfold status_of. destruct (find _ out) as [p|] eqn:Fp.
      - apply find_some in Fp. destruct Fp as [Ip Cp]. rewrite Forall_forall in KO. rewrite (status0_only _ (KO _ Ip) Cp).
        change (substring 7 (String.length "status0" - 7) "status0") with ""%string. change ("status" ++ "")%string with "status"%string. rewrite Os, Ev.
        apply decoded; try assumption. destruct pings; [contradiction|discriminate].
      - exfalso. pose proof (find_none _ _ Fp _ (get_in _ _ _ O0)) as X. discriminate X. }
    set (dv := filter (fun p => negb (contains "status0" (fst p))) out).
    assert (E2 : reorg_end [(21, d)] out = Some (dv, Status wn on an)).
    { unfold reorg_end. change (find_id [(21, d)] 26) with (@None (dict var)). change (find_id [(21, d)] 31) with (@None (dict var)). cbn match. rewrite ST. reflexivity. }
    assert (GD : forall nm, In nm all_names -> nm <> "ensemble"%string -> safe_end nm = true -> get dv nm = get d nm).
    { intros nm I N1 N2. pose proof (reorg_var _ _ _ _ 21 "" nm E1 E2 ltac:(cbn; tauto) I N1) as X. rewrite append_nil in X. exact (X N2). }
    assert (ND : NoDup (map fst dv)) by apply (filter_nodup _ _ KN).
    assert (KD : forall k, In k (map fst dv) -> In k all_names).
    { intros k I. apply in_map_iff in I. destruct I as (q & <- & I). apply filter_In in I. rewrite Forall_forall in KO. apply KO, I. }
    assert (GG : forall ky, In ky ["accel"; "angrt"; "mag"]%string -> filter (fun k => String.eqb k ky || prefix (ky ++ "_") k) (map fst dv) = match get d ky with Some _ => [ky] | None => [] end).
    { intros ky I. rewrite (only_one _ ky _ ND).
      - rewrite has_key_get, GD; [destruct (get d ky); reflexivity| | |].
        + cbn in I. repeat (destruct I as [<-|I]; [cbn; tauto|]). destruct I.
        + intros ->. cbn in I. repeat (destruct I as [I|I]; [discriminate I|]). destruct I.
        + cbn [In] in I. repeat (destruct I as [<-|I]; [reflexivity|]). destruct I.
      - intros k Ik P. apply (imu_names ky k I (KD k Ik) P).
      - rewrite String.eqb_refl. reflexivity. }
    destruct word_is as (c & Fc & Ew).
    assert (BO : beams_of [(21, d)] 21 = nb) by (unfold beams_of; rewrite Ew; cbn [n_beams]; apply Nat2Z.id).
    assert (NK : forall k, ~ In k all_names -> has_key (map fst dv) k = false).
    { intros k N. unfold has_key. destruct (existsb _ _) eqn:E; [|reflexivity]. apply existsb_exists in E. destruct E as (x & I & E). apply String.eqb_eq in E. subst x. exfalso. exact (N (KD k I)). }
    exists (match get d "angrt" with Some _ => true | None => false end). split; [|destruct (get d "angrt") as [va|]; [intros _; now exists va|discriminate]].
    unfold reorg_attrs. rewrite E1, E2. change (has_id [(21, d)] 21) with true. cbv iota. rewrite Ew. cbn [cy]. rewrite Fc. cbn [SigData.orientation]. f_equal. f_equal.
    - unfold rotated. change (has_id [(21, d)] 21) with true. cbv iota. rewrite BO, NK, NK by (intros I; cbn in I; repeat (destruct I as [I|I]; [discriminate I|]); exact I).
      cbn [map]. rewrite !GG by (cbn; tauto). destruct (hdr_there "accel"%string ltac:(cbn; tauto)) as (v1 & ->). destruct (hdr_there "mag"%string ltac:(cbn; tauto)) as (v2 & ->).
      destruct (get d "angrt"); reflexivity.
    - unfold label_count. change (has_id [(21, d)] 22) with false. cbv iota. rewrite BO. reflexivity.
    - unfold has_dirIMU, label_count. change (has_id [(21, d)] 22) with false. cbv iota. rewrite BO. change (existsb (has_id [(21, d)]) [22; 24; 28]) with false. apply orb_false_r.
  Qed.
End Record.
(** ** the numbers of a ping *)
Section Columns.
  Variables (config beams : Z) (l : layout) (pings : list (option (list (list Z)))) (k : nat).
  Hypothesis HR : reader_for 21 config beams = Some l.
  Let d := snd (record_of (21, l, pings)).
  Lemma count_column nm raws res : recorded l pings k nm raws -> get resolution nm = Some res -> sci_func 21 nm = Some (res, 0%R) ->
    exists v, get d nm = Some v /\ nth_error v k = Some (map (fun n => Flt (Some (IZR n * res)%R)) raws).
  Proof.
    intros HC HS SF.
    assert (N1 : nm <> "vel"%string) by (intros ->; discriminate HS).
    assert (N2 : nm <> "ensemble"%string) by (intros ->; discriminate HS).
    destruct (column_of _ _ _ _ _ _ _ _ HR HC N1 N2) as (f & If & Ef & (v & G & Nv)). exists v. split; [exact G|].
    destruct (fields_known _ _ _ _ _ HR If) as (nb & nc & If').
    assert (St : forall v, stored 21 f v = Int v) by (intros x; apply (counts_not_floats nb nc f If'); [rewrite Ef, HS; discriminate|discriminate|discriminate]).
    etransitivity; [exact Nv|]. f_equal. apply map_ext. intros n. rewrite SF, St. unfold linfunc. cbn [real option_map]. do 2 f_equal. ring.
  Qed.
  Lemma vel_column raws s : recorded l pings k "vel" raws -> recorded l pings k "vel_scale" [s] ->
    exists v, get d "vel" = Some v /\ nth_error v k = Some (map (fun n => Flt (Some (IZR n * powerRZ 10 s)%R)) raws).
  Proof.
    intros HV HS. destruct HV as (vals & i & f & Hp & Hf & Hn & Hv). destruct HS as (vals' & i' & f' & Hp' & Hf' & Hn' & Hv').
    rewrite Hp in Hp'. injection Hp' as <-. pose proof (reader_names _ _ _ _ HR) as ND.
    unfold d. cbn [record_of snd]. set (e := set (table 21 l pings) "ensemble" _).
    assert (G1 : get e "vel" = Some (map (fun c => match c with Some vals => map (stored 21 f) (nth i vals []) | None => blank f end) pings)).
    { unfold e. rewrite get_set_other by discriminate. rewrite <- Hn. exact (table_get 21 l pings i f ND Hf). }
    assert (G2 : get e "vel_scale" = Some (map (fun c => match c with Some vals => map (stored 21 f') (nth i' vals []) | None => blank f' end) pings)).
    { unfold e. rewrite get_set_other by discriminate. rewrite <- Hn'. exact (table_get 21 l pings i' f' ND Hf'). }
    assert (St : forall v, stored 21 f v = Int v).
    { destruct (fields_known _ _ _ _ _ HR (nth_error_In _ _ Hf)) as (nb & nc & If). intros v. exact (vel_kind nb nc f If Hn 21 v). }
    assert (St' : forall v, stored 21 f' v = Int v).
    { apply (field_number _ _ _ _ _ "vel_scale"%string HR (nth_error_In _ _ Hf') Hn'). cbn. tauto. }
    unfold sci_data, vel_scaled.
    assert (M1 : get (map (sci_one 21) e) "vel" = get e "vel").
    { unfold sci_one. rewrite (get_map_snd (fun nm v => match sci_func 21 nm with Some (sc, off) => map (map (linfunc sc off)) v | None => v end)).
      unfold sci_func. rewrite !andb_false_r. change (get sci_burst "vel") with (@None (R * R)). cbv iota beta. exact (option_map_id _). }
    assert (M2 : get (map (sci_one 21) e) "vel_scale" = get e "vel_scale").
    { unfold sci_one. rewrite (get_map_snd (fun nm v => match sci_func 21 nm with Some (sc, off) => map (map (linfunc sc off)) v | None => v end)).
      unfold sci_func. rewrite !andb_false_r. change (get sci_burst "vel_scale") with (@None (R * R)). cbv iota beta. exact (option_map_id _). }
    rewrite M1, M2, G1, G2. eexists. split; [apply get_set_same|]. erewrite map_combine_nth; cycle 1.
    - rewrite nth_error_map, Hp. cbn [option_map]. rewrite (nth_error_nth _ _ _ Hv). reflexivity.
    - rewrite nth_error_map, Hp. cbn [option_map]. rewrite (nth_error_nth _ _ _ Hv'). reflexivity.
    - cbn [fst snd]. f_equal. rewrite map_map. apply map_ext. intros n. rewrite St. cbn [map nth real]. rewrite St'. cbn [real]. do 3 f_equal.
      symmetry. apply powerRZ_Rpower. lra.
  Qed.
  Lemma orient_column raws xs : recorded l pings k "orientmat" raws -> map f32 raws = map Some xs ->
    exists v, get d "orientmat" = Some v /\ nth_error v k = Some (map (fun x => Flt (Some x)) xs).
  Proof.
    intros H E. destruct (raw_float _ _ _ _ _ _ _ _ HR H ltac:(cbn; tauto)) as (v & G & Nv). exists v. split; [exact G|].
    change (sci_func 21 "orientmat") with (@None (R * R)) in Nv. cbv iota in Nv. etransitivity; [exact Nv|]. f_equal.
    rewrite <- (map_map f32 Flt), E, map_map. reflexivity.
  Qed.
End Columns.
(** the cells of a ping *)
Lemma cells_value nan n m vals j : length vals = (n * m)%nat -> (0 < n)%nat -> (j < m)%nat ->
  nth_error (cells_of nan n (map (fun x => Flt (Some x)) vals)) j = Some (map (fun b => nth (b * m + j) vals 0%R) (seq 0 n)).
Proof.
  intros L N J. unfold cells_of. rewrite map_length, L, (Nat.mul_comm n m), Nat.div_mul by lia. rewrite nth_error_map.
  rewrite (nth_error_nth' _ 0%nat) by (rewrite seq_length; exact J). rewrite seq_nth by exact J. cbn [option_map Nat.add]. f_equal. apply map_ext_in. intros b I. apply in_seq in I.
  assert (X : (b * m + j < length vals)%nat) by (rewrite L; nia).
  rewrite (nth_indep _ (Flt None) (Flt (Some 0%R))) by (rewrite map_length; exact X).
  rewrite (map_nth (fun x => Flt (Some x)) vals 0%R). reflexivity.
Qed.
Lemma nine {A} (l : list A) : length l = 9%nat -> exists a b c d e f g h i, l = [a; b; c; d; e; f; g; h; i].
Proof. intros H. do 9 (destruct l as [|? l]; [discriminate H|]). destruct l; [|discriminate H]. repeat eexists. Qed.
Lemma matrix_of_column nan xs : length xs = 9%nat -> Linalg.is_mat 3 (matrix3 nan (swap_axes (map (fun x => Flt (Some x)) xs))) /\
  Linalg.tr 3 (matrix3 nan (swap_axes (map (fun x => Flt (Some x)) xs))) = rows_of_three xs.
Proof.
  intros L. destruct (nine xs L) as (a & b & c & d & e & f & g & h & i & ->). split; [|reflexivity].
  split; [reflexivity|]. repeat (apply Forall_cons; [reflexivity|]). apply Forall_nil.
Qed.
Lemma matrix_of_angles h p r : Linalg.is_mat 3 (Euler.nortek_euler2orient h p r) /\ Linalg.tr 3 (Euler.nortek_euler2orient h p r) = attitude_matrix h p r.
Proof.
  split; [split; [reflexivity|]; repeat (apply Forall_cons; [reflexivity|]); apply Forall_nil|].
  unfold attitude_matrix, NortekEarth.heading_matrix, NortekEarth.tilt_matrix. cbv zeta. destruct (ToEarth.hh h) as [-> ->]. rewrite !ToEarth.degrees.
  unfold Euler.nortek_euler2orient, Linalg.tr. cbn [map seq nth fold_right combine fst snd]. rewrite cos_shift, sin_shift.
  repeat (apply f_equal2; [apply Linalg.vec3_ext; ring|]). reflexivity.
Qed.
(** ** the dataset *)
Lemma heading_sensor : In "heading"%string sensors. Proof. cbn. tauto. Qed.
Lemma pitch_sensor : In "pitch"%string sensors. Proof. cbn. tauto. Qed.
Lemma roll_sensor : In "roll"%string sensors. Proof. cbn. tauto. Qed.
Lemma length1 {A} (v : list A) k x : nth_error v k = Some x -> (k < length v)%nat.
Proof. intros H. apply nth_error_Some. congruence. Qed.
Section Dataset.
  Variables (fh : filehead) (strings : bool) (config : Z) (nc : nat) (code : Z) (frame : string) (l : layout) (pings : list (option (list (list Z)))) (low a o w : Z) (an on wn : string).
  Let word := Z.of_nat nc + 1024 * (code + 4 * Z.of_nat 4).
  Hypothesis Hnc : Z.of_nat nc < 1024.
  Hypothesis Hcode : In (code, frame) frame_codes.
  Hypothesis Hvel : Z.testbit config 5 = true.
  Hypothesis HR : reader_for 21 config word = Some l.
  Hypothesis HP : pings <> [].
  Hypothesis HS : same_status l pings (status_codes low a o w).
  Hypothesis HL : 0 <= low < 2 ^ 22.
  Hypothesis HA : In (a, an) orient_status.
  Hypothesis HO : In (o, on) nortek_orient.
  Hypothesis HW : In (w, wn) wake.
  Hypothesis HB : forall k, (k < length pings)%nat -> exists vals body, nth_error pings k = Some (Some vals) /\ holds l vals body /\ nth_error vals 17 = Some [word].
  Variables (nan : R) (model : string) (start : nat).
  Hypothesis HM : Rotate.standard_make Rotate.Signature (Rotate.lower ("Nortek " ++ model)).
  Let d := snd (record_of (21, l, pings)).
  Let recs := [(21, l, pings)].
  Lemma sig_there : exists r0, signature fh false strings recs = Some r0.
  Proof.
    destruct (layout_is config 4 nc code frame l pings Hnc Hcode Hvel HR HB) as (rest & E).
    refine (burst_readable fh strings config word l pings low a o w an on wn HR _ HP HS HL HA HO HW). rewrite E, map_app. apply in_or_app. right. left. reflexivity.
  Qed.
  Variable r0 : reduced.
  Hypothesis SR : signature fh false strings recs = Some r0.
  Lemma recs_nodup : NoDup (SigData.ids recs). Proof. repeat constructor. intros []. Qed.
  Lemma keeps nm v : In nm carried \/ In nm sensors -> get d nm = Some v -> get (data_vars r0) nm = Some v.
  Proof.
    intros C G. pose proof (single_keeps fh strings recs r0 21 "" l pings nm v SR recs_nodup (or_introl eq_refl) (or_introl eq_refl)) as H. rewrite append_nil in H.
    apply H; [|exact G]. destruct C as [C|C]; [left; exact C|right; split; [exact C|]]. cbn. intros [X|[]]. discriminate X.
  Qed.
  Lemma orient_get : get (data_vars r0) "orientmat" = option_map (map swap_axes) (get d "orientmat").
  Proof.
    destruct (get d "orientmat") as [v|] eqn:G.
    - exact (proj1 (single_orient fh strings recs r0 21 l pings v SR recs_nodup (or_introl eq_refl) (or_introl eq_refl) G)).
    - destruct (signature_main _ _ _ _ _ SR) as (dat' & d2 & d3 & P' & M & D & O & OA & V & VA & _). assert (P : dat' = [(21, d)]) by (injection P' as <-; reflexivity). subst dat'.
      change (var_of [(21, d)] 21 "orientmat") with (get d "orientmat") in O. rewrite G in O. change (var_of [(21, d)] 22 "vel") with (@None SigData.var) in VA.
      unfold moved_avg in M. rewrite VA in M. injection M as <-. rewrite D. unfold turned. rewrite moved_echo_keeps by discriminate. rewrite O.
      cbn [option_map]. rewrite moved_echo_keeps by discriminate. exact O.
  Qed.
  Lemma tmat_is : tmat r0 = XFBURST fh.
  Proof. exact (proj2 (rate_burst fh false strings recs r0 [(21, d)] SR eq_refl eq_refl)). Qed.
  Let dv := data_vars (shifted start r0).
  Lemma kept_var nm v : In nm carried \/ In nm sensors -> get d nm = Some v -> variable dv nm = v.
  Proof.
    intros C G. unfold variable, dv. cbn [shifted data_vars].
    assert (N : prefix "ensemble" nm = false) by (pose proof (no_ensemble nm 21 "" C (or_introl eq_refl)) as X; rewrite append_nil in X; exact X).
    rewrite shift_get by exact N. rewrite (keeps nm v C G). reflexivity.
  Qed.
  Lemma dataset_is : exists D1 at_, reorg_attrs [(21, d)] = Some at_ /\
    (forall u, sig_ready nan model u at_ (shifted start r0) = match u with Some x => Rotate.set_declination D1 x | None => Rotate.Ok D1 end) /\
    SigRotate.ready D1 /\ Rotate.coord_sys D1 = frame /\ Rotate.orientation D1 = on /\ Rotate.declination D1 = None /\ Rotate.beam2inst D1 = XFBURST fh /\
    Rotate.dirIMU D1 = Some (Rotate.imu_labels frame) /\ Rotate.orientmat D1 = orientmats nan dv /\
    (forall nm n v, In (nm, n) [("vel", 4%nat); ("accel", 3%nat); ("mag", 3%nat)]%string -> get d nm = Some v ->
       In nm (Rotate.rotate_vars D1) /\ Rotate.lookup nm (Rotate.data D1) = Some (Rotate.Var n (map (cells_of nan n) v))) /\
    Rotate.dir D1 = Rotate.axis_labels Rotate.Signature (Rotate.coord_sys D1) (Rotate.beam_labels D1) /\
    (forall nm, In nm (Rotate.rotate_vars D1) -> exists n v, Rotate.lookup nm (Rotate.data D1) = Some (Rotate.Var n (map (cells_of nan n) v))).
  Proof.
    destruct (attrs_are config 4 nc code frame l pings low a o w an on wn Hnc Hcode Hvel HR HP HS HL HA HO HW HB) as (ha & AT & AN). fold d in AT, AN.
    change (Nat.max (Nat.min 4 4) 3) with 4%nat in AT. change (Nat.eqb 4 4) with true in AT.
    set (rot := ([("vel"%string, 4%nat); ("accel"%string, 3%nat)] ++ (if ha : bool then [("angrt"%string, 3%nat)] else []) ++ [("mag"%string, 3%nat)])) in AT.
    set (D0 := Rotate.Ds (Rotate.lower ("Nortek " ++ model)) (Rotate.lower model) frame ["1"; "2"; "3"; "4"]%string (Some ["1"; "2"; "3"]%string) ["1"; "2"; "3"; "4"]%string
       on (tmat r0) (orientmats nan dv) (Some (map (fun k => angle nan dv "heading" k) (seq 0 (length (variable dv "heading"))))) None false None None (map fst rot)
       (map (fun p => (fst p, Rotate.Var (snd p) (map (cells_of nan (snd p)) (variable dv (fst p))))) rot)).
    assert (IF : In frame Rotate.frames).
    { cbn in Hcode. repeat (destruct Hcode as [X|Hcode']; [injection X as _ <-; cbn; tauto|]; clear Hcode; rename Hcode' into Hcode). destruct Hcode. }
    assert (SC : Rotate.set_coords D0 frame = Rotate.Ok (Proofs.Rotate.relabel Rotate.Signature frame D0)).
    { apply Proofs.Rotate.set_coords_ok; [exact HM|exact IF|reflexivity|reflexivity|right; eexists; split; reflexivity]. }
    set (D1 := Proofs.Rotate.relabel Rotate.Signature frame D0) in *.
    assert (RN : NoDup (map fst rot)) by (destruct ha; repeat constructor; cbn; intuition discriminate).
    assert (DK : map fst (Rotate.data D1) = map fst rot) by (cbn [D1 Proofs.Rotate.relabel Rotate.set_cs Rotate.data D0]; rewrite map_map; reflexivity).
    assert (LO : forall nm n, In (nm, n) rot -> Rotate.lookup nm (Rotate.data D1) = Some (Rotate.Var n (map (cells_of nan n) (variable dv nm)))).
    { intros nm n I. apply Proofs.Rotate.in_lookup; [rewrite DK; exact RN|]. cbn [D1 Proofs.Rotate.relabel Rotate.set_cs Rotate.data D0]. apply in_map_iff. exists (nm, n). split; [reflexivity|exact I]. }
    assert (GH : forall nm, In nm (map fname burst_hdr) -> exists v, get d nm = Some v) by (intros nm; apply (hdr_there config 4 nc code frame l pings low a o w Hnc Hcode Hvel HR HS HB)).
    assert (VL : forall nm v, nm <> "ensemble"%string -> get d nm = Some v -> length v = length pings) by (intros nm v; apply (var_length config 4 nc code l pings HR)).
    assert (LOM : length (orientmats nan dv) = length pings).
    { unfold orientmats. unfold dv at 1. cbn [shifted data_vars]. rewrite shift_get by reflexivity. rewrite orient_get. destruct (get d "orientmat") as [m|] eqn:Gm.
      - cbn [option_map]. rewrite !map_length. exact (VL "orientmat"%string m ltac:(discriminate) Gm).
      - cbn [option_map]. rewrite map_length, seq_length. destruct (GH "heading"%string ltac:(cbn; tauto)) as (h & Gh).
        rewrite (kept_var "heading" h (or_intror heading_sensor) Gh). exact (VL "heading"%string h ltac:(discriminate) Gh). }
    exists D1. eexists. split; [exact AT|]. split; [|split; [|split; [reflexivity|split; [reflexivity|split; [reflexivity|split; [exact tmat_is|split; [reflexivity|split; [reflexivity|split; [|split; [reflexivity|]]]]]]]]]].
    - intros u. unfold sig_ready. cbn [a_frame a_orientation a_rotated a_labels a_imu firstn]. change (tmat (shifted start r0)) with (tmat r0). fold dv.
      change (Rotate.bind (Rotate.set_coords D0 frame) (fun D => match u with Some u => Rotate.set_declination D u | None => Rotate.Ok D end) = match u with Some x => Rotate.set_declination D1 x | None => Rotate.Ok D1 end).
      rewrite SC. reflexivity.
    - constructor.
      + exact HM.
      + reflexivity.
      + reflexivity.
      + apply (Proofs.Rotate.axis_labels_length Rotate.Signature). reflexivity.
      + right. eexists. split; [reflexivity|]. unfold Rotate.imu_labels. repeat match goal with |- context [if ?b then _ else _] => destruct b end; reflexivity.
      + exact RN.
      + rewrite DK. exact RN.
      + intros nm I. change (Rotate.rotate_vars D1) with (map fst rot) in I. apply in_map_iff in I. destruct I as ([nm' n] & E & I). cbn [fst] in E. subst nm'. exists (Rotate.Var n (map (cells_of nan n) (variable dv nm))).
        split; [apply LO, I|]. cbn [Rotate.ncomp Rotate.cells]. change (Rotate.orientmat D1) with (orientmats nan dv). rewrite LOM, map_length.
        assert (X : (n = 3%nat \/ n = 4%nat) /\ exists v, get d nm = Some v /\ In nm carried /\ nm <> "ensemble"%string).
        { unfold rot in I. rewrite !in_app_iff in I. destruct I as [I|[I|I]].
          - destruct I as [I|[I|[]]]; injection I as <- <-.
            + split; [tauto|]. destruct (vel_there config 4 nc code frame l pings low a o w Hnc Hcode Hvel HR HS HB) as (v & G). exists v. split; [exact G|]. split; [cbn; tauto|discriminate].
            + split; [tauto|]. destruct (GH "accel"%string ltac:(cbn; tauto)) as (v & G). exists v. split; [exact G|]. split; [cbn; tauto|discriminate].
          - destruct ha; [|destruct I]. destruct I as [I|[]]. injection I as <- <-. split; [tauto|]. destruct (AN eq_refl) as (v & G). exists v. split; [exact G|]. split; [cbn; tauto|discriminate].
          - destruct I as [I|[]]. injection I as <- <-. split; [tauto|]. destruct (GH "mag"%string ltac:(cbn; tauto)) as (v & G). exists v. split; [exact G|]. split; [cbn; tauto|discriminate]. }
        destruct X as (X1 & v & G & C & N). split; [exact X1|]. rewrite (kept_var nm v (or_introl C) G). exact (VL nm v N G).
    - intros nm n v I G. assert (I' : In (nm, n) rot) by (unfold rot; rewrite !in_app_iff; cbn [In] in *; tauto).
      split; [change (Rotate.rotate_vars D1) with (map fst rot); apply in_map_iff; exists (nm, n); split; [reflexivity|exact I']|].
      rewrite (LO nm n I'). rewrite (kept_var nm v); [reflexivity| |exact G]. left. cbn [In] in I. repeat (destruct I as [I|I]; [injection I as <- _; cbn; tauto|]). destruct I.
    - intros nm I. change (Rotate.rotate_vars D1) with (map fst rot) in I. apply in_map_iff in I. destruct I as ([nm' n] & E & I). cbn [fst] in E. subst nm'. exists n, (variable dv nm). exact (LO nm n I).
  Qed.
  (** matrices *)
  Lemma recorded_matrix k raws xs : recorded l pings k "orientmat" raws -> map f32 raws = map Some xs -> length raws = 9%nat ->
    exists O, nth_error (orientmats nan dv) k = Some O /\ Linalg.is_mat 3 O /\ Linalg.tr 3 O = rows_of_three xs.
  Proof.
    intros H E L. destruct (orient_column config word l pings k HR raws xs H E) as (v & G & Nv). fold d in G.
    assert (L9 : length xs = 9%nat) by (rewrite <- L, <- (map_length f32 raws), E, map_length; reflexivity).
    exists (matrix3 nan (swap_axes (map (fun x => Flt (Some x)) xs))). split; [|exact (matrix_of_column nan xs L9)].
    unfold orientmats. unfold dv at 1. cbn [shifted data_vars]. rewrite shift_get by reflexivity. rewrite orient_get, G. cbn [option_map]. rewrite !nth_error_map.
    match goal with |- option_map _ (option_map _ ?y) = _ => replace y with (Some (map (fun x => Flt (Some x)) xs)) by (symmetry; exact Nv) end. reflexivity.
  Qed.
  Lemma angle_matrix k h p r : get d "orientmat" = None -> recorded l pings k "heading" [h] -> recorded l pings k "pitch" [p] -> recorded l pings k "roll" [r] ->
    nth_error (orientmats nan dv) k = Some (Euler.nortek_euler2orient (hundredths h) (hundredths p) (hundredths r)).
  Proof.
    intros G Hh Hp Hr.
    destruct (count_column config word l pings k HR "heading" [h] (1 / 100) Hh eq_refl eq_refl) as (vh & Gh & Nh).
    destruct (count_column config word l pings k HR "pitch" [p] (1 / 100) Hp eq_refl eq_refl) as (vp & Gp & Np).
    destruct (count_column config word l pings k HR "roll" [r] (1 / 100) Hr eq_refl eq_refl) as (vr & Gr & Nr). fold d in Gh, Gp, Gr.
    unfold orientmats. unfold dv at 1. cbn [shifted data_vars]. rewrite shift_get by reflexivity. rewrite orient_get, G. cbn [option_map]. rewrite nth_error_map.
    rewrite (kept_var "heading" vh (or_intror heading_sensor) Gh). pose proof (length1 _ _ _ Nh) as LK. rewrite (nth_error_nth' _ 0%nat) by (rewrite seq_length; exact LK).
    rewrite seq_nth by exact LK. cbn [option_map Nat.add]. f_equal. unfold angle.
    rewrite (kept_var "heading" vh (or_intror heading_sensor) Gh), (kept_var "pitch" vp (or_intror pitch_sensor) Gp), (kept_var "roll" vr (or_intror roll_sensor) Gr).
    pose proof (nth_error_nth _ _ [] Nh) as X1. pose proof (nth_error_nth _ _ [] Np) as X2. pose proof (nth_error_nth _ _ [] Nr) as X3.
    assert (Y : forall (v : SigData.var) n, nth k v [] = map (fun n => Flt (Some (IZR n * (1 / 100))%R)) [n] -> number_or nan (nth 0 (nth k v []) (Flt None)) = hundredths n).
    { intros v n E. etransitivity; [exact (f_equal (fun z => number_or nan (nth 0 z (Flt None))) E)|]. cbn [map nth number_or]. unfold hundredths. cbn. field. }
    f_equal; apply Y; assumption.
  Qed.
End Dataset.
(** ** files *)
Section File.
  Variables (conf : Z -> Z * Z) (ids : list Z) (enss : list (list piece)) (file : Nortek.bytes) (rebuild : bool) (existing : option (list entry))
    (start : nat) (stop : option nat) (fuel : nat) (nb nc : nat) (frame on : string).
  Hypothesis BF : bursts conf ids enss file start stop nb nc frame on.
  Hypothesis RB : rebuild = true \/ existing = None.
  Hypothesis FU : (length file < fuel)%nat.
  Lemma pings_are : exists low a o w an wn code l pings,
    snd (conf 21) = Z.of_nat nc + 1024 * (code + 4 * Z.of_nat nb) /\ Z.of_nat nc < 1024 /\ In (code, frame) frame_codes /\
    reader_for 21 (fst (conf 21)) (snd (conf 21)) = Some l /\ pings <> [] /\ same_status l pings (status_codes low a o w) /\
    0 <= low < 2 ^ 22 /\ In (a, an) orient_status /\ In (o, on) nortek_orient /\ In (w, wn) wake /\
    (forall k, (k < length pings)%nat -> exists vals body, nth_error pings k = Some (Some vals) /\ holds l vals body /\ nth_error vals 17 = Some [snd (conf 21)]) /\
    (forall k p, in_ping enss start stop k p -> p_id p = 21 -> nth_error pings k = Some (Some (p_vals p))) /\
    (forall k, (k < length pings)%nat -> exists p, in_ping enss start stop k p /\ p_id p = 21) /\
    read_pings fuel false rebuild existing file start stop = Pings false [(21, l, pings)].
  Proof.
    destruct BF as [SF SU [I21 ONLY] HV (code & EW & Hnc & Hcode) (low & a & o & w & an & wn & HL & HA & HO & HW & ST)].
    destruct SF as (m & hd & L & R & N2 & HLen & OP).
    destruct (read_pings_whole conf ids m hd enss file L rebuild existing start stop fuel R N2 HLen RB FU OP SU) as (ids' & f & ND & IN & RD & E).
    assert (E1 : ids' = [21]).
    { assert (X : In 21 ids') by (apply IN; split; [exact I21|left; reflexivity]).
      assert (Y : forall x, In x ids' -> x = 21) by (intros x Hx; apply IN in Hx; destruct Hx; apply ONLY; assumption).
      destruct ids' as [|b t]; [destruct X|]. rewrite (Y b (or_introl eq_refl)) in *. destruct t as [|c t]; [reflexivity|].
      rewrite (Y c (or_intror (or_introl eq_refl))) in ND. inversion ND as [|? ? NI _]. exfalso. apply NI. left. reflexivity. }
    subst ids'. cbn [map] in E. set (l := f 21) in *. set (pings := pings_of _ _ 21) in E. pose proof (RD 21 (or_introl eq_refl)) as HR. fold l in HR.
    assert (PA : forall k p, in_ping enss start stop k p -> p_id p = 21 -> nth_error pings k = Some (Some (p_vals p))).
    { intros k p IPp Eid. unfold pings. rewrite <- Eid. apply (pings_at conf ids m hd enss file start stop k p R IPp). rewrite Eid. left. reflexivity. }
    assert (EACH : forall k, (k < length pings)%nat -> exists p, in_ping enss start stop k p /\ p_id p = 21 /\ good_piece conf p).
    { intros k K. unfold pings in K. rewrite pings_length in K.
      assert (UL : (upto enss stop <= length enss)%nat) by (unfold upto; destruct stop; lia).
      destruct (nth_error enss (start + k)) as [ps|] eqn:Ep; [|apply nth_error_None in Ep; lia].
      pose proof R as [_ _ _ RE _ _ _]. destruct (good_ens_piece conf ids m (Z.of_nat (start + k)) ps 21 (RE _ _ Ep) I21) as (p & Ip & Eid & _ & GP).
      exists p. split; [split; [lia|exists ps; split; assumption]|]. split; assumption. }
    exists low, a, o, w, an, wn, code, l, pings. split; [exact EW|]. split; [exact Hnc|]. split; [exact Hcode|]. split; [exact HR|]. split; [|split; [|split; [exact HL|split; [exact HA|split; [exact HO|split; [exact HW|split; [|split; [exact PA|split; [|exact E]]]]]]]]].
    - intros Z0; assert (LZ : length pings = 0%nat) by (rewrite Z0; reflexivity); unfold pings in LZ; rewrite pings_length in LZ; lia.
    - intros k K. destruct (EACH k K) as (p & IPp & Eid & _). apply (has_recorded conf p _ _ l pings k); [exact (ST k p IPp Eid)|rewrite Eid; exact HR|exact (PA k p IPp Eid)].
    - intros k K. destruct (EACH k K) as (p & IPp & Eid & GP). exists (p_vals p). destruct GP as (_ & body & FR & _ & _ & NU & DA). exists body. split; [exact (PA k p IPp Eid)|].
      rewrite Eid in *. destruct (DA (or_introl eq_refl)) as (l' & HR' & Ho). assert (l' = l) by congruence. subst l'. split; [exact Ho|].
      destruct (NU eq_refl) as (_ & _ & _ & U & _). destruct FR as (h & g & s0 & s1 & c0 & c1 & d0 & d1 & EB & _).
      pose proof HR as HR2. rewrite EW in HR2. destruct (burst_layout (fst (conf 21)) (Z.of_nat nc) code (Z.of_nat nb) frame l Hnc ltac:(lia) ltac:(lia) Hcode HV HR2) as (rest & EL).
      rewrite EL in Ho. rewrite (beam_config_value _ _ _ _ Ho (eq_refl : length [165; h; 21; g; s0; s1; c0; c1; d0; d1] = 10%nat)). rewrite <- EB, U. reflexivity.
    - intros k K. destruct (EACH k K) as (p & IPp & Eid & _). exists p. split; assumption.
  Qed.
End File.
(** lengths *)
Lemma field_shape config beams l f n : reader_for 21 config beams = Some l -> In f l -> In (fname f, n) [("orientmat", 9%nat); ("accel", 3%nat); ("mag", 3%nat)]%string -> prod (fshape f) = n.
Proof.
  intros HR If E. destruct (fields_known _ _ _ _ _ HR If) as (nb & nc & If'). cbn [In] in E.
  destruct E as [E|[E|[E|[]]]]; injection E as E <-; each_field If'; try contradiction; subst f; try discriminate E; reflexivity.
Qed.
Lemma recorded_length l pings k nm raws : recorded l pings k nm raws ->
  (forall k, (k < length pings)%nat -> exists vals body, nth_error pings k = Some (Some vals) /\ holds l vals body) -> exists f, In f l /\ fname f = nm /\ length raws = prod (fshape f).
Proof.
  intros (vals & i & f & Hp & Hf & Hn & Hv) HB. destruct (HB k) as (vals' & body & Hp' & Ho); [apply nth_error_Some; rewrite Hp; discriminate|].
  rewrite Hp in Hp'. injection Hp' as <-. exists f. split; [exact (nth_error_In _ _ Hf)|]. split; [exact Hn|]. exact (holds_lengths _ _ _ Ho i f raws Hf Hv).
Qed.
Lemma get_none {A} (d : dict A) k : ~ In k (map fst d) -> get d k = None.
Proof.
  induction d as [|[a b] d IH]; [reflexivity|]. cbn [map fst In get]. intros N. destruct (String.eqb a k) eqn:E; [apply String.eqb_eq in E; exfalso; apply N; left; exact E|]. apply IH. tauto.
Qed.
Lemma not_there id l pings nm : ~ In nm (map fname l) -> nm <> "ensemble"%string -> nm <> "vel"%string -> get (snd (record_of (id, l, pings))) nm = None.
Proof.
  intros N N1 N2. cbn [record_of snd]. set (e := set (table id l pings) "ensemble" _).
  assert (G : get e nm = None).
  { unfold e. rewrite get_set_other by (intros X; apply N1; symmetry; exact X). apply get_none. unfold table. rewrite map_map. cbn [fst]. intros I. apply N. apply in_map_iff in I. destruct I as ([i f] & E & I).
    cbn [snd] in E. subst nm. apply in_map. exact (in_combine_r _ _ _ _ I). }
  assert (M : get (map (sci_one id) e) nm = None).
  { unfold sci_one. rewrite (get_map_snd (fun nm v => match sci_func id nm with Some (sc, off) => map (map (linfunc sc off)) v | None => v end)). etransitivity; [exact (f_equal (option_map _) G)|reflexivity]. }
  unfold sci_data, vel_scaled. destruct (get _ "vel"); [|exact M]. destruct (get _ "vel_scale"); [|exact M].
  rewrite get_set_other by (intros X; apply N2; symmetry; exact X). exact M.
Qed.
(** ** the manufacturer's formulas *)
Open Scope R_scope.
Lemma signs_mul down x : signs down x = (if down then match x with a :: r => a :: map (Rmult (-1)) r | [] => [] end else x).
Proof. destruct down; [|reflexivity]. destruct x as [|a r]; [reflexivity|]. cbn [signs]. f_equal. apply map_ext. intros y. ring. Qed.
Lemma sgn4_signs down x : Linalg.is_vec 4 x -> Rotate.sgn4 down x = signs down x.
Proof.
  intros V. destruct (Linalg.is_vec4 x V) as (a & b & c & d & ->). unfold Rotate.sgn4. destruct down; [|reflexivity]. cbn [signs map]. unfold Rotate.sign4. cbn [Linalg.vmul]. apply Linalg.vec4_ext; ring.
Qed.
Lemma sgn3_signs down x : Linalg.is_vec 3 x -> Rotate.sgn3 down x = signs down x.
Proof.
  intros V. destruct (Linalg.is_vec3 x V) as (a & b & c & ->). unfold Rotate.sgn3. destruct down; [|reflexivity]. cbn [signs map]. unfold Rotate.sign3. cbn [Linalg.vmul]. apply Linalg.vec3_ext; ring.
Qed.
Lemma turn4 D O A x : Linalg.tr 3 O = A -> Linalg.is_vec 4 x -> SigRotate.turn D 4 O x = enu4 A (Rotate.isdown D) x.
Proof. intros E V. unfold SigRotate.turn. cbn [Nat.eqb]. rewrite E, (sgn4_signs _ _ V). unfold enu4, product. rewrite ToEarth.product_mv. reflexivity. Qed.
Lemma turn3 D O A x : Linalg.tr 3 O = A -> Linalg.is_vec 3 x -> SigRotate.turn D 3 O x = enu3 A (Rotate.isdown D) x.
Proof. intros E V. unfold SigRotate.turn. cbn [Nat.eqb]. rewrite E, (sgn3_signs _ _ V). unfold enu3, product. rewrite ToEarth.product_mv. reflexivity. Qed.
Lemma signs_vec n down x : Linalg.is_vec n x -> Linalg.is_vec n (signs down x).
Proof. unfold Linalg.is_vec. destruct down; [|easy]. destruct x as [|a r]; [easy|]. cbn [signs length]. rewrite map_length. easy. Qed.
Lemma turned4 D frame T O A x : Rotate.coord_sys D = frame -> Rotate.beam2inst D = T -> Linalg.tr 3 O = A -> (frame = "beam"%string -> length T = 4%nat) -> Linalg.is_vec 4 x ->
  SigRotate.turned_from D 4 O x = to_earth4 frame T A (Rotate.isdown D) x.
Proof.
  intros E1 E2 E3 LT V. unfold SigRotate.turned_from, to_earth4. rewrite E1, E2. destruct (String.eqb frame "beam") eqn:Eb.
  - apply String.eqb_eq in Eb. rewrite (LT Eb). cbn [Nat.eqb]. unfold product. rewrite ToEarth.product_mv. apply turn4; [exact E3|]. unfold Linalg.is_vec, Linalg.mv. rewrite map_length. exact (LT Eb).
  - destruct (String.eqb frame "inst"); [|reflexivity]. apply turn4; assumption.
Qed.
Lemma turned3 D frame T O A x : Rotate.coord_sys D = frame -> Rotate.beam2inst D = T -> Linalg.tr 3 O = A -> (frame = "beam"%string -> length T = 4%nat) -> In frame ["beam"; "inst"]%string -> Linalg.is_vec 3 x ->
  SigRotate.turned_from D 3 O x = enu3 A (Rotate.isdown D) x.
Proof.
  intros E1 E2 E3 LT IF V. unfold SigRotate.turned_from. rewrite E1, E2. destruct IF as [<-|[<-|[]]].
  - change (String.eqb "beam" "beam") with true. cbv iota. rewrite (LT eq_refl). cbn [Nat.eqb]. apply turn3; assumption.
  - change (String.eqb "inst" "beam") with false. change (String.eqb "inst" "inst") with true. cbv iota. apply turn3; assumption.
Qed.
Lemma turned_decl D D2 n a O x : Rotate.coord_sys D2 = Rotate.coord_sys D -> Rotate.beam2inst D2 = Rotate.beam2inst D -> Rotate.orientation D2 = Rotate.orientation D -> In (Rotate.coord_sys D) ["beam"; "inst"]%string ->
  Linalg.is_mat 3 O -> Linalg.is_vec n x -> n = 3%nat \/ n = 4%nat -> SigRotate.turned_from D2 n (Rotate.decl_mat a O) x = Rotate.clockwise a (SigRotate.turned_from D n O x).
Proof.
  intros E1 E2 E3 IF MO V N. assert (T : forall y, SigRotate.turn D2 n (Rotate.decl_mat a O) y = SigRotate.turn D n (Rotate.decl_mat a O) y).
  { intros y. unfold SigRotate.turn, Rotate.isdown. rewrite E3. reflexivity. }
  unfold SigRotate.turned_from. rewrite E1, E2. destruct IF as [<-|[<-|[]]].
  - change (String.eqb "beam" "beam") with true. cbv iota. rewrite T. apply SigRotate.decl_turn; [exact MO| |exact N].
    destruct (Nat.eqb n (length (Rotate.beam2inst D))) eqn:El; [|exact V]. apply Nat.eqb_eq in El. unfold Linalg.is_vec, Linalg.mv. rewrite map_length. symmetry. exact El.
  - change (String.eqb "inst" "beam") with false. change (String.eqb "inst" "inst") with true. cbv iota. rewrite T. apply SigRotate.decl_turn; assumption.
Qed.
Definition decl (u : option R) (v : list R) : list R := match u with Some x => Rotate.clockwise x v | None => v end.
Lemma vals_all (x : list R) n : length x = n -> map (fun b => nth (b * 1 + 0) x 0) (seq 0 n) = x.
Proof.
  revert x. induction n as [|n IH]; intros [|a x] L; try discriminate L; [reflexivity|]. cbn [seq map]. rewrite <- seq_shift, map_map. cbn [Nat.mul Nat.add nth]. f_equal.
  injection L as L. etransitivity; [|exact (IH x L)]. apply map_ext. intros b. rewrite !Nat.mul_1_r, !Nat.add_0_r. reflexivity.
Qed.
Section Opened.
  Variables (conf : Z -> Z * Z) (ids : list Z) (enss : list (list piece)) (file : Nortek.bytes) (rebuild : bool) (existing : option (list entry))
    (start : nat) (stop : option nat) (fuel : nat) (nc : nat) (frame on : string) (fh : filehead) (strings : bool) (nan : R) (model : string) (u : option R).
  Hypothesis BF : bursts conf ids enss file start stop 4 nc frame on.
  Hypothesis RB : rebuild = true \/ existing = None.
  Hypothesis FU : (length file < fuel)%nat.
  Hypothesis HM : Rotate.standard_make Rotate.Signature (Rotate.lower ("Nortek " ++ model)).
  Hypothesis HT : frame = "beam"%string -> length (XFBURST fh) = 4%nat.
  Hypothesis HU : u = None \/ frame <> "earth"%string.
  Lemma opened_earth : exists D d', open_signature nan model u fuel fh strings false rebuild existing file start stop = Some (Rotate.Ok D) /\ Rotate.coord_sys D = frame /\
    Rotate.rotate2 D "earth" = Rotate.Ok d' /\
    forall k p A, in_ping enss start stop k p -> p_id p = 21%Z -> ping_matrix conf p A ->
      (forall j v, ping_velocity conf p 4 nc j v -> Rotate.value d' "vel" k j = Some (decl u (to_earth4 frame (XFBURST fh) A (String.eqb on "down") v))) /\
      (forall nm x, (nm = "accel"%string /\ ping_accel conf p x) \/ (nm = "mag"%string /\ ping_mag conf p x) ->
         Rotate.value d' nm k 0 = Some (decl u (if String.eqb frame "earth" then x else enu3 A (String.eqb on "down") x))).
  Proof.
    destruct (pings_are conf ids enss file rebuild existing start stop fuel 4 nc frame on BF RB FU) as (low & a & o & w & an & wn & code & l & pings & EW & Hnc & Hcode & HR & HP & HS & HL & HA & HO & HW & HB & PA & EA & RP).
    pose proof (b_velocity _ _ _ _ _ _ _ _ _ _ BF) as HV. rewrite EW in HR, HB.
    destruct (sig_there fh strings (fst (conf 21%Z)) nc code frame l pings low a o w an on wn Hnc Hcode HV HR HP HS HL HA HO HW HB) as (r0 & SR).
    destruct (dataset_is fh strings (fst (conf 21%Z)) nc code frame l pings low a o w an on wn Hnc Hcode HV HR HP HS HL HA HO HW HB nan model start HM r0 SR) as (D1 & at_ & AT & RDY & R1 & C1 & O1 & U1 & B1 & IMU1 & OM1 & V1 & DIR1 & SH1).
    set (d := snd (record_of (21%Z, l, pings))) in *.
    assert (IF : In frame ["beam"; "inst"; "earth"]%string).
    { clear -Hcode. cbn in Hcode. destruct Hcode as [X|[X|[X|[]]]]; injection X as _ <-; cbn; tauto. }
    assert (X : exists D, Rotate.Ok D = match u with Some x => Rotate.set_declination D1 x | None => Rotate.Ok D1 end /\ SigRotate.ready D /\ Rotate.coord_sys D = frame /\
      Rotate.rotate_vars D = Rotate.rotate_vars D1 /\ Rotate.data D = Rotate.data D1 /\
      (forall k O, nth_error (Rotate.orientmat D1) k = Some O -> Linalg.is_mat 3 O -> exists O', nth_error (Rotate.orientmat D) k = Some O' /\
         forall n x, Linalg.is_vec n x -> n = 3%nat \/ n = 4%nat -> SigRotate.turned_from D n O' x = decl u (SigRotate.turned_from D1 n O x))).
    { destruct u as [x|].
      - assert (NE : frame <> "earth"%string) by (destruct HU as [X|X]; [discriminate X|exact X]).
        destruct (SigRotate.declined D1 x U1) as (D2 & S2 & U2 & C2 & R2 & RV2 & DA2 & OM2 & OR2 & BI2 & _); [rewrite C1; exact NE|]. exists D2.
        split; [symmetry; exact S2|]. split; [exact (R2 R1)|]. split; [rewrite C2; exact C1|]. split; [exact RV2|]. split; [exact DA2|].
        intros k O EO MO. exists (Rotate.decl_mat x O). split; [rewrite OM2, nth_error_map, EO; reflexivity|]. intros n y Vy Hn. cbn [decl].
        apply (turned_decl D1 D2 n x O y C2 BI2 OR2); [|exact MO|exact Vy|exact Hn]. rewrite C1. cbn [In] in *. intuition.
      - exists D1. split; [reflexivity|]. split; [exact R1|]. split; [exact C1|]. split; [reflexivity|]. split; [reflexivity|]. intros k O EO MO. exists O. split; [exact EO|]. intros; reflexivity. }
    destruct X as (D & ED & RD & CD & RVD & DD & OD).
    destruct (SigRotate.to_earth D RD) as (d' & E' & VAL); [rewrite CD; exact IF|].
    exists D, d'. split; [|split; [exact CD|split; [exact E'|]]].
    { unfold open_signature, read_signature. rewrite RP, SR. cbn [prepared map]. change [record_of (21%Z, l, pings)] with [(21%Z, d)]. rewrite AT. f_equal. etransitivity; [exact (RDY u)|]. symmetry. exact ED. }
    intros k p A IP Eid PM.
    assert (REC : forall nm raws, has conf p nm raws -> recorded l pings k nm raws).
    { intros nm raws H. apply (has_recorded conf p nm raws l pings k H); [rewrite Eid, EW; exact HR|exact (PA k p IP Eid)]. }
    assert (HB' : forall k, (k < length pings)%nat -> exists vals body, nth_error pings k = Some (Some vals) /\ holds l vals body).
    { intros k' K'. destruct (HB k' K') as (vals & body & X1 & X2 & _). exists vals, body. split; assumption. }
    assert (LEN : forall nm raws n, has conf p nm raws -> In (nm, n) [("orientmat", 9%nat); ("accel", 3%nat); ("mag", 3%nat)]%string -> length raws = n).
    { intros nm raws n H I. destruct (recorded_length _ _ _ _ _ (REC nm raws H) HB') as (f & If & Ef & ->). apply (field_shape _ _ _ _ _ HR If). rewrite Ef. exact I. }
    assert (OK : exists O, nth_error (Rotate.orientmat D1) k = Some O /\ Linalg.is_mat 3 O /\ Linalg.tr 3 O = A).
    { rewrite OM1. destruct PM as [(raws & xs & Hh & Ef & ->)|(NO & h & pt & rl & Hh & Hp & Hr & ->)].
      - exact (recorded_matrix fh strings (fst (conf 21%Z)) nc code l pings HR nan start r0 SR k raws xs (REC _ _ Hh) Ef (LEN _ _ _ Hh ltac:(cbn; tauto))).
      - eexists. split; [|apply matrix_of_angles]. apply (angle_matrix fh strings (fst (conf 21%Z)) nc code l pings HR nan start r0 SR k h pt rl); [|exact (REC _ _ Hh)|exact (REC _ _ Hp)|exact (REC _ _ Hr)].
        apply not_there; [|discriminate|discriminate]. intros I. apply in_map_iff in I. destruct I as (f & Ef & If). apply In_nth_error in If. destruct If as (i & If).
        assert (KL : (k < length pings)%nat) by (apply nth_error_Some; rewrite (PA k p IP Eid); discriminate).
        destruct (HB k KL) as (vals & body & X1 & X2 & _). assert (vals = p_vals p) by (rewrite (PA k p IP Eid) in X1; congruence). subst vals.
        destruct (holds_present _ _ _ X2 i f If) as (raws & Er). apply (NO raws). exists l, i, f. rewrite Eid, EW. repeat split; assumption. }
    destruct OK as (O & EO & MO & TO). destruct (OD k O EO MO) as (O' & EO' & TD).
    assert (DOWN : Rotate.isdown D1 = String.eqb on "down") by (unfold Rotate.isdown; rewrite O1; reflexivity).
    assert (GOT : forall nm n m v col j x, In (nm, n) [("vel", 4%nat); ("accel", 3%nat); ("mag", 3%nat)]%string -> get d nm = Some v -> nth_error v k = Some (map (fun r => Flt (Some r)) col) -> length col = (n * m)%nat -> (j < m)%nat ->
      x = map (fun b => nth (b * m + j) col 0) (seq 0 n) -> Rotate.value d' nm k j = Some (decl u (SigRotate.turned_from D1 n O x))).
    { intros nm n m v col j x I G Nv LC J ->. assert (N34 : n = 3%nat \/ n = 4%nat) by (cbn [In] in I; destruct I as [I|[I|[I|[]]]]; injection I as _ <-; tauto).
      destruct (V1 nm n v I G) as (IR & LK).
      assert (VV : Rotate.value D nm k j = Some (map (fun b => nth (b * m + j) col 0) (seq 0 n))).
      { unfold Rotate.value. rewrite DD, LK. cbn [Rotate.cells]. erewrite map_nth_error by exact Nv. apply cells_value; [exact LC|lia|exact J]. }
      rewrite (VAL nm _ k j _ O' ltac:(rewrite RVD; exact IR) ltac:(rewrite DD; exact LK) VV EO'). cbn [Rotate.ncomp]. f_equal. apply TD; [|exact N34].
      unfold Linalg.is_vec. rewrite map_length. apply seq_length. }
    split.
    - intros j v (raws & s & H1 & H2 & J & ->).
      destruct (vel_column (fst (conf 21%Z)) _ l pings k HR raws s (REC _ _ H1) (REC _ _ H2)) as (v & G & Nv). fold d in G.
      destruct (layout_is (fst (conf 21%Z)) 4 nc code frame l pings Hnc Hcode HV HR HB) as (rest & EL).
      assert (LV : length raws = (4 * nc)%nat).
      { destruct (REC _ _ H1) as (vals & i & f & Hp & Hf & Hn & Hv). destruct (HB k) as (vals' & body & Hp' & Ho & _); [apply nth_error_Some; rewrite Hp; discriminate|].
        rewrite Hp in Hp'. injection Hp' as <-. rewrite (holds_lengths _ _ _ Ho i f raws Hf Hv).
        assert (ND : NoDup (map fname l)) by exact (reader_names _ _ _ _ HR).
        assert (E1 : nth_error l (length burst_hdr) = Some (Field "vel" S16 0 [4%nat; nc])) by (rewrite EL, nth_error_app2, Nat.sub_diag by lia; reflexivity).
        assert (i = length burst_hdr).
        { rewrite NoDup_nth_error in ND. apply ND; [rewrite map_length; apply nth_error_Some; rewrite Hf; discriminate|]. rewrite !nth_error_map, Hf, E1. cbn [option_map fname]. f_equal. exact Hn. }
        subst i. rewrite E1 in Hf. injection Hf as <-. cbn [fshape prod fold_right]. unfold prod. cbn [fold_right]. lia. }
      etransitivity; [refine (GOT "vel"%string 4%nat nc v (map (fun n => IZR n * powerRZ 10 s) raws) j _ ltac:(cbn; tauto) G _ _ J eq_refl); [rewrite map_map; exact Nv|rewrite map_length; exact LV]|].
      do 2 f_equal. rewrite (turned4 D1 frame (XFBURST fh) O A _ C1 B1 TO HT) by (unfold Linalg.is_vec; rewrite map_length; apply seq_length). rewrite DOWN. f_equal.
      apply map_ext. intros b. etransitivity; [|exact (map_nth (fun n => IZR n * powerRZ 10 s) raws 0%Z (b * nc + j))]. f_equal. cbv beta. symmetry. apply Rmult_0_l.
    - intros nm x C.
      assert (Y : exists raws res v, In (nm, 3%nat) [("vel", 4%nat); ("accel", 3%nat); ("mag", 3%nat)]%string /\ x = map (fun n => IZR n * res) raws /\ length raws = 3%nat /\ get d nm = Some v /\
        nth_error v k = Some (map (fun n => Flt (Some (IZR n * res))) raws)).
      { destruct C as [(-> & raws & H & ->)|(-> & raws & H & ->)].
        - destruct (count_column (fst (conf 21%Z)) _ l pings k HR "accel" raws (981 / 100 / 16384) (REC _ _ H) eq_refl) as (v & G & Nv).
          { assert (E : sci_func 21 "accel" = Some (1 / 16384 * grav, 0)) by reflexivity. rewrite E. do 2 f_equal. unfold grav. field. }
          exists raws, (981 / 100 / 16384), v. split; [cbn; tauto|]. split; [reflexivity|]. split; [exact (LEN _ _ _ H ltac:(cbn; tauto))|]. split; [exact G|exact Nv].
        - destruct (count_column (fst (conf 21%Z)) _ l pings k HR "mag" raws (1 / 10) (REC _ _ H) eq_refl eq_refl) as (v & G & Nv).
          exists raws, (1 / 10), v. split; [cbn; tauto|]. split; [reflexivity|]. split; [exact (LEN _ _ _ H ltac:(cbn; tauto))|]. split; [exact G|exact Nv]. }
      destruct Y as (raws & res & v & I & -> & LR & G & Nv).
      rewrite (GOT nm 3%nat 1%nat v (map (fun n => IZR n * res) raws) 0%nat (map (fun n => IZR n * res) raws) I G); [| |rewrite map_length; exact LR|lia|symmetry; apply vals_all; rewrite map_length; exact LR].
      + do 2 f_equal. assert (V3 : Linalg.is_vec 3 (map (fun n => IZR n * res) raws)) by (unfold Linalg.is_vec; rewrite map_length; exact LR).
        destruct (String.eqb frame "earth") eqn:Ee.
        * apply String.eqb_eq in Ee. unfold SigRotate.turned_from. rewrite C1, Ee. reflexivity.
        * apply String.eqb_neq in Ee. rewrite <- DOWN. apply (turned3 D1 frame (XFBURST fh) O A _ C1 B1 TO HT); [|exact V3]. cbn [In] in *. intuition.
      + rewrite map_map. exact Nv.
  Qed.
End Opened.
(** ** three beams *)
Lemma three_beams conf ids enss file rebuild existing start stop fuel nc frame on fh strings nan model u :
  bursts conf ids enss file start stop 3 nc frame on -> (rebuild = true \/ existing = None) -> (length file < fuel)%nat ->
  Rotate.standard_make Rotate.Signature (Rotate.lower ("Nortek " ++ model)) -> frame <> "beam"%string ->
  exists D, open_signature nan model u fuel fh strings false rebuild existing file start stop = Some (Rotate.Err Rotate.LabelMismatch D).
Proof.
  intros BF RB FU HM NB.
  destruct (pings_are conf ids enss file rebuild existing start stop fuel 3 nc frame on BF RB FU) as (low & a & o & w & an & wn & code & l & pings & EW & Hnc & Hcode & HR & HP & HS & HL & HA & HO & HW & HB & PA & EA & RP).
  pose proof (b_velocity _ _ _ _ _ _ _ _ _ _ BF) as HV. rewrite EW in HR, HB.
  destruct (layout_is (fst (conf 21%Z)) 3 nc code frame l pings Hnc Hcode HV HR HB) as (rest & EL).
  assert (IV : In "vel"%string (map fname l)) by (rewrite EL, map_app; apply in_or_app; right; left; reflexivity).
  destruct (burst_readable fh strings _ _ l pings low a o w an on wn HR IV HP HS HL HA HO HW) as (r0 & SR).
  destruct (attrs_are (fst (conf 21%Z)) 3 nc code frame l pings low a o w an on wn Hnc Hcode HV HR HP HS HL HA HO HW HB) as (ha & AT & _).
  unfold open_signature, read_signature. rewrite RP, SR. cbn [prepared map]. set (d := snd (record_of (21%Z, l, pings))) in *. change [record_of (21%Z, l, pings)] with [(21%Z, d)]. rewrite AT.
  assert (IF : In frame ["inst"; "earth"]%string).
  { clear -Hcode NB. cbn in Hcode. destruct Hcode as [X|[X|[X|[]]]]; injection X as _ <-; cbn; tauto. }
  unfold sig_ready. cbn [a_frame a_orientation a_rotated a_labels a_imu firstn Nat.max Nat.min Nat.eqb].
  assert (SC : forall D, Rotate.make_model D = Rotate.lower ("Nortek " ++ model) -> length (Rotate.dir D) = 3%nat -> Rotate.set_coords D frame = Rotate.Err Rotate.LabelMismatch D).
  { intros D EM ED. unfold Rotate.set_coords, Rotate.labels. rewrite EM, ED. destruct HM as (_ & M1 & M2 & M3).
    assert (ER : Rotate.is_rdi (Rotate.lower ("Nortek " ++ model)) = false) by exact M1.
    assert (E4 : Rotate.four_labels (Rotate.lower ("Nortek " ++ model)) = true) by (unfold Rotate.four_labels; destruct M3 as [M3|M3]; rewrite M3, ?orb_true_r; reflexivity).
    rewrite ER, M2, E4. destruct IF as [<-|[<-|[]]]; reflexivity. }
  eexists. f_equal. rewrite SC by reflexivity. reflexivity.
Qed.
(** ** files in earth coordinates, with a declination *)
Lemma declined_earth conf ids enss file rebuild existing start stop fuel nc on fh strings nan model u :
  bursts conf ids enss file start stop 4 nc "earth" on -> (rebuild = true \/ existing = None) -> (length file < fuel)%nat ->
  Rotate.standard_make Rotate.Signature (Rotate.lower ("Nortek " ++ model)) -> Linalg.is_mat 4 (XFBURST fh) -> Linalg.det 4 (XFBURST fh) <> 0 ->
  (forall k p, in_ping enss start stop k p -> p_id p = 21%Z -> upright conf p) ->
  exists D d', open_signature nan model (Some u) fuel fh strings false rebuild existing file start stop = Some (Rotate.Ok D) /\ Rotate.coord_sys D = "earth"%string /\
    Rotate.rotate2 D "earth" = Rotate.Ok d' /\
    forall k p A j v, in_ping enss start stop k p -> p_id p = 21%Z -> ping_matrix conf p A -> ping_velocity conf p 4 nc j v -> Rotate.value d' "vel" k j = Some (Rotate.clockwise u v).
Proof.
  intros BF RB FU HM MT DT UP.
  destruct (opened_earth conf ids enss file rebuild existing start stop fuel nc "earth" on fh strings nan model None BF RB FU HM ltac:(discriminate) (or_introl eq_refl)) as (D0 & d0 & E0 & C0 & R0 & V0).
  destruct (pings_are conf ids enss file rebuild existing start stop fuel 4 nc "earth" on BF RB FU) as (low & a & o & w & an & wn & code & l & pings & EW & Hnc & Hcode & HR & HP & HS & HL & HA & HO & HW & HB & PA & EA & RP).
  pose proof (b_velocity _ _ _ _ _ _ _ _ _ _ BF) as HV. rewrite EW in HR, HB.
  destruct (sig_there fh strings (fst (conf 21%Z)) nc code "earth" l pings low a o w an on wn Hnc Hcode HV HR HP HS HL HA HO HW HB) as (r0 & SR).
  destruct (dataset_is fh strings (fst (conf 21%Z)) nc code "earth" l pings low a o w an on wn Hnc Hcode HV HR HP HS HL HA HO HW HB nan model start HM r0 SR) as (D1 & at_ & AT & RDY & R1 & C1 & O1 & U1 & B1 & IMU1 & OM1 & V1 & DIR1 & SH1).
  set (d := snd (record_of (21%Z, l, pings))) in *.
  assert (OPEN : forall u, open_signature nan model u fuel fh strings false rebuild existing file start stop = Some (match u with Some x => Rotate.set_declination D1 x | None => Rotate.Ok D1 end)).
  { intros u'. unfold open_signature, read_signature. rewrite RP, SR. cbn [prepared map]. change [record_of (21%Z, l, pings)] with [(21%Z, d)]. rewrite AT. f_equal. exact (RDY u'). }
  assert (D0 = D1) by (pose proof (OPEN None) as X; cbv iota in X; congruence). subst D0. clear E0 C0.
  destruct (vel_there (fst (conf 21%Z)) 4 nc code "earth" l pings low a o w Hnc Hcode HV HR HS HB) as (vv & Gv). fold d in Gv.
  destruct (V1 "vel"%string 4%nat vv ltac:(cbn; tauto) Gv) as (IV & LV).
  assert (LO : length (Rotate.orientmat D1) = length pings).
  { destruct (SigRotate.rd_vars D1 R1 "vel" IV) as (v' & L' & _ & Lc). rewrite LV in L'. injection L' as <-. cbn [Rotate.cells] in Lc. rewrite map_length in Lc. rewrite <- Lc.
    exact (var_length (fst (conf 21%Z)) 4 nc code l pings HR "vel"%string vv ltac:(discriminate) Gv). }
  assert (MAT : forall O, In O (Rotate.orientmat D1) -> Linalg.orthonormal O /\ Linalg.entry O 2 2 <> 0).
  { intros O I. apply In_nth_error in I. destruct I as (k & EO). assert (K : (k < length pings)%nat) by (rewrite <- LO; apply nth_error_Some; rewrite EO; discriminate).
    destruct (EA k K) as (p & IP & Eid). destruct (UP k p IP Eid) as (NO & h & pt & rl & Hh & Hp & Hr & NZ).
    assert (REC : forall nm raws, has conf p nm raws -> recorded l pings k nm raws).
    { intros nm raws H. apply (has_recorded conf p nm raws l pings k H); [rewrite Eid, EW; exact HR|exact (PA k p IP Eid)]. }
    rewrite OM1 in EO. rewrite (angle_matrix fh strings (fst (conf 21%Z)) nc code l pings HR nan start r0 SR k h pt rl) in EO; [|  |exact (REC _ _ Hh)|exact (REC _ _ Hp)|exact (REC _ _ Hr)].
    - injection EO as <-. split; [exact (proj1 (Euler.nortek_proper (hundredths h) (hundredths pt) (hundredths rl) false))|].
      unfold Linalg.entry, Euler.nortek_euler2orient. cbn [nth]. rewrite <- !ToEarth.degrees. exact NZ.
    - apply not_there; [|discriminate|discriminate]. intros I. apply in_map_iff in I. destruct I as (f & Ef & If). apply In_nth_error in If. destruct If as (i & If).
      destruct (HB k K) as (vals & body & X1 & X2 & _). assert (vals = p_vals p) by (rewrite (PA k p IP Eid) in X1; congruence). subst vals.
      destruct (holds_present _ _ _ X2 i f If) as (raws & Er). apply (NO raws). exists l, i, f. rewrite Eid, EW. repeat split; assumption. }
  assert (ADM : Rotate.admissible Rotate.Signature D1).
  { destruct R1 as [M I B Di Im Nm Ky Va]. constructor.
    - exact M.
    - rewrite C1. cbn. tauto.
    - exact DIR1.
    - right. rewrite C1. exact IMU1.
    - exact B.
    - exists 4%nat. rewrite B1. tauto.
    - apply Forall_forall. intros O I'. exact (proj1 (MAT O I')).
    - intros _. apply Forall_forall. intros O I'. exact (proj2 (MAT O I')).
    - exact Ky.
    - intros nm I'. destruct (Va nm I') as (v & L & N & Lc). exists v. split; [exact L|]. split; [|exact N]. split; [exact Lc|].
      destruct (SH1 nm I') as (n & v0 & L0). rewrite L in L0. injection L0 as ->. cbn [Rotate.cells Rotate.ncomp]. apply Forall_map, Forall_forall. intros c _. unfold cells_of.
      apply Forall_map, Forall_forall. intros j _. unfold Linalg.is_vec. rewrite map_length. apply seq_length.
    - intros M' E. rewrite I in E. discriminate E. }
  destruct (ToEarth.with_declination Rotate.Signature D1 (Some u) ADM (SigRotate.rd_names D1 R1) ltac:(rewrite C1; cbn; tauto) U1) as (D2 & d1 & d' & E2 & _ & C2 & R1' & R2 & TV).
  assert (d1 = d0) by congruence. subst d1.
  exists D2, d'. split; [rewrite OPEN; f_equal; exact E2|]. split; [rewrite C2; exact C1|]. split; [exact R2|].
  intros k p A j v IP Eid PM PV. apply (TV "vel"%string k j v IV). exact (proj1 (V0 k p A IP Eid PM) j v PV).
Qed.
