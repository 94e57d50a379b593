(** Lemmas about Model.RdiFile: the values of the variables. *)
From Coq Require Import String.
From Coq Require Import ZArith QArith Qround List Bool Lia.
From Verif.Model Require Import Nortek RdiBlocks RdiFile.
From Verif.Model Require Ad2cp.
From Verif.Spec Require Rdi.
From Verif.Proofs Require Import RdiBlocks RdiEns RdiFile.
Import ListNotations.
Open Scope string_scope.
Open Scope list_scope.
Open Scope Z_scope.

(** the names that the blocks write *)
Definition names_of (id : Z) : list string :=
  if id =? 128 then ["number"; "rtc"; "builtin_test_fail"; "c_sound"; "depth"; "heading"; "pitch"; "roll"; "salinity"; "temp";
     "min_preping_wait"; "heading_std"; "pitch_std"; "roll_std"; "adc"; "pressure"; "pressure_std"]
  else if id =? 256 then ["vel"] else if id =? 512 then ["corr"] else if id =? 768 then ["amp"]
  else if id =? 1024 then ["prcnt_gd"] else if id =? 1280 then ["status"]
  else if id =? 1536 then ["dist_bt"; "vel_bt"; "corr_bt"; "amp_bt"; "prcnt_gd_bt"]
  else if id =? 16640 then ["alt_dist"; "alt_rssi"; "alt_eval"; "alt_status"]
  else [].
Definition known : list Z := [128; 256; 512; 768; 1024; 1280; 1536; 16640].
Lemma names_known id nm : In nm (names_of id) -> In id known.
Proof.
  unfold names_of, known. intros H.
  repeat match type of H with context[if ?c then _ else _] => let E := fresh in destruct c eqn:E; [apply Z.eqb_eq in E; subst; cbn; tauto|clear E] end.
  destruct H.
Qed.
Lemma names_apart_b : forallb (fun i => forallb (fun j => (i =? j) || forallb (fun nm => negb (mem nm (names_of j))) (names_of i)) known) known = true.
Proof. vm_compute. reflexivity. Qed.
Lemma names_apart i j nm : In nm (names_of i) -> In nm (names_of j) -> i = j.
Proof.
  intros A B. pose proof names_apart_b as H. rewrite forallb_forall in H. specialize (H _ (names_known _ _ A)). rewrite forallb_forall in H. specialize (H _ (names_known _ _ B)).
  apply orb_prop in H. destruct H as [H|H]; [now apply Z.eqb_eq|]. rewrite forallb_forall in H. specialize (H _ A). apply mem_In in B. rewrite B in H. discriminate.
Qed.
Lemma names_var2 raw nm : In nm (map fst (var_values2 raw)) -> nm = "pressure" \/ nm = "pressure_std" \/ nm = "rtc".
Proof.
  unfold var_values2. rewrite !map_app. intros H. repeat (apply in_app_or in H; destruct H as [H|H]);
  match type of H with In _ (map fst (match ?o with _ => _ end)) => destruct o end; cbn in H; intuition.
Qed.
Lemma effect_names fixed id x nm : In nm (map fst (effect fixed id x)) -> In nm (names_of id).
Proof.
  unfold effect, names_of. intros H.
  destruct (id =? 128).
  { unfold eff_var in H. rewrite map_app in H. apply in_app_or in H. destruct H as [H|H]; [cbn in H; cbn; tauto|]. apply names_var2 in H. cbn. intuition. }
  do 5 (match type of H with context[if ?c then _ else _] => destruct c end; [exact H|]).
  destruct (id =? 1536); [|destruct (id =? 16640); [cbn in H; cbn; tauto|exact H]].
  - unfold eff_bottom in H. rewrite map_app in H. apply in_app_or in H. destruct H as [H|H]; [exact H|]. destruct (Qle_bool _ _); [|destruct H]. cbn in H. cbn. tauto.
Qed.
Lemma lookup_none {A} nm (l : list (string * A)) : ~ In nm (map fst l) -> lookup nm l = None.
Proof.
  induction l as [|[x v] l IH]; [reflexivity|]. cbn. intros H. destruct (String.eqb x nm) eqn:E; [apply String.eqb_eq in E; subst; exfalso; apply H; now left|]. apply IH. intros I. apply H. now right.
Qed.
Lemma lookup_rev_none {A} nm (l : list (string * A)) : ~ In nm (map fst l) -> lookup nm (rev l) = None.
Proof. intros H. apply lookup_none. rewrite map_rev. intros I. apply H. now apply in_rev in I. Qed.
Lemma effects_names fixed l nm : In nm (map fst (effects fixed l)) -> exists b, In b l /\ In nm (names_of (fst b)).
Proof.
  unfold effects. rewrite concat_map, map_map. intros H. apply in_concat in H. destruct H as (ys & Y & H). apply in_map_iff in Y. destruct Y as ([i x] & <- & I).
  apply effect_names in H. exists (i, x). now split.
Qed.
Lemma lookup_effects fixed nm id x v : In nm (names_of id) -> lookup nm (rev (effect fixed id x)) = Some v -> forall l, NoDup (map fst l) -> In (id, x) l ->
  lookup nm (rev (effects fixed l)) = Some v.
Proof.
  intros N V. induction l as [|[i y] l IH]; [intros _ []|]. cbn [map fst]. intros ND I. apply NoDup_cons_iff in ND. destruct ND as [ND1 ND2].
  change (effects fixed ((i, y) :: l)) with (effect fixed i y ++ effects fixed l). rewrite rev_app_distr, lookup_app.
  destruct I as [E|I].
  - injection E as -> ->. rewrite lookup_rev_none; [exact V|]. intros H. apply effects_names in H. destruct H as ([j z] & J & K). cbn [fst] in K.
    rewrite (names_apart _ _ _ N K) in ND1. apply ND1. now apply (in_map fst) in J.
  - now rewrite (IH ND2 I).
Qed.

(** ** The table *)
Definition no_missing (f : Rdi.field) : Rdi.field :=
  Rdi.Field (Rdi.f_id f) (Rdi.f_byte f) (Rdi.f_width f) (Rdi.f_signed f) (Rdi.f_count f) (Rdi.f_scale f) None.
Lemma lookup_var fixed x nm v : ~ In nm ["pressure"; "pressure_std"; "rtc"] -> lookup nm (rev (var_values (pp var_items 0 x))) = Some v ->
  lookup nm (rev (effect fixed 128 x)) = Some v.
Proof.
  intros H E. unfold effect. cbn [Z.eqb Pos.eqb]. unfold eff_var. rewrite rev_app_distr, lookup_app, lookup_rev_none; [exact E|].
  intros I. apply names_var2 in I. apply H. cbn. intuition.
Qed.
Lemma var_field x nm k o c n : lookup nm (rev (var_values (pp var_items 0 x))) = Some (scaled c (Ad2cp.values k n (skipn o x))) ->
  ~ In nm ["pressure"; "pressure_std"; "rtc"] -> forall fixed,
  lookup nm (rev (effect fixed 128 x)) = Some (Rdi.field_value (Rdi.Field 128 (o + 3) (Ad2cp.ksize k) (Ad2cp.ksigned k) n c None) (Rdi.block_bytes (128, x))).
Proof. intros E H fixed. rewrite <- scaled_field. now apply lookup_var. Qed.
Lemma bottom_field fixed x nm k o c n : lookup nm (rev (bottom_values (pp (bottom_items false) 0 x))) = Some (scaled c (Ad2cp.values k n (skipn o x))) ->
  nm <> "dist_bt" ->
  lookup nm (rev (effect fixed 1536 x)) = Some (Rdi.field_value (Rdi.Field 1536 (o + 3) (Ad2cp.ksize k) (Ad2cp.ksigned k) n c None) (Rdi.block_bytes (1536, x))).
Proof.
  intros E H. rewrite <- scaled_field. unfold effect. cbn [Z.eqb Pos.eqb]. unfold eff_bottom. rewrite rev_app_distr, lookup_app, lookup_rev_none; [exact E|].
  destruct (Qle_bool _ _); [|intros []]. cbn. intuition.
Qed.
Lemma adc_bytes x n : Forall Rdi.is_byte x -> (n <= length x)%nat -> map (fun z => z mod 256) (Ad2cp.values Ad2cp.S8 n x) = Ad2cp.values Ad2cp.U8 n x.
Proof.
  revert x. induction n as [|n IH]; intros x H L; [reflexivity|]. destruct x as [|b x]; [cbn in L; lia|].
  cbn [Ad2cp.values map Ad2cp.ksize firstn skipn]. f_equal; [|apply IH; [exact (Forall_inv_tail H)|cbn in L; lia]].
  pose proof (Forall_inv H) as B. unfold Rdi.is_byte in B. unfold Ad2cp.value. cbn [Ad2cp.ksigned andb Ad2cp.le Ad2cp.ksize]. change (2 ^ (8 * Z.of_nat 1) / 2) with 128. change (2 ^ (8 * Z.of_nat 1)) with 256.
  replace (b + 256 * 0) with b by lia. destruct (128 <=? b) eqn:E.
  - replace (b - 256) with (b + (-1) * 256) by lia. rewrite Z.mod_add by lia. apply Z.mod_small. lia.
  - apply Z.mod_small. lia.
Qed.
Lemma workhorse_model fixed : Rdi.workhorse_like fixed = true -> inst_model_of (Rdi.version fixed) = other_model (Rdi.version fixed).
Proof.
  unfold Rdi.workhorse_like, inst_model_of. cbn [existsb]. intros H. apply negb_true_iff in H. repeat (apply orb_false_elim in H; destruct H as [?H H]).
  rewrite H0, H1, H2, H3. reflexivity.
Qed.
Lemma sound_var_length fixed x : Rdi.sound_block fixed (128, x) -> (40 <= length x)%nat.
Proof.
  intros (n & E & L). destruct (var_width fixed) as (m & Em & W). cbn [fst] in E. rewrite E in Em. injection Em as <-. unfold Rdi.len in L. rewrite block_length in L. cbn [snd] in L. lia.
Qed.
Lemma table_effect fixed nm f x : In (nm, f) (Rdi.variables fixed) -> Rdi.sound_block fixed (Rdi.f_id f, x) -> Forall Rdi.is_byte x ->
  lookup nm (rev (effect fixed (Rdi.f_id f) x)) = Some (Rdi.field_value (no_missing f) (Rdi.block_bytes (Rdi.f_id f, x))) /\ In nm (names_of (Rdi.f_id f)) /\
  nm <> "rtc" /\ (if String.eqb nm "vel" then f = Rdi.Field 256 3 2 true (Z.to_nat (4 * Rdi.cells fixed)) (1 # 1000) (Some (-32768)) else f = no_missing f).
Proof.
  intros I So By. unfold Rdi.variables in I. apply in_app_or in I. destruct I as [I|I].
  - cbn [In] in I. repeat (destruct I as [I|I]; [injection I as <- <-; (split; [|split; [cbn; tauto|split; [discriminate|reflexivity]]]); cbn [Rdi.f_id] in *|]); [..|destruct I].
    + apply (var_field x "c_sound" Ad2cp.U16 12 1 1); [cbn -[scaled plain Ad2cp.values skipn]; now rewrite plain_scaled|cbn; intuition discriminate].
    + apply (var_field x "depth" Ad2cp.U16 14 (1 # 10) 1); [reflexivity|cbn; intuition discriminate].
    + apply (var_field x "heading" Ad2cp.U16 16 (1 # 100) 1); [reflexivity|cbn; intuition discriminate].
    + apply (var_field x "pitch" Ad2cp.S16 18 (1 # 100) 1); [reflexivity|cbn; intuition discriminate].
    + apply (var_field x "roll" Ad2cp.S16 20 (1 # 100) 1); [reflexivity|cbn; intuition discriminate].
    + apply (var_field x "salinity" Ad2cp.S16 22 1 1); [cbn -[scaled plain Ad2cp.values skipn]; now rewrite plain_scaled|cbn; intuition discriminate].
    + apply (var_field x "temp" Ad2cp.S16 24 (1 # 100) 1); [reflexivity|cbn; intuition discriminate].
    + apply (var_field x "heading_std" Ad2cp.U8 29 1 1); [cbn -[scaled plain Ad2cp.values skipn]; now rewrite plain_scaled|cbn; intuition discriminate].
    + apply (var_field x "pitch_std" Ad2cp.U8 30 (1 # 10) 1); [reflexivity|cbn; intuition discriminate].
    + apply (var_field x "roll_std" Ad2cp.U8 31 (1 # 10) 1); [reflexivity|cbn; intuition discriminate].
    + apply (var_field x "adc" Ad2cp.U8 32 1 8); [|cbn; intuition discriminate].
      transitivity (Some (plain (map (fun z => z mod 256) (Ad2cp.values Ad2cp.S8 8 (skipn 32 x))))); [reflexivity|].
      apply sound_var_length in So. rewrite adc_bytes, plain_scaled; [reflexivity| |rewrite skipn_length; lia].
      apply Forall_forall. intros b Hb. rewrite Forall_forall in By. apply By. rewrite <- (firstn_skipn 32 x). apply in_or_app. now right.
    + unfold effect. cbn [Z.eqb Pos.eqb rev app lookup String.eqb Ascii.eqb Bool.eqb]. change x with (skipn 0 x) at 1. now rewrite (scaled_field _ _ 256).
    + unfold effect. cbn [Z.eqb Pos.eqb rev app lookup String.eqb Ascii.eqb Bool.eqb]. change x with (skipn 0 x) at 1. now rewrite (scaled_field _ _ 512).
    + unfold effect. cbn [Z.eqb Pos.eqb rev app lookup String.eqb Ascii.eqb Bool.eqb]. change x with (skipn 0 x) at 1. now rewrite (scaled_field _ _ 768).
    + unfold effect. cbn [Z.eqb Pos.eqb rev app lookup String.eqb Ascii.eqb Bool.eqb]. change x with (skipn 0 x) at 1. now rewrite (scaled_field _ _ 1024).
    + unfold effect. cbn [Z.eqb Pos.eqb rev app lookup String.eqb Ascii.eqb Bool.eqb]. change x with (skipn 0 x) at 1. now rewrite (scaled_field _ _ 1280).
    + apply (bottom_field fixed x "vel_bt" Ad2cp.S16 22 (1 # 1000) 4); [reflexivity|discriminate].
    + apply (bottom_field fixed x "corr_bt" Ad2cp.U8 30 1 4); [cbn -[scaled plain Ad2cp.values skipn]; now rewrite plain_scaled|discriminate].
    + apply (bottom_field fixed x "amp_bt" Ad2cp.U8 34 1 4); [cbn -[scaled plain Ad2cp.values skipn]; now rewrite plain_scaled|discriminate].
    + apply (bottom_field fixed x "prcnt_gd_bt" Ad2cp.U8 38 1 4); [cbn -[scaled plain Ad2cp.values skipn]; now rewrite plain_scaled|discriminate].
    + transitivity (Some (plain (Ad2cp.values Ad2cp.U8 1 (skipn 0 x)))); [reflexivity|]. now rewrite plain_scaled, (scaled_field _ _ 16640).
    + transitivity (Some (plain (Ad2cp.values Ad2cp.U8 1 (skipn 1 x)))); [reflexivity|]. now rewrite plain_scaled, (scaled_field _ _ 16640).
    + transitivity (Some (scaled (1 # 1000) (Ad2cp.values Ad2cp.U32 1 (skipn 2 x)))); [reflexivity|]. now rewrite (scaled_field _ _ 16640).
    + transitivity (Some (plain (Ad2cp.values Ad2cp.U8 1 (skipn 6 x)))); [reflexivity|]. now rewrite plain_scaled, (scaled_field _ _ 16640).
  - destruct (Rdi.workhorse_like fixed && _) eqn:C; [|destruct I]. apply andb_prop in C. destruct C as [C1 C2].
    assert (E : exists tl, var_extra (inst_model_of (Rdi.version fixed)) (Rdi.firmware fixed) =
      Rd "error_status" Ad2cp.U32 1 :: Skip 2 :: Rd "pressure" Ad2cp.U32 1 :: Rd "pressure_std" Ad2cp.U32 1 :: tl).
    { rewrite (workhorse_model _ C1). unfold var_extra. rewrite ?other_bb, ?other_os.
      cbn iota. rewrite C2. eexists. cbn [app]. reflexivity. }
    destruct E as (tl & E).
    cbn [In] in I. destruct I as [I|[I|[]]]; injection I as <- <-; (split; [|split; [cbn; tauto|split; [discriminate|reflexivity]]]); cbn [Rdi.f_id] in *;
    unfold effect; cbn [Z.eqb Pos.eqb]; unfold eff_var; rewrite E; unfold var_values2; cbn [pp lookup String.eqb Ascii.eqb Bool.eqb app];
    destruct (lookup "rtc4" _); cbn [app]; rewrite rev_app_distr; cbn [rev app lookup String.eqb Ascii.eqb Bool.eqb];
    rewrite (scaled_field _ _ 128); reflexivity.
Qed.

(** ** Columns *)
Lemma lookup_map_vars {A} (g : string -> A) nm vars : In nm vars -> lookup nm (map (fun m => (m, g m)) vars) = Some (g nm).
Proof.
  induction vars as [|v vars IH]; [intros []|]. intros I. cbn. destruct (String.eqb v nm) eqn:E; [apply String.eqb_eq in E; now subst|]. apply IH. destruct I as [->|I]; [rewrite String.eqb_refl in E; discriminate|exact I].
Qed.
Definition clean1 (x : option Q) : option Q := match x with Some q => if Qeq_bool q (-32768 # 1000) then None else Some q | None => None end.
Lemma clean1_twice x : clean1 (clean1 x) = clean1 x.
Proof. destruct x as [q|]; [|reflexivity]. cbn. destruct (Qeq_bool q (-32768 # 1000)) eqn:E; [reflexivity|]. cbn. now rewrite E. Qed.
Lemma get_after n fixed rest e nm : nm <> "rtc" -> get (after n fixed rest e) nm =
  let l := match lookup nm (rev (effects (fx fixed) rest)) with Some v => v | None => match lookup nm (vals e) with Some v => v | None => repeat (Some 0%Q) (size_of nm n) end end in
  if String.eqb nm "vel" then map clean1 l else l.
Proof.
  intros H. unfold after. rewrite get_century by exact H. unfold clean_data. rewrite get_put, String.eqb_sym. unfold get. cbn [vals e_cells]. rewrite !lookup_app.
  destruct (String.eqb nm "vel") eqn:E; [apply String.eqb_eq in E; subst nm|].
  - destruct (lookup "vel" (rev _)); reflexivity.
  - destruct (lookup nm (rev _)); reflexivity.
Qed.
Lemma after_cells n fixed rest e : e_cells (after n fixed rest e) = n.
Proof. unfold after. rewrite (proj2 (century_ek _)). reflexivity. Qed.
Lemma clean_field fixed b : map clean1 (Rdi.field_value (no_missing (Rdi.Field 256 3 2 true (Z.to_nat (4 * Rdi.cells fixed)) (1 # 1000) (Some (-32768)))) b) =
  Rdi.field_value (Rdi.Field 256 3 2 true (Z.to_nat (4 * Rdi.cells fixed)) (1 # 1000) (Some (-32768))) b.
Proof.
  unfold Rdi.field_value. rewrite map_map. apply map_ext. intros j.
  change (clean1 (Some (inject_Z (Rdi.sint b (3 + j * 2) 2) * (1 # 1000))%Q) = if Rdi.sint b (3 + j * 2) 2 =? -32768 then None else Some (inject_Z (Rdi.sint b (3 + j * 2) 2) * (1 # 1000))%Q).
  generalize (Rdi.sint b (3 + j * 2) 2). intros v. cbn [clean1]. destruct (v =? -32768) eqn:E.
  - apply Z.eqb_eq in E. rewrite E. reflexivity.
  - destruct (Qeq_bool (inject_Z v * (1 # 1000)) (-32768 # 1000)) eqn:Q; [|reflexivity]. exfalso. apply Qeq_bool_iff in Q. unfold Qeq, Qmult, inject_Z in Q. cbn [Qnum Qden] in Q. apply Z.eqb_neq in E. apply E. lia.
Qed.

Lemma columns_nth n xs : forall e vars cols i x c, columns_from n xs e vars cols -> nth_error xs i = Some x -> nth_error cols i = Some c ->
  exists fixed rest e' vars', Rdi.blocks x = (0, fixed) :: rest /\ (forall nm, In nm (map fst (effects (fx fixed) rest)) -> In nm vars') /\
    c = Col (clock (after n fixed rest e')) (map (fun nm => (nm, get (after n fixed rest e') nm)) vars').
Proof.
  induction xs as [|y xs IH]; intros e vars cols i x c C X K; [destruct i; discriminate|].
  inversion C as [|? ? fixed rest ? ? vars' c' cs Bl In1 In2 Ec C']; subst. destruct i as [|i].
  - cbn in X, K. injection X as <-. injection K as <-. exists fixed, rest, e, vars'. split; [exact Bl|]. split; [exact In2|reflexivity].
  - cbn in X, K. eapply IH; eassumption.
Qed.
Lemma columns_length n xs : forall e vars cols, columns_from n xs e vars cols -> length cols = length xs.
Proof. intros e vars cols C. induction C; [reflexivity|]. cbn. now rewrite IHC. Qed.

(** the clock *)
Lemma rtc_extra fixed data : let raw2 := pp (var_extra (inst_model_of (Rdi.version fixed)) (Rdi.firmware fixed)) 40 data in
  if Rdi.y2k fixed then lookup "rtc4" raw2 = Some (Ad2cp.values Ad2cp.U8 7 (skipn 56 data)) /\ lookup "cent" raw2 = Some (Ad2cp.values Ad2cp.U8 1 (skipn 55 data))
  else lookup "rtc4" raw2 = None.
Proof.
  cbv zeta. unfold Rdi.y2k, Rdi.workhorse_like, inst_model_of, var_extra. set (v := Rdi.version fixed). set (pv := Rdi.firmware fixed). cbn [existsb]. rewrite !orb_false_r.
  destruct (v =? 4) eqn:E4; [cbn [orb negb andb]; change (String.eqb "broadband" "broadband") with true; destruct (Qle_bool (555 # 100) pv); [split; reflexivity|reflexivity]|].
  destruct (v =? 5) eqn:E5; [cbn [orb negb andb]; change (String.eqb "broadband" "broadband") with true; destruct (Qle_bool (555 # 100) pv); [split; reflexivity|reflexivity]|].
  cbn [orb]. destruct (v =? 14) eqn:E14; [cbn [orb negb andb]; change (String.eqb "ocean surveyor" "broadband") with false; change (String.eqb "ocean surveyor" "ocean surveyor") with true; destruct (Qle_bool pv 23); reflexivity|].
  destruct (v =? 23) eqn:E23; [cbn [orb negb andb]; change (String.eqb "ocean surveyor" "broadband") with false; change (String.eqb "ocean surveyor" "ocean surveyor") with true; destruct (Qle_bool pv 23); reflexivity|].
  cbn [orb negb andb]. rewrite ?other_bb, ?other_os.
  destruct (Qle_bool (1605 # 100) pv) eqn:B.
  - rewrite (Qle_bool_down (813 # 100) _ _ B), (Qle_bool_down (824 # 100) _ _ B) by discriminate. split; reflexivity.
  - destruct (Qle_bool (813 # 100) pv), (Qle_bool (824 # 100) pv), (Qle_bool 56 pv); reflexivity.
Qed.
Definition rtc_list (fixed data : bytes) : list Z :=
  let b := Rdi.block_bytes (128, data) in
  if Rdi.y2k fixed then (Rdi.uint b 59 1 + Rdi.uint b 58 1 * 100) :: map (fun j => Rdi.uint b (60 + j) 1) (seq 0 6)
  else Rdi.uint b 5 1 :: map (fun j => Rdi.uint b (6 + j) 1) (seq 0 6).
Lemma rtc_effect fixed data : lookup "rtc" (rev (effect fixed 128 data)) = Some (plain (rtc_list fixed data)).
Proof.
  unfold effect. cbn [Z.eqb Pos.eqb]. unfold eff_var. rewrite rev_app_distr, lookup_app. pose proof (rtc_extra fixed data) as R. cbv zeta in R.
  set (raw2 := pp (var_extra _ _) 40 data) in *. unfold rtc_list. destruct (Rdi.y2k fixed).
  - destruct R as [R1 R2]. unfold var_values2. rewrite R1.
    assert (E : plain (rtc_with_century raw2) = plain (Rdi.uint (Rdi.block_bytes (128, data)) 59 1 + Rdi.uint (Rdi.block_bytes (128, data)) 58 1 * 100 :: map (fun j => Rdi.uint (Rdi.block_bytes (128, data)) (60 + j) 1) (seq 0 6))).
    { unfold rtc_with_century, raws, raw1, raws. rewrite R1, R2. rewrite !(values_int _ 128). reflexivity. }
    rewrite E. rewrite !rev_app_distr. cbn [rev app lookup String.eqb Ascii.eqb Bool.eqb]. reflexivity.
  - rewrite lookup_rev_none.
    + transitivity (Some (plain (Ad2cp.values Ad2cp.U8 7 (skipn 2 data)))); [reflexivity|]. rewrite (values_int _ 128). reflexivity.
    + unfold var_values2. rewrite R, app_nil_r, map_app. intros H. apply in_app_or in H. destruct H as [H|H]; match type of H with In _ (map fst (match ?o with _ => _ end)) => destruct o end; cbn in H; intuition discriminate.
Qed.
Lemma floor_year y : Qfloor (qz y + 2000)%Q = 2000 + y.
Proof. unfold Qfloor, qz, Qplus, inject_Z. cbn [Qnum Qden]. change (Z.pos (1 * 1)) with 1. rewrite Z.div_1_r. lia. Qed.
Lemma floor_z y : Qfloor (qz y) = y.
Proof. unfold Qfloor, qz, inject_Z. apply Z.div_1_r. Qed.
Lemma hundred y : Qle_bool 100 (qz y) = (100 <=? y).
Proof. unfold Qle_bool, qz, inject_Z. cbn [Qnum Qden]. now rewrite !Z.mul_1_r. Qed.
Lemma clock_list e y l : get e "rtc" = plain (y :: l) -> length l = 6%nat -> clock (century e) =
  let y' := if 100 <=? y then y else 2000 + y in
  let d := Date y' (nth 0 l 0) (nth 1 l 0) (nth 2 l 0) (nth 3 l 0) (nth 4 l 0) in
  if valid_date d && (nth 5 l 0 <? 100) then Some (d, nth 5 l 0) else None.
Proof.
  intros G L. do 6 (destruct l as [|? l]; [discriminate|]). destruct l; [|discriminate]. clear L.
  assert (C : exists q, get (century e) "rtc" = Some q :: plain [z; z0; z1; z2; z3; z4] /\ Qfloor q = if 100 <=? y then y else 2000 + y).
  { unfold century. rewrite G. cbn [plain map]. rewrite hundred. destruct (100 <=? y).
    - exists (qz y). split; [exact G|apply floor_z].
    - exists (qz y + 2000)%Q. split; [rewrite get_put; reflexivity|apply floor_year]. }
  destruct C as (q & C & F). unfold clock. rewrite C. cbn [plain map]. rewrite F, !floor_z. reflexivity.
Qed.
Section Column.
Context (n : Z) (x : Rdi.pd0) (fixed : bytes) (rest : list (Z * bytes)) (e : ensemble) (vars : list string) (c : column).
Context (So : Rdi.sound n x) (Bl : Rdi.blocks x = (0, fixed) :: rest) (Vs : forall nm, In nm (map fst (effects (fx fixed) rest)) -> In nm vars).
Context (Ec : c = Col (clock (after n fixed rest e)) (map (fun nm => (nm, get (after n fixed rest e) nm)) vars)).
Lemma sound_rest : NoDup (map fst rest) /\ Forall (Rdi.sound_block (fx fixed)) rest /\ Forall (fun b => Forall Rdi.is_byte (snd b)) rest.
Proof.
  pose proof (Rdi.kinds _ _ So) as K. rewrite Bl in K. cbn [map] in K. apply NoDup_cons_iff in K. split; [apply K|].
  destruct (Rdi.has_fixed _ _ So) as (f' & r' & Bl' & _ & _ & _ & S'). rewrite Bl in Bl'. injection Bl' as <- <-. split; [exact S'|].
  destruct (Rdi.bytes_ok _ _ So) as (_ & _ & _ & By). rewrite Bl in By. apply Forall_inv_tail in By. eapply Forall_impl; [|exact By]. intros b B. apply B.
Qed.
Lemma lookup_named nm id data v : In (id, data) rest -> In nm (names_of id) -> lookup nm (rev (effect (fx fixed) id data)) = Some v -> nm <> "rtc" ->
  lookup nm (cvals c) = Some (if String.eqb nm "vel" then map clean1 v else v).
Proof.
  intros I N L R. destruct sound_rest as (ND & _ & _). pose proof (lookup_effects _ _ _ _ _ N L rest ND I) as Le.
  rewrite Ec. cbn [cvals]. rewrite lookup_map_vars.
  - rewrite get_after by exact R. rewrite Le. reflexivity.
  - apply Vs. apply lookup_In, in_rev in Le. now apply (in_map fst) in Le.
Qed.
Lemma column_value nm f data : In (Rdi.f_id f, data) rest -> In (nm, f) (Rdi.variables (fx fixed)) ->
  lookup nm (cvals c) = Some (Rdi.field_value f (Rdi.block_bytes (Rdi.f_id f, data))).
Proof.
  intros I T. destruct sound_rest as (ND & Sr & By). rewrite Forall_forall in Sr, By. pose proof (Sr _ I) as Sb. pose proof (By _ I) as Bb. cbn [snd] in Bb.
  destruct (table_effect _ _ _ _ T Sb Bb) as (L & N & R & Fv). rewrite (lookup_named _ _ _ _ I N L R). f_equal.
  destruct (String.eqb nm "vel"); [rewrite Fv; apply clean_field|rewrite <- Fv; reflexivity].
Qed.
Lemma column_number data : In (128, data) rest ->
  lookup "number" (cvals c) = Some [Some (inject_Z (Rdi.uint (Rdi.block_bytes (128, data)) 3 2 + 65535 * Rdi.uint (Rdi.block_bytes (128, data)) 12 1))].
Proof.
  intros I. eapply (lookup_named "number" 128 data); [exact I|cbn; tauto| |discriminate]. apply lookup_var; [cbn; intuition discriminate|].
  transitivity (Some [Some (qz (hd 0 (Ad2cp.values Ad2cp.U16 1 (skipn 0 data)) + 65535 * hd 0 (Ad2cp.values Ad2cp.U8 1 (skipn 9 data))))]); [reflexivity|].
  rewrite !(values_int _ 128). reflexivity.
Qed.
Lemma column_range data : In (1536, data) rest -> exists l, lookup "dist_bt" (cvals c) = Some l /\ length l = 4%nat /\
  forall beam, (beam < 4)%nat -> exists q, nth_error l beam = Some (Some q) /\ Qeq q (Rdi.range_bt (fx fixed) (Rdi.block_bytes (1536, data)) beam).
Proof.
  intros I. set (b := Rdi.block_bytes (1536, data)).
  assert (D : scaled (1 # 100) (raws (pp (bottom_items false) 0 data) "dist_bt") = Rdi.field_value (Rdi.Field 1536 17 2 false 4 (1 # 100) None) b).
  { change (raws (pp (bottom_items false) 0 data) "dist_bt") with (Ad2cp.values Ad2cp.U16 4 (skipn 14 data)). now rewrite (scaled_field _ _ 1536). }
  assert (M : raws (pp [Skip 7; Rd "range_msb" Ad2cp.U8 4] 68 data) "range_msb" = map (fun j => Rdi.uint b (78 + j) 1) (seq 0 4)).
  { change (raws (pp [Skip 7; Rd "range_msb" Ad2cp.U8 4] 68 data) "range_msb") with (Ad2cp.values Ad2cp.U8 4 (skipn 75 data)). now rewrite (values_int _ 1536). }
  set (v := if Qle_bool (53 # 10) (Rdi.firmware (fx fixed)) then add_msb (Rdi.field_value (Rdi.Field 1536 17 2 false 4 (1 # 100) None) b) (map (fun j => Rdi.uint b (78 + j) 1) (seq 0 4))
    else Rdi.field_value (Rdi.Field 1536 17 2 false 4 (1 # 100) None) b).
  exists v. split; [|split].
  - apply (lookup_named "dist_bt" 1536 data v); [exact I|cbn; tauto| |discriminate]. unfold effect. cbn [Z.eqb Pos.eqb]. unfold eff_bottom, v.
    destruct (Qle_bool (53 # 10) (Rdi.firmware (fx fixed))).
    + rewrite <- D, <- M, rev_app_distr, lookup_app. reflexivity.
    + rewrite app_nil_r, <- D. reflexivity.
  - unfold v. destruct (Qle_bool _ _); reflexivity.
  - intros beam Hb. unfold v, Rdi.range_bt. destruct (Qle_bool (53 # 10) (Rdi.firmware (fx fixed))).
    + exists (inject_Z (Rdi.uint b (17 + 2 * beam) 2) * (1 # 100) + inject_Z (Rdi.uint b (78 + beam) 1) * (65536 # 100))%Q. split.
      * do 4 (destruct beam as [|beam]; [reflexivity|]). lia.
      * rewrite inject_Z_plus, inject_Z_mult. generalize (Rdi.uint b (17 + 2 * beam) 2), (Rdi.uint b (78 + beam) 1). intros u w. unfold Qeq, Qplus, Qmult, inject_Z. cbn [Qnum Qden]. lia.
    + exists (inject_Z (Rdi.uint b (17 + 2 * beam) 2) * (1 # 100))%Q. split.
      * do 4 (destruct beam as [|beam]; [reflexivity|]). lia.
      * rewrite Z.add_0_r. reflexivity.
Qed.
Lemma column_clock data : In (128, data) rest -> Rdi.year_sound (fx fixed) (Rdi.block_bytes (128, data)) ->
  ctime c = Rdi.time_of (fx fixed) (Rdi.block_bytes (128, data)).
Proof.
  intros I Y. destruct sound_rest as (ND & _ & _). pose proof (lookup_effects (fx fixed) "rtc" 128 data _ ltac:(cbn; tauto) (rtc_effect _ _) rest ND I) as Le.
  rewrite Ec. cbn [ctime]. unfold after. set (e1 := clean_data _).
  assert (G : get e1 "rtc" = plain (rtc_list (fx fixed) data)).
  { unfold e1, clean_data. rewrite get_put. change (String.eqb "vel" "rtc") with false. cbn iota. unfold get. cbn [vals e_cells]. rewrite lookup_app, Le. reflexivity. }
  unfold rtc_list in G. unfold Rdi.year_sound in Y. unfold Rdi.time_of, Rdi.year in *. cbv zeta in G |- *. destruct (Rdi.y2k (fx fixed)).
  - rewrite (clock_list _ _ _ G) by reflexivity. cbn [map seq nth Nat.add]. rewrite (proj2 (Z.leb_le 100 _)) by lia.
    replace (Rdi.uint (Rdi.block_bytes (128, data)) 59 1 + Rdi.uint (Rdi.block_bytes (128, data)) 58 1 * 100) with (100 * Rdi.uint (Rdi.block_bytes (128, data)) 58 1 + Rdi.uint (Rdi.block_bytes (128, data)) 59 1) by lia. reflexivity.
  - rewrite (clock_list _ _ _ G) by reflexivity. cbn [map seq nth Nat.add]. rewrite (proj2 (Z.leb_gt 100 _)) by lia. reflexivity.
Qed.
End Column.

(** ** A block that is missing *)
Lemma after_missing n fixed rest e nm id : In nm (names_of id) -> ~ In id (map fst rest) -> nm <> "rtc" -> e_cells e = n ->
  get (after n fixed rest e) nm = if String.eqb nm "vel" then map clean1 (get e nm) else get e nm.
Proof.
  intros N I R C. rewrite get_after by exact R. rewrite lookup_rev_none.
  - unfold get. rewrite C. destruct (lookup nm (vals e)); reflexivity.
  - intros H. apply effects_names in H. destruct H as (b & B & H). apply I. rewrite (names_apart _ _ _ N H). now apply in_map.
Qed.
Lemma column_missing n xs : forall e vars cols i x1 x2 c1 c2 nm f, columns_from n xs e vars cols -> Forall (Rdi.sound n) xs ->
  nth_error xs i = Some x1 -> nth_error xs (S i) = Some x2 -> nth_error cols i = Some c1 -> nth_error cols (S i) = Some c2 ->
  In nm (names_of f) -> nm <> "rtc" -> ~ In f (map fst (Rdi.blocks x2)) -> lookup nm (cvals c1) <> None -> lookup nm (cvals c2) = lookup nm (cvals c1).
Proof.
  induction xs as [|y xs IH]; intros e vars cols i x1 x2 c1 c2 nm f C So X1 X2 K1 K2 N R M L; [destruct i; discriminate|].
  inversion C as [|? ? fixed rest ? ? vars' c' cs Bl In1 In2 Ec C']; subst. destruct i as [|i].
  - cbn [nth_error] in X1, K1. injection X1 as <-. injection K1 as <-. cbn [nth_error] in X2, K2. destruct xs as [|y2 xs]; [discriminate|]. cbn in X2. injection X2 as ->.
    inversion C' as [|? ? fixed2 rest2 ? ? vars2 c2' cs2 Bl2 In3 In4 Ec2 C2]; subst. cbn in K2. injection K2 as <-. cbn [cvals].
    assert (V : In nm vars').
    { cbn [cvals] in L. destruct (in_dec string_dec nm vars') as [I|I]; [exact I|]. exfalso. apply L. apply lookup_none. rewrite map_map, map_id. exact I. }
    rewrite !lookup_map_vars by (auto). f_equal. rewrite Bl2 in M. cbn [map fst] in M.
    rewrite (after_missing n fixed2 rest2 _ nm f N) by (auto using after_cells; intros H; apply M; now right).
    destruct (String.eqb nm "vel") eqn:E; [|reflexivity]. apply String.eqb_eq in E. subst nm. rewrite get_after by exact R. cbn [String.eqb Ascii.eqb Bool.eqb]. cbv zeta. rewrite map_map. apply map_ext. apply clean1_twice.
  - cbn [nth_error] in *. eapply IH; try eassumption. exact (Forall_inv_tail So).
Qed.
