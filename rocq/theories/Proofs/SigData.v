(** Proofs about Model/SigData.v *)
From Coq Require Import String Ascii.
From Coq Require Import ZArith QArith Reals List Bool Lia Lra.
From Verif.Model Require Nortek RdiBlocks Gaps.
From Verif.Model Require Import Ad2cp Ad2cpIndex Reduce SigData.
From Verif.Spec Require Import SigData.
From Verif.Proofs Require Gaps Calendar Ad2cp.
Import ListNotations.
Open Scope Z_scope.

(** ** dictionaries *)
Lemma eqb_refl s : String.eqb s s = true. Proof. apply String.eqb_refl. Qed.
Lemma eqb_neq s t : s <> t -> String.eqb s t = false. Proof. apply String.eqb_neq. Qed.
Lemma get_set_same {A} (d : dict A) k v : get (set d k v) k = Some v.
Proof.
  induction d as [|[k' v'] d IH]; cbn [set get]; [rewrite eqb_refl; reflexivity|].
  destruct (String.eqb k' k) eqn:E; cbn [get]; [rewrite eqb_refl; reflexivity|]. rewrite E. exact IH.
Qed.
Lemma get_set_other {A} (d : dict A) k v k' : k <> k' -> get (set d k v) k' = get d k'.
Proof.
  intros N. induction d as [|[a b] d IH]; cbn [set get]; [rewrite (eqb_neq _ _ N); reflexivity|].
  destruct (String.eqb a k) eqn:E; cbn [get].
  - apply String.eqb_eq in E. subst a. rewrite (eqb_neq _ _ N). reflexivity.
  - rewrite IH. reflexivity.
Qed.
Lemma get_filter {A} (P : string -> bool) (d : dict A) k : P k = true -> get (filter (fun p => P (fst p)) d) k = get d k.
Proof.
  intros H. induction d as [|[a b] d IH]; cbn [filter get fst]; [reflexivity|].
  destruct (P a) eqn:E; cbn [get].
  - rewrite IH. reflexivity.
  - destruct (String.eqb a k) eqn:F; [apply String.eqb_eq in F; subst a; congruence|exact IH].
Qed.
Lemma get_filter_no {A} (P : string -> bool) (d : dict A) k : P k = false -> get (filter (fun p => P (fst p)) d) k = None.
Proof.
  intros H. induction d as [|[a b] d IH]; cbn [filter get fst]; [reflexivity|].
  destruct (P a) eqn:E; [|exact IH]. cbn [get]. destruct (String.eqb a k) eqn:F; [apply String.eqb_eq in F; subst a; congruence|exact IH].
Qed.
Lemma get_pop_other {A} (d : dict A) k k' : k <> k' -> get (pop d k) k' = get d k'.
Proof.
  intros N. unfold pop. apply (get_filter (fun s => negb (String.eqb s k))). rewrite eqb_neq; [reflexivity|congruence].
Qed.
Lemma get_map_snd {A B} (f : string -> A -> B) (d : dict A) k : get (map (fun p => (fst p, f (fst p) (snd p))) d) k = option_map (f k) (get d k).
Proof.
  induction d as [|[a b] d IH]; cbn [map get fst snd]; [reflexivity|].
  destruct (String.eqb a k) eqn:E; [apply String.eqb_eq in E; subst a; reflexivity|exact IH].
Qed.

(** ** layouts have no name twice *)
Lemma nodup_if {A} (x y z : list A) (b : bool) : NoDup (x ++ y ++ z) -> NoDup (x ++ (if b then y else []) ++ z).
Proof.
  intros H. destruct b; [exact H|]. cbn [app]. revert H. induction y as [|a y IH]; [easy|]. intros H. apply IH.
  rewrite <- app_comm_cons in H. exact (NoDup_remove_1 _ _ _ H).
Qed.
Definition nodupb (l : list string) : bool := (fix go l := match l with [] => true | a :: l' => negb (existsb (String.eqb a) l') && go l' end) l.
Lemma nodupb_ok l : nodupb l = true -> NoDup l.
Proof.
  induction l as [|a l IH]; [constructor|]. cbn [nodupb]. intros H. apply andb_true_iff in H. destruct H as [H1 H2].
  constructor; [|exact (IH H2)]. intros I. apply negb_true_iff in H1. enough (existsb (String.eqb a) l = true) by congruence.
  apply existsb_exists. exists a. split; [exact I|apply eqb_refl].
Qed.
Lemma map_if {A B} (f : A -> B) (b : bool) (x : list A) : map f (if b then x else []) = if b then map f x else [].
Proof. destruct b; reflexivity. Qed.
Lemma some_inj {A} (x y : A) : Some x = Some y -> x = y. Proof. intros H. injection H as H. exact H. Qed.
Lemma reader_names id config beams l : reader_for id config beams = Some l -> NoDup (map fname l).
Proof.
  unfold reader_for. destruct (id =? 28) eqn:E28; [|destruct (id =? 23) eqn:E23].
  - unfold calc_echo_struct. destruct (existsb _ _); [discriminate|]. intros H. apply some_inj in H. rewrite <- H.
    rewrite !map_app, !map_if. apply nodup_if. rewrite app_assoc, <- (app_nil_r (if flag _ _ then _ else _)). apply nodup_if.
    apply nodupb_ok. vm_compute. reflexivity.
  - intros H. apply some_inj in H. rewrite <- H. unfold calc_bt_struct. rewrite !map_app, !map_if. apply nodup_if. rewrite app_assoc. apply nodup_if.
    rewrite app_assoc. apply nodup_if. rewrite app_assoc. rewrite <- (app_nil_r (if flag _ "ahrs" then _ else _)). apply nodup_if. apply nodupb_ok. vm_compute. reflexivity.
  - unfold calc_burst_struct. destruct (flag _ _); [discriminate|]. intros H. apply some_inj in H. rewrite <- H. rewrite !map_app, !map_if.
    do 8 (apply nodup_if; rewrite app_assoc). rewrite <- (app_nil_r (if flag _ "std" then _ else _)). apply nodup_if. apply nodupb_ok. vm_compute. reflexivity.
Qed.
Lemma get_indexed {A B} (g : nat -> A -> B) (nm : A -> string) (l : list A) s i f : NoDup (map nm l) -> nth_error l i = Some f ->
  get (map (fun p => (nm (snd p), g (fst p) (snd p))) (combine (seq s (length l)) l)) (nm f) = Some (g (s + i)%nat f).
Proof.
  revert s i. induction l as [|a l IH]; intros s i ND H; [destruct i; discriminate|]. cbn [length seq combine map get fst snd].
  destruct i as [|i].
  - injection H as H. subst a. rewrite eqb_refl, Nat.add_0_r. reflexivity.
  - cbn [nth_error] in H. inversion ND as [|x y NI ND']; subst. rewrite eqb_neq.
    + rewrite (IH (S s) i ND' H). f_equal. f_equal. lia.
    + intros E. apply NI. rewrite E. apply in_map. exact (nth_error_In _ _ H).
Qed.
Lemma table_get id l pings i f : NoDup (map fname l) -> nth_error l i = Some f ->
  get (table id l pings) (fname f) = Some (map (fun c => match c with Some vals => map (stored id f) (nth i vals []) | None => blank f end) pings).
Proof.
  intros ND H. unfold table.
  exact (get_indexed (fun i f => map (fun c => match c with Some vals => map (stored id f) (nth i vals []) | None => blank f end) pings) fname l 0 i f ND H).
Qed.
Lemma sci_get id d nm : nm <> "vel"%string -> get (sci_data id d) nm =
  option_map (fun v => match sci_func id nm with Some (sc, off) => map (map (linfunc sc off)) v | None => v end) (get d nm).
Proof.
  intros N. unfold sci_data, vel_scaled.
  assert (E : get (map (sci_one id) d) nm = option_map (fun v => match sci_func id nm with Some (sc, off) => map (map (linfunc sc off)) v | None => v end) (get d nm)).
  { unfold sci_one. rewrite (get_map_snd (fun nm v => match sci_func id nm with Some (sc, off) => map (map (linfunc sc off)) v | None => v end)). reflexivity. }
  destruct (get (map (sci_one id) d) "vel"); [|exact E]. destruct (get (map (sci_one id) d) "vel_scale"); [|exact E].
  rewrite get_set_other by congruence. exact E.
Qed.
Lemma record_get id l pings nm : nm <> "vel"%string -> nm <> "ensemble"%string -> get (snd (record_of (id, l, pings))) nm =
  option_map (fun v => match sci_func id nm with Some (sc, off) => map (map (linfunc sc off)) v | None => v end) (get (table id l pings) nm).
Proof. intros N1 N2. cbn [record_of snd]. rewrite sci_get by exact N1. rewrite get_set_other by congruence. reflexivity. Qed.

(** one column *)
Lemma column_of id config beams l pings k nm raws : reader_for id config beams = Some l -> recorded l pings k nm raws ->
  nm <> "vel"%string -> nm <> "ensemble"%string ->
  exists f, In f l /\ fname f = nm /\ shows (snd (record_of (id, l, pings))) nm k
    (map (fun v => match sci_func id nm with Some (sc, off) => linfunc sc off (stored id f v) | None => stored id f v end) raws).
Proof.
  intros HR (vals & i & f & Hp & Hf & Hn & Hv) N1 N2. subst nm. exists f. split; [exact (nth_error_In _ _ Hf)|]. split; [reflexivity|].
  eexists. split.
  - rewrite record_get by assumption. rewrite (table_get id l pings i f (reader_names _ _ _ _ HR) Hf). cbn [option_map]. reflexivity.
  - destruct (sci_func id (fname f)) as [[sc off]|].
    + rewrite map_map. rewrite nth_error_map, Hp. cbn [option_map]. rewrite (nth_error_nth _ _ _ Hv), map_map. reflexivity.
    + rewrite nth_error_map, Hp. cbn [option_map]. rewrite (nth_error_nth _ _ _ Hv). reflexivity.
Qed.

(** ** the fields that can be there *)
Definition all_fields (nb nc : nat) : layout :=
  burst_hdr ++ bt_hdr ++ ahrs_def ++
  [Field "vel" S32 0 [nb]; Field "dist" S32 0 [nb]; Field "fom" U16 0 [nb]; Field "echo" U16 0 [nc]; Field "vel" S16 0 [nb; nc];
   Field "amp" U8 0 [nb; nc]; Field "corr" U8 0 [nb; nc]; scalar "le_dist_alt" F32; scalar "le_quality_alt" U16; scalar "status_alt" U16;
   scalar "ast_dist_alt" F32; scalar "ast_quality_alt" U16; scalar "ast_offset_time_alt" S16; scalar "pressure_alt" F32; Field "spare" U8 7 [];
   scalar "nsamp_alt" U32; scalar "dsamp_alt" U16; scalar "samp_alt" S16; Field "percent_good" U8 0 [nc]; scalar "pitch_std" S16;
   scalar "roll_std" S16; scalar "heading_std" S16; scalar "press_std" S16; Field "std_spare" U16 22 []]%string.
Lemma in_if {A} (x : A) (b : bool) l : In x (if b then l else []) -> In x l.
Proof. destruct b; [easy|intros []]. Qed.
Ltac pick := unfold all_fields; rewrite !in_app_iff; cbn [In]; tauto.
Lemma fields_known id config beams l f : reader_for id config beams = Some l -> In f l -> exists nb nc, In f (all_fields nb nc).
Proof.
  unfold reader_for. set (nb := match n_beams _ with Some n => _ | None => _ end). set (nc := Z.to_nat _). intros H I. exists nb, nc.
  destruct (id =? 28); [|destruct (id =? 23)].
  - unfold calc_echo_struct in H. destruct (existsb _ _); [discriminate|]. apply some_inj in H. rewrite <- H in I.
    rewrite !in_app_iff in I. destruct I as [I|[I|I]]; [pick|apply in_if in I; cbn [In] in I; pick|apply in_if in I; pick].
  - apply some_inj in H. rewrite <- H in I. unfold calc_bt_struct in I. rewrite !in_app_iff in I.
    destruct I as [I|[I|[I|[I|I]]]]; [pick| | | |apply in_if in I; pick]; apply in_if in I; cbn [In] in I; pick.
  - unfold calc_burst_struct in H. destruct (flag _ _); [discriminate|]. apply some_inj in H. rewrite <- H in I. rewrite !in_app_iff in I.
    destruct I as [I|[I|[I|[I|[I|[I|[I|[I|[I|I]]]]]]]]]; [pick| | | | | | |apply in_if in I; pick| |]; apply in_if in I; cbn [In] in I; pick.
Qed.
Ltac each_field H := unfold all_fields, burst_hdr, bt_hdr, ahrs_def in H; cbn [app In] in H;
  repeat (match type of H with _ \/ _ => destruct H as [H|H] end).
Lemma counts_not_floats nb nc f : In f (all_fields nb nc) -> get resolution (fname f) <> None -> forall id, id <> 26 -> id <> 31 -> forall v, stored id f v = Int v.
Proof.
  intros I R id N1 N2 v. unfold stored. rewrite (proj2 (Z.eqb_neq id 26) N1), (proj2 (Z.eqb_neq id 31) N2). cbn [orb andb].
  each_field I; try (subst f; reflexivity); try (subst f; exfalso; apply R; reflexivity). destruct I.
Qed.
Lemma scales id nm r : get resolution nm = Some r -> ~ (id = 23 /\ nm = "mag"%string) ->
  sci_func id nm = Some (r, 0%R) \/ (sci_func id nm = None /\ r = 1%R).
Proof.
  intros H N. unfold sci_func.
  assert (B : nm <> "blank_dist"%string) by (intros ->; discriminate H). rewrite (eqb_neq _ _ B), andb_false_r.
  assert (M : (id =? 23) && String.eqb nm "mag" = false).
  { destruct (Z.eqb_spec id 23) as [E|]; [|reflexivity]. destruct (String.eqb_spec nm "mag"); [exfalso; tauto|reflexivity]. }
  rewrite M. clear M B N. unfold resolution in H. cbn [get] in H.
  repeat (match type of H with (if String.eqb ?a nm then _ else _) = _ => destruct (String.eqb_spec a nm) as [E|_];
    [rewrite <- E; apply some_inj in H; subst r; cbn; first [left; f_equal; f_equal; unfold grav; lra | right; split; [reflexivity|lra]] |] end).
  discriminate H.
Qed.
Lemma quantities id config beams l pings k nm raws r qs : In id [21; 22; 23; 24; 28] -> reader_for id config beams = Some l ->
  recorded l pings k nm raws -> get resolution nm = Some r -> ~ (id = 23 /\ nm = "mag"%string) -> Forall2 (nearest r) qs raws ->
  exists col, shows (snd (record_of (id, l, pings))) nm k col /\ Forall2 (within (r / 2)) qs col.
Proof.
  intros HI HR HC HS HM HQ.
  assert (N1 : nm <> "vel"%string) by (intros ->; discriminate HS).
  assert (N2 : nm <> "ensemble"%string) by (intros ->; discriminate HS).
  assert (N3 : id <> 26 /\ id <> 31). { cbn [In] in HI. repeat destruct HI as [<-|HI]; try (split; discriminate). destruct HI. }
  destruct (column_of _ _ _ _ _ _ _ _ HR HC N1 N2) as (f & If & Ef & Sh). eexists. split; [exact Sh|].
  destruct (fields_known _ _ _ _ _ HR If) as (nb & nc & If').
  assert (St : forall v, stored id f v = Int v).
  { intros v. apply (counts_not_floats nb nc f If'); [rewrite Ef, HS; discriminate|apply N3|apply N3]. }
  clear Sh HC. induction HQ as [|q n qs raws Hq HQ IH]; [constructor|]. cbn [map]. constructor; [|exact IH].
  rewrite St. destruct (scales id nm r HS HM) as [E|[E E1]]; rewrite E.
  - eexists. split; [reflexivity|]. unfold nearest in Hq. replace ((IZR n + 0) * r - q)%R with (IZR n * r - q)%R by ring. exact Hq.
  - eexists. split; [reflexivity|]. unfold nearest in Hq. subst r. rewrite Rmult_1_r in Hq. exact Hq.
Qed.
(** others: the conversion of a variable with counts *)
Lemma field_number id config beams l f nm : reader_for id config beams = Some l -> In f l -> fname f = nm ->
  In nm ["temp_press"; "blank_dist"; "vel_scale"; "ver"; "mag"; "temp"; "year"; "month"; "day"; "hour"; "minute"; "second"; "usec100"; "status"]%string -> forall v, stored id f v = Int v.
Proof.
  intros HR I E N v. destruct (fields_known _ _ _ _ _ HR I) as (nb & nc & If'). unfold stored.
  assert (X : String.eqb (fname f) "samp_alt" = false).
  { rewrite E. cbn [In] in N. repeat destruct N as [<-|N]; try reflexivity. destruct N. }
  rewrite X, andb_false_r. rewrite <- E in N. clear E X.
  each_field If'; try (subst f; reflexivity); try (subst f; exfalso; cbn in N; repeat destruct N as [N|N]; (discriminate || destruct N)). destruct If'.
Qed.

(** ** velocities *)
Lemma map_combine_nth {A B C} (g : A * B -> C) (a : list A) (b : list B) k x y : nth_error a k = Some x -> nth_error b k = Some y ->
  nth_error (map g (combine a b)) k = Some (g (x, y)).
Proof.
  revert b k. induction a as [|u a IH]; intros b k H1 H2; [destruct k; discriminate|]. destruct b as [|v b]; [destruct k; discriminate|].
  destruct k as [|k]; cbn in *; [injection H1 as ->; injection H2 as ->; reflexivity|]. exact (IH b k H1 H2).
Qed.
Lemma vel_kind nb nc f : In f (all_fields nb nc) -> fname f = "vel"%string -> forall id v, stored id f v = Int v.
Proof.
  intros I E id v. unfold stored. rewrite E. cbn [String.eqb]. rewrite andb_false_r.
  each_field I; try contradiction; subst f; try discriminate E; reflexivity.
Qed.
Lemma option_map_id {A} (x : option A) : option_map (fun v => v) x = x. Proof. destruct x; reflexivity. Qed.
Lemma velocity id config beams l pings k raws s qs : reader_for id config beams = Some l ->
  recorded l pings k "vel" raws -> recorded l pings k "vel_scale" [s] -> Forall2 (nearest (powerRZ 10 s)) qs raws ->
  exists col, shows (snd (record_of (id, l, pings))) "vel" k col /\ Forall2 (within (powerRZ 10 s / 2)) qs col.
Proof.
  intros HR HV HS HQ. destruct HV as (vals & i & f & Hp & Hf & Hn & Hv). destruct HS as (vals' & i' & f' & Hp' & Hf' & Hn' & Hv').
  rewrite Hp in Hp'. injection Hp' as <-. pose proof (reader_names _ _ _ _ HR) as ND.
  cbn [record_of snd]. set (d := set (table id l pings) "ensemble" _).
  assert (G1 : get d "vel" = Some (map (fun c => match c with Some vals => map (stored id f) (nth i vals []) | None => blank f end) pings)).
  { unfold d. rewrite get_set_other by discriminate. rewrite <- Hn. exact (table_get id l pings i f ND Hf). }
  assert (G2 : get d "vel_scale" = Some (map (fun c => match c with Some vals => map (stored id f') (nth i' vals []) | None => blank f' end) pings)).
  { unfold d. rewrite get_set_other by discriminate. rewrite <- Hn'. exact (table_get id l pings i' f' ND Hf'). }
  assert (St : forall v, stored id f v = Int v).
  { destruct (fields_known _ _ _ _ _ HR (nth_error_In _ _ Hf)) as (nb & nc & If). intros v. exact (vel_kind nb nc f If Hn id v). }
  assert (St' : forall v, stored id f' v = Int v).
  { apply (field_number _ _ _ _ _ "vel_scale"%string HR (nth_error_In _ _ Hf') Hn'). cbn. tauto. }
  unfold sci_data, vel_scaled.
  assert (M1 : get (map (sci_one id) d) "vel" = get d "vel").
  { unfold sci_one. rewrite (get_map_snd (fun nm v => match sci_func id nm with Some (sc, off) => map (map (linfunc sc off)) v | None => v end)).
    unfold sci_func. rewrite !andb_false_r. change (get sci_burst "vel") with (@None (R * R)). cbv iota beta. exact (option_map_id _). }
  assert (M2 : get (map (sci_one id) d) "vel_scale" = get d "vel_scale").
  { unfold sci_one. rewrite (get_map_snd (fun nm v => match sci_func id nm with Some (sc, off) => map (map (linfunc sc off)) v | None => v end)).
    unfold sci_func. rewrite !andb_false_r. change (get sci_burst "vel_scale") with (@None (R * R)). cbv iota beta. exact (option_map_id _). }
  rewrite M1, M2, G1, G2. eexists. split.
  - eexists. split; [apply get_set_same|]. erewrite map_combine_nth; [reflexivity| |].
    + rewrite nth_error_map, Hp. cbn [option_map]. rewrite (nth_error_nth _ _ _ Hv). reflexivity.
    + rewrite nth_error_map, Hp. cbn [option_map]. rewrite (nth_error_nth _ _ _ Hv'). reflexivity.
  - cbn [fst snd]. rewrite map_map. clear Hv. induction HQ as [|q n qs raws Hq HQ IH]; [constructor|]. cbn [map]. constructor; [|exact IH].
    rewrite St. cbn [map nth real]. rewrite St'. cbn [real]. eexists. split; [reflexivity|]. unfold nearest in Hq.
    rewrite (powerRZ_Rpower 10 s) in * by lra. exact Hq.
Qed.

(** ** times *)
Definition clock_names : list string := ["year"; "month"; "day"; "hour"; "minute"; "second"; "usec100"]%string.
Lemma clock_value id config beams l pings k nm v : reader_for id config beams = Some l -> In nm clock_names ->
  recorded l pings k nm [v] -> nth k (ints (snd (record_of (id, l, pings))) nm) 0 = v /\ (k < length (ints (snd (record_of (id, l, pings))) nm))%nat.
Proof.
  intros HR HI HC.
  assert (N1 : nm <> "vel"%string) by (intros ->; cbn in HI; repeat destruct HI as [HI|HI]; (discriminate || destruct HI)).
  assert (N2 : nm <> "ensemble"%string) by (intros ->; cbn in HI; repeat destruct HI as [HI|HI]; (discriminate || destruct HI)).
  destruct (column_of _ _ _ _ _ _ _ _ HR HC N1 N2) as (f & If & Ef & (va & G & Nt)).
  assert (St : forall v, stored id f v = Int v).
  { apply (field_number _ _ _ _ _ nm HR If Ef). unfold clock_names in HI. cbn [In] in *. tauto. }
  assert (Sc : sci_func id nm = None).
  { unfold clock_names in HI. unfold sci_func. cbn [In] in HI. repeat destruct HI as [<-|HI]; try (rewrite !andb_false_r; reflexivity). destruct HI. }
  rewrite Sc in Nt. cbn [map] in Nt. rewrite St in Nt. unfold ints. rewrite G.
  pose proof (map_nth_error first_int _ _ Nt) as M. cbn [first_int] in M. split; [exact (nth_error_nth _ _ 0 M)|].
  apply nth_error_Some. rewrite M. discriminate.
Qed.
Lemma clock id config beams l pings k y mo d h mi s u : reader_for id config beams = Some l ->
  recorded l pings k "year" [y] -> recorded l pings k "month" [mo] -> recorded l pings k "day" [d] -> recorded l pings k "hour" [h] ->
  recorded l pings k "minute" [mi] -> recorded l pings k "second" [s] -> recorded l pings k "usec100" [u] ->
  nth_error (calc_time (snd (record_of (id, l, pings)))) k = Some (calc_time1 (y + 1900) mo d h mi s (u * 100)).
Proof.
  intros HR Hy Hmo Hd Hh Hmi Hs Hu.
  destruct (clock_value _ _ _ _ _ _ "year"%string _ HR ltac:(cbn; tauto) Hy) as [Ey Ly].
  destruct (clock_value _ _ _ _ _ _ "month"%string _ HR ltac:(cbn; tauto) Hmo) as [Emo _].
  destruct (clock_value _ _ _ _ _ _ "day"%string _ HR ltac:(cbn; tauto) Hd) as [Ed _].
  destruct (clock_value _ _ _ _ _ _ "hour"%string _ HR ltac:(cbn; tauto) Hh) as [Eh _].
  destruct (clock_value _ _ _ _ _ _ "minute"%string _ HR ltac:(cbn; tauto) Hmi) as [Emi _].
  destruct (clock_value _ _ _ _ _ _ "second"%string _ HR ltac:(cbn; tauto) Hs) as [Es _].
  destruct (clock_value _ _ _ _ _ _ "usec100"%string _ HR ltac:(cbn; tauto) Hu) as [Eu _].
  unfold calc_time. erewrite map_nth_error; [|rewrite nth_error_nth' with (d := 0%nat) by (rewrite seq_length; exact Ly); rewrite seq_nth by exact Ly; reflexivity].
  cbn [Nat.add]. cbv beta. rewrite Ey, Emo, Ed, Eh, Emi, Es, Eu. reflexivity.
Qed.
Lemma calc_time1_valid y mo d h mi s u n : Nortek.valid_date (Nortek.Date y (mo + 1) d h mi s) = true -> 0 <= u < 1000000 ->
  elapsed (Nortek.Date y (mo + 1) d h mi s) n -> exists t, calc_time1 y mo d h mi s u = Some t /\ (t == inject_Z n + inject_Z u / 1000000)%Q.
Proof.
  intros V U E. unfold calc_time1.
  assert (D : d <> 0). { intros ->. unfold Nortek.valid_date in V. cbn [Nortek.day] in V. rewrite !andb_true_iff in V. change (1 <=? 0) with false in V. intuition discriminate. }
  cbn [forallb]. rewrite (proj2 (Z.eqb_neq 0 d)) by congruence. cbn [andb]. rewrite andb_false_r. rewrite V.
  rewrite (proj2 (Z.leb_le 0 u)), (proj2 (Z.ltb_lt u 1000000)) by lia. cbn [andb].
  destruct (Calendar.elapsed_okd _ _ E) as [_ ->]. eexists. split; [reflexivity|]. reflexivity.
Qed.
Lemma calc_time1_impossible y mo d h mi s u : Nortek.valid_date (Nortek.Date y (mo + 1) d h mi s) = false \/ 1000000 <= u ->
  calc_time1 y mo d h mi s u = None \/ calc_time1 y mo d h mi s u = Some (inject_Z 0).
Proof.
  intros H. unfold calc_time1. destruct (forallb _ _); [right; reflexivity|left]. destruct H as [->|H]; [reflexivity|].
  rewrite (proj2 (Z.ltb_ge u 1000000)) by lia. rewrite andb_false_r. reflexivity.
Qed.
Lemma times_out_complete fs t out : times_out fs t = Some out -> length out = length t /\
  (forall k, (k < length t)%nat -> exists q, nth_error out k = Some (Some q)) /\
  (forall k q, nth_error t k = Some (Some q) -> ~ (q == 0)%Q -> nth_error out k = Some (Some q)).
Proof.
  unfold times_out. set (g := fun x : option Q => match x with Some q => if Qeq_bool q 0 then None else Some q | None => None end). set (t' := map g t). intros H.
  assert (L : length t' = length t) by apply map_length.
  assert (V : forall k q, nth_error t k = Some (Some q) -> ~ (q == 0)%Q -> nth_error t' k = Some (Some q)).
  { intros k q Hk Hq. unfold t'. rewrite nth_error_map, Hk. cbn [option_map g]. destruct (Qeq_bool q 0) eqn:E; [|reflexivity].
    apply Qeq_bool_iff in E. contradiction. }
  destruct (existsb _ t') eqn:E.
  - destruct (Gaps.ftg_complete _ _ _ H) as (A & B & C). rewrite L in *. split; [exact A|]. split.
    + intros k Hk. destruct (B k Hk) as [q Hq]. exists q. exact Hq.
    + intros k q Hk Hq. exact (C k q (V k q Hk Hq)).
  - injection H as <-. split; [exact L|]. split; [|exact V]. intros k Hk. rewrite <- L in Hk.
    destruct (nth_error t' k) as [x|] eqn:N; [|apply nth_error_None in N; lia]. destruct x as [q|]; [exists q; reflexivity|exfalso].
    enough (existsb (fun x : option Q => match x with Some _ => false | None => true end) t' = true) by congruence.
    apply existsb_exists. exists None. split; [exact (nth_error_In _ _ N)|reflexivity].
Qed.

(** ** reorganisation *)
Definition all_names : list string := always ++ if_there.
Definition keys_ok : bool :=
  forallb (fun t1 => forallb (fun n1 => forallb (fun t2 => forallb (fun n2 =>
    implb (String.eqb (n1 ++ snd t1) (n2 ++ snd t2))%string (String.eqb n1 n2 && (fst t1 =? fst t2))) all_names) tags) all_names) tags.
Lemma keys_inj id1 t1 n1 id2 t2 n2 : In (id1, t1) tags -> In (id2, t2) tags -> In n1 all_names -> In n2 all_names ->
  (n1 ++ t1 = n2 ++ t2)%string -> n1 = n2 /\ id1 = id2.
Proof.
  assert (K : keys_ok = true) by (vm_compute; reflexivity). unfold keys_ok in K. intros A B C D E.
  rewrite forallb_forall in K. specialize (K _ A). rewrite forallb_forall in K. specialize (K _ C).
  rewrite forallb_forall in K. specialize (K _ B). rewrite forallb_forall in K. specialize (K _ D).
  cbn [fst snd] in K. rewrite E, eqb_refl in K. cbn [implb] in K. apply andb_true_iff in K. destruct K as [K1 K2].
  apply String.eqb_eq in K1. apply Z.eqb_eq in K2. tauto.
Qed.
Lemma copy_always_other tag d names out out' k : copy_always tag d names out = Some out' ->
  (forall n, In n names -> (n ++ tag)%string <> k) -> get out' k = get out k.
Proof.
  revert out. induction names as [|n names IH]; intros out H N; cbn [copy_always] in H; [injection H as <-; reflexivity|].
  destruct (get d n) as [v|]; [|discriminate]. rewrite (IH _ H) by (intros m Hm; apply N; right; exact Hm). apply get_set_other. apply N. left. reflexivity.
Qed.
Lemma copy_always_get id tag d names out out' nm v : In (id, tag) tags -> incl names all_names -> NoDup names -> copy_always tag d names out = Some out' ->
  In nm names -> get d nm = Some v -> get out' (nm ++ tag)%string = Some (if String.eqb nm "ensemble" then plus_one v else v).
Proof.
  intros T I ND H Hn G. revert out H. induction names as [|n names IH]; intros out H; [destruct Hn|]. cbn [copy_always] in H. inversion ND as [|x y NI ND']; subst.
  destruct (get d n) as [w|] eqn:Gn; [|discriminate]. destruct Hn as [->|Hn].
  - rewrite (copy_always_other _ _ _ _ _ _ H).
    + rewrite get_set_same. rewrite Gn in G. injection G as ->. reflexivity.
    + intros m Hm E. destruct (keys_inj _ _ _ _ _ _ T T (I m (or_intror Hm)) (I nm (or_introl eq_refl)) E) as [-> _]. exact (NI Hm).
  - exact (IH (fun m Hm => I m (or_intror Hm)) ND' Hn _ H).
Qed.
Lemma copy_there_other tag d names out k : (forall n, In n names -> (n ++ tag)%string <> k) -> get (copy_there tag d names out) k = get out k.
Proof.
  unfold copy_there. revert out. induction names as [|n names IH]; intros out N; [reflexivity|]. cbn [fold_left].
  rewrite IH by (intros m Hm; apply N; right; exact Hm). destruct (get d n); [|reflexivity]. apply get_set_other. apply N. left. reflexivity.
Qed.
Lemma copy_there_get id tag d names out nm v : In (id, tag) tags -> incl names all_names -> NoDup names ->
  In nm names -> get d nm = Some v -> get (copy_there tag d names out) (nm ++ tag)%string = Some v.
Proof.
  intros T I ND Hn G. unfold copy_there. revert out. induction names as [|n names IH]; intros out; [destruct Hn|]. inversion ND as [|x y NI ND']; subst.
  cbn [fold_left]. destruct Hn as [->|Hn].
  - rewrite G. fold (copy_there tag d names (set out (nm ++ tag) v)). rewrite copy_there_other; [apply get_set_same|].
    intros m Hm E. destruct (keys_inj _ _ _ _ _ _ T T (I m (or_intror Hm)) (I nm (or_introl eq_refl)) E) as [-> _]. exact (NI Hm).
  - exact (IH (fun m Hm => I m (or_intror Hm)) ND' Hn _).
Qed.
Lemma always_nodup : NoDup always. Proof. apply nodupb_ok. vm_compute. reflexivity. Qed.
Lemma there_nodup : NoDup if_there. Proof. apply nodupb_ok. vm_compute. reflexivity. Qed.
Lemma names_disjoint n : In n always -> ~ In n if_there.
Proof.
  assert (N : NoDup all_names) by (apply nodupb_ok; vm_compute; reflexivity). unfold all_names in N. intros A B.
  apply in_split in A. destruct A as (l1 & l2 & E). rewrite E in N. rewrite <- app_assoc in N. apply NoDup_remove_2 in N. apply N.
  rewrite !in_app_iff. right. right. exact B.
Qed.
Lemma copy_absent tag d names out k : get out k = None -> (forall n, In n names -> (n ++ tag)%string = k -> get d n = None) -> get (copy_there tag d names out) k = None.
Proof.
  unfold copy_there. revert out. induction names as [|n names IH]; intros out O N; [exact O|]. cbn [fold_left]. apply IH; [|intros m Hm; apply N; right; exact Hm].
  destruct (get d n) as [v|] eqn:G; [|exact O]. destruct (String.eqb_spec (n ++ tag) k) as [E|E]; [|rewrite get_set_other by exact E; exact O].
  rewrite (N n (or_introl eq_refl) E) in G. discriminate.
Qed.
Lemma reorg_other dat ts out out' k : reorg_vars dat ts out = Some out' ->
  (forall id tag n, In (id, tag) ts -> find_id dat id <> None -> In n all_names -> (n ++ tag)%string <> k) -> get out' k = get out k.
Proof.
  revert out. induction ts as [|[id tag] ts IH]; intros out H N; cbn [reorg_vars] in H; [injection H as <-; reflexivity|].
  assert (N' : forall id tag n, In (id, tag) ts -> find_id dat id <> None -> In n all_names -> (n ++ tag)%string <> k) by (intros i t n Ht; apply N; right; exact Ht).
  destruct (find_id dat id) as [d|] eqn:F; [|exact (IH _ H N')].
  destruct (copy_always tag d always out) as [o|] eqn:C; [|discriminate]. rewrite (IH _ H N').
  rewrite copy_there_other, (copy_always_other _ _ _ _ _ _ C); [reflexivity| |];
    intros n Hn; apply (N id tag n (or_introl eq_refl)); try (rewrite F; discriminate); unfold all_names; rewrite in_app_iff; tauto.
Qed.
Lemma reorg_get dat ts out out' id tag d nm v : NoDup (map fst ts) -> incl ts tags -> reorg_vars dat ts out = Some out' -> In (id, tag) ts -> find_id dat id = Some d ->
  In nm all_names -> get d nm = Some v -> get out' (nm ++ tag)%string = Some (if String.eqb nm "ensemble" then plus_one v else v).
Proof.
  intros ND IN H HT F Hn G. revert out H. induction ts as [|[i t] ts IH]; intros out H; [destruct HT|]. cbn [reorg_vars] in H.
  inversion ND as [|x y NI ND']; subst. assert (IN' : incl ts tags) by (intros x Hx; apply IN; right; exact Hx).
  destruct HT as [HT|HT].
  - injection HT as -> ->. rewrite F in H. destruct (copy_always tag d always out) as [o|] eqn:C; [|discriminate].
    pose proof (IN _ (or_introl eq_refl)) as T.
    rewrite (reorg_other _ _ _ _ _ H).
    + destruct (in_app_or _ _ _ Hn) as [Ha|Hi].
      * rewrite copy_there_other.
        -- refine (copy_always_get id tag d always out o nm v T _ always_nodup C Ha G). intros m Hm. apply in_or_app. left. exact Hm.
        -- intros m Hm E. destruct (keys_inj _ _ _ _ _ _ T T (in_or_app _ _ _ (or_intror Hm)) Hn E) as [-> _]. exact (names_disjoint nm Ha Hm).
      * assert (Ne : nm <> "ensemble"%string) by (intros ->; exact (names_disjoint "ensemble" ltac:(cbn; tauto) Hi)). rewrite (eqb_neq _ _ Ne).
        refine (copy_there_get id tag d if_there o nm v T _ there_nodup Hi G). intros m Hm. apply in_or_app. right. exact Hm.
    + intros i2 t2 n2 H2 _ Hn2 E. destruct (keys_inj _ _ _ _ _ _ (IN' _ H2) T Hn2 Hn E) as [_ ->]. apply NI. change id with (fst (id, t2)). apply in_map. exact H2.
  - destruct (find_id dat i); [|exact (IH ND' IN' HT _ H)]. destruct (copy_always t _ always out); [|discriminate]. exact (IH ND' IN' HT _ H).
Qed.
(** a name that no record has is not in the result *)
Lemma reorg_absent dat ts out out' k : incl ts tags -> reorg_vars dat ts out = Some out' -> get out k = None ->
  (forall id tag d n, In (id, tag) ts -> find_id dat id = Some d -> In n all_names -> (n ++ tag)%string = k -> get d n = None) -> get out' k = None.
Proof.
  intros IN. revert out. induction ts as [|[id tag] ts IH]; intros out H O N; cbn [reorg_vars] in H; [injection H as <-; exact O|].
  assert (IN' : incl ts tags) by (intros x Hx; apply IN; right; exact Hx).
  assert (N' : forall id tag d n, In (id, tag) ts -> find_id dat id = Some d -> In n all_names -> (n ++ tag)%string = k -> get d n = None)
    by (intros i t d n Ht; apply N; right; exact Ht).
  destruct (find_id dat id) as [d|] eqn:F; [|exact (IH IN' _ H O N')].
  destruct (copy_always tag d always out) as [o|] eqn:C; [|discriminate].
  apply (IH IN' _ H); [|exact N']. apply copy_absent.
  - clear H. revert out o O C. assert (A : incl always always) by (intros x Hx; exact Hx). revert A. generalize always at 1 3 as names.
    induction names as [|n names IHn]; intros A out o O C; cbn [copy_always] in C; [injection C as <-; exact O|].
    destruct (get d n) as [v|] eqn:G; [|discriminate]. refine (IHn (fun x Hx => A x (or_intror Hx)) _ _ _ C).
    destruct (String.eqb_spec (n ++ tag) k) as [E|E]; [|rewrite get_set_other by exact E; exact O].
    rewrite (N id tag d n (or_introl eq_refl) F (in_or_app _ _ _ (or_introl (A n (or_introl eq_refl)))) E) in G. discriminate.
  - intros n Hn E. exact (N id tag d n (or_introl eq_refl) F (in_or_app _ _ _ (or_intror Hn)) E).
Qed.

(** ** what the later steps leave alone *)
Definition touched : list string :=
  ["samp_altraw"; "status_altraw"; "status_alt"; "samp_altraw_avg"; "status_altraw_avg"; "status_alt_avg"; "orientmat"; "orientmat_avg"; "echo_echo"; "echo"]%string
  ++ plain_names ++ angle_names ++ map (fun n => n ++ "_b5")%string (plain_names ++ angle_names).
Definition safe (k : string) : bool :=
  negb (endswith k "raw") && negb (endswith k "raw_avg") && negb (contains "status0" k) && negb (existsb (String.eqb k) touched).
Lemma altraw_keeps tag out out' k : altraw_reorg tag out = Some out' -> endswith k ("raw" ++ tag) = false -> k <> ("samp_altraw" ++ tag)%string ->
  k <> ("status_altraw" ++ tag)%string -> k <> ("status_alt" ++ tag)%string -> get out' k = get out k.
Proof.
  unfold altraw_reorg. set (out1 := filter _ out). intros H E N1 N2 N3.
  assert (G1 : get out1 k = get out k).
  { apply (get_filter (fun s => negb (endswith s ("raw" ++ tag) && negb (endswith s ("_altraw" ++ tag))))%string). rewrite E. reflexivity. }
  destruct (get out1 ("samp_altraw" ++ tag)) as [s|]; [|discriminate]. destruct (get _ ("status_altraw" ++ tag)); [|discriminate].
  destruct (get _ ("status_alt" ++ tag)); [|discriminate]. destruct (collapse _ _) as [pw|]; [|discriminate]. destruct (pw <=? 3); [|discriminate].
  apply some_inj in H. rewrite <- H. rewrite !get_pop_other by (apply not_eq_sym; assumption). rewrite get_set_other by (apply not_eq_sym; assumption). exact G1.
Qed.
Lemma touched_neq k x : safe k = true -> In x touched -> x <> k.
Proof.
  unfold safe. rewrite !andb_true_iff, !negb_true_iff. intros [_ H] I E. subst x. assert (X : existsb (String.eqb k) touched = true); [|rewrite X in H; discriminate].
  apply existsb_exists. exists k. split; [exact I|apply eqb_refl].
Qed.
Lemma reorg_end_keeps dat out dv st k : reorg_end dat out = Some (dv, st) -> safe k = true -> get dv k = get out k.
Proof.
  intros H S. pose proof (fun x => touched_neq k x S) as T. unfold safe in S. rewrite !andb_true_iff, !negb_true_iff in S. destruct S as [[[S1 S2] S3] _].
  unfold reorg_end in H.
  destruct (match find_id dat 26 with Some _ => altraw_reorg "" out | None => Some out end) as [o1|] eqn:E1; [|discriminate].
  destruct (match find_id dat 31 with Some _ => altraw_reorg "_avg" o1 | None => Some o1 end) as [o2|] eqn:E2; [|discriminate].
  destruct (status_of o2); [|discriminate]. injection H as <- _.
  rewrite (get_filter (fun s => negb (contains "status0" s))) by (rewrite S3; reflexivity).
  transitivity (get o1 k).
  - destruct (find_id dat 31); [|injection E2 as <-; reflexivity].
    apply (altraw_keeps "_avg" _ _ _ E2 S2); apply not_eq_sym, T; cbn; tauto.
  - destruct (find_id dat 26); [|injection E1 as <-; reflexivity].
    apply (altraw_keeps "" _ _ _ E1 S1); apply not_eq_sym, T; cbn; tauto.
Qed.
Lemma averages_keeps f names d d' k : averages f names d = Some d' -> (forall n, In n names -> n <> k /\ (n ++ "_b5")%string <> k) -> get d' k = get d k.
Proof.
  revert d. induction names as [|n names IH]; intros d H N; cbn [averages] in H; [injection H as <-; reflexivity|].
  destruct (average f d n (n ++ "_b5")) as [d1|] eqn:A; [|discriminate]. rewrite (IH _ H) by (intros m Hm; apply N; right; exact Hm).
  destruct (N n (or_introl eq_refl)) as [N1 N2]. unfold average in A.
  destruct (get d (n ++ "_b5")) as [b|]; [|injection A as <-; reflexivity]. destruct (get d n) as [a|].
  - destruct (Nat.eqb _ _); [|discriminate]. injection A as <-. rewrite get_set_other, get_pop_other by assumption. reflexivity.
  - injection A as <-. rewrite get_set_other, get_pop_other by assumption. reflexivity.
Qed.
(** the steps of [reduce] *)
Definition moved_avg (dv : dict var) : option (dict var) :=
  match get dv "vel_avg" with
  | None => Some dv
  | Some _ => match get dv "orientmat" with Some _ => Some dv | None =>
      match get dv "orientmat_avg" with Some m => Some (set (pop dv "orientmat_avg") "orientmat" m) | None => None end end
  end.
Definition moved_echo (dv : dict var) : dict var := match get dv "echo_echo" with Some e => set (pop dv "echo_echo") "echo" e | None => dv end.
Definition turned (dv : dict var) : dict var := match get dv "orientmat" with Some m => set dv "orientmat" (map swap_axes m) | None => dv end.
Lemma reduce_steps fh dv dc r : reduce fh dv dc = Some r -> exists d1 d2 d3,
  averages (fun x y => (x + y) / 2)%R plain_names dv = Some d1 /\ averages angle_mean angle_names d1 = Some d2 /\ moved_avg d2 = Some d3 /\
  data_vars r = turned (moved_echo d3) /\
  (get d2 "vel_avg" = None -> get d2 "vel" <> None /\ fs r = burst_SR fh /\ tmat r = XFBURST fh) /\
  (get d2 "vel_avg" <> None -> fs r = plan_MIAVG fh /\ tmat r = XFAVG fh) /\
  (forall t v, get dc t = Some v -> get (times r) t = Some v) /\
  (has_imu r = true <-> get (moved_echo d3) "orientmat" <> None).
Proof.
  unfold reduce. destruct (averages _ plain_names dv) as [d1|]; [|discriminate]. destruct (averages angle_mean angle_names d1) as [d2|] eqn:A2; [|discriminate].
  intros H. exists d1, d2.
  assert (X : exists d3 f tm, moved_avg d2 = Some d3 /\
     (get d2 "vel_avg" = None -> get d2 "vel" <> None /\ f = burst_SR fh /\ tm = XFBURST fh) /\
     (get d2 "vel_avg" <> None -> f = plan_MIAVG fh /\ tm = XFAVG fh) /\
     (let dv := moved_echo d3 in let '(dv, imu) := match get dv "orientmat" with Some m => (set dv "orientmat" (map swap_axes m), true) | None => (dv, false) end in
      let dc := match get dc "time" with Some _ => dc | None => match rev dc with (_, t) :: _ => dc ++ [("time"%string, t)] | [] => dc end end in
      Some (Reduced dv dc f imu tm)) = Some r).
  { unfold moved_avg. destruct (get d2 "vel_avg") as [va|] eqn:GA.
    - destruct (get d2 "orientmat") as [om|] eqn:GO.
      + do 3 eexists. split; [reflexivity|]. split; [discriminate|]. split; [intros _; split; reflexivity|]. exact H.
      + destruct (get d2 "orientmat_avg") as [m|]; [|discriminate].
        do 3 eexists. split; [reflexivity|]. split; [discriminate|]. split; [intros _; split; reflexivity|]. exact H.
    - destruct (get d2 "vel") as [v|] eqn:GV; [|discriminate].
      do 3 eexists. split; [reflexivity|]. split; [intros _; split; [discriminate|split; reflexivity]|]. split; [intros []; reflexivity|]. exact H. }
  destruct X as (d3 & f & tm & M & B & C & E). exists d3. split; [reflexivity|]. split; [exact A2|]. split; [exact M|]. unfold turned. cbv zeta in E.
  assert (TT : forall t v, get dc t = Some v -> get match get dc "time" with Some _ => dc | None => match rev dc with (_, t) :: _ => dc ++ [("time"%string, t)] | [] => dc end end t = Some v).
  { intros t v G. destruct (get dc "time"); [exact G|]. destruct (rev dc) as [|[a b] q]; [exact G|].
    revert G. clear. induction dc as [|[x y] dc IH]; cbn [get app]; [discriminate|]. destruct (String.eqb x t); [easy|exact IH]. }
  destruct (get (moved_echo d3) "orientmat") as [m|] eqn:GM; injection E as <-; cbn [data_vars fs tmat times has_imu].
  - split; [reflexivity|]. split; [exact B|]. split; [exact C|]. split; [exact TT|]. split; [discriminate|reflexivity].
  - split; [reflexivity|]. split; [exact B|]. split; [exact C|]. split; [exact TT|]. split; [discriminate|intros []; reflexivity].
Qed.
Lemma moved_avg_keeps d d' k : moved_avg d = Some d' -> "orientmat"%string <> k -> "orientmat_avg"%string <> k -> get d' k = get d k.
Proof.
  unfold moved_avg. intros H N1 N2. destruct (get d "vel_avg"); [|injection H as <-; reflexivity]. destruct (get d "orientmat"); [injection H as <-; reflexivity|].
  destruct (get d "orientmat_avg"); [|discriminate]. injection H as <-. rewrite get_set_other, get_pop_other by assumption. reflexivity.
Qed.
Lemma moved_echo_keeps d k : "echo_echo"%string <> k -> "echo"%string <> k -> get (moved_echo d) k = get d k.
Proof. unfold moved_echo. intros N1 N2. destruct (get d "echo_echo"); [|reflexivity]. rewrite get_set_other, get_pop_other by assumption. reflexivity. Qed.
Lemma turned_keeps d k : "orientmat"%string <> k -> get (turned d) k = get d k.
Proof. unfold turned. intros N. destruct (get d "orientmat"); [|reflexivity]. rewrite get_set_other by assumption. reflexivity. Qed.
Lemma signature_steps fh dual strings recs r : signature fh dual strings recs = Some r -> exists dat out dv st,
  prepared dual strings recs = Some dat /\ reorg_vars dat tags [] = Some out /\ reorg_end dat out = Some (dv, st) /\ reduce fh dv (reorg_times dat) = Some r.
Proof.
  unfold signature. destruct (prepared dual strings recs) as [dat|]; [|discriminate]. destruct (reorg_vars dat tags []) as [out|] eqn:E; [|discriminate].
  destruct (reorg_end dat out) as [[dv st]|] eqn:F; [|discriminate]. intros H. exists dat, out, dv, st. tauto.
Qed.
Lemma signature_keeps fh dual strings recs r dat id tag d nm v : signature fh dual strings recs = Some r -> prepared dual strings recs = Some dat ->
  In (id, tag) tags -> find_id dat id = Some d -> In nm all_names -> nm <> "ensemble"%string -> safe (nm ++ tag) = true -> get d nm = Some v ->
  get (data_vars r) (nm ++ tag)%string = Some v.
Proof.
  intros H P T F Hn Ne S G. destruct (signature_steps _ _ _ _ _ H) as (dat' & out & dv & st & P' & E1 & E2 & E3). rewrite P in P'. injection P' as <-.
  destruct (reduce_steps _ _ _ _ E3) as (d1 & d2 & d3 & A1 & A2 & M & D & _). rewrite D. set (k := (nm ++ tag)%string) in *.
  pose proof (fun x => touched_neq k x S) as TT.
  assert (PN : forall n, In n (plain_names ++ angle_names) -> n <> k /\ (n ++ "_b5")%string <> k).
  { intros n I. split; apply TT; unfold touched; rewrite !in_app_iff; [rewrite in_app_iff in I; tauto|]. right. right. right.
    exact (in_map (fun n => (n ++ "_b5")%string) _ _ I). }
  rewrite turned_keeps by (apply TT; cbn; tauto). rewrite moved_echo_keeps by (apply TT; cbn; tauto).
  rewrite (moved_avg_keeps _ _ _ M) by (apply TT; cbn; tauto).
  rewrite (averages_keeps _ _ _ _ _ A2) by (intros n I; apply PN, in_or_app; right; exact I).
  rewrite (averages_keeps _ _ _ _ _ A1) by (intros n I; apply PN, in_or_app; left; exact I).
  rewrite (reorg_end_keeps _ _ _ _ _ E2 S).
  assert (ND : NoDup (map fst tags)) by (repeat constructor; cbn; intuition discriminate).
  unfold k. rewrite (reorg_get dat tags [] out id tag d nm v ND (fun x Hx => Hx) E1 T F Hn G). rewrite (eqb_neq _ _ Ne). reflexivity.
Qed.
Definition carried_ok : bool := forallb (fun t => forallb (fun n => safe (n ++ snd t) && existsb (String.eqb n) all_names && negb (String.eqb n "ensemble")) carried) profile_tags.
Lemma carried_safe id tag nm : In (id, tag) profile_tags -> In nm carried -> safe (nm ++ tag) = true /\ In nm all_names /\ nm <> "ensemble"%string.
Proof.
  assert (K : carried_ok = true) by (vm_compute; reflexivity). unfold carried_ok in K. intros A B. rewrite forallb_forall in K. specialize (K _ A).
  rewrite forallb_forall in K. specialize (K _ B). cbn [snd] in K. rewrite !andb_true_iff, negb_true_iff in K. destruct K as [[K1 K2] K3]. split; [exact K1|]. split.
  - apply existsb_exists in K2. destruct K2 as (x & Hx & E). apply String.eqb_eq in E. subst x. exact Hx.
  - apply String.eqb_neq. exact K3.
Qed.
Lemma profile_in_tags id tag : In (id, tag) profile_tags -> In (id, tag) tags.
Proof. unfold profile_tags, tags. cbn [In]. tauto. Qed.

(** ** the orientation matrix, the rate, the times *)
Definition safe_end (k : string) : bool :=
  negb (endswith k "raw") && negb (endswith k "raw_avg") && negb (contains "status0" k) && negb (existsb (String.eqb k) (firstn 6 touched)).
Lemma reorg_end_get dat out dv st k : reorg_end dat out = Some (dv, st) -> safe_end k = true -> get dv k = get out k.
Proof.
  intros H S. unfold safe_end in S. rewrite !andb_true_iff, !negb_true_iff in S. destruct S as [[[S1 S2] S3] S4].
  assert (T : forall x, In x (firstn 6 touched) -> k <> x).
  { intros x I E. subst x. assert (X : existsb (String.eqb k) (firstn 6 touched) = true); [|rewrite X in S4; discriminate].
    apply existsb_exists. exists k. split; [exact I|apply eqb_refl]. }
  unfold reorg_end in H.
  destruct (match find_id dat 26 with Some _ => altraw_reorg "" out | None => Some out end) as [o1|] eqn:E1; [|discriminate].
  destruct (match find_id dat 31 with Some _ => altraw_reorg "_avg" o1 | None => Some o1 end) as [o2|] eqn:E2; [|discriminate].
  destruct (status_of o2); [|discriminate]. injection H as <- _.
  rewrite (get_filter (fun s => negb (contains "status0" s))) by (rewrite S3; reflexivity).
  transitivity (get o1 k).
  - destruct (find_id dat 31); [|injection E2 as <-; reflexivity]. apply (altraw_keeps "_avg" _ _ _ E2 S2); apply T; cbn; tauto.
  - destruct (find_id dat 26); [|injection E1 as <-; reflexivity]. apply (altraw_keeps "" _ _ _ E1 S1); apply T; cbn; tauto.
Qed.
Lemma tags_ids : NoDup (map fst tags). Proof. repeat constructor; cbn; intuition discriminate. Qed.
Lemma find_or dat id : {d | find_id dat id = Some d} + {find_id dat id = None}.
Proof. destruct (find_id dat id) as [d|]; [left; exists d; reflexivity|right; reflexivity]. Qed.
(** the variable of a record after the averages, for a name that they do not change *)
Definition unaveraged (k : string) : bool := negb (existsb (String.eqb k) (plain_names ++ angle_names ++ map (fun n => n ++ "_b5")%string (plain_names ++ angle_names))).
Lemma unaveraged_keeps k : unaveraged k = true -> forall n, In n (plain_names ++ angle_names) -> n <> k /\ (n ++ "_b5")%string <> k.
Proof.
  unfold unaveraged. intros U n I. apply negb_true_iff in U.
  assert (X : forall x, In x (plain_names ++ angle_names ++ map (fun n => n ++ "_b5")%string (plain_names ++ angle_names)) -> x <> k).
  { intros x Ix E. subst x. assert (Y : existsb (String.eqb k) (plain_names ++ angle_names ++ map (fun n => n ++ "_b5")%string (plain_names ++ angle_names)) = true); [|rewrite Y in U; discriminate].
    apply existsb_exists. exists k. split; [exact Ix|apply eqb_refl]. }
  split; apply X; rewrite !in_app_iff; [rewrite in_app_iff in I; tauto|]. right. right. exact (in_map (fun n => (n ++ "_b5")%string) _ _ I).
Qed.
Lemma averages2_get dv d1 d2 k : averages (fun x y => (x + y) / 2)%R plain_names dv = Some d1 -> averages angle_mean angle_names d1 = Some d2 ->
  unaveraged k = true -> get d2 k = get dv k.
Proof.
  intros A1 A2 U. pose proof (unaveraged_keeps k U) as PN.
  rewrite (averages_keeps _ _ _ _ _ A2) by (intros n I; apply PN, in_or_app; right; exact I).
  apply (averages_keeps _ _ _ _ _ A1). intros n I. apply PN, in_or_app. left. exact I.
Qed.
(** what [_reorg] makes of a variable *)
Lemma reorg_var dat out dv st id tag nm : reorg_vars dat tags [] = Some out -> reorg_end dat out = Some (dv, st) -> In (id, tag) tags ->
  In nm all_names -> nm <> "ensemble"%string -> safe_end (nm ++ tag) = true ->
  get dv (nm ++ tag)%string = match find_id dat id with Some d => get d nm | None => None end.
Proof.
  intros E1 E2 T N Ne S. rewrite (reorg_end_get _ _ _ _ _ E2 S).
  assert (A : forall d, find_id dat id = Some d -> get d nm = None -> get out (nm ++ tag)%string = None).
  { intros d F G. apply (reorg_absent dat tags [] out _ (fun x Hx => Hx) E1 eq_refl). intros i t d' n Ht F' Hn E.
    destruct (keys_inj _ _ _ _ _ _ Ht T Hn N E) as [-> ->]. rewrite F in F'. injection F' as <-. exact G. }
  destruct (find_id dat id) as [d|] eqn:F.
  - destruct (get d nm) as [v|] eqn:G.
    + rewrite (reorg_get dat tags [] out id tag d nm v tags_ids (fun x Hx => Hx) E1 T F N G). rewrite (eqb_neq _ _ Ne). reflexivity.
    + exact (A d eq_refl G).
  - apply (reorg_absent dat tags [] out _ (fun x Hx => Hx) E1 eq_refl). intros i t d' n Ht F' Hn E.
    destruct (keys_inj _ _ _ _ _ _ Ht T Hn N E) as [-> ->]. congruence.
Qed.
Definition var_of (dat : list (Z * dict var)) (id : Z) (nm : string) : option var := match find_id dat id with Some d => get d nm | None => None end.
Lemma signature_main fh dual strings recs r : signature fh dual strings recs = Some r -> exists dat d2 d3,
  prepared dual strings recs = Some dat /\ moved_avg d2 = Some d3 /\ data_vars r = turned (moved_echo d3) /\
  get d2 "orientmat" = var_of dat 21 "orientmat" /\ get d2 "orientmat_avg" = var_of dat 22 "orientmat" /\
  get d2 "vel" = var_of dat 21 "vel" /\ get d2 "vel_avg" = var_of dat 22 "vel" /\
  (get d2 "vel_avg" = None -> get d2 "vel" <> None /\ fs r = burst_SR fh /\ tmat r = XFBURST fh) /\
  (get d2 "vel_avg" <> None -> fs r = plan_MIAVG fh /\ tmat r = XFAVG fh) /\
  (forall t v, get (reorg_times dat) t = Some v -> get (times r) t = Some v) /\
  (has_imu r = true <-> get (moved_echo d3) "orientmat" <> None).
Proof.
  intros H. destruct (signature_steps _ _ _ _ _ H) as (dat & out & dv & st & P & E1 & E2 & E3).
  destruct (reduce_steps _ _ _ _ E3) as (d1 & d2 & d3 & A1 & A2 & M & D & F1 & F2 & TT & IM). exists dat, d2, d3.
  split; [exact P|]. split; [exact M|]. split; [exact D|]. unfold var_of.
  assert (T1 : In (21, ""%string) tags) by (cbn; tauto). assert (T2 : In (22, "_avg"%string) tags) by (cbn; tauto).
  assert (NO : In "orientmat"%string all_names) by (cbn; tauto). assert (NV : In "vel"%string all_names) by (cbn; tauto).
  rewrite !(averages2_get _ _ _ _ A1 A2) by reflexivity.
  rewrite <- (reorg_var _ _ _ _ 21 "" "orientmat" E1 E2 T1 NO ltac:(discriminate) eq_refl).
  rewrite <- (reorg_var _ _ _ _ 22 "_avg" "orientmat" E1 E2 T2 NO ltac:(discriminate) eq_refl).
  rewrite <- (reorg_var _ _ _ _ 21 "" "vel" E1 E2 T1 NV ltac:(discriminate) eq_refl).
  rewrite <- (reorg_var _ _ _ _ 22 "_avg" "vel" E1 E2 T2 NV ltac:(discriminate) eq_refl).
  cbn [append]. rewrite (averages2_get _ _ _ "vel_avg" A1 A2) in F1, F2 by reflexivity. rewrite (averages2_get _ _ _ "vel" A1 A2) in F1 by reflexivity.
  repeat (split; [reflexivity|]). split; [exact F1|]. split; [exact F2|]. split; [exact TT|exact IM].
Qed.
Lemma orient_main fh dual strings recs r dat v : signature fh dual strings recs = Some r -> prepared dual strings recs = Some dat ->
  var_of dat 21 "orientmat" = Some v \/ (var_of dat 21 "orientmat" = None /\ var_of dat 22 "orientmat" = Some v /\ var_of dat 22 "vel" <> None) ->
  get (data_vars r) "orientmat" = Some (map swap_axes v) /\ has_imu r = true.
Proof.
  intros H P C. destruct (signature_main _ _ _ _ _ H) as (dat' & d2 & d3 & P' & M & D & O & OA & V & VA & _ & _ & _ & IM). rewrite P in P'. injection P' as <-.
  assert (X : get (moved_echo d3) "orientmat" = Some v).
  { rewrite moved_echo_keeps by discriminate. unfold moved_avg in M. rewrite O, OA, VA in M. destruct C as [C|(C1 & C2 & C3)].
    - rewrite C in M. destruct (var_of dat 22 "vel"); injection M as <-; rewrite O; exact C.
    - rewrite C1, C2 in M. destruct (var_of dat 22 "vel"); [|contradiction C3; reflexivity]. injection M as <-. apply get_set_same. }
  split; [|apply IM; rewrite X; discriminate]. rewrite D. unfold turned. rewrite X. apply get_set_same.
Qed.
Lemma orient_second fh dual strings recs r dat v w : signature fh dual strings recs = Some r -> prepared dual strings recs = Some dat ->
  var_of dat 21 "orientmat" = Some v -> var_of dat 22 "orientmat" = Some w -> get (data_vars r) "orientmat_avg" = Some w.
Proof.
  intros H P C1 C2. destruct (signature_main _ _ _ _ _ H) as (dat' & d2 & d3 & P' & M & D & O & OA & V & VA & _ & _ & _ & IM). rewrite P in P'. injection P' as <-.
  rewrite D, turned_keeps, moved_echo_keeps by discriminate. unfold moved_avg in M. rewrite O, C1 in M.
  destruct (get d2 "vel_avg"); injection M as <-; rewrite OA; exact C2.
Qed.
Lemma rate_burst fh dual strings recs r dat : signature fh dual strings recs = Some r -> prepared dual strings recs = Some dat -> var_of dat 22 "vel" = None ->
  fs r = burst_SR fh /\ tmat r = XFBURST fh.
Proof.
  intros H P C. destruct (signature_main _ _ _ _ _ H) as (dat' & d2 & d3 & P' & M & D & O & OA & V & VA & F1 & _). rewrite P in P'. injection P' as <-.
  apply F1. rewrite VA. exact C.
Qed.
Lemma rate_avg fh dual strings recs r dat : signature fh dual strings recs = Some r -> prepared dual strings recs = Some dat -> var_of dat 22 "vel" <> None ->
  fs r = plan_MIAVG fh /\ tmat r = XFAVG fh.
Proof.
  intros H P C. destruct (signature_main _ _ _ _ _ H) as (dat' & d2 & d3 & P' & M & D & O & OA & V & VA & _ & F2 & _). rewrite P in P'. injection P' as <-.
  apply F2. rewrite VA. exact C.
Qed.
Lemma times_get dat id nm d : In (id, nm) time_names -> find_id dat id = Some d -> get (reorg_times dat) nm = Some (calc_time d).
Proof.
  unfold reorg_times. assert (N : NoDup (map snd time_names)) by (apply nodupb_ok; vm_compute; reflexivity). revert N. generalize time_names.
  induction l as [|[i n] l IH]; intros N I F; [destruct I|]. cbn [map snd] in N. inversion N as [|x y NI N']; subst. cbn [map concat fst snd].
  assert (G : forall (l' l2 : dict (list (option Q))), ~ In nm (map fst l') -> get (l' ++ l2) nm = get l2 nm).
  { intros l' l2 Ni. induction l' as [|[a b] l' IHl]; [reflexivity|]. cbn [app get]. cbn [map fst In] in Ni. rewrite eqb_neq by tauto. apply IHl. tauto. }
  destruct I as [E|I].
  - injection E as -> ->. rewrite F. cbn [app get]. rewrite eqb_refl. reflexivity.
  - rewrite G; [exact (IH N' I F)|]. assert (n <> nm). { intros ->. apply NI. change nm with (snd (id, nm)). apply in_map. exact I. }
    destruct (find_id dat i); cbn; tauto.
Qed.
Lemma signature_times fh dual strings recs r dat id nm d : signature fh dual strings recs = Some r -> prepared dual strings recs = Some dat ->
  In (id, nm) time_names -> find_id dat id = Some d -> get (times r) nm = Some (calc_time d).
Proof.
  intros H P I F. destruct (signature_main _ _ _ _ _ H) as (dat' & d2 & d3 & P' & _ & _ & _ & _ & _ & _ & _ & _ & TT & _). rewrite P in P'. injection P' as <-.
  apply TT. exact (times_get _ _ _ _ I F).
Qed.
Lemma swap_transposed c : transposed c (swap_axes c).
Proof.
  split; [reflexivity|]. intros i j Hi Hj. unfold entry9, swap_axes.
  destruct i as [|[|[|i]]]; [| | |lia]; (destruct j as [|[|[|j]]]; [| | |lia]); reflexivity.
Qed.

(** ** the pings of one of two profiles *)
Definition per_ping (F : list (option (list (list Z))) -> option var) : Prop :=
  (forall pings, F pings = None) \/ exists g : option (list (list Z)) -> column, forall pings, F pings = Some (map g pings).
Lemma get_indexed_none {B} (g : nat -> field -> B) l i nm : ~ In nm (map fname l) ->
  get (map (fun p => (fname (snd p), g (fst p) (snd p))) (combine (seq i (length l)) l)) nm = None.
Proof.
  revert i. induction l as [|f l IH]; intros i N; [reflexivity|]. cbn [length seq combine map get fst snd]. cbn [map In] in N.
  rewrite eqb_neq by tauto. apply IH. tauto.
Qed.
Lemma table_per id l nm : NoDup (map fname l) -> per_ping (fun pings => get (table id l pings) nm).
Proof.
  intros ND. destruct (in_dec string_dec nm (map fname l)) as [I|N].
  - apply in_map_iff in I. destruct I as (f & E & I). apply In_nth_error in I. destruct I as (i & Hi). right. eexists. intros pings. rewrite <- E.
    exact (table_get id l pings i f ND Hi).
  - left. intros pings. unfold table.
    exact (get_indexed_none (fun i f => map (fun c => match c with Some vals => map (stored id f) (nth i vals []) | None => blank f end) pings) l 0 nm N).
Qed.
Lemma sci_per id l nm : NoDup (map fname l) -> nm <> "ensemble"%string ->
  per_ping (fun pings => get (map (sci_one id) (set (table id l pings) "ensemble" (map (fun k => [Int (Z.of_nat k)]) (seq 0 (length pings))))) nm).
Proof.
  intros ND Ne.
  assert (E : forall d, get (map (sci_one id) d) nm = option_map (fun v => match sci_func id nm with Some (sc, off) => map (map (linfunc sc off)) v | None => v end) (get d nm)).
  { intros d. unfold sci_one. rewrite (get_map_snd (fun nm v => match sci_func id nm with Some (sc, off) => map (map (linfunc sc off)) v | None => v end)). reflexivity. }
  destruct (table_per id l nm ND) as [T|[g T]].
  - left. intros pings. rewrite E, get_set_other by congruence. rewrite T. reflexivity.
  - right. exists (fun c => match sci_func id nm with Some (sc, off) => map (linfunc sc off) (g c) | None => g c end). intros pings.
    rewrite E, get_set_other by congruence. rewrite T. cbn [option_map]. destruct (sci_func id nm) as [[sc off]|]; [|reflexivity].
    rewrite map_map. reflexivity.
Qed.
Lemma combine_map {A B C} (f : A -> B) (g : A -> C) l : combine (map f l) (map g l) = map (fun x => (f x, g x)) l.
Proof. induction l as [|x l IH]; [reflexivity|]. cbn [map combine]. rewrite IH. reflexivity. Qed.
Lemma record_per id l nm : NoDup (map fname l) -> nm <> "ensemble"%string -> per_ping (fun pings => get (snd (record_of (id, l, pings))) nm).
Proof.
  intros ND Ne. destruct (string_dec nm "vel") as [->|Nv].
  - destruct (sci_per id l "vel" ND Ne) as [T|[g T]].
    + left. intros pings. cbn [record_of snd]. unfold sci_data, vel_scaled. rewrite T. apply T.
    + destruct (sci_per id l "vel_scale" ND ltac:(discriminate)) as [S|[h S]].
      * right. exists g. intros pings. cbn [record_of snd]. unfold sci_data, vel_scaled. rewrite T, S. apply T.
      * right. eexists. intros pings. cbn [record_of snd]. unfold sci_data, vel_scaled. rewrite T, S. rewrite get_set_same, combine_map, map_map. reflexivity.
  - destruct (sci_per id l nm ND Ne) as [T|[g T]].
    + left. intros pings. cbn [record_of snd]. unfold sci_data, vel_scaled. destruct (get _ "vel"); [|apply T]. destruct (get _ "vel_scale"); [|apply T].
      rewrite get_set_other by congruence. apply T.
    + right. exists g. intros pings. cbn [record_of snd]. unfold sci_data, vel_scaled. destruct (get _ "vel"); [|apply T]. destruct (get _ "vel_scale"); [|apply T].
      rewrite get_set_other by congruence. apply T.
Qed.
Lemma filter_combine {A B} (g : A -> B) (h : A -> bool) l : map fst (filter snd (combine (map g l) (map h l))) = map g (filter h l).
Proof.
  rewrite combine_map. induction l as [|x l IH]; [reflexivity|]. cbn [map filter snd]. destruct (h x); [|exact IH]. cbn [map fst]. rewrite IH. reflexivity.
Qed.
Lemma has_ver id config beams l : reader_for id config beams = Some l -> exists f, In f l /\ fname f = "ver"%string.
Proof.
  unfold reader_for. destruct (id =? 28); [|destruct (id =? 23)].
  - unfold calc_echo_struct. destruct (existsb _ _); [discriminate|]. intros H. apply some_inj in H. rewrite <- H. eexists. split; [apply in_or_app; left; left; reflexivity|reflexivity].
  - intros H. apply some_inj in H. rewrite <- H. eexists. split; [apply in_or_app; left; left; reflexivity|reflexivity].
  - unfold calc_burst_struct. destruct (flag _ _); [discriminate|]. intros H. apply some_inj in H. rewrite <- H. eexists. split; [apply in_or_app; left; left; reflexivity|reflexivity].
Qed.
Lemma clean_record id config beams l pings f : reader_for id config beams = Some l -> In f l -> fname f = "ver"%string -> all_versions l pings ->
  exists d, clean_one (snd (record_of (id, l, pings))) = Some d /\
    forall nm, nm <> "ensemble"%string -> get d nm = get (snd (record_of (id, l, somes pings))) nm.
Proof.
  intros HR If Ef AV. pose proof (reader_names _ _ _ _ HR) as ND. apply In_nth_error in If. destruct If as (i & Hi).
  assert (FN := field_number _ _ _ _ _ _ HR (nth_error_In _ _ Hi) Ef ltac:(cbn; tauto)).
  pose proof (fun ps => table_get id l ps i f ND Hi) as TG. rewrite Ef in TG.
  set (gv := fun c => match c with Some vals => map (stored id f) (nth i vals []) | None => blank f end) in *.
  assert (V : forall ps, get (snd (record_of (id, l, ps))) "ver" = Some (map gv ps)).
  { intros ps. rewrite record_get by discriminate. rewrite TG. cbn [option_map].
    assert (X : sci_func id "ver" = None) by (unfold sci_func; rewrite !andb_false_r; reflexivity). rewrite X. reflexivity. }
  set (keepf := fun c => negb (first_int (gv c) =? 0)).
  assert (K : filter keepf pings = somes pings).
  { assert (KN : keepf None = false).
    { unfold keepf, gv, blank. destruct (fkind f); destruct (fN f); reflexivity. }
    assert (KS : forall vals, In (Some vals) pings -> keepf (Some vals) = true).
    { intros vals Hv. apply In_nth_error in Hv. destruct Hv as (k & Hk). destruct (AV _ _ Hk) as (v & (vals' & i' & f' & Hp & Hf & Hn & Hr) & Nz).
      rewrite Hk in Hp. injection Hp as <-.
      assert (i' = i).
      { apply (proj1 (NoDup_nth_error (map fname l)) ND); [rewrite map_length; apply nth_error_Some; congruence|].
        rewrite (map_nth_error fname _ _ Hf), (map_nth_error fname _ _ Hi), Hn, Ef. reflexivity. }
      subst i'. unfold keepf, gv. rewrite (nth_error_nth _ _ _ Hr). cbn [map]. rewrite FN. cbn [first_int]. rewrite (proj2 (Z.eqb_neq v 0) Nz). reflexivity. }
    clear - KN KS. induction pings as [|[vals|] ps IH]; [reflexivity| |].
    - cbn [filter somes]. rewrite KS by (left; reflexivity). rewrite IH; [reflexivity|]. intros v Hv. apply KS. right. exact Hv.
    - cbn [filter somes]. rewrite KN. apply IH. intros v Hv. apply KS. right. exact Hv. }
  unfold clean_one. rewrite V. eexists. split; [reflexivity|]. intros nm Ne.
  pose proof (get_map_snd (fun _ (v : var) => map fst (filter snd (combine v (map (fun c => negb (first_int c =? 0)) (map gv pings))))) (snd (record_of (id, l, pings))) nm) as GM.
  transitivity (option_map (fun v : var => map fst (filter snd (combine v (map (fun c => negb (first_int c =? 0)) (map gv pings))))) (get (snd (record_of (id, l, pings))) nm)); [exact GM|]. clear GM.
  destruct (record_per id l nm ND Ne) as [T|[g T]].
  - rewrite !T. reflexivity.
  - rewrite !T. cbn [option_map]. f_equal. rewrite map_map. fold keepf. rewrite filter_combine, K. reflexivity.
Qed.
Lemma find_clean dat dat' id d : clean_all dat = Some dat' -> find_id dat id = Some d -> exists d', find_id dat' id = Some d' /\ clean_one d = Some d'.
Proof.
  revert dat'. induction dat as [|[i x] dat IH]; intros dat' C F; [discriminate F|]. cbn [clean_all] in C.
  destruct (clean_one x) as [x'|] eqn:Ex; [|discriminate C]. destruct (clean_all dat) as [r|] eqn:Er; [|discriminate C].
  apply some_inj in C. rewrite <- C. unfold find_id in *. cbn [find fst] in *. destruct (i =? id).
  - exists x'. split; [reflexivity|]. cbn [snd] in F. injection F as <-. exact Ex.
  - exact (IH r eq_refl F).
Qed.
Lemma find_record recs id l pings : NoDup (map (fun p => fst (fst p)) recs) -> In (id, l, pings) recs ->
  find_id (map record_of recs) id = Some (snd (record_of (id, l, pings))).
Proof.
  intros ND I. induction recs as [|[[i l'] ps] recs IH]; [destruct I|]. cbn [map fst] in ND. inversion ND as [|x y NI ND']; subst.
  unfold find_id in *. cbn [map find]. change (fst (record_of (i, l', ps))) with i. destruct I as [E|I].
  - injection E as -> -> ->. rewrite Z.eqb_refl. reflexivity.
  - destruct (Z.eqb_spec i id) as [->|N]; [|exact (IH ND' I)]. exfalso. apply NI. apply in_map_iff. exists (id, l, pings). split; [reflexivity|exact I].
Qed.
Lemma prepared_single recs strings id l pings : NoDup (map (fun p => fst (fst p)) recs) -> In (id, l, pings) recs ->
  exists dat, prepared false strings recs = Some dat /\ find_id dat id = Some (snd (record_of (id, l, pings))).
Proof. intros ND I. eexists. split; [reflexivity|]. exact (find_record _ _ _ _ ND I). Qed.
Lemma prepared_dual recs strings dat id config beams l pings : prepared true strings recs = Some dat -> NoDup (map (fun p => fst (fst p)) recs) -> In (id, l, pings) recs ->
  reader_for id config beams = Some l -> all_versions l pings ->
  exists d, find_id dat id = Some d /\ forall nm, nm <> "ensemble"%string -> get d nm = get (snd (record_of (id, l, somes pings))) nm.
Proof.
  intros P ND I HR AV. destruct (has_ver _ _ _ _ HR) as (f & If & Ef). unfold prepared, clean_dp_skips in P. destruct strings; [discriminate P|].
  destruct (find_clean _ _ _ _ P (find_record _ _ _ _ ND I)) as (d' & F & C).
  destruct (clean_record _ _ _ _ _ _ HR If Ef AV) as (d & C' & G). rewrite C in C'. injection C' as ->. exists d. split; [exact F|exact G].
Qed.

(** ** the samples of raw altimeter pings *)
Lemma altraw_samples out out' v : altraw_reorg "" out = Some out' -> get out "samp_altraw" = Some v ->
  get out' "samp_altraw" = Some (map (map (linfunc (1 / 2 ^ 8)%R 0%R)) v).
Proof.
  intros H G. unfold altraw_reorg in H. set (P := fun s => negb (endswith s ("raw" ++ "") && negb (endswith s ("_altraw" ++ "")))%string).
  change (filter _ out) with (filter (fun p => P (fst p)) out) in H. set (out1 := filter _ out) in H.
  assert (G1 : get out1 ("samp_altraw" ++ "")%string = Some v) by (unfold out1; rewrite (get_filter P) by reflexivity; exact G).
  rewrite G1 in H. destruct (get _ ("status_altraw" ++ "")); [|discriminate]. destruct (get _ ("status_alt" ++ "")); [|discriminate].
  destruct (collapse _ _) as [pw|]; [|discriminate]. destruct (pw <=? 3); [|discriminate]. apply some_inj in H. rewrite <- H.
  rewrite !get_pop_other by discriminate. apply get_set_same.
Qed.
Lemma signature_samples fh dual strings recs r dat d v : signature fh dual strings recs = Some r -> prepared dual strings recs = Some dat ->
  find_id dat 26 = Some d -> get d "samp_alt" = Some v -> get (data_vars r) "samp_altraw" = Some (map (map (linfunc (1 / 2 ^ 8)%R 0%R)) v).
Proof.
  intros H P F G. destruct (signature_steps _ _ _ _ _ H) as (dat' & out & dv & st & P' & E1 & E2 & E3). rewrite P in P'. injection P' as <-.
  destruct (reduce_steps _ _ _ _ E3) as (d1 & d2 & d3 & A1 & A2 & M & D & _). rewrite D.
  rewrite turned_keeps, moved_echo_keeps, (moved_avg_keeps _ _ _ M), (averages2_get _ _ _ _ A1 A2) by (discriminate || reflexivity).
  pose proof (reorg_get dat tags [] out 26 "raw" d "samp_alt" v tags_ids (fun x Hx => Hx) E1 ltac:(cbn; tauto) F ltac:(cbn; tauto) G) as O. cbn [String.eqb Ascii.eqb Bool.eqb append] in O.
  unfold reorg_end in E2. rewrite F in E2. destruct (altraw_reorg "" out) as [o1|] eqn:A; [|discriminate].
  pose proof (altraw_samples _ _ _ A O) as O1.
  destruct (match find_id dat 31 with Some _ => altraw_reorg "_avg" o1 | None => Some o1 end) as [o2|] eqn:B; [|discriminate].
  destruct (status_of o2); [|discriminate]. injection E2 as <- _. rewrite (get_filter (fun s => negb (contains "status0" s))) by reflexivity.
  rewrite <- O1. destruct (find_id dat 31); [|injection B as <-; reflexivity]. apply (altraw_keeps "_avg" _ _ _ B); (reflexivity || discriminate).
Qed.
Lemma sample_values l pings i f k vals raws : NoDup (map fname l) -> nth_error l i = Some f -> fname f = "samp_alt"%string -> nth_error pings k = Some (Some vals) ->
  nth_error vals i = Some raws -> Forall (fun n => 0 <= n < 65536) raws ->
  exists v, get (snd (record_of (26, l, pings))) "samp_alt" = Some v /\ nth_error v k = Some (map Int raws).
Proof.
  intros ND Hi Ef Hk Hr B. rewrite record_get by discriminate. pose proof (table_get 26 l pings i f ND Hi) as T. rewrite Ef in T. rewrite T. cbn [option_map].
  change (sci_func 26 "samp_alt") with (@None (R * R)). eexists. split; [reflexivity|].
  rewrite (map_nth_error _ _ _ Hk). f_equal. rewrite (nth_error_nth _ _ _ Hr). apply map_ext_in. intros n In_. unfold stored. rewrite Ef.
  change ((26 =? 26) || (26 =? 31) && true)%bool with true. cbn [andb orb Z.eqb Pos.eqb]. rewrite String.eqb_refl.
  rewrite Forall_forall in B. rewrite Z.mod_small by (apply B; exact In_). reflexivity.
Qed.

(** ** splitting *)
Lemma get_rename d om k : om <> k -> "orientmat"%string <> k -> get (map (fun p : string * var => (if String.eqb (fst p) om then "orientmat"%string else fst p, snd p)) d) k = get d k.
Proof.
  intros N1 N2. induction d as [|[a b] d IH]; [reflexivity|]. cbn [map get fst snd]. destruct (String.eqb_spec a om) as [->|N].
  - rewrite (eqb_neq _ _ N1), (eqb_neq _ _ N2). exact IH.
  - destruct (String.eqb a k); [reflexivity|exact IH].
Qed.
Lemma get_renamed d om : get d "orientmat" = None -> get (map (fun p : string * var => (if String.eqb (fst p) om then "orientmat"%string else fst p, snd p)) d) "orientmat" = get d om.
Proof.
  induction d as [|[a b] d IH]; intros H; [reflexivity|]. cbn [map get fst snd] in *. destruct (String.eqb_spec a om) as [->|N].
  - rewrite String.eqb_refl. reflexivity.
  - destruct (String.eqb a "orientmat"); [discriminate H|exact (IH H)].
Qed.
Lemma split_parts n m dv a b : n <> m -> split_dp [("time", n); ("time_avg", m)]%string dv = Some (a, b) ->
  (forall k, time_axis k = "time"%string -> get a k = get dv k) /\
  (forall k, time_axis k = "time_avg"%string -> get a k = None) /\
  (forall k, time_axis k = "time_avg"%string -> k <> "orientmat_avg"%string -> get b k = get dv k) /\
  (forall k, time_axis k = "time"%string -> k <> "orientmat"%string -> get b k = None) /\
  get b "orientmat" = get dv "orientmat_avg".
Proof.
  intros N H. unfold split_dp, other_times in H. cbn [get] in H. change (String.eqb "time" "time") with true in H. cbn match in H.
  cbn [filter fst snd] in H. rewrite Nat.eqb_refl in H. cbn [negb andb] in H. rewrite (proj2 (Nat.eqb_neq m n)) in H by congruence.
  change (negb (endswith "time_avg" "altraw")) with true in H. cbn [negb andb filter map fst] in H.
  change (("orientmat_" ++ last_part "" "time_avg")%string) with "orientmat_avg"%string in H.
  set (M := fun s => existsb (String.eqb (time_axis s)) ["time_avg"%string]) in H.
  change (filter (fun p => existsb (String.eqb (time_axis (fst p))) ["time_avg"%string]) dv) with (filter (fun p => M (fst p)) dv) in H.
  destruct (get (filter (fun p => M (fst p)) dv) "orientmat_avg"); [|discriminate H].
  assert (HA : filter (fun p => negb (M (fst p))) dv = a) by (apply some_inj in H; exact (f_equal fst H)).
  assert (HB : map (fun p : string * var => (if String.eqb (fst p) "orientmat_avg" then "orientmat"%string else fst p, snd p)) (filter (fun p => M (fst p)) dv) = b)
    by (apply some_inj in H; exact (f_equal snd H)).
  assert (M1 : forall k, time_axis k = "time"%string -> M k = false) by (intros k E; unfold M; rewrite E; reflexivity).
  assert (M2 : forall k, time_axis k = "time_avg"%string -> M k = true) by (intros k E; unfold M; rewrite E; reflexivity).
  rewrite <- HA, <- HB. clear H HA HB. repeat split.
  - intros k E. rewrite (get_filter (fun s => negb (M s))); [reflexivity|]. rewrite (M1 k E). reflexivity.
  - intros k E. rewrite (get_filter_no (fun s => negb (M s))); [reflexivity|]. rewrite (M2 k E). reflexivity.
  - intros k E Nk. rewrite get_rename; [|congruence|intros <-; discriminate E]. apply get_filter. exact (M2 k E).
  - intros k E Nk. rewrite get_rename; [|intros <-; discriminate E|congruence]. apply get_filter_no. exact (M1 k E).
  - rewrite get_renamed by (apply get_filter_no; reflexivity). apply get_filter. reflexivity.
Qed.
Lemma split_equal n dv ts : get ts "time"%string = Some n -> (forall t m, In (t, m) ts -> m = n \/ endswith t "altraw" = true) -> split_dp ts dv = None.
Proof.
  intros G A. unfold split_dp, other_times. rewrite G.
  assert (E : filter (fun p : string * nat => negb (Nat.eqb (snd p) n) && negb (endswith (fst p) "altraw")) ts = []).
  { clear G. induction ts as [|[t m] ts IH]; [reflexivity|]. cbn [filter fst snd]. destruct (A t m (or_introl eq_refl)) as [->|E].
    - rewrite Nat.eqb_refl. cbn [negb andb]. apply IH. intros t' m' I. apply A. right. exact I.
    - rewrite E, andb_false_r. apply IH. intros t' m' I. apply A. right. exact I. }
  rewrite E. reflexivity.
Qed.
Definition axes_ok : bool := forallb (fun nm => String.eqb (time_axis nm) "time" && String.eqb (time_axis (nm ++ "_avg")) "time_avg")%string (carried ++ ["orientmat"%string]).
Lemma axes nm : In nm (carried ++ ["orientmat"%string]) -> time_axis nm = "time"%string /\ time_axis (nm ++ "_avg") = "time_avg"%string.
Proof.
  assert (K : axes_ok = true) by (vm_compute; reflexivity). unfold axes_ok in K. rewrite forallb_forall in K. intros I. specialize (K _ I).
  rewrite andb_true_iff in K. destruct K as [A B]. apply String.eqb_eq in A, B. tauto.
Qed.

(** ** the status *)
Lemma name_of_const names c n nm : n <> O -> find (fun p => fst p =? c) names = Some (c, nm) -> name_of names (repeat c n) = Some nm.
Proof.
  intros N F. unfold name_of. rewrite (Verif.Proofs.Ad2cp.collapse_uniform (repeat c n) c []).
  - rewrite F. reflexivity.
  - destruct n; [contradiction|left; reflexivity].
  - intros x y Hx Hy. apply repeat_spec in Hx, Hy. congruence.
Qed.
Lemma bits_mod v a b : 0 <= a -> a <= b -> bits v a b = (v / 2 ^ a) mod 2 ^ (b - a).
Proof. intros A B. unfold bits. rewrite <- Z.shiftr_div_pow2 by exact A. rewrite <- Z.land_ones by lia. rewrite Z.ones_equiv. reflexivity. Qed.
Lemma status_word low a o w : 0 <= low < 2 ^ 22 -> 0 <= a < 8 -> 0 <= o < 8 -> 0 <= w < 16 ->
  let s := low + 2 ^ 22 * (a + 8 * (o + 8 * w)) in bits s 22 25 = a /\ bits s 25 28 = o /\ bits s 28 32 = w.
Proof.
  intros L A O W s. rewrite !bits_mod by lia. change (25 - 22) with 3. change (28 - 25) with 3. change (32 - 28) with 4.
  assert (E1 : s / 2 ^ 22 = a + 8 * (o + 8 * w)) by (unfold s; rewrite Z.mul_comm, Z.div_add by lia; rewrite (Z.div_small low) by exact L; lia).
  assert (E2 : s / 2 ^ 25 = o + 8 * w).
  { change 25 with (22 + 3). rewrite Z.pow_add_r, <- Z.div_div by lia. rewrite E1. change (2 ^ 3) with 8. rewrite Z.mul_comm, Z.div_add by lia. rewrite (Z.div_small a) by exact A. lia. }
  assert (E3 : s / 2 ^ 28 = w).
  { change 28 with (25 + 3). rewrite Z.pow_add_r, <- Z.div_div by lia. rewrite E2. change (2 ^ 3) with 8. rewrite Z.mul_comm, Z.div_add by lia. rewrite (Z.div_small o) by exact O. lia. }
  rewrite E1, E2, E3. change (2 ^ 3) with 8. change (2 ^ 4) with 16. split; [|split].
  - rewrite Z.mul_comm, Z.mod_add by lia. apply Z.mod_small. exact A.
  - rewrite Z.mul_comm, Z.mod_add by lia. apply Z.mod_small. exact O.
  - apply Z.mod_small. exact W.
Qed.
Lemma map_repeat' {A B} (f : A -> B) x n : map f (repeat x n) = repeat (f x) n.
Proof. induction n as [|n IH]; [reflexivity|]. cbn [repeat map]. rewrite IH. reflexivity. Qed.
Lemma named names c nm : NoDup (map fst names) -> In (c, nm) names -> find (fun p : Z * string => fst p =? c) names = Some (c, nm).
Proof.
  intros ND I. induction names as [|[x y] names IH]; [destruct I|]. cbn [map fst] in ND. inversion ND as [|p q NI ND']; subst. cbn [find fst]. destruct I as [E|I].
  - injection E as -> ->. rewrite Z.eqb_refl. reflexivity.
  - destruct (Z.eqb_spec x c) as [->|N]; [|exact (IH ND' I)]. exfalso. apply NI. change c with (fst (c, nm)). apply in_map. exact I.
Qed.
Lemma decoded low a o w an on wn n : 0 <= low < 2 ^ 22 -> In (a, an) orient_status -> In (o, on) nortek_orient -> In (w, wn) wake -> n <> O ->
  decode_status (repeat (low + 2 ^ 22 * (a + 8 * (o + 8 * w))) n) = Some (Status wn on an).
Proof.
  intros L A O W N.
  assert (BA : 0 <= a < 8) by (cbn in A; repeat (destruct A as [A|A]; [injection A as <- _; lia|]); destruct A).
  assert (BO : 0 <= o < 8) by (cbn in O; repeat (destruct O as [O|O]; [injection O as <- _; lia|]); destruct O).
  assert (BW : 0 <= w < 16) by (cbn in W; repeat (destruct W as [W|W]; [injection W as <- _; lia|]); destruct W).
  destruct (status_word low a o w L BA BO BW) as (E1 & E2 & E3). unfold decode_status. rewrite !map_repeat', E1, E2, E3.
  assert (NW : NoDup (map fst wake)) by (repeat constructor; cbn; intuition discriminate).
  assert (NO : NoDup (map fst nortek_orient)) by (repeat constructor; cbn; intuition discriminate).
  assert (NA : NoDup (map fst orient_status)) by (repeat constructor; cbn; intuition discriminate).
  rewrite (name_of_const wake w n wn N (named _ _ _ NW W)), (name_of_const nortek_orient o n on N (named _ _ _ NO O)), (name_of_const orient_status a n an N (named _ _ _ NA A)).
  reflexivity.
Qed.

(** ** sensors, without a fifth beam *)
Lemma averages_absent f names d : (forall n, In n names -> get d (n ++ "_b5")%string = None) -> averages f names d = Some d.
Proof.
  induction names as [|n names IH]; intros H; [reflexivity|]. cbn [averages]. unfold average. rewrite (H n (or_introl eq_refl)). apply IH.
  intros m I. apply H. right. exact I.
Qed.
Lemma no_b5 dat out dv st nm : reorg_vars dat tags [] = Some out -> reorg_end dat out = Some (dv, st) -> find_id dat 24 = None ->
  In nm (plain_names ++ angle_names) -> get dv (nm ++ "_b5")%string = None.
Proof.
  intros E1 E2 F I.
  assert (K : forallb (fun nm => safe_end (nm ++ "_b5") && existsb (String.eqb nm) all_names && negb (String.eqb nm "ensemble"))%string (plain_names ++ angle_names) = true) by (vm_compute; reflexivity).
  rewrite forallb_forall in K. specialize (K nm I). rewrite !andb_true_iff, negb_true_iff in K. destruct K as [[K1 K2] K3].
  apply existsb_exists in K2. destruct K2 as (x & Hx & E). apply String.eqb_eq in E. subst x.
  rewrite (reorg_var _ _ _ _ 24 "_b5" nm E1 E2 ltac:(cbn; tauto) Hx (proj1 (String.eqb_neq _ _) K3) K1). rewrite F. reflexivity.
Qed.
Lemma sensor_keeps fh dual strings recs r dat id tag d nm v : signature fh dual strings recs = Some r -> prepared dual strings recs = Some dat ->
  In (id, tag) profile_tags -> find_id dat 24 = None -> find_id dat id = Some d -> In nm sensors -> get d nm = Some v -> get (data_vars r) (nm ++ tag)%string = Some v.
Proof.
  intros H P T F5 F S G. destruct (signature_steps _ _ _ _ _ H) as (dat' & out & dv & st & P' & E1 & E2 & E3). rewrite P in P'. injection P' as <-.
  destruct (reduce_steps _ _ _ _ E3) as (d1 & d2 & d3 & A1 & A2 & M & D & _). rewrite D.
  pose proof (fun n I => no_b5 _ _ _ _ n E1 E2 F5 (in_or_app _ _ _ I)) as N5.
  rewrite averages_absent in A1 by (intros n I; apply N5; left; exact I). injection A1 as <-.
  rewrite averages_absent in A2 by (intros n I; apply N5; right; exact I). injection A2 as <-.
  assert (K : forallb (fun p => forallb (fun nm => safe_end (nm ++ snd p) && existsb (String.eqb nm) all_names && negb (String.eqb nm "ensemble")
    && negb (existsb (String.eqb (nm ++ snd p)) ["orientmat"; "orientmat_avg"; "echo_echo"; "echo"]%string))%string sensors) profile_tags = true) by (vm_compute; reflexivity).
  rewrite forallb_forall in K. specialize (K _ T). rewrite forallb_forall in K. specialize (K _ S). cbn [snd] in K. rewrite !andb_true_iff, !negb_true_iff in K. destruct K as [[[K1 K2] K3] K4].
  apply existsb_exists in K2. destruct K2 as (x & Hx & E). apply String.eqb_eq in E. subst x.
  cbn [existsb] in K4. rewrite !orb_false_iff in K4. destruct K4 as (N1 & N2 & N3 & N4 & _). apply String.eqb_neq in N1, N2, N3, N4.
  rewrite turned_keeps, moved_echo_keeps, (moved_avg_keeps _ _ _ M) by congruence.
  rewrite (reorg_var _ _ _ _ id tag nm E1 E2 (profile_in_tags _ _ T) Hx (proj1 (String.eqb_neq _ _) K3) K1). rewrite F. exact G.
Qed.
Lemma echo_keeps fh dual strings recs r dat d v : signature fh dual strings recs = Some r -> prepared dual strings recs = Some dat ->
  find_id dat 28 = Some d -> get d "echo" = Some v -> get (data_vars r) "echo" = Some v.
Proof.
  intros H P F G. destruct (signature_steps _ _ _ _ _ H) as (dat' & out & dv & st & P' & E1 & E2 & E3). rewrite P in P'. injection P' as <-.
  destruct (reduce_steps _ _ _ _ E3) as (d1 & d2 & d3 & A1 & A2 & M & D & _). rewrite D.
  rewrite turned_keeps by discriminate.
  assert (X : get d3 "echo_echo" = Some v).
  { rewrite (moved_avg_keeps _ _ _ M), (averages2_get _ _ _ _ A1 A2) by (discriminate || reflexivity).
    pose proof (reorg_var _ _ _ _ 28 "_echo" "echo" E1 E2 ltac:(cbn; tauto) ltac:(cbn; tauto) ltac:(discriminate) eq_refl) as X. rewrite F in X. exact (eq_trans X G). }
  unfold moved_echo. rewrite X. apply get_set_same.
Qed.

(** ** files that can be read *)
Lemma copy_always_some tag d names out : (forall n, In n names -> get d n <> None) -> exists o, copy_always tag d names out = Some o.
Proof.
  revert out. induction names as [|n names IH]; intros out H; [exists out; reflexivity|]. cbn [copy_always].
  destruct (get d n) eqn:E; [|contradiction (H n (or_introl eq_refl))]. apply IH. intros m I. apply H. right. exact I.
Qed.
Lemma record_has id l pings nm : NoDup (map fname l) -> In nm (map fname l) -> get (snd (record_of (id, l, pings))) nm <> None.
Proof.
  intros ND I. apply in_map_iff in I. destruct I as (f & E & I). apply In_nth_error in I. destruct I as (i & Hi). pose proof (table_get id l pings i f ND Hi) as T. rewrite E in T.
  assert (X : forall d k, get d k <> None -> get (map (sci_one id) d) k <> None).
  { intros d k H. unfold sci_one. rewrite (get_map_snd (fun nm v => match sci_func id nm with Some (sc, off) => map (map (linfunc sc off)) v | None => v end)).
    intros X. apply H. revert X. unfold option_map. match goal with |- context [match ?g with Some _ => _ | None => _ end] => destruct g eqn:E9 end; [discriminate|intros _; exact E9]. }
  assert (Y : forall d k, get d k <> None -> get (vel_scaled d) k <> None).
  { intros d k H. unfold vel_scaled. destruct (get d "vel"); [|exact H]. destruct (get d "vel_scale"); [|exact H].
    destruct (string_dec "vel" k) as [<-|N]; [rewrite get_set_same; discriminate|rewrite get_set_other by exact N; exact H]. }
  cbn [record_of snd]. unfold sci_data. apply Y, X. destruct (string_dec "ensemble" nm) as [<-|N]; [rewrite get_set_same; discriminate|].
  rewrite get_set_other by exact N. rewrite T. discriminate.
Qed.
Lemma record_ensemble id l pings : get (snd (record_of (id, l, pings))) "ensemble" <> None.
Proof.
  cbn [record_of snd]. rewrite sci_get by discriminate. rewrite get_set_same. discriminate.
Qed.
Lemma burst_fields config beams l : reader_for 21 config beams = Some l -> exists rest, map fname l = map fname burst_hdr ++ rest.
Proof.
  unfold reader_for. cbn [Z.eqb Pos.eqb]. unfold calc_burst_struct. destruct (flag _ _); [discriminate|]. intros H. apply some_inj in H. rewrite <- H.
  rewrite map_app. eexists. reflexivity.
Qed.
Lemma set_keys {A} (P : string -> Prop) (d : dict A) k v : P k -> Forall (fun p => P (fst p)) d -> Forall (fun p => P (fst p)) (set d k v).
Proof.
  intros K H. induction d as [|[a b] d IH]; [constructor; [exact K|constructor]|]. inversion H as [|x y H1 H2]; subst. cbn [set].
  destruct (String.eqb a k); constructor; try assumption. exact (IH H2).
Qed.
Lemma copied_keys tag d (P : string -> Prop) : (forall n, In n all_names -> P (n ++ tag)%string) -> forall out o,
  copy_always tag d always out = Some o -> Forall (fun p => P (fst p)) out -> Forall (fun p => P (fst p)) (copy_there tag d if_there o).
Proof.
  intros K. assert (K1 : forall n, In n always -> P (n ++ tag)%string) by (intros n I; apply K; apply in_or_app; left; exact I).
  assert (K2 : forall n, In n if_there -> P (n ++ tag)%string) by (intros n I; apply K; apply in_or_app; right; exact I).
  assert (A : forall names, incl names always -> forall out o, copy_always tag d names out = Some o -> Forall (fun p => P (fst p)) out -> Forall (fun p => P (fst p)) o).
  { induction names as [|n names IH]; intros I out o H O; cbn [copy_always] in H; [injection H as <-; exact O|]. destruct (get d n); [|discriminate].
    apply (IH (fun x Hx => I x (or_intror Hx)) _ _ H). apply set_keys; [apply K1, I; left; reflexivity|exact O]. }
  assert (B : forall names, incl names if_there -> forall o, Forall (fun p => P (fst p)) o -> Forall (fun p => P (fst p)) (copy_there tag d names o)).
  { induction names as [|n names IH]; intros I o O; [exact O|]. unfold copy_there. cbn [fold_left]. apply (IH (fun x Hx => I x (or_intror Hx))).
    destruct (get d n); [|exact O]. apply set_keys; [apply K2, I; left; reflexivity|exact O]. }
  intros out o H O. apply B; [intros x Hx; exact Hx|]. exact (A always (fun x Hx => Hx) out o H O).
Qed.
Lemma get_in {A} (d : dict A) k v : get d k = Some v -> In (k, v) d.
Proof.
  induction d as [|[a b] d IH]; [discriminate|]. cbn [get]. destruct (String.eqb_spec a k) as [->|N]; intros H; [injection H as ->; left; reflexivity|right; exact (IH H)].
Qed.
Lemma status0_only nm : In nm all_names -> contains "status0" nm = true -> nm = "status0"%string.
Proof.
  assert (K : forallb (fun nm => negb (contains "status0" nm) || String.eqb nm "status0") all_names = true) by (vm_compute; reflexivity).
  rewrite forallb_forall in K. intros I C. specialize (K _ I). rewrite C in K. cbn [negb orb] in K. apply String.eqb_eq. exact K.
Qed.
Lemma append_nil s : (s ++ "")%string = s. Proof. induction s as [|c s IH]; [reflexivity|]. cbn [append]. rewrite IH. reflexivity. Qed.
Lemma names_in_hdr nm : In nm always -> nm = "ensemble"%string \/ In nm (map fname burst_hdr).
Proof.
  assert (K : forallb (fun nm => String.eqb nm "ensemble" || existsb (String.eqb nm) (map fname burst_hdr)) always = true) by (vm_compute; reflexivity).
  rewrite forallb_forall in K. intros I. specialize (K _ I). rewrite orb_true_iff in K. destruct K as [K|K]; [left; apply String.eqb_eq; exact K|right].
  apply existsb_exists in K. destruct K as (x & Hx & E). apply String.eqb_eq in E. subst x. exact Hx.
Qed.
Lemma status_column config beams l pings s : reader_for 21 config beams = Some l -> same_status l pings s ->
  exists v, get (snd (record_of (21, l, pings))) "status" = Some v /\ map first_int v = repeat s (length pings).
Proof.
  intros HR SS. destruct (burst_fields _ _ _ HR) as (rest & El). pose proof (reader_names _ _ _ _ HR) as ND.
  assert (I : In "status"%string (map fname l)) by (rewrite El; apply in_or_app; left; cbn; tauto).
  apply in_map_iff in I. destruct I as (f & Ef & If). apply In_nth_error in If. destruct If as (i & Hi).
  assert (FN := field_number _ _ _ _ _ _ HR (nth_error_In _ _ Hi) Ef ltac:(cbn; tauto)).
  rewrite record_get by discriminate. pose proof (table_get 21 l pings i f ND Hi) as T. rewrite Ef in T. rewrite T. cbn [option_map].
  change (sci_func 21 "status") with (@None (R * R)). eexists. split; [reflexivity|]. rewrite map_map.
  assert (A : forall c, In c pings -> exists vals, c = Some vals /\ nth i vals [] = [s]).
  { intros c Ic. apply In_nth_error in Ic. destruct Ic as (k & Hk). assert (Lk : (k < length pings)%nat) by (apply nth_error_Some; congruence).
    destruct (SS k Lk) as (vals & i' & f' & Hp & Hf & Hn & Hr). rewrite Hk in Hp. injection Hp as ->. exists vals. split; [reflexivity|].
    assert (i' = i).
    { apply (proj1 (NoDup_nth_error (map fname l)) ND); [rewrite map_length; apply nth_error_Some; congruence|].
      rewrite (map_nth_error fname _ _ Hf), (map_nth_error fname _ _ Hi), Hn, Ef. reflexivity. }
    subst i'. exact (nth_error_nth _ _ _ Hr). }
  clear - A FN. induction pings as [|c ps IH]; [reflexivity|]. cbn [map length repeat]. destruct (A c (or_introl eq_refl)) as (vals & -> & E). rewrite E. cbn [map]. rewrite FN. cbn [first_int].
  rewrite IH; [reflexivity|]. intros c Ic. apply A. right. exact Ic.
Qed.
Lemma burst_readable fh strings config beams l pings low a o w an on wn : reader_for 21 config beams = Some l -> In "vel"%string (map fname l) ->
  pings <> [] -> same_status l pings (status_codes low a o w) -> 0 <= low < 2 ^ 22 -> In (a, an) orient_status -> In (o, on) nortek_orient -> In (w, wn) wake ->
  exists r, signature fh false strings [(21, l, pings)] = Some r.
Proof.
  intros HR HV NP SS L IA IO IW. pose proof (reader_names _ _ _ _ HR) as ND. destruct (burst_fields _ _ _ HR) as (rest & El).
  set (d := snd (record_of (21, l, pings))).
  assert (P : prepared false strings [(21, l, pings)] = Some [(21, d)]) by reflexivity.
  assert (HD : forall n, In n always -> get d n <> None).
  { intros n I. destruct (names_in_hdr n I) as [->|J]; [apply record_ensemble|]. apply record_has; [exact ND|]. rewrite El. apply in_or_app. left. exact J. }
  destruct (copy_always_some "" d always [] HD) as (o1 & C).
  set (out := copy_there "" d if_there o1).
  assert (E1 : reorg_vars [(21, d)] tags [] = Some out).
  { unfold tags. cbn [reorg_vars]. change (find_id [(21, d)] 21) with (Some d). cbv beta iota. rewrite C. reflexivity. }
  assert (KO : Forall (fun p => In (fst p) all_names) out).
  { apply (copied_keys "" d (fun k => In k all_names)) with (out := []); [intros n I; rewrite append_nil; exact I|exact C|constructor]. }
  assert (G : forall nm v, In nm all_names -> get d nm = Some v -> get out nm = Some (if String.eqb nm "ensemble" then plus_one v else v)).
  { intros nm v I G. rewrite <- (append_nil nm) at 1. exact (reorg_get [(21, d)] tags [] out 21 "" d nm v tags_ids (fun x Hx => Hx) E1 (or_introl eq_refl) eq_refl I G). }
  destruct (get d "status0") as [v0|] eqn:G0.
  2: { exfalso. revert G0. apply record_has; [exact ND|]. rewrite El. apply in_or_app. left. cbn. tauto. }
  destruct (status_column _ _ _ _ _ HR SS) as (v & Gs & Ev). fold d in Gs.
  pose proof (G "status0"%string v0 ltac:(cbn; tauto) G0) as O0. pose proof (G "status"%string v ltac:(cbn; tauto) Gs) as Os.
  cbn [String.eqb Ascii.eqb Bool.eqb] in O0, Os.
  assert (ST : status_of out = Some (Status wn on an)).
  { unfold status_of. destruct (find _ out) as [p|] eqn:Fp.
    - apply find_some in Fp. destruct Fp as [Ip Cp]. rewrite Forall_forall in KO. rewrite (status0_only _ (KO _ Ip) Cp).
      change (substring 7 (String.length "status0" - 7) "status0") with ""%string. change ("status" ++ "")%string with "status"%string. rewrite Os, Ev.
      apply decoded; try assumption. destruct pings; [contradiction|discriminate].
    - exfalso. pose proof (find_none _ _ Fp _ (get_in _ _ _ O0)) as X. discriminate X. }
  assert (E2 : exists dv, reorg_end [(21, d)] out = Some (dv, Status wn on an)).
  { unfold reorg_end. change (find_id [(21, d)] 26) with (@None (dict var)). change (find_id [(21, d)] 31) with (@None (dict var)). cbn match. rewrite ST. eexists. reflexivity. }
  destruct E2 as (dv & E2).
  pose proof (fun n I => no_b5 _ _ _ _ n E1 E2 eq_refl (in_or_app _ _ _ I)) as N5.
  assert (V : get dv "vel" <> None).
  { pose proof (reorg_var _ _ _ _ 21 "" "vel" E1 E2 ltac:(cbn; tauto) ltac:(cbn; tauto) ltac:(discriminate) eq_refl) as X. change ("vel" ++ "")%string with "vel"%string in X. rewrite X.
    change (find_id [(21, d)] 21) with (Some d). apply record_has; [exact ND|exact HV]. }
  assert (VA : get dv "vel_avg" = None) by exact (reorg_var _ _ _ _ 22 "_avg" "vel" E1 E2 ltac:(cbn; tauto) ltac:(cbn; tauto) ltac:(discriminate) eq_refl).
  unfold signature. rewrite P, E1, E2. unfold reduce.
  rewrite averages_absent by (intros n I; apply N5; left; exact I). rewrite averages_absent by (intros n I; apply N5; right; exact I).
  rewrite VA. destruct (get dv "vel"); [|contradiction V; reflexivity]. destruct (get _ "orientmat"); eexists; reflexivity.
Qed.
Lemma average_needs_ahrs fh strings recs dat : prepared false strings recs = Some dat -> var_of dat 22 "vel" <> None -> var_of dat 21 "orientmat" = None ->
  var_of dat 22 "orientmat" = None -> signature fh false strings recs = None.
Proof.
  intros P V O OA. destruct (signature fh false strings recs) as [r|] eqn:H; [|reflexivity]. exfalso.
  destruct (signature_main _ _ _ _ _ H) as (dat' & d2 & d3 & P' & M & _ & GO & GOA & _ & GV & _). rewrite P in P'. injection P' as <-.
  unfold moved_avg in M. rewrite GO, O, GV, GOA, OA in M. destruct (var_of dat 22 "vel"); [discriminate M|contradiction V; reflexivity].
Qed.

(** ** from the pings to the dataset *)
Lemma find_absent recs id : ~ In id (ids recs) -> find_id (map record_of recs) id = None.
Proof.
  intros N. unfold find_id. destruct (find _ _) as [p|] eqn:E; [|reflexivity]. exfalso. apply find_some in E. destruct E as [I E]. apply Z.eqb_eq in E.
  apply in_map_iff in I. destruct I as ([[i l] ps] & Ep & I). apply N. subst p. cbn [record_of fst] in E. subst i. unfold ids. apply in_map_iff. exists (id, l, ps). split; [reflexivity|exact I].
Qed.
Lemma single_keeps fh strings recs r id tag l pings nm v : signature fh false strings recs = Some r -> NoDup (ids recs) -> In (id, l, pings) recs ->
  In (id, tag) profile_tags -> In nm carried \/ (In nm sensors /\ ~ In 24 (ids recs)) -> get (snd (record_of (id, l, pings))) nm = Some v ->
  get (data_vars r) (nm ++ tag)%string = Some v.
Proof.
  intros H ND I T C G. destruct C as [C|[C N]].
  - destruct (carried_safe id tag nm T C) as (S & A & E). exact (signature_keeps _ _ _ _ _ _ _ _ _ _ _ H eq_refl (profile_in_tags _ _ T) (find_record _ _ _ _ ND I) A E S G).
  - exact (sensor_keeps _ _ _ _ _ _ _ _ _ _ _ H eq_refl T (find_absent _ _ N) (find_record _ _ _ _ ND I) C G).
Qed.
Lemma single_quantities fh strings recs r id tag config beams l pings k nm raws res qs : signature fh false strings recs = Some r -> NoDup (ids recs) -> In (id, l, pings) recs ->
  In (id, tag) profile_tags -> reader_for id config beams = Some l -> In nm carried \/ (In nm sensors /\ ~ In 24 (ids recs)) ->
  recorded l pings k nm raws -> get resolution nm = Some res -> ~ (id = 23 /\ nm = "mag"%string) -> Forall2 (nearest res) qs raws ->
  exists col, shows (data_vars r) (nm ++ tag) k col /\ Forall2 (within (res / 2)) qs col.
Proof.
  intros H ND I T HR C Rc Rs NM Q.
  assert (Id : In id [21; 22; 23; 24; 28]) by (cbn in T; repeat (destruct T as [T|T]; [injection T as <- _; cbn; tauto|]); destruct T).
  destruct (quantities _ _ _ _ _ _ _ _ _ _ Id HR Rc Rs NM Q) as (col & (v & G & Nv) & W). exists col. split; [|exact W]. exists v. split; [|exact Nv].
  exact (single_keeps _ _ _ _ _ _ _ _ _ _ H ND I T C G).
Qed.
Lemma single_velocity fh strings recs r id tag config beams l pings k raws s qs : signature fh false strings recs = Some r -> NoDup (ids recs) -> In (id, l, pings) recs ->
  In (id, tag) profile_tags -> reader_for id config beams = Some l -> recorded l pings k "vel" raws -> recorded l pings k "vel_scale" [s] ->
  Forall2 (nearest (powerRZ 10 s)) qs raws ->
  exists col, shows (data_vars r) ("vel" ++ tag) k col /\ Forall2 (within (powerRZ 10 s / 2)) qs col.
Proof.
  intros H ND I T HR Rv Rs Q. destruct (velocity _ _ _ _ _ _ _ _ _ HR Rv Rs Q) as (col & (v & G & Nv) & W). exists col. split; [|exact W]. exists v. split; [|exact Nv].
  exact (single_keeps _ _ _ _ _ _ _ _ _ _ H ND I T (or_introl (or_introl eq_refl)) G).
Qed.
Lemma raw_int id config beams l pings k nm raws : reader_for id config beams = Some l -> recorded l pings k nm raws ->
  In nm ["temp_press"; "blank_dist"; "vel_scale"; "ver"; "mag"; "temp"; "year"; "month"; "day"; "hour"; "minute"; "second"; "usec100"; "status"]%string ->
  exists v, get (snd (record_of (id, l, pings))) nm = Some v /\
    nth_error v k = Some (match sci_func id nm with Some (sc, off) => map (linfunc sc off) (map Int raws) | None => map Int raws end).
Proof.
  intros HR (vals & i & f & Hp & Hf & Hn & Hr) I.
  assert (N1 : nm <> "vel"%string) by (intros ->; cbn in I; repeat destruct I as [I|I]; (discriminate || destruct I)).
  assert (N2 : nm <> "ensemble"%string) by (intros ->; cbn in I; repeat destruct I as [I|I]; (discriminate || destruct I)).
  assert (FN := field_number _ _ _ _ _ _ HR (nth_error_In _ _ Hf) Hn I).
  rewrite record_get by assumption. pose proof (table_get id l pings i f (reader_names _ _ _ _ HR) Hf) as T. rewrite Hn in T. rewrite T. cbn [option_map]. eexists. split; [reflexivity|].
  assert (E : nth_error (map (fun c => match c with Some vals => map (stored id f) (nth i vals []) | None => blank f end) pings) k = Some (map Int raws)).
  { rewrite (map_nth_error _ _ _ Hp). rewrite (nth_error_nth _ _ _ Hr). f_equal. apply map_ext. exact FN. }
  destruct (sci_func id nm) as [[sc off]|]; [rewrite (map_nth_error _ _ _ E); reflexivity|exact E].
Qed.
Lemma single_pressure_sensor fh strings recs r id tag config beams l pings k n : signature fh false strings recs = Some r -> NoDup (ids recs) -> In (id, l, pings) recs ->
  In (id, tag) profile_tags -> reader_for id config beams = Some l -> ~ In 24 (ids recs) -> recorded l pings k "temp_press" [n] ->
  exists x, shows (data_vars r) ("temp_press" ++ tag) k [x] /\ real x = Some (IZR n / 5 - 4)%R.
Proof.
  intros H ND I T HR N5 Rc. destruct (raw_int _ _ _ _ _ _ _ _ HR Rc ltac:(cbn; tauto)) as (v & G & Nv).
  assert (E : sci_func id "temp_press" = Some (2 / 10, -20)%R) by (unfold sci_func; rewrite !andb_false_r; reflexivity). rewrite E in Nv. cbn [map] in Nv.
  eexists. split.
  - exists v. split; [|exact Nv]. refine (single_keeps _ _ _ _ _ _ _ _ _ _ H ND I T _ G). right. split; [cbn; tauto|exact N5].
  - cbn [linfunc real option_map]. f_equal. lra.
Qed.
Lemma blank_value id config beams l pings k n : reader_for id config beams = Some l -> recorded l pings k "blank_dist" [n] ->
  shows (snd (record_of (id, l, pings))) "blank_dist" k [Flt (Some (IZR n / (if id =? 28 then 1000 else 100)))%R].
Proof.
  intros HR Rc. destruct (raw_int _ _ _ _ _ _ _ _ HR Rc ltac:(cbn; tauto)) as (v & G & Nv). exists v. split; [exact G|]. rewrite Nv.
  unfold sci_func. rewrite (eqb_neq "blank_dist" "mag") by discriminate. rewrite andb_false_r, String.eqb_refl, andb_true_r.
  destruct (id =? 28); cbn; apply (f_equal (fun x => Some [Flt (Some x)])); lra.
Qed.
Lemma temp_not_negative id config beams l f bs : reader_for id config beams = Some l -> In f l -> fname f = "temp"%string -> Forall (fun b => 0 <= b < 256) bs -> 0 <= value (fkind f) bs.
Proof.
  intros HR I E B.
  assert (K : fkind f = U16).
  { destruct (fields_known _ _ _ _ _ HR I) as (nb & nc & J). clear - E J. each_field J; subst; try discriminate E; try reflexivity. destruct J. }
  rewrite K. unfold value. cbn [ksigned andb]. clear - B. induction B as [|b bs Hb HB IH]; [reflexivity|]. cbn [le]. lia.
Qed.
Lemma dual_keeps fh recs r id tag config beams l pings nm v : signature fh true false recs = Some r -> NoDup (ids recs) -> In (id, l, pings) recs ->
  In (id, tag) profile_tags -> reader_for id config beams = Some l -> all_versions l pings -> In nm carried ->
  get (snd (record_of (id, l, somes pings))) nm = Some v -> get (data_vars r) (nm ++ tag)%string = Some v.
Proof.
  intros H ND I T HR AV C G. destruct (carried_safe id tag nm T C) as (S & A & E).
  destruct (signature_steps _ _ _ _ _ H) as (dat & _ & _ & _ & P & _).
  destruct (prepared_dual _ _ _ _ _ _ _ _ P ND I HR AV) as (d & F & GD).
  apply (signature_keeps _ _ _ _ _ _ _ _ _ _ _ H P (profile_in_tags _ _ T) F A E S). rewrite (GD nm E). exact G.
Qed.
Lemma time_in id tag : In (id, tag) profile_tags -> In (id, ("time" ++ tag)%string) time_names.
Proof. intros T. cbn in T. repeat (destruct T as [T|T]; [injection T as <- <-; cbn; tauto|]). destruct T. Qed.
Lemma single_times fh strings recs r id tag config beams l pings k y mo d h mi s u n : signature fh false strings recs = Some r -> NoDup (ids recs) -> In (id, l, pings) recs ->
  In (id, tag) profile_tags -> reader_for id config beams = Some l ->
  recorded l pings k "year" [y] -> recorded l pings k "month" [mo] -> recorded l pings k "day" [d] -> recorded l pings k "hour" [h] ->
  recorded l pings k "minute" [mi] -> recorded l pings k "second" [s] -> recorded l pings k "usec100" [u] ->
  Nortek.valid_date (Nortek.Date (y + 1900) (mo + 1) d h mi s) = true -> 0 <= u < 10000 -> elapsed (Nortek.Date (y + 1900) (mo + 1) d h mi s) n ->
  exists ts t, get (times r) ("time" ++ tag)%string = Some ts /\ nth_error ts k = Some (Some t) /\ (t == inject_Z n + inject_Z u / 10000)%Q.
Proof.
  intros H ND I T HR Ry Rmo Rd Rh Rmi Rs Ru V U E.
  destruct (calc_time1_valid (y + 1900) mo d h mi s (u * 100) n V ltac:(lia) E) as (t & Et & Eq).
  exists (calc_time (snd (record_of (id, l, pings)))), t. split; [|split].
  - exact (signature_times _ _ _ _ _ _ _ _ _ H eq_refl (time_in _ _ T) (find_record _ _ _ _ ND I)).
  - rewrite (clock _ _ _ _ _ _ _ _ _ _ _ _ _ HR Ry Rmo Rd Rh Rmi Rs Ru). rewrite Et. reflexivity.
  - rewrite Eq. rewrite inject_Z_mult. field.
Qed.
Lemma single_orient fh strings recs r id l pings v : signature fh false strings recs = Some r -> NoDup (ids recs) -> In (id, l, pings) recs ->
  id = 21 \/ (id = 22 /\ ~ In 21 (ids recs) /\ NoDup (map fname l) /\ In "vel"%string (map fname l)) -> get (snd (record_of (id, l, pings))) "orientmat" = Some v ->
  get (data_vars r) "orientmat" = Some (map swap_axes v) /\ has_imu r = true.
Proof.
  intros H ND I C G. apply (orient_main _ _ _ _ _ _ _ H eq_refl). unfold var_of. destruct C as [->|(-> & N & NL & IV)].
  - left. rewrite (find_record _ _ _ _ ND I). exact G.
  - right. rewrite (find_absent _ _ N), (find_record _ _ _ _ ND I). split; [reflexivity|]. split; [exact G|]. apply record_has; assumption.
Qed.
Lemma with_samples_names sz l : map fname (with_samples sz l) = map fname l.
Proof. unfold with_samples. rewrite map_map. apply map_ext. intros f. destruct (String.eqb (fname f) "samp_alt"); reflexivity. Qed.
Lemma single_samples fh strings recs r config beams l sz pings k raws : signature fh false strings recs = Some r -> NoDup (ids recs) ->
  reader_for 26 config beams = Some l -> In (26, with_samples sz l, pings) recs -> recorded (with_samples sz l) pings k "samp_alt" raws ->
  Forall (fun n => 0 <= n < 32768) raws -> shows (data_vars r) "samp_altraw" k (map (fun n => Flt (Some (IZR n / 256)%R)) raws).
Proof.
  intros H ND HR I (vals & i & f & Hp & Hf & Hn & Hr) B.
  assert (NL : NoDup (map fname (with_samples sz l))) by (rewrite with_samples_names; exact (reader_names _ _ _ _ HR)).
  assert (B' : Forall (fun n => 0 <= n < 65536) raws) by (eapply Forall_impl; [|exact B]; intros n Hb; cbv beta in Hb; lia).
  destruct (sample_values _ _ _ _ _ _ _ NL Hf Hn Hp Hr B') as (v & G & Nv).
  eexists. split; [exact (signature_samples _ _ _ _ _ _ _ _ H eq_refl (find_record _ _ _ _ ND I) G)|]. rewrite (map_nth_error _ _ _ Nv). f_equal.
  rewrite map_map. apply map_ext. intros n. unfold linfunc. cbn [real option_map]. do 2 f_equal. lra.
Qed.

(** ** floats, ensembles, the fifth beam *)
Definition float_names : list string := ["le_dist_alt"; "ast_dist_alt"; "pressure_alt"; "quaternions"; "angrt"; "orientmat"]%string.
Lemma float_field id config beams l f : reader_for id config beams = Some l -> In f l -> In (fname f) float_names -> forall v, stored id f v = Flt (f32 v).
Proof.
  intros HR I N v. destruct (fields_known _ _ _ _ _ HR I) as (nb & nc & J). unfold stored.
  assert (X : String.eqb (fname f) "samp_alt" = false) by (cbn [float_names In] in N; repeat destruct N as [<-|N]; try reflexivity; destruct N).
  rewrite X, andb_false_r. clear X. assert (K : fkind f = F32); [|unfold number; rewrite K; reflexivity].
  unfold float_names in N. cbn [In] in N.
  each_field J; try (subst f; reflexivity); try (subst f; exfalso; cbn [fname scalar] in N; repeat (destruct N as [N|N]; [discriminate N|]); exact N). destruct J.
Qed.
Lemma raw_float id config beams l pings k nm raws : reader_for id config beams = Some l -> recorded l pings k nm raws -> In nm float_names ->
  exists v, get (snd (record_of (id, l, pings))) nm = Some v /\
    nth_error v k = Some (match sci_func id nm with Some (sc, off) => map (linfunc sc off) (map (fun b => Flt (f32 b)) raws) | None => map (fun b => Flt (f32 b)) raws end).
Proof.
  intros HR (vals & i & f & Hp & Hf & Hn & Hr) I.
  assert (N1 : nm <> "vel"%string) by (intros ->; cbn in I; repeat destruct I as [I|I]; (discriminate || destruct I)).
  assert (N2 : nm <> "ensemble"%string) by (intros ->; cbn in I; repeat destruct I as [I|I]; (discriminate || destruct I)).
  rewrite <- Hn in I. assert (FN := float_field _ _ _ _ _ HR (nth_error_In _ _ Hf) I).
  rewrite record_get by assumption. pose proof (table_get id l pings i f (reader_names _ _ _ _ HR) Hf) as T. rewrite Hn in T. rewrite T. cbn [option_map]. eexists. split; [reflexivity|].
  assert (E : nth_error (map (fun c => match c with Some vals => map (stored id f) (nth i vals []) | None => blank f end) pings) k = Some (map (fun b => Flt (f32 b)) raws)).
  { rewrite (map_nth_error _ _ _ Hp). rewrite (nth_error_nth _ _ _ Hr). f_equal. apply map_ext. exact FN. }
  destruct (sci_func id nm) as [[sc off]|]; [rewrite (map_nth_error _ _ _ E); reflexivity|exact E].
Qed.
Lemma single_floats fh strings recs r id tag config beams l pings k nm raws : signature fh false strings recs = Some r -> NoDup (ids recs) -> In (id, l, pings) recs ->
  In (id, tag) profile_tags -> reader_for id config beams = Some l -> In nm ["le_dist_alt"; "ast_dist_alt"; "pressure_alt"; "quaternions"]%string -> recorded l pings k nm raws ->
  exists col, shows (data_vars r) (nm ++ tag) k col /\ map real col = map f32 raws.
Proof.
  intros H ND I T HR N Rc.
  assert (N' : In nm float_names) by (cbn in N |- *; tauto).
  assert (C : In nm carried) by (cbn in N |- *; tauto).
  destruct (raw_float _ _ _ _ _ _ _ _ HR Rc N') as (v & G & Nv). eexists. split; [exists v; split; [exact (single_keeps _ _ _ _ _ _ _ _ _ _ H ND I T (or_introl C) G)|exact Nv]|].
  assert (S : sci_func id nm = Some (1, 0)%R \/ sci_func id nm = None).
  { unfold sci_func. cbn in N. repeat (destruct N as [<-|N]; [rewrite !andb_false_r; cbn; tauto|]). destruct N. }
  destruct S as [-> | ->]; rewrite ?map_map; apply map_ext; intros b; cbn [real linfunc]; [|reflexivity]. destruct (f32 b) as [x|]; [|reflexivity]. cbn [option_map]. f_equal. lra.
Qed.
Lemma single_angrt fh strings recs r id tag config beams l pings k raws : signature fh false strings recs = Some r -> NoDup (ids recs) -> In (id, l, pings) recs ->
  In (id, tag) profile_tags -> reader_for id config beams = Some l -> recorded l pings k "angrt" raws ->
  exists col, shows (data_vars r) ("angrt" ++ tag) k col /\ map real col = map (fun b => option_map (fun x => x * PI / 180)%R (f32 b)) raws.
Proof.
  intros H ND I T HR Rc.
  assert (C : In "angrt"%string carried) by (cbn; tauto).
  destruct (raw_float _ _ _ _ _ _ _ _ HR Rc ltac:(cbn; tauto)) as (v & G & Nv). eexists. split; [exists v; split; [exact (single_keeps _ _ _ _ _ _ _ _ _ _ H ND I T (or_introl C) G)|exact Nv]|].
  assert (S : sci_func id "angrt" = Some (PI / 180, 0)%R) by (unfold sci_func; rewrite !andb_false_r; reflexivity).
  rewrite S, !map_map. apply map_ext. intros b. cbn [real linfunc]. destruct (f32 b); [|reflexivity]. cbn [option_map]. f_equal. lra.
Qed.
Lemma f32_value s e m : 0 <= s <= 1 -> 0 < e < 255 -> 0 <= m < 2 ^ 23 ->
  f32 (s * 2 ^ 31 + e * 2 ^ 23 + m) = Some ((if s =? 1 then -1 else 1) * (1 + IZR m / 2 ^ 23) * powerRZ 2 (e - 127))%R.
Proof.
  intros Hs He Hm. unfold f32. set (b := s * 2 ^ 31 + e * 2 ^ 23 + m).
  assert (E1 : b / 2 ^ 23 = s * 256 + e).
  { unfold b. replace (s * 2 ^ 31 + e * 2 ^ 23 + m) with (m + (s * 256 + e) * 2 ^ 23) by lia. rewrite Z.div_add by lia. rewrite (Z.div_small m) by exact Hm. reflexivity. }
  assert (E2 : b mod 2 ^ 23 = m).
  { unfold b. replace (s * 2 ^ 31 + e * 2 ^ 23 + m) with (m + (s * 256 + e) * 2 ^ 23) by lia. rewrite Z.mod_add by lia. apply Z.mod_small. exact Hm. }
  assert (E3 : b / 2 ^ 31 = s).
  { change 31 with (23 + 8). rewrite Z.pow_add_r, <- Z.div_div by lia. rewrite E1. change (2 ^ 8) with 256. rewrite Z.add_comm, Z.div_add by lia. rewrite Z.div_small by lia. reflexivity. }
  rewrite E1, E2, E3. assert (E4 : (s * 256 + e) mod 256 = e) by (rewrite Z.add_comm, Z.mod_add by lia; apply Z.mod_small; lia). rewrite E4.
  rewrite (proj2 (Z.eqb_neq e 255)), (proj2 (Z.eqb_neq e 0)) by lia. rewrite (Z.mod_small s 2) by lia. f_equal.
  replace (e - 150) with (e - 127 + (-23)) by lia. rewrite powerRZ_add by lra. rewrite plus_IZR.
  change (powerRZ 2 (-23)) with (/ 2 ^ 23)%R. change (2 ^ 23) with 8388608. assert (T : (2 ^ 23 = 8388608)%R) by (cbn; lra). rewrite T. field.
Qed.
Lemma single_ensemble fh strings recs r id tag l pings k : signature fh false strings recs = Some r -> NoDup (ids recs) -> In (id, l, pings) recs ->
  In (id, tag) profile_tags -> (k < length pings)%nat -> shows (data_vars r) ("ensemble" ++ tag) k [Int (Z.of_nat k + 1)].
Proof.
  intros H ND I T L. destruct (signature_steps _ _ _ _ _ H) as (dat & out & dv & st & P & E1 & E2 & E3). injection P as <-.
  destruct (reduce_steps _ _ _ _ E3) as (d1 & d2 & d3 & A1 & A2 & M & D & _).
  assert (G : get (snd (record_of (id, l, pings))) "ensemble" = Some (map (fun k => [Int (Z.of_nat k)]) (seq 0 (length pings)))).
  { cbn [record_of snd]. rewrite sci_get by discriminate. rewrite get_set_same. cbn [option_map].
    assert (S : sci_func id "ensemble" = None) by (unfold sci_func; rewrite !andb_false_r; reflexivity). rewrite S. reflexivity. }
  pose proof (reorg_get _ tags [] out id tag _ "ensemble" _ tags_ids (fun x Hx => Hx) E1 (profile_in_tags _ _ T) (find_record _ _ _ _ ND I) ltac:(cbn; tauto) G) as O.
  change (String.eqb "ensemble" "ensemble") with true in O. cbn match in O.
  assert (K : forallb (fun p => safe_end ("ensemble" ++ snd p) && unaveraged ("ensemble" ++ snd p) && negb (existsb (String.eqb ("ensemble" ++ snd p)) ["orientmat"; "orientmat_avg"; "echo_echo"; "echo"]%string))%string profile_tags = true) by (vm_compute; reflexivity).
  rewrite forallb_forall in K. specialize (K _ T). cbn [snd] in K. rewrite !andb_true_iff, !negb_true_iff in K. destruct K as [[K1 K2] K4].
  cbn [existsb] in K4. rewrite !orb_false_iff in K4. destruct K4 as (N1 & N2 & N3 & N4 & _). apply String.eqb_neq in N1, N2, N3, N4.
  eexists. split.
  - rewrite D. rewrite turned_keeps, moved_echo_keeps, (moved_avg_keeps _ _ _ M) by congruence. rewrite (averages2_get _ _ _ _ A1 A2 K2), (reorg_end_get _ _ _ _ _ E2 K1). exact O.
  - unfold plus_one. rewrite map_map. assert (S : nth_error (seq 0 (length pings)) k = Some k).
    { rewrite (nth_error_nth' _ 0%nat) by (rewrite seq_length; exact L). rewrite seq_nth by exact L. reflexivity. }
    rewrite (map_nth_error _ _ _ S). reflexivity.
Qed.
Lemma average_keeps f d d' n k : average f d n (n ++ "_b5")%string = Some d' -> n <> k -> (n ++ "_b5")%string <> k -> get d' k = get d k.
Proof.
  intros H N1 N2. apply (averages_keeps f [n] d d' k); [cbn [averages]; rewrite H; reflexivity|]. intros m [<-|[]]. split; assumption.
Qed.
Definition paired (f : R -> R -> R) (a b : var) : var := map (fun p => map (fun q => pair_num f (fst q) (snd q)) (combine (fst p) (snd p))) (combine a b).
Lemma averages_value f names d d' n a b : averages f names d = Some d' -> NoDup names -> In n names ->
  (forall m, In m names -> (m ++ "_b5")%string <> n /\ (n ++ "_b5")%string <> m /\ (m <> n -> (m ++ "_b5")%string <> (n ++ "_b5")%string)) ->
  get d n = Some a -> get d (n ++ "_b5")%string = Some b -> get d' n = Some (paired f a b).
Proof.
  revert d. induction names as [|m names IH]; intros d H ND I K A B; [destruct I|]. cbn [averages] in H. inversion ND as [|x y NI ND']; subst.
  destruct (average f d m (m ++ "_b5")) as [d1|] eqn:E; [|discriminate H].
  destruct (string_dec m n) as [->|Nm].
  - assert (KP : get d' n = get d1 n).
    { apply (averages_keeps _ _ _ _ _ H). intros q Iq. split; [intros ->; contradiction|]. apply (K q (or_intror Iq)). }
    rewrite KP. unfold average in E. rewrite A, B in E. destruct (Nat.eqb (length a) (length b)); [|discriminate E]. apply some_inj in E. rewrite <- E. apply get_set_same.
  - destruct I as [->|I]; [contradiction|]. destruct (K m (or_introl eq_refl)) as (K1 & K2 & K3).
    apply (IH d1 H ND' I); [intros q Iq; apply K; right; exact Iq| |].
    + rewrite (average_keeps _ _ _ _ _ E Nm K1). exact A.
    + rewrite (average_keeps _ _ _ _ _ E) by (congruence || exact (K3 Nm)). exact B.
Qed.
Definition ok5 (names : list string) : bool :=
  forallb (fun n => forallb (fun m => negb (String.eqb (m ++ "_b5") n) && negb (String.eqb (n ++ "_b5") m) && (String.eqb m n || negb (String.eqb (m ++ "_b5") (n ++ "_b5"))))%string names) names.
Lemma ok5_spec names n m : ok5 names = true -> In n names -> In m names ->
  (m ++ "_b5")%string <> n /\ (n ++ "_b5")%string <> m /\ (m <> n -> (m ++ "_b5")%string <> (n ++ "_b5")%string).
Proof.
  unfold ok5. intros O I J. rewrite forallb_forall in O. specialize (O _ I). rewrite forallb_forall in O. specialize (O _ J).
  rewrite !andb_true_iff, !negb_true_iff, orb_true_iff, negb_true_iff in O. destruct O as [[O1 O2] O3]. apply String.eqb_neq in O1, O2. split; [exact O1|]. split; [exact O2|].
  intros N. destruct O3 as [O3|O3]; [apply String.eqb_eq in O3; contradiction|apply String.eqb_neq in O3; exact O3].
Qed.
Lemma fifth fh strings recs r l pings l5 pings5 nm a b : signature fh false strings recs = Some r -> NoDup (ids recs) -> In (21, l, pings) recs -> In (24, l5, pings5) recs ->
  get (snd (record_of (21, l, pings))) nm = Some a -> get (snd (record_of (24, l5, pings5))) nm = Some b ->
  (In nm plain_names -> get (data_vars r) nm = Some (paired (fun x y => (x + y) / 2)%R a b)) /\ (In nm angle_names -> get (data_vars r) nm = Some (paired angle_mean a b)).
Proof.
  intros H ND I1 I5 G1 G5. destruct (signature_steps _ _ _ _ _ H) as (dat & out & dv & st & P & E1 & E2 & E3). injection P as <-.
  destruct (reduce_steps _ _ _ _ E3) as (d1 & d2 & d3 & A1 & A2 & M & D & _). rewrite D.
  assert (X : In nm (plain_names ++ angle_names) -> get dv nm = Some a /\ get dv (nm ++ "_b5")%string = Some b /\ get (turned (moved_echo d3)) nm = get d2 nm).
  { intros I.
    assert (K : forallb (fun nm => safe_end nm && safe_end (nm ++ "_b5") && existsb (String.eqb nm) all_names && negb (String.eqb nm "ensemble") && negb (existsb (String.eqb nm) ["orientmat"; "orientmat_avg"; "echo_echo"; "echo"]%string))%string
      (plain_names ++ angle_names) = true) by (vm_compute; reflexivity).
    rewrite forallb_forall in K. specialize (K nm I). rewrite !andb_true_iff, !negb_true_iff in K. destruct K as [[[[K1 K1'] K2] K3] K4].
    apply existsb_exists in K2. destruct K2 as (x & Hx & E). apply String.eqb_eq in E. subst x. apply String.eqb_neq in K3.
    cbn [existsb] in K4. rewrite !orb_false_iff in K4. destruct K4 as (N1 & N2 & N3 & N4 & _). apply String.eqb_neq in N1, N2, N3, N4. split; [|split].
    - assert (S : safe_end (nm ++ "") = true) by (rewrite append_nil; exact K1).
      pose proof (reorg_var _ _ _ _ 21 "" nm E1 E2 ltac:(cbn; tauto) Hx K3 S) as Y. rewrite append_nil in Y. rewrite Y, (find_record _ _ _ _ ND I1). exact G1.
    - rewrite (reorg_var _ _ _ _ 24 "_b5" nm E1 E2 ltac:(cbn; tauto) Hx K3 K1'), (find_record _ _ _ _ ND I5). exact G5.
    - rewrite turned_keeps, moved_echo_keeps, (moved_avg_keeps _ _ _ M) by congruence. reflexivity. }
  assert (NA : NoDup angle_names) by (apply nodupb_ok; vm_compute; reflexivity).
  assert (NP : NoDup plain_names) by (apply nodupb_ok; vm_compute; reflexivity).
  split; intros I.
  - destruct (X (in_or_app _ _ _ (or_introl I))) as (XA & XB & XD). rewrite XD. rewrite (averages_keeps _ _ _ _ _ A2).
    + apply (averages_value _ _ _ _ _ _ _ A1 NP I); [|exact XA|exact XB]. intros m J. exact (ok5_spec plain_names nm m eq_refl I J).
    + intros m J. clear - I J. cbn in I, J. repeat (destruct I as [<-|I]; [repeat (destruct J as [<-|J]; [split; discriminate|]); destruct J|]). destruct I.
  - destruct (X (in_or_app _ _ _ (or_intror I))) as (XA & XB & XD). rewrite XD.
    assert (KK : forall k, k = nm \/ k = (nm ++ "_b5")%string -> get d1 k = get dv k).
    { intros k C. apply (averages_keeps _ _ _ _ _ A1). intros m J. clear - I J C. cbn in I, J. repeat (destruct I as [<-|I]; [repeat (destruct J as [<-|J]; [destruct C as [-> | ->]; split; discriminate|]); destruct J|]). destruct I. }
    apply (averages_value _ _ _ _ _ _ _ A2 NA I); [intros m J; exact (ok5_spec angle_names nm m eq_refl I J)| |]; rewrite KK by tauto; assumption.
Qed.
Lemma paired_at f a b k x y p q : nth_error a k = Some [x] -> nth_error b k = Some [y] -> real x = Some p -> real y = Some q ->
  nth_error (paired f a b) k = Some [Flt (Some (f p q))].
Proof.
  intros A B P Q. unfold paired. assert (C : nth_error (combine a b) k = Some ([x], [y])).
  { clear P Q. revert a b A B. induction k as [|k IH]; intros [|u a] [|v b] A B; try discriminate; [cbn in A, B; injection A as ->; injection B as ->; reflexivity|exact (IH a b A B)]. }
  rewrite (map_nth_error _ _ _ C). cbn [fst snd combine map]. unfold pair_num. rewrite P, Q. reflexivity.
Qed.
