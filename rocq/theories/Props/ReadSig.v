(** C170: a Signature file becomes a dataset of its pings. *)
From Coq Require Import String.
From Coq Require Import ZArith QArith Reals List Bool Lia Lra.
From Verif.Model Require Import Nortek Ad2cp Ad2cpIndex SigData ReadSig.
From Verif.Spec Require Import Ad2cp Ad2cpIndex SigData ReadSig.
From Verif.Proofs Require Ad2cp ReadSig Calendar.
Import ListNotations.
Open Scope Z_scope.

(** ** C170 *)
(** The file is the bytes of its ensembles, the dataset what is made of them.  In all: record [p] is in the [k]-th ensemble
    that is read.  Missing: what C110, C130 and C136 miss, files with two profiles (C137), raw altimeter pings. *)
(** bursts are read, if they agree in a status whose codes have names *)
Theorem C170_readable_partial : forall conf ids enss file rebuild existing start stop fuel fh strings low a o w an on wn l,
  sig_file conf ids enss file -> (rebuild = true \/ existing = None) -> (length file < fuel)%nat -> (start < upto enss stop)%nat ->
  In 21 ids -> (forall id, In id ids -> In id data_ids -> id = 21) -> reader_for 21 (fst (conf 21)) (snd (conf 21)) = Some l -> In "vel"%string (map fname l) ->
  (forall k p, in_ping enss start stop k p -> p_id p = 21 -> has conf p "status" [status_codes low a o w]) ->
  0 <= low < 2 ^ 22 -> In (a, an) orient_status -> In (o, on) nortek_orient -> In (w, wn) wake ->
  exists r, read_signature fuel fh strings false rebuild existing file start stop = Dataset r.
Proof. intros conf ids enss file rebuild existing start stop fuel fh strings low a o w an on wn l SF RB FU. exact (ReadSig.file_readable _ _ _ _ _ _ _ _ _ fh strings SF RB FU low a o w an on wn l). Qed.
(** velocities: half a count from those the instrument recorded *)
Theorem C170_velocity : forall conf ids enss file rebuild existing start stop fuel fh strings r k p tag raws s qs,
  sig_file conf ids enss file -> (rebuild = true \/ existing = None) -> (length file < fuel)%nat ->
  read_signature fuel fh strings false rebuild existing file start stop = Dataset r -> in_ping enss start stop k p -> In (p_id p, tag) profile_tags ->
  has conf p "vel" raws -> has conf p "vel_scale" [s] -> Forall2 (nearest (powerRZ 10 s)) qs raws ->
  exists col, shows (data_vars r) ("vel" ++ tag) k col /\ Forall2 (within (powerRZ 10 s / 2)) qs col.
Proof. intros conf ids enss file rebuild existing start stop fuel fh strings r k p tag raws s qs SF RB FU RS IP TG. exact (ReadSig.file_velocity _ _ _ _ _ _ _ _ _ fh strings SF RB FU r RS k p tag IP TG raws s qs). Qed.
(** the other quantities *)
Theorem C170_quantities_partial : forall conf ids enss file rebuild existing start stop fuel fh strings r k p tag nm raws res qs,
  sig_file conf ids enss file -> (rebuild = true \/ existing = None) -> (length file < fuel)%nat ->
  read_signature fuel fh strings false rebuild existing file start stop = Dataset r -> in_ping enss start stop k p -> In (p_id p, tag) profile_tags ->
  In nm carried \/ (In nm sensors /\ ~ In 24 ids) -> has conf p nm raws -> get resolution nm = Some res -> ~ (p_id p = 23 /\ nm = "mag"%string) ->
  Forall2 (nearest res) qs raws ->
  exists col, shows (data_vars r) (nm ++ tag) k col /\ Forall2 (within (res / 2)) qs col.
Proof. intros conf ids enss file rebuild existing start stop fuel fh strings r k p tag nm raws res qs SF RB FU RS IP TG. exact (ReadSig.file_quantities _ _ _ _ _ _ _ _ _ fh strings SF RB FU r RS k p tag IP TG nm raws res qs). Qed.
(** the time of the ping *)
Theorem C170_times : forall conf ids enss file rebuild existing start stop fuel fh strings r k p tag y mo d h mi s u n,
  sig_file conf ids enss file -> (rebuild = true \/ existing = None) -> (length file < fuel)%nat ->
  read_signature fuel fh strings false rebuild existing file start stop = Dataset r -> in_ping enss start stop k p -> In (p_id p, tag) profile_tags ->
  has conf p "year" [y] -> has conf p "month" [mo] -> has conf p "day" [d] -> has conf p "hour" [h] -> has conf p "minute" [mi] -> has conf p "second" [s] -> has conf p "usec100" [u] ->
  Nortek.valid_date (Nortek.Date (y + 1900) (mo + 1) d h mi s) = true -> 0 <= u < 10000 -> elapsed (Nortek.Date (y + 1900) (mo + 1) d h mi s) n ->
  exists ts t, get (times r) ("time" ++ tag)%string = Some ts /\ nth_error ts k = Some (Some t) /\ (t == inject_Z n + inject_Z u / 10000)%Q.
Proof. intros conf ids enss file rebuild existing start stop fuel fh strings r k p tag y mo d h mi s u n SF RB FU RS IP TG. exact (ReadSig.file_times _ _ _ _ _ _ _ _ _ fh strings SF RB FU r RS k p tag IP TG y mo d h mi s u n). Qed.
(** the number of the ensemble in the file, from one, whatever part of the file is read *)
Theorem C170_ensemble : forall conf ids enss file rebuild existing start stop fuel fh strings r k p tag,
  sig_file conf ids enss file -> (rebuild = true \/ existing = None) -> (length file < fuel)%nat ->
  read_signature fuel fh strings false rebuild existing file start stop = Dataset r -> in_ping enss start stop k p -> In (p_id p, tag) profile_tags ->
  shows (data_vars r) ("ensemble" ++ tag) k [Int (Z.of_nat (start + k) + 1)].
Proof. intros conf ids enss file rebuild existing start stop fuel fh strings r k p tag SF RB FU RS IP TG. exact (ReadSig.file_ensemble _ _ _ _ _ _ _ _ _ fh strings SF RB FU r RS k p tag IP TG). Qed.
(** the orientation matrix: the transpose of the recorded one *)
Theorem C170_orientation : forall conf ids enss file rebuild existing start stop fuel fh strings r k p tag raws,
  sig_file conf ids enss file -> (rebuild = true \/ existing = None) -> (length file < fuel)%nat ->
  read_signature fuel fh strings false rebuild existing file start stop = Dataset r -> in_ping enss start stop k p -> In (p_id p, tag) profile_tags ->
  p_id p = 21 \/ (p_id p = 22 /\ exists l, reader_for 22 (fst (conf 22)) (snd (conf 22)) = Some l /\ In "vel"%string (map fname l)) -> has conf p "orientmat" raws ->
  exists col, shows (data_vars r) "orientmat" k col /\ transposed (map (fun b => Flt (f32 b)) raws) col /\ has_imu r = true.
Proof.
  intros conf ids enss file rebuild existing start stop fuel fh strings r k p tag raws SF RB FU RS IP TG C. apply (ReadSig.file_orient _ _ _ _ _ _ _ _ _ fh strings SF RB FU r RS k p tag IP TG raws).
  destruct C as [C|(C & l & E & V)]; [left; exact C|right; split; [exact C|]]. rewrite E. exact V.
Qed.

(** ** Example: three bursts with one cell and four beams; the last two are read *)
Definition body (num : Z) : bytes :=
  [3; 76; 32; 0; 7; 0; 0; 0; 120; 4; 13; 12; 30; 10 + num; 136; 19; 152; 58; 210; 4; 16; 39; 0; 0; 40; 35; 156; 255; 200; 0; 1; 72; 232; 3; 50; 0; 33; 170; 120; 0;
   100; 0; 200; 0; 212; 254; 0; 0; 0; 0; 0; 64; 232; 3; 0; 0; 60; 0; 253; 254; 0; 0; 196; 9; 0; 0; 0; 0; 0; 0; 0; 8; num; 0; 0; 0; 100; 0; 56; 255; 44; 1; 144; 1].
Definition lay : layout := match reader_for 21 32 18433 with Some l => l | None => [] end.
Definition ping (num : Z) : piece := Piece 21 (split_fields lay (unpack lay (body num))) ([165; 10; 21; 16; 84; 0; 0; 0; 0; 0] ++ body num).
Definition text : piece := Piece 160 [] [165; 10; 160; 16; 2; 0; 0; 0; 0; 0; 16; 65].
Definition conf0 : Z -> Z * Z := fun _ => (32, 18433).
Definition pings : list (list piece) := [[ping 5]; [ping 6]; [ping 7]].
Definition file0 : bytes := bytes_of [text] ++ concat (map bytes_of pings).
Lemma body_bytes num : 0 <= num < 50 -> all_bytes (body num).
Proof. intros N. unfold body, all_bytes. repeat (apply Forall_cons; [lia|]). apply Forall_nil. Qed.
Lemma good_ping num : 0 <= num < 50 -> good_piece conf0 (ping num).
Proof.
  intros N. split; [cbn; lia|]. exists (body num). split; [|split; [|split; [|split]]].
  - exists 10, 16, 84, 0, 0, 0, 0, 0. split; [reflexivity|]. cbn. lia.
  - unfold short. cbn. lia.
  - discriminate.
  - intros _. split; [cbn; lia|]. split; [discriminate|]. repeat split; reflexivity.
  - intros _. exists lay. split; [reflexivity|]. apply Ad2cp.holds_any; [|apply body_bytes, N|reflexivity].
    apply Forall_forall. intros f Hf. unfold lay in Hf. cbn in Hf. repeat (destruct Hf as [<-|Hf]; [cbn; lia|]). destruct Hf.
Qed.
Lemma good_text : good_piece conf0 text.
Proof.
  split; [cbn; lia|]. exists [16; 65]. split; [|split; [|split; [|split]]].
  - exists 10, 16, 2, 0, 0, 0, 0, 0. split; [reflexivity|]. cbn. lia.
  - unfold short. cbn. lia.
  - discriminate.
  - discriminate.
  - cbn. lia.
Qed.
Example C170_file : sig_file conf0 [21] pings file0.
Proof.
  exists 5, [text], 94. split; [|split; [cbn; lia|split]].
  - constructor.
    + reflexivity.
    + apply Forall_cons; [split; [exact good_text|reflexivity]|apply Forall_nil].
    + apply NoDup_cons; [intros []|apply NoDup_nil].
    + intros e ps H. destruct e as [|[|[|e]]]; cbn in H; try (destruct e; discriminate H); injection H as <-;
        (split; [reflexivity|]; split; [eexists; eexists; split; reflexivity|]; split; [apply Forall_cons; [apply good_ping; lia|apply Forall_nil]|];
         apply Forall_cons; [intros _; reflexivity|apply Forall_nil]).
    + lia.
    + cbn. lia.
    + cbn. lia.
  - intros ps [<-|[<-|[<-|[]]]]; reflexivity.
  - intros [_ [C|[]]]. discriminate C.
Qed.
Definition fh0 : filehead := Filehead 8 600 [] [].
Lemma has_at num nm i raws f : nth_error lay i = Some f -> fname f = nm -> nth_error (p_vals (ping num)) i = Some raws -> has conf0 (ping num) nm raws.
Proof. intros A B C. exists lay, i, f. split; [reflexivity|]. tauto. Qed.
Lemma in_pings k p : in_ping pings 1 None k p -> exists num, p = ping num.
Proof.
  intros (_ & ps & E & I). destruct k as [|[|k]]; cbn in E; [| |destruct k; discriminate E]; injection E as <-; destruct I as [<-|[]]; eexists; reflexivity.
Qed.
Example C170_dataset : exists r col ts t, read_signature (S (length file0)) fh0 false false true None file0 1 None = Dataset r /\
  shows (data_vars r) "vel" 1 col /\ Forall2 (within (powerRZ 10 (-3) / 2)) [(1 / 10)%R; (- (2 / 10))%R; (3 / 10)%R; (4 / 10)%R] col /\
  shows (data_vars r) "ensemble" 1 [Int 3] /\ get (times r) "time" = Some ts /\ nth_error ts 1 = Some (Some t) /\ (t == 1589373017 + (1 # 2))%Q.
Proof.
  assert (RB : true = true \/ @None (list entry) = None) by (left; reflexivity). assert (FU : (length file0 < S (length file0))%nat) by lia.
  destruct (C170_readable_partial conf0 [21] pings file0 true None 1 None (S (length file0)) fh0 false 0 0 4 0 "fixed" "up" "bad power" lay C170_file RB FU) as (r & E).
  - cbn. lia.
  - left; reflexivity.
  - intros id [<-|[]] _. reflexivity.
  - reflexivity.
  - cbn. tauto.
  - intros k p I _. destruct (in_pings k p I) as (num & ->). eapply (has_at num "status" 34); reflexivity.
  - lia.
  - cbn; tauto.
  - cbn; tauto.
  - cbn; tauto.
  - assert (IP : in_ping pings 1 None 1 (ping 7)) by (split; [cbn; lia|eexists; split; [reflexivity|left; reflexivity]]).
    assert (TG : In (p_id (ping 7), ""%string) profile_tags) by (left; reflexivity).
    destruct (C170_velocity conf0 [21] pings file0 true None 1 None _ fh0 false r 1 (ping 7) "" [100; -200; 300; 400] (-3) [(1 / 10)%R; (- (2 / 10))%R; (3 / 10)%R; (4 / 10)%R] C170_file RB FU E IP TG) as (col & S1 & W).
    { eapply (has_at 7 "vel" 36); reflexivity. }
    { eapply (has_at 7 "vel_scale" 28); reflexivity. }
    { assert (T : powerRZ 10 (-3) = (1 / 1000)%R) by (change (powerRZ 10 (-3)) with (/ (10 * (10 * (10 * 1))))%R; lra). rewrite T.
      assert (N : forall q n, (IZR n * (1 / 1000) - q = 0)%R -> nearest (1 / 1000) q n) by (intros q n H; unfold nearest; rewrite H, Rabs_R0; lra).
      do 4 (apply Forall2_cons; [apply N; lra|]); apply Forall2_nil. }
    destruct (C170_times conf0 [21] pings file0 true None 1 None _ fh0 false r 1 (ping 7) "" 120 4 13 12 30 17 5000 1589373017 C170_file RB FU E IP TG) as (ts & t & T1 & T2 & T3).
    { eapply (has_at 7 "year" 4); reflexivity. }
    { eapply (has_at 7 "month" 5); reflexivity. }
    { eapply (has_at 7 "day" 6); reflexivity. }
    { eapply (has_at 7 "hour" 7); reflexivity. }
    { eapply (has_at 7 "minute" 8); reflexivity. }
    { eapply (has_at 7 "second" 9); reflexivity. }
    { eapply (has_at 7 "usec100" 10); reflexivity. }
    { reflexivity. }
    { lia. }
    { exact (Calendar.epoch_elapsed (Nortek.Date 2020 5 13 12 30 17) (Calendar.valid_okd (Nortek.Date 2020 5 13 12 30 17) eq_refl ltac:(cbn; lia))). }
    exists r, col, ts, t. split; [exact E|]. split; [exact S1|]. split; [exact W|]. split; [|split; [exact T1|split; [exact T2|rewrite T3; reflexivity]]].
    exact (C170_ensemble conf0 [21] pings file0 true None 1 None _ fh0 false r 1 (ping 7) "" C170_file RB FU E IP TG).
Qed.

(** All the theorems of this file, for one listing of axioms. *)
Definition all_theorems :=
  (@C170_readable_partial,
   @C170_velocity,
   @C170_quantities_partial,
   @C170_times,
   @C170_ensemble,
   @C170_orientation).
Print Assumptions all_theorems.
