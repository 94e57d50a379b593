(** C171: the configuration written at the start of a Signature file is the configuration the reader works with. *)
From Coq Require Import String.
From Coq Require Import ZArith QArith List Bool Lia.
From Verif.Model Require Import SigHead.
From Verif.Spec Require Import SigHead.
From Verif.Proofs Require SigHead.
Import ListNotations.
Open Scope Z_scope.

(** The text is read, and every parameter of every command is found with the value that was written: integers,
    decimals, and anything that is neither as text.  Partial: names of commands that begin with G, E or T, commands that
    occur twice and parameters with a comma or an equals sign are left out ([good_line], [one_command]); they are lost or
    stop the reader, see the refutations. *)
Theorem C171_commands_partial : forall ls, Forall good_line ls -> one_command ls ->
  exists cf, read_config (written ls) = Some cf /\
  forall nm ps, In (Command nm ps) ls -> NoDup (map fst ps) ->
  exists d, tget cf nm = Some (Table d) /\
  forall k v, In (k, v) ps ->
    (forall n, integer v n -> tget d k = Some (VInt n)) /\
    (forall q, fraction v q -> exists q', tget d k = Some (VFloat q') /\ (q' == q)%Q).
Proof.
  intros ls F O. destruct (Proofs.SigHead.config_read ls F O) as (cf & R & _). exists cf. split; [exact R|].
  intros nm ps I N. destruct (Proofs.SigHead.command_table ls cf nm ps F O R I N) as (d & T & G). exists d. split; [exact T|].
  intros k v Ik. rewrite (G k v Ik). split.
  - intros n H. rewrite (Proofs.SigHead.number_integer v n H). reflexivity.
  - intros q H. destruct (Proofs.SigHead.number_fraction v q H) as (q' & -> & E). exists q'. split; [reflexivity|exact E].
Qed.

(** The other lines are kept as they are; those with the same key in the order of the file. *)
Theorem C171_lines : forall ls, Forall good_line ls -> one_command ls ->
  exists cf, read_config (written ls) = Some cf /\
  forall k v, In (Other k v) ls ->
    match values_of ls k with
    | [] => False
    | [w] => tget cf k = Some (Plain (One w))
    | ws => tget cf k = Some (Plain (Many ws))
    end.
Proof. exact Proofs.SigHead.other_lines. Qed.

(** The rate of bursts is the parameter SR of the command GETBURST. *)
Theorem C171_rate : forall ls cf ps v q, Forall good_line ls -> one_command ls -> read_config (written ls) = Some cf ->
  In (Command (codes "BURST") ps) ls -> NoDup (map fst ps) -> In (codes "SR", v) ps ->
  (exists n, integer v n /\ (q == inject_Z n)%Q) \/ fraction v q ->
  exists q', burst_rate cf = Some q' /\ (q' == q)%Q.
Proof.
  intros ls cf ps v q F O R I N Iv V. destruct (Proofs.SigHead.command_table ls cf _ ps F O R I N) as (d & T & G).
  unfold burst_rate, parameter. rewrite T, (G _ _ Iv). apply Proofs.SigHead.number_value, V.
Qed.

(** The matrix has the numbers of rows and columns that were written, and in row i and column j the parameter M(i)(j). *)
Theorem C171_matrix : forall ls cf nm ps r c tr tc (M : nat -> nat -> Q) (T : nat -> nat -> text),
  Forall good_line ls -> one_command ls -> read_config (written ls) = Some cf ->
  In (Command (codes nm) ps) ls -> NoDup (map fst ps) -> (r < 10)%nat -> (c < 10)%nat ->
  In (codes "ROWS", tr) ps -> integer tr (Z.of_nat r) -> In (codes "COLS", tc) ps -> integer tc (Z.of_nat c) ->
  (forall i j, (i < r)%nat -> (j < c)%nat ->
    In (codes "M" ++ [48 + Z.of_nat (i + 1)] ++ [48 + Z.of_nat (j + 1)], T i j) ps /\
    ((exists n, integer (T i j) n /\ (M i j == inject_Z n)%Q) \/ fraction (T i j) (M i j))) ->
  exists m, matrix cf nm = Some m /\ length m = r /\
  forall i row, nth_error m i = Some row -> length row = c /\ forall j q, nth_error row j = Some q -> (q == M i j)%Q.
Proof. exact Proofs.SigHead.matrix_written. Qed.

(** The name of the instrument is that of the line ID. *)
Theorem C171_model : forall ls cf nm rest, Forall good_line ls -> one_command ls -> read_config (written ls) = Some cf ->
  values_of ls (codes "ID") = [codes "STR=" ++ [34] ++ nm ++ [34] ++ codes "," ++ rest] -> ~ In comma nm ->
  inst_model cf = Some nm.
Proof. exact Proofs.SigHead.model_read. Qed.

(** The angle of the beams is the one of the first beam in the file.  Partial: for two and more beams and angles that
    begin with two digits, without what comes after them. *)
Theorem C171_beam_angle_partial : forall ls cf b a0 a1 rest rest_lines,
  Forall good_line ls -> one_command ls -> read_config (written ls) = Some cf ->
  values_of ls (codes "BEAMCFGLIST") = (codes "BEAM=" ++ [48 + b] ++ codes ",THETA=" ++ [48 + a0; 48 + a1] ++ rest) :: rest_lines ->
  rest_lines <> [] -> 0 <= a0 <= 9 -> 0 <= a1 <= 9 ->
  beam_angle cf = Some (Some (10 * a0 + a1)).
Proof. exact Proofs.SigHead.angle_read. Qed.

(** ** Refutations *)
(** The command GETECHO is not found by its name. *)
Theorem C171_names_refuted : exists cf d, read_config (written [Command (codes "ECHO") [(codes "NC", codes "5")]]) = Some cf /\
  tget cf (codes "ECHO") = None /\ tget cf (codes "CHO") = Some (Table d) /\ tget d (codes "NC") = Some (VInt 5).
Proof. eexists. eexists. repeat split; reflexivity. Qed.
(** A command that occurs twice stops the reader, whatever its parameters; so does an empty line. *)
Theorem C171_repeated_refuted : read_config (written [Command (codes "BURST") [(codes "SR", codes "4")]; Command (codes "BURST") [(codes "SR", codes "4")]]) = None.
Proof. reflexivity. Qed.
Theorem C171_empty_line_refuted : forall ls rest, Forall good_line ls -> read_config (written ls ++ [13; 10] ++ rest) = None.
Proof. exact Proofs.SigHead.empty_line. Qed.
(** A comma within quotes ends the parameter, and the reader stops. *)
Theorem C171_quoted_refuted : read_config (written [Command (codes "INST") [(codes "NAME", [34] ++ codes "buoy, north" ++ [34])]]) = None.
Proof. reflexivity. Qed.
(** An angle below ten degrees stops the reader; of an angle with decimals only the whole part is kept; with the line of a
    single beam there is no angle. *)
Theorem C171_small_angle_refuted : exists cf, read_config (written [Other (codes "BEAMCFGLIST") (codes "BEAM=1,THETA=9.00"); Other (codes "BEAMCFGLIST") (codes "BEAM=2,THETA=9.00")]) = Some cf /\
  beam_angle cf = None.
Proof. eexists. split; reflexivity. Qed.
Theorem C171_half_angle_refuted : exists cf, read_config (written [Other (codes "BEAMCFGLIST") (codes "BEAM=1,THETA=25.50"); Other (codes "BEAMCFGLIST") (codes "BEAM=2,THETA=25.50")]) = Some cf /\
  beam_angle cf = Some (Some 25).
Proof. eexists. split; reflexivity. Qed.
Theorem C171_one_beam_refuted : exists cf, read_config (written [Other (codes "BEAMCFGLIST") (codes "BEAM=1,THETA=25.00")]) = Some cf /\
  beam_angle cf = Some None.
Proof. eexists. split; reflexivity. Qed.

(** ** A configuration that meets the hypotheses *)
Definition example : list line :=
  [ Other (codes "ID") (codes "STR=" ++ [34] ++ codes "Signature1000" ++ [34] ++ codes "," ++ codes "SN=100163")
  ; Command (codes "BURST") [(codes "NC", codes "40"); (codes "SR", codes "16"); (codes "CS", codes "0.50")]
  ; Other (codes "BEAMCFGLIST") (codes "BEAM=1,THETA=25.00,PHI=0.00")
  ; Command (codes "XFBURST") [(codes "ROWS", codes "1"); (codes "COLS", codes "2"); (codes "M11", codes "1.1831"); (codes "M12", codes "-1")]
  ; Other (codes "BEAMCFGLIST") (codes "BEAM=2,THETA=25.00,PHI=90.00") ].
Lemma numeral2 a b : 0 <= a <= 9 -> 0 <= b <= 9 -> numeral [48 + a; 48 + b] (10 * a + b).
Proof. intros A B. apply (numeral_more [48 + a] a b); [apply numeral_one, A|exact B]. Qed.
Ltac no_char := let c := fresh in let H := fresh in let H' := fresh in intros c H H'; cbn in H, H'; intuition (subst; discriminate).
Example C171_example_good : Forall good_line example /\ one_command example.
Proof.
  split.
  - repeat apply Forall_cons; try apply Forall_nil; cbn [good_line].
    + repeat split; try no_char. intros (t & E). discriminate E.
    + repeat split; try no_char; try (intros c t E; injection E as <- _; cbn; intuition discriminate); try discriminate.
      repeat apply Forall_cons; try apply Forall_nil; split; no_char.
    + repeat split; try no_char. intros (t & E). discriminate E.
    + repeat split; try no_char; try (intros c t E; injection E as <- _; cbn; intuition discriminate); try discriminate.
      repeat apply Forall_cons; try apply Forall_nil; split; no_char.
    + repeat split; try no_char. intros (t & E). discriminate E.
  - intros l1 nm ps l2 E. unfold example in E.
    repeat (destruct l1 as [|? l1]; cbn [app] in E; [injection E; intros; subst; try discriminate; cbn [app]; repeat apply Forall_cons; try apply Forall_nil; cbn; discriminate|injection E as <- E]).
    destruct l1; discriminate E.
Qed.
Example C171_example : exists cf, read_config (written example) = Some cf /\ burst_rate cf = Some (inject_Z 16) /\
  inst_model cf = Some (codes "Signature1000") /\ beam_angle cf = Some (Some 25) /\
  (exists a b, matrix cf "XFBURST" = Some [[a; b]] /\ (a == 11831 # 10000)%Q /\ (b == -1)%Q).
Proof. eexists. split; [reflexivity|]. split; [reflexivity|]. split; [reflexivity|]. split; [reflexivity|]. eexists. eexists. repeat split; reflexivity. Qed.
Example C171_example_parts : values_of example (codes "ID") = [codes "STR=" ++ [34] ++ codes "Signature1000" ++ [34] ++ codes "," ++ codes "SN=100163"] /\
  ~ In comma (codes "Signature1000") /\
  values_of example (codes "BEAMCFGLIST") = (codes "BEAM=" ++ [48 + 1] ++ codes ",THETA=" ++ [48 + 2; 48 + 5] ++ codes ".00,PHI=0.00") :: [codes "BEAM=2,THETA=25.00,PHI=90.00"] /\
  integer (codes "16") 16 /\ integer (codes "-1") (-1) /\ fraction (codes "0.50") (inject_Z 0 + inject_Z 50 / inject_Z (10 ^ Z.of_nat 2)) /\
  integer (codes "1") (Z.of_nat 1) /\ integer (codes "2") (Z.of_nat 2).
Proof.
  split; [reflexivity|]. split; [cbn; intuition discriminate|]. split; [reflexivity|].
  split; [apply integer_plain, (numeral2 1 6); lia|]. split; [apply (integer_minus [48 + 1] 1), numeral_one; lia|].
  split; [apply (fraction_plain [48 + 0] 0 [48 + 5; 48 + 0] 50); [apply numeral_one; lia|apply (numeral2 5 0); lia]|].
  split; [apply integer_plain, (numeral_one 1); lia|apply integer_plain, (numeral_one 2); lia].
Qed.

(** All the theorems of this file, for one listing of axioms. *)
Definition all_theorems :=
  (@C171_commands_partial,
   @C171_lines,
   @C171_rate,
   @C171_matrix,
   @C171_model,
   @C171_beam_angle_partial,
   @C171_names_refuted,
   @C171_repeated_refuted,
   @C171_empty_line_refuted,
   @C171_quoted_refuted,
   @C171_small_angle_refuted,
   @C171_half_angle_refuted,
   @C171_one_beam_refuted).
Print Assumptions all_theorems.
