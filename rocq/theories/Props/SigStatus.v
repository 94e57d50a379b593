(** Property C182: the status of a Signature, ping by ping. *)
From Coq Require Import String.
From Coq Require Import ZArith List Lia.
From Verif.Model Require Import SigStatus.
From Verif.Spec Require Import SigStatus.
From Verif.Proofs Require SigStatus.
Import ListNotations.
Open Scope Z_scope.

(** no words make the reader fail *)
Theorem C182_readable : forall status0 status, exists vars attrs, read_status status0 status = Some (vars, attrs).
Proof. intros status0 status. destruct (SigStatus.read_total status0 status) as (a & E). exists (SigStatus.status_vars status), a. exact E. Qed.
(** every variable has one entry per ping, the bit of that ping *)
Theorem C182_variables : forall status0 status vars attrs, read_status status0 status = Some (vars, attrs) ->
  map fst vars = map fst status_bits /\
  forall nm b, In (nm, b) status_bits -> exists col, In (nm, col) vars /\ length col = length status /\
    forall k v, nth_error status k = Some v -> nth_error col k = Some (flag v b).
Proof. exact SigStatus.variables. Qed.
(** the processor attributes are there if a ping says so, with the value of at least half of the pings *)
Theorem C182_idle : forall status0 status vars attrs, read_status status0 status = Some (vars, attrs) ->
  ((forall v, In v status0 -> ~ in_use v) -> attrs = []) /\
  ((exists v, In v status0 /\ in_use v) -> map fst attrs = map fst idle_bits /\
    forall nm b, In (nm, b) idle_bits -> In (nm, if (length status0 <=? 2 * how_many status0 b)%nat then 1 else 0) attrs).
Proof. exact SigStatus.idle. Qed.
Theorem C182_agreed : forall status0 status vars attrs nm b f, read_status status0 status = Some (vars, attrs) -> (exists v, In v status0 /\ in_use v) ->
  In (nm, b) idle_bits -> (forall v, In v status0 -> flag v b = f) -> In (nm, f) attrs.
Proof. exact SigStatus.idle_agreed. Qed.
(** the words of pings that do not use them are counted too: the only ping that says anything says 0, the attribute is 1 *)
Theorem C182_unused_counted_refuted : exists status0 status vars attrs u, read_status status0 status = Some (vars, attrs) /\
  In u status0 /\ in_use u /\ flag u 0 = 0 /\ (forall v, In v status0 -> in_use v -> v = u) /\ In ("proc_idle_less_3pct"%string, 1) attrs.
Proof.
  exists [32768; 1; 1], [0; 0; 0], (SigStatus.status_vars [0; 0; 0]), [("proc_idle_less_3pct", 1); ("proc_idle_less_6pct", 0); ("proc_idle_less_12pct", 0)]%string, 32768.
  split; [reflexivity|]. split; [left; reflexivity|]. split; [reflexivity|]. split; [reflexivity|]. split; [|left; reflexivity].
  intros v [<-|[<-|[<-|[]]]] U; [reflexivity|discriminate U..].
Qed.
Example C182_example : read_status [32769; 32769; 32770; 32772] [131072; 65536; 2048; 3072] =
  Some ([("low_volt_skip", [1; 0; 0; 0]); ("active_config", [0; 1; 0; 0]); ("telemetry_data", [0; 0; 1; 1]); ("boost_running", [0; 0; 0; 1])]%string,
        [("proc_idle_less_3pct", 1); ("proc_idle_less_6pct", 0); ("proc_idle_less_12pct", 0)]%string) /\ in_use 32769 /\ ~ in_use 1.
Proof. split; [reflexivity|]. split; [reflexivity|discriminate]. Qed.

(** All the theorems of this file, for one listing of axioms. *)
Definition all_theorems :=
  (@C182_readable,
   @C182_variables,
   @C182_idle,
   @C182_agreed,
   @C182_unused_counted_refuted).
Print Assumptions all_theorems.
