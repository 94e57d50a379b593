(** The bits of the status words in the manufacturer's guide. *)
From Coq Require Import String.
From Coq Require Import ZArith List.
Import ListNotations.
Open Scope Z_scope.

Definition status_bits : list (string * Z) := [("low_volt_skip", 17); ("active_config", 16); ("telemetry_data", 11); ("boost_running", 10)]%string.
Definition idle_bits : list (string * Z) := [("proc_idle_less_3pct", 0); ("proc_idle_less_6pct", 1); ("proc_idle_less_12pct", 2)]%string.
(** bit 15 of the second word says that the word is in use *)
Definition in_use (v : Z) : Prop := Z.testbit v 15 = true.
Definition flag (v b : Z) : Z := if Z.testbit v b then 1 else 0.
(** how many pings have the bit *)
Fixpoint how_many (words : list Z) (b : Z) : nat := match words with [] => O | v :: r => if Z.testbit v b then S (how_many r b) else how_many r b end.
