(** Model of the status variables and of the processor attributes of a Signature dataset: dolfyn/io/nortek2.py:517-522 and
    543-550 with dolfyn/io/nortek2_lib.py:387-418. The words are those of the first record with a 'status0' (Model/SigData.v,
    [status_of]); the names of the other codes are in Model/SigData.v too. Simplified: uint8 values are integers. *)
From Coq Require Import String.
From Coq Require Import ZArith List Bool.
From Verif.Model Require Import Ad2cp.
Import ListNotations.
Open Scope Z_scope.

(** status_data[ky] of one ping, nortek2.py:545; every name asked for is there *)
Definition entry (d : list (string * Z)) (nm : string) : Z := match find (fun p => String.eqb (fst p) nm) d with Some p => snd p | None => 0 end.
(** nortek2.py:543-545 *)
Definition status_vars (status : list Z) : list (string * list Z) :=
  map (fun nm => (nm, map (fun v => entry (status2data v) nm) status)) ["low_volt_skip"; "active_config"; "telemetry_data"; "boost_running"]%string.
(** nortek2_lib.py:387-397 [_status02data] *)
Definition status02data (val : list Z) : list (string * list Z) :=
  if existsb (fun v => negb (bit1 v 15 =? 0)) val
  then [("proc_idle_less_3pct", map (fun v => bit1 v 0) val); ("proc_idle_less_6pct", map (fun v => bit1 v 1) val);
        ("proc_idle_less_12pct", map (fun v => bit1 v 2) val)]%string
  else [].
(** nortek2.py:547-550; [None] is an exception of [_collapse] *)
Fixpoint collapse_all (d : list (string * list Z)) : option (list (string * Z)) :=
  match d with
  | [] => Some []
  | (nm, vec) :: d' => match collapse vec [], collapse_all d' with Some v, Some r => Some ((nm, v) :: r) | _, _ => None end
  end.
(** nortek2.py:520-522, 543-550: the variables and the attributes *)
Definition read_status (status0 status : list Z) : option (list (string * list Z) * list (string * Z)) :=
  match collapse_all (status02data status0) with Some a => Some (status_vars status, a) | None => None end.
