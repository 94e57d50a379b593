(** What the dataset of an AWAC file should hold: its profiles, at the dates that they say. *)
From Coq Require Import String.
From Coq Require Import ZArith QArith List.
From Verif.Model Require Import Nortek NortekFile NortekData ReadVector HandleNan.
From Verif.Spec Require Import ReadVector Time.
From Verif.Spec Require SigData.
Import ListNotations.
Open Scope nat_scope.

(** profile [i] has the readings of the record *)
Definition awac_readings : list (string * (awac_head -> Q)) :=
  [("error", fun x => inject_Z (a_error x)); ("batt", a_batt); ("c_sound", a_c_sound); ("heading", a_heading); ("pitch", a_pitch);
   ("roll", a_roll); ("pressure", a_pressure); ("status", fun x => inject_Z (a_status x)); ("temp", a_temp)]%string.
(** cell [j] of beam [k] of a variable with [bins] cells *)
Definition at_cell (d : dataset) (name : string) (bins k j i : nat) : option (option Q) := at_sample d name (k * bins + j) i.
Definition profile_is (e : endian) (beams bins : nat) (d : dataset) (i : nat) (byts : bytes) : Prop :=
  (exists x, decode_awac e byts = Some x /\ forall nm f, In (nm, f) awac_readings -> at_sample d nm 0 i = Some (Some (f x))) /\
  (forall k j, k < beams -> j < bins -> exists v a,
     nth_error (awac_vel e beams bins byts k) j = Some v /\ at_cell d "vel" bins k j i = Some (Some v) /\
     nth_error (awac_amp beams bins byts k) j = Some a /\ at_cell d "amp" bins k j i = Some (Some (inject_Z a))) /\
  (forall k j, beams <= k < 3 -> j < bins -> at_cell d "vel" bins k j i = Some None /\ at_cell d "amp" bins k j i = Some (Some 0%Q)).
(** its time is the instant of its date *)
Definition dated_as (d : dataset) (i : nat) (byts : bytes) : Prop :=
  exists dt n, rd_time (skipn 2 byts) = Some dt /\ SigData.elapsed dt n /\ nth_error (d_time d) i = Some (n * 1000000000)%Z.
Definition holds_profiles (e : endian) (beams bins : nat) (prs : list bytes) (d : dataset) : Prop :=
  length (d_time d) = length prs /\
  forall i byts, nth_error prs i = Some byts -> profile_is e beams bins d i byts /\ dated_as d i byts.
Definition matrix_is (d : dataset) (m : list (list Q)) : Prop :=
  exists v, find (fun v => String.eqb (vname v) "beam2inst_orientmat") (d_vars d) = Some v /\ lines v = map (map Some) m.
