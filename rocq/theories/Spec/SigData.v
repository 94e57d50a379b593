(** What the properties of Signature data say. *)
From Coq Require Import String.
From Coq Require Import ZArith QArith Reals List Bool.
From Verif.Model Require Nortek.
From Verif.Model Require Import Ad2cp SigData.
Import ListNotations.
Open Scope Z_scope.

(** ** Quantities *)
(** what one count stands for in the unit of the variable: m/s, degree C, dbar, degree, V, uT, m/s^2, dB, m, s *)
Definition resolution : dict R :=
  [("c_sound", 1 / 10); ("temp", 1 / 100); ("pressure", 1 / 1000); ("heading", 1 / 100); ("pitch", 1 / 100); ("roll", 1 / 100);
   ("cell_size", 1 / 1000); ("batt", 1 / 10); ("mag", 1 / 10); ("accel", 981 / 100 / 16384); ("temp_clock", 1 / 100); ("amp", 1 / 2);
   ("corr", 1); ("dist", 1 / 1000); ("fom", 1); ("echo", 1 / 100); ("le_quality_alt", 1 / 100); ("ast_quality_alt", 1 / 100);
   ("ast_offset_time_alt", 1 / 10000); ("pitch_std", 1 / 100); ("roll_std", 1 / 100); ("heading_std", 1 / 100)]%string%R.
(** the quantity [q] is recorded as the nearest count *)
Definition nearest (r q : R) (n : Z) : Prop := (Rabs (IZR n * r - q) <= r / 2)%R.
Definition within (e q : R) (x : num) : Prop := exists y, real x = Some y /\ (Rabs (y - q) <= e)%R.
(** ping [k] of the variable [nm] *)
Definition shows (d : dict var) (nm : string) (k : nat) (col : column) : Prop :=
  exists v, get d nm = Some v /\ nth_error v k = Some col.
(** ping [k] of a record with this layout has these counts for this field *)
Definition recorded (l : layout) (pings : list (option (list (list Z)))) (k : nat) (nm : string) (raws : list Z) : Prop :=
  exists vals i f, nth_error pings k = Some (Some vals) /\ nth_error l i = Some f /\ fname f = nm /\ nth_error vals i = Some raws.

(** ** The calendar: the second after a date *)
Definition next_second (d : Nortek.date) : Nortek.date :=
  let '(Nortek.Date y mo dy h mi s) := d in
  if s <? 59 then Nortek.Date y mo dy h mi (s + 1)
  else if mi <? 59 then Nortek.Date y mo dy h (mi + 1) 0
  else if h <? 23 then Nortek.Date y mo dy (h + 1) 0 0
  else if dy <? Nortek.days_in_month y mo then Nortek.Date y mo (dy + 1) 0 0 0
  else if mo <? 12 then Nortek.Date y (mo + 1) 1 0 0 0
  else Nortek.Date (y + 1) 1 1 0 0 0.
(** [n] seconds after the start of 1970 *)
Inductive elapsed : Nortek.date -> Z -> Prop :=
| elapsed_start : elapsed (Nortek.Date 1970 1 1 0 0 0) 0
| elapsed_next d n : elapsed d n -> elapsed (next_second d) (n + 1).

(** ** Datasets *)
(** the variables that have a name and a unit in the tables and are carried over to the dataset as they are *)
Definition carried : list string :=
  ["vel"; "amp"; "corr"; "dist"; "fom"; "angrt"; "quaternions"; "mag"; "accel"; "error"; "status"; "pressure_alt"; "le_dist_alt";
   "le_quality_alt"; "ast_dist_alt"; "ast_quality_alt"; "ast_offset_time_alt"; "press_std"; "pitch_std"; "roll_std"; "heading_std"; "xmit_energy"]%string.
Definition profile_tags : list (Z * string) := [(21, ""); (22, "_avg"); (23, "_bt"); (24, "_b5"); (28, "_echo")]%string.
(** the nine numbers of a matrix, row by row *)
Definition flat (m : list (list R)) : column := map (fun x => Flt (Some x)) (concat m).
Definition entry9 (c : column) (i j : nat) : num := nth (3 * i + j) c (Flt None).
Definition transposed (a b : column) : Prop := length b = 9%nat /\ forall i j, (i < 3)%nat -> (j < 3)%nat -> entry9 b i j = entry9 a j i.
(** the pings that were recorded *)
Fixpoint somes {A} (l : list (option A)) : list (option A) :=
  match l with [] => [] | Some x :: l' => Some x :: somes l' | None :: l' => somes l' end.
(** no recorded ping has version zero *)
Definition all_versions (l : layout) (pings : list (option (list (list Z)))) : Prop :=
  forall k vals, nth_error pings k = Some (Some vals) -> exists v, recorded l pings k "ver" [v] /\ v <> 0.
(** the sensors of which bursts and the fifth beam have one each: their mean is kept *)
Definition sensors : list string := ["c_sound"; "temp"; "pressure"; "temp_press"; "temp_clock"; "batt"; "heading"; "pitch"; "roll"]%string.
(** all pings were recorded, with this status word *)
Definition same_status (l : layout) (pings : list (option (list (list Z)))) (s : Z) : Prop :=
  forall k, (k < length pings)%nat -> recorded l pings k "status" [s].
(** the word with these codes: orientation detection, orientation, wake-up state *)
Definition status_codes (low a o w : Z) : Z := low + 2 ^ 22 * (a + 8 * (o + 8 * w)).
(** the ids of the records in a file *)
Definition ids (recs : list (Z * layout * list (option (list (list Z))))) : list Z := map (fun p => fst (fst p)) recs.
