(** What the rotation properties say, apart from the code of rotate2. *)
From Coq Require Import Reals List String.
From Verif.Model Require Import Linalg Rotate.
From Verif.Spec Require Import Linalg.
Import ListNotations.
Open Scope R_scope.

Definition frames : list string := ["beam"; "inst"; "earth"; "principal"]%string.

(** The vector measured for variable [nm] at time [k] in cell [c]. *)
Definition value (d : ds) (nm : string) (k c : nat) : option vec :=
  match lookup nm (data d) with
  | None => None
  | Some v => match nth_error (cells v) k with
              | None => None
              | Some row => nth_error row c
              end
  end.

(** Axis labels documented for each make and frame. *)
Definition axis_labels (fam : family) (frame : string) (beam : list string) : list string :=
  let third := match fam with Rdi => ["Z"; "err"] | Signature => ["Z1"; "Z2"] | _ => ["Z"] end%string in
  let up := match fam with Rdi => ["U"; "err"] | Signature => ["U1"; "U2"] | _ => ["U"] end%string in
  let vert := match fam with Rdi => ["vert"; "err"] | Signature => ["vert1"; "vert2"]
                        | _ => ["vert"] end%string in
  if String.eqb frame "beam" then beam
  else if String.eqb frame "inst" then ("X" :: "Y" :: third)%string
  else if String.eqb frame "earth" then ("E" :: "N" :: up)%string
  else ("streamwise" :: "x-stream" :: vert)%string.
Definition imu_labels (frame : string) : list string :=
  if String.eqb frame "earth" then ["E"; "N"; "U"]%string
  else if String.eqb frame "principal" then ["streamwise"; "x-stream"; "vert"]%string
  else ["X"; "Y"; "Z"]%string.

(** Make and model strings the readers produce: TRDI, Nortek Signature/AD2CP, other Nortek. *)
Definition standard_make (fam : family) (mk : string) : Prop :=
  family_of mk = Some fam /\
  match fam with
  | Rdi => contains "rdi" mk = true
  | Signature => contains "rdi" mk = false /\ contains "nortek" mk = true /\
                 (contains "signature" mk = true \/ contains "ad2cp" mk = true)
  | _ => contains "rdi" mk = false /\ contains "nortek" mk = true /\
         contains "signature" mk = false /\ contains "ad2cp" mk = false /\
         contains "vectrino" mk = false
  end.

Definition ndir (fam : family) : nat := match fam with Rdi | Signature => 4 | _ => 3 end.

(** A variable with one list of cells per time and the same number of components everywhere. *)
Definition shaped (ntime : nat) (v : var) : Prop :=
  List.length (cells v) = ntime /\ Forall (Forall (is_vec (ncomp v))) (cells v).

(** Number of components the family can rotate. *)
Definition rotatable (fam : family) (n : nat) : Prop :=
  match fam with
  | Vector | Awac => n = 3%nat
  | Signature => n = 3%nat \/ n = 4%nat
  | Rdi => (3 <= n)%nat
  end.

(** The dataset is what the readers produce and its matrices are what they should be:
    invertible beam matrix, orthonormal orientation matrices (with a vertical axis that is
    not horizontal for a Signature), proper inst2head rotation if there is one. *)
Record admissible (fam : family) (d : ds) : Prop := {
  adm_make : standard_make fam (make_model d);
  adm_frame : In (coord_sys d) frames;
  adm_dir : dir d = axis_labels fam (coord_sys d) (beam_labels d);
  adm_imu : dirIMU d = None \/ dirIMU d = Some (imu_labels (coord_sys d));
  adm_beam : List.length (beam_labels d) = ndir fam;
  adm_b2i : exists n, (n = 3%nat \/ n = 4%nat) /\ is_mat n (beam2inst d) /\ det n (beam2inst d) <> 0;
  adm_omat : Forall orthonormal (orientmat d);
  adm_sig : fam = Signature -> Forall (fun O => entry O 2 2 <> 0) (orientmat d);
  adm_keys : NoDup (map fst (data d));
  adm_vars : forall nm, In nm (rotate_vars d) -> exists v, lookup nm (data d) = Some v /\
               shaped (List.length (orientmat d)) v /\ rotatable fam (ncomp v);
  adm_i2h : forall M, inst2head d = Some M -> inst2head_was_set d = true /\ proper_rotation M /\
               exists v, lookup "vel" (data d) = Some v /\
                 shaped (List.length (orientmat d)) v /\ ncomp v = 3%nat }.

(** the principal frame needs a principal heading *)
Definition frame_ok (d : ds) (frame : string) : Prop :=
  In frame frames /\ (frame = "principal"%string -> principal_heading d <> None).

(** by how much a new declination differs from the one in force (none counts as 0) *)
Definition declination_change (d : ds) (a : R) : R :=
  match declination d with Some old => a - old | None => a end.

(** a vector (east, north, ...) turned clockwise by [deg] degrees seen from above *)
Definition clockwise (deg : R) (v : vec) : vec :=
  match v with
  | e :: n :: rest => (cos (deg2rad deg) * e + sin (deg2rad deg) * n) ::
                      (- sin (deg2rad deg) * e + cos (deg2rad deg) * n) :: rest
  | _ => v
  end.

(** the rows of an orientation matrix are the instrument axes in earth coordinates; the earth
    components of a vector with instrument components [x] are its combination of the axes *)
Definition in_earth (O : mat) (x : vec) : vec :=
  map (fun i => comp x 0 * entry O 0 i + comp x 1 * entry O 1 i + comp x 2 * entry O 2 i) (seq 0 3).
(** components along the heading [deg] (clockwise from North) and 90 degrees to its left *)
Definition along (deg : R) (e n : R) : R := e * sin (deg2rad deg) + n * cos (deg2rad deg).
Definition left_of (deg : R) (e n : R) : R := - e * cos (deg2rad deg) + n * sin (deg2rad deg).
(** a Signature mounted downwards reports y and z along the opposite axes *)
Definition mounted (down : bool) (x : vec) : vec :=
  if down then match x with a :: rest => a :: map Ropp rest | [] => [] end else x.
