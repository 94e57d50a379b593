(** What the properties of file names, file types and userdata say. *)
From Coq Require Import String Ascii ZArith QArith List Bool.
From Verif.Model Require Import FileNames.
Import ListNotations.
Open Scope string_scope.
Open Scope list_scope.

Definition separator (c : ascii) : Prop := c = "/"%char \/ c = "\"%char.
(** [nm] is the part of [path] after its last separator *)
Definition basename (path nm : name) : Prop :=
  (forall c, In c nm -> ~ separator c) /\
  (path = nm \/ exists dir c, path = dir ++ c :: nm /\ separator c).
(** an extension: no dot and no separator in it *)
Definition extension (ext : name) : Prop := forall c, In c ext -> c <> "."%char /\ ~ separator c.

(** the file begins with these bytes *)
(** the bytes of a text *)
Fixpoint text_bytes (s : String.string) : list Z :=
  match s with String.EmptyString => [] | String.String c s' => Z.of_nat (Ascii.nat_of_ascii c) :: text_bytes s' end.
Definition starts (p file : list Z) : Prop := exists rest, file = p ++ rest.

(** ** userdata *)
Definition deprecated (k : name) : Prop := k = chars "body2head_rotmat" \/ k = chars "body2head_vec".
Definition converted (k : name) : Prop := k = chars "inst2head_rotmat" \/ k = chars "inst2head_vec".
(** what a rotation matrix given in the file stands for *)
Definition matrix_of (v : json) : json :=
  match v with
  | JStr s => if name_eqb s (chars "identity") || name_eqb s (chars "eye") then JIdentity else JArray v
  | JNum q => if Qeq_bool q 1%Q then JIdentity else JArray v
  | JBool true => JIdentity
  | _ => JArray v
  end.
(** a value under its deprecated name wins over the one under its present name *)
Definition given (d : dict) (old new : name) : option json :=
  match get old d with Some v => Some v | None => get new d end.
