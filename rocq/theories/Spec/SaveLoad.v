(** What saving and loading should give back. *)
From Coq Require Import String.
From Coq Require Import Reals List.
From Verif.Model Require Import SaveLoad.
Import ListNotations.

(** values are kept, double precision excepted *)
Definition stored (cast : R -> R) (v : arr) : arr :=
  match v with F64 x => F32 (map cast x) | _ => v end.
Definition is_complex (d : vars) (nm : string) : Prop := exists re im, find nm d = Some (Cx re im).
(** no variable is called like the parts of a complex variable *)
Definition no_clash (d : vars) : Prop := forall nm, is_complex d nm ->
  find (nm ++ "_real")%string d = None /\ find (nm ++ "_imag")%string d = None.
(** when there are several complex variables, none has a name of one character *)
Definition long_names (d : vars) : Prop := forall a b, is_complex d a -> is_complex d b -> a <> b -> String.length a <> 1%nat.
