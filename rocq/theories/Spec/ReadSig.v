(** What the property of reading Signature files says. *)
From Coq Require Import String.
From Coq Require Import ZArith List Bool.
From Verif.Model Require Import Ad2cp Ad2cpIndex.
From Verif.Spec Require Import Ad2cpIndex.
Import ListNotations.
Open Scope Z_scope.

(** a record of the file has these counts for the field [nm] *)
Definition has (conf : Z -> Z * Z) (p : piece) (nm : string) (raws : list Z) : Prop :=
  exists l i f, reader_for (p_id p) (fst (conf (p_id p))) (snd (conf (p_id p))) = Some l /\
    nth_error l i = Some f /\ fname f = nm /\ nth_error (p_vals p) i = Some raws.
(** the ensembles of a file that are read when [start] and [stop] are asked for *)
Definition upto (enss : list (list piece)) (stop : option nat) : nat := match stop with None => length enss | Some s => Nat.min s (length enss) end.
(** the record is in the [k]-th ensemble that is read *)
Definition in_ping (enss : list (list piece)) (start : nat) (stop : option nat) (k : nat) (p : piece) : Prop :=
  (start + k < upto enss stop)%nat /\ exists ps, nth_error enss (start + k) = Some ps /\ In p ps.
(** the ids of one profile: bursts or averages *)
Definition one_profile (ids : list Z) : Prop := ~ (In 21 ids /\ In 22 ids).
(** the file of a Signature, with one profile: ensembles of records as in C110, of equal length *)
Definition sig_file (conf : Z -> Z * Z) (ids : list Z) (enss : list (list piece)) (file : Nortek.bytes) : Prop :=
  exists m head L, regular conf ids m head enss file /\ (2 <= length enss)%nat /\
    (forall ps, In ps enss -> Z.of_nat (length (bytes_of ps)) = L) /\ one_profile ids.
