(** What the properties of the AD2CP index and of the reading loop say. *)
From Coq Require Import ZArith List Bool.
From Verif.Model Require Import Nortek Ad2cp Ad2cpIndex.
From Verif.Spec Require Import Ad2cp.
Import ListNotations.
Open Scope Z_scope.

(** a record: a header of ten bytes with the size of the body, then the body *)
Definition framed (id : Z) (body b : bytes) : Prop :=
  exists h f s0 s1 c0 c1 d0 d1, b = [165; h; id; f; s0; s1; c0; c1; d0; d1] ++ body /\
    0 <= s0 < 256 /\ 0 <= s1 < 256 /\ s0 + 256 * s1 = Z.of_nat (length body).
Definition short (body : bytes) : Prop := (Z.of_nat (length body) < 32768).

(** the records whose values are kept, and the records that are numbered but skipped *)
Definition data_ids : list Z := [21; 22; 23; 24; 28].
Definition numbered (id : Z) : bool := zmem id known_ids.
(** a record as the instrument wrote it: its id, the values in it (if they are kept), its bytes *)
Record piece := Piece { p_id : Z; p_vals : list (list Z); p_bytes : bytes }.
Definition bytes_of (ps : list piece) : bytes := concat (map p_bytes ps).
(** a record of an instrument whose configuration and beam words are [conf id]; raw altimeter records are excluded *)
Definition good_piece (conf : Z -> Z * Z) (p : piece) : Prop :=
  ~ In (p_id p) [26; 31] /\
  exists body, framed (p_id p) body (p_bytes p) /\ short body /\
    (p_id p = 160 -> body <> []) /\
    (numbered (p_id p) = true ->
       (76 <= length body)%nat /\ (p_id p = 23 -> (78 <= length body)%nat) /\
       u16 12 (p_bytes p) = fst (conf (p_id p)) /\ u16 40 (p_bytes p) = snd (conf (p_id p)) /\ nth 19 (p_bytes p) 0 < 255) /\
    (In (p_id p) data_ids -> exists l, reader_for (p_id p) (fst (conf (p_id p))) (snd (conf (p_id p))) = Some l /\ holds l (p_vals p) body).
(** the ensemble number in a numbered record *)
Definition number (p : piece) : Z := u32 (ens_off (p_id p)) (p_bytes p).

(** a file: records that are not numbered, then ensembles; every ensemble begins with a numbered record,
    has one record of each of the ids [ids], in this order, and records that are not numbered anywhere
    after the first; ensemble [e] has the number [m + e] *)
Record regular (conf : Z -> Z * Z) (ids : list Z) (m : Z) (head : list piece) (enss : list (list piece)) (file : bytes) : Prop := Regular {
  reg_file : file = bytes_of head ++ concat (map bytes_of enss);
  reg_head : Forall (fun p => good_piece conf p /\ numbered (p_id p) = false) head;
  reg_ids : NoDup ids;
  reg_ens : forall e ps, nth_error enss e = Some ps ->
    filter numbered (map p_id ps) = ids /\
    (exists p ps', ps = p :: ps' /\ numbered (p_id p) = true) /\
    Forall (good_piece conf) ps /\
    Forall (fun p => numbered (p_id p) = true -> number p = m + Z.of_nat e) ps;
  reg_first : 1 <= m;
  reg_last : m + Z.of_nat (length enss) <= 2 ^ 32;
  reg_size : Z.of_nat (length file) < 2 ^ 64 }.

(** what should be stored: the values of the kept records of each ensemble in the column of the ensemble *)
Definition kept (c : nat) (ps : list piece) : list event :=
  map (fun p => (p_id p, c, p_vals p)) (filter (fun p => zmem (p_id p) data_ids) ps).
Fixpoint columns (c : nat) (enss : list (list piece)) : list event :=
  match enss with [] => [] | ps :: enss' => kept c ps ++ columns (S c) enss' end.
(** the part of a list between two indices *)
Definition between {A} (start stop : nat) (l : list A) : list A := firstn (stop - start) (skipn start l).
(** where ensemble [e] begins *)
Definition begins (head : list piece) (enss : list (list piece)) (e : nat) : Z :=
  Z.of_nat (length (bytes_of head ++ concat (map bytes_of (firstn e enss)))).

(** entry [b] comes after entry [a] in the index *)
Definition later (l : list entry) (a b : entry) : Prop := exists l1 l2 l3, l = l1 ++ a :: l2 ++ b :: l3.
(** ... and is the next one of the same id *)
Definition next_of_id (l : list entry) (a b : entry) : Prop :=
  exists l1 l2 l3, l = l1 ++ a :: l2 ++ b :: l3 /\ eid b = eid a /\ Forall (fun x => eid x <> eid a) l2.
