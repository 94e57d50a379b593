(** What the property of the configuration of Signature files says. *)
From Coq Require Import String.
From Coq Require Import ZArith QArith List Bool.
From Verif.Model Require Import SigHead.
Import ListNotations.
Open Scope Z_scope.

(** a line of the configuration: a command with its parameters, or any other line *)
Inductive line := Command (name : text) (params : list (text * text)) | Other (key val : text).
Definition comma : Z := 44.
Definition equals : Z := 61.
Fixpoint joined (ts : list text) : text := match ts with [] => [] | [t] => t | t :: ts' => t ++ [comma] ++ joined ts' end.
Definition param (p : text * text) : text := fst p ++ [equals] ++ snd p.
Definition line_text (l : line) : text :=
  match l with
  | Command nm ps => codes "GET" ++ nm ++ [comma] ++ joined (map param ps)
  | Other k v => k ++ [comma] ++ v
  end.
(** the lines end with carriage return and line feed *)
Definition written (ls : list line) : text := concat (map (fun l => line_text l ++ [13; 10]) ls).

(** characters *)
Definition without (cs : list Z) (t : text) : Prop := forall c, In c t -> ~ In c cs.
Definition breaks : list Z := [10; 11; 12; 13; 28; 29; 30].
(** names and parameters have no commas, equals signs or ends of lines; a name does not begin with one of G, E, T *)
Definition good_line (l : line) : Prop :=
  match l with
  | Command nm ps => without (comma :: equals :: breaks) nm /\ (forall c t, nm = c :: t -> ~ In c (codes "GET")) /\
      ps <> [] /\ Forall (fun p => without (comma :: equals :: breaks) (fst p) /\ without (comma :: equals :: breaks) (snd p)) ps
  | Other k v => without (comma :: breaks) k /\ without breaks v /\ ~ (exists t, k = codes "GET" ++ t)
  end.
Definition key_of (l : line) : text := match l with Command nm _ => nm | Other k _ => k end.
(** no command occurs twice or has the name of another line *)
Definition one_command (ls : list line) : Prop :=
  forall l1 nm ps l2, ls = l1 ++ Command nm ps :: l2 -> Forall (fun l => key_of l <> nm) (l1 ++ l2).
Definition values_of (ls : list line) (k : text) : list text :=
  concat (map (fun l => match l with Other k' v => if text_eqb k' k then [v] else [] | _ => [] end) ls).

(** ** numbers *)
Inductive numeral : text -> Z -> Prop :=
| numeral_one d : 0 <= d <= 9 -> numeral [48 + d] d
| numeral_more t n d : numeral t n -> 0 <= d <= 9 -> numeral (t ++ [48 + d]) (10 * n + d).
Inductive integer : text -> Z -> Prop :=
| integer_plain t n : numeral t n -> integer t n
| integer_minus t n : numeral t n -> integer (45 :: t) (- n).
(** digits, point, digits *)
Inductive fraction : text -> Q -> Prop :=
| fraction_plain w a f b : numeral w a -> numeral f b -> fraction (w ++ [46] ++ f) (inject_Z a + inject_Z b / inject_Z (10 ^ Z.of_nat (length f)))
| fraction_minus w a f b : numeral w a -> numeral f b -> fraction (45 :: w ++ [46] ++ f) (- (inject_Z a + inject_Z b / inject_Z (10 ^ Z.of_nat (length f)))).
