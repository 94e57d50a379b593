(** Model of the configuration at the start of Signature files: dolfyn/io/nortek2.py:177-211
    [_read_filehead_config_string] and its uses in [_reorg] (444) and [_reduce] (612-655).  A text is the list of the
    codes of its characters; characters beyond ASCII are not modelled (nor are the lines that end with one of them). *)
From Coq Require Import String.
From Coq Require Import ZArith QArith List Bool.
From Verif.Model Require Import Nortek RdiBlocks.
Import ListNotations.
Open Scope Z_scope.

Definition text := list Z.
Definition text_eqb (a b : text) : bool := if list_eq_dec Z.eq_dec a b then true else false.
(** Python dictionaries, in the order of insertion *)
Definition tdict (A : Type) := list (text * A).
Fixpoint tget {A} (d : tdict A) (k : text) : option A :=
  match d with [] => None | (k', v) :: d' => if text_eqb k' k then Some v else tget d' k end.
Fixpoint tset {A} (d : tdict A) (k : text) (v : A) : tdict A :=
  match d with [] => [(k, v)] | (k', v') :: d' => if text_eqb k' k then (k, v) :: d' else (k', v') :: tset d' k v end.

(** [str.splitlines]: line feed, vertical tab, form feed, carriage return, the separators 28-30; CR LF is one end *)
Definition is_break (c : Z) : bool := ((10 <=? c) && (c <=? 13)) || ((28 <=? c) && (c <=? 30)).
Fixpoint splitlines (s : text) : list text :=
  match s with
  | [] => []
  | c :: s' =>
    if is_break c then
      [] :: (match s' with d :: s'' => if (c =? 13) && (d =? 10) then splitlines s'' else splitlines s' | [] => [] end)
    else match splitlines s' with w :: ws => (c :: w) :: ws | [] => [[c]] end
  end.
(** [s.split(c, 1)]; [None]: no [c], and unpacking raises (line 184) *)
Fixpoint cut (c : Z) (s : text) : option (text * text) :=
  match s with
  | [] => None
  | x :: s' => if x =? c then Some ([], s') else match cut c s' with Some (a, b) => Some (x :: a, b) | None => None end
  end.
(** [s.split(c)] *)
Fixpoint split (c : Z) (s : text) : list text :=
  match s with
  | [] => [[]]
  | x :: s' => if x =? c then [] :: split c s' else match split c s' with w :: ws => (x :: w) :: ws | [] => [[x]] end
  end.

(** lines 183-192: the lines with the same key are collected *)
Inductive item := One (t : text) | Many (l : list text).
Definition add_line (out : tdict item) (ky val : text) : tdict item :=
  match tget out ky with
  | None => tset out ky (One val)
  | Some (One tmp) => tset out ky (Many [tmp; val])
  | Some (Many l) => tset out ky (Many (l ++ [val]))
  end.
Fixpoint collect (ls : list text) (out : tdict item) : option (tdict item) :=
  match ls with
  | [] => Some out
  | ln :: ls' => match cut 44 ln with Some (ky, val) => collect ls' (add_line out ky val) | None => None end
  end.

(** lines 197-207: the parameters of a command *)
Inductive value := VInt (n : Z) | VFloat (q : Q) | VStr (t : text).
Definition number_of (t : text) : value :=
  match py_int t with
  | Ret n => VInt n
  | Raise _ => match py_float t with Ret q => VFloat q | Raise _ => VStr t end
  end.
Fixpoint parameters (items : list text) (d : tdict value) : option (tdict value) :=
  match items with
  | [] => Some d
  | itm :: items' => match split 61 itm with [k; v] => parameters items' (tset d k (number_of v)) | _ => None end
  end.
(** [ky.startswith('GET')] and [ky.lstrip('GET')] *)
Definition is_get (ky : text) : bool := match ky with a :: b :: c :: _ => (a =? 71) && (b =? 69) && (c =? 84) | _ => false end.
Definition in_get (c : Z) : bool := (c =? 71) || (c =? 69) || (c =? 84).
Fixpoint lstrip_get (ky : text) : text := match ky with c :: ky' => if in_get c then lstrip_get ky' else ky | [] => [] end.
(** lines 193-211; [None]: an exception, as for a command that was there twice: a list has no [split] *)
Inductive entry := Plain (i : item) | Table (d : tdict value).
Fixpoint commands (out : tdict item) (out2 : tdict entry) : option (tdict entry) :=
  match out with
  | [] => Some out2
  | (ky, i) :: out' =>
    if is_get ky then
      match i with
      | One dat => match parameters (split 44 dat) [] with Some d => commands out' (tset out2 (lstrip_get ky) (Table d)) | None => None end
      | Many _ => None
      end
    else commands out' (tset out2 ky (Plain i))
  end.
(** lines 177-211: the text of the first record *)
Definition read_config (t : text) : option (tdict entry) :=
  match collect (splitlines t) [] with Some out => commands out [] | None => None end.

(** ** Uses; [None] is an exception *)
Fixpoint codes (s : string) : text := match s with EmptyString => [] | String c s' => Z.of_nat (Ascii.nat_of_ascii c) :: codes s' end.
Definition parameter (cf : tdict entry) (command name : string) : option value :=
  match tget cf (codes command) with Some (Table d) => tget d (codes name) | _ => None end.
(** line 617 and line 626: numbers, of either kind *)
Definition as_number (v : option value) : option Q :=
  match v with Some (VInt n) => Some (inject_Z n) | Some (VFloat q) => Some q | _ => None end.
Definition burst_rate (cf : tdict entry) : option Q := as_number (parameter cf "BURST" "SR").
(** line 444: [cfh['ID'].split(',')[0][5:-1]] *)
Definition slice (a : nat) (t : text) : text := skipn a (removelast t).
Definition inst_model (cf : tdict entry) : option text :=
  match tget cf (codes "ID") with Some (Plain (One t)) => Some (slice 5 (hd [] (split 44 t))) | _ => None end.
(** lines 648-650: [Some None]: no beam angle *)
Fixpoint starts (p t : text) : bool := match p, t with [], _ => true | a :: p', b :: t' => (a =? b) && starts p' t' | _, [] => false end.
Fixpoint occurs (p t : text) : bool := starts p t || match t with [] => false | _ :: t' => occurs p t' end.
Definition beam_angle (cf : tdict entry) : option (option Z) :=
  let of_text t := if occurs (codes "THETA=") t then match py_int (firstn 2 (skipn 13 t)) with Ret n => Some (Some n) | Raise _ => None end else Some None in
  match tget cf (codes "BEAMCFGLIST") with
  | Some (Plain (Many (t :: _))) => of_text t
  | Some (Plain (One (c :: _))) => of_text [c]
  | _ => None
  end.
(** lines 652-655: the matrix; [str] of a positive number *)
Fixpoint decimal (fuel : nat) (n : nat) : text :=
  match fuel with
  | O => []
  | S fuel' => (if (n <? 10)%nat then [] else decimal fuel' (n / 10)) ++ [48 + Z.of_nat (n mod 10)]
  end.
Definition str (n : nat) : text := decimal (S n) n.
Fixpoint all_some {A} (l : list (option A)) : option (list A) :=
  match l with [] => Some [] | Some x :: l' => match all_some l' with Some xs => Some (x :: xs) | None => None end | None :: _ => None end.
Definition matrix_of (d : tdict value) : option (list (list Q)) :=
  match tget d (codes "ROWS"), tget d (codes "COLS") with
  | Some (VInt r), Some (VInt c) =>
    all_some (map (fun i => all_some (map (fun j => as_number (tget d (codes "M" ++ str (i + 1) ++ str (j + 1)))) (seq 0 (Z.to_nat c)))) (seq 0 (Z.to_nat r)))
  | _, _ => None
  end.
Definition matrix (cf : tdict entry) (command : string) : option (list (list Q)) :=
  match tget cf (codes command) with Some (Table d) => matrix_of d | _ => None end.
