(** Dates as text: what order they have. *)
From Coq Require Import ZArith List.
From Verif.Model Require Import DateText.
Import ListNotations.
Open Scope Z_scope.

(** the order of sorted texts: at the first difference the smaller character, or the beginning of the other *)
Fixpoint sorts_before (a b : list Z) : Prop :=
  match a, b with _, [] => False | [], _ :: _ => True | x :: a, y :: b => x < y \/ (x = y /\ sorts_before a b) end.
(** of two instants the first field that differs decides *)
Definition fields (t : moment) : list Z := [year t; month t; day t; hour t; minute t; second t; micro t].
Definition earlier (s t : moment) : Prop := sorts_before (fields s) (fields t).
(** what datetime.datetime accepts (days of months aside) *)
Definition is_date (t : moment) : Prop :=
  1 <= year t <= 9999 /\ 1 <= month t <= 12 /\ 1 <= day t <= 31 /\ 0 <= hour t < 24 /\ 0 <= minute t < 60 /\ 0 <= second t < 60 /\ 0 <= micro t < 1000000.
(** the decimal number that a text says *)
Definition number (text : list Z) : Z := fold_left (fun n c => 10 * n + (c - 48)) text 0.
Definition digit_only (text : list Z) : Prop := Forall (fun c => 48 <= c <= 57) text.
(** the text of an instant in the default format: YYYY-MM-DD hh:mm:ss.ffffff *)
Definition reads (text : list Z) (t : moment) : Prop :=
  exists y m d H M S f, text = y ++ [45] ++ m ++ [45] ++ d ++ [32] ++ H ++ [58] ++ M ++ [58] ++ S ++ [46] ++ f /\
    Forall digit_only [y; m; d; H; M; S; f] /\ map number [y; m; d; H; M; S; f] = fields t /\
    map (@length Z) [m; d; H; M; S; f] = [2; 2; 2; 2; 2; 6]%nat /\ (1000 <= year t -> length y = 4%nat).
(** parts of a format: text without %, or a directive by its letter *)
Inductive part := Text (s : list Z) | Field (c : Z).
Definition written (p : part) : list Z := match p with Text s => s | Field c => [37; c] end.
Definition letter_means (c : Z) (t : moment) (s : list Z) : Prop :=
  match c with
  | 109 => length s = 2%nat /\ number s = month t | 100 => length s = 2%nat /\ number s = day t | 72 => length s = 2%nat /\ number s = hour t
  | 77 => length s = 2%nat /\ number s = minute t | 83 => length s = 2%nat /\ number s = second t | 102 => length s = 6%nat /\ number s = micro t
  | 89 => number s = year t | _ => False
  end /\ digit_only s.
Definition says_part (t : moment) (p : part) (s : list Z) : Prop :=
  match p with Text x => s = x | Field c => letter_means c t s end.
Definition part_ok (p : part) : Prop := match p with Text s => ~ In 37 s | Field c => In c [89; 109; 100; 72; 77; 83; 102] end.
