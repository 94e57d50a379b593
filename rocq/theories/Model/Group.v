(** [group], tools/misc.py:58-103. *)
From Coq Require Import ZArith List Bool.
Import ListNotations.

(** misc.py:83-84 [np.nonzero(np.diff(bl) == 1)[0] + 1]: positions holding True whose
    predecessor holds False; [k] is the position of the head of [l], [prev] the sample before. *)
Fixpoint ups_from (k : nat) (prev : bool) (l : list bool) : list nat :=
  match l with
  | [] => []
  | b :: l' => if negb prev && b then k :: ups_from (S k) b l' else ups_from (S k) b l'
  end.
(** misc.py:83, 85 [np.nonzero(np.diff(bl) == -1)[0] + 1] *)
Fixpoint dns_from (k : nat) (prev : bool) (l : list bool) : list nat :=
  match l with
  | [] => []
  | b :: l' => if prev && negb b then k :: dns_from (S k) b l' else dns_from (S k) b l'
  end.

Definition ups0 (bl : list bool) : list nat :=
  match bl with [] => [] | b :: l => ups_from 1 b l end.
Definition dns0 (bl : list bool) : list nat :=
  match bl with [] => [] | b :: l => dns_from 1 b l end.

(** misc.py:86-90; line 90 concatenates [0] with the NUMBER of rising edges. *)
Definition ups (bl : list bool) : list nat :=
  if hd false bl then
    match ups0 bl with [] => [0] | _ => [0; length (ups0 bl)] end
  else ups0 bl.
(** misc.py:91-95 *)
Definition dns (bl : list bool) : list nat :=
  if last bl false then
    match dns0 bl with [] => [length bl] | _ => dns0 bl ++ [length bl] end
  else dns0 bl.

(** misc.py:81-103. A slice is (start, stop). *)
Definition group (bl : list bool) (min_length : Z) : list (nat * nat) :=
  if negb (existsb (fun b => b) bl) then []
  else filter (fun p => (min_length <=? Z.of_nat (snd p) - Z.of_nat (fst p))%Z)
              (combine (ups bl) (dns bl)).
