(** Model of the number of samples dolfyn/io/nortek.py makes room for before it reads a file: [findnextid], 442-456,
    [code_spacing], 458-472, the end of [init_ADV], 303-306, and that of [init_AWAC], 325-330.
    Quotients are exact rather than floating point. *)
From Coq Require Import ZArith List Bool.
From Verif.Model Require Import Nortek NortekFile.
Import ListNotations.
Open Scope Z_scope.

(** found: the position after the block; EOFError: the position of the file then; the search goes on for ever *)
Inductive search := Found (p : nat) | End_of_file (p : nat) | Endless.

(** nortek.py:442-456 [findnextid]; a read at the end of the file leaves the position there. [fuel] bounds the number
    of blocks looked at; a block takes at least one byte unless its size is 0, when it is looked at again and again. *)
Definition next_block (r : reader) (file : bytes) (nowid : Z) (q : nat) : option nat :=
  if nowid =? 16 then Some (q + 22)%nat
  else if nowid =? 81 then Some (q + 20)%nat
  else match take file q 2 with
       | Some [b0; b1] => Some (Z.to_nat (Z.of_nat (q + 2) + (2 * word (rendian r) b0 b1 - 4)))
       | _ => None
       end.
Fixpoint findnextid (fuel : nat) (r : reader) (file : bytes) (id : Z) (p : nat) : search :=
  match fuel with
  | O => Endless
  | S fuel =>
    match read_id r file p with
    | None => End_of_file (Nat.max p (length file))
    | Some (nowid, _, q) =>
      match next_block r file nowid q with
      | None => End_of_file (Nat.max q (length file))
      | Some q' => if nowid =? id then Found q' else findnextid fuel r file id q'
      end
    end
  end.

(** nortek.py:458-472 [code_spacing]: the bytes between the blocks found, and their number [i + 1], whose quotient is
    the spacing *)
Inductive spacing := Spacing (bytes_between : Z) (number : nat) | No_block | Never.
Fixpoint spacing_loop (iternum i : nat) (fuel : nat) (r : reader) (file : bytes) (id : Z) (p : nat) : option (nat * nat) :=
  match iternum with
  | O => Some (p, i)
  | S k => match findnextid fuel r file id p with
           | Found q => spacing_loop k (S i) fuel r file id q
           | End_of_file q => Some (q, S i)
           | Endless => None
           end
  end.
Definition code_spacing (r : reader) (file : bytes) (id : Z) (p : nat) : spacing :=
  let fuel := S (length file) in
  match findnextid fuel r file id p with
  | Found p0 => match spacing_loop 50 0 fuel r file id p0 with
                | Some (q, n) => Spacing (Z.of_nat q - Z.of_nat p0) n
                | None => Never
                end
  | End_of_file _ => No_block
  | Endless => Never
  end.

Inductive guess := Room (n : nat) | Raises | Hangs.
(** [int(self.filesize / dlta + 1)] with [dlta = between / number] *)
Definition quotient (file : bytes) (between : Z) (number : nat) : nat :=
  Z.to_nat (Z.quot (Z.of_nat (length file) * Z.of_nat number + between) between).
(** nortek.py:303-306; [fs] is [int(self.config['fs'])] *)
Definition guess_adv (r : reader) (file : bytes) (start fs : nat) : guess :=
  match code_spacing r file 17 start with
  | Spacing b n => if b =? 0 then Raises else Room (quotient file b n * fs)
  | No_block => Raises
  | Never => Hangs
  end.
(** nortek.py:325-330 *)
Definition guess_awac (r : reader) (file : bytes) (start : nat) : guess :=
  match code_spacing r file 32 start with
  | Spacing b n => if b =? 0 then Room 1 else Room (quotient file b n)
  | No_block => Raises
  | Never => Hangs
  end.
(** nortek.py:235-240, 412-440: reading with that room *)
Inductive outcome := Done (s : state) | Error | Hang.
Definition read_with (g : guess) (r : reader) (file : bytes) (start : nat) : outcome :=
  match g with
  | Room n => match readfile r file start n with Some s => Done s | None => Error end
  | Raises => Error
  | Hangs => Hang
  end.
Definition read_vector (r : reader) (file : bytes) (start fs : nat) : outcome := read_with (guess_adv r file start fs) r file start.
