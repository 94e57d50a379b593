(** [TimeBinner.reshape], binned.py:163-228, along the last axis of the array (the other axes
    are carried along unchanged). *)
From Coq Require Import ZArith QArith Qround List Bool.
Import ListNotations.
Open Scope nat_scope.

Inductive reshape_err := BinTooLong | ZeroDivision | IndexError.

(** [int(n_bin)] for a positive number *)
Definition int_of (q : Q) : nat := Z.to_nat (Qfloor q).

(** [x.reshape((nb, m), order='C')] *)
Fixpoint chunks {A} (m nb : nat) (l : list A) : list (list A) :=
  match nb with O => [] | S k => firstn m l :: chunks m k (skipn m l) end.

(** binned.py:214 [np.arange(prod) * n_bin // int(n_bin)] (exact arithmetic instead of floats) *)
Definition inds (n_bin : Q) (m count : nat) : list nat :=
  map (fun k => Z.to_nat (Qfloor (inject_Z (Z.of_nat k) * n_bin / inject_Z (Z.of_nat m))%Q)) (seq 0 count).

(** [arr[..., inds]]: IndexError when an index is too large *)
Fixpoint take {A} (arr : list A) (ix : list nat) : option (list A) :=
  match ix with
  | [] => Some []
  | k :: ix' => match nth_error arr k, take arr ix' with
                | Some x, Some r => Some (x :: r) | _, _ => None end
  end.

(** binned.py:207-224 [out[..., npd0:n_bin+npd0] = ...] on an array of zeros *)
Definition place {A} (zero : A) (npd0 npd1 : nat) (row : list A) : list A :=
  repeat zero npd0 ++ row ++ repeat zero npd1.

(** binned.py:227 [out[..., 1:, :npd0] = out[..., :-1, n_bin:n_bin+npd0]]
    (the right-hand side is read before anything is written) *)
Fixpoint pad_left {A} (npd0 n : nat) (rows : list (list A)) : list (list A) :=
  match rows with
  | prev :: ((cur :: _) as rest) =>
      match pad_left npd0 n rest with
      | _ :: rest' => prev :: (firstn npd0 (skipn n prev) ++ skipn npd0 cur) :: rest'
      | [] => [prev]
      end
  | _ => rows
  end.
(** binned.py:228 [out[..., :-1, -npd1:] = out[..., 1:, npd0:npd0+npd1]] *)
Fixpoint pad_right {A} (npd0 npd1 n : nat) (rows : list (list A)) : list (list A) :=
  match rows with
  | cur :: ((next :: _) as rest) =>
      (firstn (n + npd0) cur ++ firstn npd1 (skipn npd0 next)) :: pad_right npd0 npd1 n rest
  | _ => rows
  end.

(** binned.py:202-215: the bins before they are padded. [n_bin <= 0] is not modelled
    further than the division by zero at line 53. *)
Definition binned {A} (arr : list A) (n_bin : Q) : reshape_err + list (list A) :=
  let len := length arr in
  if Qle_bool n_bin (inject_Z (Z.of_nat len)) then
    let m := int_of n_bin in
    match m with
    | O => inl ZeroDivision
    | _ =>
      let nb := len / m in
      if Qeq_bool n_bin (inject_Z (Z.of_nat m)) then inr (chunks m nb (firstn (nb * m) arr))
      else
        let ix := inds n_bin m (nb * m) in
        let '(ix, nb) := if Nat.leb len (last ix 0) then (firstn (length ix - m) ix, nb - 1)
                         else (ix, nb) in
        match take arr ix with
        | None => inl IndexError
        | Some x => inr (chunks m nb x)
        end
    end
  else inl BinTooLong.

Definition reshape {A} (zero : A) (arr : list A) (n_pad : nat) (n_bin : Q) : reshape_err + list (list A) :=
  let npd0 := n_pad / 2 in
  let npd1 := (n_pad + 1) / 2 in
  match binned arr n_bin with
  | inl e => inl e
  | inr rows =>
    let out := map (place zero npd0 npd1) rows in
    let m := int_of n_bin in
    inr (match n_pad with
         | O => out
         | _ => pad_right npd0 npd1 m (pad_left npd0 m out)
         end)
  end.
