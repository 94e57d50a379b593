(** Model of io/api.py:136-249 [save] and [load]. What is written is what netCDF4 returns on reading
    (library behaviour, trusted): arrays unchanged, an attribute with a list of strings becomes an empty
    array, a string or a list of strings according to its length. Coordinates, other attributes and
    dtypes other than float64 and complex are carried unchanged and not modelled. *)
From Coq Require Import String.
From Coq Require Import ZArith Reals List Bool.
Import ListNotations.
Open Scope string_scope.
Open Scope list_scope.

(** a complex array, a float64 array, a float32 array or any other array *)
Inductive arr := Cx (re im : list R) | F64 (x : list R) | F32 (x : list R) | Oth (x : list Z).
Definition vars := list (string * arr).
Fixpoint find (k : string) (l : vars) : option arr :=
  match l with [] => None | (k', v) :: l' => if String.eqb k' k then Some v else find k l' end.
(** [ds[k] = v] *)
Fixpoint put (k : string) (v : arr) (l : vars) : vars :=
  match l with
  | [] => [(k, v)]
  | (k', v') :: l' => if String.eqb k' k then (k', v) :: l' else (k', v') :: put k v l'
  end.
(** [ds.drop_vars(k)] *)
Definition drop (k : string) (l : vars) : vars := filter (fun kv => negb (String.eqb (fst kv) k)) l.
Definition real_of (k : string) : string := k ++ "_real".
Definition imag_of (k : string) : string := k ++ "_imag".

(** a dataset: its data variables and its attributes 'rotate_vars' and 'complex_vars' *)
Record xds := Xds { xvars : vars; xrotate : list string; xcomplex : option (list string) }.
(** a string attribute in the file, as it is read back *)
Inductive att := AEmpty | AStr (s : string) | AList (l : list string).
Definition write_att (l : list string) : att :=
  match l with [] => AEmpty | [s] => AStr s | _ => AList l end.
Record nc := Nc { nvars : vars; nrotate : att; ncomplex : att }.

Section Cast.
(** [astype('float32')] of one value *)
Variable cast : R -> R.

(** io/api.py:168-179, one variable. [shared]: [ds] is still the caller's dataset (no variable has been
    dropped yet); [caller] are the caller's variables. *)
Definition save_step (nm : string) (st : vars * list string * vars * bool) : vars * list string * vars * bool :=
  let '(cur, cx, caller, shared) := st in
  match find nm cur with
  | Some (Cx re im) =>
    let cur' := put (imag_of nm) (F64 im) (put (real_of nm) (F64 re) cur) in
    (drop nm cur', cx ++ [nm], if shared : bool then cur' else caller, false)
  | Some (F64 x) =>
    let cur' := put nm (F32 (map cast x)) cur in
    (cur', cx, if shared then cur' else caller, shared)
  | _ => st
  end.
(** [for var in ds.data_vars]: the names at the start of the loop *)
Definition save_loop (d : vars) : vars * list string * vars * bool :=
  fold_left (fun st nm => save_step nm st) (map fst d) (d, [], d, true).
(** the file, and the caller's dataset afterwards (its new attribute is shared by the copies) *)
Definition save (d : xds) : nc * xds :=
  let '(cur, cx, caller, _) := save_loop (xvars d) in
  (Nc cur (write_att (xrotate d)) (write_att cx), Xds caller (xrotate d) (Some cx)).
End Cast.

(** io/api.py:182-199: the encoding of each variable. [user]: kwargs['encoding'], [own]: the [encoding]
    of the variables; [E] is any type of encodings. *)
Definition save_encoding {E} (user own : string -> option E) (d : vars) (nm : string) : option E :=
  if existsb (String.eqb nm) (map fst d) then own nm else user nm.

(** io/api.py:229-234 for 'rotate_vars'; an empty array stays one *)
Definition load_rotate (a : att) : list string := match a with AEmpty => [] | AStr s => [s] | AList l => l end.
(** the numbers in an array that can be in a file *)
Definition numbers (v : arr) : option (list R) :=
  match v with F64 x | F32 x => Some x | Oth z => Some (map IZR z) | Cx _ _ => None end.
(** io/api.py:242-244: one complex variable; [None] is a KeyError *)
Definition rejoin (nm : string) (d : vars) : option vars :=
  match find (real_of nm) d, find (imag_of nm) d with
  | Some a, Some b =>
    match numbers a, numbers b with
    | Some re, Some im => Some (drop (imag_of nm) (drop (real_of nm) (put nm (Cx re im) d)))
    | _, _ => None
    end
  | _, _ => None
  end.
Fixpoint rejoin_all (l : list string) (d : vars) : option vars :=
  match l with
  | [] => Some d
  | nm :: l' => match rejoin nm d with Some d' => rejoin_all l' d' | None => None end
  end.
(** io/api.py:237-247. A list whose first string has one character is wrapped in a list (line 240) and
    [list + str] is a TypeError ([None]). *)
Definition load_complex (a : att) (d : vars) : option vars :=
  match a with
  | AEmpty => Some d
  | AStr EmptyString => Some d
  | AStr s => rejoin_all [s] d
  | AList [] => Some d
  | AList (s :: l) => if Nat.eqb (String.length s) 1 then None else rejoin_all (s :: l) d
  end.
(** io/api.py:207-249 [load] *)
Definition load (f : nc) : option xds :=
  match load_complex (ncomplex f) (nvars f) with
  | Some v => Some (Xds v (load_rotate (nrotate f)) None)
  | None => None
  end.
