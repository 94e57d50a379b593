(** Model of the assembly of a dataset from what a reader has collected: dolfyn/io/base.py:113-285 [_create_dataset].
    An array is its shape and its elements by index; the type of the elements is a parameter. Units, names and other
    attributes (base.py:168-169, 180-182, 252-283) are not modelled: they change no element and no axis. *)
From Coq Require Import String Ascii.
From Coq Require Import List Bool Arith.
From Verif.Model Require Import SigData.
Import ListNotations.
Open Scope string_scope.

Section Elements.
Context {V : Type}.

Record array := Array { shape : list nat; at_ : list nat -> V }.
(** base.py:241: [data['data_vars'][key][0]] *)
Definition first_plane (a : array) : array := Array (tl (shape a)) (fun ix => at_ a (0 :: ix)).

(** base.py:113-131: the dictionary of a reader, [attrs] cut down to the two numbers of beams *)
Record collected := Collected { coords : dict nat; n_beams_attr : option nat; n_beams_avg : option nat; data_vars : dict array }.
(** one entry of [ds_dict]: the axes and the data; the values of a coordinate are not kept, only their number *)
Inductive contents := Axis (n : nat) | Data (a : array).
Definition entry : Type := list string * contents.

(** base.py:118 *)
Definition tags : list string := ["_avg"; "_b5"; "_echo"; "_bt"; "_gps"; "_altraw"; "_altraw_avg"; "_sl"].
Definition tagged (key : string) : bool := existsb (fun t => contains t key) tags.
(** [key.rsplit('_')[-1]] and [key.rsplit('_')[0]] *)
Definition last_piece (key : string) : string := last_part "" key.
Fixpoint first_piece (key : string) : string :=
  match key with
  | EmptyString => EmptyString
  | String a s => if Ascii.eqb a "_" then EmptyString else String a (first_piece s)
  end.

(** ways in which the assembly stops: a Python exception *)
Inductive failure := KeyError | NameError | ValueError.

(** base.py:125-129: the number of beams *)
Definition number_of_beams (c : collected) : option nat :=
  match n_beams_avg c with
  | Some n => Some (Nat.max (Nat.min n 4) 3)
  | None => match n_beams_attr c with Some n => Some (Nat.max (Nat.min n 4) 3) | None => None end
  end.

(** base.py:138-248: where one variable goes. [tg] is the Python variable of that name, which keeps its value from
    one variable to the next ([None]: not assigned yet). The result: the axes that are created unless there
    ([x1], [q], ...), the entry of the variable if it has one, and [tg] afterwards. *)
Definition placed : Type := list (string * nat) * option entry * option string.
Definition place (nb : nat) (cs : dict nat) (key : string) (a : array) (tg : option string) : failure + placed :=
  let own := if tagged key then "_" ++ last_piece key else "" in
  if contains "mat" key then
    if contains "inst" key then inr ([("x1", nb); ("x2", nb)], Some (["x1"; "x2"], Data a), tg)
    else if contains "orientmat" key then
      inr ([("earth", 3); ("inst", 3)], Some (["earth"; "inst"; "time" ++ own], Data a), Some own)
    else inr ([], None, tg)
  else if contains "quaternions" key then inr ([("q", 4)], Some (["q"; "time" ++ own], Data a), Some own)
  else match shape a with
  | [_] =>
      let t := if contains "_altraw_avg" key then "_altraw_avg" else own in
      inr ([], Some (["time" ++ t], Data a), Some t)
  | [n; _] =>
      if key =? "echo" then inr ([], Some (["range_echo"; "time_echo"], Data a), tg)
      else if key =? "samp_altraw" then inr ([], Some (["n_altraw"; "time_altraw"], Data a), tg)
      else if key =? "samp_altraw_avg" then inr ([], Some (["n_altraw_avg"; "time_altraw_avg"], Data a), tg)
      else if (n =? nb)%nat && negb (existsb (fun t => contains t key) ["_avg"; "_b5"; "_echo"]) then
        let t := if contains "bt" key && match get cs "time_bt" with Some _ => true | None => false end then "_bt" else "" in
        let dim0 := if existsb (fun s => contains (first_piece key) s) ["amp"; "corr"; "dist"; "prcnt_gd"] then "beam" else "dir" in
        inr ([], Some ([dim0; "time" ++ t], Data a), Some t)
      else if (n =? 3)%nat then
        let t := match find (fun t => contains t key) tags with Some t => t | None => "" end in
        inr ([("dirIMU", 3)], Some (["dirIMU"; "time" ++ t], Data a), Some t)
      else match tg with
           | None => inl NameError
           | Some t => inr ([], if contains "b5" t then Some (["range_b5"; "time_b5"], Data a) else None, tg)
           end
  | [_; _; _] =>
      let dim0 := if contains "vel" key then "dir" else "beam" in
      if negb (tagged key) || contains "_avg" key then
        let t := if contains "_avg" key then "_avg" else "" in
        inr ([], Some ([dim0; "range" ++ t; "time" ++ t], Data a), Some t)
      else if contains "b5" key then inr ([], Some (["range_b5"; "time_b5"], Data (first_plane a)), tg)
      else if contains "sl" key then inr ([], Some ([dim0; "range_sl"; "time"], Data a), tg)
      else inr ([], None, tg)
  | _ => inr ([], None, tg)
  end.

(** base.py:147-149, 162-163, 175-176, 222-223: an axis is created when a variable needs it; [earth] and [inst] are
    written again with the same contents *)
Definition axis (n : string * nat) : string * entry := (fst n, ([fst n], Axis (snd n))).
Definition add_axis (ds : dict entry) (n : string * nat) : dict entry :=
  match get ds (fst n) with
  | None => app ds [axis n]
  | Some _ => if (fst n =? "earth") || (fst n =? "inst") then set ds (fst n) (snd (axis n)) else ds
  end.

(** base.py:138-248 *)
Fixpoint place_all (nb : nat) (cs : dict nat) (vars : dict array) (tg : option string) (ds : dict entry) : failure + dict entry :=
  match vars with
  | [] => inr ds
  | (key, a) :: vars' =>
      match place nb cs key a tg with
      | inl e => inl e
      | inr (ax, en, tg') =>
          let ds1 := fold_left add_axis ax ds in
          place_all nb cs vars' tg' (match en with Some e => set ds1 key e | None => ds1 end)
      end
  end.

(** base.py:250, [xarray.Dataset.from_dict]: every array has as many axes as its entry names, and all arrays agree on
    the size of an axis *)
Definition extent (c : contents) : list nat := match c with Axis n => [n] | Data a => shape a end.
Definition sizes (e : entry) : list (string * nat) := combine (fst e) (extent (snd e)).
Definition agree (p q : string * nat) : bool := negb (fst p =? fst q) || (snd p =? snd q)%nat.
Definition from_dict (ds : dict entry) : failure + dict entry :=
  let all := flat_map (fun p => sizes (snd p)) ds in
  if forallb (fun p => (length (fst (snd p)) =? length (extent (snd (snd p))))%nat) ds
     && forallb (fun p => forallb (agree p) all) all
  then inr ds else inl ValueError.

(** base.py:113-250 *)
Definition create_dataset (c : collected) : failure + dict entry :=
  match number_of_beams c with
  | None => inl KeyError
  | Some nb =>
      let start := fold_left (fun ds p => set ds (fst p) ([fst p], Axis (snd p))) (app (coords c) [("beam", nb); ("dir", nb)]) [] in
      match place_all nb (coords c) (data_vars c) None start with
      | inl e => inl e
      | inr ds => from_dict ds
      end
  end.

End Elements.
Arguments array : clear implicits.
Arguments collected : clear implicits.
Arguments entry : clear implicits.
Arguments contents : clear implicits.
