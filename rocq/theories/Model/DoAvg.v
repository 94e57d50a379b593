(** Model of the averaging of whole datasets: [VelBinner.do_avg], velocity.py:501-570, [VelBinner.do_var], 572-635,
    [Velocity.U_mag], 260-321, and of [TimeBinner.__init__], binned.py:10-47, with its defaults, 55-88, and
    [TimeBinner._new_coords], 144-161.
    Numbers are [option R], [None] being NaN (float32 casts are not modelled); instants are seconds, so the way
    through dt642epoch and epoch2dt64 (C19) is the identity. Variables that are not numeric are left out. *)
From Coq Require Import String Ascii.
From Coq Require Import Reals List QArith Bool.
From Verif.Model Require Import Reshape Stats Vel SigData.
Import ListNotations.
Open Scope string_scope.

(** A variable: its axes, the sizes of all but the last, the size of the last, and its lines along the last axis in
    the order of the memory. *)
Record variable := Var { dims : list string; lead : list nat; len : nat; rows : list (list (option R)) }.
(** the coordinates that are numbers, by name *)
Record dataset := Dataset { vars : dict variable; coords : dict (list (option R)) }.

Inductive avg_err := NoVariable (name : string) | NoComponent | BadBins (e : reshape_err).

Fixpoint each {A B E} (f : A -> E + B) (l : list A) : E + list B :=
  match l with
  | [] => inr []
  | a :: l' => match f a with inl e => inl e | inr b => match each f l' with inl e => inl e | inr bs => inr (b :: bs) end end
  end.

(** xarray gives the values of an axis without coordinate as 0, 1, 2, ... *)
Definition axis_values (d : dataset) (nm : string) (n : nat) : list (option R) :=
  match get (coords d) nm with Some v => v | None => map (fun k => Some (INR k)) (seq 0 n) end.

(** velocity.py:536-545: the new time coordinates, and the size every axis gets from its coordinate *)
Definition new_axis (d : dataset) (n_bin : Q) (a : string * nat) : reshape_err + (string * nat * option (list (option R))) :=
  if contains "time" (fst a) then
    match bin_mean (axis_values d (fst a) (snd a)) n_bin with
    | inl e => inl e
    | inr t => inr (fst a, length t, Some t)
    end
  else inr (a, None).
Definition new_axes (d : dataset) (n_bin : Q) (v : variable) :=
  each (new_axis d n_bin) (combine (dims v) (lead v ++ [len v])).

(** velocity.py:548-557 inside [try]: [xr.DataArray(f(values), coords=..., dims=...)] needs as many elements along
    each axis as its coordinate has *)
Definition reduced (f : list (option R) -> reshape_err + list (option R)) (v : variable) (sizes : list nat) : option variable :=
  match dims v with
  | [] => None
  | _ =>
    match each f (rows v) with
    | inl _ => None
    | inr rs =>
        let n := match rs with r :: _ => length r | [] => O end in
        if list_eq_dec Nat.eq_dec (lead v ++ [n])%list sizes then Some (Var (dims v) (lead v) n rs) else None
    end
  end.

Definition store (name : string) (w : option variable) (cs : list (string * nat * option (list (option R)))) (out : dataset) : dataset :=
  match w with
  | None => out
  | Some w =>
      Dataset (set (vars out) name w)
        (fold_left (fun c a => match snd a with Some t => set c (fst (fst a)) t | None => c end) cs (coords out))
  end.

(** velocity.py:260-321: the speed from the first two components *)
Definition osum_sqrt (u v : option R) : option R :=
  match u, v with Some u, Some v => Some (u_mag u v) | _, _ => None end.
Definition speed (vel : variable) : option variable :=
  match lead vel with
  | (S (S _)) :: rest =>
      let nr := fold_right Nat.mul 1%nat rest in
      Some (Var (tl (dims vel)) rest (len vel)
              (map2 (map2 osum_sqrt) (firstn nr (rows vel)) (firstn nr (skipn nr (rows vel)))))
  | _ => None
  end.
(** velocity.py:562-568 *)
Definition add_std (raw : dataset) (n_bin : Q) (out : dataset) : avg_err + dataset :=
  match get (vars raw) "vel" with
  | None => inl (NoVariable "vel")
  | Some vel =>
    match speed vel with
    | None => inl NoComponent
    | Some s =>
      match each (fun r => bin_std r n_bin) (rows s) with
      | inl e => inl (BadBins e)
      | inr rs =>
          let n := match rs with r :: _ => length r | [] => O end in
          inr (Dataset (set (vars out) "U_std" (Var (dims s) (lead s) n rs)) (coords out))
      end
    end
  end.

(** velocity.py:532-570, after [_check_ds] (C32). [out]: what [out_ds] holds; a coordinate it has already is taken
    to be the one computed here. *)
Fixpoint do_avg (raw : dataset) (n_bin : Q) (names : list string) (out : dataset) : avg_err + dataset :=
  match names with
  | [] => inr out
  | ky :: names' =>
    match get (vars raw) ky with
    | None => inl (NoVariable ky)
    | Some v =>
      if existsb (contains "altraw") (dims v) then do_avg raw n_bin names' out
      else
        match new_axes raw n_bin v with
        | inl e => inl (BadBins e)
        | inr cs =>
            let w := if contains "ensemble" ky then None
                     else reduced (fun r => bin_mean r n_bin) v (map (fun a => snd (fst a)) cs) in
            match add_std raw n_bin (store ky w cs out) with
            | inl e => inl e
            | inr out' => do_avg raw n_bin names' out'
            end
        end
    end
  end.

(** velocity.py:611-635 *)
Fixpoint do_var (raw : dataset) (n_bin : Q) (suffix : string) (names : list string) (out : dataset) : avg_err + dataset :=
  match names with
  | [] => inr out
  | ky :: names' =>
    match get (vars raw) ky with
    | None => inl (NoVariable ky)
    | Some v =>
      if existsb (contains "altraw") (dims v) then do_var raw n_bin suffix names' out
      else
        match new_axes raw n_bin v with
        | inl e => inl (BadBins e)
        | inr cs =>
            let w := if contains "ensemble" ky then None
                     else reduced (fun r => bin_var r n_bin) v (map (fun a => snd (fst a)) cs) in
            do_var raw n_bin suffix names' (store (ky ++ suffix) w cs out)
        end
    end
  end.

(** binned.py:10-47: the lengths of a new binner (n_bin, n_fft, n_fft_coh) *)
Record lengths := Lengths { n_bin_of : Z; n_fft_of : Z; n_fft_coh_of : Z }.
Definition new_binner (n_bin : Z) (n_fft n_fft_coh : option Z) : lengths :=
  let f := match n_fft with None => n_bin | Some f => if Z.ltb n_bin f then n_bin else f end in
  let c := match n_fft_coh with None => f | Some c => if Z.ltb n_bin c then n_bin else c end in
  Lengths n_bin f c.
(** binned.py:72-79 *)
Definition parse_nfft (b : lengths) (n_fft : option Z) : Z :=
  match n_fft with None => n_fft_of b | Some f => if Z.ltb (n_bin_of b) f then n_bin_of b else f end.
(** binned.py:81-88 *)
Definition parse_nfft_coh (b : lengths) (n : option Z) : Z :=
  match n with None => n_fft_coh_of b | Some c => if Z.ltb (n_bin_of b) c then n_bin_of b else c end.

(** binned.py:144-161: [array.time] is the coordinate of that name, whatever the axis is called; an AttributeError
    without it *)
Inductive coords_err := AttributeError | BadMean (e : reshape_err).
Definition new_coords (own : dict (list (option R))) (axes : list (string * nat)) (n_bin : Q)
    : coords_err + list (string * nat * option (list (option R))) :=
  each (fun a =>
    if contains "time" (fst a) then
      match get own "time" with
      | None => inl AttributeError
      | Some t => match bin_mean t n_bin with inl e => inl (BadMean e) | inr t' => inr (fst a, length t', Some t') end
      end
    else inr (a, None)) axes.
