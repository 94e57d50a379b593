(** [TimeBinner._check_ds], binned.py:90-142. Attribute values are of an arbitrary type [V]
    with a comparison [veqb] ([!=] of Python; arrays, whose comparison raises, are left out). *)
From Coq Require Import String List Bool.
Import ListNotations.

Section CheckDs.
Context {V : Type} (veqb : V -> V -> bool).

(** a dictionary: association list without duplicate keys, in insertion order *)
Definition attrs := list (string * V).
Fixpoint get (k : string) (a : attrs) : option V :=
  match a with [] => None | (k', v) :: a' => if String.eqb k k' then Some v else get k a' end.
(** [a[k] = v] *)
Fixpoint put (k : string) (v : V) (a : attrs) : attrs :=
  match a with
  | [] => [(k, v)]
  | (k', v') :: a' => if String.eqb k k' then (k', v) :: a' else (k', v') :: put k v a'
  end.
(** [a.update(b)] *)
Fixpoint update (a b : attrs) : attrs :=
  match b with [] => a | (k, v) :: b' => update (put k v a) b' end.

Record binner := Binner { b_fs : V; b_n_bin : V; b_n_fft : V; b_description : V }.

Inductive ds_err := EmptyVariable | NoFs | FsMismatch | Inconsistent (key : string).

(** binned.py:132-141. On an exception the attributes written so far stay written. *)
Fixpoint check_loop (props out : attrs) : (ds_err * attrs) + attrs :=
  match props with
  | [] => inr out
  | (k, v) :: props' =>
    match get k out with
    | Some w => if veqb w v then check_loop props' (put k v out) else inl (Inconsistent k, out)
    | None => check_loop props' (put k v out)
    end
  end.

(** binned.py:124-130 *)
Definition props_of (b : binner) (raw : attrs) : attrs :=
  update [("fs"%string, b_fs b); ("n_bin"%string, b_n_bin b); ("n_fft"%string, b_n_fft b);
          ("description"%string, b_description b)] raw.

(** [shapes]: the shapes of the data variables of [raw_ds]; [raw]: its attributes; [out]: the
    attributes of [out_ds], [None] when no [out_ds] is given. The result holds the attributes
    of [out_ds] afterwards. The duty-cycle warning (109-113) is dropped. *)
Definition check_ds (b : binner) (shapes : list (list nat)) (raw : attrs) (out : option attrs)
    : (ds_err * attrs) + attrs :=
  let o := match out with None => [] | Some a => a end in
  if existsb (existsb (Nat.eqb 0)) shapes then inl (EmptyVariable, o)
  else match get "fs" raw with
  | None => inl (NoFs, o)
  | Some f => if veqb f (b_fs b) then check_loop (props_of b raw) o else inl (FsMismatch, o)
  end.
End CheckDs.
