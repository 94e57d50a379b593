(** Model of the gap-filling tools of dolfyn/tools/misc.py and dolfyn/time.py.
    A sample is [option Q]; [None] is NaN. *)
From Coq Require Import ZArith QArith List Lia Bool.
Import ListNotations.

Definition series := list (option Q).

Definition is_some {A} (x : option A) : bool := match x with Some _ => true | None => false end.

(** [np.nonzero(~np.isnan(a))[0]] (misc.py:201, 251): increasing indices of valid samples;
    [off] is the index of the head of [a]. *)
Fixpoint good_from (off : nat) (a : series) : list nat :=
  match a with
  | [] => []
  | x :: a' => if is_some x then off :: good_from (S off) a' else good_from (S off) a'
  end.
Definition good_idx (a : series) : list nat := good_from 0 a.

(** numpy slice assignment [a[lo:lo+len(vals)] = vals], for a range inside [a]. *)
Definition set_range (a : series) (lo : nat) (vals : series) : series :=
  firstn lo a ++ vals ++ skipn (lo + length vals) a.

Definition nthq (a : series) (k : nat) : option Q := nth k a None.

Definition val_or0 (x : option Q) : Q := match x with Some q => q | None => 0 end.

(** [n <= maxgap]; [None] is [np.inf]. *)
Definition le_max (n : nat) (maxgap : option nat) : bool :=
  match maxgap with None => true | Some m => Nat.leb n m end.

(** misc.py:203-208 and 253-258: fill the ends with the nearest valid value.
    The test [gd[-1] != len(a)] is always true; line 208 also re-assigns [a[gd[-1]]] to itself. *)
Definition extrap_ends (a : series) (gd : list nat) (maxgap : option nat) : series :=
  match gd with
  | [] => a
  | g0 :: _ =>
    let a1 := if negb (Nat.eqb g0 0) && le_max g0 maxgap
              then set_range a 0 (repeat (nthq a g0) g0) else a in
    let gl := last gd 0%nat in
    if le_max (length a1 - (gl + 1)) maxgap
    then set_range a1 gl (repeat (nthq a1 gl) (length a1 - gl)) else a1
  end.

(** misc.py:212-217 / 262-269, one pass of the main loop body for consecutive valid
    indices [i < j]: the gap is filled when [1 < j-i] and [j-i <= maxgap+1].
    [line i j k x y] is the interpolation formula at index [k]; [x], [y] are
    the values at [i] and [j]. *)
Definition fill_one (line : nat -> nat -> nat -> Q -> Q -> Q) (maxgap : option nat)
    (a : series) (i j : nat) : series :=
  if Nat.ltb 1 (j - i) && le_max (j - i - 1) maxgap then
    set_range a (i + 1)
      (map (fun k => Some (line i j k (val_or0 (nthq a i)) (val_or0 (nthq a j))))
           (seq (i + 1) (j - i - 1)))
  else a.

(** The loop over consecutive valid indices (misc.py:211-217, 261-269). *)
Fixpoint fill_loop (line : nat -> nat -> nat -> Q -> Q -> Q) (maxgap : option nat)
    (a : series) (gd : list nat) : series :=
  match gd with
  | i :: ((j :: _) as rest) => fill_loop line maxgap (fill_one line maxgap a i j) rest
  | _ => a
  end.

(** misc.py:215-217: [diff * (arange(0,len)+1) / (len+1) + a_left] where [len = j-i-1],
    so that the entry for index [k] has [arange = k-i-1]. *)
Definition line_index (i j k : nat) (x y : Q) : Q :=
  ((y - x) * inject_Z (Z.of_nat (k - (i + 1)) + 1)
     / inject_Z (Z.of_nat (j - (i + 1)) + 1) + x)%Q.

(** misc.py:266-269: [ti = (t[k]-t[i])/(t[j]-t[i])]; [diff * ti + a_left]. *)
Definition line_time (t : list Q) (i j k : nat) (x y : Q) : Q :=
  ((y - x) * ((nth k t 0 - nth i t 0) / (nth j t 0 - nth i t 0)) + x)%Q.

(** misc.py:155-219 [fillgaps], one-dimensional case (the multi-dimensional case at
    182-185 applies it to every slice in place). *)
Definition fillgaps (maxgap : option nat) (extrap : bool) (a : series) : series :=
  let gd := good_idx a in
  let a1 := if extrap then extrap_ends a gd maxgap else a in
  fill_loop line_index maxgap a1 gd.

(** misc.py:222-271 [interpgaps], one-dimensional case. *)
Definition interpgaps (t : list Q) (maxgap : option nat) (extrap : bool) (a : series) : series :=
  let gd := good_idx a in
  let a1 := if extrap then extrap_ends a gd maxgap else a in
  fill_loop (line_time t) maxgap a1 gd.

(** time.py:248-251: fill the head backwards from the first valid time.
    [np.nonzero(...)[0][0]] raises IndexError when nothing is valid: [None]. *)
Definition fill_head (dt : Q) (e : series) : option series :=
  match e with
  | [] => None                                    (* epoch[0]: IndexError *)
  | Some _ :: _ => Some e
  | None :: _ =>
    match good_idx e with
    | [] => None
    | i0 :: _ =>
      Some (set_range e 0
        (map (fun k => Some (val_or0 (nthq e i0)
                 + inject_Z (Z.of_nat k - Z.of_nat i0) * dt)%Q) (seq 0 i0)))
    end
  end.

(** time.py:252-256: fill the tail forwards from the last valid time. With
    [ie = -(distance)-1], [epoch[ie]] is the last valid sample, at index [gl];
    [delta = arange(1, -ie) * dt]. *)
Definition fill_tail (dt : Q) (e : series) : option series :=
  match last e None with
  | Some _ => Some e
  | None =>
    match good_idx e with
    | [] => None
    | gd =>
      let gl := last gd 0%nat in
      Some (set_range e (gl + 1)
        (map (fun m => Some (val_or0 (nthq e gl) + inject_Z (Z.of_nat m) * dt)%Q)
             (seq 1 (length e - gl - 1))))
    end
  end.

(** time.py:239-258 [_fill_time_gaps]; [None] is a raised IndexError. *)
Definition fill_time_gaps (e : series) (fs : Q) : option series :=
  let dt := (1 / fs)%Q in
  match fill_head dt (fillgaps None false e) with
  | None => None
  | Some e1 => fill_tail dt e1
  end.
