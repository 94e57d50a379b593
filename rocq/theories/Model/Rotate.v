(** Model of the frame rotations of dolfyn/rotate: rotate/base.py, vector.py, awac.py,
    signature.py, rotate/rdi.py and rotate2/set_declination/set_inst2head_rotmat of rotate/api.py.

    Simplifications, for the whole file:
    - floats are real numbers (float32 casts are dropped);
    - a variable's array [(dir, ..., time)] is stored time-first: for every time, the list of
      the component vectors of all its cells (the index [...] of the einsums);
    - 'orientmat' is always present (the readers create it), one matrix per time;
    - warnings and prints are dropped; [inplace=False] (a deep copy first) is the same
      function on an immutable dataset;
    - an exception is a value [Err e d]: [d] is the dataset as the exception leaves it. *)
From Coq Require Import Reals List Bool String Ascii.
From Verif.Model Require Import Linalg.
Import ListNotations.
Open Scope R_scope.

Inductive err :=
| UnknownInstrument   (* rotate/api.py:82 *)
| BadInputFrame       (* rotate/api.py:89 *)
| BadOutputFrame      (* rotate/api.py:95 *)
| WrongFrame          (* rotate/base.py:119-121, vector.py:90, 167, signature.py:52, rotate/rdi.py:39 *)
| NotAVector          (* vector.py:116, signature.py:104; einsum shape errors *)
| NoSuchVariable      (* KeyError *)
| NoSuchAttribute     (* AttributeError *)
| BadInst2head        (* vector.py:46-49 *)
| Singular            (* numpy LinAlgError *)
| ShapeMismatch       (* einsum: time dimensions differ *)
| LabelMismatch       (* rotate/base.py:70-86: labels of another size, or unknown make *)
| Inst2headNotVector  (* rotate/api.py:292 *)
| Inst2headTwice      (* rotate/api.py:295 *)
| NoSuchStep          (* IndexError / AttributeError at rotate/api.py:111-115 *)
| OutOfFuel.          (* the while loop of rotate/api.py:107 does not end: proved impossible *)

Record var := Var { ncomp : nat; cells : list (list vec) }.

Record ds := Ds {
  make_model : string;            (* '{inst_make} {inst_model}'.lower(), rotate/base.py:8-13 *)
  inst_model : string;            (* inst_model.lower() *)
  coord_sys : string;
  dir : list string;              (* labels of the 'dir' coordinate *)
  dirIMU : option (list string);  (* labels of 'dirIMU', when present *)
  beam_labels : list string;      (* ds.beam *)
  orientation : string;
  beam2inst : mat;                (* beam2inst_orientmat *)
  orientmat : list mat;
  heading : option (list R);
  inst2head : option mat;         (* inst2head_rotmat *)
  inst2head_was_set : bool;
  principal_heading : option R;
  declination : option R;
  rotate_vars : list string;
  data : list (string * var) }.

Definition set_cs d cs di dim := Ds (make_model d) (inst_model d) cs di dim (beam_labels d)
  (orientation d) (beam2inst d) (orientmat d) (heading d) (inst2head d) (inst2head_was_set d)
  (principal_heading d) (declination d) (rotate_vars d) (data d).
Definition set_data d x := Ds (make_model d) (inst_model d) (coord_sys d) (dir d) (dirIMU d)
  (beam_labels d) (orientation d) (beam2inst d) (orientmat d) (heading d) (inst2head d)
  (inst2head_was_set d) (principal_heading d) (declination d) (rotate_vars d) x.
Definition set_orientmat d x := Ds (make_model d) (inst_model d) (coord_sys d) (dir d) (dirIMU d)
  (beam_labels d) (orientation d) (beam2inst d) x (heading d) (inst2head d)
  (inst2head_was_set d) (principal_heading d) (declination d) (rotate_vars d) (data d).
Definition set_heading d x := Ds (make_model d) (inst_model d) (coord_sys d) (dir d) (dirIMU d)
  (beam_labels d) (orientation d) (beam2inst d) (orientmat d) x (inst2head d)
  (inst2head_was_set d) (principal_heading d) (declination d) (rotate_vars d) (data d).
Definition set_i2h d x := Ds (make_model d) (inst_model d) (coord_sys d) (dir d) (dirIMU d)
  (beam_labels d) (orientation d) (beam2inst d) (orientmat d) (heading d) x true
  (principal_heading d) (declination d) (rotate_vars d) (data d).
Definition set_principal d x := Ds (make_model d) (inst_model d) (coord_sys d) (dir d) (dirIMU d)
  (beam_labels d) (orientation d) (beam2inst d) (orientmat d) (heading d) (inst2head d)
  (inst2head_was_set d) x (declination d) (rotate_vars d) (data d).
Definition set_decl d x := Ds (make_model d) (inst_model d) (coord_sys d) (dir d) (dirIMU d)
  (beam_labels d) (orientation d) (beam2inst d) (orientmat d) (heading d) (inst2head d)
  (inst2head_was_set d) (principal_heading d) x (rotate_vars d) (data d).

Inductive res := Ok (d : ds) | Err (e : err) (d : ds).

Definition bind (r : res) (f : ds -> res) : res :=
  match r with Ok d => f d | Err e d => Err e d end.

(** Python [str.lower], ASCII letters *)
Definition lower_ascii (a : ascii) : ascii :=
  let n := nat_of_ascii a in
  if (Nat.leb 65 n && Nat.leb n 90)%bool then ascii_of_nat (n + 32) else a.
Fixpoint lower (s : string) : string :=
  match s with
  | EmptyString => EmptyString
  | String a s' => String (lower_ascii a) (lower s')
  end.

(** Python [k in s] on strings *)
Definition contains (k s : string) : bool :=
  match index 0 k s with Some _ => true | None => false end.

(** ** dataset access *)
Fixpoint lookup (nm : string) (l : list (string * var)) : option var :=
  match l with
  | [] => None
  | (k, v) :: l' => if String.eqb k nm then Some v else lookup nm l'
  end.
Definition update (nm : string) (v : var) (l : list (string * var)) : list (string * var) :=
  map (fun kv => if String.eqb (fst kv) nm then (fst kv, v) else kv) l.

(** [for nm in names: ds[nm].values = f(ds[nm])] (vector.py:113-118 and the like). *)
Fixpoint over_vars (names : list string) (f : var -> err + var) (d : ds) : res :=
  match names with
  | [] => Ok d
  | nm :: rest =>
    match lookup nm (data d) with
    | None => Err NoSuchVariable d
    | Some v =>
      match f v with
      | inl e => Err e d
      | inr v' => over_vars rest f (set_data d (update nm v' (data d)))
      end
    end
  end.

(** einsum 'ij,j...->i...': the same function of the component vector everywhere *)
Definition map_cells (f : vec -> vec) (v : var) : var :=
  Var (ncomp v) (map (map f) (cells v)).

(** einsum 'ijk,j...k->i...k': the function for time [k] on all cells of time [k] *)
Fixpoint zip_cells (fs : list (vec -> vec)) (c : list (list vec)) : list (list vec) :=
  match fs, c with
  | f :: fs', x :: c' => map f x :: zip_cells fs' c'
  | _, _ => []
  end.
Definition map_time (fs : list (vec -> vec)) (v : var) : err + var :=
  if Nat.eqb (List.length fs) (List.length (cells v))
  then inr (Var (ncomp v) (zip_cells fs (cells v)))
  else inl ShapeMismatch.

(** ** rotate/base.py *)

(** rotate/base.py:48-73: axis labels of the frame; [None] when the make is unknown. *)
Definition is_rdi (mk : string) := contains "rdi" mk.
Definition four_labels (mk : string) : bool :=
  contains "signature" mk || contains "ad2cp" mk || contains "vectrino" mk.

Definition labels (mk frame : string) (beam : list string) : option (list string) :=
  let pick i e p :=
    if String.eqb frame "beam" then Some beam
    else if String.eqb frame "inst" then Some i
    else if String.eqb frame "ship" then Some i
    else if String.eqb frame "earth" then Some e
    else if String.eqb frame "principal" then Some p else None in
  if is_rdi mk then
    pick ["X";"Y";"Z";"err"]%string ["E";"N";"U";"err"]%string
         ["streamwise";"x-stream";"vert";"err"]%string
  else if contains "nortek" mk then
    if four_labels mk then
      pick ["X";"Y";"Z1";"Z2"]%string ["E";"N";"U1";"U2"]%string
           ["streamwise";"x-stream";"vert1";"vert2"]%string
    else pick ["X";"Y";"Z"]%string ["E";"N";"U"]%string
           ["streamwise";"x-stream";"vert"]%string
  else None.

Definition labelsIMU (frame : string) : option (list string) :=
  if String.eqb frame "beam" then Some ["X";"Y";"Z"]%string
  else if String.eqb frame "inst" then Some ["X";"Y";"Z"]%string
  else if String.eqb frame "ship" then Some ["X";"Y";"Z"]%string
  else if String.eqb frame "earth" then Some ["E";"N";"U"]%string
  else if String.eqb frame "principal" then Some ["streamwise";"x-stream";"vert"]%string
  else None.

(** rotate/base.py:40-96 [_set_coords] (forced=False). Assigning labels of another length than the
    dimension is an xarray error. The 'ref_frame' attribute of the coordinate and the removal
    of 'coord_sys_axes*' are dropped. *)
Definition set_coords (d : ds) (frame : string) : res :=
  match labels (make_model d) frame (beam_labels d) with
  | None => Err LabelMismatch d
  | Some di =>
    if Nat.eqb (List.length di) (List.length (dir d)) then
      match dirIMU d with
      | None => Ok (set_cs d frame di None)
      | Some old =>
        match labelsIMU frame with
        | None => Err LabelMismatch d
        | Some dm =>
          if Nat.eqb (List.length dm) (List.length old) then Ok (set_cs d frame di (Some dm))
          else Err LabelMismatch (set_cs d (coord_sys d) di (dirIMU d))
        end
      end
    else Err LabelMismatch d
  end.

(** rotate/base.py:16-26 [_check_rotmat_det], 3x3 *)
Definition check_rotmat_det (M : mat) : bool :=
  if Rlt_dec (Rabs (det 3 M - 1)) (1 / 1000) then true else false.

(** rotate/base.py:130-131: the variables of [rotate_vars] whose first dimension is that of the matrix *)
Fixpoint select (n : nat) (names : list string) (l : list (string * var)) : option (list string) :=
  match names with
  | [] => Some []
  | nm :: rest =>
    match lookup nm l, select n rest l with
    | Some v, Some ns => Some (if Nat.eqb (ncomp v) n then nm :: ns else ns)
    | _, _ => None
    end
  end.

(** rotate/base.py:99-144 [_beam2inst] with force=False. *)
Definition base_beam2inst (reverse : bool) (d : ds) : res :=
  if negb reverse && negb (String.eqb (lower (coord_sys d)) "beam") then Err WrongFrame d
  else if reverse && negb (String.eqb (coord_sys d) "inst") then Err WrongFrame d
  else
    let M := beam2inst d in
    let n := List.length M in
    match select n (rotate_vars d) (data d) with
    | None => Err NoSuchVariable d
    | Some names =>
      if reverse && singular n M then Err Singular d
      else
        let M' := if reverse then inv n M else M in
        bind (over_vars names (fun v => inr (map_cells (mv M') v)) d)
          (fun d' => set_coords d' (if reverse then "beam" else "inst"))
    end.

(** ** vector.py *)

(** vector.py:41-50 [_check_inst2head_rotmat]: [inr b] or an exception *)
Definition check_inst2head (d : ds) : err + bool :=
  match inst2head d with
  | None => inr false
  | Some M =>
    if negb (inst2head_was_set d) then inl BadInst2head
    else if negb (check_rotmat_det M) then inl BadInst2head
    else inr true
  end.

(** vector.py:29-38 [_rotate_inst2head]: only 'vel'. *)
Definition rotate_inst2head (reverse : bool) (d : ds) : res :=
  match check_inst2head d with
  | inl e => Err e d
  | inr false => Ok d
  | inr true =>
    match inst2head d with
    | None => Ok d
    | Some M =>
      over_vars ["vel"%string]
        (fun v => if Nat.eqb (ncomp v) 3
                  then inr (map_cells (mv (if reverse then tr 3 M else M)) v)
                  else inl NotAVector) d
    end
  end.

(** vector.py:7-26 [_beam2inst] *)
Definition vec_beam2inst (reverse : bool) (d : ds) : res :=
  if reverse then bind (rotate_inst2head true d) (base_beam2inst true)
  else bind (base_beam2inst false d) (rotate_inst2head false).

(** vector.py:53-122 [_inst2earth] with force=False, also used by the AWAC (awac.py).
    [rmat] is the transpose of the orientation matrix; the reverse einsum 'jik,j...k'
    multiplies by the transpose of [rmat]. *)
Definition vec_inst2earth (reverse : bool) (d : ds) : res :=
  let cs_now := if reverse then "earth"%string else "inst"%string in
  let cs_new := if reverse then "inst"%string else "earth"%string in
  if negb (String.eqb (lower (coord_sys d)) cs_now) then Err WrongFrame d
  else
    let fs := map (fun O => let rmat := tr 3 O in mv (if reverse then tr 3 rmat else rmat))
                  (orientmat d) in
    bind (over_vars (rotate_vars d)
            (fun v => if Nat.eqb (ncomp v) 3 then map_time fs v else inl NotAVector) d)
         (fun d' => set_coords d' cs_new).

(** vector.py:172-180: rotation of the first two components by [ang]; a variable with fewer
    than two components is a broadcasting error. *)
Definition rot2 (ang : R) (v : vec) : vec :=
  match v with
  | x :: y :: rest => (cos ang * x - sin ang * y) :: (sin ang * x + cos ang * y) :: rest
  | _ => v
  end.

(** vector.py:125-186 [_earth2principal] *)
Definition earth2principal (reverse : bool) (d : ds) : res :=
  match principal_heading d with
  | None => Err NoSuchAttribute d
  | Some ph =>
    let ang0 := deg2rad (90 - ph) in
    let ang := if reverse then ang0 else - ang0 in
    let cs_now := if reverse then "principal"%string else "earth"%string in
    let cs_new := if reverse then "earth"%string else "principal"%string in
    if negb (String.eqb (lower (coord_sys d)) cs_now) then Err WrongFrame d
    else
      bind (over_vars (rotate_vars d)
              (fun v => if Nat.leb 2 (ncomp v) then inr (map_cells (rot2 ang) v)
                        else inl NotAVector) d)
           (fun d' => set_coords d' cs_new)
  end.

(** ** signature.py *)

Definition ent (M : mat) (i j : nat) : R := nth j (nth i M []) 0.

(** signature.py:75-84: the 4x4 matrix with two vertical estimates *)
Definition rmat4 (r : mat) : mat :=
  [[ent r 0 0; ent r 0 1; ent r 0 2 / 2; ent r 0 2 / 2];
   [ent r 1 0; ent r 1 1; ent r 1 2 / 2; ent r 1 2 / 2];
   [ent r 2 0; ent r 2 1; ent r 2 2; 0];
   [ent r 2 0; ent r 2 1; 0; ent r 2 2]].

Definition sign4 : vec := [1; -1; -1; -1].
Definition sign3 : vec := [1; -1; -1].

(** signature.py:9-128 [_inst2earth] with force=False. *)
Definition sig_inst2earth (reverse : bool) (d : ds) : res :=
  let cs_now := if reverse then "earth"%string else "inst"%string in
  let cs_new := if reverse then "inst"%string else "earth"%string in
  let down := String.eqb (orientation d) "down" in
  if negb (String.eqb (lower (coord_sys d)) cs_now) then Err WrongFrame d
  else
    let rmats := map (tr 3) (orientmat d) in
    if reverse && existsb (fun r => singular 4 (rmat4 r)) rmats then Err Singular d
    else
      let f3 := map (fun r v =>
        if reverse then (if down then vmul sign3 (mv (tr 3 r) v) else mv (tr 3 r) v)
        else (if down then mv r (vmul sign3 v) else mv r v)) rmats in
      let f4 := map (fun r v =>
        if reverse then (if down then vmul sign4 (mv (inv 4 (rmat4 r)) v)
                         else mv (inv 4 (rmat4 r)) v)
        else (if down then mv (rmat4 r) (vmul sign4 v) else mv (rmat4 r) v)) rmats in
      bind (over_vars (rotate_vars d)
              (fun v => if Nat.eqb (ncomp v) 3 then map_time f3 v
                        else if Nat.eqb (ncomp v) 4 then map_time f4 v
                        else inl NotAVector) d)
           (fun d' => set_coords d' cs_new).

(** ** rotate/rdi.py *)

(** rotate/rdi.py:65: [dat[:3] = einsum(rotmat, dat[:3])] *)
Definition first3 (f : vec -> vec) (v : vec) : vec := f (firstn 3 v) ++ skipn 3 v.

(** rotate/rdi.py:7-70 [_inst2earth] with force=False. *)
Definition rdi_inst2earth (reverse : bool) (d : ds) : res :=
  let cs := lower (coord_sys d) in
  let allowed := if reverse then String.eqb cs "earth"
                 else String.eqb cs "inst" || String.eqb cs "ship" in
  if negb allowed then Err WrongFrame d
  else
    let fs := map (fun O => let r := tr 3 O in first3 (mv (if reverse then tr 3 r else r)))
                  (orientmat d) in
    bind (over_vars (rotate_vars d)
            (fun v => if Nat.leb 3 (ncomp v) then map_time fs v else inl NotAVector) d)
         (fun d' => set_coords d' (if reverse then "inst" else "earth")).

(** ** rotate/api.py *)

Inductive family := Vector | Awac | Signature | Rdi.

(** rotate/api.py:14-22, 76-80: the first key contained in the make and model *)
Definition family_of (mk : string) : option family :=
  if contains "vector" mk then Some Vector
  else if contains "awac" mk then Some Awac
  else if contains "signature" mk then Some Signature
  else if contains "ad2cp" mk then Some Signature
  else if contains "rdi" mk then Some Rdi
  else None.

(** rotate/api.py:12 and [rc.index] *)
Definition rc_index (s : string) : option nat :=
  if String.eqb s "beam" then Some 0%nat
  else if String.eqb s "inst" then Some 1%nat
  else if String.eqb s "earth" then Some 2%nat
  else if String.eqb s "principal" then Some 3%nat
  else None.

(** the functions of the module of each family (vector.py, awac.py, signature.py, rotate/rdi.py);
    [low] is the index of the lower of the two frames *)
Definition step_fun (fam : family) (low : nat) : option (bool -> ds -> res) :=
  match low with
  | O => Some (match fam with Vector => vec_beam2inst | _ => base_beam2inst end)
  | 1%nat => Some (match fam with
                   | Vector | Awac => vec_inst2earth
                   | Signature => sig_inst2earth
                   | Rdi => rdi_inst2earth end)
  | 2%nat => Some earth2principal
  | _ => None
  end.

(** rotate/api.py:111-116: one pass of the loop body. [rc[inow-1]] with [inow = 0] names a function
    that does not exist; [rc[4]] is an IndexError. *)
Definition one_step (fam : family) (reverse : bool) (d : ds) : res :=
  let csin := if String.eqb (coord_sys d) "ship" then "inst"%string else coord_sys d in
  match rc_index csin with
  | None => Err NoSuchStep d
  | Some inow =>
    let f := if reverse then match inow with O => None | S i => step_fun fam i end
             else step_fun fam inow in
    match f with
    | None => Err NoSuchStep d
    | Some g => g reverse d
    end
  end.

(** rotate/api.py:107-116 *)
Fixpoint rot_loop (fuel : nat) (fam : family) (reverse : bool) (out : string) (d : ds) : res :=
  if String.eqb (lower (coord_sys d)) out then Ok d
  else match fuel with
       | O => Err OutOfFuel d
       | S fuel' => bind (one_step fam reverse d) (rot_loop fuel' fam reverse out)
       end.

(** rotate/api.py:25-119 [rotate2] *)
Definition rotate2 (d : ds) (out_frame : string) : res :=
  let csin0 := lower (coord_sys d) in
  let csin := if String.eqb csin0 "ship" then "inst"%string else csin0 in
  match check_inst2head d with
  | inl e => Err e d
  | inr _ =>
    match family_of (make_model d) with
    | None => Err UnknownInstrument d
    | Some fam =>
      match rc_index csin with
      | None => Err BadInputFrame d
      | Some iin =>
        match rc_index (lower out_frame) with
        | None => Err BadOutputFrame d
        | Some iout => rot_loop 4 fam (negb (Nat.ltb iin iout)) (lower out_frame) d
        end
      end
    end
  end.

(** rotate/api.py:227-234 *)
Definition Rdec (angle : R) : mat :=
  let cd := cos (- deg2rad angle) in
  let sd := sin (- deg2rad angle) in
  [[cd; - sd; 0]; [sd; cd; 0]; [0; 0; 1]].

(** rotate/api.py:242-244: [einsum('kj...,ij->ki...', orientmat, Rdec)]: [O * Rdec^T] *)
Definition decl_mat (angle : R) (O : mat) : mat := mm 3 O (tr 3 (Rdec angle)).

Definition add_opt (a : R) (x : option R) : option R :=
  match x with Some v => Some (v + a) | None => None end.

(** rotate/api.py:173-256 [set_declination]; 'declination_in_orientmat' is dropped. An exception of the
    inner [rotate2] leaves the dataset without its 'declination' (popped at line 224). *)
Definition set_declination (d : ds) (declin : R) : res :=
  let angle := match declination d with Some old => declin - old | None => declin end in
  let d0 := set_decl d None in
  let to_earth := String.eqb (coord_sys d0) "earth" in
  bind (if to_earth then rotate2 d0 "inst" else Ok d0) (fun d1 =>
  let d2 := set_orientmat d1 (map (decl_mat angle) (orientmat d1)) in
  let d3 := set_heading d2 (match heading d2 with
                            | Some h => Some (map (fun x => x + angle) h) | None => None end) in
  bind (if to_earth then rotate2 d3 "earth" else Ok d3) (fun d4 =>
  let d5 := set_principal d4 (add_opt angle (principal_heading d4)) in
  Ok (set_decl d5 (Some declin)))).

(** rotate/api.py:259-320 [set_inst2head_rotmat] *)
Definition set_inst2head_rotmat (d : ds) (rotmat : mat) : res :=
  if negb (String.eqb (inst_model d) "vector") then Err Inst2headNotVector d
  else match inst2head d with
  | Some _ => Err Inst2headTwice d
  | None =>
    let csin := coord_sys d in
    let ib := (String.eqb csin "inst" || String.eqb csin "beam")%bool in
    bind (if ib then Ok d else rotate2 d "inst") (fun d1 =>
    let d2 := set_i2h d1 (Some rotmat) in
    bind (if String.eqb csin "beam" then Ok d2 else rotate_inst2head false d2) (fun d3 =>
    if ib then Ok d3 else rotate2 d3 csin))
  end.
