(** What [read_rdi] does after the file has been read: io/rdi.py:133-182. *)
From Coq Require Import String QArith Reals List Bool.
From Verif.Model Require Import Linalg Rotate.
Import ListNotations.

(** ** io/rdi.py:133-156 [_remove_gps_duplicates] *)
(** [None] is NaN; NaNs sort last and are equal to each other (numpy 1.21 and later) *)
Definition time_le (a b : option Q) : bool :=
  match a, b with Some x, Some y => Qle_bool x y | _, None => true | None, Some _ => false end.
Definition time_eq (a b : option Q) : bool :=
  match a, b with Some x, Some y => Qeq_bool x y | None, None => true | _, _ => false end.
Fixpoint insert_time (p : option Q * nat) (l : list (option Q * nat)) : list (option Q * nat) :=
  match l with
  | [] => [p]
  | q :: l' => if time_le (fst p) (fst q) then p :: l else q :: insert_time p l'
  end.
(** stable argsort: values with their indices *)
Definition argsort (t : list (option Q)) : list (option Q * nat) :=
  fold_right insert_time [] (combine t (seq 0 (length t))).
(** keep the first of each run of equal values *)
Fixpoint first_of_runs (prev : option (option Q)) (l : list (option Q * nat)) : list (option Q * nat) :=
  match l with
  | [] => []
  | p :: l' =>
    let same := match prev with Some v => time_eq v (fst p) | None => false end in
    if same then first_of_runs prev l' else p :: first_of_runs (Some (fst p)) l'
  end.
(** [np.unique(t, return_index=True)], then without NaN (lines 143-149): (times, indices) *)
Definition unique_times (t : list (option Q)) : list (Q * nat) :=
  flat_map (fun p => match fst p with Some x => [(x, snd p)] | None => [] end) (first_of_runs None (argsort t)).
(** [sub in key] *)
Definition has_sub (sub key : string) : bool :=
  match String.index 0 sub key with Some _ => true | None => false end.
Definition pick {A} (d : A) (idx : list nat) (v : list A) : list A := map (fun i => nth i v d) idx.
(** [hdw]: the times of the pings; [dvs]: the data variables of one value per ping.
    Result: new times and variables, with 'hdwtime_gps' added *)
Definition remove_gps_duplicates (hdw : list Q) (t : list (option Q)) (dvs : list (string * list (option Q)))
    : list Q * list (string * list (option Q)) :=
  let u := unique_times t in
  let idx := map snd u in
  (map fst u,
   map (fun kv => if (has_sub "gps" (fst kv) || has_sub "nmea" (fst kv))%bool then (fst kv, pick None idx (snd kv)) else kv)
       (dvs ++ [("hdwtime_gps"%string, map Some hdw)])).

(** ** io/rdi.py:159-182 [_set_rdi_declination]: [magvar] is the attribute 'magnetic_var_deg', the
    attribute 'declination' comes from the userdata file; 'declination_in_orientmat' is dropped *)
Definition set_rdi_declination (magvar : R) (d : ds) : res :=
  let declin := declination d in
  let d0 := set_decl d None in
  let d1 := if Req_EM_T magvar 0 then d0 else set_decl d0 (Some magvar) in
  let d2 := match declin with Some a => if Req_EM_T magvar 0 then d1 else set_decl d1 (Some a) | None => d1 end in
  match declin with Some a => set_declination d2 a | None => Ok d2 end.
