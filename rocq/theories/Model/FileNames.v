(** File names, file types and userdata files: io/api.py:13-23, 66-103 and io/base.py:12-77. A name is
    a list of characters and a file a list of bytes (0..255). *)
From Coq Require Import String Ascii ZArith QArith List Bool.
Import ListNotations.
Open Scope nat_scope.
Open Scope string_scope.
Open Scope list_scope.

Definition name := list ascii.
Definition dot : ascii := "."%char.
Definition slash : ascii := "/"%char.
Definition backslash : ascii := "\"%char.

(** [s.split(c)] and [s.rsplit(c)] without a maximal number of pieces: the pieces between the [c] *)
Fixpoint split (c : ascii) (s : name) : list name :=
  match s with
  | [] => [[]]
  | x :: s' =>
    if Ascii.eqb x c then [] :: split c s'
    else match split c s' with w :: ws => (x :: w) :: ws | [] => [[x]] end
  end.
(** [s.rsplit(c)[-1]] *)
Definition last_piece (c : ascii) (s : name) : name := last (split c s) [].
(** [s.rsplit(c, 1)[0]]: what precedes the last [c], all of [s] when there is none *)
Definition mem (c : ascii) (s : name) : bool := existsb (Ascii.eqb c) s.
Fixpoint before_last (c : ascii) (s : name) : name :=
  match s with
  | [] => []
  | x :: s' => if mem c s' then x :: before_last c s' else if Ascii.eqb x c then [] else x :: before_last c s'
  end.
Definition name_eqb (a b : name) : bool := if list_eq_dec ascii_dec a b then true else false.

(** io/api.py:13-23 [_check_file_ext]; [None] is the IOError *)
Definition check_file_ext (path ext : name) : option name :=
  let filename := last_piece slash (map (fun c => if Ascii.eqb c backslash then slash else c) path) in
  let file_ext := last_piece dot filename in
  if mem dot filename then
    (if name_eqb file_ext ext then Some path else None)
  else Some (path ++ dot :: ext).

(** ** file types *)
Inductive filetype := RDI | SignatureFile | NortekFile | LfsPointer | Unknown.
(** b'version https://git-lfs.github.com/spec/' *)
Definition lfs_magic : list Z :=
  [118; 101; 114; 115; 105; 111; 110; 32; 104; 116; 116; 112; 115; 58; 47; 47; 103; 105; 116; 45; 108; 102; 115;
   46; 103; 105; 116; 104; 117; 98; 46; 99; 111; 109; 47; 115; 112; 101; 99; 47]%Z.
Definition bytes_eqb (a b : list Z) : bool := if list_eq_dec Z.eq_dec a b then true else false.
(** io/base.py:12-39 [_get_filetype] *)
Definition get_filetype (file : list Z) : filetype :=
  let bytes := firstn 40 file in
  let code := firstn 2 bytes in
  if bytes_eqb code [127; 121]%Z || bytes_eqb code [127; 127]%Z then RDI
  else if bytes_eqb code [165; 10]%Z then SignatureFile
  else if bytes_eqb code [165; 5]%Z then NortekFile
  else if bytes_eqb bytes lfs_magic then LfsPointer
  else Unknown.
(** io/api.py:66-103 [read]: an IOError, or the parser that is called *)
Inductive outcome := IOErr | Calls (parser : filetype).
Definition read_dispatch (file : list Z) : outcome :=
  match get_filetype file with
  | LfsPointer | Unknown => IOErr
  | t => Calls t
  end.

(** ** userdata *)
(** a JSON value, as the json module returns it. [JIdentity] is [np.eye(3)] and [JArray v] is
    [np.array(v)]; JSON never yields them. *)
Inductive json := JStr (s : name) | JNum (q : Q) | JBool (b : bool) | JNull | JList (l : list json) | JDict
                | JIdentity | JArray (v : json).
Definition dict := list (name * json).
Fixpoint get (k : name) (d : dict) : option json :=
  match d with [] => None | (k', v) :: d' => if name_eqb k' k then Some v else get k d' end.
Definition del (k : name) (d : dict) : dict := filter (fun kv => negb (name_eqb (fst kv) k)) d.
(** [d[k] = v] *)
Fixpoint upd (k : name) (v : json) (d : dict) : dict :=
  match d with
  | [] => [(k, v)]
  | (k', v') :: d' => if name_eqb k' k then (k', v) :: d' else (k', v') :: upd k v d'
  end.
Definition chars (s : string) : name := list_ascii_of_string s.
Definition body2head_rotmat := chars "body2head_rotmat".
Definition body2head_vec := chars "body2head_vec".
Definition inst2head_rotmat := chars "inst2head_rotmat".
Definition inst2head_vec := chars "inst2head_vec".
(** io/base.py:61-67: one renaming *)
Definition rename (old new : name) (d : dict) : dict :=
  match get old d with Some v => upd new v (del old d) | None => d end.
(** io/base.py:69: [v in ['identity', 'eye', 1, 1.]]; in Python True == 1 *)
Definition is_identity (v : json) : bool :=
  match v with
  | JStr s => name_eqb s (chars "identity") || name_eqb s (chars "eye")
  | JNum q => Qeq_bool q 1
  | JBool b => b
  | _ => false
  end.
(** io/base.py:73-74: [list(v)] of something that is not a list; [None] is a TypeError *)
Definition to_list (v : json) : option json :=
  match v with
  | JList l => Some (JList l)
  | JStr s => Some (JList (map (fun c => JStr [c]) s))
  | JDict => Some JDict   (* the list of its keys; not modelled further *)
  | _ => None
  end.
(** io/base.py:56-77 [_read_userdata] of the dictionary in the file; warnings dropped *)
Definition read_userdata (d : dict) : option dict :=
  let d := rename body2head_vec inst2head_vec (rename body2head_rotmat inst2head_rotmat d) in
  let d := match get inst2head_rotmat d with
           | Some v => upd inst2head_rotmat (if is_identity v then JIdentity else JArray v) d
           | None => d
           end in
  match get inst2head_vec d with
  | Some v => match to_list v with Some l => Some (upd inst2head_vec l d) | None => None end
  | None => Some d
  end.

(** the argument [userdata]: a boolean, a file name or an open file (its contents) *)
Inductive uarg := UBool (b : bool) | UName (f : name) | UFile (d : dict).
(** [bool(userdata)] *)
Definition truthy (u : uarg) : bool :=
  match u with UBool b => b | UName [] => false | _ => true end.
Definition userdata_suffix := chars ".userdata.json".
(** the files that exist and the dictionaries in them *)
Definition files := name -> option dict.
(** io/base.py:42-53 [_find_userdata]; [None] is an exception *)
Definition find_userdata (fs : files) (filename : name) (u : uarg) : option dict :=
  if truthy u then
    match fs (before_last dot filename ++ userdata_suffix) with
    | Some d => read_userdata d
    | None => match fs (filename ++ userdata_suffix) with
              | Some d => read_userdata d
              | None => Some []
              end
    end
  else match u with
       | UName f => match fs f with Some d => read_userdata d | None => None end
       | _ => Some []
       end.
