(** Model of the MATLAB files: dolfyn/io/api.py:252-317 [save_mat] and 320-400 [load_mat], with what scipy does to arrays on
    the way (scipy.io.savemat and scipy.io.loadmat with [squeeze_me=True]). Names, units and attributes are not modelled
    beyond the two numbers of beams (but an orientation matrix or a quaternion without units cannot be loaded again:
    base.py:165, 181). The values of coordinates are not kept, as in CreateDataset.v; what happens to the values of times is
    in FloatTime.v. *)
From Coq Require Import String.
From Coq Require Import List Bool Arith ZArith QArith.
From Verif.Model Require Import SigData CreateDataset Time FloatTime.
Import ListNotations.
Local Open Scope nat_scope.
Open Scope string_scope.

Section Elements.
Context {V : Type}.

(** the file: [coords], [vars] and, of [config], the numbers of beams *)
Record matfile := Matfile { file_coords : dict nat; file_vars : dict (array V); file_n_beams : option nat; file_n_beams_avg : option nat }.

(** api.py:303-317; coordinates are the entries without data of their own *)
Definition coords_of (ds : dict (entry V)) : dict nat :=
  flat_map (fun p => match snd (snd p) with Axis n => [(fst p, n)] | Data _ => [] end) ds.
Definition vars_of (ds : dict (entry V)) : dict (array V) :=
  flat_map (fun p => match snd (snd p) with Axis _ => [] | Data a => [(fst p, a)] end) ds.
Definition save_mat (n_beams n_beams_avg : option nat) (ds : dict (entry V)) : matfile :=
  Matfile (coords_of ds) (vars_of ds) n_beams n_beams_avg.

(** scipy.io.loadmat(squeeze_me=True): axes of length one are removed; an array without elements becomes one axis of
    length zero *)
Fixpoint unsqueezed (sh ix : list nat) : list nat :=
  match sh with
  | [] => []
  | n :: sh' => if (n =? 1)%nat then 0 :: unsqueezed sh' ix else match ix with [] => [] | i :: ix' => i :: unsqueezed sh' ix' end
  end.
Definition squeeze (a : array V) : array V :=
  if existsb (Nat.eqb 0) (shape a) then Array [0] (at_ a)
  else Array (filter (fun n => negb (n =? 1)%nat) (shape a)) (fun ix => at_ a (unsqueezed (shape a) ix)).

(** ways in which loading stops. [AttributeError]: a single number comes back as a Python number, which has no shape
    (base.py:186). *)
Inductive trouble := Raised (e : failure) | AttributeError.

(** api.py:343-363. A coordinate of length one comes back as a single number, which xarray does not take for the values
    along an axis; [beam] and [dir] are made anew. If there are several reasons to stop, which of them is met first is not
    modelled. *)
Definition load_mat (f : matfile) : trouble + dict (entry V) :=
  let vars := map (fun p => (fst p, squeeze (snd p))) (file_vars f) in
  if existsb (fun p => negb (contains "mat" (fst p)) && negb (contains "quaternions" (fst p))
                       && match shape (snd p) with [] => true | _ => false end) vars then inl AttributeError
  else if existsb (fun p => (snd p =? 1)%nat && negb ((fst p =? "beam") || (fst p =? "dir"))) (file_coords f) then inl (Raised ValueError)
  else match create_dataset (Collected (file_coords f) (file_n_beams f) (file_n_beams_avg f) vars) with
       | inl e => inl (Raised e)
       | inr ds => inr ds
       end.

End Elements.
Arguments matfile : clear implicits.

(** the values of a time on the way into the file and back, api.py:289-299 and 381-398; [datenum] or seconds. An instant
    of a dataset is a number of nanoseconds since 1970, a date a number of microseconds: since 1970 for [date2epoch], since
    day 0 of the calendar for [date2matlab], of which 1970-01-01 is day 719163. time.py:52-65 [date2dt64] is exact. *)
Definition since_day_0 (t : Z) : Z := (t + 719163 * us_per_day)%Z.
Definition since_1970 (t : Z) : Z := (t - 719163 * us_per_day)%Z.
Definition time_in_file (datenum : bool) (ns : Z) : Q :=
  if datenum then date2matlab_64 (since_day_0 (dt642date_64 ns)) else date2epoch_64 (dt642date_64 ns).
Definition time_from_file (datenum : bool) (x : Q) : Z :=
  (1000 * (if datenum then since_1970 (matlab2date_64 x) else epoch2date_64 x))%Z.
