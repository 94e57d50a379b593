(** Real vectors and matrices as numpy uses them in dolfyn/rotate: a matrix is the list
    of its rows. Floats are idealised as real numbers. *)
From Coq Require Import Reals List Bool.
Import ListNotations.
Open Scope R_scope.

Definition vec := list R.
Definition mat := list vec.

Fixpoint dot (a b : vec) : R :=
  match a, b with
  | x :: a', y :: b' => x * y + dot a' b'
  | _, _ => 0
  end.

(** [np.einsum('ij,j->i', M, v)] (rotate/base.py:140; also [np.dot(M, v)], vector.py:34-36). *)
Definition mv (M : mat) (v : vec) : vec := map (fun row => dot row v) M.

(** transpose of a matrix with [n] columns ([.T], [np.rollaxis(omat, 1)], and the index
    order 'jik,j' of rotate/vector.py:74). *)
Definition tr (n : nat) (M : mat) : mat :=
  map (fun j => map (fun row => nth j row 0) M) (seq 0 n).

(** matrix product, [n] the number of columns of [B] *)
Definition mm (n : nat) (A B : mat) : mat := map (fun row => mv (tr n B) row) A.

Fixpoint drop_nth {A} (n : nat) (l : list A) : list A :=
  match n, l with
  | _, [] => []
  | O, _ :: l' => l'
  | S n', x :: l' => x :: drop_nth n' l'
  end.

Definition sgn (k : nat) : R := if Nat.even k then 1 else -1.

(** [numpy.linalg.det] of an [n] x [n] matrix, by expansion along the first row. *)
Fixpoint det (n : nat) (M : mat) : R :=
  match n with
  | O => 1
  | S n' =>
    match M with
    | [] => 0
    | r :: rest =>
      fold_right Rplus 0
        (map (fun j => sgn j * nth j r 0 * det n' (map (drop_nth j) rest)) (seq 0 n))
    end
  end.

(** [numpy.linalg.inv] of an [n] x [n] matrix, by cofactors; meaningful when [det n M <> 0]. *)
Definition inv (n : nat) (M : mat) : mat :=
  map (fun i => map (fun j =>
         sgn (i + j) * det (pred n) (map (drop_nth i) (drop_nth j M)) / det n M)
       (seq 0 n)) (seq 0 n).

(** [numpy.linalg.inv] raises LinAlgError on a singular matrix. *)
Definition singular (n : nat) (M : mat) : bool :=
  if Req_EM_T (det n M) 0 then true else false.

(** element-wise product [sign*dat] (rotate/signature.py:100-111) *)
Fixpoint vmul (a b : vec) : vec :=
  match a, b with
  | x :: a', y :: b' => x * y :: vmul a' b'
  | _, _ => []
  end.

(** [numpy.deg2rad] *)
Definition deg2rad (x : R) : R := x * PI / 180.
