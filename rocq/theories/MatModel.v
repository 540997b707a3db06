(** Arrays: n-dimensional input arrays (shape and flat data) and 2-D matrices. *)
From Coq Require Import List Arith Bool.
Import ListNotations.
From Verif Require Import Prelude.

(** ** n-dimensional arrays (row-major flat data), as given by callers *)
Record ndarray (E : Type) : Type := mkNd { nd_shape : list nat; nd_data : list E }.
Arguments mkNd {E} nd_shape nd_data.
Arguments nd_shape {E} n.
Arguments nd_data {E} n.

Definition prod_list (l : list nat) : nat := fold_right Nat.mul 1 l.

(** What numpy guarantees of every array. *)
Definition nd_wf {E} (a : ndarray E) : Prop :=
  length (nd_data a) = prod_list (nd_shape a).

Definition nd_ndim {E} (a : ndarray E) : nat := length (nd_shape a).

(** Row [i] of a 2-D array of shape [n; d], as in [sample[i, :]]
    (base.py:575-576). IndexError when out of range. *)
Definition nd_row {E} (a : ndarray E) (i : nat) : res (list E) :=
  match nd_shape a with
  | [n; d] => if i <? n then Ok (firstn d (skipn (i * d) (nd_data a)))
              else Raise IndexError
  | _ => Raise IndexError
  end.

(** ** Matrices *)
Record mat (V : Type) : Type := mkMat { mr : nat; mc : nat; md : list (list V) }.
Arguments mkMat {V} mr mc md.
Arguments mr {V} m.
Arguments mc {V} m.
Arguments md {V} m.

(** The [n] x [m] matrix with entries [f i j]. *)
Definition tabulate {V} (n m : nat) (f : nat -> nat -> V) : mat V :=
  mkMat n m (map (fun i => map (fun j => f i j) (seq 0 m)) (seq 0 n)).

(** Entry access, [A[i, j]] for indices in range ([d] is irrelevant then). *)
Definition mget {V} (d : V) (A : mat V) (i j : nat) : V := nth j (nth i (md A) []) d.

Fixpoint list_upd {A} (l : list A) (i : nat) (a : A) : list A :=
  match l, i with
  | [], _ => []
  | _ :: l', 0 => a :: l'
  | x :: l', S i' => x :: list_upd l' i' a
  end.

(** Item assignment [A[i, j] = v]. *)
Definition mset {V} (A : mat V) (i j : nat) (v : V) : mat V :=
  mkMat (mr A) (mc A) (list_upd (md A) i (list_upd (nth i (md A) []) j v)).

Definition mall {V} (p : V -> bool) (A : mat V) : bool :=
  forallb (forallb p) (md A).

(** Storage format of a matrix held or returned by the library:
    a plain ndarray, a scipy [lil_matrix], or a [numpy.matrix]
    (what [lil_matrix.todense()] returns). *)
Inductive fmt : Type := Dense | Lil | NpMatrix.

Record arr (V : Type) : Type := mkArr { afmt : fmt; amat : mat V }.
Arguments mkArr {V} afmt amat.
Arguments afmt {V} a.
Arguments amat {V} a.

Definition is_sparse {V} (a : arr V) : bool :=
  match afmt a with Lil => true | _ => false end.

(** [isinstance(a, np.ndarray)]: true of ndarray and of numpy.matrix. *)
Definition is_ndarray {V} (a : arr V) : bool :=
  match afmt a with Lil => false | _ => true end.
