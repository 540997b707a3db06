(** Samples drawn from other samples, for C94. *)
From Coq Require Import List Arith.
Import ListNotations.
From Verif Require Import Prelude MatModel KMModel SpecKM.

(** The sample the columns of the kernel matrix belong to. *)
Definition columns {E} (x : ndarray E) (y : option (ndarray E)) : ndarray E :=
  match y with Some y' => y' | None => x end.

(** Row i of [x'] is row [f i] of [x]. *)
Definition taken {E} (d n n' : nat) (f : nat -> nat) (x x' : ndarray E) : Prop :=
  forall i, i < n' -> f i < n /\ row_of d x' i = row_of d x (f i).

(** The points along the rows and along the columns of the matrix of (x', y') occur along the rows and the
    columns of that of (x, y), at the positions [f] and [g]: a subset, a permutation, repeated points,
    one block of a larger sample. *)
Definition drawn {E} (d n m n' m' : nat) (f g : nat -> nat) (x : ndarray E) (y : option (ndarray E))
           (x' : ndarray E) (y' : option (ndarray E)) : Prop :=
  taken d n n' f x x' /\ taken d m m' g (columns x y) (columns x' y').

(** The kernel is symmetric on the attached points. *)
Definition symmetric_on {E V} (k : list E -> list E -> V) (x : ndarray E) (y : option (ndarray E))
           (n m d : nat) : Prop :=
  forall u v, is_row x y n m d u -> is_row x y n m d v -> k u v = k v u.

(** [f] permutes 0, ..., n-1. *)
Definition permutes (n : nat) (f : nat -> nat) : Prop :=
  (forall i, i < n -> f i < n) /\ (forall i j, i < n -> j < n -> f i = f j -> i = j).
