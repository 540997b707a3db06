(** Vocabulary to state what ProductKernel computes when its members are held in different formats. *)
From Coq Require Import Reals List Arith Bool.
Import ListNotations.
From Verif Require Import Prelude MatModel UtilsModel XReal SpecLinAlg SpecComposite.
Local Open Scope R_scope.

(** [K] is an n x n matrix, held in any format, with the finite entries [A]. *)
Definition held (n : nat) (K : arr xr) (A : nat -> nat -> R) : Prop :=
  is_square n K /\ forall i j, (i < n)%nat -> (j < n)%nat -> xget (amat K) i j = Fin (A i j).

(** The entrywise product of a list of matrices, and the product of matrices, from left to right. *)
Definition hadamard (As : list (nat -> nat -> R)) (i j : nat) : R :=
  fold_right Rmult 1 (map (fun A => A i j) As).
Definition mprod (n : nat) (A B : nat -> nat -> R) (i j : nat) : R :=
  rsum n (fun k => A i k * B k j).
Definition mprods (n : nat) (A : nat -> nat -> R) (Bs : list (nat -> nat -> R)) : nat -> nat -> R :=
  fold_left (mprod n) Bs A.

(** Multiplying [P] by the matrices [l] one after the other, with the operator * of numpy: the
    entrywise product of two plain ndarrays; the matrix product if the right one is sparse, or if one
    of them is a numpy.matrix, as the result is from then on ([plain] is false). *)
Fixpoint star (n : nat) (plain : bool) (P : nat -> nat -> R)
         (l : list (fmt * (nat -> nat -> R))) : nat -> nat -> R :=
  match l with
  | [] => P
  | (f, A) :: l =>
      match f with
      | Dense => if plain then star n true (fun i j => P i j * A i j) l else star n false (mprod n P A) l
      | Lil => star n plain (mprod n P A) l
      | NpMatrix => star n false (mprod n P A) l
      end
  end.

(** Some matrix is held as a numpy.matrix. *)
Definition some_np_matrix (Ks : list (arr xr)) : Prop := exists K, In K Ks /\ afmt K = NpMatrix.
