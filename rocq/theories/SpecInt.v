(** Vocabulary to state properties of kernels on integer data, in terms of unbounded integers. *)
From Coq Require Import Reals List Arith ZArith.
Import ListNotations.
From Verif Require Import MatModel XReal IntModel.
Local Open Scope Z_scope.

(** The integer [z] is representable in the dtype. *)
Definition fits (t : itype) (z : Z) : Prop :=
  if i_signed t then - 2 ^ (bits (i_width t) - 1) <= z < 2 ^ (bits (i_width t) - 1)
  else 0 <= z < 2 ^ bits (i_width t).

Fixpoint zsum (d : nat) (f : nat -> Z) : Z :=
  match d with O => 0 | S d' => zsum d' f + f d' end.

(** The 64-bit type of the same signedness. *)
Definition sum_type (t : itype) : itype := mkIt W64 (i_signed t).

(** The integer values that occur in the formula of the kernel are representable. *)
Definition safe (t : itype) (k : ikernel) (d : nat) (x y : nat -> Z) : Prop :=
  match k with
  | ILinear | IPoly _ _ _ | ISigmoid _ _ => fits t (zsum d (fun i => x i * y i))
  | IGaussian _ => forall i, (i < d)%nat -> fits t (x i - y i)
  | ILaplacian _ => (forall i, (i < d)%nat -> fits t (x i - y i) /\ fits t (Z.abs (x i - y i)))
                    /\ fits (sum_type t) (zsum d (fun i => Z.abs (x i - y i)))
  | IChi2 _ => True
  | IHadamard a => (1 <= a)%nat /\
      forall i, (i < d)%nat ->
        fits t (Z.abs (x i)) /\ fits t (Z.abs (y i)) /\
        fits t (Z.abs (x i) ^ Z.of_nat a) /\ fits t (Z.abs (y i) ^ Z.of_nat a) /\
        fits t (Z.abs (x i) ^ Z.of_nat a * Z.abs (y i) ^ Z.of_nat a) /\
        fits t (2 * (Z.abs (x i) ^ Z.of_nat a + Z.abs (y i) ^ Z.of_nat a))
  end.

(** Vectors and n x d samples of integers. *)
Definition zvec (d : nat) (x : nat -> Z) : list Z := map x (seq 0 d).
Definition zsample (n d : nat) (X : nat -> nat -> Z) : ndarray Z :=
  mkNd [n; d] (flat_map (fun i => zvec d (X i)) (seq 0 n)).
