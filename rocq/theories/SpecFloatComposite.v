(** Vocabulary for composite kernels in double precision. *)
From Coq Require Import ZArith Bool List Reals Floats.SpecFloat.
Import ListNotations.
From Verif Require Import FloatModel SpecFloats SpecFloatVal SpecLinAlg SpecFloatErr SpecFloatOps.
Local Open Scope R_scope.

(** f 0 * ... * f (n-1) *)
Fixpoint rprod (n : nat) (f : nat -> R) : R := match n with O => 1 | S k => rprod k f * f k end.

(** The members K 0, ..., K (L-1) as a list. *)
Definition members {A} (L : nat) (K : nat -> A) : list A := map K (seq 0 L).

(** All matrices are n x n with finite entries of magnitude at most [b]. *)
Definition all_doubles (L n : nat) (K : nat -> nat -> nat -> f64) (b : R) : Prop :=
  forall k, (k < L)%nat -> doubles2 n n (K k) b.

(** Two kernel matrices for the examples: 1 on the diagonal, 1/2 and 1/10 (the nearest double) elsewhere. *)
Definition half2 (i j : nat) : f64 := if Nat.eqb i j then fone else S754_finite false 4503599627370496 (-53).
Definition tenth2 (i j : nat) : f64 := if Nat.eqb i j then fone else S754_finite false 7205759403792794 (-56).
