(** Vocabulary to state properties of kernels with integer and float parameters, in terms of unbounded
    integers. *)
From Coq Require Import Reals List Arith ZArith.
Import ListNotations.
From Verif Require Import MatModel XReal IntModel SpecInt MixModel.
Local Open Scope Z_scope.

(** The integers that occur in the formula of the kernel are representable: what the arrays contribute, in
    the dtype t of the arrays; its combination with integer parameters, in u. Between the steps with
    integer parameters nothing is required. *)
Definition mix_safe (t u : itype) (k : mkernel) (d : nat) (x y : nat -> Z) : Prop :=
  let dot := zsum d (fun i => x i * y i) in
  let abs := zsum d (fun i => Z.abs (x i - y i)) in
  match k with
  | MPoly _ (PF _) _ | MSigmoid (PF _) _ => fits t dot
  | MPoly _ (PI g) (PF _) | MSigmoid (PI g) (PF _) => fits t dot /\ fits u (g * dot)
  | MPoly n (PI g) (PI b) => fits t dot /\ fits u ((b + g * dot) ^ Z.of_nat n)
  | MSigmoid (PI g) (PI o) => fits t dot /\ fits u (o + g * dot)
  | MLaplacian g =>
      (forall i, (i < d)%nat -> fits t (x i - y i) /\ fits t (Z.abs (x i - y i))) /\ fits (sum_type t) abs /\
      match g with PI g => fits u (- g * abs) | PF _ => True end
  | MOther k => safe t k d x y
  end.
