(** Exactly which linear and polynomial kernel matrices are positive definite (C111), in exact arithmetic.
    Generated by tools/split_props.py from PolyExactProps.v: statements only, each closed by [exact]. *)
From Coq Require Import String List Arith ZArith Bool Reals Lra Lia Psatz.
Import ListNotations.
From Verif Require Import Prelude MatModel MatFacts UtilsModel XReal SpecLinAlg RSum PSDFacts OpsModel OpsFacts OpsProps KernelsModel
  SpecKernels KernelFacts KernelProps PosDefProps DefiniteProps PolyDefProps MatchDefProps.
Local Open Scope R_scope.
From Verif Require Import PolyExactProps.
Local Open Scope R_scope.

(** The value at x of a product of affine functions; l = (a, w) stands for the function a + w . x. *)
Fixpoint affine_product (d : nat) (ls : list (R * (nat -> R))) (x : nat -> R) : R :=
  match ls with
  | [] => 1
  | (a, w) :: ls' => (a + inner d w x) * affine_product d ls' x
  end.

(** C111, PolyKernel (gamma > 0, b > 0): the matrix is positive definite exactly if the points have no weights, other
    than zeros, with which every product of degree affine functions sums to zero over the points. *)
Theorem C111_poly_exact : forall cast degree gamma b n d X, 0 < gamma -> 0 < b ->
  (pos_def_on (fun x y => kernel_call cast (KPoly degree gamma b) DFloat x DFloat y) n d X <->
   forall c, (forall ls, length ls = degree -> rsum n (fun i => c i * affine_product d ls (X i)) = 0) ->
     forall i, (i < n)%nat -> c i = 0).
Proof. exact (@pf_C111_poly_exact). Qed.
Print Assumptions C111_poly_exact.

(** C111, LinearKernel: the matrix is positive definite exactly if the points are linearly independent. *)
Theorem C111_linear : forall cast n d X,
  (pos_def_on (fun x y => kernel_call cast KLinear DFloat x DFloat y) n d X <->
   forall c, (forall k, (k < d)%nat -> rsum n (fun i => c i * X i k) = 0) -> forall i, (i < n)%nat -> c i = 0).
Proof. exact (@pf_C111_linear). Qed.
Print Assumptions C111_linear.

(** Two independent points of the plane, and a dependent third. *)
Theorem C111_linear_example : forall cast, let X := fun i k => nth k (nth i [[1; 2]; [3; 4]; [4; 6]] []) 0 in
  pos_def_on (fun x y => kernel_call cast KLinear DFloat x DFloat y) 2 2 X /\
  ~ pos_def_on (fun x y => kernel_call cast KLinear DFloat x DFloat y) 3 2 X.
Proof. exact (@pf_C111_linear_example). Qed.
Print Assumptions C111_linear_example.
