(** Exactly which Hadamard kernel matrices are positive definite (C111), in exact arithmetic.
    Generated by tools/split_props.py from HadNullProps.v: statements only, each closed by [exact]. *)
From Coq Require Import String List Arith ZArith Bool Reals Lra Lia Psatz.
Import ListNotations.
From Verif Require Import Prelude MatModel MatFacts UtilsModel XReal SpecLinAlg RSum PSDFacts OpsModel OpsFacts OpsProps KernelsModel
  SpecKernels KernelFacts KernelProps PosDefProps DefiniteProps HadDefProps MatchDefProps.
Local Open Scope R_scope.
From Verif Require Import HadNullProps.
Local Open Scope R_scope.

(** The sum of the weights of the points whose feature k has absolute value v. *)
Definition abs_weight (n : nat) (X : nat -> nat -> R) (c : nat -> R) (k : nat) (v : R) : R :=
  rsum n (fun i => if Req_EM_T (Rabs (X i k)) v then c i else 0).

(** C111, HadamardKernel (alpha > 0): the matrix is positive definite exactly if the points have no weights, other than
    zeros, with which in every feature the weights of the points sharing a non-zero absolute value sum to zero. *)
Theorem C111_hadamard_exact : forall cast alpha n d X, 0 < alpha ->
  (pos_def_on (fun x y => kernel_call cast (KHadamard alpha) DFloat x DFloat y) n d X <->
   forall c, (forall k v, (k < d)%nat -> 0 < v -> abs_weight n X c k v = 0) -> forall i, (i < n)%nat -> c i = 0).
Proof. exact (@pf_C111_hadamard_exact). Qed.
Print Assumptions C111_hadamard_exact.

(** Three points with two features, no feature of which separates all: positive definite. *)
Theorem C111_hadamard_exact_example : forall cast,
  pos_def_on (fun x y => kernel_call cast (KHadamard 2) DFloat x DFloat y) 3 2
    (fun i k => nth k (nth i [[1; 1]; [-1; 2]; [2; 0]] []) 0).
Proof. exact (@pf_C111_hadamard_exact_example). Qed.
Print Assumptions C111_hadamard_exact_example.
