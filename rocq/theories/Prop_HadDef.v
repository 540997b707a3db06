(** Which Hadamard kernel matrices are positive definite (C111), in exact arithmetic.
    Generated by tools/split_props.py from HadDefProps.v: statements only, each closed by [exact]. *)
From Coq Require Import String List Arith ZArith Bool Reals Lra Lia Psatz.
Import ListNotations.
From Verif Require Import Prelude MatModel MatFacts UtilsModel XReal SpecLinAlg RSum PSDFacts OpsModel OpsFacts OpsProps KernelsModel
  SpecKernels KernelFacts KernelProps KMXModel IndexModel KMModel SpecKM SpecSample SampleXProps SpecKMX KMProps KMXProps
  PosDefProps DefiniteProps.
Local Open Scope R_scope.
From Verif Require Import HadDefProps.
Local Open Scope R_scope.

(** C111, HadamardKernel (alpha > 0): if, in one of the features, no value is zero and no two have the same absolute
    value, the matrix is positive definite. *)
Theorem C111_hadamard : forall cast alpha n d X k, 0 < alpha -> (k < d)%nat ->
  (forall i, (i < n)%nat -> X i k <> 0) ->
  (forall i j, (i < n)%nat -> (j < n)%nat -> i <> j -> Rabs (X i k) <> Rabs (X j k)) ->
  pos_def_on (fun x y => kernel_call cast (KHadamard alpha) DFloat x DFloat y) n d X.
Proof. exact (@pf_C111_hadamard). Qed.
Print Assumptions C111_hadamard.

(** C111, HadamardKernel: a positive definite matrix requires that no point is zero and that no two points agree in the
    absolute values of all features. *)
Theorem C111_hadamard_only : forall cast alpha n d X, 0 < alpha ->
  pos_def_on (fun x y => kernel_call cast (KHadamard alpha) DFloat x DFloat y) n d X ->
  (forall i, (i < n)%nat -> exists k, (k < d)%nat /\ X i k <> 0) /\ distinct n d (fun i k => Rabs (X i k)).
Proof. exact (@pf_C111_hadamard_only). Qed.
Print Assumptions C111_hadamard_only.

(** C111, HadamardKernel on numbers (one feature): positive definite exactly if none is zero and no two have the same
    absolute value. *)
Theorem C111_hadamard_line : forall cast alpha n X, 0 < alpha ->
  (pos_def_on (fun x y => kernel_call cast (KHadamard alpha) DFloat x DFloat y) n 1 X
   <-> (forall i, (i < n)%nat -> X i 0%nat <> 0) /\
       (forall i j, (i < n)%nat -> (j < n)%nat -> i <> j -> Rabs (X i 0%nat) <> Rabs (X j 0%nat))).
Proof. exact (@pf_C111_hadamard_line). Qed.
Print Assumptions C111_hadamard_line.

(** C111: distinct points are not enough for HadamardKernel: on 1 and -1 its matrix is not positive definite; on 1 and
    -2 it is. *)
Theorem C111_hadamard_refuted : forall cast,
  exists X, distinct 2 1 X /\
    ~ pos_def_on (fun x y => kernel_call cast (KHadamard 3) DFloat x DFloat y) 2 1 X /\
    pos_def_on (fun x y => kernel_call cast (KHadamard 3) DFloat x DFloat y) 2 1 (fun i _ => match i with O => 1 | _ => -2 end).
Proof. exact (@pf_C111_hadamard_refuted). Qed.
Print Assumptions C111_hadamard_refuted.
