(** Which polynomial kernel matrices are positive definite (C111), in exact arithmetic.
    Generated by tools/split_props.py from PolyDefProps.v: statements only, each closed by [exact]. *)
From Coq Require Import String List Arith ZArith Bool Reals Lra Lia Psatz.
Import ListNotations.
From Verif Require Import Prelude MatModel MatFacts UtilsModel XReal SpecLinAlg RSum PSDFacts OpsModel OpsFacts OpsProps KernelsModel
  SpecKernels KernelFacts KernelProps KMXModel IndexModel KMModel SpecKM SpecSample SampleXProps SpecKMX KMProps KMXProps
  PosDefProps DefiniteProps.
Local Open Scope R_scope.
From Verif Require Import PolyDefProps.
Local Open Scope R_scope.

(** C111, PolyKernel (gamma > 0, b > 0): on at most degree + 1 points the matrix is positive definite exactly if no
    two of the points are the same. *)
Theorem C111_poly : forall cast degree gamma b n d X, 0 < gamma -> 0 < b -> (n <= S degree)%nat ->
  (pos_def_on (fun x y => kernel_call cast (KPoly degree gamma b) DFloat x DFloat y) n d X <-> distinct n d X).
Proof. exact (@pf_C111_poly). Qed.
Print Assumptions C111_poly.

(** C111, PolyKernel: on more than (d + 1)^degree points it never is, d being the number of features. *)
Theorem C111_poly_many : forall cast degree gamma b n d X, 0 <= gamma -> 0 <= b -> (S d ^ degree < n)%nat ->
  ~ pos_def_on (fun x y => kernel_call cast (KPoly degree gamma b) DFloat x DFloat y) n d X.
Proof. exact (@pf_C111_poly_many). Qed.
Print Assumptions C111_poly_many.

(** C111, PolyKernel on numbers (one feature): positive definite exactly if there are at most degree + 1 of them, all
    different. *)
Theorem C111_poly_line : forall cast degree gamma b n X, 0 < gamma -> 0 < b ->
  (pos_def_on (fun x y => kernel_call cast (KPoly degree gamma b) DFloat x DFloat y) n 1 X
   <-> (n <= S degree)%nat /\ distinct n 1 X).
Proof. exact (@pf_C111_poly_line). Qed.
Print Assumptions C111_poly_line.

(** C111: the default PolyKernel(degree=3, gamma=1.0, b=1.0) on the points 0, 1, 2, ...: positive definite for four of
    them, not for five. *)
Theorem C111_poly_example : forall cast, let X := fun (i _ : nat) => INR i in
  distinct 4 1 X /\ distinct 5 1 X /\
  pos_def_on (fun x y => kernel_call cast (KPoly 3 1 1) DFloat x DFloat y) 4 1 X /\
  ~ pos_def_on (fun x y => kernel_call cast (KPoly 3 1 1) DFloat x DFloat y) 5 1 X.
Proof. exact (@pf_C111_poly_example). Qed.
Print Assumptions C111_poly_example.
