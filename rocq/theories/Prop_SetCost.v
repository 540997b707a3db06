(** C102: exactly how many kernel evaluations the functions that work on a whole KernelSet cost.
    Generated by tools/split_props.py from SetCostProps.v: statements only, each closed by [exact]. *)
From Coq Require Import String Reals List Arith ZArith Bool Lia Lra.
Import ListNotations.
From Verif Require Import Prelude MatModel UtilsModel KMModel SpecKM XReal OpsModel KernelsModel
  KMXModel SetModel SpecSet BucketModel RankModel SpecRank CompositeModel SpecComposite LinCombModel SpecCost
  AlgoModel SpecAlgo SpecOpt SpecOptCost SpecSetCost.
From Verif Require Import MatFacts MFacts KMFacts KMInv KMHist KMHist2 KMProps OpsFacts SetFacts SetFacts2 SetProps
  CompositeFacts RankFacts RankProps KMXProps CombExact LinCombProps AlgoProps CostProps OptCostProps.
From Verif Require Import SetCostProps.
Local Open Scope list_scope.
Local Open Scope nat_scope.

(** C102: the functions that work on a whole KernelSet. A call of pairwise_similarity, linear_combination,
    rank_kernels or the [fit] of a composite that returns leaves each member, whatever it had been used for
    since it was attached, with exactly one kernel call for each pair of rows since then: n (n + 1) / 2 calls for
    one sample of n rows, n m for two; objects that are not members are not touched, nor are the sets. So the
    members can be used again by the next such function. *)
Theorem C102_set_functions :
  forall {U} (w w' : world xr xr U) k num ms, set_is w k num ms ->
    forall ok, consumes k ms w w' ok ->
    set_is w' k num ms /\
    (forall l, ~ In l ms -> nth_error (w_objs w') l = nth_error (w_objs w) l) /\
    forall l K v nrm x y n m d c, In l ms -> attached_since w K nrm x y c l ->
      never_raises K v x y n m d -> admissible x y n m d ->
      attached_since w' K nrm x y c l /\
      (ok = true -> calls_at w' l = c + row_pairs (is_some y) n m).
Proof. exact (@pf_C102_set_functions). Qed.
Print Assumptions C102_set_functions.

(** C102: whatever is called next on the set costs nothing, whether it returns or not. *)
Theorem C102_set_again :
  forall {U} (w w1 w2 : world xr xr U) k num ms ok, set_is w k num ms ->
    consumes k ms w w1 true -> consumes k ms w1 w2 ok ->
    forall l K v nrm x y n m d c, In l ms -> attached_since w K nrm x y c l ->
      never_raises K v x y n m d -> admissible x y n m d ->
      calls_at w2 l = calls_at w1 l.
Proof. exact (@pf_C102_set_again). Qed.
Print Assumptions C102_set_again.

(** Two kernel matrices in a set: LinearKernel on [[1], [2]], the diagonal of the first has been read. *)
Definition two_linear : world xr xr unit :=
  mkW [OKM (after xN (builtin KLinear) false [] x12 None [OpDiagonal]);
       OKM (after xN (builtin KLinear) false [] x12 None [])]
      [mkSet (NSOne 2) true [0; 1] None].
Definition sum_of_two : comp := mkComp CSum 0 (NSOne 2) false None.

(** C102_set_functions and C102_set_again apply: before, the first kernel has been called twice and the other
    never; the [fit] of a SumKernel brings both to 3 calls, where another one leaves them. *)
Theorem C102_set_example :
  let w1 := fst (fst (fit None (two_linear, sum_of_two))) in
  let w2 := fst (fst (fit None (w1, sum_of_two))) in
  map (calls_at two_linear) [0; 1] = [2; 0] /\ map (calls_at w1) [0; 1] = [3; 3] /\ map (calls_at w2) [0; 1] = [3; 3] /\
  set_is two_linear 0 (NSOne 2) [0; 1] /\ consumes 0 [0; 1] two_linear w1 true /\ consumes 0 [0; 1] w1 w2 true /\
  Forall (attached_since two_linear (builtin KLinear) false x12 None 0) [0; 1] /\
  never_raises (builtin KLinear) xdot x12 None 2 2 1 /\ admissible x12 None 2 2 1.
Proof. exact (@pf_C102_set_example). Qed.
Print Assumptions C102_set_example.
