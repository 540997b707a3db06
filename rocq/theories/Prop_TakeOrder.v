(** Composites over a KernelSet and over its members taken in another order (C115).
    Generated by tools/split_props.py from TakeOrderProps.v: statements only, each closed by [exact]. *)
From Coq Require Import String Reals List Arith ZArith Bool Permutation Lia Lra.
Import ListNotations.
From Verif Require Import Prelude MatModel UtilsModel IndexModel KMModel SpecKM XReal OpsModel
  SpecLinAlg KernelsModel SpecKernels KMXModel SpecKMX SetModel SpecSet CompositeModel SpecComposite.
From Verif Require Import MatFacts OpsFacts KMXProps ContProps SetProps CompositeFacts CompositeProps OrderProps.
Local Open Scope list_scope.
Local Open Scope nat_scope.
From Verif Require Import TakeOrderProps.
Local Open Scope list_scope.
Local Open Scope nat_scope.

(** End to end: take of all the members of a KernelSet in another order makes a set over which SumKernel,
    AverageKernel and, if the matrices are plain ndarrays, ProductKernel give the same matrix as over the first. *)
Theorem C115_take :
  forall {E U} C numeric (w : world E xr U) k n ms ix ls Ks,
    set_is w k (NSOne n) ms -> consistent_set w k -> 2 <= length ms ->
    fulls w ms Ks -> Forall (is_square n) Ks -> selected ms ix ls -> Permutation ms ls ->
    exists w' k', wstep xN C numeric (WTake k ix) w = (w', Ok (WSetRef k')) /\
      forall cls, (cls = NewSum \/ cls = NewAverage \/ cls = NewProduct /\ Forall (fun K => afmt K = Dense) Ks) ->
      exists c c', comp_new cls (Some k) w' = Ok c /\ comp_new cls (Some k') w' = Ok c' /\
        same_composite C numeric numeric n None (w', c) None (w', c').
Proof. exact (@pf_C115_take). Qed.
Print Assumptions C115_take.

(** A case: the members of the first set of [w_order] (Prop_Order.v) taken in the order 1, 0. *)
Example C115_take_example :
  set_is w_order 0 (NSOne 2) [0; 1] /\ consistent_set w_order 0 /\ selected [0; 1] [1; 0]%Z [1; 0] /\
  Permutation [0; 1] [1; 0] /\ exists K K', fulls w_order [0; 1] [K; K'] /\ Forall (is_square 2) [K; K'].
Proof.
  split; [eexists; eexists; calc; reflexivity|]. split; [|split; [|split]].
  - intros n ms (b & x & H) l Hl. revert H. calc. intros H. injection H as <- <- <- <-.
    destruct Hl as [<-|[<-|[]]]; eexists; (split; [calc; reflexivity|calc; reflexivity]).
  - repeat constructor; discriminate.
  - apply perm_swap.
  - eexists. eexists. split.
    + constructor; [calc; reflexivity|]. constructor; [calc; reflexivity|]. constructor.
    + repeat constructor.
Qed.
