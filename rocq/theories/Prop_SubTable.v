(** The table of similarities of a selection of the members of a KernelSet (C117).
    Generated by tools/split_props.py from SubTableProps.v: statements only, each closed by [exact]. *)
From Coq Require Import String Reals List Arith ZArith Bool Permutation Lia Lra Classical.
Import ListNotations.
From Verif Require Import Prelude MatModel UtilsModel IndexModel KMModel SpecKM XReal OpsModel SpecLinAlg
  KernelsModel SpecKernels KMXModel SpecKMX SetModel SpecSet BucketModel SpecBucket CompositeModel SpecComposite RankModel SpecRank.
From Verif Require Import MatFacts RSum OpsFacts KMXProps ContProps SetProps CompositeProps RankProps OrderProps TakeOrderProps.
Local Open Scope list_scope.
Local Open Scope nat_scope.
From Verif Require Import SubTableProps.
Local Open Scope list_scope.
Local Open Scope nat_scope.

(** What the metric needs to be defined on the matrices [Ks], whose entries are the [As]: square matrices of
    numbers in any storage format but lil for 'align'; plain ndarrays of size 2 or more for 'corr'. *)
Definition metric_defined (metric : string) (n : nat) (Ks : list (arr xr)) (As : list (nat -> nat -> R)) : Prop :=
  metric = "align"%string /\ finite_matrices n Ks As \/
  metric = "corr"%string /\ 2 <= n /\ Forall2 (fun K A => K = mkArr Dense (rmat n n A)) Ks As.

(** If the members of a second KernelSet are members of a first one, in any order and number, then entry (i, j) of
    its table of similarities is the entry of the first table at the positions of these two members. *)
Theorem C117_selection :
  forall {U} co (w : world xr xr U) k num ms Ks n As k' num' ls ix metric,
    set_is w k num ms -> fulls w ms Ks -> metric_defined metric n Ks As ->
    set_is w k' num' ls -> selected ms ix ls ->
    exists P P', snd (pairwise_similarity co k metric w) = Ok P /\ snd (pairwise_similarity co k' metric w) = Ok P' /\
      mr P' = length ls /\ mc P' = length ls /\
      forall i j, i < length ls -> j < length ls ->
        xget P' i j = xget P (Z.to_nat (nth i ix 0%Z)) (Z.to_nat (nth j ix 0%Z)).
Proof. exact (@pf_C117_selection). Qed.
Print Assumptions C117_selection.

(** End to end: [take] of members by their positions, and the tables of the set and of what [take] returned. *)
Theorem C117_take :
  forall {U} C numeric co (w : world xr xr U) k num ms Ks n As ix ls metric,
    set_is w k num ms -> consistent_set w k -> fulls w ms Ks -> metric_defined metric n Ks As -> selected ms ix ls ->
    exists w' k' P P', wstep xN C numeric (WTake k ix) w = (w', Ok (WSetRef k')) /\
      snd (pairwise_similarity co k metric w') = Ok P /\ snd (pairwise_similarity co k' metric w') = Ok P' /\
      mr P' = length ix /\ mc P' = length ix /\
      forall i j, i < length ix -> j < length ix ->
        xget P' i j = xget P (Z.to_nat (nth i ix 0%Z)) (Z.to_nat (nth j ix 0%Z)).
Proof. exact (@pf_C117_take). Qed.
Print Assumptions C117_take.

(** The number an entry is. *)
Definition numbers_of (K : arr xr) : nat -> nat -> R := fun i j => match xget (amat K) i j with Fin r => r | _ => 0%R end.

(** A case: the members 1, 0 and 1 again of the first set of [w_order] (Prop_Order.v), and both metrics. *)
Example C117_example :
  set_is w_order 0 (NSOne 2) [0; 1] /\ consistent_set w_order 0 /\ selected [0; 1] [1; 0; 1]%Z [1; 0; 1] /\
  exists K K', fulls w_order [0; 1] [K; K'] /\ numbers_of K 0 0 <> numbers_of K 1 1 /\
    metric_defined "align" 2 [K; K'] [numbers_of K; numbers_of K'] /\
    metric_defined "corr" 2 [K; K'] [numbers_of K; numbers_of K'].
Proof.
  destruct C115_take_example as (S & C & _). split; [exact S|]. split; [exact C|].
  split; [repeat constructor; discriminate|]. eexists. eexists. split; [|split; [|split]].
  - constructor; [calc; reflexivity|]. constructor; [calc; reflexivity|]. constructor.
  - unfold numbers_of. calc. lra.
  - left. split; [reflexivity|]. constructor; [split; [discriminate|reflexivity]|]. constructor; [split; [discriminate|reflexivity]|constructor].
  - right. split; [reflexivity|]. split; [lia|]. constructor; [reflexivity|]. constructor; [reflexivity|constructor].
Qed.
