(** Rankings and similarities do not depend on the order of the samples (C118).
    Generated by tools/split_props.py from ShuffleProps.v: statements only, each closed by [exact]. *)
From Coq Require Import String Reals List Arith ZArith Bool Permutation Lia Lra Classical.
Import ListNotations.
From Verif Require Import Prelude MatModel UtilsModel IndexModel KMModel SpecKM XReal OpsModel SpecLinAlg
  KernelsModel SpecKernels KMXModel SpecKMX SetModel SpecSet BucketModel SpecBucket CompositeModel SpecComposite RankModel SpecRank.
From Verif Require Import MatFacts RSum OpsFacts OpsProps KMXProps ContProps SetProps CompositeProps RankProps OrderProps TakeOrderProps SubTableProps.
Local Open Scope list_scope.
Local Open Scope R_scope.
From Verif Require Import ShuffleProps.
Local Open Scope list_scope.
Local Open Scope R_scope.

(** [ix] is an order of 0, ..., n-1. *)
Definition order_of (n : nat) (ix : list nat) : Prop := Permutation ix (seq 0 n).
(** The matrix with the samples in this order, and the targets. *)
Definition shuffled (ix : list nat) (A : nat -> nat -> R) (i j : nat) : R := A (nth i ix 0%nat) (nth j ix 0%nat).
Definition shuffled_targets (ix : list nat) (y : list R) : list R := map (fun i => nth i y 0) ix.

(** Alignment rankings: if the matrices of a second set are those of a first one with the samples in another order,
    and the targets are in that order too, rank_kernels gives the same scores or the same exception. *)
Theorem C118_ranking :
  forall {U U' T T'} numbers numbers' best_score best_score' (w : world xr xr U) (w' : world xr xr U') k num ms Ks k' num' ms' Ks'
         (t : T) (t' : T') p m n y As ix,
    set_is w k num ms -> fulls w ms Ks -> set_is w' k' num' ms' -> fulls w' ms' Ks' ->
    lower m = "align/corr"%string -> align_params p -> rp_centered p <> Some true -> length y = n -> order_of n ix ->
    numbers t = Ok (map Fin y) -> finite_matrices n Ks As ->
    numbers' t' = Ok (map Fin (shuffled_targets ix y)) -> finite_matrices n Ks' (map (shuffled ix) As) ->
    snd (rank_kernels numbers' best_score' k' t' m p w') = snd (rank_kernels numbers best_score k t m p w).
Proof. exact (@pf_C118_ranking). Qed.
Print Assumptions C118_ranking.

(** Similarities: the tables of two such sets have the same entries, for both metrics. *)
Theorem C118_similarity :
  forall {U U'} co co' (w : world xr xr U) (w' : world xr xr U') k num ms Ks k' num' ms' Ks' n As ix metric,
    set_is w k num ms -> fulls w ms Ks -> set_is w' k' num' ms' -> fulls w' ms' Ks' -> order_of n ix ->
    metric_defined metric n Ks As -> metric_defined metric n Ks' (map (shuffled ix) As) ->
    exists P P', snd (pairwise_similarity co k metric w) = Ok P /\ snd (pairwise_similarity co' k' metric w') = Ok P' /\
      mr P' = mr P /\ mc P' = mc P /\ mr P = length ms /\ mc P = length ms /\
      forall i j, (i < length ms)%nat -> (j < length ms)%nat -> xget P' i j = xget P i j.
Proof. exact (@pf_C118_similarity). Qed.
Print Assumptions C118_similarity.

(** That the matrices are so related holds for the kernel matrices of a symmetric kernel on a sample and on the
    same points in another order. *)
Theorem C118_kernel :
  forall (kv : list xr -> list xr -> xr) n d x x' ix A, order_of n ix -> (forall u v, kv u v = kv v u) ->
    (forall i, (i < n)%nat -> row_of d x' i = row_of d x (nth i ix 0%nat)) ->
    kernel_matrix kv n n d x None = rmat n n A ->
    kernel_matrix kv n n d x' None = rmat n n (shuffled ix A).
Proof. exact (@pf_C118_kernel). Qed.
Print Assumptions C118_kernel.

(** Centring and cosine normalisation of the matrix in another order give the result in that order. *)
Theorem C118_operations :
  forall f n ix A, order_of n ix ->
    (f <> Lil -> exists B, center_km (mkArr f (rmat n n A)) = Ok (mkArr f (rmat n n B)) /\
       center_km (mkArr f (rmat n n (shuffled ix A))) = Ok (mkArr f (rmat n n (shuffled ix B)))) /\
    (forall meth, lower meth = "cosine"%string -> (forall i, (i < n)%nat -> tiny < A i i) ->
       exists g B, normalize_km meth (mkArr f (rmat n n A)) = Ok (mkArr g (rmat n n B)) /\
       normalize_km meth (mkArr f (rmat n n (shuffled ix A))) = Ok (mkArr g (rmat n n (shuffled ix B)))) /\
    (forall meth, normalize_km meth (mkArr f (rmat n n A)) = Raise KMNormError <->
       normalize_km meth (mkArr f (rmat n n (shuffled ix A))) = Raise KMNormError).
Proof. exact (@pf_C118_operations). Qed.
Print Assumptions C118_operations.

(** For a kernel that is not symmetric this is false. *)
Theorem C118_asymmetric_refuted :
  exists (kv : list xr -> list xr -> xr) n d x x' ix A, order_of n ix /\
    (forall i, (i < n)%nat -> row_of d x' i = row_of d x (nth i ix 0%nat)) /\
    kernel_matrix kv n n d x None = rmat n n A /\
    kernel_matrix kv n n d x' None <> rmat n n (shuffled ix A).
Proof. exact (@pf_C118_asymmetric_refuted). Qed.
Print Assumptions C118_asymmetric_refuted.

(** A case: the objects of [w_order] (Prop_Order.v) attached to [[2], [1]] instead of [[1], [2]]. *)
Definition w_back : world xr xr unit :=
  wrun xN xC numx
    [WNewKM lin false; WNewKM three false; WObj 0 (OpAttach (mkNd [2; 1]%nat [Fin 2; Fin 1]) None);
     WObj 1 (OpAttach (mkNd [2; 1]%nat [Fin 2; Fin 1]) None); WSetNew (KLIter [ARef 0; ARef 1]) None] w_empty.

Example C118_example :
  order_of 2 [1; 0]%nat /\ set_is w_order 0 (NSOne 2) [0; 1]%nat /\ set_is w_back 0 (NSOne 2) [0; 1]%nat /\
  exists K K' Q Q', fulls w_order [0; 1]%nat [K; K'] /\ fulls w_back [0; 1]%nat [Q; Q'] /\
    numbers_of K 0%nat 0%nat <> numbers_of Q 0%nat 0%nat /\
    let As := [numbers_of K; numbers_of K'] in
    finite_matrices 2 [K; K'] As /\ finite_matrices 2 [Q; Q'] (map (shuffled [1; 0]%nat) As) /\
    metric_defined "corr" 2 [K; K'] As /\ metric_defined "corr" 2 [Q; Q'] (map (shuffled [1; 0]%nat) As).
Proof.
  split; [apply perm_swap|]. split; [eexists; eexists; calc; reflexivity|]. split; [eexists; eexists; calc; reflexivity|].
  eexists. eexists. eexists. eexists. split; [|split; [|split]].
  - constructor; [calc; reflexivity|]. constructor; [calc; reflexivity|]. constructor.
  - constructor; [calc; reflexivity|]. constructor; [calc; reflexivity|]. constructor.
  - unfold numbers_of. calc. lra.
  - cbv zeta. split; [|split; [|split]].
    + constructor; [split; [discriminate|reflexivity]|]. constructor; [split; [discriminate|reflexivity]|constructor].
    + constructor; [split; [discriminate|]|]; [unfold numbers_of, shuffled; calc; repeat (match goal with |- Fin _ = Fin _ => apply f_equal; lra | |- _ => reflexivity | |- _ => f_equal end)|].
      constructor; [split; [discriminate|reflexivity]|constructor].
    + right. split; [reflexivity|]. split; [lia|]. constructor; [reflexivity|]. constructor; [reflexivity|constructor].
    + right. split; [reflexivity|]. split; [lia|]. constructor; [unfold numbers_of, shuffled; calc; repeat (match goal with |- Fin _ = Fin _ => apply f_equal; lra | |- _ => reflexivity | |- _ => f_equal end)|].
      constructor; [reflexivity|constructor].
Qed.
