(** Composites over a KernelSet and over its members taken in another order (C115). *)
From Coq Require Import String Reals List Arith ZArith Bool Permutation Lia Lra.
Import ListNotations.
From Verif Require Import Prelude MatModel UtilsModel IndexModel KMModel SpecKM XReal OpsModel
  SpecLinAlg KernelsModel SpecKernels KMXModel SpecKMX SetModel SpecSet CompositeModel SpecComposite.
From Verif Require Import MatFacts OpsFacts KMXProps ContProps SetProps CompositeFacts CompositeProps OrderProps.
Local Open Scope list_scope.
Local Open Scope nat_scope.

Lemma obj_full_objs : forall {E U} (w w' : world E xr U) l, w_objs w' = w_objs w ->
  snd (obj_full xN l w') = snd (obj_full xN l w).
Proof.
  intros E U w w' l H. rewrite !obj_full_eq, H. destruct (nth_error (w_objs w) l) as [[s|A]|]; try reflexivity.
Qed.

Lemma fulls_objs : forall {E U} (w w' : world E xr U) ms Ks, w_objs w' = w_objs w -> fulls w ms Ks -> fulls w' ms Ks.
Proof.
  intros E U w w' ms Ks H F. unfold fulls in *. induction F as [|l K ms Ks HK F IH]; constructor; [|exact IH].
  rewrite (obj_full_objs w w' l H). exact HK.
Qed.

(** End to end: take of all the members of a KernelSet in another order makes a set over which SumKernel,
    AverageKernel and, if the matrices are plain ndarrays, ProductKernel give the same matrix as over the first. *)
Lemma pf_C115_take :
  forall {E U} C numeric (w : world E xr U) k n ms ix ls Ks,
    set_is w k (NSOne n) ms -> consistent_set w k -> 2 <= length ms ->
    fulls w ms Ks -> Forall (is_square n) Ks -> selected ms ix ls -> Permutation ms ls ->
    exists w' k', wstep xN C numeric (WTake k ix) w = (w', Ok (WSetRef k')) /\
      forall cls, (cls = NewSum \/ cls = NewAverage \/ cls = NewProduct /\ Forall (fun K => afmt K = Dense) Ks) ->
      exists c c', comp_new cls (Some k) w' = Ok c /\ comp_new cls (Some k') w' = Ok c' /\
        same_composite C numeric numeric n None (w', c) None (w', c').
Proof.
  intros E U C numeric w k n ms ix ls Ks Hs Hc H2 Hf Hq Hsel P.
  destruct (pf_C41_take xN C numeric w k (NSOne n) ms ix ls Hs Hc Hsel) as (w' & k' & T & _ & Hs' & Ho & Hk).
  exists w', k'. split; [exact T|]. intros cls Hcls.
  pose proof (Permutation_length P) as L.
  assert (S' : set_is w' k' (NSOne n) ls) by (destruct ls; [cbn in L; lia|exact Hs']).
  assert (S : set_is w' k (NSOne n) ms) by (destruct Hs as (b & x & Hs); exists b, x; apply Hk, Hs).
  destruct (Permutation_Forall2 P Hf) as (Ks' & PK & Hf').
  assert (F : fulls w' ms Ks) by exact (fulls_objs w w' _ _ Ho Hf).
  assert (F' : fulls w' ls Ks') by exact (fulls_objs w w' _ _ Ho Hf').
  assert (Q' : Forall (is_square n) Ks').
  { rewrite Forall_forall in *. intros K HK. apply Hq. exact (Permutation_in _ (Permutation_sym PK) HK). }
  assert (NW : forall a, cls = NewWeighted a -> False) by (intros a ->; destruct Hcls as [H|[H|[H _]]]; discriminate).
  assert (N1 : exists c, comp_new cls (Some k) w' = Ok c).
  { apply (proj1 (pf_C36_constructor cls k w' _ ms S (fun a Ha => False_ind _ (NW a Ha)))).
    split; [exact H2|]. split; [discriminate|]. intros a ws Ha. destruct (NW a Ha). }
  assert (N2 : exists c, comp_new cls (Some k') w' = Ok c).
  { apply (proj1 (pf_C36_constructor cls k' w' _ ls S' (fun a Ha => False_ind _ (NW a Ha)))).
    split; [rewrite <- L; exact H2|]. split; [discriminate|]. intros a ws Ha. destruct (NW a Ha). }
  destruct N1 as [c N1], N2 as [c' N2]. exists c, c'. split; [exact N1|]. split; [exact N2|].
  assert (O1 : composite_of C numeric cls n Ks (w', c)) by (exists k, w', c, [], (NSOne n), ms, ms; repeat split; assumption).
  assert (O2 : composite_of C numeric cls n Ks' (w', c')) by (exists k', w', c', [], (NSOne n), ls, ls; repeat split; assumption).
  destruct Hcls as [->|[->|[-> D]]].
  - exact (pf_C115_sum_default _ _ _ _ _ _ _ _ O1 O2 PK).
  - exact (pf_C115_average _ _ _ _ _ _ _ _ _ _ O1 O2 PK).
  - exact (pf_C115_product _ _ _ _ _ _ _ _ _ _ O1 O2 D PK).
Qed.

(*BEGIN PROP*)
(** A case: the members of the first set of [w_order] (Prop_Order.v) taken in the order 1, 0. *)
Example C115_take_example :
  set_is w_order 0 (NSOne 2) [0; 1] /\ consistent_set w_order 0 /\ selected [0; 1] [1; 0]%Z [1; 0] /\
  Permutation [0; 1] [1; 0] /\ exists K K', fulls w_order [0; 1] [K; K'] /\ Forall (is_square 2) [K; K'].
Proof.
  split; [eexists; eexists; calc; reflexivity|]. split; [|split; [|split]].
  - intros n ms (b & x & H) l Hl. revert H. calc. intros H. injection H as <- <- <- <-.
    destruct Hl as [<-|[<-|[]]]; eexists; (split; [calc; reflexivity|calc; reflexivity]).
  - repeat constructor; discriminate.
  - apply perm_swap.
  - eexists. eexists. split.
    + constructor; [calc; reflexivity|]. constructor; [calc; reflexivity|]. constructor.
    + repeat constructor.
Qed.
(*END PROP*)
