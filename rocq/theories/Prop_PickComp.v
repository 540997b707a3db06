(** Composites over some of the samples, in any order (C118).
    Generated by tools/split_props.py from PickCompProps.v: statements only, each closed by [exact]. *)
From Coq Require Import String Reals List Arith ZArith Bool Permutation Lia Lra.
Import ListNotations.
From Verif Require Import Prelude MatModel UtilsModel IndexModel KMModel SpecKM XReal OpsModel
  SpecLinAlg KernelsModel SpecKernels KMXModel SpecKMX SetModel SpecSet CompositeModel SpecComposite.
From Verif Require Import MatFacts OpsFacts KMXProps ContProps SetProps CompositeFacts CompositeProps OrderProps.
Local Open Scope list_scope.
Local Open Scope nat_scope.
From Verif Require Import PickCompProps.
Local Open Scope list_scope.
Local Open Scope nat_scope.

(** [K'] is the matrix [K] at the samples [ix 0, ..., ix (n' - 1)]. *)
Definition at_samples (n' : nat) (ix : nat -> nat) (K K' : arr xr) : Prop :=
  forall i j, i < n' -> j < n' -> xget (amat K') i j = xget (amat K) (ix i) (ix j).
(** A class of composites over matrices [Ks] and the argument of [fit]: weights as many as members, or the default; for
    ProductKernel the matrices are plain ndarrays. *)
Definition proper (cls : cclass) (kw : option (ndarray xr)) (Ks : list (arr xr)) : Prop :=
  cls = NewSum /\ (kw = None \/ exists a ws, kw = Some a /\ is_vector a ws /\ length ws = length Ks) \/
  (exists a ws, cls = NewWeighted a /\ is_vector a ws) \/
  cls = NewAverage \/ cls = NewProduct /\ Forall (fun K => afmt K = Dense) Ks.

(** If the matrices of the members of one KernelSet are those of another at some of the samples, in any order and
    number, so is the composite, for every class of composites, until the next [fit]. *)
Theorem C118_composites :
  forall {E U E' U'} C (numeric : list E -> bool) (numeric' : list E' -> bool) cls n n' ix Ks Ks'
         (s : cstate (E:=E) (U:=U)) (s' : cstate (E:=E') (U:=U')) kw,
    composite_of C numeric cls n Ks s -> composite_of C numeric' cls n' Ks' s' ->
    Forall2 (at_samples n' ix) Ks Ks' -> proper cls kw Ks -> proper cls kw Ks' ->
    exists f, fits C numeric kw s (is_matrix n f) /\
      fits C numeric' kw s' (is_matrix n' (fun i j => f (ix i) (ix j))).
Proof. exact (@pf_C118_composites). Qed.
Print Assumptions C118_composites.

(** A case: the product over the objects of [w_order] (Prop_Order.v), attached to [[1], [2]], and over such objects
    attached to the second sample only. *)
Definition w_second : world xr xr unit :=
  wrun xN xC numx
    [WNewKM lin false; WNewKM three false; WObj 0 (OpAttach (mkNd [1; 1] [Fin 2]) None);
     WObj 1 (OpAttach (mkNd [1; 1] [Fin 2]) None); WSetNew (KLIter [ARef 0; ARef 1]) None] w_empty.

Example C118_composites_example :
  let c n := mkComp CProduct 0 (NSOne n) false None in
  exists K K' Q Q', composite_of xC numx NewProduct 2 [K; K'] (w_order, c 2) /\
    composite_of xC numx NewProduct 1 [Q; Q'] (w_second, c 1) /\
    Forall2 (at_samples 1 (fun _ => 1)) [K; K'] [Q; Q'] /\
    proper NewProduct None [K; K'] /\ proper NewProduct None [Q; Q'] /\
    xget (amat K) 0 0 <> xget (amat Q) 0 0.
Proof.
  cbv zeta. eexists. eexists. eexists. eexists. split; [|split; [|split; [|split; [|split]]]].
  - exists 0, w_order, (mkComp CProduct 0 (NSOne 2) false None), [], (NSOne 2), [0; 1], [0; 1].
    split; [reflexivity|]. split; [calc; reflexivity|]. split; [eexists; eexists; calc; reflexivity|].
    split; [eexists; eexists; calc; reflexivity|]. split.
    + constructor; [calc; reflexivity|]. constructor; [calc; reflexivity|]. constructor.
    + repeat constructor.
  - exists 0, w_second, (mkComp CProduct 0 (NSOne 1) false None), [], (NSOne 1), [0; 1], [0; 1].
    split; [reflexivity|]. split; [calc; reflexivity|]. split; [eexists; eexists; calc; reflexivity|].
    split; [eexists; eexists; calc; reflexivity|]. split.
    + constructor; [calc; reflexivity|]. constructor; [calc; reflexivity|]. constructor.
    + repeat constructor.
  - constructor; [|constructor; [|constructor]]; intros [|i] [|j] Hi Hj; (reflexivity || lia).
  - right. right. right. repeat constructor.
  - right. right. right. repeat constructor.
  - calc. intros H. injection H. lra.
Qed.
