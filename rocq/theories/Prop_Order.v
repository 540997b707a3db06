(** Composite kernels and the order of the members; equal composites (C115).
    Generated by tools/split_props.py from OrderProps.v: statements only, each closed by [exact]. *)
From Coq Require Import String Reals List Arith ZArith Bool Permutation Lia Lra.
Import ListNotations.
From Verif Require Import Prelude MatModel UtilsModel IndexModel KMModel SpecKM XReal OpsModel
  SpecLinAlg KernelsModel SpecKernels KMXModel SpecKMX SetModel SpecSet CompositeModel SpecComposite.
From Verif Require Import MatFacts OpsFacts KMXProps ContProps CompositeFacts CompositeProps.
Local Open Scope list_scope.
Local Open Scope nat_scope.
From Verif Require Import OrderProps.
Local Open Scope list_scope.
Local Open Scope nat_scope.

(** A program has made a composite of the class [cls] over a KernelSet of [n] samples and done anything
    since; the set has members whose [full] are now the n x n matrices [Ks]. *)
Definition composite_of {E U} (C : cmpops xr) (numeric : list E -> bool) (cls : cclass) (n : nat) (Ks : list (arr xr))
    (s : cstate (E:=E) (U:=U)) : Prop :=
  exists k w0 c ops num ms ms0,
    s = crun C numeric ops (w0, c) /\ comp_new cls (Some k) w0 = Ok c /\ set_is w0 k (NSOne n) ms0 /\
    set_is (fst s) k num ms /\ fulls (fst s) ms Ks /\ Forall (is_square n) Ks.

(** [fit] with these weights succeeds in both programs and composite_KM is the same matrix from then on, until
    the next [fit]. *)
Definition same_composite {E U E' U'} (C : cmpops xr) (numeric : list E -> bool) (numeric' : list E' -> bool) (n : nat)
    (kw : option (ndarray xr)) (s : cstate (E:=E) (U:=U)) (kw' : option (ndarray xr)) (s' : cstate (E:=E') (U:=U')) : Prop :=
  exists f, fits C numeric kw s (is_matrix n f) /\ fits C numeric' kw' s' (is_matrix n f).

(** SumKernel: exchanging members together with their weights changes nothing; any entries (also NaN and
    infinite), any storage formats, any two programs. *)
Theorem C115_sum : forall {E U E' U'} C (numeric : list E -> bool) (numeric' : list E' -> bool) n Ks Ks'
    (s : cstate (E:=E) (U:=U)) (s' : cstate (E:=E') (U:=U')) a ws a' ws',
  composite_of C numeric NewSum n Ks s -> composite_of C numeric' NewSum n Ks' s' ->
  is_vector a ws -> is_vector a' ws' -> length ws = length Ks -> length ws' = length Ks' ->
  Permutation (combine ws Ks) (combine ws' Ks') ->
  same_composite C numeric numeric' n (Some a) s (Some a') s'.
Proof. exact (@pf_C115_sum). Qed.
Print Assumptions C115_sum.

(** SumKernel without weights. *)
Theorem C115_sum_default : forall {E U E' U'} C (numeric : list E -> bool) (numeric' : list E' -> bool) n Ks Ks'
    (s : cstate (E:=E) (U:=U)) (s' : cstate (E:=E') (U:=U')),
  composite_of C numeric NewSum n Ks s -> composite_of C numeric' NewSum n Ks' s' -> Permutation Ks Ks' ->
  same_composite C numeric numeric' n None s None s'.
Proof. exact (@pf_C115_sum_default). Qed.
Print Assumptions C115_sum_default.

(** WeightedAverageKernel. *)
Theorem C115_weighted : forall {E U E' U'} C (numeric : list E -> bool) (numeric' : list E' -> bool) n Ks Ks'
    (s : cstate (E:=E) (U:=U)) (s' : cstate (E:=E') (U:=U')) a ws a' ws' kw kw',
  composite_of C numeric (NewWeighted a) n Ks s -> composite_of C numeric' (NewWeighted a') n Ks' s' ->
  is_vector a ws -> is_vector a' ws' -> Permutation (combine ws Ks) (combine ws' Ks') ->
  same_composite C numeric numeric' n kw s kw' s'.
Proof. exact (@pf_C115_weighted). Qed.
Print Assumptions C115_weighted.

(** AverageKernel. *)
Theorem C115_average : forall {E U E' U'} C (numeric : list E -> bool) (numeric' : list E' -> bool) n Ks Ks'
    (s : cstate (E:=E) (U:=U)) (s' : cstate (E:=E') (U:=U')) kw kw',
  composite_of C numeric NewAverage n Ks s -> composite_of C numeric' NewAverage n Ks' s' -> Permutation Ks Ks' ->
  same_composite C numeric numeric' n kw s kw' s'.
Proof. exact (@pf_C115_average). Qed.
Print Assumptions C115_average.

(** ProductKernel, if the matrices are plain ndarrays (otherwise it is a matrix product, C36). *)
Theorem C115_product : forall {E U E' U'} C (numeric : list E -> bool) (numeric' : list E' -> bool) n Ks Ks'
    (s : cstate (E:=E) (U:=U)) (s' : cstate (E:=E') (U:=U')) kw kw',
  composite_of C numeric NewProduct n Ks s -> composite_of C numeric' NewProduct n Ks' s' ->
  Forall (fun K => afmt K = Dense) Ks -> Permutation Ks Ks' ->
  same_composite C numeric numeric' n kw s kw' s'.
Proof. exact (@pf_C115_product). Qed.
Print Assumptions C115_product.

(** WeightedAverageKernel is SumKernel with the same weights. *)
Theorem C115_weighted_is_sum : forall {E U E' U'} C (numeric : list E -> bool) (numeric' : list E' -> bool) n Ks
    (s : cstate (E:=E) (U:=U)) (s' : cstate (E:=E') (U:=U')) a ws a' kw,
  composite_of C numeric (NewWeighted a) n Ks s -> composite_of C numeric' NewSum n Ks s' ->
  is_vector a ws -> is_vector a' ws -> length ws = length Ks ->
  same_composite C numeric numeric' n kw s (Some a') s'.
Proof. exact (@pf_C115_weighted_is_sum). Qed.
Print Assumptions C115_weighted_is_sum.

(** AverageKernel is SumKernel, and WeightedAverageKernel, with every weight one over the number of members. *)
Theorem C115_average_is_sum : forall {E U E' U'} C (numeric : list E -> bool) (numeric' : list E' -> bool) n Ks
    (s : cstate (E:=E) (U:=U)) (s' : cstate (E:=E') (U:=U')) a kw cls kw', Ks <> [] ->
  composite_of C numeric NewAverage n Ks s -> composite_of C numeric' cls n Ks s' ->
  is_vector a (repeat (1 / INR (length Ks))%R (length Ks)) ->
  (cls = NewSum /\ kw' = Some a \/ cls = NewWeighted a) ->
  same_composite C numeric numeric' n kw s kw' s'.
Proof. exact (@pf_C115_average_is_sum). Qed.
Print Assumptions C115_average_is_sum.

(** Two KernelMatrix objects attached to [[1], [2]], one with the linear kernel and one with a kernel that is
    always 3, and two KernelSets of them in different orders. *)
Definition three : kernel xr xr := mkKernel (fun _ _ _ => Ok (Fin 3)) true.
Definition w_order : world xr xr unit :=
  wrun xN xC numx
    [WNewKM lin false; WNewKM three false; WObj 0 (OpAttach x12 None); WObj 1 (OpAttach x12 None);
     WSetNew (KLIter [ARef 0; ARef 1]) None; WSetNew (KLIter [ARef 1; ARef 0]) None] w_empty.

(** The hypotheses of C115_product hold for the products over the two sets, and the matrices differ. *)
Example C115_example :
  let c k := mkComp CProduct k (NSOne 2) false None in
  exists K K', composite_of xC numx NewProduct 2 [K; K'] (w_order, c 0) /\
    composite_of xC numx NewProduct 2 [K'; K] (w_order, c 1) /\
    Forall (fun K => afmt K = Dense) [K; K'] /\ xget (amat K) 0 0 <> xget (amat K') 0 0.
Proof.
  cbv zeta. eexists. eexists. split; [|split; [|split]].
  - exists 0, w_order, (mkComp CProduct 0 (NSOne 2) false None), [], (NSOne 2), [0; 1], [0; 1].
    split; [reflexivity|]. split; [calc; reflexivity|]. split; [eexists; eexists; calc; reflexivity|].
    split; [eexists; eexists; calc; reflexivity|]. split.
    + constructor; [calc; reflexivity|]. constructor; [calc; reflexivity|]. constructor.
    + repeat constructor.
  - exists 1, w_order, (mkComp CProduct 1 (NSOne 2) false None), [], (NSOne 2), [1; 0], [1; 0].
    split; [reflexivity|]. split; [calc; reflexivity|]. split; [eexists; eexists; calc; reflexivity|].
    split; [eexists; eexists; calc; reflexivity|]. split.
    + constructor; [calc; reflexivity|]. constructor; [calc; reflexivity|]. constructor.
    + repeat constructor.
  - repeat constructor.
  - calc. intros H. injection H. lra.
Qed.

(** ProductKernel does depend on the order if a member is held sparse. *)
Theorem C115_product_refuted :
  exists (s s' : cstate (E:=xr) (U:=unit)) n Ks Ks' b b' i j,
    composite_of xC numx NewProduct n Ks s /\ composite_of xC numx NewProduct n Ks' s' /\ Permutation Ks Ks' /\
    snd (cstep xC numx (CFit None) s) = Ok CUnit /\ snd (cstep xC numx (CFit None) s') = Ok CUnit /\
    snd (cstep xC numx CGet (fst (cstep xC numx (CFit None) s))) = Ok (CMat b) /\
    snd (cstep xC numx CGet (fst (cstep xC numx (CFit None) s'))) = Ok (CMat b') /\
    i < n /\ j < n /\ xget (amat b) i j <> xget (amat b') i j.
Proof. exact (@pf_C115_product_refuted). Qed.
Print Assumptions C115_product_refuted.
