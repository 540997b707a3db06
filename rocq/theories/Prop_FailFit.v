(** What a failed fit of a composite kernel leaves behind: property C66.
    Generated by tools/split_props.py from FailFitProps.v: statements only, each closed by [exact]. *)
From Coq Require Import String Reals List Arith ZArith Bool Lia Lra.
Import ListNotations.
From Verif Require Import Prelude MatModel UtilsModel IndexModel KMModel SpecKM XReal OpsModel
  SpecLinAlg KernelsModel SpecKernels KMXModel SpecKMX SetModel SpecSet CompositeModel SpecComposite
  SpecFailFit.
From Verif Require Import MatFacts MFacts KMFacts KMInv KMHist KMHist2 KMProps RSum OpsFacts PSDFacts
  KMXProps SetFacts SetFacts2 SetProps ContProps FullFacts CompositeFacts CompositeProps.
From Verif Require Import FailFitProps.
Local Open Scope list_scope.
Local Open Scope nat_scope.

(** C66, when [fit] can fail inside its loop at all: in every state of the heap either all members of
    a set give their matrix (and C36 says what fit does), or there is a first one that raises. *)
Theorem C66_cases :
  forall {E U} (w : world E xr U) ms,
    (exists Ks, fulls w ms Ks) \/
    exists p l Ks e, nth_error ms p = Some l /\ fulls w (firstn p ms) Ks /\ snd (obj_full xN l w) = Raise e.
Proof. exact (@pf_C66_cases). Qed.
Print Assumptions C66_cases.

(** C66, SumKernel, exactly: after any program, if the members at positions below [p] give the n x n
    matrices [Ks] and the member at position [p] raises or does not fit, then fit() raises, and what
    composite_KM returned before is replaced by the sum of [Ks] alone. *)
Theorem C66_sum :
  forall {E U} C numeric k (w0 : world E xr U) c ops num ms n ms0 p l Ks e,
    comp_new NewSum (Some k) w0 = Ok c -> set_is w0 k (NSOne n) ms0 ->
    let s := crun C numeric ops (w0, c) in
    set_is (fst s) k num ms -> nth_error ms p = Some l ->
    fulls (fst s) (firstn p ms) Ks -> Forall (is_square n) Ks -> member_fails n (fst s) l e ->
    fit_fails C numeric None s e (is_matrix n (sum_entry (repeat 1%R p) Ks)).
Proof. exact (@pf_C66_sum). Qed.
Print Assumptions C66_sum.

(** C66, SumKernel with weights: the weighted sum of [Ks] with the first weights. *)
Theorem C66_sum_weights :
  forall {E U} C numeric k (w0 : world E xr U) c ops num ms n ms0 p l Ks e a ws,
    comp_new NewSum (Some k) w0 = Ok c -> set_is w0 k (NSOne n) ms0 ->
    let s := crun C numeric ops (w0, c) in
    set_is (fst s) k num ms -> nth_error ms p = Some l ->
    fulls (fst s) (firstn p ms) Ks -> Forall (is_square n) Ks -> member_fails n (fst s) l e ->
    is_vector a ws -> length ws = length ms ->
    fit_fails C numeric (Some a) s e (is_matrix n (sum_entry (firstn p ws) Ks)).
Proof. exact (@pf_C66_sum_weights). Qed.
Print Assumptions C66_sum_weights.

(** C66, WeightedAverageKernel: the same with the weights given to the constructor; the failing
    member must be one that has a weight, as [zip] never reaches the others. *)
Theorem C66_weighted :
  forall {E U} C numeric k (w0 : world E xr U) c ops num ms n ms0 p l Ks e a ws kw,
    comp_new (NewWeighted a) (Some k) w0 = Ok c -> set_is w0 k (NSOne n) ms0 -> is_vector a ws ->
    let s := crun C numeric ops (w0, c) in
    set_is (fst s) k num ms -> nth_error ms p = Some l -> p < length ws ->
    fulls (fst s) (firstn p ms) Ks -> Forall (is_square n) Ks -> member_fails n (fst s) l e ->
    fit_fails C numeric kw s e (is_matrix n (sum_entry (firstn p ws) Ks)).
Proof. exact (@pf_C66_weighted). Qed.
Print Assumptions C66_weighted.

(** C66, AverageKernel: what is left is the plain SUM of [Ks], not their mean, as the division comes
    after the loop. *)
Theorem C66_average :
  forall {E U} C numeric k (w0 : world E xr U) c ops num ms n ms0 p l Ks e kw,
    comp_new NewAverage (Some k) w0 = Ok c -> set_is w0 k (NSOne n) ms0 ->
    let s := crun C numeric ops (w0, c) in
    set_is (fst s) k num ms -> nth_error ms p = Some l ->
    fulls (fst s) (firstn p ms) Ks -> Forall (is_square n) Ks -> member_fails n (fst s) l e ->
    fit_fails C numeric kw s e (is_matrix n (sum_entry (repeat 1%R p) Ks)).
Proof. exact (@pf_C66_average). Qed.
Print Assumptions C66_average.

(** C66, ProductKernel over plain ndarrays: the entrywise product of [Ks]. *)
Theorem C66_product :
  forall {E U} C numeric k (w0 : world E xr U) c ops num ms n ms0 p l Ks e kw,
    comp_new NewProduct (Some k) w0 = Ok c -> set_is w0 k (NSOne n) ms0 ->
    let s := crun C numeric ops (w0, c) in
    set_is (fst s) k num ms -> nth_error ms p = Some l ->
    fulls (fst s) (firstn p ms) Ks -> Forall (is_square n) Ks -> Forall (fun K => afmt K = Dense) Ks ->
    member_fails n (fst s) l e ->
    fit_fails C numeric kw s e (is_matrix n (prod_entry Ks)).
Proof. exact (@pf_C66_product). Qed.
Print Assumptions C66_product.

(** The hypotheses are met: two linear members on the points 1 and 2 and an AverageKernel, fitted once;
    then the first member is attached to the points 3 and 4, and the second one to three points. The
    next fit raises ValueError, and the entry (1, 1) of composite_KM goes from 4 to 16. *)
Theorem C66_example :
  exists (w0 : world xr xr unit) c ops l Ks b,
    let s := crun xC numx ops (w0, c) in
    comp_new NewAverage (Some 0) w0 = Ok c /\ set_is w0 0 (NSOne 2) [0; 1] /\
    set_is (fst s) 0 (NSOne 2) [0; 1] /\ nth_error [0; 1] 1 = Some l /\
    fulls (fst s) (firstn 1 [0; 1]) Ks /\ Forall (is_square 2) Ks /\
    member_fails 2 (fst s) l ValueError /\
    snd (cstep xC numx CGet s) = Ok (CMat b) /\ xget (amat b) 1 1 = Fin 4 /\
    sum_entry (repeat 1%R 1) Ks 1 1 = Fin 16.
Proof. exact (@pf_C66_example). Qed.
Print Assumptions C66_example.
