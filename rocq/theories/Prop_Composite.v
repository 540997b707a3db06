(** Composite kernels: properties C36 - C38, C66 and C67.
    Generated by tools/split_props.py from CompositeProps.v: statements only, each closed by [exact]. *)
From Coq Require Import String Reals List Arith ZArith Bool Lia Lra.
Import ListNotations.
From Verif Require Import Prelude MatModel UtilsModel IndexModel KMModel SpecKM XReal OpsModel
  SpecLinAlg KernelsModel SpecKernels KMXModel SpecKMX SetModel SpecSet CompositeModel SpecComposite.
From Verif Require Import MatFacts MFacts KMFacts KMInv KMHist KMHist2 KMProps RSum OpsFacts PSDFacts
  KMXProps SetFacts SetFacts2 SetProps ContProps FullFacts CompositeFacts.
From Verif Require Import CompositeProps.
Local Open Scope list_scope.
Local Open Scope nat_scope.

(** C36, SumKernel: after any program (on the members, on the set, on the composite), if the set has
    the members [ms] and their [full] are the n x n matrices [Ks], then fit() makes composite_KM the
    sum of all of [Ks]; any number of members, any entries (also NaN and infinite), any formats. *)
Theorem C36_sum_default :
  forall {E U} C numeric k (w0 : world E xr U) c ops num ms n ms0 Ks,
    comp_new NewSum (Some k) w0 = Ok c -> set_is w0 k (NSOne n) ms0 ->
    set_is (fst (crun C numeric ops (w0, c))) k num ms ->
    fulls (fst (crun C numeric ops (w0, c))) ms Ks -> Forall (is_square n) Ks ->
    fits C numeric None (crun C numeric ops (w0, c))
      (is_matrix n (sum_entry (repeat 1%R (length ms)) Ks)).
Proof. exact (@pf_C36_sum_default). Qed.
Print Assumptions C36_sum_default.

(** C36, SumKernel with weights. *)
Theorem C36_sum_weights :
  forall {E U} C numeric k (w0 : world E xr U) c ops num ms n ms0 Ks a ws,
    comp_new NewSum (Some k) w0 = Ok c -> set_is w0 k (NSOne n) ms0 ->
    set_is (fst (crun C numeric ops (w0, c))) k num ms ->
    fulls (fst (crun C numeric ops (w0, c))) ms Ks -> Forall (is_square n) Ks ->
    is_vector a ws -> length ws = length ms ->
    fits C numeric (Some a) (crun C numeric ops (w0, c)) (is_matrix n (sum_entry ws Ks)).
Proof. exact (@pf_C36_sum_weights). Qed.
Print Assumptions C36_sum_weights.

(** C36, SumKernel with the wrong number of weights: fit raises ValueError, nothing changes. *)
Theorem C36_sum_wrong_weights :
  forall {E U} C numeric k (w0 : world E xr U) c ops num ms a ws,
    comp_new NewSum (Some k) w0 = Ok c ->
    set_is (fst (crun C numeric ops (w0, c))) k num ms ->
    is_vector a ws -> length ws <> length ms ->
    cstep C numeric (CFit (Some a)) (crun C numeric ops (w0, c))
    = (crun C numeric ops (w0, c), Raise ValueError).
Proof. exact (@pf_C36_sum_wrong_weights). Qed.
Print Assumptions C36_sum_wrong_weights.

(** C36, ProductKernel, provided the matrices of the members are plain ndarrays. *)
Theorem C36_product_partial :
  forall {E U} C numeric k (w0 : world E xr U) c ops num ms n ms0 Ks kw,
    comp_new NewProduct (Some k) w0 = Ok c -> set_is w0 k (NSOne n) ms0 ->
    set_is (fst (crun C numeric ops (w0, c))) k num ms ->
    fulls (fst (crun C numeric ops (w0, c))) ms Ks -> Forall (is_square n) Ks ->
    Forall (fun K => afmt K = Dense) Ks ->
    fits C numeric kw (crun C numeric ops (w0, c)) (is_matrix n (prod_entry Ks)).
Proof. exact (@pf_C36_product_partial). Qed.
Print Assumptions C36_product_partial.

(** C36, AverageKernel. *)
Theorem C36_average :
  forall {E U} C numeric k (w0 : world E xr U) c ops num ms n ms0 Ks kw,
    comp_new NewAverage (Some k) w0 = Ok c -> set_is w0 k (NSOne n) ms0 ->
    set_is (fst (crun C numeric ops (w0, c))) k num ms ->
    fulls (fst (crun C numeric ops (w0, c))) ms Ks -> Forall (is_square n) Ks ->
    fits C numeric kw (crun C numeric ops (w0, c)) (is_matrix n (mean_entry Ks)).
Proof. exact (@pf_C36_average). Qed.
Print Assumptions C36_average.

(** C36, WeightedAverageKernel: the weighted SUM of the members, without division by the total, and
    of the members the set had at construction only ([combine] stops with the shorter list). *)
Theorem C36_weighted_sum :
  forall {E U} C numeric k (w0 : world E xr U) c ops num ms n ms0 Ks kw a ws,
    comp_new (NewWeighted a) (Some k) w0 = Ok c -> is_vector a ws -> set_is w0 k (NSOne n) ms0 ->
    set_is (fst (crun C numeric ops (w0, c))) k num ms ->
    fulls (fst (crun C numeric ops (w0, c))) ms Ks -> Forall (is_square n) Ks ->
    fits C numeric kw (crun C numeric ops (w0, c)) (is_matrix n (sum_entry ws Ks)).
Proof. exact (@pf_C36_weighted_sum). Qed.
Print Assumptions C36_weighted_sum.

(** C36, WeightedAverageKernel: it is the weighted mean if the weights add up to 1. *)
Theorem C36_weighted_partial :
  forall {E U} C numeric k (w0 : world E xr U) c ops num ms n ms0 Ks kw a ws,
    comp_new (NewWeighted a) (Some k) w0 = Ok c -> is_vector a ws -> total ws = 1%R ->
    set_is w0 k (NSOne n) ms0 ->
    set_is (fst (crun C numeric ops (w0, c))) k num ms ->
    fulls (fst (crun C numeric ops (w0, c))) ms Ks -> Forall (is_square n) Ks ->
    fits C numeric kw (crun C numeric ops (w0, c)) (is_matrix n (weighted_mean_entry ws Ks)).
Proof. exact (@pf_C36_weighted_partial). Qed.
Print Assumptions C36_weighted_partial.

(** C36: composite_KM raises ValueError as long as no [fit] has returned. *)
Theorem C36_unfitted :
  forall {E U} C numeric cls k (w0 : world E xr U) c ops,
    comp_new cls (Some k) w0 = Ok c -> no_fit_returned C numeric ops (w0, c) ->
    snd (cstep C numeric CGet (crun C numeric ops (w0, c))) = Raise ValueError.
Proof. exact (@pf_C36_unfitted). Qed.
Print Assumptions C36_unfitted.

(** C36: a composite is built exactly from a KernelSet that has two members or more and a
    num_samples, and, for WeightedAverageKernel, one weight per member. *)
Theorem C36_constructor :
  forall {E U} cls k (w : world E xr U) num ms, set_is w k num ms ->
    (forall a, cls = NewWeighted a -> exists ws, is_vector a ws) ->
    ((exists c, comp_new cls (Some k) w = Ok c) <->
     (2 <= length ms /\ num <> NSNone /\
      forall a ws, cls = NewWeighted a -> is_vector a ws -> length ws = length ms)) /\
    (forall e, comp_new cls (Some k) w = Raise e -> e = ValueError).
Proof. exact (@pf_C36_constructor). Qed.
Print Assumptions C36_constructor.

(** C36: an argument that is not a KernelSet is refused with TypeError. *)
Theorem C36_not_a_set :
  forall {E U} cls (w : world E xr U), comp_new cls None w = Raise TypeError.
Proof. exact (@pf_C36_not_a_set). Qed.
Print Assumptions C36_not_a_set.

(** C36 does not extend to sets of two-sample matrices: the composite can be built, but every [fit]
    raises (TypeError unless the weights are refused first), so there never is a composite_KM. *)
Theorem C36_two_samples_fit_raises :
  forall {E U} C numeric cls k (w0 : world E xr U) c ops n m ms0,
    comp_new cls (Some k) w0 = Ok c -> set_is w0 k (NSTwo n m) ms0 ->
    (forall kw, exists e, snd (cstep C numeric (CFit kw) (crun C numeric ops (w0, c))) = Raise e) /\
    snd (cstep C numeric CGet (crun C numeric ops (w0, c))) = Raise ValueError.
Proof. exact (@pf_C36_two_samples_fit_raises). Qed.
Print Assumptions C36_two_samples_fit_raises.

(** C37, SumKernel with non-negative weights. *)
Theorem C37_sum :
  forall {E U} C numeric k (w0 : world E xr U) c ops num ms n ms0 Ks a ws,
    comp_new NewSum (Some k) w0 = Ok c -> set_is w0 k (NSOne n) ms0 ->
    set_is (fst (crun C numeric ops (w0, c))) k num ms ->
    fulls (fst (crun C numeric ops (w0, c))) ms Ks -> Forall (psd_array n) Ks ->
    is_vector a ws -> length ws = length ms -> Forall (fun r => (0 <= r)%R) ws ->
    fits C numeric (Some a) (crun C numeric ops (w0, c)) (psd_array n) /\
    fits C numeric None (crun C numeric ops (w0, c)) (psd_array n).
Proof. exact (@pf_C37_sum). Qed.
Print Assumptions C37_sum.

(** C37, ProductKernel of plain ndarrays (Schur product theorem). *)
Theorem C37_product_partial :
  forall {E U} C numeric k (w0 : world E xr U) c ops num ms n ms0 Ks kw,
    comp_new NewProduct (Some k) w0 = Ok c -> set_is w0 k (NSOne n) ms0 ->
    set_is (fst (crun C numeric ops (w0, c))) k num ms ->
    fulls (fst (crun C numeric ops (w0, c))) ms Ks -> Forall (psd_array n) Ks ->
    Forall (fun K => afmt K = Dense) Ks ->
    fits C numeric kw (crun C numeric ops (w0, c)) (psd_array n).
Proof. exact (@pf_C37_product_partial). Qed.
Print Assumptions C37_product_partial.

(** C37, AverageKernel (of a set that still has members). *)
Theorem C37_average :
  forall {E U} C numeric k (w0 : world E xr U) c ops num ms n ms0 Ks kw,
    comp_new NewAverage (Some k) w0 = Ok c -> set_is w0 k (NSOne n) ms0 ->
    set_is (fst (crun C numeric ops (w0, c))) k num ms -> ms <> [] ->
    fulls (fst (crun C numeric ops (w0, c))) ms Ks -> Forall (psd_array n) Ks ->
    fits C numeric kw (crun C numeric ops (w0, c)) (psd_array n).
Proof. exact (@pf_C37_average). Qed.
Print Assumptions C37_average.

(** C37, WeightedAverageKernel with non-negative weights. *)
Theorem C37_weighted :
  forall {E U} C numeric k (w0 : world E xr U) c ops num ms n ms0 Ks kw a ws,
    comp_new (NewWeighted a) (Some k) w0 = Ok c -> is_vector a ws -> Forall (fun r => (0 <= r)%R) ws ->
    set_is w0 k (NSOne n) ms0 ->
    set_is (fst (crun C numeric ops (w0, c))) k num ms ->
    fulls (fst (crun C numeric ops (w0, c))) ms Ks -> Forall (psd_array n) Ks ->
    fits C numeric kw (crun C numeric ops (w0, c)) (psd_array n).
Proof. exact (@pf_C37_weighted). Qed.
Print Assumptions C37_weighted.

(** C38, as long as the set has as many members as it had at construction: the matrix is the
    weighted sum over all of them, weight and matrix paired in order. *)
Theorem C38_partial :
  forall {E U} C numeric k (w0 : world E xr U) c ops num ms n ms0 Ks kw a ws,
    comp_new (NewWeighted a) (Some k) w0 = Ok c -> is_vector a ws -> set_is w0 k (NSOne n) ms0 ->
    set_is (fst (crun C numeric ops (w0, c))) k num ms -> length ms = length ms0 ->
    fulls (fst (crun C numeric ops (w0, c))) ms Ks -> Forall (is_square n) Ks ->
    fits C numeric kw (crun C numeric ops (w0, c)) (is_matrix n (fun i j =>
      xsum (map (fun p => xmul (Fin (nth p ws 0%R)) (xget (amat (nth p Ks (mkArr Dense (mfull 0 0 NaN)))) i j))
                (seq 0 (length ms))))).
Proof. exact (@pf_C38_partial). Qed.
Print Assumptions C38_partial.

(** The members added after the construction do not count at all. *)
Theorem C38_later_members_ignored :
  forall {E U} C numeric k (w0 : world E xr U) c ops num ms more n ms0 Ks Ks' kw a ws,
    comp_new (NewWeighted a) (Some k) w0 = Ok c -> is_vector a ws -> set_is w0 k (NSOne n) ms0 ->
    set_is (fst (crun C numeric ops (w0, c))) k num (ms ++ more) -> length ms = length ms0 ->
    fulls (fst (crun C numeric ops (w0, c))) ms Ks ->
    fulls (fst (crun C numeric ops (w0, c))) more Ks' ->
    Forall (is_square n) (Ks ++ Ks') ->
    fits C numeric kw (crun C numeric ops (w0, c)) (is_matrix n (sum_entry ws Ks)).
Proof. exact (@pf_C38_later_members_ignored). Qed.
Print Assumptions C38_later_members_ignored.

(** C36, end to end: if the members are KernelMatrix objects attached to the sample [x], with
    kernels that do not raise and arbitrary histories of accesses, the composites are made of the
    kernel values of the rows of [x] (computed once per unordered pair). *)
Theorem C36_kernels_sum :
  forall {U} C numeric k (w0 : world xr xr U) c ops num ms n ms0 d x ks a ws,
    comp_new NewSum (Some k) w0 = Ok c -> set_is w0 k (NSOne n) ms0 ->
    set_is (fst (crun C numeric ops (w0, c))) k num ms ->
    admissible x None n n d ->
    Forall2 (attached_member n d x (fst (crun C numeric ops (w0, c)))) ms ks ->
    is_vector a ws -> length ws = length ms ->
    fits C numeric (Some a) (crun C numeric ops (w0, c)) (is_matrix n (fun i j =>
      xsum (map (fun p => xmul (Fin (fst p)) (entry (snd p) d x None i j)) (combine ws ks)))).
Proof. exact (@pf_C36_kernels_sum). Qed.
Print Assumptions C36_kernels_sum.

Theorem C36_kernels_product :
  forall {U} C numeric k (w0 : world xr xr U) c ops num ms n ms0 d x ks kw,
    comp_new NewProduct (Some k) w0 = Ok c -> set_is w0 k (NSOne n) ms0 ->
    set_is (fst (crun C numeric ops (w0, c))) k num ms ->
    admissible x None n n d ->
    Forall2 (attached_member n d x (fst (crun C numeric ops (w0, c)))) ms ks ->
    fits C numeric kw (crun C numeric ops (w0, c)) (is_matrix n (fun i j =>
      fold_right xmul (Fin 1) (map (fun k => entry k d x None i j) ks))).
Proof. exact (@pf_C36_kernels_product). Qed.
Print Assumptions C36_kernels_product.

Theorem C36_kernels_average :
  forall {U} C numeric k (w0 : world xr xr U) c ops num ms n ms0 d x ks kw,
    comp_new NewAverage (Some k) w0 = Ok c -> set_is w0 k (NSOne n) ms0 ->
    set_is (fst (crun C numeric ops (w0, c))) k num ms ->
    admissible x None n n d ->
    Forall2 (attached_member n d x (fst (crun C numeric ops (w0, c)))) ms ks ->
    fits C numeric kw (crun C numeric ops (w0, c)) (is_matrix n (fun i j =>
      xdiv (xsum (map (fun k => entry k d x None i j) ks)) (Fin (INR (length ms))))).
Proof. exact (@pf_C36_kernels_average). Qed.
Print Assumptions C36_kernels_average.

(** C67: whenever [full] returns, reading it again at once returns the same matrix and changes
    nothing; for a KernelMatrix in any state, whatever the arithmetic. *)
Theorem C67_full_repeatable :
  forall {E V U} (N : numops V) (s s' : km E V U) a,
    full N s = (s', Ok a) -> full N s' = (s', Ok a).
Proof. exact (@pf_C67_full_repeatable). Qed.
Print Assumptions C67_full_repeatable.

(** C67, in a heap: reading [full] of some kernel matrix never changes what [full] of the same or any
    other kernel matrix returns, or the membership of a set. *)
Theorem C67_full_undisturbed :
  forall {E U} l (w : world E xr U) K l' K',
    snd (obj_full xN l w) = Ok K -> snd (obj_full xN l' w) = Ok K' ->
    snd (obj_full xN l' (fst (obj_full xN l w))) = Ok K' /\
    w_sets (fst (obj_full xN l w)) = w_sets w.
Proof. exact (@pf_C67_full_undisturbed). Qed.
Print Assumptions C67_full_undisturbed.

Definition lin : kernel xr xr := builtin KLinear.
Definition numx (l : list xr) : bool := true.
(** Two KernelMatrix objects attached to [[1], [2]], in a KernelSet; a third one is attached too. *)
Definition w_lin : world xr xr unit :=
  wrun xN xC numx
    [WNewKM lin false; WNewKM lin false; WNewKM lin false; WObj 0 (OpAttach x12 None);
     WObj 1 (OpAttach x12 None); WObj 2 (OpAttach x12 None);
     WSetNew (KLIter [ARef 0; ARef 1]) None] w_empty.
Definition ones2 : ndarray xr := mkNd [2] [Fin 1; Fin 1].

(** The hypotheses of the theorems above hold after the program K0[:, :], append(third): three
    members, one of them read as a sparse matrix. *)
Example C36_example :
  let ops : list (cop xr unit) :=
    [CHeap (WObj 0 (OpGetItem (IPair (ISlice None None None) (ISlice None None None))));
     CHeap (WAppend 0 (ARef 2)); CFit None; CGet] in
  let c := mkComp CSum 0 (NSOne 2) false None in
  comp_new NewSum (Some 0) w_lin = Ok c /\ set_is w_lin 0 (NSOne 2) [0; 1] /\
  set_is (fst (crun xC numx ops (w_lin, c))) 0 (NSOne 2) [0; 1; 2] /\
  exists Ks, fulls (fst (crun xC numx ops (w_lin, c))) [0; 1; 2] Ks /\ Forall (is_square 2) Ks /\
    map (fun K => afmt K) Ks = [Lil; Dense; Dense].
Proof.
  cbv zeta. split; [calc; reflexivity|]. split; [eexists; eexists; calc; reflexivity|].
  split; [eexists; eexists; calc; reflexivity|]. eexists. split.
  - constructor; [calc; reflexivity|]. constructor; [calc; reflexivity|].
    constructor; [calc; reflexivity|]. constructor.
  - split; [repeat constructor|reflexivity].
Qed.

(** The third kernel matrix satisfies [attached_member], and its matrix is positive semidefinite. *)
Example C37_example :
  attached_member 2 1 x12 w_lin 0 xdot /\ admissible x12 None 2 2 1 /\
  psd_array 2 (mkArr Dense (kernel_matrix xdot 2 2 1 x12 None)) /\ is_vector ones2 [1; 1]%R.
Proof.
  split; [|split; [exact x12_ok|split]].
  - exists lin, [], []. split; [calc; reflexivity|]. split; [apply linear_total; reflexivity|].
    split; [reflexivity|]. split; [reflexivity|]. split; [intros []|intros ix []].
  - split; [split; reflexivity|]. exists (fun i j => (INR (S i) * INR (S j))%R).
    split; [apply (psd_rank1 2 (fun i => INR (S i)))|].
    intros i j Hi Hj. destruct i as [|[|i]]; [| |lia]; (destruct j as [|[|j]]; [| |lia]); calc; f_equal; cbn; lra.
  - split; [reflexivity|]. exists []. split; [reflexivity|constructor].
Qed.

(** C36 is false for WeightedAverageKernel: there is no division by the total weight. *)
Theorem C36_weighted_refuted :
  exists (w0 : world xr xr unit) k ms n a ws c Ks b i j,
    comp_new (NewWeighted a) (Some k) w0 = Ok c /\ is_vector a ws /\ (0 < total ws)%R /\
    set_is w0 k (NSOne n) ms /\ fulls w0 ms Ks /\ Forall (is_square n) Ks /\ i < n /\ j < n /\
    snd (cstep xC numx (CFit None) (w0, c)) = Ok CUnit /\
    snd (cstep xC numx CGet (fst (cstep xC numx (CFit None) (w0, c)))) = Ok (CMat b) /\
    xget (amat b) i j <> weighted_mean_entry ws Ks i j.
Proof. exact (@pf_C36_weighted_refuted). Qed.
Print Assumptions C36_weighted_refuted.

(** C36 is false for ProductKernel if a member is held sparse: after K0[:, :], fit computes a matrix
    product. *)
Theorem C36_product_refuted :
  exists (w0 : world xr xr unit) k ms n c Ks b i j,
    comp_new NewProduct (Some k) w0 = Ok c /\
    set_is w0 k (NSOne n) ms /\ fulls w0 ms Ks /\ Forall (is_square n) Ks /\ i < n /\ j < n /\
    snd (cstep xC numx (CFit None) (w0, c)) = Ok CUnit /\
    snd (cstep xC numx CGet (fst (cstep xC numx (CFit None) (w0, c)))) = Ok (CMat b) /\
    xget (amat b) i j <> prod_entry Ks i j.
Proof. exact (@pf_C36_product_refuted). Qed.
Print Assumptions C36_product_refuted.

(** C36 is false for sets of two-sample matrices: the members have matrices, the composite has not. *)
Theorem C36_two_samples_refuted :
  exists (w0 : world xr xr unit) k ms n m c Ks,
    comp_new NewSum (Some k) w0 = Ok c /\ set_is w0 k (NSTwo n m) ms /\ fulls w0 ms Ks /\
    length ms = 2 /\ snd (cstep xC numx (CFit None) (w0, c)) = Raise TypeError.
Proof. exact (@pf_C36_two_samples_refuted). Qed.
Print Assumptions C36_two_samples_refuted.

(** C38 is false: after append, fit returns but the matrix does not contain the third member, whatever
    non-zero weight one may have expected for it. *)
Theorem C38_refuted :
  exists (w0 : world xr xr unit) k a ws c ops num ms Ks b i j,
    let s := crun xC numx ops (w0, c) in
    comp_new (NewWeighted a) (Some k) w0 = Ok c /\ is_vector a ws /\
    set_is (fst s) k num ms /\ length ms = 3 /\ fulls (fst s) ms Ks /\ Forall (is_square 2) Ks /\ i < 2 /\ j < 2 /\
    snd (cstep xC numx (CFit None) s) = Ok CUnit /\
    snd (cstep xC numx CGet (fst (cstep xC numx (CFit None) s))) = Ok (CMat b) /\
    forall r, (r <> 0)%R -> xget (amat b) i j <> sum_entry (ws ++ [r]) Ks i j.
Proof. exact (@pf_C38_refuted). Qed.
Print Assumptions C38_refuted.

(** C66, the part that holds: a [fit] refused for its weights (wrong number) changes nothing. *)
Theorem C66_partial :
  forall {E U} C numeric k (w0 : world E xr U) c ops num ms a ws,
    comp_new NewSum (Some k) w0 = Ok c ->
    set_is (fst (crun C numeric ops (w0, c))) k num ms ->
    is_vector a ws -> length ws <> length ms ->
    let s := crun C numeric ops (w0, c) in
    cstep C numeric CGet (fst (cstep C numeric (CFit (Some a)) s)) = cstep C numeric CGet s.
Proof. exact (@pf_C66_partial). Qed.
Print Assumptions C66_partial.

(** C66 is false in general: after a successful fit, a member is attached to three points; the next
    fit raises, and composite_KM silently changes from the sum of both members to the first alone. *)
Theorem C66_refuted :
  exists (w0 : world xr xr unit) k c ops e b b' i j,
    let s := crun xC numx ops (w0, c) in
    comp_new NewSum (Some k) w0 = Ok c /\
    snd (cstep xC numx CGet s) = Ok (CMat b) /\
    snd (cstep xC numx (CFit None) s) = Raise e /\
    snd (cstep xC numx CGet (fst (cstep xC numx (CFit None) s))) = Ok (CMat b') /\
    xget (amat b) i j <> xget (amat b') i j.
Proof. exact (@pf_C66_refuted). Qed.
Print Assumptions C66_refuted.
