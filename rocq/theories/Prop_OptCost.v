(** C102: exactly how many kernel evaluations searching a bucket, and fitting and predicting with an
    optimal-kernel machine, cost.
    Generated by tools/split_props.py from OptCostProps.v: statements only, each closed by [exact]. *)
From Coq Require Import String Reals List Arith ZArith Bool Lia Lra.
Import ListNotations.
From Verif Require Import Prelude MatModel UtilsModel KMModel SpecKM XReal OpsModel SpecLinAlg SpecKernels KernelsModel
  KMXModel SpecKMX SetModel SpecSet BucketModel SpecBucket RankModel SpecRank AlgoModel SpecAlgo SpecOpt SpecCost SpecOptCost.
From Verif Require Import MatFacts MFacts KMFacts KMInv KMTotal KMHist KMHist2 KMProps RSum OpsFacts OpsProps KernelFacts KMXProps KMSteady
  SetFacts SetFacts2 SetProps ContProps CompositeFacts BucketProps RankFacts RankProps AlgoFacts AlgoProps OptFacts SpecOptCases
  OptProps CostProps.
From Verif Require Import OptCostProps.
Local Open Scope list_scope.
Local Open Scope nat_scope.

(** C102: searching a bucket. A search that returns a kernel has made n (n + 1) / 2 kernel calls for every
    kernel matrix of the bucket, whatever it was used for before and however it was scored; no other object
    is touched. *)
Theorem C102_search :
  forall {U T} (numbers : T -> res (list xr)) best_score numeric (w : world xr xr U) b num ms x n d (t : T) m p Ks Gs l0,
    set_is w (b_set b) num ms -> is_sample x n d -> numeric (nd_data x) = true -> num = NSNone \/ num = NSOne n ->
    Forall2 (fun l K => matrix_of w l (fst K) (snd K)) ms Ks -> Forall2 (has_gram x n d) Ks Gs ->
    let r := find_optimal_kernel numbers best_score numeric (Some b) x t m p w in
    snd r = Ok l0 ->
    (forall l, In l ms -> calls_at (fst r) l = calls_at w l + n * (n + 1) / 2) /\
    (forall l, ~ In l ms -> nth_error (w_objs (fst r)) l = nth_error (w_objs w) l).
Proof. exact (@pf_C102_search). Qed.
Print Assumptions C102_search.

(** C102: a successful fit of an optimal-kernel machine makes n (n + 1) / 2 kernel calls for every kernel on
    offer, and no more for the training that follows: the members of its own bucket have made that many
    more than those on offer. *)
Theorem C102_optimal_fit :
  forall {U XIn YIn W Y F P Q} (S : sklearn XIn YIn W Y F P) self_fit numbers best_score numeric C
         X y wt (o : optimal Y F Q) (w : world xr xr U) x ys n d num Ks Gs,
    sk_check_X_y S true X y = Ok (x, ys) -> is_sample x n d -> numeric (nd_data x) = true ->
    offers (dict_get (o_params o) "k_bucket") w num Ks -> num = NSNone \/ num = NSOne n ->
    Forall2 (has_gram x n d) Ks Gs ->
    let r := optimal_fit S self_fit numbers best_score numeric C X y wt (o, w) in
    snd r = Ok tt ->
    exists b ms cs, o_copy (fst (fst r)) = Some b /\ set_is (snd (fst r)) (b_set b) (NSOne n) ms /\
      calls_offered (dict_get (o_params o) "k_bucket") w (length Ks) cs /\
      map (calls_at (snd (fst r))) ms = map (fun c => c + n * (n + 1) / 2) cs /\
      exists l, o_opt_kernel (fst (fst r)) = Some l /\ In l ms.
Proof. exact (@pf_C102_optimal_fit). Qed.
Print Assumptions C102_optimal_fit.

(** C102: each prediction of an optimal-kernel machine for n' points makes n' n calls of the optimal
    kernel, n' + n more if it is normalised, and none of the other kernels. *)
Theorem C102_optimal_predict :
  forall {U XIn YIn W Y F P Q} (S : sklearn XIn YIn W Y F P) self_predict
         X (o : optimal Y F Q) (w : world xr xr U) l K z x ys n' n d G,
    o_opt_kernel o = Some l -> matrix_of w l (fst K) (snd K) -> o_train o = Some (x, ys) ->
    sk_check_array S X = Ok z -> is_sample z n' d -> is_sample x n d -> has_cross z x n' n d K (Ok G) ->
    let w' := snd (fst (optimal_predict S self_predict X (o, w))) in
    calls_at w' l = calls_at w l + n' * n + (if snd K then n' + n else 0) /\
    forall l', l' <> l -> calls_at w' l' = calls_at w l'.
Proof. exact (@pf_C102_optimal_predict). Qed.
Print Assumptions C102_optimal_predict.

(** C102 applies: OptimalKernelSVC with a bucket of one kernel, trained on two points, makes 3 kernel calls;
    each prediction for two points makes 4 more. *)
Theorem C102_optimal_example :
  let s := fst (optimal_fit sk1 fit1 numbers1 score1 numeric1 xC x12 tt tt (estimator1 bucket1 "cv_risk", heap1 NSNone [])) in
  let s2 := fst (optimal_predict sk1 predict1 x34 s) in
  exists b l, o_copy (fst s) = Some b /\ set_is (snd s) (b_set b) (NSOne 2) [l] /\ o_opt_kernel (fst s) = Some l /\
    calls_at (snd s) l = 3 /\ calls_at (snd s2) l = 7 /\ calls_at (snd (fst (optimal_predict sk1 predict1 x34 s2))) l = 11.
Proof. exact (@pf_C102_optimal_example). Qed.
Print Assumptions C102_optimal_example.
