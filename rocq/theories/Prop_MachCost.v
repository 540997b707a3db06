(** C102: exactly how many kernel evaluations fitting and predicting cost.
    Generated by tools/split_props.py from MachCostProps.v: statements only, each closed by [exact]. *)
From Coq Require Import String Reals List Arith ZArith Bool Lia Lra.
Import ListNotations.
From Verif Require Import Prelude MatModel UtilsModel KMModel SpecKM XReal OpsModel SpecLinAlg KernelsModel
  KMXModel SetModel SpecSet BucketModel RankModel SpecRank AlgoModel SpecAlgo SpecCost.
From Verif Require Import MatFacts MFacts KMFacts KMInv KMHist KMHist2 KMProps OpsFacts OpsProps KMXProps SetFacts2
  AlgoFacts AlgoProps RejectProps CostProps.
From Verif Require Import MachCostProps.
Local Open Scope list_scope.
Local Open Scope nat_scope.

(** C102: a fit whose kernel matrix can be computed makes n (n + 1) / 2 kernel calls for n training points,
    whatever the machine did before, and also if the support vector machine then raises. *)
Theorem C102_fit :
  forall {XIn YIn W Y F P} (S : sklearn XIn YIn W Y F P) m X y w x ys n d K k nrm s eg G,
    validated S (m_regressor m) X y x ys -> is_sample x n d ->
    m_k_func m = PKernel K -> m_normalized m = PBool nrm -> m_learner_id m = PStr s ->
    get_estimator s = Ok eg -> never_raises K k x None n n d -> kfmt K = true ->
    gram nrm k n d x = Ok G ->
    calls_made (fst (machine_fit S X y w m)) = calls_made m + n * (n + 1) / 2.
Proof. exact (@pf_C102_fit). Qed.
Print Assumptions C102_fit.

(** C102: a prediction for n' points makes n' n calls, and n' + n more with normalized=True. *)
Theorem C102_predict :
  forall {XIn YIn W Y F P} (S : sklearn XIn YIn W Y F P) m X z x ys n n' d K k nrm e f G,
    m_km m <> None -> m_train m = Some (x, ys) -> m_estimator m = Some (e, f) ->
    m_k_func m = PKernel K -> m_normalized m = PBool nrm ->
    sk_check_array S X = Ok z -> is_sample z n' d -> is_sample x n d ->
    never_raises K k z (Some x) n' n d -> kfmt K = true ->
    cross_gram nrm k n' n d z x = Ok G ->
    calls_made (fst (machine_predict S X m)) = calls_made m + n' * n + (if nrm then n' + n else 0).
Proof. exact (@pf_C102_predict). Qed.
Print Assumptions C102_predict.

(** C102: reading and setting parameters costs nothing; neither does a prediction before any fit, or one for
    points with another number of features. *)
Theorem C102_free :
  forall {XIn YIn W Y F P} (S : sklearn XIn YIn W Y F P) (m : machine Y F),
    (forall ps, calls_made (fst (mstep S (MSet ps) m)) = calls_made m) /\
    calls_made (fst (mstep S MGet m)) = calls_made m /\
    (forall X, m_km m = None -> calls_made (fst (mstep S (MPredict X) m)) = calls_made m) /\
    (forall X z x ys n n' d d', m_train m = Some (x, ys) -> sk_check_array S X = Ok z ->
       is_sample z n' d' -> is_sample x n d -> d' <> d ->
       calls_made (fst (mstep S (MPredict X) m)) = calls_made m).
Proof. exact (@pf_C102_free). Qed.
Print Assumptions C102_free.

(** C102 applies: fitting on two points with the linear kernel makes 3 calls, predicting for two points 4
    more. *)
Theorem C102_machine_example :
  let m := linear_machine false "SVC" in
  let m1 := fst (machine_fit sk0 x12 tt tt m) in
  calls_made m1 = 3 /\ calls_made (fst (machine_predict sk0 x34 m1)) = 7.
Proof. exact (@pf_C102_machine_example). Qed.
Print Assumptions C102_machine_example.
