(** What a failed fit of OptimalKernelSVC or OptimalKernelSVR leaves, exactly: property C96.
    Generated by tools/split_props.py from FailOptProps.v: statements only, each closed by [exact]. *)
From Coq Require Import String Reals List Arith ZArith Bool Lia Lra.
Import ListNotations.
From Verif Require Import Prelude MatModel UtilsModel KMModel SpecKM XReal OpsModel SpecLinAlg SpecKernels KernelsModel
  KMXModel SpecKMX SetModel SpecSet BucketModel SpecBucket RankModel SpecRank AlgoModel SpecAlgo SpecOpt SpecFailOpt.
From Verif Require Import MatFacts MFacts KMFacts KMInv KMTotal KMHist KMHist2 KMProps FullFacts RSum OpsFacts OpsProps KernelFacts KMXProps KMSteady
  SetFacts SetFacts2 SetProps ContProps CompositeFacts BucketProps RankFacts RankProps AlgoFacts AlgoProps OptFacts SpecOptCases OptProps.
Local Open Scope list_scope.
Local Open Scope nat_scope.
From Verif Require Import FailOptProps.
Local Open Scope list_scope.
Local Open Scope nat_scope.

(** C96: everything a failed fit can leave, from any state whose optimal kernel exists (see
    C96_programs). Either the bucket or the data were refused, and every prediction is as before; or the
    search for the optimal kernel failed, and the machine has the new training points but its old kernel
    and support vector machine; or the training raised this exception, on the matrix of a new optimal
    kernel, and the machine has the new points, the new kernel and what the training left. There is no
    other case: once found, the optimal kernel never fails to give its matrix. *)
Theorem C96_exact :
  forall {U XIn YIn W Y F P Q} (S : sklearn XIn YIn W Y F P) self_fit self_predict numbers best_score numeric C
         X y wt (o : optimal Y F Q) (w : world xr xr U) e,
    (forall l, o_opt_kernel o = Some l -> nth_error (w_objs w) l <> None) ->
    snd (optimal_fit S self_fit numbers best_score numeric C X y wt (o, w)) = Raise e ->
    let s' := fst (optimal_fit S self_fit numbers best_score numeric C X y wt (o, w)) in
    let predicts_as o1 w1 := forall X', snd (optimal_predict S self_predict X' s')
                                      = snd (optimal_predict S self_predict X' (o1, w1)) in
    never_trains S numbers best_score numeric C X y wt (o, w) /\
    (no_bucket (dict_get (o_params o) "k_bucket") w \/ sk_check_X_y S true X y = Raise e) /\
    predicts_as o w
    \/
    (exists x ys, sk_check_X_y S true X y = Ok (x, ys) /\
      never_trains S numbers best_score numeric C X y wt (o, w) /\
      predicts_as (trained_on x ys o) w)
    \/
    (exists x ys l G, sk_check_X_y S true X y = Ok (x, ys) /\
      o_opt_kernel (fst s') = Some l /\ nth_error (w_objs w) l = None /\ obj_full xN l (snd s') = (snd s', Ok G) /\
      snd (self_fit (opt_svm o) (o_model o) G ys wt) = Raise e /\
      o_model (fst s') = fst (self_fit (opt_svm o) (o_model o) G ys wt) /\
      o_train (fst s') = Some (x, ys) /\ o_params (fst s') = o_params o /\ o_regressor (fst s') = o_regressor o).
Proof. exact (@pf_C96_exact). Qed.
Print Assumptions C96_exact.

(** C96: the hypothesis of C96_exact holds after every program: the optimal kernel of an estimator that
    was made anew and used by any calls of fit, predict and set_params, failed ones included, exists. *)
Theorem C96_programs :
  forall {U XIn YIn W Y F P Q} (S : sklearn XIn YIn W Y F P) self_fit self_predict numbers best_score numeric C
         regressor unfitted (value : string -> oval Q) os (w : world xr xr U) l,
    let s := orun S self_fit self_predict numbers best_score numeric C os
               (optimal_new (Y:=Y) (F:=F) regressor unfitted value, w) in
    o_opt_kernel (fst s) = Some l -> nth_error (w_objs (snd s)) l <> None.
Proof. exact (@pf_C96_programs). Qed.
Print Assumptions C96_programs.

(** C96, in terms of predictions. [K] is the optimal kernel that [o] has found earlier. When fit on new data (X, y) failed after they were accepted but before the training, predict
    hands the old support vector machine the matrix of values of the old kernel between the test points
    and the new points. A machine that was not trained still raises NotFittedError. *)
Theorem C96_predictions :
  forall {U XIn YIn W Y F P Q} (S : sklearn XIn YIn W Y F P) self_fit self_predict numbers best_score numeric C
         X y wt (o : optimal Y F Q) (w : world xr xr U) e x ys,
    snd (optimal_fit S self_fit numbers best_score numeric C X y wt (o, w)) = Raise e ->
    never_trains S numbers best_score numeric C X y wt (o, w) ->
    ~ no_bucket (dict_get (o_params o) "k_bucket") w -> sk_check_X_y S true X y = Ok (x, ys) ->
    let s' := fst (optimal_fit S self_fit numbers best_score numeric C X y wt (o, w)) in
    (o_opt_kernel o = None -> forall X', snd (optimal_predict S self_predict X' s') = Raise NotFittedErr) /\
    (forall l K X' z n' n d G,
       o_opt_kernel o = Some l -> matrix_of w l (fst K) (snd K) ->
       sk_check_array S X' = Ok z -> is_sample z n' d -> is_sample x n d -> has_cross z x n' n d K G ->
       snd (optimal_predict S self_predict X' s')
       = rbind G (fun A => rbind (self_predict (opt_svm o) (o_model o) A) (fun p =>
           if o_regressor o then Ok p else sk_int S p))).
Proof. exact (@pf_C96_predictions). Qed.
Print Assumptions C96_predictions.

(** C96: causes of the second kind, all of them after the data have replaced the old ones: the method is
    not a string, the method is unknown, the bucket is attached to a sample of another size, the method
    is 'align/corr' (C55_align). *)
Theorem C96_causes :
  forall {U XIn YIn W Y F P Q} (S : sklearn XIn YIn W Y F P) self_fit numbers best_score numeric C
         X y wt (o : optimal Y F Q) (w : world xr xr U) x ys,
    ~ no_bucket (dict_get (o_params o) "k_bucket") w -> sk_check_X_y S true X y = Ok (x, ys) ->
    let r := snd (optimal_fit S self_fit numbers best_score numeric C X y wt (o, w)) in
    ((forall m, dict_get (o_params o) "method" <> Some (OVStr m)) ->
       r = Raise AttributeError /\ never_trains S numbers best_score numeric C X y wt (o, w)) /\
    (forall m, dict_get (o_params o) "method" = Some (OVStr m) ->
       lower m <> "align/corr"%string -> lower m <> "cv_risk"%string ->
       r = Raise NotImplementedErr /\ never_trains S numbers best_score numeric C X y wt (o, w)) /\
    (forall m n num Ks, dict_get (o_params o) "method" = Some (OVStr m) ->
       lower m = "align/corr"%string \/ lower m = "cv_risk"%string ->
       numeric_sample numeric x n ->
       offers (dict_get (o_params o) "k_bucket") w num Ks -> num <> NSNone -> num <> NSOne n ->
       r = Raise ValueError /\ never_trains S numbers best_score numeric C X y wt (o, w)) /\
    (forall m, dict_get (o_params o) "method" = Some (OVStr m) -> lower m = "align/corr"%string ->
       (exists e, r = Raise e) /\ never_trains S numbers best_score numeric C X y wt (o, w)).
Proof. exact (@pf_C96_causes). Qed.
Print Assumptions C96_causes.

(** A failed fit does not leave the predictions as they were: the bucket is attached to [[1], [2]], the
    machine is trained on [[1], [2]], then fit on [[1], [2], [3]] raises ValueError; predict on
    [[3], [4]] now hands the old support vector machine, trained on a 2 x 2 matrix, a 2 x 3 matrix. *)
Theorem C96_unchanged_refuted :
  exists s, s = fst (ofit1 x12 tt tt (estimator1 bucket1 "cv_risk", heap1 (NSOne 2) [OpAttach x12 None])) /\
    let s' := fst (ofit1 (mkNd [3; 1] [Fin 1; Fin 2; Fin 3]) tt tt s) in
    let M := mkArr Dense (mkMat 2 2 [[Fin 1; Fin 2]; [Fin 2; Fin 4]]) in
    snd (ofit1 (mkNd [3; 1] [Fin 1; Fin 2; Fin 3]) tt tt s) = Raise ValueError /\
    snd (opredict1 x34 s) = Ok (Some ("rbf"%string, M), mkArr Dense (mkMat 2 2 [[Fin 3; Fin 6]; [Fin 4; Fin 8]])) /\
    snd (opredict1 x34 s') = Ok (Some ("rbf"%string, M), mkArr Dense (mkMat 2 3 [[Fin 3; Fin 6; Fin 9]; [Fin 4; Fin 8; Fin 12]])).
Proof. exact (@pf_C96_unchanged_refuted). Qed.
Print Assumptions C96_unchanged_refuted.

(** C96, the first and the third case occur too: an unknown strategy is refused, and a training that
    raises leaves a machine that predicts with the new kernel and points. *)
Theorem C96_example :
  snd (ofit1 x12 tt tt (estimator1 (OVStr "unknown") "cv_risk", heap1 NSNone [])) = Raise ValueError /\
  let failing := fun (v : svm_self unit) (f : learnt) (G : arr xr) (ys wt : unit) => (Some ("half done"%string, G), @Raise unit RuntimeError) in
  let r := optimal_fit (U:=unit) sk1 failing numbers1 score1 numeric1 xC x12 tt tt
             (estimator1 bucket1 "cv_risk", heap1 NSNone []) in
  snd r = Raise RuntimeError /\
  snd (opredict1 x34 (fst r)) = Ok (Some ("half done"%string, mkArr Dense (mkMat 2 2 [[Fin 1; Fin 2]; [Fin 2; Fin 4]])),
      mkArr Dense (mkMat 2 2 [[Fin 3; Fin 6]; [Fin 4; Fin 8]])).
Proof. exact (@pf_C96_example). Qed.
Print Assumptions C96_example.
