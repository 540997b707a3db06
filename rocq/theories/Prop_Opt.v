(** C55, C57-C60, C70, C71, C73: the estimators OptimalKernelSVC and OptimalKernelSVR.
    Generated by tools/split_props.py from OptProps.v: statements only, each closed by [exact]. *)
From Coq Require Import String Reals List Arith ZArith Bool Lia Lra.
Import ListNotations.
From Verif Require Import Prelude MatModel UtilsModel KMModel SpecKM XReal OpsModel SpecLinAlg SpecKernels KernelsModel
  KMXModel SpecKMX SetModel SpecSet BucketModel SpecBucket RankModel SpecRank AlgoModel SpecAlgo SpecOpt.
From Verif Require Import MatFacts MFacts KMFacts KMInv KMTotal KMHist KMHist2 KMProps RSum OpsFacts OpsProps KernelFacts KMXProps KMSteady
  SetFacts SetFacts2 SetProps ContProps CompositeFacts BucketProps RankFacts RankProps AlgoFacts AlgoProps OptFacts SpecOptCases.
From Verif Require Import OptProps.
Local Open Scope list_scope.
Local Open Scope nat_scope.

(** C60: fit, from any state, keeps everything on the heap as it was, whether it succeeds or not; the
    optimal kernel it finds is a new object. *)
Theorem C60_fit :
  forall {U XIn YIn W Y F P Q} (S : sklearn XIn YIn W Y F P) self_fit numbers best_score numeric C
         X y wt (o : optimal Y F Q) (w : world xr xr U),
    let s' := fst (optimal_fit S self_fit numbers best_score numeric C X y wt (o, w)) in
    untouched w (snd s') /\
    (o_opt_kernel (fst s') = o_opt_kernel o \/
     exists l, o_opt_kernel (fst s') = Some l /\ nth_error (w_objs w) l = None).
Proof. exact (@pf_C60_fit). Qed.
Print Assumptions C60_fit.

(** C60: predict, from any state, changes nothing but the optimal kernel. *)
Theorem C60_predict :
  forall {U XIn YIn W Y F P Q} (S : sklearn XIn YIn W Y F P) self_predict X (o : optimal Y F Q) (w : world xr xr U),
    let s' := fst (optimal_predict S self_predict X (o, w)) in
    fst s' = o /\ w_sets (snd s') = w_sets w /\
    forall l, o_opt_kernel o <> Some l -> nth_error (w_objs (snd s')) l = nth_error (w_objs w) l.
Proof. exact (@pf_C60_predict). Qed.
Print Assumptions C60_predict.

(** C60: no program using a new estimator, with any calls of fit, predict and set_params, touches
    anything that was on the heap before: neither the user's buckets nor their kernel matrices. *)
Theorem C60_programs :
  forall {U XIn YIn W Y F P Q} (S : sklearn XIn YIn W Y F P) self_fit self_predict numbers best_score numeric C
         regressor unfitted (value : string -> oval Q) os (w : world xr xr U),
    untouched w (snd (orun S self_fit self_predict numbers best_score numeric C os
                        (optimal_new regressor unfitted value, w))).
Proof. exact (@pf_C60_programs). Qed.
Print Assumptions C60_programs.

(** C55, the method 'cv_risk': on valid data whose kernel matrices exist, for which cross-validation
    gives finite scores, fit trains the support vector machine on the matrix of the best kernel (the
    first one if all scores are nearly the same) and succeeds if the support vector machine does. The
    full statement is about both methods; 'align/corr' never works (C55_align). *)
Theorem C55_partial :
  forall {U XIn YIn W Y F P Q} (S : sklearn XIn YIn W Y F P) self_fit numbers best_score numeric C
         X y wt (o : optimal Y F Q) (w : world xr xr U) x ys n d m num Ks Gs e rs mn mx,
    sk_check_X_y S true X y = Ok (x, ys) -> is_sample x n d -> numeric (nd_data x) = true ->
    dict_get (o_params o) "method" = Some (OVStr m) -> lower m = "cv_risk"%string ->
    offers (dict_get (o_params o) "k_bucket") w num Ks -> num = NSNone \/ num = NSOne n -> Ks <> [] ->
    Forall2 (has_gram x n d) Ks Gs ->
    get_estimator (if o_regressor o then "SVR" else "SVC")%string = Ok e ->
    Forall2 (fun G r => best_score e 3%Z G ys = Ok (Fin r)) Gs rs -> extremes rs mn mx ->
    let r := optimal_fit S self_fit numbers best_score numeric C X y wt (o, w) in
    exists i K G l, nth_error Ks i = Some K /\ nth_error Gs i = Some G /\
      ((mx - mn <= tiny)%R -> i = 0) /\
      ((tiny < mx - mn)%R -> nth i rs 0%R = mx /\ forall j, j < i -> (nth j rs 0 < mx)%R) /\
      snd r = snd (self_fit (opt_svm o) (o_model o) G ys wt) /\
      o_model (fst (fst r)) = fst (self_fit (opt_svm o) (o_model o) G ys wt) /\
      o_train (fst (fst r)) = Some (x, ys) /\
      o_opt_kernel (fst (fst r)) = Some l /\ matrix_of (snd (fst r)) l (fst K) (snd K).
Proof. exact (@pf_C55_partial). Qed.
Print Assumptions C55_partial.

(** C55, the method 'align/corr': fit never succeeds, whatever the bucket, the data and the state. *)
Theorem C55_align :
  forall {U XIn YIn W Y F P Q} (S : sklearn XIn YIn W Y F P) self_fit numbers best_score numeric C
         X y wt (o : optimal Y F Q) (w : world xr xr U) m,
    dict_get (o_params o) "method" = Some (OVStr m) -> lower m = "align/corr"%string ->
    snd (optimal_fit S self_fit numbers best_score numeric C X y wt (o, w)) <> Ok tt.
Proof. exact (@pf_C55_align). Qed.
Print Assumptions C55_align.

(** C60: refitting. However often an estimator has been fitted and used before (on whatever data), as
    long as the user's bucket was not attached to a sample of another size when the estimator was made,
    fit works as at first: it trains on the matrix of a kernel of the bucket on the new sample. The
    full statement would allow buckets attached to other samples; then fit fails (C60_attached). *)
Theorem C60_refit_partial :
  forall {U XIn YIn W Y F P Q} (S : sklearn XIn YIn W Y F P) self_fit self_predict numbers best_score numeric C
         (regressor : bool) unfitted (value : string -> oval Q) os (w : world xr xr U)
         X y wt x ys n d m num Ks Gs e rs mn mx,
    no_oset os ->
    sk_check_X_y S true X y = Ok (x, ys) -> is_sample x n d -> numeric (nd_data x) = true ->
    value "method"%string = OVStr m -> lower m = "cv_risk"%string ->
    offers (Some (value "k_bucket"%string)) w num Ks -> num = NSNone \/ num = NSOne n -> Ks <> [] ->
    Forall2 (has_gram x n d) Ks Gs ->
    get_estimator (if regressor then "SVR" else "SVC")%string = Ok e ->
    Forall2 (fun G r => best_score e 3%Z G ys = Ok (Fin r)) Gs rs -> extremes rs mn mx ->
    let s := orun S self_fit self_predict numbers best_score numeric C os (optimal_new regressor unfitted value, w) in
    exists G, In G Gs /\
      snd (optimal_fit S self_fit numbers best_score numeric C X y wt s)
      = snd (self_fit (opt_svm (fst s)) (o_model (fst s)) G ys wt).
Proof. exact (@pf_C60_refit_partial). Qed.
Print Assumptions C60_refit_partial.

(** C60: a bucket attached to n samples cannot be used for a sample of another size: ValueError. *)
Theorem C60_attached :
  forall {U XIn YIn W Y F P Q} (S : sklearn XIn YIn W Y F P) self_fit numbers best_score numeric C
         X y wt (o : optimal Y F Q) (w : world xr xr U) x ys n m num Ks,
    sk_check_X_y S true X y = Ok (x, ys) -> numeric_sample numeric x n ->
    dict_get (o_params o) "method" = Some (OVStr m) -> valid_method m = true ->
    offers (dict_get (o_params o) "k_bucket") w num Ks -> num <> NSNone -> num <> NSOne n ->
    snd (optimal_fit S self_fit numbers best_score numeric C X y wt (o, w)) = Raise ValueError.
Proof. exact (@pf_C60_attached). Qed.
Print Assumptions C60_attached.

(** C55, the method 'align/corr': with a bucket whose first kernel matrix exists, and numeric targets,
    the error is a TypeError (the unexpected keyword argument estimator_name). *)
Theorem C55_align_error :
  forall {U XIn YIn W Y F P Q} (S : sklearn XIn YIn W Y F P) self_fit numbers best_score numeric C
         X y wt (o : optimal Y F Q) (w : world xr xr U) x ys n d m num K Ks G v,
    sk_check_X_y S true X y = Ok (x, ys) -> is_sample x n d -> numeric (nd_data x) = true ->
    dict_get (o_params o) "method" = Some (OVStr m) -> lower m = "align/corr"%string -> numbers ys = Ok v ->
    offers (dict_get (o_params o) "k_bucket") w num (K :: Ks) -> num = NSNone \/ num = NSOne n ->
    has_gram x n d K G ->
    snd (optimal_fit S self_fit numbers best_score numeric C X y wt (o, w)) = Raise TypeError.
Proof. exact (@pf_C55_align_error). Qed.
Print Assumptions C55_align_error.

(** C73: predict hands the support vector machine the matrix of values of the optimal kernel between
    the test points (rows) and the training points (columns); if its normalisation fails, that
    exception is raised. *)
Theorem C73_predict :
  forall {U XIn YIn W Y F P Q} (S : sklearn XIn YIn W Y F P) self_predict
         X (o : optimal Y F Q) (w : world xr xr U) l K z x ys n' n d G,
    o_opt_kernel o = Some l -> matrix_of w l (fst K) (snd K) -> o_train o = Some (x, ys) ->
    sk_check_array S X = Ok z -> is_sample z n' d -> is_sample x n d -> has_cross z x n' n d K G ->
    snd (optimal_predict S self_predict X (o, w))
    = rbind G (fun G' => rbind (self_predict (opt_svm o) (o_model o) G') (fun p =>
        if o_regressor o then Ok p else sk_int S p)).
Proof. exact (@pf_C73_predict). Qed.
Print Assumptions C73_predict.

(** C73: both together. After a fit as in C55_partial whose support vector machine was trained, predict
    gives the predictions of that machine for the matrix of the same kernel between the test points and
    the training points. *)
Theorem C73_fit_predict :
  forall {U XIn YIn W Y F P Q} (S : sklearn XIn YIn W Y F P) self_fit self_predict numbers best_score numeric C
         X y wt (o : optimal Y F Q) (w : world xr xr U) x ys n d m num Ks Gs e rs mn mx,
    sk_check_X_y S true X y = Ok (x, ys) -> is_sample x n d -> numeric (nd_data x) = true ->
    dict_get (o_params o) "method" = Some (OVStr m) -> lower m = "cv_risk"%string ->
    offers (dict_get (o_params o) "k_bucket") w num Ks -> num = NSNone \/ num = NSOne n -> Ks <> [] ->
    Forall2 (has_gram x n d) Ks Gs ->
    get_estimator (if o_regressor o then "SVR" else "SVC")%string = Ok e ->
    Forall2 (fun G r => best_score e 3%Z G ys = Ok (Fin r)) Gs rs -> extremes rs mn mx ->
    exists i K G, nth_error Ks i = Some K /\ nth_error Gs i = Some G /\
      let fr := self_fit (opt_svm o) (o_model o) G ys wt in
      let s := fst (optimal_fit S self_fit numbers best_score numeric C X y wt (o, w)) in
      snd (optimal_fit S self_fit numbers best_score numeric C X y wt (o, w)) = snd fr /\
      forall X' z n' G', sk_check_array S X' = Ok z -> is_sample z n' d -> has_cross z x n' n d K G' ->
        snd (optimal_predict S self_predict X' s)
        = rbind G' (fun A => rbind (self_predict (opt_svm o) (fst fr) A) (fun p =>
            if o_regressor o then Ok p else sk_int S p)).
Proof. exact (@pf_C73_fit_predict). Qed.
Print Assumptions C73_fit_predict.

(** C57: predict before any call of fit raises NotFittedError. *)
Theorem C57_optimal_before_fit :
  forall {U XIn YIn W Y F P Q} (S : sklearn XIn YIn W Y F P) self_fit self_predict numbers best_score numeric C
         regressor unfitted (value : string -> oval Q) os (w : world xr xr U) X,
    no_ofit os ->
    oreturned S self_fit self_predict numbers best_score numeric C (OPredict X)
      (orun S self_fit self_predict numbers best_score numeric C os (optimal_new regressor unfitted value, w))
    = Raise NotFittedErr.
Proof. exact (@pf_C57_optimal_before_fit). Qed.
Print Assumptions C57_optimal_before_fit.

(** C57: after any program, further predictions and reads do not change what predict returns, be it
    predictions or an exception, if the outcome of the optimal kernel does not depend on earlier
    calls. *)
Theorem C57_optimal_repeatable :
  forall {U XIn YIn W Y F P Q} (S : sklearn XIn YIn W Y F P) self_fit self_predict numbers best_score numeric C
         (o : optimal Y F Q) (w : world xr xr U) os X,
    only_oreads os ->
    (forall l s, o_opt_kernel o = Some l -> nth_error (w_objs w) l = Some (OKM s) -> steady (k_kernel s)) ->
    oreturned S self_fit self_predict numbers best_score numeric C (OPredict X)
      (orun S self_fit self_predict numbers best_score numeric C os (o, w))
    = oreturned S self_fit self_predict numbers best_score numeric C (OPredict X) (o, w).
Proof. exact (@pf_C57_optimal_repeatable). Qed.
Print Assumptions C57_optimal_repeatable.

(** C58: set_params followed by get_params gives the new values of the known names and the old values
    of the others; set_params never raises, and does not touch the heap. *)
Theorem C58_optimal_round_trip :
  forall {U XIn YIn W Y F P Q} (S : sklearn XIn YIn W Y F P) self_fit self_predict numbers best_score numeric C
         (o : optimal Y F Q) (w : world xr xr U) ps qs,
    NoDup (map fst ps) ->
    oreturned S self_fit self_predict numbers best_score numeric C OGet (o, w) = Ok (OOParams qs) ->
    oreturned S self_fit self_predict numbers best_score numeric C (OSet ps) (o, w) = Ok OODone /\
    oreturned S self_fit self_predict numbers best_score numeric C OGet
      (orun S self_fit self_predict numbers best_score numeric C [OSet ps] (o, w))
    = Ok (OOParams (map (fun q => (fst q, match dict_get ps (fst q) with Some v => Some v | None => snd q end)) qs)) /\
    snd (orun S self_fit self_predict numbers best_score numeric C [OSet ps] (o, w)) = w.
Proof. exact (@pf_C58_optimal_round_trip). Qed.
Print Assumptions C58_optimal_round_trip.

(** C58: after any program, get_params has the parameters of the class (each with a value); giving
    them back changes no parameter, and unknown names change nothing at all. *)
Theorem C58_optimal_get :
  forall {U XIn YIn W Y F P Q} (S : sklearn XIn YIn W Y F P) self_fit self_predict numbers best_score numeric C
         regressor unfitted (value : string -> oval Q) os (w : world xr xr U),
    let run os' s := orun S self_fit self_predict numbers best_score numeric C os' s in
    let s := run os (optimal_new regressor unfitted value, w) in
    exists ps, oreturned S self_fit self_predict numbers best_score numeric C OGet s
               = Ok (OOParams (map (fun p => (fst p, Some (snd p))) ps)) /\
      map fst ps = (if regressor then ["k_bucket"; "method"; "C"; "epsilon"; "shrinking"; "tol"]
                    else ["k_bucket"; "method"; "C"; "shrinking"; "tol"])%string /\
      oreturned S self_fit self_predict numbers best_score numeric C OGet (run [OSet ps] s)
      = oreturned S self_fit self_predict numbers best_score numeric C OGet s /\
      forall qs, (forall q, In q (map fst qs) -> ~ In q (map fst ps)) -> run [OSet qs] s = s.
Proof. exact (@pf_C58_optimal_get). Qed.
Print Assumptions C58_optimal_get.

(** C58: the support vector machine trained and used by the estimator has the class and the settings
    that get_params shows and set_params sets: each of C, shrinking, tol (and epsilon for SVR), and
    no others. *)
Theorem C58_optimal_settings :
  forall {U Y F Q} (o : optimal Y F Q) (w : world xr xr U),
    let names := (if o_regressor o then ["C"; "epsilon"; "shrinking"; "tol"] else ["C"; "shrinking"; "tol"])%string in
    self_regression (opt_svm o) = o_regressor o /\
    map fst (self_settings (opt_svm o)) = names /\
    (forall n, In n names -> dict_get (self_settings (opt_svm o)) n = dict_get (optimal_get_params o) n) /\
    forall n v, In n names ->
      let o' := fst (fst (optimal_set_params [(n, v)] (o, w))) in
      dict_get (self_settings (opt_svm o')) n = Some (Some v) /\
      forall q, q <> n -> dict_get (self_settings (opt_svm o')) q = dict_get (self_settings (opt_svm o)) q.
Proof. exact (@pf_C58_optimal_settings). Qed.
Print Assumptions C58_optimal_settings.

(** C59 for these estimators: setting k_bucket or method without fitting again does not change what
    predict does. *)
Theorem C59_optimal :
  forall {U XIn YIn W Y F P Q} (S : sklearn XIn YIn W Y F P) self_fit self_predict numbers best_score numeric C
         (o : optimal Y F Q) (w : world xr xr U) ps X,
    (forall n, In n (map fst ps) -> n = "k_bucket"%string \/ n = "method"%string) ->
    oreturned S self_fit self_predict numbers best_score numeric C (OPredict X)
      (orun S self_fit self_predict numbers best_score numeric C [OSet ps] (o, w))
    = oreturned S self_fit self_predict numbers best_score numeric C (OPredict X) (o, w).
Proof. exact (@pf_C59_optimal). Qed.
Print Assumptions C59_optimal.

(** C70: the support vector machine is always used with its default kernel 'rbf'. Two programs whose
    support vector machines agree for that kernel give the same results, so nothing the estimator does
    can depend on what a support vector machine does with kernel='precomputed'. *)
Theorem C70_default_kernel :
  forall {U XIn YIn W Y F P Q} (S : sklearn XIn YIn W Y F P) self_fit self_predict self_fit' self_predict'
         numbers best_score numeric C
         (op : oop XIn YIn W Q) (s : optimal Y F Q * world xr xr U),
    (forall v, self_kernel v = "rbf"%string -> forall f G ys wt, self_fit v f G ys wt = self_fit' v f G ys wt) ->
    (forall v, self_kernel v = "rbf"%string -> forall f G, self_predict v f G = self_predict' v f G) ->
    ostep S self_fit self_predict numbers best_score numeric C op s
    = ostep S self_fit' self_predict' numbers best_score numeric C op s.
Proof. exact (@pf_C70_default_kernel). Qed.
Print Assumptions C70_default_kernel.

(** C71: with k_bucket a strategy (as by default), a row of the training data whose inner product with
    itself is at most 1e-8, such as a row of zeros, makes fit raise KMNormError, whatever the method and
    whatever the other rows. *)
Theorem C71_zero_row :
  forall {U XIn YIn W Y F P Q} (S : sklearn XIn YIn W Y F P) self_fit numbers best_score numeric C
         X y wt (o : optimal Y F Q) (w : world xr xr U) x ys n d m s i r,
    sk_check_X_y S true X y = Ok (x, ys) -> is_sample x n d -> length (nd_data x) = n * d -> numeric (nd_data x) = true ->
    dict_get (o_params o) "method" = Some (OVStr m) ->
    lower m = "cv_risk"%string \/ lower m = "align/corr"%string /\ (exists v, numbers ys = Ok v) ->
    dict_get (o_params o) "k_bucket" = Some (OVStr s) -> strategy_kernels s <> None ->
    i < n -> xdot (row_of d x i) (row_of d x i) = Fin r -> (Rabs r <= tiny)%R ->
    snd (optimal_fit S self_fit numbers best_score numeric C X y wt (o, w)) = Raise KMNormError.
Proof. exact (@pf_C71_zero_row). Qed.
Print Assumptions C71_zero_row.

(** C71, the part that holds: with a strategy and 'cv_risk' (the defaults), finite training data, no
    row of which has an inner product with itself of at most 1e-8 (for 'exhaustive' also none for which
    |tanh(<x,x> - 2)| is at most 1e-8), and finite cross-validation scores, fit trains the support
    vector machine on one of the kernel matrices. The full statement would be about all finite data;
    it is false (C71_zero_row, C71_refuted). *)
Theorem C71_partial :
  forall {U XIn YIn W Y F P Q} (S : sklearn XIn YIn W Y F P) self_fit numbers best_score numeric C
         data y wt (o : optimal Y F Q) (w : world xr xr U) n d X ys m s e,
    sk_check_X_y S true data y = Ok (rsample n d X, ys) -> numeric (nd_data (rsample n d X)) = true ->
    dict_get (o_params o) "method" = Some (OVStr m) -> lower m = "cv_risk"%string ->
    dict_get (o_params o) "k_bucket" = Some (OVStr s) -> strategy_kernels s <> None ->
    get_estimator (if o_regressor o then "SVR" else "SVC")%string = Ok e ->
    (forall G, exists r, best_score e 3%Z G ys = Ok (Fin r)) ->
    (forall i, (i < n)%nat -> tiny < inner d (X i) (X i))%R ->
    (lower s = "exhaustive"%string -> forall i, (i < n)%nat -> tiny < Rabs (tanh (-2 + inner d (X i) (X i))))%R ->
    exists G, snd (optimal_fit S self_fit numbers best_score numeric C data y wt (o, w))
              = snd (self_fit (opt_svm o) (o_model o) G ys wt).
Proof. exact (@pf_C71_partial). Qed.
Print Assumptions C71_partial.

(** C55, 'cv_risk', applies: training on [[1], [2]] works. *)
Theorem C55_example : snd (ofit1 x12 tt tt (estimator1 bucket1 "cv_risk", heap1 NSNone [])) = Ok tt.
Proof. exact (@pf_C55_example). Qed.
Print Assumptions C55_example.

(** C55 is false: with method='align/corr', one of the two methods advertised, fit raises TypeError. *)
Theorem C55_refuted : exists m, valid_method m = true /\
  snd (ofit1 x12 tt tt (estimator1 bucket1 m, heap1 NSNone [])) = Raise TypeError.
Proof. exact (@pf_C55_refuted). Qed.
Print Assumptions C55_refuted.

(** C73, C60: training on [[1], [2]] and predicting on [[3], [4]] hands over [[1, 2], [2, 4]] and
    [[3, 6], [4, 8]]; the same when the user's bucket is attached to [[1], [2]] already. *)
Theorem C73_example : forall num pre, num = NSNone \/ num = NSOne 2 ->
  snd (opredict1 x34 (fst (ofit1 x12 tt tt (estimator1 bucket1 "cv_risk", heap1 num pre)))) =
  Ok (Some ("rbf"%string, mkArr Dense (mkMat 2 2 [[Fin 1; Fin 2]; [Fin 2; Fin 4]])),
      mkArr Dense (mkMat 2 2 [[Fin 3; Fin 6]; [Fin 4; Fin 8]])).
Proof. exact (@pf_C73_example). Qed.
Print Assumptions C73_example.

(** C57: an instance with another prediction in between. *)
Theorem C57_optimal_example :
  oreturned sk1 fit1 predict1 numbers1 score1 numeric1 xC (OPredict x34)
    (orun1 [OPredict x12; OGet] (fst (ofit1 x12 tt tt (estimator1 bucket1 "cv_risk", heap1 NSNone [])))) =
  Ok (OOPred (Some ("rbf"%string, mkArr Dense (mkMat 2 2 [[Fin 1; Fin 2]; [Fin 2; Fin 4]])),
      mkArr Dense (mkMat 2 2 [[Fin 3; Fin 6]; [Fin 4; Fin 8]]))).
Proof. exact (@pf_C57_optimal_example). Qed.
Print Assumptions C57_optimal_example.

(** C60: an instance of refitting: after training on [[1], [2]], training on three points works. *)
Theorem C60_example :
  snd (ofit1 (mkNd [3; 1] [Fin 1; Fin 2; Fin 3]) tt tt
         (orun1 [OFit x12 tt tt; OPredict x34] (estimator1 bucket1 "cv_risk", heap1 NSNone []))) = Ok tt.
Proof. exact (@pf_C60_example). Qed.
Print Assumptions C60_example.

(** C60, "fitting on data of a different size works", is false if the user's bucket has been attached to
    a sample before it was given to the estimator: here to [[1], [2]]; training on three points fails. *)
Theorem C60_refuted :
  exists w : world xr xr unit, w = heap1 (NSOne 2) [OpAttach x12 None] /\
    snd (ofit1 x12 tt tt (estimator1 bucket1 "cv_risk", w)) = Ok tt /\
    snd (ofit1 (mkNd [3; 1] [Fin 1; Fin 2; Fin 3]) tt tt (estimator1 bucket1 "cv_risk", w)) = Raise ValueError.
Proof. exact (@pf_C60_refuted). Qed.
Print Assumptions C60_refuted.

(** C58: an instance. *)
Theorem C58_optimal_example :
  oreturned (U:=unit) sk1 fit1 predict1 numbers1 score1 numeric1 xC OGet
    (orun1 [OSet [("method"%string, OVStr "align/corr"); ("kernel"%string, OVOther tt)]] (estimator1 bucket1 "cv_risk", heap1 NSNone []))
  = Ok (OOParams [("k_bucket"%string, Some bucket1); ("method"%string, Some (OVStr "align/corr"));
                  ("C"%string, Some (OVOther tt)); ("shrinking"%string, Some (OVOther tt)); ("tol"%string, Some (OVOther tt))]).
Proof. exact (@pf_C58_optimal_example). Qed.
Print Assumptions C58_optimal_example.

(** C70 is false: the support vector machine is trained on the kernel matrix with kernel='rbf', that is,
    as if the rows of the kernel matrix were feature vectors. *)
Theorem C70_refuted :
  snd (ofit1 x12 tt tt (estimator1 bucket1 "cv_risk", heap1 NSNone [])) = Ok tt /\
  o_model (fst (fst (ofit1 x12 tt tt (estimator1 bucket1 "cv_risk", heap1 NSNone []))))
  = Some ("rbf"%string, mkArr Dense (mkMat 2 2 [[Fin 1; Fin 2]; [Fin 2; Fin 4]])).
Proof. exact (@pf_C70_refuted). Qed.
Print Assumptions C70_refuted.

(** C71 is false: the default estimator cannot be trained on [[0], [1]]. *)
Theorem C71_refuted :
  snd (ofit1 (mkNd [2; 1] [Fin 0; Fin 1]) tt tt (estimator1 (OVStr "exhaustive") "cv_risk", mkW [] [])) = Raise KMNormError.
Proof. exact (@pf_C71_refuted). Qed.
Print Assumptions C71_refuted.

(** C71_partial applies: the default estimator can be trained on [[2], [3]]. *)
Theorem C71_example :
  snd (ofit1 (rsample 2 1 (fun i _ => INR (2 + i))) tt tt (estimator1 (OVStr "exhaustive") "cv_risk", mkW [] [])) = Ok tt.
Proof. exact (@pf_C71_example). Qed.
Print Assumptions C71_example.

(** C06: so for every built-in kernel. *)
Theorem C06_builtin : forall {U} k nrm (pre post : list (op xr U)) x y n m d, admissible x y n m d ->
  trace xN post (after xN (builtin k) nrm pre x y []) = trace xN post (after xN (builtin k) nrm [] x y []).
Proof. exact (@pf_C06_builtin). Qed.
Print Assumptions C06_builtin.
