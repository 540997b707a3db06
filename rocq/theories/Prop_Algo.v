(** The estimators KernelMachine and KernelMachineRegressor: properties C56 - C59, C69, C72.
    Generated by tools/split_props.py from AlgoProps.v: statements only, each closed by [exact]. *)
From Coq Require Import String Reals List Arith ZArith Bool Lia Lra.
Import ListNotations.
From Verif Require Import Prelude MatModel UtilsModel KMModel SpecKM XReal OpsModel SpecLinAlg KernelsModel
  KMXModel SetModel SpecSet BucketModel RankModel SpecRank AlgoModel SpecAlgo.
From Verif Require Import MatFacts MFacts KMFacts KMInv KMHist KMHist2 KMProps OpsFacts OpsProps KMXProps SetFacts2
  AlgoFacts.
From Verif Require Import AlgoProps.
Local Open Scope list_scope.
Local Open Scope nat_scope.

(** C56: fit hands the support vector machine the kernel matrix of the validated training data and
    the validated targets, keeps the outcome, and passes its exceptions on. (The last line: C72.) *)
Theorem C56_fit :
  forall {XIn YIn W Y F P} (S : sklearn XIn YIn W Y F P) m X y w x ys n d K k nrm s eg,
    validated S (m_regressor m) X y x ys -> is_sample x n d ->
    m_k_func m = PKernel K -> m_normalized m = PBool nrm -> m_learner_id m = PStr s ->
    get_estimator s = Ok eg -> never_raises K k x None n n d -> kfmt K = true ->
    let m' := fst (machine_fit S X y w m) in
    m_train m' = Some (x, ys) /\
    (forall G, gram nrm k n d x = Ok G ->
       m_estimator m' = Some (fst eg, fst (sk_fit S (fst eg) (sk_new S) G ys w))) /\
    snd (machine_fit S X y w m) =
      rbind (gram nrm k n d x) (fun G =>
      rbind (snd (sk_fit S (fst eg) (sk_new S) G ys w)) (fun _ =>
      if negb (m_regressor m) && svm_regression (fst eg) then Raise AttributeError else Ok tt)).
Proof. exact (@pf_C56_fit). Qed.
Print Assumptions C56_fit.

(** C56: predict hands it the matrix of kernel values between test points (rows) and training points
    (columns). *)
Theorem C56_predict :
  forall {XIn YIn W Y F P} (S : sklearn XIn YIn W Y F P) m X z x ys n n' d K k nrm e f,
    m_km m <> None -> m_train m = Some (x, ys) -> m_estimator m = Some (e, f) ->
    m_k_func m = PKernel K -> m_normalized m = PBool nrm ->
    sk_check_array S X = Ok z -> is_sample z n' d -> is_sample x n d ->
    never_raises K k z (Some x) n' n d -> kfmt K = true ->
    snd (machine_predict S X m) =
      rbind (cross_gram nrm k n' n d z x) (fun G => rbind (sk_predict S e f G) (sk_cast S ys)).
Proof. exact (@pf_C56_predict). Qed.
Print Assumptions C56_predict.

(** C56: both together. After a fit that succeeds, the predictions for any test data are those of the
    support vector machine trained on the kernel matrix of the training data, for the matrix of kernel
    values between test and training points. *)
Theorem C56_fit_predict :
  forall {XIn YIn W Y F P} (S : sklearn XIn YIn W Y F P) m X y w x ys n d K k nrm s eg G,
    validated S (m_regressor m) X y x ys -> is_sample x n d ->
    m_k_func m = PKernel K -> m_normalized m = PBool nrm -> m_learner_id m = PStr s ->
    get_estimator s = Ok eg -> never_raises K k x None n n d -> kfmt K = true ->
    gram nrm k n d x = Ok G -> snd (sk_fit S (fst eg) (sk_new S) G ys w) = Ok tt ->
    m_regressor m = true \/ svm_regression (fst eg) = false ->
    snd (machine_fit S X y w m) = Ok tt /\
    forall X' z n', sk_check_array S X' = Ok z -> is_sample z n' d -> never_raises K k z (Some x) n' n d ->
      snd (machine_predict S X' (fst (machine_fit S X y w m))) =
        rbind (cross_gram nrm k n' n d z x) (fun G' =>
        rbind (sk_predict S (fst eg) (fst (sk_fit S (fst eg) (sk_new S) G ys w)) G') (sk_cast S ys)).
Proof. exact (@pf_C56_fit_predict). Qed.
Print Assumptions C56_fit_predict.

(** C56: for a symmetric kernel, testing on the training data gives the training matrix. *)
Theorem C56_training_data :
  forall k nrm n d x,
    (forall i j, i < n -> j < n -> k (row_of d x i) (row_of d x j) = k (row_of d x j) (row_of d x i)) ->
    cross_gram nrm k n n d x x = gram nrm k n d x.
Proof. exact (@pf_C56_training_data). Qed.
Print Assumptions C56_training_data.

(** C57: after any program, further predictions and reads do not change what predict returns, be it
    predictions or an exception, for kernels whose outcome does not depend on earlier calls. *)
Theorem C57_repeatable :
  forall {XIn YIn W Y F P} (S : sklearn XIn YIn W Y F P) m os X,
    only_reads os -> (forall K, m_k_func m = PKernel K -> steady K) ->
    returned S (MPredict X) (mrun S os m) = returned S (MPredict X) m.
Proof. exact (@pf_C57_repeatable). Qed.
Print Assumptions C57_repeatable.

(** C57: predict before any call of fit raises NotFittedError. *)
Theorem C57_before_fit :
  forall {XIn YIn W Y F P} (S : sklearn XIn YIn W Y F P) regressor a b c os X,
    no_fit os -> returned S (MPredict X) (mrun S os (machine_new regressor a b c)) = Raise NotFittedErr.
Proof. exact (@pf_C57_before_fit). Qed.
Print Assumptions C57_before_fit.

(** C58: set_params followed by get_params gives the new values of the known names and the old values
    of the others; set_params never raises. *)
Theorem C58_round_trip :
  forall {XIn YIn W Y F P} (S : sklearn XIn YIn W Y F P) (m : machine Y F) ps a b c,
    NoDup (map fst ps) ->
    returned S MGet m = Ok (MParams [("k_func"%string, a); ("normalized"%string, b); ("learner_id"%string, c)]) ->
    returned S (MSet ps) m = Ok MUnit /\
    returned S MGet (mrun S [MSet ps] m) =
      Ok (MParams [("k_func"%string, given ps "k_func" a); ("normalized"%string, given ps "normalized" b);
                   ("learner_id"%string, given ps "learner_id" c)]).
Proof. exact (@pf_C58_round_trip). Qed.
Print Assumptions C58_round_trip.

(** C58: the parameters of get_params are always those three; giving back what get_params returned
    changes nothing, and neither do unknown names. *)
Theorem C58_no_change :
  forall {XIn YIn W Y F P} (S : sklearn XIn YIn W Y F P) (m : machine Y F) ps,
    (returned S MGet m = Ok (MParams ps) \/
     NoDup (map fst ps) /\ forall n, In n (map fst ps) -> ~ In n ["k_func"; "normalized"; "learner_id"]%string) ->
    mrun S [MSet ps] m = m.
Proof. exact (@pf_C58_no_change). Qed.
Print Assumptions C58_no_change.

(** C59, the part that holds: setting anything but k_func and normalized does not change what predict
    does. The full statement would allow any [ps]; it is false (C59_refuted). *)
Theorem C59_partial :
  forall {XIn YIn W Y F P} (S : sklearn XIn YIn W Y F P) (m : machine Y F) ps X,
    NoDup (map fst ps) -> ~ In "k_func"%string (map fst ps) -> ~ In "normalized"%string (map fst ps) ->
    returned S (MPredict X) (mrun S [MSet ps] m) = returned S (MPredict X) m.
Proof. exact (@pf_C59_partial). Qed.
Print Assumptions C59_partial.

(** C59, what happens in general: predict uses the kernel and the flag set last, with the support
    vector machine trained on the matrix of the old kernel. *)
Theorem C59_uses_new_kernel :
  forall {XIn YIn W Y F P} (S : sklearn XIn YIn W Y F P) m X z x ys n n' d K k nrm e f,
    m_km m <> None -> m_train m = Some (x, ys) -> m_estimator m = Some (e, f) ->
    sk_check_array S X = Ok z -> is_sample z n' d -> is_sample x n d ->
    never_raises K k z (Some x) n' n d -> kfmt K = true ->
    returned S (MPredict X)
      (mrun S [MSet [("k_func"%string, PKernel K); ("normalized"%string, PBool nrm)]] m) =
      res_map MPred (rbind (cross_gram nrm k n' n d z x) (fun G => rbind (sk_predict S e f G) (sk_cast S ys))).
Proof. exact (@pf_C59_uses_new_kernel). Qed.
Print Assumptions C59_uses_new_kernel.

(** C69, the part that holds: a fit whose data are rejected by check_X_y changes nothing. The full
    statement would cover every exception of fit; it is false (C69_refuted). *)
Theorem C69_partial :
  forall {XIn YIn W Y F P} (S : sklearn XIn YIn W Y F P) (m : machine Y F) X y w e,
    sk_check_X_y S (m_regressor m) X y = Raise e -> mstep S (MFit X y w) m = (m, Raise e).
Proof. exact (@pf_C69_partial). Qed.
Print Assumptions C69_partial.

(** C69: whenever a fitted machine is refitted with an unknown learner_id, fit raises
    NotImplementedError, and predict then combines the new training data with the old support vector
    machine. *)
Theorem C69_mixed :
  forall {XIn YIn W Y F P} (S : sklearn XIn YIn W Y F P) m X y w x ys n d K k nrm s e f,
    validated S (m_regressor m) X y x ys -> is_sample x n d ->
    m_k_func m = PKernel K -> m_normalized m = PBool nrm -> m_learner_id m = PStr s ->
    get_estimator s = Raise NotImplementedErr -> m_estimator m = Some (e, f) ->
    kfmt K = true ->
    snd (machine_fit S X y w m) = Raise NotImplementedErr /\
    forall X' z n', sk_check_array S X' = Ok z -> is_sample z n' d -> never_raises K k z (Some x) n' n d ->
      snd (machine_predict S X' (fst (machine_fit S X y w m))) =
        rbind (cross_gram nrm k n' n d z x) (fun G => rbind (sk_predict S e f G) (sk_cast S ys)).
Proof. exact (@pf_C69_mixed). Qed.
Print Assumptions C69_mixed.

(** C72, the part that holds: with validated data, a kernel whose matrix can be computed and a support
    vector machine that trains without exception, fit succeeds for learner_id 'SVC' and 'SVM' in any
    upper or lower case, and for 'SVR' in KernelMachineRegressor. The full statement would allow 'SVR'
    in KernelMachine too; it is false (C72_refuted). *)
Theorem C72_partial :
  forall {XIn YIn W Y F P} (S : sklearn XIn YIn W Y F P) m X y w x ys n d K k nrm s G,
    validated S (m_regressor m) X y x ys -> is_sample x n d ->
    m_k_func m = PKernel K -> m_normalized m = PBool nrm -> m_learner_id m = PStr s ->
    never_raises K k x None n n d -> kfmt K = true -> gram nrm k n d x = Ok G ->
    (forall v f, snd (sk_fit S v f G ys w) = Ok tt) ->
    lower s = "svc"%string \/ lower s = "svm"%string \/ lower s = "svr"%string /\ m_regressor m = true ->
    snd (machine_fit S X y w m) = Ok tt.
Proof. exact (@pf_C72_partial). Qed.
Print Assumptions C72_partial.

(** C72, KernelMachine with learner_id='SVR': fit never succeeds. *)
Theorem C72_svr :
  forall {XIn YIn W Y F P} (S : sklearn XIn YIn W Y F P) m X y w x ys n d K k nrm s G,
    validated S (m_regressor m) X y x ys -> is_sample x n d ->
    m_k_func m = PKernel K -> m_normalized m = PBool nrm -> m_learner_id m = PStr s ->
    never_raises K k x None n n d -> kfmt K = true -> gram nrm k n d x = Ok G ->
    (forall v f, snd (sk_fit S v f G ys w) = Ok tt) ->
    lower s = "svr"%string -> m_regressor m = false ->
    snd (machine_fit S X y w m) = Raise AttributeError.
Proof. exact (@pf_C72_svr). Qed.
Print Assumptions C72_svr.

(** A stand-in for sklearn that accepts everything, remembers the matrix it was trained on and
    returns it together with the test matrix. *)
Definition sk0 : sklearn (ndarray xr) unit unit unit (option (arr xr)) (option (arr xr) * arr xr) :=
  mkSk (fun _ X _ => Ok (X, tt)) (fun X => Ok X) (fun y => Ok y) (fun _ p => Ok p) (fun p => Ok p)
       None (fun _ _ G _ _ => (Some G, Ok tt)) (fun _ f G => Ok (f, G)).
(** The sample [[3], [4]]. *)
Definition x34 : ndarray xr := mkNd [2; 1] [Fin 3; Fin 4].
Definition linear_machine (regressor : bool) (learner : string) : machine unit (option (arr xr)) :=
  machine_new regressor (PKernel (builtin KLinear)) (PStr learner) (PBool false).

(** C56 applies: training on [[1], [2]] with the linear kernel and predicting on [[3], [4]] hands over
    [[1, 2], [2, 4]] and [[3, 6], [4, 8]]. *)
Theorem C56_example :
  returned sk0 (MPredict x34) (mrun sk0 [MFit x12 tt tt] (linear_machine false "SVC")) =
  Ok (MPred (Some (mkArr Dense (mkMat 2 2 [[Fin 1; Fin 2]; [Fin 2; Fin 4]])),
             mkArr Dense (mkMat 2 2 [[Fin 3; Fin 6]; [Fin 4; Fin 8]]))).
Proof. exact (@pf_C56_example). Qed.
Print Assumptions C56_example.

(** C57 applies to the built-in kernels: they are steady. *)
Theorem C57_builtin : forall k, steady (builtin k).
Proof. exact (@pf_C57_builtin). Qed.
Print Assumptions C57_builtin.

(** C57: an instance with other predictions in between, one of which raises. *)
Theorem C57_example :
  returned sk0 (MPredict (mkNd [1; 2] [Fin 1; Fin 1])) (mrun sk0 [MFit x12 tt tt] (linear_machine false "SVC")) =
    Raise ValueError /\
  returned sk0 (MPredict x34) (mrun sk0 [MPredict x12; MPredict (mkNd [1; 2] [Fin 1; Fin 1]); MGet]
                                 (mrun sk0 [MFit x12 tt tt] (linear_machine false "SVC"))) =
  Ok (MPred (Some (mkArr Dense (mkMat 2 2 [[Fin 1; Fin 2]; [Fin 2; Fin 4]])),
             mkArr Dense (mkMat 2 2 [[Fin 3; Fin 6]; [Fin 4; Fin 8]]))).
Proof. exact (@pf_C57_example). Qed.
Print Assumptions C57_example.

(** C58: an instance. *)
Theorem C58_example :
  returned sk0 MGet (mrun sk0 [MSet [("normalized"%string, PBool true); ("gamma"%string, POther 0)]]
                          (linear_machine true "SVR")) =
  Ok (MParams [("k_func"%string, PKernel (builtin KLinear)); ("normalized"%string, PBool true);
               ("learner_id"%string, PStr "SVR")]).
Proof. exact (@pf_C58_example). Qed.
Print Assumptions C58_example.

(** C59 is false: after set_params(k_func=...) without a new fit, predict uses the new kernel. *)
Theorem C59_refuted :
  exists (m : machine unit (option (arr xr))) ps,
    m = mrun sk0 [MFit x12 tt tt] (linear_machine false "SVC") /\
    returned sk0 (MPredict x34) m =
      Ok (MPred (Some (mkArr Dense (mkMat 2 2 [[Fin 1; Fin 2]; [Fin 2; Fin 4]])),
                 mkArr Dense (mkMat 2 2 [[Fin 3; Fin 6]; [Fin 4; Fin 8]]))) /\
    returned sk0 (MPredict x34) (mrun sk0 [MSet ps] m) =
      Ok (MPred (Some (mkArr Dense (mkMat 2 2 [[Fin 1; Fin 2]; [Fin 2; Fin 4]])),
                 mkArr Dense (mkMat 2 2 [[Fin 9; Fin 36]; [Fin 16; Fin 64]]))).
Proof. exact (@pf_C59_refuted). Qed.
Print Assumptions C59_refuted.

(** C69 is false: a refit that raises (here because of an unknown learner_id) makes predict use the
    new training data with the support vector machine trained on the old ones. *)
Theorem C69_refuted :
  exists (m : machine unit (option (arr xr))),
    m = mrun sk0 [MFit x12 tt tt; MSet [("learner_id"%string, PStr "KRR")]] (linear_machine false "SVC") /\
    returned sk0 (MFit x34 tt tt) m = Raise NotImplementedErr /\
    returned sk0 (MPredict x12) m =
      Ok (MPred (Some (mkArr Dense (mkMat 2 2 [[Fin 1; Fin 2]; [Fin 2; Fin 4]])),
                 mkArr Dense (mkMat 2 2 [[Fin 1; Fin 2]; [Fin 2; Fin 4]]))) /\
    returned sk0 (MPredict x12) (mrun sk0 [MFit x34 tt tt] m) =
      Ok (MPred (Some (mkArr Dense (mkMat 2 2 [[Fin 1; Fin 2]; [Fin 2; Fin 4]])),
                 mkArr Dense (mkMat 2 2 [[Fin 3; Fin 4]; [Fin 6; Fin 8]]))).
Proof. exact (@pf_C69_refuted). Qed.
Print Assumptions C69_refuted.

(** C69, a new machine: if the first fit raises because of an unknown learner_id, predict then raises
    AttributeError instead of NotFittedError. *)
Theorem C69_refuted_first :
  returned sk0 (MFit x12 tt tt) (linear_machine false "KRR") = Raise NotImplementedErr /\
  returned sk0 (MPredict x12) (mrun sk0 [MFit x12 tt tt] (linear_machine false "KRR")) = Raise AttributeError.
Proof. exact (@pf_C69_refuted_first). Qed.
Print Assumptions C69_refuted_first.

(** C72 is false: KernelMachine(learner_id='SVR') raises AttributeError in fit, while SVC works and
    KernelMachineRegressor accepts both. *)
Theorem C72_refuted :
  returned sk0 (MFit x12 tt tt) (linear_machine false "SVR") = Raise AttributeError /\
  returned sk0 (MFit x12 tt tt) (linear_machine false "SVC") = Ok MUnit /\
  returned sk0 (MFit x12 tt tt) (linear_machine true "SVR") = Ok MUnit /\
  returned sk0 (MFit x12 tt tt) (linear_machine true "SVC") = Ok MUnit.
Proof. exact (@pf_C72_refuted). Qed.
Print Assumptions C72_refuted.
