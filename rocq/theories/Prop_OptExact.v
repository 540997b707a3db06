(** C71, exactly: when the optimal-kernel machines can be trained.
    Generated by tools/split_props.py from OptExact.v: statements only, each closed by [exact]. *)
From Coq Require Import String Reals List Arith ZArith Bool Lia Lra.
Import ListNotations.
From Verif Require Import Prelude MatModel UtilsModel KMModel SpecKM XReal OpsModel SpecLinAlg SpecKernels KernelsModel
  KMXModel SpecKMX SetModel SpecSet BucketModel SpecBucket RankModel SpecRank AlgoModel SpecAlgo SpecOpt.
From Verif Require Import MatFacts MFacts KMFacts KMInv KMTotal KMHist KMHist2 KMProps RSum OpsFacts OpsProps KernelFacts KMXProps KMSteady
  SetFacts SetFacts2 SetProps ContProps CompositeFacts BucketProps RankFacts RankProps AlgoFacts AlgoProps OptFacts SpecOptCases OptProps CompositeProps.
From Verif Require Import OptExact.
Local Open Scope list_scope.
Local Open Scope nat_scope.

(** Some kernel that is offered normalised has a self-similarity within 1e-8 of zero. *)
Definition vanishing (Ks : list (kernel xr xr * bool)) (n d : nat) (x : ndarray xr) : Prop :=
  exists K v i r, In (K, true) Ks /\ never_raises K v x None n n d /\ i < n /\
    v (row_of d x i) (row_of d x i) = Fin r /\ (Rabs r <= tiny)%R.

(** C71, for every bucket or strategy whose kernels return on the training data and with finite
    cross-validation scores ('cv_risk', the default method): fit raises KMNormError if some kernel that
    is offered normalised has a self-similarity within 1e-8 of zero, and otherwise trains the support
    vector machine on one of the kernel matrices. *)
Theorem C71_bucket :
  forall {U XIn YIn W Y F P Q} (S : sklearn XIn YIn W Y F P) self_fit numbers best_score numeric C
         data y wt (o : optimal Y F Q) (w : world xr xr U) n d x ys m num Ks e,
    sk_check_X_y S true data y = Ok (x, ys) -> is_sample x n d -> numeric (nd_data x) = true ->
    dict_get (o_params o) "method" = Some (OVStr m) -> lower m = "cv_risk"%string ->
    offers (dict_get (o_params o) "k_bucket") w num Ks -> num = NSNone \/ num = NSOne n -> Ks <> [] ->
    (forall K nrm, In (K, nrm) Ks -> kfmt K = true /\ exists v, never_raises K v x None n n d) ->
    get_estimator (if o_regressor o then "SVR" else "SVC")%string = Ok e ->
    (forall G, exists r, best_score e 3%Z G ys = Ok (Fin r)) ->
    (vanishing Ks n d x ->
       snd (optimal_fit S self_fit numbers best_score numeric C data y wt (o, w)) = Raise KMNormError) /\
    (~ vanishing Ks n d x ->
       exists G, snd (optimal_fit S self_fit numbers best_score numeric C data y wt (o, w))
                 = snd (self_fit (opt_svm o) (o_model o) G ys wt)).
Proof. exact (@pf_C71_bucket). Qed.
Print Assumptions C71_bucket.

(** The rows that a strategy cannot cope with: (nearly) zero, or, for 'exhaustive', with a squared norm
    so close to 2 that tanh(<x,x> - 2) is (nearly) zero. *)
Definition bad_row (strategy : string) (d : nat) (x : nat -> R) : Prop :=
  (inner d x x <= tiny)%R \/
  (lower strategy = "exhaustive"%string /\ (Rabs (tanh (-2 + inner d x x)) <= tiny)%R).

(** C71, exactly, for the strategies (the default k_bucket) on finite training data, with the default
    method 'cv_risk' and finite cross-validation scores: fit raises KMNormError if the data have a bad
    row, and otherwise trains the support vector machine on one of the kernel matrices. *)
Theorem C71_exact :
  forall {U XIn YIn W Y F P Q} (S : sklearn XIn YIn W Y F P) self_fit numbers best_score numeric C
         data y wt (o : optimal Y F Q) (w : world xr xr U) n d X ys m s e,
    sk_check_X_y S true data y = Ok (rsample n d X, ys) -> numeric (nd_data (rsample n d X)) = true ->
    dict_get (o_params o) "method" = Some (OVStr m) -> lower m = "cv_risk"%string ->
    dict_get (o_params o) "k_bucket" = Some (OVStr s) -> strategy_kernels s <> None ->
    get_estimator (if o_regressor o then "SVR" else "SVC")%string = Ok e ->
    (forall G, exists r, best_score e 3%Z G ys = Ok (Fin r)) ->
    ((exists i, i < n /\ bad_row s d (X i)) ->
       snd (optimal_fit S self_fit numbers best_score numeric C data y wt (o, w)) = Raise KMNormError) /\
    ((forall i, i < n -> ~ bad_row s d (X i)) ->
       exists G, snd (optimal_fit S self_fit numbers best_score numeric C data y wt (o, w))
                 = snd (self_fit (opt_svm o) (o_model o) G ys wt)).
Proof. exact (@pf_C71_exact). Qed.
Print Assumptions C71_exact.

(** A row of squared norm 2 is as bad as a zero row: the default estimator cannot be trained on the points
    (0, 1) and (1, 1), although both are far from zero; 'light' can. *)
Theorem C71_norm_refuted :
  let X := fun i k => if (i =? 0) && (k =? 0) then 0%R else 1%R in
  snd (ofit1 (rsample 2 2 X) tt tt (estimator1 (OVStr "exhaustive") "cv_risk", mkW [] [])) = Raise KMNormError /\
  snd (ofit1 (rsample 2 2 X) tt tt (estimator1 (OVStr "light") "cv_risk", mkW [] [])) = Ok tt.
Proof. exact (@pf_C71_norm_refuted). Qed.
Print Assumptions C71_norm_refuted.
