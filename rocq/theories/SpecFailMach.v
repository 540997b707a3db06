(** Vocabulary to state what a failed [fit] of a KernelMachine leaves behind. *)
From Coq Require Import String Reals List Arith ZArith Bool.
Import ListNotations.
From Verif Require Import Prelude MatModel KMModel SpecKM XReal OpsModel KMXModel SetModel SpecSet BucketModel
  RankModel SpecRank AlgoModel SpecAlgo.

Section SpecFailMach.
  Context {XIn YIn W Y F P : Type}.
  Variable S : sklearn XIn YIn W Y F P.

  (** The predictions of the machine are those of the support vector machine [v], as trained in [f], on
      the matrix between the test points and the points [x], cast to the type of the targets [ys]; with
      the current kernel and flag of the machine. *)
  Definition predicts_with (m : machine Y F) (x : ndarray xr) (ys : Y) (v : svm) (f : F) : Prop :=
    forall X z n n' d K k nrm,
      m_k_func m = PKernel K -> m_normalized m = PBool nrm ->
      sk_check_array S X = Ok z -> is_sample z n' d -> is_sample x n d ->
      never_raises K k z (Some x) n' n d -> kfmt K = true ->
      returned S (MPredict X) m =
        res_map MPred (rbind (cross_gram nrm k n' n d z x)
                             (fun G => rbind (sk_predict S v f G) (sk_cast S ys))).

  (** The kernel matrix of the points [x], as the machine [m] asks for it. *)
  Definition matrix_of (m : machine Y F) (K : kernel xr xr) (nrm : bool) (x : ndarray xr) : res (arr xr) :=
    snd (full xN (after (U := unit) xN (shift (calls_made m) K) nrm [] x None [])).

  (** Why fit(X, y, w) of [m] raises [e], and which training data [x], [ys] and which support vector
      machine [v], trained in [f], are then in place. The machine was trained on [x0], [y0] with the
      support vector machine [v0] and the outcome [f0]. *)
  Inductive failed_fit (m : machine Y F) (X : XIn) (y : YIn) (w : W) (x0 : ndarray xr) (y0 : Y) (v0 : svm)
            (f0 : F) : exn -> ndarray xr -> Y -> svm -> F -> Prop :=
  | rejected_data : forall e,                        (* all old *)
      sk_check_X_y S (m_regressor m) X y = Raise e ->
      failed_fit m X y w x0 y0 v0 f0 e x0 y0 v0 f0
  | rejected_targets : forall e x y1,                (* new data, not converted; old support vector machine *)
      m_regressor m = true -> sk_check_X_y S true X y = Ok (x, y1) -> sk_float S y1 = Raise e ->
      failed_fit m X y w x0 y0 v0 f0 e x y1 v0 f0
  | wrong_parameters : forall x ys,                  (* new data, old support vector machine *)
      validated S (m_regressor m) X y x ys ->
      (forall K nrm, ~ (m_k_func m = PKernel K /\ m_normalized m = PBool nrm)) ->
      failed_fit m X y w x0 y0 v0 f0 TypeError x ys v0 f0
  | no_learner_name : forall x ys K nrm,             (* new data, old support vector machine *)
      validated S (m_regressor m) X y x ys -> m_k_func m = PKernel K -> m_normalized m = PBool nrm ->
      (forall s, m_learner_id m <> PStr s) ->
      failed_fit m X y w x0 y0 v0 f0 AttributeError x ys v0 f0
  | unknown_learner : forall e x ys K nrm s,         (* new data, old support vector machine *)
      validated S (m_regressor m) X y x ys -> m_k_func m = PKernel K -> m_normalized m = PBool nrm ->
      m_learner_id m = PStr s -> get_estimator s = Raise e ->
      failed_fit m X y w x0 y0 v0 f0 e x ys v0 f0
  | no_matrix : forall e x ys K nrm s v g,           (* new data, an untrained support vector machine *)
      validated S (m_regressor m) X y x ys -> m_k_func m = PKernel K -> m_normalized m = PBool nrm ->
      m_learner_id m = PStr s -> get_estimator s = Ok (v, g) -> matrix_of m K nrm x = Raise e ->
      failed_fit m X y w x0 y0 v0 f0 e x ys v (sk_new S)
  | no_training : forall e x ys K nrm s v g G,       (* new data, what the training left *)
      validated S (m_regressor m) X y x ys -> m_k_func m = PKernel K -> m_normalized m = PBool nrm ->
      m_learner_id m = PStr s -> get_estimator s = Ok (v, g) -> matrix_of m K nrm x = Ok G ->
      snd (sk_fit S v (sk_new S) G ys w) = Raise e ->
      failed_fit m X y w x0 y0 v0 f0 e x ys v (fst (sk_fit S v (sk_new S) G ys w))
  | no_classes : forall x ys K nrm s v g G,          (* all new: the training succeeded (C72) *)
      validated S (m_regressor m) X y x ys -> m_k_func m = PKernel K -> m_normalized m = PBool nrm ->
      m_learner_id m = PStr s -> get_estimator s = Ok (v, g) -> matrix_of m K nrm x = Ok G ->
      snd (sk_fit S v (sk_new S) G ys w) = Ok tt -> m_regressor m = false -> svm_regression v = true ->
      failed_fit m X y w x0 y0 v0 f0 AttributeError x ys v (fst (sk_fit S v (sk_new S) G ys w)).

  (** check_X_y returns two-dimensional arrays. *)
  Definition checks_samples : Prop :=
    forall b X y x ys, sk_check_X_y S b X y = Ok (x, ys) -> exists n d, is_sample x n d.
End SpecFailMach.
