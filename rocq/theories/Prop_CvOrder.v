(** What the scores of cross-validation rankings do not depend on (C116).
    Generated by tools/split_props.py from CvOrderProps.v: statements only, each closed by [exact]. *)
From Coq Require Import String Reals List Arith ZArith Bool Permutation Lia Lra.
Import ListNotations.
From Verif Require Import Prelude MatModel UtilsModel IndexModel KMModel SpecKM XReal OpsModel SpecLinAlg
  KernelsModel SpecKernels KMXModel SpecKMX SetModel SpecSet BucketModel SpecBucket CompositeModel SpecComposite RankModel SpecRank.
From Verif Require Import MatFacts RSum OpsFacts KMXProps ContProps CompositeProps RankProps OrderProps RecodeProps.
Local Open Scope list_scope.
Local Open Scope R_scope.
From Verif Require Import CvOrderProps.
Local Open Scope list_scope.
Local Open Scope R_scope.

(** With method 'cv_risk' too, every member has the same score in whatever order the members are in the set. *)
Theorem C116_cv_order :
  forall {U T} numbers best_score (w : world xr xr U) k num ms k' num' ms' Ks (t : T) p m e rs,
    set_is w k num ms -> set_is w k' num' ms' -> Permutation ms ms' -> fulls w ms Ks ->
    lower m = "cv_risk"%string -> cv_params p -> ms <> [] ->
    get_estimator (default "SVM"%string (rp_estimator p)) = Ok e ->
    Forall2 (fun K r => best_score e (default 3%Z (rp_folds p)) K t = Ok (Fin r)) Ks rs ->
    exists ss ss', snd (rank_kernels numbers best_score k t m p w) = Ok ss /\
      snd (rank_kernels numbers best_score k' t m p w) = Ok ss' /\
      Permutation (combine ms ss) (combine ms' ss').
Proof. exact (@pf_C116_cv_order). Qed.
Print Assumptions C116_cv_order.

(** The unit and the origin of the cross-validation scores do not matter, if the spread stays above 1e-8. *)
Theorem C116_cv_affine :
  forall {U T} numbers best_score best_score' (w : world xr xr U) k num ms Ks (t : T) p m e rs mn mx a s,
    set_is w k num ms -> fulls w ms Ks -> lower m = "cv_risk"%string -> cv_params p ->
    get_estimator (default "SVM"%string (rp_estimator p)) = Ok e ->
    Forall2 (fun K r => best_score e (default 3%Z (rp_folds p)) K t = Ok (Fin r)) Ks rs ->
    Forall2 (fun K r => best_score' e (default 3%Z (rp_folds p)) K t = Ok (Fin (a + s * r))) Ks rs ->
    extremes rs mn mx -> 0 < s -> tiny < mx - mn -> tiny < s * (mx - mn) ->
    snd (rank_kernels numbers best_score' k t m p w) = snd (rank_kernels numbers best_score k t m p w).
Proof. exact (@pf_C116_cv_affine). Qed.
Print Assumptions C116_cv_affine.

(** A case: the two sets of [w_order] (Prop_Order.v), scored by the first entry of the matrix. *)
Example C116_cv_example :
  set_is w_order 0 (NSOne 2) [0; 1]%nat /\ set_is w_order 1 (NSOne 2) [1; 0]%nat /\ Permutation [0; 1]%nat [1; 0]%nat /\
  exists Ks r, fulls w_order [0; 1]%nat Ks /\ Forall2 (fun K r => Ok (xget (amat K) 0 0) = Ok (Fin r)) Ks [r; 3] /\ r = 1.
Proof.
  split; [eexists; eexists; calc; reflexivity|]. split; [eexists; eexists; calc; reflexivity|]. split; [apply perm_swap|].
  eexists. eexists. split.
  - constructor; [calc; reflexivity|]. constructor; [calc; reflexivity|]. constructor.
  - split; [repeat (constructor; [calc; reflexivity|]); constructor|]. lra.
Qed.
