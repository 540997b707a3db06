(** Vocabulary to state what a failed [fit] of OptimalKernelSVC or OptimalKernelSVR leaves behind. *)
From Coq Require Import String Reals List Arith ZArith Bool.
Import ListNotations.
From Verif Require Import Prelude MatModel KMModel SpecKM XReal OpsModel KMXModel SetModel SpecSet BucketModel
  RankModel SpecRank AlgoModel SpecAlgo SpecOpt.

Section SpecFailOpt.
  Context {U XIn YIn W Y F P Q : Type}.
  Variable S : sklearn XIn YIn W Y F P.
  Variable numbers : Y -> res (list xr).
  Variable best_score : svm * list R -> Z -> arr xr -> Y -> res xr.
  Variable numeric : list xr -> bool.
  Variable C : cmpops xr.
  Notation State := (optimal Y F Q * world xr xr U)%type.

  (** k_bucket is neither a bucket nor the name of a strategy. *)
  Definition no_bucket (v : option (oval Q)) (w : world xr xr U) : Prop :=
    match v with
    | Some (OVBucket b) => nth_error (w_sets w) (b_set b) = None
    | Some (OVStr s) => strategy_kernels s = None
    | _ => True
    end.

  (** fit(X, y, wt) does not come to train the support vector machine: whatever the training would do
      makes no difference. *)
  Definition never_trains (X : XIn) (y : YIn) (wt : W) (s : State) : Prop :=
    forall f g, optimal_fit S f numbers best_score numeric C X y wt s
              = optimal_fit S g numbers best_score numeric C X y wt s.

  (** The same estimator with other training points. *)
  Definition trained_on (x : ndarray xr) (ys : Y) (o : optimal Y F Q) : optimal Y F Q :=
    mkOpt (o_regressor o) (o_params o) (o_copy o) (Some (x, ys)) (o_opt_kernel o) (o_model o).
End SpecFailOpt.
