(** Concrete cases of OptimalKernelSVC: a stand-in for sklearn, a heap and estimators. *)
From Coq Require Import String Reals List Arith ZArith Bool.
Import ListNotations.
From Verif Require Import Prelude MatModel UtilsModel KMModel SpecKM XReal OpsModel SpecLinAlg SpecKernels KernelsModel
  KMXModel SpecKMX SetModel SpecSet BucketModel SpecBucket RankModel SpecRank AlgoModel SpecAlgo SpecOpt.
From Verif Require Import ContProps.

(** A stand-in for sklearn that accepts everything, remembers the kernel parameter of the support vector
    machine and the matrix it was trained on, and returns these together with the test matrix; all
    cross-validation scores are 0. *)
Definition learnt : Type := option (string * arr xr).
Definition sk1 : sklearn (ndarray xr) unit unit unit learnt (learnt * arr xr) :=
  mkSk (fun _ X _ => Ok (X, tt)) (fun X => Ok X) (fun y => Ok y) (fun _ p => Ok p) (fun p => Ok p)
       None (fun _ _ _ _ _ => (None, Ok tt)) (fun _ f G => Ok (f, G)).
Definition fit1 (v : svm_self unit) (f : learnt) (G : arr xr) (ys wt : unit) : learnt * res unit :=
  (Some (self_kernel v, G), Ok tt).
Definition predict1 (v : svm_self unit) (f : learnt) (G : arr xr) : res (learnt * arr xr) := Ok (f, G).
Definition score1 (e : svm * list R) (k : Z) (G : arr xr) (ys : unit) : res xr := Ok (Fin 0).
Definition numbers1 (ys : unit) : res (list xr) := Ok [Fin 1; Fin (-1)].
Definition numeric1 (l : list xr) : bool := true.
Definition ofit1 := optimal_fit (U:=unit) sk1 fit1 numbers1 score1 numeric1 xC.
Definition opredict1 := optimal_predict (U:=unit) sk1 predict1.
Definition orun1 := orun (U:=unit) sk1 fit1 predict1 numbers1 score1 numeric1 xC.
(** A heap with a bucket holding the linear kernel, not normalised, as it is after the operations [pre];
    an estimator with that bucket, or with a strategy. *)
Definition heap1 (num : numsamp) (pre : list (op xr unit)) : world xr xr unit :=
  mkW [OKM (before xN (builtin KLinear) false pre)] [mkSet num true [0] None].
Definition estimator1 (bucket : oval unit) (method : string) : optimal unit learnt unit :=
  optimal_new false None (fun n => if String.eqb n "k_bucket" then bucket
                                   else if String.eqb n "method" then OVStr method else OVOther tt).
Definition bucket1 : oval unit := OVBucket (mkBucket 0 false).
