(** Which samples have a positive definite kernel matrix, and how kernel values order points (C100), in exact
    arithmetic.
    Generated by tools/split_props.py from PosDefProps.v: statements only, each closed by [exact]. *)
From Coq Require Import String List Arith ZArith Bool Reals Lra Lia Psatz.
Import ListNotations.
From Verif Require Import Prelude MatModel MatFacts UtilsModel XReal SpecLinAlg RSum PSDFacts OpsModel OpsFacts KernelsModel
  SpecKernels KernelFacts KernelProps KMXModel IndexModel KMModel SpecKM SpecSample SampleXProps SpecKMX KMProps KMXProps.
Local Open Scope R_scope.
From Verif Require Import PosDefProps.
Local Open Scope R_scope.

(** Positive definite: symmetric, and the quadratic form of every non-zero vector is positive. *)
Definition pos_def (n : nat) (A : nat -> nat -> R) : Prop :=
  symmetric n A /\ forall c, (exists i, (i < n)%nat /\ c i <> 0) -> 0 < quad n A c.

(** No two of the [n] points are the same. *)
Definition distinct (n d : nat) (X : nat -> nat -> R) : Prop :=
  forall i j, (i < n)%nat -> (j < n)%nat -> i <> j -> exists k, (k < d)%nat /\ X i k <> X j k.

(** The function [call] produces a positive definite matrix on the [n] points. *)
Definition pos_def_on (call : ndarray xr -> ndarray xr -> res xr) (n d : nat) (X : nat -> nat -> R) : Prop :=
  exists K, pos_def n K /\
    forall i j, (i < n)%nat -> (j < n)%nat -> call (fvec d (X i)) (fvec d (X j)) = Ok (Fin (K i j)).

(** C100: the matrix of a GaussianKernel (of any bandwidth but NaN) is positive definite exactly if no two of
    the points are the same. *)
Theorem C100_gaussian : forall cast sigma n d X, sigma <> NaN ->
  (pos_def_on (fun x y => kernel_call cast (KGaussian sigma) DFloat x DFloat y) n d X <-> distinct n d X).
Proof. exact (@pf_C100_gaussian). Qed.
Print Assumptions C100_gaussian.

(** C100: so is that of a LaplacianKernel with gamma > 0. *)
Theorem C100_laplacian : forall cast gamma n d X, 0 < gamma ->
  (pos_def_on (fun x y => kernel_call cast (KLaplacian gamma) DFloat x DFloat y) n d X <-> distinct n d X).
Proof. exact (@pf_C100_laplacian). Qed.
Print Assumptions C100_laplacian.

(** C100: the same for kernel matrices, normalised or not, after any history (without the two sparse accesses
    when not normalised): full is positive definite exactly if no two rows of the sample are the same. *)
Theorem C100_matrix :
  forall {U} k nrm (pre post : list (op xr U)) n d X,
    (exists sigma, k = KGaussian sigma /\ sigma <> NaN) \/ (exists gamma, k = KLaplacian gamma /\ 0 < gamma) ->
    no_attach post -> (nrm = true \/ (no_full_sparse post /\ no_whole_index n n post)) ->
    exists B,
      outcome xN OpFull (after xN (builtin k) nrm pre (rsample n d X) None post)
      = Ok (OArr (mkArr Dense (rmat n n B))) /\ (pos_def n B <-> distinct n d X).
Proof. exact (@pf_C100_matrix). Qed.
Print Assumptions C100_matrix.

(** C100: not so a LinearKernel: on more points than features its matrix is never positive definite. *)
Theorem C100_linear : forall cast n d X, (d < n)%nat ->
  ~ pos_def_on (fun x y => kernel_call cast KLinear DFloat x DFloat y) n d X.
Proof. exact (@pf_C100_linear). Qed.
Print Assumptions C100_linear.

(** Two results of kernels compared. *)
Definition res_le (a b : res xr) : Prop := exists r s, a = Ok (Fin r) /\ b = Ok (Fin s) /\ r <= s.

(** C100: the values of a GaussianKernel order pairs of points by their Euclidean distance, the closest
    first. *)
Theorem C100_gaussian_order : forall cast sigma d x y x' y', sigma <> NaN ->
  (res_le (kernel_call cast (KGaussian sigma) DFloat (fvec d x) DFloat (fvec d y))
          (kernel_call cast (KGaussian sigma) DFloat (fvec d x') DFloat (fvec d y'))
   <-> dist2 d x' y' <= dist2 d x y).
Proof. exact (@pf_C100_gaussian_order). Qed.
Print Assumptions C100_gaussian_order.

(** C100: those of a LaplacianKernel by their Manhattan distance. *)
Theorem C100_laplacian_order : forall cast gamma d x y x' y', 0 < gamma ->
  (res_le (kernel_call cast (KLaplacian gamma) DFloat (fvec d x) DFloat (fvec d y))
          (kernel_call cast (KLaplacian gamma) DFloat (fvec d x') DFloat (fvec d y'))
   <-> dist1 d x' y' <= dist1 d x y).
Proof. exact (@pf_C100_laplacian_order). Qed.
Print Assumptions C100_laplacian_order.

(** C100: and those of a Chi2Kernel by the chi-squared statistic. *)
Theorem C100_chi2_order : forall cast gamma d x y x' y', 0 < gamma ->
  (forall k, (k < d)%nat -> 0 <= x k /\ 0 <= y k /\ 0 <= x' k /\ 0 <= y' k) ->
  (res_le (kernel_call cast (KChi2 gamma) DFloat (fvec d x) DFloat (fvec d y))
          (kernel_call cast (KChi2 gamma) DFloat (fvec d x') DFloat (fvec d y'))
   <-> chi2stat d x' y' <= chi2stat d x y).
Proof. exact (@pf_C100_chi2_order). Qed.
Print Assumptions C100_chi2_order.

(** C100: LaplacianKernel (gamma > 0) gives 1 only for equal points, *)
Theorem C100_laplacian_one : forall cast gamma d x y, 0 < gamma ->
  (kernel_call cast (KLaplacian gamma) DFloat (fvec d x) DFloat (fvec d y) = Ok (Fin 1)
   <-> forall k, (k < d)%nat -> x k = y k).
Proof. exact (@pf_C100_laplacian_one). Qed.
Print Assumptions C100_laplacian_one.

(** C100: and so does Chi2Kernel. *)
Theorem C100_chi2_one : forall cast gamma d x y, 0 < gamma ->
  (forall k, (k < d)%nat -> 0 <= x k /\ 0 <= y k) ->
  (kernel_call cast (KChi2 gamma) DFloat (fvec d x) DFloat (fvec d y) = Ok (Fin 1)
   <-> forall k, (k < d)%nat -> x k = y k).
Proof. exact (@pf_C100_chi2_one). Qed.
Print Assumptions C100_chi2_one.

(** C100: a larger bandwidth never lowers a value of GaussianKernel. *)
Theorem C100_bandwidth : forall cast s t d x y, s <= t ->
  res_le (kernel_call cast (KGaussian (Fin s)) DFloat (fvec d x) DFloat (fvec d y))
         (kernel_call cast (KGaussian (Fin t)) DFloat (fvec d x) DFloat (fvec d y)).
Proof. exact (@pf_C100_bandwidth). Qed.
Print Assumptions C100_bandwidth.

(** C100: a larger gamma never raises one of LaplacianKernel or Chi2Kernel. *)
Theorem C100_gamma : forall cast g h d x y, g <= h ->
  res_le (kernel_call cast (KLaplacian h) DFloat (fvec d x) DFloat (fvec d y))
         (kernel_call cast (KLaplacian g) DFloat (fvec d x) DFloat (fvec d y)) /\
  ((forall k, (k < d)%nat -> 0 <= x k /\ 0 <= y k) ->
   res_le (kernel_call cast (KChi2 h) DFloat (fvec d x) DFloat (fvec d y))
          (kernel_call cast (KChi2 g) DFloat (fvec d x) DFloat (fvec d y))).
Proof. exact (@pf_C100_gamma). Qed.
Print Assumptions C100_gamma.

(** C100: SigmoidKernel with gamma >= 0 grows with the inner product, and so does PolyKernel with
    gamma, b >= 0 on points whose inner product is not negative. *)
Theorem C100_inner : forall cast gamma b degree d x y x' y', 0 <= gamma -> inner d x y <= inner d x' y' ->
  res_le (kernel_call cast (KSigmoid gamma b) DFloat (fvec d x) DFloat (fvec d y))
         (kernel_call cast (KSigmoid gamma b) DFloat (fvec d x') DFloat (fvec d y')) /\
  (0 <= b -> 0 <= inner d x y ->
   res_le (kernel_call cast (KPoly degree gamma b) DFloat (fvec d x) DFloat (fvec d y))
          (kernel_call cast (KPoly degree gamma b) DFloat (fvec d x') DFloat (fvec d y'))).
Proof. exact (@pf_C100_inner). Qed.
Print Assumptions C100_inner.

(** C100: every kernel that is positive semidefinite on the points in question satisfies
    k(x,y)^2 <= k(x,x) k(y,y), and sqrt(k(x,x) + k(y,y) - 2 k(x,y)) satisfies the triangle inequality. *)
Theorem C100_distance : forall call n d X K, psd_on call n d X ->
  (forall i j, (i < n)%nat -> (j < n)%nat -> call (fvec d (X i)) (fvec d (X j)) = Ok (Fin (K i j))) ->
  forall i j l, (i < n)%nat -> (j < n)%nat -> (l < n)%nat ->
    K i j * K i j <= K i i * K j j /\
    0 <= K i i + K j j - 2 * K i j /\
    sqrt (K i i + K l l - 2 * K i l) <= sqrt (K i i + K j j - 2 * K i j) + sqrt (K j j + K l l - 2 * K j l).
Proof. exact (@pf_C100_distance). Qed.
Print Assumptions C100_distance.

(** C100: a normalised KernelMatrix of the LinearKernel holds, after any history, the cosines of the angles
    between the points: 1 exactly for points in the same direction, -1 for opposite ones. *)
Theorem C100_cosine :
  forall {U} (pre post : list (op xr U)) n d X, no_attach post ->
    (forall i, (i < n)%nat -> 1/100000000 < inner d (X i) (X i)) ->
    exists B,
      outcome xN OpFull (after xN (builtin KLinear) true pre (rsample n d X) None post)
      = Ok (OArr (mkArr Dense (rmat n n B))) /\
      forall i j, (i < n)%nat -> (j < n)%nat ->
        (B i j = 1 <-> exists t, 0 < t /\ forall k, (k < d)%nat -> X i k = t * X j k) /\
        (B i j = -1 <-> exists t, t < 0 /\ forall k, (k < d)%nat -> X i k = t * X j k).
Proof. exact (@pf_C100_cosine). Qed.
Print Assumptions C100_cosine.

(** C100: the hypotheses are met by the points 0, 1, 2 (for definiteness), and by 1, 2, -1 (for directions). *)
Theorem C100_example :
  distinct 3 1 (fun i _ => INR i) /\
  (forall cast, pos_def_on (fun x y => kernel_call cast (KGaussian (Fin 2)) DFloat x DFloat y) 3 1 (fun i _ => INR i)) /\
  ~ distinct 2 1 (fun _ _ => 5) /\
  (forall i, (i < 3)%nat -> 1/100000000 < inner 1 (fun _ => nth i [1; 2; -1] 0) (fun _ => nth i [1; 2; -1] 0)).
Proof. exact (@pf_C100_example). Qed.
Print Assumptions C100_example.
