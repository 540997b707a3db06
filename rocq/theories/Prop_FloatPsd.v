(** C92: is_PSD and is_psd in double precision.
    Generated by tools/split_props.py from FloatPsdProps.v: statements only, each closed by [exact]. *)
From Coq Require Import String ZArith Bool List Permutation Lia Lra Reals Floats.SpecFloat Arith.
Import ListNotations.
From Verif Require Import Prelude MatModel UtilsModel KMModel SpecKM KernelsModel FloatModel FloatOpsModel SpecFloats SpecFloatVal
  SpecLinAlg SpecKernels SpecFloatErr SpecFloatOps FloatKMModel SpecFloatKM.
From Verif Require Import MatFacts MFacts KMFacts KMInv KMHist KMHist2 RSum PSDFacts OpsProps2 KernelFacts.
From Verif Require Import FloatProps FloatNormProps FloatRound FloatErrProps FloatAny FloatSum FloatDiv FloatDotProps FloatChiProps
  FloatOpsFacts FloatRankProps FloatKMFacts FloatKMProps.
Local Open Scope R_scope.
From Verif Require Import FloatPsdProps.
Local Open Scope R_scope.

(** C92. In double precision, is_PSD answers True on every matrix that is within [b] of a positive
    semidefinite matrix, if the eigensolver is backward stable: it returns the exact eigenvalues of some
    symmetric matrix within [delta] of its argument, and n (b + delta) is at most the tolerance. *)
Theorem C92_true : forall eig f n A P b delta tol, f <> Lil -> doubles2 n n A (bpow 1000) ->
  f_finite tol = true -> valid_binary 53 1024 tol = true ->
  psd n P -> (forall i j, (i < n)%nat -> (j < n)%nat -> Rabs (mvals A i j - P i j) <= b) ->
  (forall i j, (i < n)%nat -> (j < n)%nat -> Rabs (mvals A i j - mvals A j i) <= bpow (-28)) ->
  solves_within delta eig n A -> INR n * (b + delta) <= fval tol ->
  fis_PSD eig (mkArr f (tabulate n n A)) tol = Ok true.
Proof. exact (@pf_C92_true). Qed.
Print Assumptions C92_true.

(** C92. It answers False where the quadratic form (of the lower triangle, which is what the eigensolver
    reads) takes a value below -(tolerance + n delta). *)
Theorem C92_false : forall eig f n A delta tol v, f <> Lil ->
  f_finite tol = true -> valid_binary 53 1024 tol = true ->
  solves_within delta eig n A ->
  quad n (lowsym (mvals A)) v < - (fval tol + INR n * delta) * rsum n (fun i => v i * v i) ->
  fis_PSD eig (mkArr f (tabulate n n A)) tol = Ok false.
Proof. exact (@pf_C92_false). Qed.
Print Assumptions C92_false.

(** C92. The other answers: TypeError for what is not an ndarray, False for a matrix that is not square or not
    symmetric (np.isclose), and False, not an error, when the eigensolver raises. *)
Theorem C92_total : forall eig a tol,
  (afmt a = Lil -> fis_PSD eig a tol = Raise TypeError) /\
  (afmt a <> Lil -> exists b, fis_PSD eig a tol = Ok b) /\
  (afmt a <> Lil -> mr (amat a) <> mc (amat a) -> fis_PSD eig a tol = Ok false) /\
  (afmt a <> Lil -> (exists i j, (i < mr (amat a))%nat /\ (j < mr (amat a))%nat /\
     fisclose (mget S754_nan (amat a) i j) (mget S754_nan (amat a) j i) = false) -> fis_PSD eig a tol = Ok false) /\
  (afmt a <> Lil -> forall x, eig (amat a) = Raise x -> fis_PSD eig a tol = Ok false).
Proof. exact (@pf_C92_total). Qed.
Print Assumptions C92_total.

(** What np.random.rand draws: multiples of 2^-53 in the unit interval. *)
Definition drawn (n d : nat) (X : nat -> nat -> f64) : Prop :=
  forall i k, (i < n)%nat -> (k < d)%nat -> f_finite (X i k) = true /\ valid_binary 53 1024 (X i k) = true /\
    (fval (X i k) = 0 \/ bpow (-53) <= fval (X i k) <= 1).

(** The three distance kernels with 0 < gamma <= 2^400. *)
Definition smooth_kernel (k : fkernel) : Prop :=
  match k with
  | FGaussian g | FLaplacian g | FChi2 g =>
      f_finite g = true /\ valid_binary 53 1024 g = true /\ 0 < fval g <= bpow 400
  | _ => False
  end.

(** C92. is_psd of GaussianKernel, LaplacianKernel and Chi2Kernel (0 < gamma <= 2^400) answers True, whatever
    np.random.rand draws: if the exponential is off by at most [dl], the eigensolver is backward stable to within
    [delta] on the one matrix it is given, and n (dl + (d + 9) eps + delta) is below 0.99e-6 (n = 50 and d = 4 in
    the code). *)
Theorem C92_is_psd : forall e dl k n d X, decent e -> exp_doubles e -> exp_within dl e -> pow_within eps 2 e ->
  smooth_kernel k -> drawn n d X -> INR d + 8 <= bpow 50 ->
  exists A, (forall i j, (i < n)%nat -> (j < n)%nat -> f_same (A i j) (fvalue e k (features d (X i)) (features d (X j)))) /\
    forall eig delta, solves_within delta eig n A ->
      INR n * (dl + (INR d + 9) * eps + delta) <= 99 / 100 * / 10 ^ 6 ->
      fis_psd e eig (fbuiltin e k) (fsample n d X) = Ok true.
Proof. exact (@pf_C92_is_psd). Qed.
Print Assumptions C92_is_psd.

(** C92. is_psd of LinearKernel answers True on every sample whose rows have self-products between 1.1e-8 and
    2^999 (a draw of np.random.rand with a row closer to zero ends in KMNormError, C91_error). *)
Theorem C92_is_psd_linear : forall e n d X, decent e -> INR d <= bpow 20 ->
  (forall i, (i < n)%nat -> big_enough d (X i)) ->
  exists A, (forall i j, (i < n)%nat -> (j < n)%nat -> near (cosine d (vals (X i)) (vals (X j))) ((3 * INR d + 5) * eps) (A i j)) /\
    forall eig delta, solves_within delta eig n A ->
      INR n * ((3 * INR d + 5) * eps + delta) <= 99 / 100 * / 10 ^ 6 ->
      fis_psd e eig (fbuiltin e FLinear) (fsample n d X) = Ok true.
Proof. exact (@pf_C92_is_psd_linear). Qed.
Print Assumptions C92_is_psd_linear.

(** C92. A self-similarity that np.isclose finds close to zero makes is_psd raise KMNormError. *)
Theorem C92_error : forall e eig (K : kernel f64 f64) k x n d,
  never_raises K k x None n n d -> kfmt K = true -> admissible x None n n d ->
  (exists i, (i < n)%nat /\ fisclose (k (row_of d x i) (row_of d x i)) fzero = true) ->
  fis_psd e eig K x = Raise KMNormError.
Proof. exact (@pf_C92_error). Qed.
Print Assumptions C92_error.

(** Two samples of one feature. *)
Definition big_sample (i k : nat) : f64 := match i with O => fint 160791506 | _ => fint 133526255 end.
(** The doubles next to their products. *)
Definition big_products (i j : nat) : f64 :=
  match i, j with
  | O, O => fint 25853908401748036
  | S _, S _ => fint 17829260774325024
  | _, _ => fint 21469887631990032
  end.

(** C92: what must not be expected: True for every positive semidefinite kernel. The linear kernel matrix
    (normalized=False) of the two samples 160791506 and 133526255 is positive semidefinite in exact arithmetic. In
    double precision, every eigensolver that is backward stable to within 1 (a relative 4e-17) makes is_PSD answer
    False. Such answers exist. *)
Theorem C92_rounding_refuted :
  outcome (fN plain) OpFull (after (U:=unit) (fN plain) (fbuiltin plain FLinear) false [] (fsample 2 1 big_sample) None [])
    = Ok (OArr (mkArr Dense (tabulate 2 2 big_products))) /\ decent plain /\
  psd 2 (fun i j => inner 1 (vals (big_sample i)) (vals (big_sample j))) /\
  (forall eig, solves_within 1 eig 2 big_products ->
     fis_PSD eig (mkArr Dense (tabulate 2 2 big_products)) f_psd_tolerance = Ok false) /\
  exists eig, solves_within 1 eig 2 big_products.
Proof. exact (@pf_C92_rounding_refuted). Qed.
Print Assumptions C92_rounding_refuted.

(** C92: a case that meets the hypotheses of C92_true and C92_is_psd together: two equal rows give the matrix of
    ones, whose eigenvalues are 0 and 2; and a platform and a draw that are as required. *)
Theorem C92_example :
  (exists eig, solves_within 0 eig 2 (fun _ _ => fone) /\
     fis_PSD eig (mkArr Dense (tabulate 2 2 (fun _ _ => fone))) f_psd_tolerance = Ok true) /\
  (exists e, decent e /\ exp_doubles e /\ exp_within eps e /\ pow_within eps 2 e) /\
  smooth_kernel (FGaussian fone) /\ drawn 2 2 (fun i k => fdiv fone (fint (Z.of_nat (1 + i + k)))) /\
  INR 50 * (eps + (INR 4 + 9) * eps + bpow (-30)) <= 99 / 100 * / 10 ^ 6.
Proof. exact (@pf_C92_example). Qed.
Print Assumptions C92_example.
