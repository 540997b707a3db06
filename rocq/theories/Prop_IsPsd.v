(** C74: BaseKernelFunction.is_psd.
    Generated by tools/split_props.py from IsPsdProps.v: statements only, each closed by [exact]. *)
From Coq Require Import String Reals List Arith ZArith Bool Lia Lra.
Import ListNotations.
From Verif Require Import Prelude MatModel UtilsModel KMModel SpecKM XReal OpsModel SpecLinAlg SpecKernels KernelsModel
  KMXModel SpecKMX IsPsdModel.
From Verif Require Import MatFacts MFacts KMFacts KMInv KMTotal KMHist KMHist2 KMProps RSum OpsFacts OpsProps OpsProps2
  KernelFacts KernelProps KMXProps.
From Verif Require Import IsPsdProps.
Local Open Scope list_scope.
Local Open Scope nat_scope.

(** The eigensolver returns the eigenvalues of this matrix. *)
Definition solves (eig : mat xr -> res (list xr)) (n : nat) (A : nat -> nat -> R) : Prop :=
  exists l, eig (rmat n n A) = Ok (map (fun k => Fin (l k)) (seq 0 n)) /\ eigenvalues_of n A l.

(** C74: on every sample on which the kernel is positive semidefinite with self-similarities above
    1e-8, is_psd answers True (if the eigensolver does its job on the one matrix it is given). *)
Theorem C74_true :
  forall cast k n d X,
    psd_on (fun x y => kernel_call cast k DFloat x DFloat y) n d X ->
    (forall i, i < n -> exists r, kernel_call cast k DFloat (fvec d (X i)) DFloat (fvec d (X i)) = Ok (Fin r)
                                  /\ (1/100000000 < r)%R) ->
    exists B, psd n B /\ (forall i, i < n -> B i i = 1%R) /\
      forall eig, solves eig n B -> is_psd eig (builtin k) (rsample n d X) = Ok true.
Proof. exact (@pf_C74_true). Qed.
Print Assumptions C74_true.

(** C74, the built-in kernels whose self-similarities are known: for every finite sample, is_psd of
    GaussianKernel, of LaplacianKernel (gamma >= 0) and of PolyKernel (gamma, b >= 0, b^degree > 1e-8)
    is True; so it is for Chi2Kernel (gamma >= 0) if the sample is not negative, as samples drawn by
    np.random.rand are. *)
Theorem C74_builtin :
  forall k n d X,
    match k with
    | KGaussian sigma => sigma <> NaN
    | KLaplacian gamma => (0 <= gamma)%R
    | KChi2 gamma => (0 <= gamma)%R /\ forall i j, i < n -> j < d -> (0 <= X i j)%R
    | KPoly degree gamma b => (0 <= gamma)%R /\ (0 <= b)%R /\ (1/100000000 < b ^ degree)%R
    | KLinear => forall i, i < n -> (1/100000000 < inner d (X i) (X i))%R
    | KHadamard alpha => (0 < alpha)%R /\ forall i, i < n -> exists r,
          kernel_call (fun _ _ => None) k DFloat (fvec d (X i)) DFloat (fvec d (X i)) = Ok (Fin r) /\ (1/100000000 < r)%R
    | KSigmoid _ _ => False
    end ->
    exists B, psd n B /\ (forall i, i < n -> B i i = 1%R) /\
      forall eig, solves eig n B -> is_psd eig (builtin k) (rsample n d X) = Ok true.
Proof. exact (@pf_C74_builtin). Qed.
Print Assumptions C74_builtin.

(** C74: a self-similarity within 1e-8 of zero makes is_psd raise KMNormError, also for kernels that are
    positive semidefinite. *)
Theorem C74_error :
  forall eig (K : kernel xr xr) k x n d i r,
    never_raises K k x None n n d -> kfmt K = true -> admissible x None n n d ->
    i < n -> k (row_of d x i) (row_of d x i) = Fin r -> (Rabs r <= 1/100000000)%R ->
    is_psd eig K x = Raise KMNormError.
Proof. exact (@pf_C74_error). Qed.
Print Assumptions C74_error.

(** C74: exactly: with self-similarities above 1e-8, is_psd answers True if and only if the normalised
    matrix B_ij = A_ij / sqrt(A_ii A_jj) satisfies x'Bx >= -1e-6 x'x for all x, and False otherwise. *)
Theorem C74_exact :
  forall eig (K : kernel xr xr) k x n d A,
    never_raises K k x None n n d -> kfmt K = true -> admissible x None n n d ->
    kernel_matrix k n n d x None = rmat n n A -> symmetric n A ->
    (forall j, j < n -> (1/100000000 < A j j)%R) ->
    let B := fun i j => (A i j / sqrt (A i i * A j j))%R in
    solves eig n B ->
    exists b, is_psd eig K x = Ok b /\
      (b = true <-> forall v, (- (1/1000000) * rsum n (fun i => v i * v i) <= quad n B v)%R).
Proof. exact (@pf_C74_exact). Qed.
Print Assumptions C74_exact.

(** C74: a self-similarity below -1e-8 (so that the kernel is not positive semidefinite), none of them
    within 1e-8 of zero, gives False. *)
Theorem C74_false :
  forall eig (K : kernel xr xr) k x n d A i,
    never_raises K k x None n n d -> kfmt K = true -> admissible x None n n d ->
    kernel_matrix k n n d x None = rmat n n A ->
    (forall j, j < n -> (1/100000000 < Rabs (A j j))%R) ->
    i < n -> (A i i < 0)%R ->
    is_psd eig K x = Ok false.
Proof. exact (@pf_C74_false). Qed.
Print Assumptions C74_false.

(** C74: a kernel that raises on its first call, on the first row of the sample, makes is_psd raise
    RuntimeError. *)
Theorem C74_raises :
  forall eig (K : kernel xr xr) x n d e, is_sample x n d -> 1 <= n ->
    kf K 0 (row_of d x 0) (row_of d x 0) = Raise e -> is_psd eig K x = Raise RuntimeError.
Proof. exact (@pf_C74_raises). Qed.
Print Assumptions C74_raises.

(** C74 is false for MatchCountKernel: on numbers its is_psd raises RuntimeError, whatever is drawn. *)
Theorem C74_match_count :
  forall eig ceqb perc x n d, is_sample x n d -> 1 <= n ->
    is_psd eig (match_kernel ceqb perc DFloat) x = Raise RuntimeError.
Proof. exact (@pf_C74_match_count). Qed.
Print Assumptions C74_match_count.

(** C74 is false for LinearKernel, which is positive semidefinite: if a row of the draw is zero, is_psd
    raises KMNormError. *)
Theorem C74_refuted :
  exists X, (forall i j, 0 <= X i j < 1)%R /\
    (forall cast n d, psd_on (fun x y => kernel_call cast KLinear DFloat x DFloat y) n d X) /\
    forall eig, is_psd eig (builtin KLinear) (rsample 50 4 X) = Raise KMNormError.
Proof. exact (@pf_C74_refuted). Qed.
Print Assumptions C74_refuted.

(** C74: the draw of zeros shows that SigmoidKernel(offset=-1) is not positive semidefinite. *)
Theorem C74_sigmoid : forall eig, is_psd eig (builtin (KSigmoid 1 (-1))) (rsample 50 4 (fun _ _ => 0%R)) = Ok false.
Proof. exact (@pf_C74_sigmoid). Qed.
Print Assumptions C74_sigmoid.

(** C74 applies: the Gaussian kernel on the sample [[0], [1]], with the eigenvalues computed by hand. *)
Theorem C74_example : exists eig, is_psd eig (builtin (KGaussian (Fin 1))) (rsample 2 1 (fun i _ => INR i)) = Ok true.
Proof. exact (@pf_C74_example). Qed.
Print Assumptions C74_example.

(** A user-defined kernel: 1 between equal numbers, -2 between different ones. *)
Definition indef (u v : list xr) : xr :=
  match u, v with
  | Fin a :: _, Fin b :: _ => Fin (if Req_EM_T a b then 1 else -2)
  | _, _ => NaN
  end.

(** C74_exact applies: on the sample [[0], [1]] this kernel has the matrix [[1, -2], [-2, 1]], with the
    eigenvalues -1 and 3, and is found not to be positive semidefinite. *)
Theorem C74_example_false : forall eig,
  solves eig 2 (fun i j => if i =? j then 1 else -2)%R ->
  is_psd eig (mkKernel (fun _ u v => Ok (indef u v)) true) (rsample 2 1 (fun i _ => INR i)) = Ok false.
Proof. exact (@pf_C74_example_false). Qed.
Print Assumptions C74_example_false.
