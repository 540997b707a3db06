(** Kernels on integer data: C84.
    Generated by tools/split_props.py from IntProps.v: statements only, each closed by [exact]. *)
From Coq Require Import String Reals List Arith ZArith Bool Lia Lra Znumtheory.
Import ListNotations.
From Verif Require Import Prelude MatModel UtilsModel IndexModel KMModel SpecKM XReal OpsModel
  SpecLinAlg KernelsModel SpecKernels KMXModel SpecKMX IntModel SpecInt.
From Verif Require Import MatFacts MFacts KMFacts KMInv KMHist KMTotal KMProps RSum OpsFacts OpsProps
  PSDFacts KernelFacts KernelProps KMXProps.
Local Open Scope list_scope.
Local Open Scope Z_scope.
From Verif Require Import IntProps.
Local Open Scope list_scope.
Local Open Scope Z_scope.

(** C84: as long as the integers in the formula of the kernel are representable, the kernel computes
    on integer arrays what it computes on the same numbers as float64. *)
Theorem C84_exact : forall t k d x y, safe t k d x y ->
  ikernel_value t k (zvec d x) (zvec d y)
  = kernel_value (to_nkernel k) (map ofZ (zvec d x)) (map ofZ (zvec d y)).
Proof. exact (@pf_C84_exact). Qed.
Print Assumptions C84_exact.

(** C84: in any case a linear kernel returns the representable integer that is congruent to the inner
    product modulo 2^bits; so it is right exactly when the inner product is representable. *)
Theorem C84_linear : forall t d x y,
  exists r, ikernel_value t ILinear (zvec d x) (zvec d y) = Ok (Fin (IZR r)) /\
    fits t r /\ (2 ^ bits (i_width t) | r - zsum d (fun i => x i * y i)) /\
    (r = zsum d (fun i => x i * y i) <-> fits t (zsum d (fun i => x i * y i))).
Proof. exact (@pf_C84_linear). Qed.
Print Assumptions C84_linear.

(** C84: on signed integers every kernel is symmetric, overflow or not; on unsigned integers every
    kernel but the Gaussian and the Laplacian is. *)
Theorem C84_symmetric : forall t k x y,
  i_signed t = true \/ (forall s, k <> IGaussian s) /\ (forall g, k <> ILaplacian g) ->
  ikernel_value t k x y = ikernel_value t k y x.
Proof. exact (@pf_C84_symmetric). Qed.
Print Assumptions C84_symmetric.

(** C84: a condition on the data. If the entries are at most B in absolute value and
    d B^2 < 2^(bits-1), 2 B < 2^(bits-1), all kernels on signed integers but Hadamard's are exact (the
    sum of the Laplacian kernel, over 2 d B, being done in 64 bits); for Hadamard's, 4 B^(2 alpha) <
    2^(bits-1) suffices. *)
Theorem C84_safe : forall t k d x y B, i_signed t = true -> 0 <= B ->
  (forall i, (i < d)%nat -> Z.abs (x i) <= B /\ Z.abs (y i) <= B) ->
  match k with
  | ILinear | IPoly _ _ _ | ISigmoid _ _ => Z.of_nat d * (B * B) < 2 ^ (bits (i_width t) - 1)
  | IGaussian _ => 2 * B < 2 ^ (bits (i_width t) - 1)
  | ILaplacian _ => 2 * B < 2 ^ (bits (i_width t) - 1) /\ Z.of_nat d * (2 * B) < 2 ^ 63
  | IChi2 _ => True
  | IHadamard a => (1 <= a)%nat /\ 1 <= B /\ 4 * (B ^ Z.of_nat a * B ^ Z.of_nat a) < 2 ^ (bits (i_width t) - 1)
  end -> safe t k d x y.
Proof. exact (@pf_C84_safe). Qed.
Print Assumptions C84_safe.

(** C84, matrices: on an integer sample whose pairs of rows are safe, [full] is the kernel matrix of
    the sample converted to float64: the matrix A of its values, or its cosine normalisation, after any
    history. Only pairs i <= j matter. *)
Theorem C84_matrix :
  forall {U} t k (pre post : list (op Z U)) n d X A,
    finite_on (to_nkernel k) d n n (fun i q => IZR (X i q)) (fun i q => IZR (X i q)) A ->
    (forall i j, (i <= j < n)%nat -> safe t k d (X i) (X j)) -> no_attach post ->
    (no_full_sparse post -> no_whole_index n n post ->
     outcome xN OpFull (after xN (builtin_int t k) false pre (zsample n d X) None post)
     = Ok (OArr (mkArr Dense (rmat n n A)))) /\
    ((forall i, (i < n)%nat -> (1/100000000 < A i i)%R) ->
     outcome xN OpFull (after xN (builtin_int t k) true pre (zsample n d X) None post)
     = Ok (OArr (mkArr Dense (rmat n n (fun i j => (A i j / sqrt (A i i * A j j))%R))))).
Proof. exact (@pf_C84_matrix). Qed.
Print Assumptions C84_matrix.

(** The dtype of images. *)
Definition uint8 : itype := mkIt W8 false.
Definition int8 : itype := mkIt W8 true.

(** C84 is false for unsigned integers: the Gaussian kernel (every bandwidth) and the Laplacian kernel
    (every gamma but 0) are not symmetric, because x - y wraps around. *)
Theorem C84_unsigned_refuted : exists x y, fits uint8 x /\ fits uint8 y /\
  (forall sigma, sigma <> NaN ->
     ikernel_value uint8 (IGaussian sigma) [x] [y] <> ikernel_value uint8 (IGaussian sigma) [y] [x]) /\
  (forall gamma, gamma <> 0%R ->
     ikernel_value uint8 (ILaplacian gamma) [x] [y] <> ikernel_value uint8 (ILaplacian gamma) [y] [x]).
Proof. exact (@pf_C84_unsigned_refuted). Qed.
Print Assumptions C84_unsigned_refuted.

(** C84 is false for unsigned integers: a KernelMatrix with a Gaussian kernel of any bandwidth is not
    positive semidefinite on the uint8 sample [[1], [0], [1]], whose first and last rows are equal but
    have different similarities to the second. *)
Theorem C84_psd_refuted : forall {U} sigma, sigma <> NaN ->
  exists n d X A, (forall i q, (i < n)%nat -> (q < d)%nat -> fits uint8 (X i q)) /\
    outcome xN OpFull (after xN (builtin_int uint8 (IGaussian sigma)) false ([] : list (op Z U)) (zsample n d X) None [])
    = Ok (OArr (mkArr Dense (rmat n n A))) /\
    symmetric n A /\ ~ psd n A.
Proof. exact (@pf_C84_psd_refuted). Qed.
Print Assumptions C84_psd_refuted.

(** C84 is false for small integers: with LinearKernel the uint8 sample [[16]] has self-similarity
    256 = 0, so that normalising raises KMNormError, and the int8 sample [[12]] has -112. *)
Theorem C84_overflow_refuted :
  (exists x, fits uint8 x /\ x <> 0 /\
     outcome xN OpFull (after xN (builtin_int uint8 ILinear) true ([] : list (op Z unit)) (zsample 1 1 (fun _ _ => x)) None [])
     = Raise KMNormError) /\
  (exists x r, fits int8 x /\ (r < 0)%R /\
     outcome xN OpFull (after xN (builtin_int int8 ILinear) false ([] : list (op Z unit)) (zsample 1 1 (fun _ _ => x)) None [])
     = Ok (OArr (mkArr Dense (rmat 1 1 (fun _ _ => r))))).
Proof. exact (@pf_C84_overflow_refuted). Qed.
Print Assumptions C84_overflow_refuted.

(** C84 on concrete data: int64 vectors, all kernels of which are safe, and the hypotheses of
    C84_matrix for a linear kernel on the int64 sample [[1, 2], [-3, 4]]. *)
Example C84_example :
  let t := mkIt W64 true in
  let X := fun i q => nth q (nth i [[1; 2]; [-3; 4]] []) 0 in
  (forall i q, Z.abs (X i q) <= 4) /\
  safe t (IHadamard 3) 2 (X 0%nat) (X 1%nat) /\ safe t ILinear 2 (X 0%nat) (X 1%nat) /\
  safe t (ILaplacian 1) 2 (X 0%nat) (X 1%nat) /\
  finite_on KLinear 2 2 2 (fun i q => IZR (X i q)) (fun i q => IZR (X i q))
    (fun i j => inner 2 (fun q => IZR (X i q)) (fun q => IZR (X j q))) /\
  ikernel_value t ILinear (zvec 2 (X 0%nat)) (zvec 2 (X 1%nat)) = Ok (Fin 5).
Proof.
  intros t X.
  assert (HX : forall i q, Z.abs (X i q) <= 4).
  { intros [|[|i]] [|[|q]]; cbn; try lia; try (destruct q; cbn; lia). destruct i; cbn; lia.
    destruct i; cbn; lia. destruct i, q; cbn; lia. }
  split; [exact HX|]. split; [|split; [|split; [|split]]].
  - apply (pf_C84_safe t (IHadamard 3) 2 _ _ 4); [reflexivity|lia|intros; split; apply HX|]. split; [lia|].
    split; [lia|]. vm_compute. reflexivity.
  - apply (pf_C84_safe t ILinear 2 _ _ 4); [reflexivity|lia|intros; split; apply HX|]. vm_compute. reflexivity.
  - apply (pf_C84_safe t (ILaplacian 1) 2 _ _ 4); [reflexivity|lia|intros; split; apply HX|].
    split; vm_compute; reflexivity.
  - intros i j _ _. cbn [kernel_value]. now rewrite xdot_fin.
  - reflexivity.
Qed.
