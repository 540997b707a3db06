(** Kernels with integer and float parameters on integer data, and the kernels of the buckets: C112.
    Generated by tools/split_props.py from MixProps.v: statements only, each closed by [exact]. *)
From Coq Require Import String Reals List Arith ZArith Bool Lia Lra Znumtheory.
Import ListNotations.
From Verif Require Import Prelude MatModel UtilsModel IndexModel KMModel SpecKM XReal OpsModel
  SpecLinAlg KernelsModel SpecKernels KMXModel SpecKMX IntModel SpecInt IntParamModel SpecIntParam MixModel SpecMix
  SetModel BucketModel SpecBucket.
From Verif Require Import MatFacts MFacts KMFacts KMInv KMHist KMTotal KMProps RSum OpsFacts OpsProps
  PSDFacts KernelFacts KernelProps KMXProps IntProps IntParamProps.
Local Open Scope list_scope.
Local Open Scope Z_scope.
From Verif Require Import MixProps.
Local Open Scope list_scope.
Local Open Scope Z_scope.

(** C112: with float parameters only, these are the kernels of C84. *)
Theorem C112_floats : forall t u n g b o x y,
  mkernel_value t u (MPoly n (PF g) (PF b)) x y = ikernel_value t (IPoly n g b) x y /\
  mkernel_value t u (MLaplacian (PF g)) x y = ikernel_value t (ILaplacian g) x y /\
  mkernel_value t u (MSigmoid (PF g) (PF o)) x y = ikernel_value t (ISigmoid g o) x y.
Proof. exact (@pf_C112_floats). Qed.
Print Assumptions C112_floats.

(** C112: with integer parameters only, these are the kernels of C107. *)
Theorem C112_integers : forall t u n g b o x y,
  mkernel_value t u (MPoly n (PI g) (PI b)) x y = pkernel_value t u (PPoly (Z.of_nat n) g b) x y /\
  mkernel_value t u (MLaplacian (PI g)) x y = pkernel_value t u (PLaplacian g) x y /\
  mkernel_value t u (MSigmoid (PI g) (PI o)) x y = pkernel_value t u (PSigmoid g o) x y.
Proof. exact (@pf_C112_integers). Qed.
Print Assumptions C112_integers.

(** C112: where the integers of the formula are representable, a kernel returns what it returns for float
    parameters and float64 arrays. *)
Theorem C112_exact : forall t u k d x y, mix_safe t u k d x y ->
  mkernel_value t u k (zvec d x) (zvec d y)
  = kernel_value (to_nk k) (map ofZ (zvec d x)) (map ofZ (zvec d y)).
Proof. exact (@pf_C112_exact). Qed.
Print Assumptions C112_exact.

(** C112: an integer gamma and a float offset or b, on arrays of the dtype in which gamma comes in (int64,
    say): the kernel computes with r, the representable integer congruent to gamma times the inner product
    modulo 2^bits. A sigmoid kernel is right exactly if this product is representable. *)
Theorem C112_value : forall t g o n b d x y, let p := g * zsum d (fun i => x i * y i) in
  exists r, fits t r /\ (2 ^ bits (i_width t) | r - p) /\ (r = p <-> fits t p) /\
    mkernel_value t t (MSigmoid (PI g) (PF o)) (zvec d x) (zvec d y) = Ok (Fin (tanh (o + IZR r))) /\
    mkernel_value t t (MPoly n (PI g) (PF b)) (zvec d x) (zvec d y) = Ok (Fin ((b + IZR r) ^ n)) /\
    (mkernel_value t t (MSigmoid (PI g) (PF o)) (zvec d x) (zvec d y)
     = kernel_value (KSigmoid (IZR g) o) (map ofZ (zvec d x)) (map ofZ (zvec d y)) <-> fits t p).
Proof. exact (@pf_C112_value). Qed.
Print Assumptions C112_value.

(** C112: these kernels are symmetric, overflow or not, on signed integers. *)
Theorem C112_symmetric : forall t u k x y, i_signed t = true -> mkernel_value t u k x y = mkernel_value t u k y x.
Proof. exact (@pf_C112_symmetric). Qed.
Print Assumptions C112_symmetric.

(** C112: the kernels of the strategies, as config.py writes their parameters, are those of C48. *)
Theorem C112_strategies : map to_nk exhaustive_mix = exhaustive_kernels /\ map to_nk light_mix = light_kernels.
Proof. exact (@pf_C112_strategies). Qed.
Print Assumptions C112_strategies.

(** C112: every kernel of these buckets is exact on signed integers of at most B in absolute value, d features, if
    d B^2, 2 B, 32 d B^2 and 64 d B are small enough. *)
Theorem C112_bucket : forall t u k d x y B, i_signed t = true -> i_signed u = true -> 0 <= B ->
  (forall i, (i < d)%nat -> Z.abs (x i) <= B /\ Z.abs (y i) <= B) ->
  Z.of_nat d * (B * B) < 2 ^ (bits (i_width t) - 1) -> 2 * B < 2 ^ (bits (i_width t) - 1) ->
  32 * (Z.of_nat d * (B * B)) < 2 ^ (bits (i_width u) - 1) -> 64 * (Z.of_nat d * B) < 2 ^ (bits (i_width u) - 1) ->
  In k (exhaustive_mix ++ light_mix) ->
  mix_safe t u k d x y /\
  mkernel_value t u k (zvec d x) (zvec d y) = kernel_value (to_nk k) (map ofZ (zvec d x)) (map ofZ (zvec d y)).
Proof. exact (@pf_C112_bucket). Qed.
Print Assumptions C112_bucket.

(** C112, matrices: on an integer sample all pairs of rows of which are safe, [full] is the kernel matrix of the
    sample converted to float64, or its cosine normalisation, after any history. *)
Theorem C112_matrix :
  forall {U} t u k (pre post : list (op Z U)) n d X A,
    finite_on (to_nk k) d n n (fun i q => IZR (X i q)) (fun i q => IZR (X i q)) A ->
    (forall i j, (i <= j < n)%nat -> mix_safe t u k d (X i) (X j)) -> no_attach post ->
    (no_full_sparse post -> no_whole_index n n post ->
     outcome xN OpFull (after xN (builtin_mix t u k) false pre (zsample n d X) None post)
     = Ok (OArr (mkArr Dense (rmat n n A)))) /\
    ((forall i, (i < n)%nat -> (1/100000000 < A i i)%R) ->
     outcome xN OpFull (after xN (builtin_mix t u k) true pre (zsample n d X) None post)
     = Ok (OArr (mkArr Dense (rmat n n (fun i j => (A i j / sqrt (A i i * A j j))%R))))).
Proof. exact (@pf_C112_matrix). Qed.
Print Assumptions C112_matrix.

(** C112, without the bounds, is false for the kernels of the exhaustive bucket: its LaplacianKernel(gamma=32) gives
    the int64 numbers 0 and 2^59 the similarity 1, and its SigmoidKernel(gamma=32) gives 2^29 and itself a negative
    one, where the exact values are below 1 and positive. *)
Theorem C112_bucket_refuted :
  (exists k x y r, In k exhaustive_mix /\ fits int64 x /\ fits int64 y /\ x <> y /\
     mkernel_value int64 int64 k [x] [y] = Ok (Fin 1) /\
     kernel_value (to_nk k) [ofZ x] [ofZ y] = Ok (Fin r) /\ (r < 1)%R) /\
  (exists k x r r', In k exhaustive_mix /\ fits int64 x /\
     mkernel_value int64 int64 k [x] [x] = Ok (Fin r) /\
     kernel_value (to_nk k) [ofZ x] [ofZ x] = Ok (Fin r') /\ (r < 0 < r')%R).
Proof. exact (@pf_C112_bucket_refuted). Qed.
Print Assumptions C112_bucket_refuted.

(** C112: the bounds are met by int64 points of two features of at most 1000, and, before numpy 2, by int8 points of
    two features of at most 7. *)
Theorem C112_example :
  (let B := 1000 in 2 * (B * B) < 2 ^ (bits (i_width int64) - 1) /\ 2 * B < 2 ^ (bits (i_width int64) - 1) /\
     32 * (2 * (B * B)) < 2 ^ (bits (i_width int64) - 1) /\ 64 * (2 * B) < 2 ^ (bits (i_width int64) - 1)) /\
  (let B := 7 in 2 * (B * B) < 2 ^ (bits (i_width int8) - 1) /\ 2 * B < 2 ^ (bits (i_width int8) - 1) /\
     32 * (2 * (B * B)) < 2 ^ (bits (i_width int64) - 1) /\ 64 * (2 * B) < 2 ^ (bits (i_width int64) - 1)) /\
  In (MSigmoid (PI 32) (PF 1)) exhaustive_mix /\ In (MLaplacian (PF (powerRZ 2 (-5)))) exhaustive_mix /\
  mkernel_value int64 int64 (MSigmoid (PI 32) (PF 1)) [1; 2] [-3; 4] = Ok (Fin (tanh 161)) /\
  mkernel_value int8 int8 (MSigmoid (PI 32) (PF 1)) [1; 2] [-3; 4] = Ok (Fin (tanh (-95))).
Proof. exact (@pf_C112_example). Qed.
Print Assumptions C112_example.
