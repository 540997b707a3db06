(** Kernels on arrays of any dtype, with and without input validation: C87.
    Generated by tools/split_props.py from VecProps.v: statements only, each closed by [exact]. *)
From Coq Require Import String Reals List Arith ZArith Bool Lia Lra.
Import ListNotations.
From Verif Require Import Prelude MatModel UtilsModel IndexModel KMModel SpecKM XReal OpsModel
  SpecLinAlg KernelsModel SpecKernels KMXModel SpecKMX IntModel SpecInt VecModel SpecVec.
From Verif Require Import MatFacts MFacts KMFacts KMInv KMHist KMTotal KMProps RSum OpsFacts OpsProps
  PSDFacts KernelFacts KernelProps KMXProps IntProps.
Local Open Scope list_scope.
Local Open Scope Z_scope.
From Verif Require Import VecProps.
Local Open Scope list_scope.
Local Open Scope Z_scope.

(** C87: the dtype numpy chooses for two integer arrays is the smallest one that contains both; there
    is none exactly for uint64 with a signed type, and then it computes in float64. *)
Theorem C87_common_type : forall s t,
  (forall p, promote s t = Some p <-> common_type s t p) /\
  (promote s t = None <->
   (s = mkIt W64 false /\ i_signed t = true) \/ (t = mkIt W64 false /\ i_signed s = true)).
Proof. exact (@pf_C87_common_type). Qed.
Print Assumptions C87_common_type.

(** C87: as long as the integers in the formula of the kernel are representable, a kernel computes on
    two arrays of any numeric dtypes, with or without validation, what it computes on the same numbers
    as float64. *)
Theorem C87_exact : forall skip k d u v, sound skip k d u v ->
  kernel_vec skip k (num_vec d u) (num_vec d v)
  = kernel_value (to_nkernel k) (num_floats d u) (num_floats d v).
Proof. exact (@pf_C87_exact). Qed.
Print Assumptions C87_exact.

(** C87: with validation, boolean arrays are used as the numbers 0 and 1 in float64. *)
Theorem C87_bool : forall k b y,
  kernel_vec false k (VBool b) y = kernel_vec false k (VFloat (map (fun v : bool => if v then Fin 1 else Fin 0) b)) y /\
  kernel_vec false k y (VBool b) = kernel_vec false k y (VFloat (map (fun v : bool => if v then Fin 1 else Fin 0) b)).
Proof. exact (@pf_C87_bool). Qed.
Print Assumptions C87_bool.

(** C87: with validation, arrays of different lengths are refused with ValueError. Without, only the
    Gaussian, Laplacian and Chi2 kernels can return a value for them, and only if one length is 1. *)
Theorem C87_lengths : forall k x y, vlen x <> vlen y ->
  kernel_vec false k x y = Raise ValueError /\
  forall v, kernel_vec true k x y = Ok v ->
    (vlen x = 1%nat \/ vlen y = 1%nat) /\
    ((exists s, k = IGaussian s) \/ (exists g, k = ILaplacian g) \/ (exists g, k = IChi2 g)).
Proof. exact (@pf_C87_lengths). Qed.
Print Assumptions C87_lengths.

(** C87: what a kernel can raise on 1-D arrays: with validation, ValueError for different lengths and
    Chi2Kernel's exception for negative numbers. Without, ValueError also for different lengths (other
    than 1 in kernels of differences), IndexError in HadamardKernel if one length is 1, TypeError in
    kernels of differences of two boolean arrays. *)
Theorem C87_errors : forall skip k x y e, kernel_vec skip k x y = Raise e ->
  (e = ValueError /\ vlen x <> vlen y) \/
  (e = Chi2NegativeValues /\ exists g, k = IChi2 g) \/
  (skip = true /\ e = IndexError /\ vlen x <> vlen y /\ (vlen x = 1%nat \/ vlen y = 1%nat) /\ exists a, k = IHadamard a) \/
  (skip = true /\ e = TypeError /\ (exists a b, x = VBool a /\ y = VBool b) /\
     ((exists s, k = IGaussian s) \/ (exists g, k = ILaplacian g) \/ (exists g, k = IChi2 g))).
Proof. exact (@pf_C87_errors). Qed.
Print Assumptions C87_errors.

(** C87: a kernel is symmetric, whatever the two dtypes and lengths, with or without validation; only
    the Gaussian and the Laplacian kernel of two unsigned (or boolean) arrays are an exception (C84). *)
Theorem C87_symmetric : forall skip k x y,
  ~ (unsigned x /\ unsigned y) \/ (forall s, k <> IGaussian s) /\ (forall g, k <> ILaplacian g) ->
  kernel_vec skip k x y = kernel_vec skip k y x.
Proof. exact (@pf_C87_symmetric). Qed.
Print Assumptions C87_symmetric.

(** C87, booleans without validation: two boolean arrays of the same length have the linear kernel 1 or 0,
    whether some position is True in both or not; polynomial and sigmoid kernels use that number; the three
    kernels of differences raise TypeError. *)
Theorem C87_bool_unvalidated : forall d (x y : nat -> bool),
  let u := VBool (map x (seq 0 d)) in let v := VBool (map y (seq 0 d)) in
  exists s, (s = 1%R /\ (exists i, (i < d)%nat /\ x i = true /\ y i = true) \/
             s = 0%R /\ (forall i, (i < d)%nat -> x i = false \/ y i = false)) /\
    kernel_vec true ILinear u v = Ok (Fin s) /\
    (forall degree gamma b, kernel_vec true (IPoly degree gamma b) u v = Ok (xpow (Fin (b + gamma * s)) degree)) /\
    (forall gamma offset, kernel_vec true (ISigmoid gamma offset) u v = Ok (xtanh (Fin (offset + gamma * s)))) /\
    (forall gamma, kernel_vec true (ILaplacian gamma) u v = Raise TypeError) /\
    (forall gamma, kernel_vec true (IChi2 gamma) u v = Raise TypeError) /\
    (forall sigma, kernel_vec true (IGaussian sigma) u v = Raise TypeError).
Proof. exact (@pf_C87_bool_unvalidated). Qed.
Print Assumptions C87_bool_unvalidated.

(** C87, booleans without validation against another array: a boolean array is used as the numbers 0 and 1
    in the dtype of a numeric array, except that HadamardKernel always makes it int64. *)
Theorem C87_bool_promoted : forall k b y, (forall a, k <> IHadamard a) ->
  (forall l, y = VFloat l -> kernel_vec true k (VBool b) y = kernel_vec true k (VFloat (map (fun v => Fin (bit v)) b)) y /\
                             kernel_vec true k y (VBool b) = kernel_vec true k y (VFloat (map (fun v => Fin (bit v)) b))) /\
  (forall t l, y = VInt t l -> kernel_vec true k (VBool b) y = kernel_vec true k (VInt t (map (fun v : bool => if v then 1 else 0) b)) y /\
                               kernel_vec true k y (VBool b) = kernel_vec true k y (VInt t (map (fun v : bool => if v then 1 else 0) b))).
Proof. exact (@pf_C87_bool_promoted). Qed.
Print Assumptions C87_bool_promoted.

(** C87, HadamardKernel on booleans without validation: as on the int64 array of the numbers 0 and 1. *)
Theorem C87_bool_hadamard : forall a b y, 
  kernel_vec true (IHadamard a) (VBool b) y = kernel_vec true (IHadamard a) (VInt (mkIt W64 true) (map (fun v : bool => if v then 1 else 0) b)) y /\
  kernel_vec true (IHadamard a) y (VBool b) = kernel_vec true (IHadamard a) y (VInt (mkIt W64 true) (map (fun v : bool => if v then 1 else 0) b)).
Proof. exact (@pf_C87_bool_hadamard). Qed.
Print Assumptions C87_bool_hadamard.

(** C87 is false for boolean data without validation: the Laplacian and the Gaussian kernel raise
    TypeError (numpy has no difference of booleans), and a linear kernel returns 1 instead of 2. *)
Theorem C87_bool_refuted : exists b,
  (forall gamma, kernel_vec false (ILaplacian gamma) (VBool b) (VBool b) = Ok (Fin 1) /\
                 kernel_vec true (ILaplacian gamma) (VBool b) (VBool b) = Raise TypeError) /\
  (forall sigma, sigma <> NaN ->
     kernel_vec false (IGaussian sigma) (VBool b) (VBool b) = Ok (Fin 1) /\
     kernel_vec true (IGaussian sigma) (VBool b) (VBool b) = Raise TypeError) /\
  kernel_vec false ILinear (VBool b) (VBool b) = Ok (Fin 2) /\
  kernel_vec true ILinear (VBool b) (VBool b) = Ok (Fin 1).
Proof. exact (@pf_C87_bool_refuted). Qed.
Print Assumptions C87_bool_refuted.

(** C87 is false for integers without validation: Chi2Kernel computes (x - y)^2 and x + y modulo 256 on
    uint8 data. *)
Theorem C87_chi2_refuted : exists x y, fits uint8 x /\ fits uint8 y /\
  forall gamma, (gamma <> 0)%R -> exists a b,
    kernel_vec false (IChi2 gamma) (VInt uint8 [x]) (VInt uint8 [y]) = Ok (Fin a) /\
    kernel_vec true (IChi2 gamma) (VInt uint8 [x]) (VInt uint8 [y]) = Ok (Fin b) /\ a <> b.
Proof. exact (@pf_C87_chi2_refuted). Qed.
Print Assumptions C87_chi2_refuted.

(** C87 is false for arrays of different lengths without validation: the Laplacian kernel returns a
    number for arrays of lengths 1 and 2. *)
Theorem C87_lengths_refuted : forall gamma, exists x y r, length x <> length y /\
  kernel_vec false (ILaplacian gamma) (VFloat x) (VFloat y) = Raise ValueError /\
  kernel_vec true (ILaplacian gamma) (VFloat x) (VFloat y) = Ok (Fin r).
Proof. exact (@pf_C87_lengths_refuted). Qed.
Print Assumptions C87_lengths_refuted.

(** C87 is false for a KernelMatrix whose kernel skips the validation: after an attach_to that was refused
    because the samples have different numbers of columns, [full] is a matrix of kernel values between
    rows of one and two columns. With validation it raises RuntimeError. *)
Theorem C87_refused_attach_refuted : forall gamma, exists x x' y r,
  nd_shape x' = [1; 1]%nat /\ nd_shape y = [1; 2]%nat /\
  trace (U := unit) xN [OpAttach x None; OpAttach x' (Some y); OpFull] (km_new (builtin_vec true (ILaplacian gamma)) false [])
  = [Ok OUnit; Raise ValueError; Ok (OArr (mkArr Dense (rmat 1 1 (fun _ _ => r))))] /\
  trace (U := unit) xN [OpAttach x None; OpAttach x' (Some y); OpFull] (km_new (builtin_vec false (ILaplacian gamma)) false [])
  = [Ok OUnit; Raise ValueError; Raise RuntimeError].
Proof. exact (@pf_C87_refused_attach_refuted). Qed.
Print Assumptions C87_refused_attach_refuted.

(** C87, matrices: for two samples of any numeric dtypes whose pairs of rows are sound, [full] is the
    matrix of the kernel on the same numbers in float64, after any history without the two sparse
    accesses, with or without validation. With validation, samples may be boolean. *)
Theorem C87_matrix :
  forall {U} skip k (pre post : list (op elt U)) n m d X Y A,
    (0 < n)%nat -> (0 < m)%nat -> (0 < d)%nat ->
    (skip = true -> ~ boolean X /\ ~ boolean Y) ->
    finite_on (to_nkernel k) d n m (data_real X) (data_real Y) A ->
    (forall i j, (i < n)%nat -> (j < m)%nat -> sound skip k d (data_row X i) (data_row Y j)) ->
    no_attach post -> no_full_sparse post -> no_whole_index n m post ->
    outcome xN OpFull (after xN (builtin_vec skip k) false pre (data_sample n d X) (Some (data_sample m d Y)) post)
    = Ok (OArr (mkArr Dense (rmat n m A))).
Proof. exact (@pf_C87_matrix). Qed.
Print Assumptions C87_matrix.

(** C87 is false for boolean samples without validation: [full] of a linear kernel contains 1 instead of 2, and
    that of a Laplacian kernel raises RuntimeError. *)
Theorem C87_bool_matrix_refuted : exists X,
  finite_on KLinear 2 1 1 (data_real (DBool X)) (data_real (DBool X)) (fun _ _ => 2%R) /\
  outcome xN OpFull (after (U := unit) xN (builtin_vec false ILinear) false [] (data_sample 1 2 (DBool X)) None [])
  = Ok (OArr (mkArr Dense (rmat 1 1 (fun _ _ => 2%R)))) /\
  outcome xN OpFull (after (U := unit) xN (builtin_vec true ILinear) false [] (data_sample 1 2 (DBool X)) None [])
  = Ok (OArr (mkArr Dense (rmat 1 1 (fun _ _ => 1%R)))) /\
  forall gamma,
    outcome xN OpFull (after (U := unit) xN (builtin_vec true (ILaplacian gamma)) false [] (data_sample 1 2 (DBool X)) None [])
    = Raise RuntimeError.
Proof. exact (@pf_C87_bool_matrix_refuted). Qed.
Print Assumptions C87_bool_matrix_refuted.

(** C87 on concrete data: uint8 against int8 (the common dtype is int16), uint64 against int8 (none),
    a sound pair of a uint8 and a float64 array, and the hypotheses of C87_matrix for a linear kernel on the
    uint8 sample [[200, 2], [3, 4]] and the float64 sample [[1/2, -1]]. *)
Example C87_example :
  common_type uint8 int8 (mkIt W16 true) /\
  (forall p, ~ common_type (mkIt W64 false) int8 p) /\
  sound true (IHadamard 3) 2 (NInt uint8 (fun i => Z.of_nat (i + 1))) (NFloat (fun _ => Fin (1/2))) /\
  sound true (ILaplacian 1) 1 (NInt uint8 (fun _ => 200)) (NInt int8 (fun _ => -100)) /\
  kernel_vec false ILinear (VInt uint8 [200; 2]) (VInt int8 [-100; 1]) = Ok (Fin (-19998)) /\
  (let X := DInt uint8 (fun i q => nth q (nth i [[200; 2]; [3; 4]] []) 0) in
   let Y := DFloat (fun _ q => nth q [1/2; -1] 0)%R in
   finite_on KLinear 2 2 1 (data_real X) (data_real Y)
     (fun i j => inner 2 (data_real X i) (data_real Y j)) /\
   (forall i j, sound true ILinear 2 (data_row X i) (data_row Y j))).
Proof.
  split; [apply (proj1 (pf_C87_common_type uint8 int8)); reflexivity|]. split.
  { intros p H. apply (proj1 (pf_C87_common_type (mkIt W64 false) int8)) in H. discriminate. }
  split.
  { split; [|split; exact I]. split; [lia|]. intros i Hi. assert (C : i = 0%nat \/ i = 1%nat) by lia.
    destruct C as [->| ->]; vm_compute; repeat split; congruence. }
  split.
  { split; [exact I|]. split; [exact I|]. intros p Hp. apply (proj1 (pf_C87_common_type uint8 int8)) in Hp.
    injection Hp as <-. split; [|exact (fun _ => I)]. split; [|vm_compute; split; congruence].
    intros i _. split; vm_compute; split; congruence. }
  split; [reflexivity|]. cbn zeta. split.
  - intros i j _ _. cbn [kernel_value]. now rewrite xdot_fin.
  - intros i j. repeat split.
Qed.
