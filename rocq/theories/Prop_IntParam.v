(** Kernels with integer parameters on integer data: C107.
    Generated by tools/split_props.py from IntParamProps.v: statements only, each closed by [exact]. *)
From Coq Require Import String Reals List Arith ZArith Bool Lia Lra Znumtheory.
Import ListNotations.
From Verif Require Import Prelude MatModel UtilsModel IndexModel KMModel SpecKM XReal OpsModel
  SpecLinAlg KernelsModel SpecKernels KMXModel SpecKMX IntModel SpecInt IntParamModel SpecIntParam.
From Verif Require Import MatFacts MFacts KMFacts KMInv KMHist KMTotal KMProps RSum OpsFacts OpsProps
  PSDFacts KernelFacts KernelProps KMXProps IntProps.
Local Open Scope list_scope.
Local Open Scope Z_scope.
From Verif Require Import IntParamProps.
Local Open Scope list_scope.
Local Open Scope Z_scope.

(** C107: if what the arrays contribute (inner product, or differences and their sum) is representable,
    the kernel computes with r, the representable integer congruent to the exact one modulo 2^bits;
    overflow in between does not matter. *)
Theorem C107_value : forall t u k d x y, natural k -> data_safe t k d x y ->
  exists r, pkernel_value t u k (zvec d x) (zvec d y) = Ok (Fin (outer k (IZR r))) /\
    fits u r /\ (2 ^ bits (i_width u) | r - integer_of k d x y) /\
    (r = integer_of k d x y <-> fits u (integer_of k d x y)).
Proof. exact (@pf_C107_value). Qed.
Print Assumptions C107_value.

(** C107: for polynomial and sigmoid kernels on arrays of the dtype in which the parameters come in
    (int64, say) no condition on the data is needed. *)
Theorem C107_any : forall t k d x y, natural k -> (forall g, k <> PLaplacian g) ->
  exists r, pkernel_value t t k (zvec d x) (zvec d y) = Ok (Fin (outer k (IZR r))) /\
    fits t r /\ (2 ^ bits (i_width t) | r - integer_of k d x y) /\
    (r = integer_of k d x y <-> fits t (integer_of k d x y)).
Proof. exact (@pf_C107_any). Qed.
Print Assumptions C107_any.

(** C107: a polynomial kernel with integer parameters returns what it returns for float parameters and
    float64 arrays exactly when the polynomial is representable. *)
Theorem C107_poly : forall t degree gamma b d x y, 0 <= degree ->
  pkernel_value t t (PPoly degree gamma b) (zvec d x) (zvec d y)
  = kernel_value (to_float (PPoly degree gamma b)) (map ofZ (zvec d x)) (map ofZ (zvec d y))
  <-> fits t ((b + gamma * zsum d (fun i => x i * y i)) ^ degree).
Proof. exact (@pf_C107_poly). Qed.
Print Assumptions C107_poly.

(** C107: a condition on the data. Entries at most B in absolute value, arrays and parameters in a
    signed dtype of N bits, and (|b| + |gamma| d B^2)^degree < 2^(N-1): a polynomial kernel of degree
    at least 1 is exact. *)
Theorem C107_bound : forall t degree gamma b d x y B, i_signed t = true -> 1 <= degree -> 0 <= B ->
  (forall i, (i < d)%nat -> Z.abs (x i) <= B /\ Z.abs (y i) <= B) ->
  (Z.abs b + Z.abs gamma * (Z.of_nat d * (B * B))) ^ degree < 2 ^ (bits (i_width t) - 1) ->
  pkernel_value t t (PPoly degree gamma b) (zvec d x) (zvec d y)
  = kernel_value (to_float (PPoly degree gamma b)) (map ofZ (zvec d x)) (map ofZ (zvec d y)).
Proof. exact (@pf_C107_bound). Qed.
Print Assumptions C107_bound.

(** C107: a negative degree raises ValueError, for all data. *)
Theorem C107_negative : forall t u degree gamma b x y, degree < 0 ->
  pkernel_value t u (PPoly degree gamma b) x y = Raise ValueError.
Proof. exact (@pf_C107_negative). Qed.
Print Assumptions C107_negative.

(** C107: these kernels are symmetric, overflow or not, on signed integers; on unsigned ones the
    polynomial and the sigmoid kernel are. *)
Theorem C107_symmetric : forall t u k x y,
  i_signed t = true \/ (forall g, k <> PLaplacian g) ->
  pkernel_value t u k x y = pkernel_value t u k y x.
Proof. exact (@pf_C107_symmetric). Qed.
Print Assumptions C107_symmetric.

(** C107, matrices: on a sample all pairs of rows of which are safe, and for which the integer is
    representable, [full] is the exact kernel matrix, or its cosine normalisation, after any history. *)
Theorem C107_matrix :
  forall {U} t u k (pre post : list (op Z U)) n d X, natural k ->
    (forall i j, (i <= j < n)%nat -> data_safe t k d (X i) (X j) /\ fits u (integer_of k d (X i) (X j))) ->
    no_attach post ->
    (no_full_sparse post -> no_whole_index n n post ->
     outcome xN OpFull (after xN (builtin_param t u k) false pre (zsample n d X) None post)
     = Ok (OArr (mkArr Dense (rmat n n (fun i j => outer k (IZR (integer_of k d (X i) (X j)))))))) /\
    ((forall i, (i < n)%nat -> (1/100000000 < outer k (IZR (integer_of k d (X i) (X i))))%R) ->
     outcome xN OpFull (after xN (builtin_param t u k) true pre (zsample n d X) None post)
     = Ok (OArr (mkArr Dense (rmat n n (fun i j =>
         (outer k (IZR (integer_of k d (X i) (X j)))
          / sqrt (outer k (IZR (integer_of k d (X i) (X i))) * outer k (IZR (integer_of k d (X j) (X j)))))%R))))).
Proof. exact (@pf_C107_matrix). Qed.
Print Assumptions C107_matrix.

(** C107: with gamma, b >= 0, degree >= 1 and entries at most B in absolute value such that
    (b + gamma d B^2)^degree and d B^2 are below 2^(N-1), a KernelMatrix of the polynomial kernel over
    an N-bit signed sample is positive semidefinite, its entries being the exact values. *)
Theorem C107_psd : forall {U} t degree gamma b (pre post : list (op Z U)) n d X B,
  i_signed t = true -> 1 <= degree -> 0 <= gamma -> 0 <= b -> 0 <= B ->
  (forall i q, (i < n)%nat -> (q < d)%nat -> Z.abs (X i q) <= B) ->
  (b + gamma * (Z.of_nat d * (B * B))) ^ degree < 2 ^ (bits (i_width t) - 1) ->
  Z.of_nat d * (B * B) < 2 ^ (bits (i_width t) - 1) ->
  no_attach post -> no_full_sparse post -> no_whole_index n n post ->
  exists A, psd n A /\
    (forall i j, (i < n)%nat -> (j < n)%nat ->
       A i j = IZR ((b + gamma * zsum d (fun q => X i q * X j q)) ^ degree)) /\
    outcome xN OpFull (after xN (builtin_param t t (PPoly degree gamma b)) false pre (zsample n d X) None post)
    = Ok (OArr (mkArr Dense (rmat n n A))).
Proof. exact (@pf_C107_psd). Qed.
Print Assumptions C107_psd.

(** The dtype of [np.array([[1449]])] and of lists of Python integers. *)
Definition int64 : itype := mkIt W64 true.

(** C107, without the bounds, is false: PolyKernel(degree=3, gamma=1, b=1) gives the int64 sample
    [[1449]] the self-similarity -9191008615827396408 although gamma, b >= 0, so its KernelMatrix is not positive
    semidefinite; the same kernel with float parameters, PolyKernel(degree=3), is positive there. *)
Theorem C107_psd_refuted : forall {U}, exists x A,
  outcome xN OpFull (after xN (builtin_param int64 int64 (PPoly 3 1 1)) false ([] : list (op Z U))
                       (zsample 1 1 (fun _ _ => x)) None [])
  = Ok (OArr (mkArr Dense (rmat 1 1 A))) /\ ~ psd 1 A /\
  exists r, (0 < r)%R /\ ikernel_value int64 (IPoly 3 1 1) [x] [x] = Ok (Fin r).
Proof. exact (@pf_C107_psd_refuted). Qed.
Print Assumptions C107_psd_refuted.

(** C107, without the bounds, is false: LaplacianKernel(gamma=2**62) on the int64 numbers 0 and 3
    returns a value above 1, exp(2^62), where exp(-3*2^62) is meant. *)
Theorem C107_laplacian_refuted : exists gamma x y r, 0 < gamma /\ fits int64 gamma /\
  pkernel_value int64 int64 (PLaplacian gamma) [x] [y] = Ok (Fin r) /\ (1 < r)%R.
Proof. exact (@pf_C107_laplacian_refuted). Qed.
Print Assumptions C107_laplacian_refuted.

(** C107 on concrete data: PolyKernel(degree=3, gamma=2, b=1) on the int64 sample [[1, 2], [-3, 4]]
    meets the bounds with B = 4; its values are 1331, 1331 and 132651. Degree 0 and an overflow in
    between: (2^32)^2 wraps to 0; 2^62 * 4 + 7 to 7. *)
Example C107_example :
  let X := fun i q => nth q (nth i [[1; 2]; [-3; 4]] []) 0 in
  (forall i q, (i < 2)%nat -> (q < 2)%nat -> Z.abs (X i q) <= 4) /\
  (1 + 2 * (Z.of_nat 2 * (4 * 4))) ^ 3 < 2 ^ 63 /\
  pkernel_value int64 int64 (PPoly 3 2 1) (zvec 2 (X 0%nat)) (zvec 2 (X 1%nat)) = Ok (Fin 1331) /\
  pkernel_value int64 int64 (PPoly 3 2 1) (zvec 2 (X 1%nat)) (zvec 2 (X 1%nat)) = Ok (Fin 132651) /\
  pkernel_value int64 int64 (PPoly 0 2 1) (zvec 2 (X 0%nat)) (zvec 2 (X 1%nat)) = Ok (Fin 1) /\
  pkernel_value int64 int64 (PPoly 2 1 0) [65536] [65536] = Ok (Fin 0) /\
  pkernel_value int64 int64 (PPoly 1 (2 ^ 62) 7) [2] [2] = Ok (Fin 7) /\
  pkernel_value int64 int64 (PPoly (-1) 1 1) [2] [2] = Raise ValueError.
Proof.
  intros X. split.
  { intros [|[|i]] [|[|q]] H1 H2; cbn; lia. }
  split; [vm_compute; reflexivity|]. repeat (split; [reflexivity|]). reflexivity.
Qed.
