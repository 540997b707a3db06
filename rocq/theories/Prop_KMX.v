(** KernelMatrix with the library's arithmetic and built-in kernels: C03, C61 - C64, and the
    counterexamples for C02, C04, C05, C07, C08, C10, C14, C17.
    Generated by tools/split_props.py from KMXProps.v: statements only, each closed by [exact]. *)
From Coq Require Import String Reals List Arith ZArith Bool Lia Lra Sorting.Sorted.
Import ListNotations.
From Verif Require Import Prelude MatModel UtilsModel IndexModel KMModel SpecKM XReal OpsModel
  SpecLinAlg KernelsModel SpecKernels KMXModel SpecKMX.
From Verif Require Import MatFacts MFacts KMFacts KMInv KMOps KMHist KMHist2 KMTotal KMGet KMProps RSum OpsFacts OpsProps
  PSDFacts KernelFacts KernelProps.
From Verif Require Import KMXProps.
Local Open Scope list_scope.
Local Open Scope nat_scope.

(** C03, one sample. With normalized=True, a kernel that does not raise (any values, also NaN or
    infinite) and supports format(), [full], [full_sparse] and [normed_km] give the cosine
    normalisation of the kernel matrix of the sample, or its error, after every history. *)
Theorem C03_one_sample :
  forall {E U} (K : kernel E xr) k (pre post : list (op E U)) x n d o,
    never_raises K k x None n n d -> kfmt K = true -> admissible x None n n d -> no_attach post ->
    (o = OpFull \/ o = OpFullSparse \/ o = OpNormedKM) ->
    outcome xN o (after xN K true pre x None post)
    = res_map OArr (normalize_km "cosine" (mkArr Dense (kernel_matrix k n n d x None))).
Proof. exact (@pf_C03_one_sample). Qed.
Print Assumptions C03_one_sample.

(** C03, the matrix: if the kernel matrix is the finite matrix [A] with diagonal above 1e-8, the
    entries are A_ij / sqrt(A_ii A_jj). *)
Theorem C03_value :
  forall {E U} (K : kernel E xr) k (pre post : list (op E U)) x n d o A,
    never_raises K k x None n n d -> kfmt K = true -> admissible x None n n d -> no_attach post ->
    (o = OpFull \/ o = OpFullSparse \/ o = OpNormedKM) ->
    kernel_matrix k n n d x None = rmat n n A ->
    (forall i, i < n -> (1/100000000 < A i i)%R) ->
    outcome xN o (after xN K true pre x None post)
    = Ok (OArr (mkArr Dense (rmat n n (fun i j => (A i j / sqrt (A i i * A j j))%R)))).
Proof. exact (@pf_C03_value). Qed.
Print Assumptions C03_value.

(** C03, the error: a diagonal entry within 1e-8 of zero gives KMNormError, after every history. *)
Theorem C03_error :
  forall {E U} (K : kernel E xr) k (pre post : list (op E U)) x n d o i r,
    never_raises K k x None n n d -> kfmt K = true -> admissible x None n n d -> no_attach post ->
    (o = OpFull \/ o = OpFullSparse \/ o = OpNormedKM) ->
    i < n -> k (row_of d x i) (row_of d x i) = Fin r -> (Rabs r <= 1/100000000)%R ->
    outcome xN o (after xN K true pre x None post) = Raise KMNormError.
Proof. exact (@pf_C03_error). Qed.
Print Assumptions C03_error.

(** C03, two samples: the same with the self-similarities of both samples, provided that those of
    the first sample are not negative or NaN. (Otherwise it is false: C03_refuted_two_samples.) *)
Theorem C03_two_samples_partial :
  forall {E U} (K : kernel E xr) k (pre post : list (op E U)) x y n m d o,
    never_raises K k x (Some y) n m d -> kfmt K = true -> admissible x (Some y) n m d ->
    no_attach post -> (o = OpFull \/ o = OpFullSparse \/ o = OpNormedKM) ->
    (forall i, i < n -> match k (row_of d x i) (row_of d x i) with
                        | Fin r => (0 <= r)%R | PInf => True | _ => False end) ->
    outcome xN o (after xN K true pre x (Some y) post)
    = res_map OArr (normalize_km_2sample "cosine" (mkArr Dense (kernel_matrix k n m d x (Some y)))
        (map (fun i => k (row_of d x i) (row_of d x i)) (seq 0 n))
        (map (fun j => k (row_of d y j) (row_of d y j)) (seq 0 m))).
Proof. exact (@pf_C03_two_samples_partial). Qed.
Print Assumptions C03_two_samples_partial.

(** C63: calling a kernel object on two float vectors is what KernelMatrix does with two rows. *)
Theorem C63_rows_are_calls : forall cast k u v,
  kernel_rows k u v = kernel_call cast k DFloat (vec u) DFloat (vec v).
Proof. exact (@pf_C63_rows_are_calls). Qed.
Print Assumptions C63_rows_are_calls.

(** C63: every built-in numeric kernel other than chi-squared evaluates on all rows of all samples,
    whatever their contents. *)
Theorem C63_total : forall k (x : ndarray xr) y n m d,
  (forall g, k <> KChi2 g) ->
  length (nd_data x) = n * d -> match y with None => n = m | Some y' => length (nd_data y') = m * d end ->
  exists kr, never_raises (builtin k) kr x y n m d /\
    forall u v, length u = length v -> kernel_value k u v = Ok (kr u v).
Proof. exact (@pf_C63_total). Qed.
Print Assumptions C63_total.

(** C63: so does the chi-squared kernel if no element is negative (NaN is not negative). *)
Theorem C63_chi2_total : forall g (x : ndarray xr) y n m d,
  length (nd_data x) = n * d -> match y with None => n = m | Some y' => length (nd_data y') = m * d end ->
  (forall a, In a (nd_data x) -> xltb a (Fin 0) = false) ->
  match y with None => True | Some y' => forall a, In a (nd_data y') -> xltb a (Fin 0) = false end ->
  exists kr, never_raises (builtin (KChi2 g)) kr x y n m d.
Proof. exact (@pf_C63_chi2_total). Qed.
Print Assumptions C63_chi2_total.

Example C63_example : length (nd_data (mkNd [2; 2] [Fin 1; NaN; PInf; Fin 0])) = 2 * 2
  /\ forall g, KGaussian (Fin 0) <> KChi2 g.
Proof. split; [reflexivity|discriminate]. Qed.

(** C64: a kernel that is positive semidefinite on a finite real sample (the linear, polynomial,
    Gaussian, Laplacian, chi-squared and Hadamard kernels under the conditions of C28 - C31) yields,
    through a normalised KernelMatrix and after any history, a positive semidefinite matrix with
    ones on the diagonal and entries in [-1, 1], provided no self-similarity is below 1e-8. *)
Theorem C64_normalised_psd :
  forall {U} cast k (pre post : list (op xr U)) n d X o,
    psd_on (fun x y => kernel_call cast k DFloat x DFloat y) n d X ->
    (forall i, i < n -> exists r, kernel_call cast k DFloat (fvec d (X i)) DFloat (fvec d (X i)) = Ok (Fin r)
                                  /\ (1/100000000 < r)%R) ->
    no_attach post -> (o = OpFull \/ o = OpFullSparse \/ o = OpNormedKM) ->
    exists B, outcome xN o (after xN (builtin k) true pre (rsample n d X) None post)
              = Ok (OArr (mkArr Dense (rmat n n B)))
      /\ psd n B
      /\ (forall i, i < n -> B i i = 1%R)
      /\ (forall i j, i < n -> j < n -> (-1 <= B i j <= 1)%R).
Proof. exact (@pf_C64_normalised_psd). Qed.
Print Assumptions C64_normalised_psd.

(** C64: the matrix of a Gaussian kernel, normalised or not, after any history (any history
    without the two sparse accesses when not normalised): entries exp(-g ||x_i - x_j||^2). *)
Theorem C64_gaussian :
  forall {U} sigma nrm (pre post : list (op xr U)) n d X, sigma <> NaN ->
    no_attach post -> (nrm = true \/ (no_full_sparse post /\ no_whole_index n n post)) ->
    exists g, (0 < g)%R /\
      outcome xN OpFull (after xN (builtin (KGaussian sigma)) nrm pre (rsample n d X) None post)
      = Ok (OArr (mkArr Dense (rmat n n (fun i j => exp (- g * dist2 d (X i) (X j))%R)))).
Proof. exact (@pf_C64_gaussian). Qed.
Print Assumptions C64_gaussian.

Example C64_example : forall cast, psd_on (fun x y => kernel_call cast KLinear DFloat x DFloat y) 2 1
    (fun i _ => INR (1 + i)) /\
  exists r, kernel_call cast KLinear DFloat (fvec 1 (fun _ => 1%R)) DFloat (fvec 1 (fun _ => 1%R)) = Ok (Fin r)
            /\ (1/100000000 < r)%R.
Proof.
  intros cast. split; [apply pf_C28_linear|]. exists (1 * 1)%R. rewrite call_fvec. cbn.
  split; [|lra]. do 2 f_equal. ring.
Qed.

(** C61 (partial). [frob_norm] is the Frobenius norm of the (unnormalised) kernel matrix after any
    history without the two sparse accesses. Missing: those accesses, for which it is false
    (C61_refuted). *)
Theorem C61_frob_partial :
  forall {E U} (K : kernel E xr) k nrm (pre post : list (op E U)) x y n m d,
    never_raises K k x y n m d -> kfmt K = true -> admissible x y n m d -> no_attach post ->
    no_full_sparse post -> no_whole_index n m post ->
    outcome xN OpFrobNorm (after xN K nrm pre x y post)
    = res_map OVal (frobenius_norm (mkArr Dense (kernel_matrix k n m d x y))).
Proof. exact (@pf_C61_frob_partial). Qed.
Print Assumptions C61_frob_partial.

(** C61: for a finite kernel matrix this is the square root of the sum of squared entries. *)
Theorem C61_value_partial :
  forall {E U} (K : kernel E xr) k nrm (pre post : list (op E U)) x y n m d A,
    never_raises K k x y n m d -> kfmt K = true -> admissible x y n m d -> no_attach post ->
    no_full_sparse post -> no_whole_index n m post ->
    kernel_matrix k n m d x y = rmat n m A ->
    outcome xN OpFrobNorm (after xN K nrm pre x y post)
    = Ok (OVal (Fin (sqrt (rsum n (fun i => rsum m (fun j => A i j * A i j)%R))))).
Proof. exact (@pf_C61_value_partial). Qed.
Print Assumptions C61_value_partial.

(** C62: one NaN in a square matrix makes every entry of the normalised matrix NaN, in any format. *)
Theorem C62_nan_poisons : forall meth a B p q, normalize_km meth a = Ok B ->
  p < mr (amat a) -> q < mc (amat a) -> xget (amat a) p q = NaN ->
  forall i j, i < mr (amat a) -> j < mc (amat a) -> xget (amat B) i j = NaN.
Proof. exact (@pf_C62_nan_poisons). Qed.
Print Assumptions C62_nan_poisons.

(** C62: hence one NaN kernel value makes every entry of a normalised KernelMatrix NaN, after every
    history, unless normalisation is refused. *)
Theorem C62_nan_kernel_value :
  forall {E U} (K : kernel E xr) k (pre post : list (op E U)) x n d o p q,
    never_raises K k x None n n d -> kfmt K = true -> admissible x None n n d -> no_attach post ->
    (o = OpFull \/ o = OpFullSparse \/ o = OpNormedKM) ->
    p <= q < n -> k (row_of d x p) (row_of d x q) = NaN ->
    outcome xN o (after xN K true pre x None post) = Raise KMNormError \/
    exists B, outcome xN o (after xN K true pre x None post) = Ok (OArr B) /\
      forall i j, i < n -> j < n -> xget (amat B) i j = NaN.
Proof. exact (@pf_C62_nan_kernel_value). Qed.
Print Assumptions C62_nan_kernel_value.

(** C02 is false for two samples when the matrix is normalised: with LinearKernel, reading [full] of
    the normalised 2 x 2 matrix evaluates the kernel eight times. *)
Theorem C02_two_samples_refuted :
  exists x y n m d (post : list (op xr unit)) new,
    never_raises (builtin KLinear) xdot x (Some y) n m d /\ admissible x (Some y) n m d /\ no_attach post /\
    g_calls (after xN (builtin KLinear) true [] x (Some y) post)
      = new ++ g_calls (before xN (builtin KLinear) true ([] : list (op xr unit))) /\
    n * m < length (returned (builtin KLinear)
              (length (g_calls (before xN (builtin KLinear) true ([] : list (op xr unit))))) new).
Proof. exact (@pf_C02_two_samples_refuted). Qed.
Print Assumptions C02_two_samples_refuted.

(** C02: with two samples there is no bound that depends only on the samples: with LinearKernel on the
    samples [[0]] and [[1]] and normalized=True, every [full] raises KMNormError and evaluates both
    self-similarities again. *)
Theorem C02_unbounded_refuted :
  exists x y n m d,
    never_raises (builtin KLinear) xdot x (Some y) n m d /\ admissible x (Some y) n m d /\
    forall B, exists (post : list (op xr unit)) new, no_attach post /\
      g_calls (after xN (builtin KLinear) true [] x (Some y) post)
        = new ++ g_calls (before xN (builtin KLinear) true ([] : list (op xr unit))) /\
      B < length (returned (builtin KLinear)
              (length (g_calls (before xN (builtin KLinear) true ([] : list (op xr unit))))) new).
Proof. exact (@pf_C02_unbounded_refuted). Qed.
Print Assumptions C02_unbounded_refuted.

(** C04 is false after full_sparse: [full] then returns the upper triangle only. *)
Theorem C04_refuted_full_sparse :
  exists x n d (post : list (op xr unit)) a i j,
    never_raises (builtin KLinear) xdot x None n n d /\ admissible x None n n d /\ no_attach post /\
    no_whole_index n n post /\ i < n /\ j < n /\
    outcome xN OpFull (after xN (builtin KLinear) false [] x None post) = Ok (OArr a) /\
    xget (amat a) i j <> entry xdot d x None i j /\ afmt a <> Dense.
Proof. exact (@pf_C04_refuted_full_sparse). Qed.
Print Assumptions C04_refuted_full_sparse.

(** C04 is false after [km[:, :]]: [full] then returns a sparse matrix. *)
Theorem C04_refuted_whole_index :
  exists x n d (post : list (op xr unit)) a,
    never_raises (builtin KLinear) xdot x None n n d /\ admissible x None n n d /\ no_attach post /\
    no_full_sparse post /\
    outcome xN OpFull (after xN (builtin KLinear) false [] x None post) = Ok (OArr a) /\ afmt a = Lil.
Proof. exact (@pf_C04_refuted_whole_index). Qed.
Print Assumptions C04_refuted_whole_index.

(** C05 is false for [full] after full_sparse. *)
Theorem C05_full_refuted :
  exists x n d (post : list (op xr unit)) a i j,
    never_raises (builtin KLinear) xdot x None n n d /\ admissible x None n n d /\ no_attach post /\
    i < n /\ j < n /\
    outcome xN OpFull (after xN (builtin KLinear) false [] x None post) = Ok (OArr a) /\
    xget (amat a) i j <> xget (amat a) j i.
Proof. exact (@pf_C05_full_refuted). Qed.
Print Assumptions C05_full_refuted.

(** C07 is false: after a rejected second sample the matrix mixes the rejected first
    sample with the old data. *)
Theorem C07_refuted :
  exists x x' y' n d (ix : idx) (a b : arr xr),
    let s := after xN (builtin KLinear) false ([] : list (op xr unit)) x None [] in
    never_raises (builtin KLinear) xdot x None n n d /\ admissible x None n n d /\
    outcome xN (OpAttach x' (Some y')) s = Raise ValueError /\
    outcome xN (OpGetItem ix) s = Ok (OArr a) /\
    outcome xN (OpGetItem ix) (fst (step xN (OpAttach x' (Some y')) s)) = Ok (OArr b) /\
    xget (amat a) 0 0 = Fin (2 * 2 + 0) /\ xget (amat b) 0 0 = Fin (6 * 2 + 0).
Proof. exact (@pf_C07_refuted). Qed.
Print Assumptions C07_refuted.

(** C08 is false: if one kernel call is interrupted while [full] is read, the second read returns NaN
    in place of kernel values that are not NaN. *)
Theorem C08_refuted :
  exists t0 x n d a i j,
    let s := after xN (interrupted t0 KLinear) false ([] : list (op xr unit)) x None [] in
    returns_only (interrupted t0 KLinear) xdot x None n n d /\ admissible x None n n d /\ i < n /\ j < n /\
    outcome xN OpFull s = Raise RuntimeError /\
    outcome xN OpFull (fst (step xN OpFull s)) = Ok (OArr a) /\
    xget (amat a) i j = NaN /\ entry xdot d x None i j <> NaN.
Proof. exact (@pf_C08_refuted). Qed.
Print Assumptions C08_refuted.

(** C08 is false for [km[:, :]]: unevaluated entries appear as zeros. *)
Theorem C08_refuted_sparse :
  exists t0 x n d a i j ix,
    let s := after xN (interrupted t0 KLinear) false ([] : list (op xr unit)) x None [] in
    returns_only (interrupted t0 KLinear) xdot x None n n d /\ admissible x None n n d /\
    i < n /\ j < n /\ selects_all n n ix /\
    outcome xN (OpGetItem ix) s = Raise RuntimeError /\
    outcome xN (OpGetItem ix) (fst (step xN (OpGetItem ix) s)) = Ok (OArr a) /\
    xget (amat a) i j = Fin 0 /\ entry xdot d x None i j <> Fin 0.
Proof. exact (@pf_C08_refuted_sparse). Qed.
Print Assumptions C08_refuted_sparse.

(** C10 is false for unsorted lists. *)
Theorem C10_refuted_order :
  exists x n d li lj a,
    never_raises (builtin KLinear) xdot x None n n d /\ admissible x None n n d /\
    (forall i, In i (li ++ lj) -> i < n) /\ NoDup li /\ NoDup lj /\
    outcome xN (OpGetItem (IPair (IIter (map (fun i => EInt (Z.of_nat i)) li))
                                 (IIter (map (fun j => EInt (Z.of_nat j)) lj))))
            (after xN (builtin KLinear) false ([] : list (op xr unit)) x None []) = Ok (OArr a) /\
    amat a <> submatrix (entry xdot d x None) li lj.
Proof. exact (@pf_C10_refuted_order). Qed.
Print Assumptions C10_refuted_order.

(** C10 is false for repeated indices: they are returned once. *)
Theorem C10_refuted_repetition :
  exists x n d li lj a,
    never_raises (builtin KLinear) xdot x None n n d /\ admissible x None n n d /\
    (forall i, In i (li ++ lj) -> i < n) /\ StronglySorted le li /\ StronglySorted le lj /\
    outcome xN (OpGetItem (IPair (IIter (map (fun i => EInt (Z.of_nat i)) li))
                                 (IIter (map (fun j => EInt (Z.of_nat j)) lj))))
            (after xN (builtin KLinear) false ([] : list (op xr unit)) x None []) = Ok (OArr a) /\
    mr (amat a) <> length li.
Proof. exact (@pf_C10_refuted_repetition). Qed.
Print Assumptions C10_refuted_repetition.

(** C12 is false for two samples after full_sparse: [full] succeeds and the element below the
    diagonal that it left out is evaluated later. *)
Theorem C12_refuted :
  exists x y n m d (post : list (op xr unit)) ix,
    never_raises (builtin KLinear) xdot x (Some y) n m d /\ admissible x (Some y) n m d /\ no_attach post /\
    is_ok (outcome xN OpFull (after xN (builtin KLinear) false [] x (Some y) post)) = true /\
    let s := fst (step xN OpFull (after xN (builtin KLinear) false [] x (Some y) post)) in
    length (g_calls (fst (step xN (OpGetItem ix) s))) = S (length (g_calls s)).
Proof. exact (@pf_C12_refuted). Qed.
Print Assumptions C12_refuted.

(** C14 is false after [km[:, :]]: [centered] then raises ValueError. *)
Theorem C14_refuted :
  exists x n d (post : list (op xr unit)),
    never_raises (builtin KLinear) xdot x None n n d /\ admissible x None n n d /\ no_attach post /\
    is_ok (outcome xN OpCentered (after (U:=unit) xN (builtin KLinear) false [] x None [])) = true /\
    outcome xN OpCentered (after xN (builtin KLinear) false [] x None post) = Raise ValueError.
Proof. exact (@pf_C14_refuted). Qed.
Print Assumptions C14_refuted.

(** C17 is false for user callables: reading [full] raises TypeError. *)
Theorem C17_refuted :
  exists (K : kernel xr xr) k x n d,
    never_raises K k x None n n d /\ admissible x None n n d /\
    outcome xN OpFull (after xN K false ([] : list (op xr unit)) x None []) = Raise TypeError.
Proof. exact (@pf_C17_refuted). Qed.
Print Assumptions C17_refuted.

(** C03 is false for user callables (KernelFromCallable), which do not support format(): if a value
    is NaN, the first two reads of a normalised [full] raise TypeError and the third succeeds. *)
Theorem C03_refuted_callable :
  exists (K : kernel xr xr) k x n d a,
    never_raises K k x None n n d /\ admissible x None n n d /\
    trace xN [OpFull; OpFull; OpFull] (after xN K true ([] : list (op xr unit)) x None [])
    = [Raise TypeError; Raise TypeError; Ok (OArr a)].
Proof. exact (@pf_C03_refuted_callable). Qed.
Print Assumptions C03_refuted_callable.

(** C03 is false for two samples when a self-similarity is negative: PolyKernel(degree=1, gamma=1,
    b=-1) on x = 1/2, y = 2 has k(x,y) = 0 and k(x,x) = -3/4; [full] is NaN, but after
    [km[:, :]] it is 0. *)
Theorem C03_refuted_two_samples :
  exists k x y n m d (post : list (op xr unit)),
    never_raises (builtin (KPoly 1 1 (-1))) k x (Some y) n m d /\ admissible x (Some y) n m d /\
    no_attach post /\
    (exists a, outcome xN OpFull (after (U:=unit) xN (builtin (KPoly 1 1 (-1))) true [] x (Some y) []) = Ok (OArr a)
               /\ xget (amat a) 0 0 = NaN) /\
    (exists a, outcome xN OpFull (after xN (builtin (KPoly 1 1 (-1))) true [] x (Some y) post) = Ok (OArr a)
               /\ xget (amat a) 0 0 = Fin 0).
Proof. exact (@pf_C03_refuted_two_samples). Qed.
Print Assumptions C03_refuted_two_samples.

(** C61 is false after [km[:, :]]: LinearKernel on the sample [[1], [-1]] has Frobenius norm 2, and
    0 is returned. *)
Theorem C61_refuted :
  exists x n d (post : list (op xr unit)),
    never_raises (builtin KLinear) xdot x None n n d /\ admissible x None n n d /\ no_attach post /\
    no_full_sparse post /\
    outcome xN OpFrobNorm (after (U:=unit) xN (builtin KLinear) false [] x None []) = Ok (OVal (Fin 2)) /\
    outcome xN OpFrobNorm (after xN (builtin KLinear) false [] x None post) = Ok (OVal (Fin 0)).
Proof. exact (@pf_C61_refuted). Qed.
Print Assumptions C61_refuted.

(** The hypotheses of C03, C61 and C62 hold for non-trivial inputs. *)
Example C03_example :
  never_raises (builtin KLinear) xdot x12 None 2 2 1 /\ admissible x12 None 2 2 1 /\
  kernel_matrix xdot 2 2 1 x12 None = rmat 2 2 (fun i j => (INR (1 + i) * INR (1 + j))%R) /\
  (forall i, i < 2 -> (1/100000000 < INR (1 + i) * INR (1 + i))%R).
Proof.
  split; [apply linear_total; reflexivity|]. split; [exact x12_ok|]. split.
  - apply tabulate_ext. intros i j Hi Hj.
    destruct i as [|[|i]]; [| |lia]; (destruct j as [|[|j]]; [| |lia]);
      lazy -[Rplus Rmult IZR]; f_equal; ring.
  - intros [|[|i]] Hi; [| |lia]; cbn; lra.
Qed.
Example C03_two_samples_example :
  never_raises (builtin KLinear) xdot x12 (Some x12) 2 2 1 /\ admissible x12 (Some x12) 2 2 1 /\
  forall i, i < 2 -> match xdot (row_of 1 x12 i) (row_of 1 x12 i) with
                     | Fin r => (0 <= r)%R | PInf => True | _ => False end.
Proof.
  split; [apply linear_total; reflexivity|]. split; [exact x12_x12_ok|].
  intros [|[|i]] Hi; [| |lia]; lazy -[Rplus Rmult IZR Rle]; lra.
Qed.
Example C62_example :
  let K := mkKernel (fun _ u v => Ok (xadd (xdot u v) (Fin 1))) true in
  let k := fun u v => xadd (xdot u v) (Fin 1) in
  let x := mkNd [2; 1] [Fin 1; NaN] in
  never_raises K k x None 2 2 1 /\ admissible x None 2 2 1 /\ k (row_of 1 x 0) (row_of 1 x 1) = NaN /\
  exists B, normalize_km "cosine" (mkArr Dense (kernel_matrix k 2 2 1 x None)) = Ok B.
Proof.
  split; [intros t u v _ _; reflexivity|].
  split; [split; [exists []; split; [reflexivity|constructor]|reflexivity]|]. split; [reflexivity|].
  eexists. calc. rdec. reflexivity.
Qed.
