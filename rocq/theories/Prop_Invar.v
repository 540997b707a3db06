(** How kernel values react to changes of the features (C95), in exact arithmetic.
    Generated by tools/split_props.py from InvarProps.v: statements only, each closed by [exact]. *)
From Coq Require Import String List Arith ZArith Bool Reals Lra Lia Permutation.
Import ListNotations.
From Verif Require Import Prelude MatModel MatFacts UtilsModel XReal SpecLinAlg RSum PSDFacts OpsModel OpsFacts KernelsModel
  SpecKernels KernelFacts KernelProps KMXModel IndexModel KMModel SpecKM SpecSample SampleXProps KMProps KMXProps.
Local Open Scope R_scope.
From Verif Require Import InvarProps.
Local Open Scope R_scope.

(** The features [x] followed by the features [x']. *)
Definition joined (d : nat) (x x' : nat -> R) (k : nat) : R := if (k <? d)%nat then x k else x' (k - d)%nat.

(** C95: the order of the features is irrelevant, for all numeric kernels and all entries, infinite or NaN
    included; also when the call raises. *)
Theorem C95_order : forall cast k x y x' y', length x = length y -> length x' = length y' ->
  Permutation (combine x y) (combine x' y') ->
  kernel_call cast k DFloat (vec x) DFloat (vec y) = kernel_call cast k DFloat (vec x') DFloat (vec y').
Proof. exact (@pf_C95_order). Qed.
Print Assumptions C95_order.

(** The columns of [x'] are those of [x] in the order [f]. *)
Definition columns_reordered (d : nat) (f : nat -> nat) (n : nat) (x x' : ndarray xr) : Prop :=
  forall i, (i < n)%nat -> row_of d x' i = map (fun c => nth (f c) (row_of d x i) NaN) (seq 0 d).

(** C95: reordering the columns of the attached samples changes neither values nor exceptions of a built-in
    kernel on the rows, *)
Theorem C95_rows : forall k d f n m x y x' y', permutes d f ->
  length (nd_data x) = (n * d)%nat -> length (nd_data (columns x y)) = (m * d)%nat ->
  columns_reordered d f n x x' -> columns_reordered d f m (columns x y) (columns x' y') ->
  forall t i j, (i < n)%nat -> (j < m)%nat ->
    kf (builtin k) t (row_of d x' i) (row_of d (columns x' y') j)
    = kf (builtin k) t (row_of d x i) (row_of d (columns x y) j).
Proof. exact (@pf_C95_rows). Qed.
Print Assumptions C95_rows.

(** nor, therefore, the kernel matrix, whatever was done before and after attach_to. *)
Theorem C95_matrix :
  forall {U} k kv kv' (pre post pre' post' : list (op xr U)) x y x' y' n m d f,
    never_raises (builtin k) kv x y n m d -> never_raises (builtin k) kv' x' y' n m d ->
    admissible x y n m d -> admissible x' y' n m d -> (y = None <-> y' = None) ->
    length (nd_data x) = (n * d)%nat -> length (nd_data (columns x y)) = (m * d)%nat ->
    no_attach post -> no_full_sparse post -> no_whole_index n m post ->
    no_attach post' -> no_full_sparse post' -> no_whole_index n m post' ->
    permutes d f -> columns_reordered d f n x x' -> columns_reordered d f m (columns x y) (columns x' y') ->
    outcome xN OpFull (after xN (builtin k) false pre x y post)
    = outcome xN OpFull (after xN (builtin k) false pre' x' y' post').
Proof. exact (@pf_C95_matrix). Qed.
Print Assumptions C95_matrix.

(** C95: a feature that is zero in both arguments can be left out, for every kernel but HadamardKernel with a
    negative exponent (then the value would be NaN, C31_negative_alpha_nan). By C95_order the feature may be
    in any position. *)
Theorem C95_common_zero : forall cast k x y, length x = length y ->
  match k with KHadamard alpha => 0 < alpha | _ => True end ->
  kernel_call cast k DFloat (vec (x ++ [Fin 0])) DFloat (vec (y ++ [Fin 0]))
  = kernel_call cast k DFloat (vec x) DFloat (vec y).
Proof. exact (@pf_C95_common_zero). Qed.
Print Assumptions C95_common_zero.

(** C95: for Gaussian and Laplacian kernels so can every feature with the same finite value in both arguments. *)
Theorem C95_common_feature : forall cast k x y c, length x = length y ->
  match k with KGaussian _ | KLaplacian _ => True | _ => False end ->
  kernel_call cast k DFloat (vec (x ++ [Fin c])) DFloat (vec (y ++ [Fin c]))
  = kernel_call cast k DFloat (vec x) DFloat (vec y).
Proof. exact (@pf_C95_common_feature). Qed.
Print Assumptions C95_common_feature.

(** C95: Gaussian and Laplacian kernels depend on the difference of the points only. *)
Theorem C95_translation : forall cast k d x y c,
  match k with KGaussian s => s <> NaN | KLaplacian _ => True | _ => False end ->
  kernel_call cast k DFloat (fvec d (fun i => x i + c i)) DFloat (fvec d (fun i => y i + c i))
  = kernel_call cast k DFloat (fvec d x) DFloat (fvec d y).
Proof. exact (@pf_C95_translation). Qed.
Print Assumptions C95_translation.

(** C95: changing the sign of features in both arguments changes nothing, except for Chi2Kernel, which
    refuses negative numbers. *)
Theorem C95_signs : forall cast k d x y e, (forall i, (i < d)%nat -> e i = 1 \/ e i = -1) ->
  match k with KGaussian s => s <> NaN | KHadamard alpha => 0 < alpha | KChi2 _ => False | _ => True end ->
  kernel_call cast k DFloat (fvec d (fun i => e i * x i)) DFloat (fvec d (fun i => e i * y i))
  = kernel_call cast k DFloat (fvec d x) DFloat (fvec d y).
Proof. exact (@pf_C95_signs). Qed.
Print Assumptions C95_signs.

(** C95: features in other units. Multiplying all features by s > 0 amounts to another kernel parameter. *)
Theorem C95_scaling_poly : forall cast degree gamma b d x y s,
  kernel_call cast (KPoly degree gamma b) DFloat (fvec d (fun i => s * x i)) DFloat (fvec d (fun i => s * y i))
  = kernel_call cast (KPoly degree (gamma * (s * s)) b) DFloat (fvec d x) DFloat (fvec d y).
Proof. exact (@pf_C95_scaling_poly). Qed.
Print Assumptions C95_scaling_poly.

Theorem C95_scaling_sigmoid : forall cast gamma c d x y s,
  kernel_call cast (KSigmoid gamma c) DFloat (fvec d (fun i => s * x i)) DFloat (fvec d (fun i => s * y i))
  = kernel_call cast (KSigmoid (gamma * (s * s)) c) DFloat (fvec d x) DFloat (fvec d y).
Proof. exact (@pf_C95_scaling_sigmoid). Qed.
Print Assumptions C95_scaling_sigmoid.

Theorem C95_scaling_laplacian : forall cast gamma d x y s, 0 <= s ->
  kernel_call cast (KLaplacian gamma) DFloat (fvec d (fun i => s * x i)) DFloat (fvec d (fun i => s * y i))
  = kernel_call cast (KLaplacian (gamma * s)) DFloat (fvec d x) DFloat (fvec d y).
Proof. exact (@pf_C95_scaling_laplacian). Qed.
Print Assumptions C95_scaling_laplacian.

Theorem C95_scaling_chi2 : forall cast gamma d x y s, 0 < s ->
  kernel_call cast (KChi2 gamma) DFloat (fvec d (fun i => s * x i)) DFloat (fvec d (fun i => s * y i))
  = kernel_call cast (KChi2 (gamma * s)) DFloat (fvec d x) DFloat (fvec d y).
Proof. exact (@pf_C95_scaling_chi2). Qed.
Print Assumptions C95_scaling_chi2.

(** The bandwidth of GaussianKernel is in the unit of the features, as long as neither sigma nor
    1/(2 sigma^2) is below the smallest value the library uses, 2^-52. *)
Theorem C95_scaling_gaussian : forall cast sigma d x y s, 0 < s ->
  / 2 ^ 52 <= sigma -> / 2 ^ 52 <= s * sigma ->
  / 2 ^ 52 <= 1 / (2 * (sigma * sigma)) -> / 2 ^ 52 <= 1 / (2 * (s * sigma * (s * sigma))) ->
  kernel_call cast (KGaussian (Fin (s * sigma))) DFloat (fvec d (fun i => s * x i)) DFloat (fvec d (fun i => s * y i))
  = kernel_call cast (KGaussian (Fin sigma)) DFloat (fvec d x) DFloat (fvec d y).
Proof. exact (@pf_C95_scaling_gaussian). Qed.
Print Assumptions C95_scaling_gaussian.

(** C95: two groups of features. The Gaussian, Laplacian and chi-squared kernels of the joined features are the
    products of those of the groups, *)
Theorem C95_groups_product : forall cast k d d' x y x' y' a b,
  match k with KGaussian s => s <> NaN | KLaplacian _ | KChi2 _ => True | _ => False end ->
  kernel_call cast k DFloat (fvec d x) DFloat (fvec d y) = Ok (Fin a) ->
  kernel_call cast k DFloat (fvec d' x') DFloat (fvec d' y') = Ok (Fin b) ->
  kernel_call cast k DFloat (fvec (d + d') (joined d x x')) DFloat (fvec (d + d') (joined d y y')) = Ok (Fin (a * b)).
Proof. exact (@pf_C95_groups_product). Qed.
Print Assumptions C95_groups_product.

(** and the linear and Hadamard kernels the sums. *)
Theorem C95_groups_sum : forall cast k d d' x y x' y' a b,
  match k with KHadamard alpha => 0 < alpha | KLinear => True | _ => False end ->
  kernel_call cast k DFloat (fvec d x) DFloat (fvec d y) = Ok (Fin a) ->
  kernel_call cast k DFloat (fvec d' x') DFloat (fvec d' y') = Ok (Fin b) ->
  kernel_call cast k DFloat (fvec (d + d') (joined d x x')) DFloat (fvec (d + d') (joined d y y')) = Ok (Fin (a + b)).
Proof. exact (@pf_C95_groups_sum). Qed.
Print Assumptions C95_groups_sum.

(** C95: LinearKernel is linear in each argument (the first here, by symmetry the second). *)
Theorem C95_linear : forall cast d x z y a b p q,
  kernel_call cast KLinear DFloat (fvec d x) DFloat (fvec d y) = Ok (Fin p) ->
  kernel_call cast KLinear DFloat (fvec d z) DFloat (fvec d y) = Ok (Fin q) ->
  kernel_call cast KLinear DFloat (fvec d (fun i => a * x i + b * z i)) DFloat (fvec d y) = Ok (Fin (a * p + b * q)).
Proof. exact (@pf_C95_linear). Qed.
Print Assumptions C95_linear.

(** C95: HadamardKernel is homogeneous of degree alpha. *)
Theorem C95_scaling_hadamard : forall cast alpha d x y s v, 0 < alpha -> 0 < s ->
  kernel_call cast (KHadamard alpha) DFloat (fvec d x) DFloat (fvec d y) = Ok (Fin v) ->
  kernel_call cast (KHadamard alpha) DFloat (fvec d (fun i => s * x i)) DFloat (fvec d (fun i => s * y i))
  = Ok (Fin (Rpower s alpha * v)).
Proof. exact (@pf_C95_scaling_hadamard). Qed.
Print Assumptions C95_scaling_hadamard.

(** C95: without alpha > 0 a feature that is zero in both arguments does change the value. *)
Theorem C95_common_zero_refuted : exists alpha x y, kernel_init (KHadamard alpha) = Ok (KHadamard alpha) /\
  length x = length y /\ forall cast,
  (exists v, kernel_call cast (KHadamard alpha) DFloat (vec x) DFloat (vec y) = Ok (Fin v)) /\
  kernel_call cast (KHadamard alpha) DFloat (vec (x ++ [Fin 0])) DFloat (vec (y ++ [Fin 0])) = Ok NaN.
Proof. exact (@pf_C95_common_zero_refuted). Qed.
Print Assumptions C95_common_zero_refuted.

(** C95, the categorical kernel: the order of the features is irrelevant... *)
Theorem C95_match_order : forall perc x y x' y', length x = length y -> length x' = length y' ->
  Permutation (combine x y) (combine x' y') ->
  match_call String.eqb perc DStr (vec x) DStr (vec y) = match_call String.eqb perc DStr (vec x') DStr (vec y').
Proof. exact (@pf_C95_match_order). Qed.
Print Assumptions C95_match_order.

(** ... and the counts of two groups of features add up. *)
Theorem C95_match_groups : forall x y x' y' a b, length x = length y ->
  match_call String.eqb false DStr (vec x) DStr (vec y) = Ok (Fin a) ->
  match_call String.eqb false DStr (vec x') DStr (vec y') = Ok (Fin b) ->
  match_call String.eqb false DStr (vec (x ++ x')) DStr (vec (y ++ y')) = Ok (Fin (a + b)).
Proof. exact (@pf_C95_match_groups). Qed.
Print Assumptions C95_match_groups.

(** Concrete cases: (1, 2, 0) and (3, -1, 0) reordered, without the common zero, shifted, in other units,
    in two groups. *)
Example C95_order_example : Permutation (combine [Fin 1; Fin 2; Fin 0] [Fin 3; Fin (-1); Fin 0])
                                        (combine [Fin 0; Fin 1; Fin 2] [Fin 0; Fin 3; Fin (-1)]).
Proof. cbn [combine]. apply perm_trans with [(Fin 1, Fin 3); (Fin 0, Fin 0); (Fin 2, Fin (-1))]; constructor; constructor. Qed.
Example C95_matrix_example :
  let x := mkNd [2; 2]%nat [Fin 1; Fin 2; Fin 3; Fin 4] in
  let x' := mkNd [2; 2]%nat [Fin 2; Fin 1; Fin 4; Fin 3] in
  never_raises (builtin KLinear) xdot x None 2 2 2 /\ never_raises (builtin KLinear) xdot x' None 2 2 2 /\
  admissible x None 2 2 2 /\ admissible x' None 2 2 2 /\ permutes 2 (fun i => 1 - i)%nat /\
  columns_reordered 2 (fun i => 1 - i)%nat 2 x x'.
Proof.
  cbv zeta. split; [apply linear_total; reflexivity|]. split; [apply linear_total; reflexivity|].
  split; [split; [exists []; split; [reflexivity|constructor]|reflexivity]|].
  split; [split; [exists []; split; [reflexivity|constructor]|reflexivity]|].
  split; [split; lia|]. intros [|[|i]] Hi; try lia; reflexivity.
Qed.
Example C95_scaling_example : / 2 ^ 52 <= 2 /\ / 2 ^ 52 <= 1000 * 2 /\ / 2 ^ 52 <= 1 / (2 * (2 * 2)) /\
  / 2 ^ 52 <= 1 / (2 * (1000 * 2 * (1000 * 2))).
Proof.
  assert (H : / 2 ^ 52 <= / 2 ^ 23). { apply Rinv_le_contravar; [apply pow_lt; lra|]. apply Rle_pow; [lra|lia]. }
  assert (H' : / 2 ^ 23 <= 1 / (2 * (1000 * 2 * (1000 * 2)))).
  { unfold Rdiv. rewrite Rmult_1_l. apply Rinv_le_contravar; lra. }
  repeat split; lra.
Qed.
Example C95_groups_example : forall cast,
  kernel_call cast KLinear DFloat (fvec 1 (fun _ => 2)) DFloat (fvec 1 (fun _ => 3)) = Ok (Fin 6) /\
  kernel_call cast KLinear DFloat (fvec 2 (fun _ => 1)) DFloat (fvec 2 (fun _ => 5)) = Ok (Fin 10).
Proof.
  intros cast. split; rewrite pf_C28_linear_value; do 2 f_equal; unfold inner; cbn [rsum]; lra.
Qed.
