(** Properties C27-C35: kernel functions and validation of their inputs.
    Generated by tools/split_props.py from KernelProps.v: statements only, each closed by [exact]. *)
From Coq Require Import String Reals List Bool Arith Lra Lia Psatz.
Import ListNotations.
From Verif Require Import Prelude MatModel UtilsModel XReal SpecLinAlg RSum PSDFacts OpsModel OpsFacts KernelsModel SpecKernels KernelFacts.
From Verif Require Import KernelProps.
Local Open Scope R_scope.

(** C27: every numeric kernel, on any two arrays of any shapes, dtypes and contents (including NaN
    and infinities), gives the same value or the same error with its arguments swapped. *)
Theorem C27_numeric : forall cast k dx (x : ndarray xr) dy y,
  kernel_call cast k dx x dy y = kernel_call cast k dy y dx x.
Proof. exact (@pf_C27_numeric). Qed.
Print Assumptions C27_numeric.

(** C27: the categorical kernel, likewise. *)
Theorem C27_categorical : forall perc dx x dy y,
  match_call String.eqb perc dx x dy y = match_call String.eqb perc dy y dx x.
Proof. exact (@pf_C27_categorical). Qed.
Print Assumptions C27_categorical.

(** C27 on concrete vectors: (1, 2) and (3, -1) with a linear kernel give 1 both ways; and an
    error both ways when the lengths differ. *)
Example C27_example : forall cast,
  kernel_call cast KLinear DFloat (vec [Fin 1; Fin 2]) DFloat (vec [Fin 3; Fin (-1)]) = Ok (Fin 1)
  /\ kernel_call cast KLinear DFloat (vec [Fin 1; Fin 2]) DFloat (vec [Fin 3]) = Raise ValueError
  /\ kernel_call cast KLinear DFloat (vec [Fin 3]) DFloat (vec [Fin 1; Fin 2]) = Raise ValueError.
Proof.
  intros cast. split; [|split]; try reflexivity. unfold kernel_call. simpl. unfold xdot, xsum. simpl.
  do 2 f_equal. lra.
Qed.

(** C28: the value of the linear kernel. *)
Theorem C28_linear_value : forall cast d x y,
  kernel_call cast KLinear DFloat (fvec d x) DFloat (fvec d y) = Ok (Fin (inner d x y)).
Proof. exact (@pf_C28_linear_value). Qed.
Print Assumptions C28_linear_value.

(** C28: the linear kernel is positive semidefinite on every finite sample. *)
Theorem C28_linear : forall cast n d X,
  psd_on (fun x y => kernel_call cast KLinear DFloat x DFloat y) n d X.
Proof. exact (@pf_C28_linear). Qed.
Print Assumptions C28_linear.

(** C28: the value of the polynomial kernel. *)
Theorem C28_poly_value : forall cast degree gamma b d x y,
  kernel_call cast (KPoly degree gamma b) DFloat (fvec d x) DFloat (fvec d y)
  = Ok (Fin ((b + gamma * inner d x y) ^ degree)).
Proof. exact (@pf_C28_poly_value). Qed.
Print Assumptions C28_poly_value.

(** C28: so is the polynomial kernel for gamma, b >= 0 and any degree. *)
Theorem C28_poly : forall cast degree gamma b n d X, 0 <= gamma -> 0 <= b ->
  psd_on (fun x y => kernel_call cast (KPoly degree gamma b) DFloat x DFloat y) n d X.
Proof. exact (@pf_C28_poly). Qed.
Print Assumptions C28_poly.

(** C28: the condition b >= 0 cannot be dropped. *)
Theorem C28_refuted_negative_b : exists gamma b degree n d X,
  0 <= gamma /\ forall cast,
  ~ psd_on (fun x y => kernel_call cast (KPoly degree gamma b) DFloat x DFloat y) n d X.
Proof. exact (@pf_C28_refuted_negative_b). Qed.
Print Assumptions C28_refuted_negative_b.

(** C28 on the concrete sample (1), (-2) with the polynomial kernel of degree 3. *)
Example C28_example : forall cast,
  kernel_call cast (KPoly 3 1 1) DFloat (fvec 1 (fun _ => 1)) DFloat (fvec 1 (fun _ => -2)) = Ok (Fin (-1)).
Proof.
  intros cast. rewrite call_fvec, poly_value. do 2 f_equal. unfold inner. simpl. lra.
Qed.

(** C29: the Gaussian kernel is positive semidefinite on every finite sample, for every sigma
    other than NaN (zero, negative and infinite included). *)
Theorem C29_gaussian : forall cast sigma n d X, sigma <> NaN ->
  psd_on (fun x y => kernel_call cast (KGaussian sigma) DFloat x DFloat y) n d X.
Proof. exact (@pf_C29_gaussian). Qed.
Print Assumptions C29_gaussian.

(** C29: its values are in (0,1], and k(x,x) = 1. *)
Theorem C29_gaussian_range : forall cast sigma d x y, sigma <> NaN ->
  (exists v, kernel_call cast (KGaussian sigma) DFloat (fvec d x) DFloat (fvec d y) = Ok (Fin v)
             /\ 0 < v <= 1)
  /\ kernel_call cast (KGaussian sigma) DFloat (fvec d x) DFloat (fvec d x) = Ok (Fin 1).
Proof. exact (@pf_C29_gaussian_range). Qed.
Print Assumptions C29_gaussian_range.

(** C29: its value is 1 only at distance zero. *)
Theorem C29_gaussian_one_iff : forall cast sigma d x y, sigma <> NaN ->
  (kernel_call cast (KGaussian sigma) DFloat (fvec d x) DFloat (fvec d y) = Ok (Fin 1)
   <-> forall k, (k < d)%nat -> x k = y k).
Proof. exact (@pf_C29_gaussian_one_iff). Qed.
Print Assumptions C29_gaussian_one_iff.

(** C29: the Laplacian kernel is positive semidefinite on every finite sample for gamma >= 0. *)
Theorem C29_laplacian : forall cast gamma n d X, 0 <= gamma ->
  psd_on (fun x y => kernel_call cast (KLaplacian gamma) DFloat x DFloat y) n d X.
Proof. exact (@pf_C29_laplacian). Qed.
Print Assumptions C29_laplacian.

(** C29: the value of the Laplacian kernel, in (0,1], and 1 on the diagonal. *)
Theorem C29_laplacian_value : forall cast gamma d x y, 0 <= gamma ->
  kernel_call cast (KLaplacian gamma) DFloat (fvec d x) DFloat (fvec d y) = Ok (Fin (exp (- gamma * dist1 d x y)))
  /\ 0 < exp (- gamma * dist1 d x y) <= 1
  /\ kernel_call cast (KLaplacian gamma) DFloat (fvec d x) DFloat (fvec d x) = Ok (Fin 1).
Proof. exact (@pf_C29_laplacian_value). Qed.
Print Assumptions C29_laplacian_value.

(** C29: GaussianKernel(sigma=1) at distance 2 is exp(-2); a Laplacian value. *)
Example C29_example : forall cast,
  kernel_call cast (KGaussian (Fin 1)) DFloat (fvec 1 (fun _ => 0)) DFloat (fvec 1 (fun _ => 2)) = Ok (Fin (exp (-2)))
  /\ kernel_call cast (KLaplacian 1) DFloat (fvec 2 (fun k => INR k)) DFloat (fvec 2 (fun _ => 2)) = Ok (Fin (exp (-3))).
Proof.
  intros cast. rewrite !call_fvec. split.
  - rewrite (gaussian_value 1 _ _ (Fin 1) (/ 2)).
    + do 3 f_equal. unfold dist2. simpl. lra.
    + rewrite gaussian_gamma_fin. assert (H := eps_lt1).
      assert (float_eps <= / 2).
      { unfold float_eps. apply Rinv_le_contravar; [lra|].
        replace 2 with (2 ^ 1) at 1 by ring. apply Rle_pow; [lra|lia]. }
      rewrite (Rmax_right float_eps 1) by lra. rewrite Rmax_right by lra. f_equal. lra.
  - rewrite laplacian_value. do 3 f_equal. unfold dist1. simpl.
    rewrite (Rabs_left (0 - 2)), (Rabs_left (1 - 2)) by lra. lra.
Qed.

(** C30: Chi2Kernel raises its exception exactly when some entry of either vector is negative
    (vectors of any numbers, infinities and NaN included; NaN is not negative). *)
Theorem C30_negative_iff : forall cast gamma (x y : list xr), length x = length y ->
  (kernel_call cast (KChi2 gamma) DFloat (vec x) DFloat (vec y) = Raise Chi2NegativeValues
   <-> exists v, In v (x ++ y) /\ (v = NInf \/ exists r, v = Fin r /\ r < 0)).
Proof. exact (@pf_C30_negative_iff). Qed.
Print Assumptions C30_negative_iff.

(** C30: otherwise the value, for finite vectors: zero pairs contribute nothing. *)
Theorem C30_value : forall cast gamma d x y,
  (forall k, (k < d)%nat -> 0 <= x k) -> (forall k, (k < d)%nat -> 0 <= y k) ->
  kernel_call cast (KChi2 gamma) DFloat (fvec d x) DFloat (fvec d y)
  = Ok (Fin (exp (- gamma * chi2stat d x y))).
Proof. exact (@pf_C30_value). Qed.
Print Assumptions C30_value.

(** C30: in (0,1] for gamma >= 0, and 1 on the diagonal. *)
Theorem C30_range : forall cast gamma d x y, 0 <= gamma ->
  (forall k, (k < d)%nat -> 0 <= x k) -> (forall k, (k < d)%nat -> 0 <= y k) ->
  (exists v, kernel_call cast (KChi2 gamma) DFloat (fvec d x) DFloat (fvec d y) = Ok (Fin v) /\ 0 < v <= 1)
  /\ kernel_call cast (KChi2 gamma) DFloat (fvec d x) DFloat (fvec d x) = Ok (Fin 1).
Proof. exact (@pf_C30_range). Qed.
Print Assumptions C30_range.

(** C30: positive semidefinite on every finite non-negative sample. *)
Theorem C30_psd : forall cast gamma n d X, 0 <= gamma ->
  (forall i k, (i < n)%nat -> (k < d)%nat -> 0 <= X i k) ->
  psd_on (fun x y => kernel_call cast (KChi2 gamma) DFloat x DFloat y) n d X.
Proof. exact (@pf_C30_psd). Qed.
Print Assumptions C30_psd.

(** C30: a common zero is skipped, (1,0) against (3,0) gives exp(-1); a negative entry is refused. *)
Example C30_example : forall cast,
  kernel_call cast (KChi2 1) DFloat (vec [Fin 1; Fin 0]) DFloat (vec [Fin 3; Fin 0]) = Ok (Fin (exp (-1)))
  /\ kernel_call cast (KChi2 1) DFloat (vec [Fin 1; Fin 0]) DFloat (vec [Fin 3; Fin (-1)]) = Raise Chi2NegativeValues.
Proof.
  intros cast. split.
  - assert (H := pf_C30_value cast 1 2 (fun k => if Nat.eqb k 0 then 1 else 0) (fun k => if Nat.eqb k 0 then 3 else 0)).
    unfold fvec in H. simpl in H. unfold vec. simpl. rewrite H.
    + do 3 f_equal. unfold chi2stat. simpl.
      destruct (Req_EM_T (1 + 3) 0); [lra|]. destruct (Req_EM_T (0 + 0) 0); lra.
    + intros [|k] Hk; simpl; lra.
    + intros [|k] Hk; simpl; lra.
  - apply pf_C30_negative_iff; [reflexivity|]. exists (Fin (-1)). split; [simpl; tauto|].
    right. exists (-1). split; [reflexivity|lra].
Qed.

(** C31: for alpha > 0 the Hadamard kernel is a finite non-negative number on all finite vectors. *)
Theorem C31_finite : forall cast alpha d x y, 0 < alpha ->
  exists v, kernel_call cast (KHadamard alpha) DFloat (fvec d x) DFloat (fvec d y) = Ok (Fin v) /\ 0 <= v.
Proof. exact (@pf_C31_finite). Qed.
Print Assumptions C31_finite.

(** C31: its value when no coordinate is zero: the sum of |x|^a |y|^a / (2 (|x|^a + |y|^a)). *)
Theorem C31_value : forall cast alpha d x y, 0 < alpha ->
  (forall k, (k < d)%nat -> x k <> 0 /\ y k <> 0) ->
  kernel_call cast (KHadamard alpha) DFloat (fvec d x) DFloat (fvec d y)
  = Ok (Fin (rsum d (fun k => Rpower (Rabs (x k)) alpha * Rpower (Rabs (y k)) alpha
                              / (2 * (Rpower (Rabs (x k)) alpha + Rpower (Rabs (y k)) alpha))))).
Proof. exact (@pf_C31_value). Qed.
Print Assumptions C31_value.

(** C31: positive semidefinite on every finite sample. *)
Theorem C31_psd : forall cast alpha n d X, 0 < alpha ->
  psd_on (fun x y => kernel_call cast (KHadamard alpha) DFloat x DFloat y) n d X.
Proof. exact (@pf_C31_psd). Qed.
Print Assumptions C31_psd.

(** C31: exactly the exponents within 1e-8 of zero are rejected by the constructor. *)
Theorem C31_constructor : forall alpha,
  (Rabs alpha <= 1/100000000 -> kernel_init (KHadamard alpha) = Raise ValueError)
  /\ (Rabs alpha > 1/100000000 -> kernel_init (KHadamard alpha) = Ok (KHadamard alpha)).
Proof. exact (@pf_C31_constructor). Qed.
Print Assumptions C31_constructor.

(** C31: negative exponents are accepted, but then a single zero coordinate of x makes the value NaN
    when the same coordinate of y is finite. *)
Theorem C31_negative_alpha_nan : forall cast alpha d x y k, alpha < 0 -> (k < d)%nat -> x k = 0 ->
  kernel_call cast (KHadamard alpha) DFloat (fvec d x) DFloat (fvec d y) = Ok NaN.
Proof. exact (@pf_C31_negative_alpha_nan). Qed.
Print Assumptions C31_negative_alpha_nan.

(** C31: alpha = 1, x = (2, 0), y = (-2, 0): 4/8 from the first coordinate, the common zero is skipped. *)
Example C31_example : forall cast,
  kernel_call cast (KHadamard 1) DFloat (fvec 2 (fun k => if Nat.eqb k 0 then 2 else 0))
                                 DFloat (fvec 2 (fun k => if Nat.eqb k 0 then -2 else 0)) = Ok (Fin (/ 2)).
Proof.
  intros cast. rewrite call_fvec, hadamard_fin by lra. do 2 f_equal. simpl. unfold pw, harm.
  destruct (Req_EM_T 2 0); [lra|]. destruct (Req_EM_T (-2) 0); [lra|]. destruct (Req_EM_T 0 0); [|lra].
  rewrite (Rabs_pos_eq 2), (Rabs_left (-2)) by lra. replace (- -2) with 2 by lra. rewrite !Rpower_1 by lra.
  destruct (Req_EM_T (2 + 2) 0); [lra|]. destruct (Req_EM_T (0 + 0) 0); lra.
Qed.

(** C32: the values of the sigmoid kernel lie strictly between -1 and 1. *)
Theorem C32_range : forall cast gamma offset d x y,
  exists v, kernel_call cast (KSigmoid gamma offset) DFloat (fvec d x) DFloat (fvec d y) = Ok (Fin v)
            /\ v = tanh (offset + gamma * inner d x y) /\ -1 < v < 1.
Proof. exact (@pf_C32_range). Qed.
Print Assumptions C32_range.

(** C32: it is not positive semidefinite in general: offset -1 on a sample of one zero vector. *)
Theorem C32_refuted_psd : exists gamma offset n d X, 0 < gamma /\
  forall cast, ~ psd_on (fun x y => kernel_call cast (KSigmoid gamma offset) DFloat x DFloat y) n d X.
Proof. exact (@pf_C32_refuted_psd). Qed.
Print Assumptions C32_refuted_psd.

(** C33: the number of matches... *)
Theorem C33_count : forall x y, length x = length y ->
  match_call String.eqb false DStr (vec x) DStr (vec y) = Ok (Fin (INR (agreements x y))).
Proof. exact (@pf_C33_count). Qed.
Print Assumptions C33_count.

(** C33: ... or their fraction, for vectors of length at least 1. *)
Theorem C33_fraction : forall x y, length x = length y -> (1 <= length x)%nat ->
  match_call String.eqb true DStr (vec x) DStr (vec y)
  = Ok (Fin (INR (agreements x y) / INR (length x))).
Proof. exact (@pf_C33_fraction). Qed.
Print Assumptions C33_fraction.

(** C33: the fraction of empty vectors is NaN. *)
Theorem C33_empty : match_call String.eqb true DStr (vec []) DStr (vec []) = Ok NaN.
Proof. exact (@pf_C33_empty). Qed.
Print Assumptions C33_empty.

(** C33: between 0 and d, and maximal exactly for equal vectors; likewise 0..1 for fractions. *)
Theorem C33_range : forall x y, length x = length y -> (1 <= length x)%nat ->
  exists c f,
    match_call String.eqb false DStr (vec x) DStr (vec y) = Ok (Fin c)
    /\ match_call String.eqb true DStr (vec x) DStr (vec y) = Ok (Fin f)
    /\ 0 <= c <= INR (length x) /\ 0 <= f <= 1
    /\ (c = INR (length x) <-> x = y) /\ (f = 1 <-> x = y).
Proof. exact (@pf_C33_range). Qed.
Print Assumptions C33_range.

(** C33: positive semidefinite on every sample of categorical vectors of equal length. *)
Theorem C33_psd : forall perc n d (X : nat -> list string), (1 <= d)%nat ->
  (forall i, (i < n)%nat -> length (X i) = d) ->
  exists K, psd n K /\ forall i j, (i < n)%nat -> (j < n)%nat ->
    match_call String.eqb perc DStr (vec (X i)) DStr (vec (X j)) = Ok (Fin (K i j)).
Proof. exact (@pf_C33_psd). Qed.
Print Assumptions C33_psd.

(** C33: unequal sizes and non-1-D arrays raise ValueError, non-string dtypes TypeError. *)
Theorem C33_rejects : forall perc dx x dy y,
  (nd_ndim x <> 1%nat \/ nd_ndim y <> 1%nat \/ length (nd_data x) <> length (nd_data y) ->
   match_call String.eqb perc dx x dy y = Raise ValueError)
  /\ (nd_ndim x = 1%nat -> nd_ndim y = 1%nat -> length (nd_data x) = length (nd_data y) ->
      (dx <> DStr \/ dy <> DStr) -> match_call String.eqb perc dx x dy y = Raise TypeError).
Proof. exact (@pf_C33_rejects). Qed.
Print Assumptions C33_rejects.

(** C33 on concrete vectors. *)
Example C33_example :
  match_call String.eqb true DStr (vec ["a"; "b"]%string) DStr (vec ["a"; "c"]%string) = Ok (Fin (1 / 2))
  /\ match_call String.eqb true DObject (vec ["a"]%string) DStr (vec ["a"]%string) = Raise TypeError.
Proof.
  split; [|reflexivity]. rewrite pf_C33_fraction by (simpl; auto). do 2 f_equal.
Qed.

(** C34: within the bounds the Gaussian kernel is exp(-||x-y||^2 / (2 sigma^2)). *)
Theorem C34_bandwidth : forall cast sigma d x y,
  float_eps <= sigma -> sigma <= 1 / sqrt (2 * float_eps) ->
  kernel_call cast (KGaussian (Fin sigma)) DFloat (fvec d x) DFloat (fvec d y)
  = Ok (Fin (exp (- dist2 d x y / (2 * (sigma * sigma))))).
Proof. exact (@pf_C34_bandwidth). Qed.
Print Assumptions C34_bandwidth.

(** C34: smaller (also zero or negative) sigma acts as eps, larger as the scale eps. *)
Theorem C34_clamped : forall cast sigma d x y,
  (sigma <= float_eps ->
   kernel_call cast (KGaussian (Fin sigma)) DFloat (fvec d x) DFloat (fvec d y)
   = Ok (Fin (exp (- dist2 d x y / (2 * (float_eps * float_eps))))))
  /\ (1 / sqrt (2 * float_eps) <= sigma ->
   kernel_call cast (KGaussian (Fin sigma)) DFloat (fvec d x) DFloat (fvec d y)
   = Ok (Fin (exp (- float_eps * dist2 d x y)))).
Proof. exact (@pf_C34_clamped). Qed.
Print Assumptions C34_clamped.

(** C34: the scale gamma is always a finite number between eps and 1/(2 eps^2). *)
Theorem C34_gamma_bounds : forall sigma, sigma <> NaN ->
  exists g, gaussian_gamma sigma = Fin g /\ float_eps <= g <= 1 / (2 * (float_eps * float_eps)).
Proof. exact (@pf_C34_gamma_bounds). Qed.
Print Assumptions C34_gamma_bounds.

(** C34: sigma = -7 behaves as sigma = eps. *)
Example C34_example : forall cast d x y,
  kernel_call cast (KGaussian (Fin (-7))) DFloat (fvec d x) DFloat (fvec d y)
  = kernel_call cast (KGaussian (Fin float_eps)) DFloat (fvec d x) DFloat (fvec d y).
Proof.
  intros. assert (H := eps_pos).
  rewrite (proj1 (pf_C34_clamped cast (-7) d x y)) by lra.
  rewrite (proj1 (pf_C34_clamped cast float_eps d x y)) by lra. reflexivity.
Qed.

(** C35: which shapes are 1-D after squeezing; the elements are unchanged, in order. The result of
    a successful conversion of a wrong dtype is whatever numpy's astype gives. *)
Theorem C35_1D : forall {E} cast d (a : ndarray E) e, issubdtype d e = true ->
  (forall b, ensure_ndarray_1D cast d a e = Ok b <->
     exists n ones, nd_shape a = n :: ones /\ Forall (fun s => s = 1%nat) ones /\ b = mkNd [n] (nd_data a))
  /\ (forall er, ensure_ndarray_1D cast d a e = Raise er -> er = ValueError).
Proof. exact (@pf_C35_1D). Qed.
Print Assumptions C35_1D.

(** C35: the same for 2-D; with a required number of columns that must match too. *)
Theorem C35_2D : forall {E} cast d (a : ndarray E) e cols, issubdtype d e = true ->
  (forall b, ensure_ndarray_2D cast d a e cols = Ok b <->
     exists n m ones, nd_shape a = n :: m :: ones /\ Forall (fun s => s = 1%nat) ones
       /\ b = mkNd [n; m] (nd_data a) /\ (forall c, cols = Some c -> m = c))
  /\ (forall er, ensure_ndarray_2D cast d a e cols = Raise er -> er = ValueError).
Proof. exact (@pf_C35_2D). Qed.
Print Assumptions C35_2D.

(** C35: arrays of another dtype are converted, or refused with ValueError; the shape test comes first. *)
Theorem C35_conversion : forall {E} cast d (a : ndarray E) e, issubdtype d e = false ->
  ensure_ndarray_1D cast d a e
  = match ensure_ndarray_1D cast d a EnOwn with
    | Ok b => match cast d (nd_data a) with Some l => Ok (mkNd (nd_shape b) l) | None => Raise ValueError end
    | Raise er => Raise er
    end.
Proof. exact (@pf_C35_conversion). Qed.
Print Assumptions C35_conversion.

(** C35: every kernel raises ValueError on numeric vectors of different lengths. *)
Theorem C35_lengths : forall cast k (x y : list xr), length x <> length y ->
  kernel_call cast k DFloat (vec x) DFloat (vec y) = Raise ValueError.
Proof. exact (@pf_C35_lengths). Qed.
Print Assumptions C35_lengths.

(** C35: a column of shape (2,1) is accepted as a vector, a row of shape (1,2) is not. *)
Example C35_example : forall cast,
  ensure_ndarray_1D cast DFloat (mkNd [2; 1]%nat [Fin 4; Fin 5]) EnNumber = Ok (mkNd [2%nat] [Fin 4; Fin 5])
  /\ ensure_ndarray_1D cast DFloat (mkNd [1; 2]%nat [Fin 4; Fin 5]) EnNumber = Raise ValueError
  /\ ensure_ndarray_2D cast DFloat (mkNd [1; 2; 1]%nat [Fin 4; Fin 5]) EnNumber (Some 2%nat) = Ok (mkNd [1; 2]%nat [Fin 4; Fin 5]).
Proof. intros. split; [|split]; reflexivity. Qed.
