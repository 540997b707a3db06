(** Properties C27-C35: kernel functions and validation of their inputs. *)
From Coq Require Import String Reals List Bool Arith Lra Lia Psatz.
Import ListNotations.
From Verif Require Import Prelude MatModel UtilsModel XReal SpecLinAlg RSum PSDFacts OpsModel OpsFacts KernelsModel SpecKernels KernelFacts.

Local Open Scope R_scope.

(** C27: every numeric kernel, on any two arrays of any shapes, dtypes and contents (including NaN
    and infinities), gives the same value or the same error with its arguments swapped. *)
Lemma pf_C27_numeric : forall cast k dx (x : ndarray xr) dy y,
  kernel_call cast k dx x dy y = kernel_call cast k dy y dx x.
Proof.
  intros. unfold kernel_call. rewrite (check_swap cast dy y dx x).
  destruct (check_input_arrays cast dy y dx x (kernel_dtype k)) as [[a b]|e]; simpl; [|reflexivity].
  apply value_sym.
Qed.

Lemma match_count_sym : forall x y, match_count String.eqb x y = match_count String.eqb y x.
Proof.
  unfold match_count. induction x as [|a x IH]; intros [|b y]; simpl; try reflexivity.
  rewrite String.eqb_sym. destruct (String.eqb b a); simpl; rewrite IH; reflexivity.
Qed.

(** C27: the categorical kernel, likewise. *)
Lemma pf_C27_categorical : forall perc dx x dy y,
  match_call String.eqb perc dx x dy y = match_call String.eqb perc dy y dx x.
Proof.
  intros. unfold match_call, ensure_type_size.
  destruct (negb (nd_ndim x =? 1)%nat), (negb (nd_ndim y =? 1)%nat); simpl; try reflexivity.
  rewrite (Nat.eqb_sym (length (nd_data y))).
  destruct (Nat.eqb_spec (length (nd_data x)) (length (nd_data y))) as [E|E]; simpl; [|reflexivity].
  rewrite match_count_sym, E. destruct dx, dy; reflexivity.
Qed.

(*BEGIN PROP*)
(** C27 on concrete vectors: (1, 2) and (3, -1) with a linear kernel give 1 both ways; and an
    error both ways when the lengths differ. *)
Example C27_example : forall cast,
  kernel_call cast KLinear DFloat (vec [Fin 1; Fin 2]) DFloat (vec [Fin 3; Fin (-1)]) = Ok (Fin 1)
  /\ kernel_call cast KLinear DFloat (vec [Fin 1; Fin 2]) DFloat (vec [Fin 3]) = Raise ValueError
  /\ kernel_call cast KLinear DFloat (vec [Fin 3]) DFloat (vec [Fin 1; Fin 2]) = Raise ValueError.
Proof.
  intros cast. split; [|split]; try reflexivity. unfold kernel_call. simpl. unfold xdot, xsum. simpl.
  do 2 f_equal. lra.
Qed.
(*END PROP*)

(** C28: the value of the linear kernel. *)
Lemma pf_C28_linear_value : forall cast d x y,
  kernel_call cast KLinear DFloat (fvec d x) DFloat (fvec d y) = Ok (Fin (inner d x y)).
Proof. intros. rewrite call_fvec. simpl. now rewrite xdot_fin. Qed.

(** C28: the linear kernel is positive semidefinite on every finite sample. *)
Lemma pf_C28_linear : forall cast n d X,
  psd_on (fun x y => kernel_call cast KLinear DFloat x DFloat y) n d X.
Proof.
  intros. exists (fun i j => inner d (X i) (X j)). split; [apply psd_inner|].
  intros. apply pf_C28_linear_value.
Qed.

(** C28: the value of the polynomial kernel. *)
Lemma pf_C28_poly_value : forall cast degree gamma b d x y,
  kernel_call cast (KPoly degree gamma b) DFloat (fvec d x) DFloat (fvec d y)
  = Ok (Fin ((b + gamma * inner d x y) ^ degree)).
Proof. intros. rewrite call_fvec. apply poly_value. Qed.

(** C28: so is the polynomial kernel for gamma, b >= 0 and any degree. *)
Lemma pf_C28_poly : forall cast degree gamma b n d X, 0 <= gamma -> 0 <= b ->
  psd_on (fun x y => kernel_call cast (KPoly degree gamma b) DFloat x DFloat y) n d X.
Proof.
  intros cast degree gamma b n d X Hg Hb.
  exists (fun i j => (b + gamma * inner d (X i) (X j)) ^ degree). split.
  - apply (psd_pow n (fun i j => b + gamma * inner d (X i) (X j))).
    apply (psd_shift_scale n (fun i j => inner d (X i) (X j))); auto using psd_inner.
  - intros. apply pf_C28_poly_value.
Qed.

(** C28: the condition b >= 0 cannot be dropped. *)
Lemma pf_C28_refuted_negative_b : exists gamma b degree n d X,
  0 <= gamma /\ forall cast,
  ~ psd_on (fun x y => kernel_call cast (KPoly degree gamma b) DFloat x DFloat y) n d X.
Proof.
  exists 1, (-1), 1%nat, 1%nat, 1%nat, (fun _ _ => 0). split; [lra|].
  intros cast (K & HK & HE). assert (H := psd_diag 1 K 0 HK ltac:(lia)).
  specialize (HE 0%nat 0%nat ltac:(lia) ltac:(lia)). rewrite pf_C28_poly_value in HE.
  injection HE as HE. unfold inner in HE. simpl in HE. lra.
Qed.

(*BEGIN PROP*)
(** C28 on the concrete sample (1), (-2) with the polynomial kernel of degree 3. *)
Example C28_example : forall cast,
  kernel_call cast (KPoly 3 1 1) DFloat (fvec 1 (fun _ => 1)) DFloat (fvec 1 (fun _ => -2)) = Ok (Fin (-1)).
Proof.
  intros cast. rewrite call_fvec, poly_value. do 2 f_equal. unfold inner. simpl. lra.
Qed.
(*END PROP*)

Lemma exp_neg_range : forall g s, 0 <= g -> 0 <= s -> 0 < exp (- g * s) <= 1.
Proof.
  intros g s Hg Hs. split; [apply exp_pos|]. rewrite <- exp_0.
  assert (- g * s <= 0) by nra. destruct (Req_EM_T (- g * s) 0) as [->|E]; [lra|].
  left. apply exp_increasing. lra.
Qed.

Lemma dist2_nonneg : forall d x y, 0 <= dist2 d x y.
Proof. intros. apply rsum_sqr_nonneg. Qed.
Lemma dist1_nonneg : forall d x y, 0 <= dist1 d x y.
Proof. intros. apply rsum_nonneg. intros. apply Rabs_pos. Qed.
Lemma dist2_self : forall d x, dist2 d x x = 0.
Proof. intros. apply rsum_zero. intros. ring. Qed.
Lemma dist1_self : forall d x, dist1 d x x = 0.
Proof. intros. apply rsum_zero. intros. now rewrite Rminus_diag_eq, Rabs_R0. Qed.

(** C29: the Gaussian kernel is positive semidefinite on every finite sample, for every sigma
    other than NaN (zero, negative and infinite included). *)
Lemma pf_C29_gaussian : forall cast sigma n d X, sigma <> NaN ->
  psd_on (fun x y => kernel_call cast (KGaussian sigma) DFloat x DFloat y) n d X.
Proof.
  intros cast sigma n d X Hs. destruct (gaussian_gamma_bounds sigma Hs) as (g & Hg & Hb).
  assert (He := eps_pos).
  exists (fun i j => exp (- g * dist2 d (X i) (X j))). split; [apply psd_gaussian; lra|].
  intros. rewrite call_fvec. now apply gaussian_value.
Qed.

(** C29: its values are in (0,1], and k(x,x) = 1. *)
Lemma pf_C29_gaussian_range : forall cast sigma d x y, sigma <> NaN ->
  (exists v, kernel_call cast (KGaussian sigma) DFloat (fvec d x) DFloat (fvec d y) = Ok (Fin v)
             /\ 0 < v <= 1)
  /\ kernel_call cast (KGaussian sigma) DFloat (fvec d x) DFloat (fvec d x) = Ok (Fin 1).
Proof.
  intros cast sigma d x y Hs. destruct (gaussian_gamma_bounds sigma Hs) as (g & Hg & Hb).
  assert (He := eps_pos). rewrite !call_fvec. split.
  - rewrite (gaussian_value d x y sigma g Hg). eexists. split; [reflexivity|].
    apply exp_neg_range; [lra|apply dist2_nonneg].
  - rewrite (gaussian_value d x x sigma g Hg), dist2_self, Rmult_0_r, exp_0. reflexivity.
Qed.

(** C29: its value is 1 only at distance zero. *)
Lemma pf_C29_gaussian_one_iff : forall cast sigma d x y, sigma <> NaN ->
  (kernel_call cast (KGaussian sigma) DFloat (fvec d x) DFloat (fvec d y) = Ok (Fin 1)
   <-> forall k, (k < d)%nat -> x k = y k).
Proof.
  intros cast sigma d x y Hs. destruct (gaussian_gamma_bounds sigma Hs) as (g & Hg & Hb).
  assert (He := eps_pos). rewrite call_fvec, (gaussian_value d x y sigma g Hg). split.
  - intros H. injection H as H. rewrite <- exp_0 in H. apply exp_inv in H.
    assert (D : dist2 d x y = 0) by nra. unfold dist2 in D. intros k Hk.
    assert (E := rsum_nonneg_zero d _ (fun i _ => Rle_0_sqr _) D k Hk). apply Rminus_diag_uniq. apply Rsqr_0_uniq. exact E.
  - intros H. do 2 f_equal. replace (dist2 d x y) with 0; [now rewrite Rmult_0_r, exp_0|].
    symmetry. apply rsum_zero. intros k Hk. rewrite H by assumption. ring.
Qed.

(** C29: the Laplacian kernel is positive semidefinite on every finite sample for gamma >= 0. *)
Lemma pf_C29_laplacian : forall cast gamma n d X, 0 <= gamma ->
  psd_on (fun x y => kernel_call cast (KLaplacian gamma) DFloat x DFloat y) n d X.
Proof.
  intros cast gamma n d X Hg. exists (fun i j => exp (- gamma * dist1 d (X i) (X j))).
  split; [now apply psd_laplacian|]. intros. rewrite call_fvec. apply laplacian_value.
Qed.

(** C29: the value of the Laplacian kernel, in (0,1], and 1 on the diagonal. *)
Lemma pf_C29_laplacian_value : forall cast gamma d x y, 0 <= gamma ->
  kernel_call cast (KLaplacian gamma) DFloat (fvec d x) DFloat (fvec d y) = Ok (Fin (exp (- gamma * dist1 d x y)))
  /\ 0 < exp (- gamma * dist1 d x y) <= 1
  /\ kernel_call cast (KLaplacian gamma) DFloat (fvec d x) DFloat (fvec d x) = Ok (Fin 1).
Proof.
  intros cast gamma d x y Hg. rewrite !call_fvec, !laplacian_value. split; [reflexivity|]. split.
  - apply exp_neg_range; [assumption|apply dist1_nonneg].
  - rewrite dist1_self, Rmult_0_r, exp_0. reflexivity.
Qed.

(*BEGIN PROP*)
(** C29: GaussianKernel(sigma=1) at distance 2 is exp(-2); a Laplacian value. *)
Example C29_example : forall cast,
  kernel_call cast (KGaussian (Fin 1)) DFloat (fvec 1 (fun _ => 0)) DFloat (fvec 1 (fun _ => 2)) = Ok (Fin (exp (-2)))
  /\ kernel_call cast (KLaplacian 1) DFloat (fvec 2 (fun k => INR k)) DFloat (fvec 2 (fun _ => 2)) = Ok (Fin (exp (-3))).
Proof.
  intros cast. rewrite !call_fvec. split.
  - rewrite (gaussian_value 1 _ _ (Fin 1) (/ 2)).
    + do 3 f_equal. unfold dist2. simpl. lra.
    + rewrite gaussian_gamma_fin. assert (H := eps_lt1).
      assert (float_eps <= / 2).
      { unfold float_eps. apply Rinv_le_contravar; [lra|].
        replace 2 with (2 ^ 1) at 1 by ring. apply Rle_pow; [lra|lia]. }
      rewrite (Rmax_right float_eps 1) by lra. rewrite Rmax_right by lra. f_equal. lra.
  - rewrite laplacian_value. do 3 f_equal. unfold dist1. simpl.
    rewrite (Rabs_left (0 - 2)), (Rabs_left (1 - 2)) by lra. lra.
Qed.
(*END PROP*)

Lemma check_vec_float : forall cast k (x y : list xr), length x = length y ->
  kernel_call cast k DFloat (vec x) DFloat (vec y) = kernel_value k x y.
Proof.
  intros. unfold kernel_call, check_input_arrays, ensure_ndarray_1D, ensure_ndarray_size.
  unfold vec, squeeze_from. simpl.
  assert (E : issubdtype DFloat (kernel_dtype k) = true) by now destruct k.
  rewrite E. simpl. rewrite H, Nat.eqb_refl. reflexivity.
Qed.

(** C30: Chi2Kernel raises its exception exactly when some entry of either vector is negative
    (vectors of any numbers, infinities and NaN included; NaN is not negative). *)
Lemma pf_C30_negative_iff : forall cast gamma (x y : list xr), length x = length y ->
  (kernel_call cast (KChi2 gamma) DFloat (vec x) DFloat (vec y) = Raise Chi2NegativeValues
   <-> exists v, In v (x ++ y) /\ (v = NInf \/ exists r, v = Fin r /\ r < 0)).
Proof.
  intros cast gamma x y HL. rewrite check_vec_float by assumption. cbn [kernel_value].
  rewrite <- existsb_app. destruct (existsb _ (x ++ y)) eqn:E.
  - split; [|reflexivity]. intros _. apply existsb_exists in E. destruct E as (v & Hin & Hv).
    exists v. split; [assumption|]. destruct v; simpl in Hv; try discriminate; [|auto].
    right. exists r. split; [reflexivity|]. unfold Rltb in Hv. destruct (Rlt_dec r 0); [assumption|discriminate].
  - split; [discriminate|]. intros (v & Hin & Hv). exfalso.
    assert (T : existsb (fun v => xltb v (Fin 0)) (x ++ y) = true); [|congruence].
    apply existsb_exists. exists v. split; [assumption|].
    destruct Hv as [->|(r & -> & Hr)]; [reflexivity|]. simpl. unfold Rltb. now destruct (Rlt_dec r 0).
Qed.

Lemma chi2_nonneg : forall d x y,
  (forall k, (k < d)%nat -> 0 <= x k) -> (forall k, (k < d)%nat -> 0 <= y k) -> 0 <= chi2stat d x y.
Proof.
  intros d x y Hx Hy. apply rsum_nonneg. intros k Hk. specialize (Hx k Hk). specialize (Hy k Hk).
  destruct (Req_EM_T (x k + y k) 0); [lra|].
  apply Rmult_le_pos; [exact (Rle_0_sqr _)|]. left. apply Rinv_0_lt_compat. lra.
Qed.

(** C30: otherwise the value, for finite vectors: zero pairs contribute nothing. *)
Lemma pf_C30_value : forall cast gamma d x y,
  (forall k, (k < d)%nat -> 0 <= x k) -> (forall k, (k < d)%nat -> 0 <= y k) ->
  kernel_call cast (KChi2 gamma) DFloat (fvec d x) DFloat (fvec d y)
  = Ok (Fin (exp (- gamma * chi2stat d x y))).
Proof. intros. rewrite call_fvec. now apply chi2_value. Qed.

(** C30: in (0,1] for gamma >= 0, and 1 on the diagonal. *)
Lemma pf_C30_range : forall cast gamma d x y, 0 <= gamma ->
  (forall k, (k < d)%nat -> 0 <= x k) -> (forall k, (k < d)%nat -> 0 <= y k) ->
  (exists v, kernel_call cast (KChi2 gamma) DFloat (fvec d x) DFloat (fvec d y) = Ok (Fin v) /\ 0 < v <= 1)
  /\ kernel_call cast (KChi2 gamma) DFloat (fvec d x) DFloat (fvec d x) = Ok (Fin 1).
Proof.
  intros cast gamma d x y Hg Hx Hy. rewrite !pf_C30_value by assumption. split.
  - eexists. split; [reflexivity|]. apply exp_neg_range; [assumption|now apply chi2_nonneg].
  - replace (chi2stat d x x) with 0; [now rewrite Rmult_0_r, exp_0|]. symmetry. apply rsum_zero.
    intros k Hk. destruct (Req_EM_T (x k + x k) 0); [reflexivity|]. field. assumption.
Qed.

(** C30: positive semidefinite on every finite non-negative sample. *)
Lemma pf_C30_psd : forall cast gamma n d X, 0 <= gamma ->
  (forall i k, (i < n)%nat -> (k < d)%nat -> 0 <= X i k) ->
  psd_on (fun x y => kernel_call cast (KChi2 gamma) DFloat x DFloat y) n d X.
Proof.
  intros cast gamma n d X Hg HX. exists (fun i j => exp (- gamma * chi2stat d (X i) (X j))).
  split; [now apply psd_chi2|]. intros. apply pf_C30_value; auto.
Qed.

(*BEGIN PROP*)
(** C30: a common zero is skipped, (1,0) against (3,0) gives exp(-1); a negative entry is refused. *)
Example C30_example : forall cast,
  kernel_call cast (KChi2 1) DFloat (vec [Fin 1; Fin 0]) DFloat (vec [Fin 3; Fin 0]) = Ok (Fin (exp (-1)))
  /\ kernel_call cast (KChi2 1) DFloat (vec [Fin 1; Fin 0]) DFloat (vec [Fin 3; Fin (-1)]) = Raise Chi2NegativeValues.
Proof.
  intros cast. split.
  - assert (H := pf_C30_value cast 1 2 (fun k => if Nat.eqb k 0 then 1 else 0) (fun k => if Nat.eqb k 0 then 3 else 0)).
    unfold fvec in H. simpl in H. unfold vec. simpl. rewrite H.
    + do 3 f_equal. unfold chi2stat. simpl.
      destruct (Req_EM_T (1 + 3) 0); [lra|]. destruct (Req_EM_T (0 + 0) 0); lra.
    + intros [|k] Hk; simpl; lra.
    + intros [|k] Hk; simpl; lra.
  - apply pf_C30_negative_iff; [reflexivity|]. exists (Fin (-1)). split; [simpl; tauto|].
    right. exists (-1). split; [reflexivity|lra].
Qed.
(*END PROP*)

(** C31: for alpha > 0 the Hadamard kernel is a finite non-negative number on all finite vectors. *)
Lemma pf_C31_finite : forall cast alpha d x y, 0 < alpha ->
  exists v, kernel_call cast (KHadamard alpha) DFloat (fvec d x) DFloat (fvec d y) = Ok (Fin v) /\ 0 <= v.
Proof.
  intros cast alpha d x y Ha. rewrite call_fvec, (hadamard_fin d x y alpha Ha). eexists. split; [reflexivity|].
  apply rsum_nonneg. intros k _. unfold harm.
  assert (H1 := pw_nonneg alpha (x k)). assert (H2 := pw_nonneg alpha (y k)).
  destruct (Req_EM_T _ 0); [lra|]. apply Rmult_le_pos; [|lra].
  apply Rmult_le_pos; [nra|]. left. apply Rinv_0_lt_compat. lra.
Qed.

(** C31: its value when no coordinate is zero: the sum of |x|^a |y|^a / (2 (|x|^a + |y|^a)). *)
Lemma pf_C31_value : forall cast alpha d x y, 0 < alpha ->
  (forall k, (k < d)%nat -> x k <> 0 /\ y k <> 0) ->
  kernel_call cast (KHadamard alpha) DFloat (fvec d x) DFloat (fvec d y)
  = Ok (Fin (rsum d (fun k => Rpower (Rabs (x k)) alpha * Rpower (Rabs (y k)) alpha
                              / (2 * (Rpower (Rabs (x k)) alpha + Rpower (Rabs (y k)) alpha))))).
Proof.
  intros cast alpha d x y Ha H. rewrite call_fvec, (hadamard_fin d x y alpha Ha). do 2 f_equal.
  apply rsum_ext. intros k Hk. destruct (H k Hk) as [Hx Hy]. unfold pw, harm.
  destruct (Req_EM_T (x k) 0); [contradiction|]. destruct (Req_EM_T (y k) 0); [contradiction|].
  assert (0 < Rpower (Rabs (x k)) alpha) by apply exp_pos.
  assert (0 < Rpower (Rabs (y k)) alpha) by apply exp_pos.
  destruct (Req_EM_T _ 0); [lra|]. field. lra.
Qed.

(** C31: positive semidefinite on every finite sample. *)
Lemma pf_C31_psd : forall cast alpha n d X, 0 < alpha ->
  psd_on (fun x y => kernel_call cast (KHadamard alpha) DFloat x DFloat y) n d X.
Proof.
  intros cast alpha n d X Ha.
  exists (fun i j => rsum d (fun k => harm (pw alpha (X i k)) (pw alpha (X j k)) / 2)).
  split; [apply psd_hadamard|]. intros. rewrite call_fvec. now apply hadamard_fin.
Qed.

(** C31: exactly the exponents within 1e-8 of zero are rejected by the constructor. *)
Lemma pf_C31_constructor : forall alpha,
  (Rabs alpha <= 1/100000000 -> kernel_init (KHadamard alpha) = Raise ValueError)
  /\ (Rabs alpha > 1/100000000 -> kernel_init (KHadamard alpha) = Ok (KHadamard alpha)).
Proof.
  intros alpha. unfold kernel_init. rewrite isclose_zero. unfold Rleb.
  split; intros H; destruct (Rle_dec (Rabs alpha) (1/100000000)); try reflexivity; lra.
Qed.

(** C31: negative exponents are accepted, but then a single zero coordinate of x makes the value NaN
    when the same coordinate of y is finite. *)
Lemma pf_C31_negative_alpha_nan : forall cast alpha d x y k, alpha < 0 -> (k < d)%nat -> x k = 0 ->
  kernel_call cast (KHadamard alpha) DFloat (fvec d x) DFloat (fvec d y) = Ok NaN.
Proof.
  intros cast alpha d x y k Ha Hk Hx. rewrite call_fvec. cbn [kernel_value]. f_equal. unfold hadamard_value.
  rewrite !map_map, zip_map, zip_seq, xsum_filter_if, map_map. apply xsum_nan. apply in_map_iff.
  exists k. split; [|apply in_seq; lia]. cbn [fst snd]. rewrite Hx. cbn [xabs]. rewrite Rabs_R0.
  unfold xpower at 1 3 5. destruct (Req_EM_T alpha 0); [lra|]. destruct (Req_EM_T 0 0); [|lra].
  destruct (Rlt_dec alpha 0); [|lra]. unfold xpower. destruct (Req_EM_T alpha 0); [lra|].
  destruct (Req_EM_T (Rabs (y k)) 0); destruct (Rlt_dec alpha 0); try lra; cbn [xadd xmul];
    unfold signed_inf; destruct (Rlt_dec 0 2); try lra; cbn [xltb].
  - reflexivity.
  - destruct (Rlt_dec 0 (Rpower _ _)) as [|N]; [reflexivity|]. exfalso. apply N, exp_pos.
Qed.

(*BEGIN PROP*)
(** C31: alpha = 1, x = (2, 0), y = (-2, 0): 4/8 from the first coordinate, the common zero is skipped. *)
Example C31_example : forall cast,
  kernel_call cast (KHadamard 1) DFloat (fvec 2 (fun k => if Nat.eqb k 0 then 2 else 0))
                                 DFloat (fvec 2 (fun k => if Nat.eqb k 0 then -2 else 0)) = Ok (Fin (/ 2)).
Proof.
  intros cast. rewrite call_fvec, hadamard_fin by lra. do 2 f_equal. simpl. unfold pw, harm.
  destruct (Req_EM_T 2 0); [lra|]. destruct (Req_EM_T (-2) 0); [lra|]. destruct (Req_EM_T 0 0); [|lra].
  rewrite (Rabs_pos_eq 2), (Rabs_left (-2)) by lra. replace (- -2) with 2 by lra. rewrite !Rpower_1 by lra.
  destruct (Req_EM_T (2 + 2) 0); [lra|]. destruct (Req_EM_T (0 + 0) 0); lra.
Qed.
(*END PROP*)

(** C32: the values of the sigmoid kernel lie strictly between -1 and 1. *)
Lemma pf_C32_range : forall cast gamma offset d x y,
  exists v, kernel_call cast (KSigmoid gamma offset) DFloat (fvec d x) DFloat (fvec d y) = Ok (Fin v)
            /\ v = tanh (offset + gamma * inner d x y) /\ -1 < v < 1.
Proof.
  intros. rewrite call_fvec. cbn [kernel_value]. rewrite xdot_fin. eexists. split; [reflexivity|].
  split; [reflexivity|]. apply tanh_lt1.
Qed.

(** C32: it is not positive semidefinite in general: offset -1 on a sample of one zero vector. *)
Lemma pf_C32_refuted_psd : exists gamma offset n d X, 0 < gamma /\
  forall cast, ~ psd_on (fun x y => kernel_call cast (KSigmoid gamma offset) DFloat x DFloat y) n d X.
Proof.
  exists 1, (-1), 1%nat, 1%nat, (fun _ _ => 0). split; [lra|]. intros cast (K & HK & HE).
  assert (H := psd_diag 1 K 0 HK ltac:(lia)). specialize (HE 0%nat 0%nat ltac:(lia) ltac:(lia)).
  destruct (pf_C32_range cast 1 (-1) 1 (fun _ => 0) (fun _ => 0)) as (v & Hv & E & _).
  cbv beta in HE. rewrite Hv in HE. injection HE as HE. unfold inner in E. simpl in E.
  assert (N := tanh_neg (-1 + 1 * (0 + 0 * 0)) ltac:(lra)). rewrite <- E in N. lra.
Qed.

Lemma agreements_count : forall x y, match_count String.eqb x y = agreements x y.
Proof.
  unfold match_count. induction x as [|a x IH]; intros [|b y]; simpl; try reflexivity.
  destruct (string_dec a b) as [->|E].
  - rewrite String.eqb_refl. simpl. now rewrite IH.
  - apply String.eqb_neq in E. rewrite E. apply IH.
Qed.

Lemma match_vec : forall perc x y, length x = length y ->
  match_call String.eqb perc DStr (vec x) DStr (vec y)
  = Ok (if perc then xdiv (Fin (INR (agreements x y))) (Fin (INR (length y))) else Fin (INR (agreements x y))).
Proof.
  intros perc x y H. unfold match_call, ensure_type_size, vec. simpl. rewrite H, Nat.eqb_refl. simpl.
  now rewrite agreements_count.
Qed.

(** C33: the number of matches... *)
Lemma pf_C33_count : forall x y, length x = length y ->
  match_call String.eqb false DStr (vec x) DStr (vec y) = Ok (Fin (INR (agreements x y))).
Proof. intros. now rewrite match_vec. Qed.

(** C33: ... or their fraction, for vectors of length at least 1. *)
Lemma pf_C33_fraction : forall x y, length x = length y -> (1 <= length x)%nat ->
  match_call String.eqb true DStr (vec x) DStr (vec y)
  = Ok (Fin (INR (agreements x y) / INR (length x))).
Proof.
  intros x y H H1. rewrite match_vec by assumption. rewrite H. cbn [xdiv].
  destruct (Req_EM_T (INR (length y)) 0) as [E|E]; [|reflexivity].
  apply INR_eq with (m := 0%nat) in E. lia.
Qed.

(** C33: the fraction of empty vectors is NaN. *)
Lemma pf_C33_empty : match_call String.eqb true DStr (vec []) DStr (vec []) = Ok NaN.
Proof.
  rewrite match_vec by reflexivity. simpl. destruct (Req_EM_T 0 0); [|lra].
  unfold signed_inf. destruct (Rlt_dec 0 0); [lra|reflexivity].
Qed.

Lemma agreements_le : forall x y, length x = length y -> (agreements x y <= length x)%nat.
Proof.
  induction x as [|a x IH]; intros [|b y] H; simpl in *; try lia.
  injection H as H. specialize (IH y H). destruct (string_dec a b); lia.
Qed.

Lemma agreements_full : forall x y, length x = length y -> (agreements x y = length x <-> x = y).
Proof.
  induction x as [|a x IH]; intros [|b y] H; simpl in *; try discriminate; [tauto|].
  injection H as H. assert (L := agreements_le x y H). destruct (string_dec a b) as [->|E].
  - split; [intros E; f_equal; apply IH; [assumption|lia]|].
    intros E. injection E as ->. assert (T : agreements y y = length y) by now apply IH. lia.
  - split; [lia|]. intros E'. congruence.
Qed.

(** C33: between 0 and d, and maximal exactly for equal vectors; likewise 0..1 for fractions. *)
Lemma pf_C33_range : forall x y, length x = length y -> (1 <= length x)%nat ->
  exists c f,
    match_call String.eqb false DStr (vec x) DStr (vec y) = Ok (Fin c)
    /\ match_call String.eqb true DStr (vec x) DStr (vec y) = Ok (Fin f)
    /\ 0 <= c <= INR (length x) /\ 0 <= f <= 1
    /\ (c = INR (length x) <-> x = y) /\ (f = 1 <-> x = y).
Proof.
  intros x y H H1. rewrite pf_C33_count, pf_C33_fraction by assumption.
  do 2 eexists. split; [reflexivity|]. split; [reflexivity|].
  assert (L := agreements_le x y H). apply le_INR in L.
  assert (P := pos_INR (agreements x y)).
  assert (D : 0 < INR (length x)) by (apply lt_0_INR; lia).
  assert (F := agreements_full x y H).
  split; [lra|]. split.
  - split.
    + apply Rmult_le_pos; [assumption|]. left. now apply Rinv_0_lt_compat.
    + apply (Rmult_le_reg_r (INR (length x))); [assumption|]. unfold Rdiv.
      rewrite Rmult_assoc, Rinv_l by lra. lra.
  - split.
    + rewrite <- F. split; [apply INR_eq|intros ->; reflexivity].
    + rewrite <- F. split.
      * intros E. apply INR_eq. apply (Rmult_eq_reg_r (/ INR (length x))).
        -- rewrite Rinv_r by lra. exact E.
        -- apply Rinv_neq_0_compat. lra.
      * intros ->. unfold Rdiv. apply Rinv_r. lra.
Qed.

Lemma agreements_sum : forall d x y, length x = d -> length y = d ->
  INR (agreements x y) = rsum d (fun k => if string_dec (nth k x EmptyString) (nth k y EmptyString) then 1 else 0).
Proof.
  induction d as [|d IH]; intros x y Hx Hy.
  - destruct x; [|discriminate]. reflexivity.
  - destruct x as [|a x]; [discriminate|]. destruct y as [|b y]; [discriminate|].
    injection Hx as Hx. injection Hy as Hy.
    assert (E : forall f, rsum (S d) f = f 0%nat + rsum d (fun k => f (S k))).
    { clear. intros f. induction d as [|d IH]; simpl in *; [ring|]. rewrite IH. ring. }
    rewrite E. cbn [nth]. rewrite <- (IH x y Hx Hy). cbn [agreements]. rewrite plus_INR.
    destruct (string_dec a b); reflexivity.
Qed.

(** C33: positive semidefinite on every sample of categorical vectors of equal length. *)
Lemma pf_C33_psd : forall perc n d (X : nat -> list string), (1 <= d)%nat ->
  (forall i, (i < n)%nat -> length (X i) = d) ->
  exists K, psd n K /\ forall i j, (i < n)%nat -> (j < n)%nat ->
    match_call String.eqb perc DStr (vec (X i)) DStr (vec (X j)) = Ok (Fin (K i j)).
Proof.
  intros perc n d X Hd HX.
  assert (P : psd n (fun i j => rsum d (fun k =>
                if string_dec (nth k (X i) EmptyString) (nth k (X j) EmptyString) then 1 else 0))).
  { apply (psd_rsum n d (fun k i j => if string_dec (nth k (X i) EmptyString) (nth k (X j) EmptyString) then 1 else 0)).
    intros k _. apply (psd_same string_dec n (fun i => nth k (X i) EmptyString)). }
  assert (D : 0 < INR d) by (apply lt_0_INR; lia).
  destruct perc.
  - exists (fun i j => / INR d * rsum d (fun k =>
                if string_dec (nth k (X i) EmptyString) (nth k (X j) EmptyString) then 1 else 0)). split.
    + apply psd_scal; [|exact P]. left. now apply Rinv_0_lt_compat.
    + intros i j Hi Hj. rewrite pf_C33_fraction; rewrite ?(HX i Hi), ?(HX j Hj); auto.
      rewrite (agreements_sum d) by auto. do 2 f_equal. unfold Rdiv. ring.
  - eexists. split; [exact P|]. intros i j Hi Hj. rewrite pf_C33_count by now rewrite !HX.
    rewrite (agreements_sum d) by auto. reflexivity.
Qed.

(** C33: unequal sizes and non-1-D arrays raise ValueError, non-string dtypes TypeError. *)
Lemma pf_C33_rejects : forall perc dx x dy y,
  (nd_ndim x <> 1%nat \/ nd_ndim y <> 1%nat \/ length (nd_data x) <> length (nd_data y) ->
   match_call String.eqb perc dx x dy y = Raise ValueError)
  /\ (nd_ndim x = 1%nat -> nd_ndim y = 1%nat -> length (nd_data x) = length (nd_data y) ->
      (dx <> DStr \/ dy <> DStr) -> match_call String.eqb perc dx x dy y = Raise TypeError).
Proof.
  intros. unfold match_call, ensure_type_size. split.
  - intros H. destruct (Nat.eqb_spec (nd_ndim x) 1); simpl; [|reflexivity].
    destruct (Nat.eqb_spec (nd_ndim y) 1); simpl; [|reflexivity].
    destruct (Nat.eqb_spec (length (nd_data x)) (length (nd_data y))); simpl; [|reflexivity]. tauto.
  - intros H1 H2 H3 H. rewrite H1, H2. cbn [Nat.eqb negb rbind]. rewrite H3, Nat.eqb_refl. cbn [negb]. destruct dx, dy; try reflexivity. destruct H; contradiction.
Qed.

(*BEGIN PROP*)
(** C33 on concrete vectors. *)
Example C33_example :
  match_call String.eqb true DStr (vec ["a"; "b"]%string) DStr (vec ["a"; "c"]%string) = Ok (Fin (1 / 2))
  /\ match_call String.eqb true DObject (vec ["a"]%string) DStr (vec ["a"]%string) = Raise TypeError.
Proof.
  split; [|reflexivity]. rewrite pf_C33_fraction by (simpl; auto). do 2 f_equal.
Qed.
(*END PROP*)

(** C34: within the bounds the Gaussian kernel is exp(-||x-y||^2 / (2 sigma^2)). *)
Lemma pf_C34_bandwidth : forall cast sigma d x y,
  float_eps <= sigma -> sigma <= 1 / sqrt (2 * float_eps) ->
  kernel_call cast (KGaussian (Fin sigma)) DFloat (fvec d x) DFloat (fvec d y)
  = Ok (Fin (exp (- dist2 d x y / (2 * (sigma * sigma))))).
Proof.
  intros cast sigma d x y H1 H2. assert (He := eps_pos).
  rewrite call_fvec, (gaussian_value d x y (Fin sigma) (1 / (2 * (sigma * sigma)))).
  - do 3 f_equal. unfold Rdiv. field. lra.
  - rewrite gaussian_gamma_fin. rewrite (Rmax_right float_eps sigma) by lra. f_equal. apply Rmax_right.
    assert (Hs : 0 < sqrt (2 * float_eps)) by (apply sqrt_lt_R0; lra).
    assert (Hq : sqrt (2 * float_eps) * sqrt (2 * float_eps) = 2 * float_eps) by (apply sqrt_sqrt; lra).
    assert (Hm : sigma * sqrt (2 * float_eps) <= 1).
    { apply Rmult_le_compat_r with (r := sqrt (2 * float_eps)) in H2; [|lra].
      unfold Rdiv in H2. rewrite Rmult_1_l, Rinv_l in H2 by lra. assumption. }
    assert (Hp : 0 < sigma * sqrt (2 * float_eps)) by (apply Rmult_lt_0_compat; lra).
    assert (Hk : sigma * sigma * (2 * float_eps) <= 1).
    { rewrite <- Hq. replace (sigma * sigma * (sqrt (2 * float_eps) * sqrt (2 * float_eps)))
        with ((sigma * sqrt (2 * float_eps)) * (sigma * sqrt (2 * float_eps))) by ring. nra. }
    apply (Rmult_le_reg_r (2 * (sigma * sigma))); [nra|]. unfold Rdiv. rewrite Rmult_1_l, Rinv_l by nra. lra.
Qed.

(** C34: smaller (also zero or negative) sigma acts as eps, larger as the scale eps. *)
Lemma pf_C34_clamped : forall cast sigma d x y,
  (sigma <= float_eps ->
   kernel_call cast (KGaussian (Fin sigma)) DFloat (fvec d x) DFloat (fvec d y)
   = Ok (Fin (exp (- dist2 d x y / (2 * (float_eps * float_eps))))))
  /\ (1 / sqrt (2 * float_eps) <= sigma ->
   kernel_call cast (KGaussian (Fin sigma)) DFloat (fvec d x) DFloat (fvec d y)
   = Ok (Fin (exp (- float_eps * dist2 d x y)))).
Proof.
  intros cast sigma d x y. assert (He := eps_pos). assert (He1 := eps_lt1).
  assert (Hs : 0 < sqrt (2 * float_eps)) by (apply sqrt_lt_R0; lra).
  assert (Hq : sqrt (2 * float_eps) * sqrt (2 * float_eps) = 2 * float_eps) by (apply sqrt_sqrt; lra).
  assert (Hh : float_eps <= / 2).
  { unfold float_eps. apply Rinv_le_contravar; [lra|].
    replace 2 with (2 ^ 1) at 1 by ring. apply Rle_pow; [lra|lia]. }
  split; intros H.
  - rewrite call_fvec, (gaussian_value d x y (Fin sigma) (1 / (2 * (float_eps * float_eps)))).
    + do 3 f_equal. unfold Rdiv. field. lra.
    + rewrite gaussian_gamma_fin. rewrite (Rmax_left float_eps sigma) by lra. f_equal. apply Rmax_right.
      apply (Rmult_le_reg_r (2 * (float_eps * float_eps))); [nra|].
      unfold Rdiv. rewrite Rmult_1_l, Rinv_l by nra.
      apply Rle_trans with (float_eps * (2 * (float_eps * 1))); nra.
  - rewrite call_fvec. apply gaussian_value. rewrite gaussian_gamma_fin.
    assert (Hb : 1 <= sigma * sqrt (2 * float_eps)).
    { apply Rmult_le_compat_r with (r := sqrt (2 * float_eps)) in H; [|lra].
      unfold Rdiv in H. rewrite Rmult_1_l, Rinv_l in H by lra. assumption. }
    assert (Hs1 : sqrt (2 * float_eps) <= 1).
    { rewrite <- sqrt_1. apply sqrt_le_1_alt. lra. }
    assert (Hsig : 1 <= sigma) by nra.
    rewrite (Rmax_right float_eps sigma) by lra. f_equal. apply Rmax_left.
    assert (Hk : 1 <= sigma * sigma * (2 * float_eps)).
    { rewrite <- Hq. replace (sigma * sigma * (sqrt (2 * float_eps) * sqrt (2 * float_eps)))
        with ((sigma * sqrt (2 * float_eps)) * (sigma * sqrt (2 * float_eps))) by ring. nra. }
    apply (Rmult_le_reg_r (2 * (sigma * sigma))); [nra|]. unfold Rdiv. rewrite Rmult_1_l, Rinv_l by nra. lra.
Qed.

(** C34: the scale gamma is always a finite number between eps and 1/(2 eps^2). *)
Lemma pf_C34_gamma_bounds : forall sigma, sigma <> NaN ->
  exists g, gaussian_gamma sigma = Fin g /\ float_eps <= g <= 1 / (2 * (float_eps * float_eps)).
Proof. exact gaussian_gamma_bounds. Qed.

(*BEGIN PROP*)
(** C34: sigma = -7 behaves as sigma = eps. *)
Example C34_example : forall cast d x y,
  kernel_call cast (KGaussian (Fin (-7))) DFloat (fvec d x) DFloat (fvec d y)
  = kernel_call cast (KGaussian (Fin float_eps)) DFloat (fvec d x) DFloat (fvec d y).
Proof.
  intros. assert (H := eps_pos).
  rewrite (proj1 (pf_C34_clamped cast (-7) d x y)) by lra.
  rewrite (proj1 (pf_C34_clamped cast float_eps d x y)) by lra. reflexivity.
Qed.
(*END PROP*)

Lemma filter_ones_nil : forall l, filter (fun s => negb (s =? 1)%nat) l = [] <-> Forall (fun s => s = 1%nat) l.
Proof.
  induction l as [|a l IH]; simpl; [split; constructor|].
  destruct (Nat.eqb_spec a 1) as [->|E]; simpl.
  - rewrite IH. split; [intros; now constructor|]. intros H. now inversion H.
  - split; [discriminate|]. intros H. inversion H. contradiction.
Qed.

(** C35: which shapes are 1-D after squeezing; the elements are unchanged, in order. The result of
    a successful conversion of a wrong dtype is whatever numpy's astype gives. *)
Lemma pf_C35_1D : forall {E} cast d (a : ndarray E) e, issubdtype d e = true ->
  (forall b, ensure_ndarray_1D cast d a e = Ok b <->
     exists n ones, nd_shape a = n :: ones /\ Forall (fun s => s = 1%nat) ones /\ b = mkNd [n] (nd_data a))
  /\ (forall er, ensure_ndarray_1D cast d a e = Raise er -> er = ValueError).
Proof.
  intros E cast d a e He. unfold ensure_ndarray_1D, ensure_ndarray_size, squeeze_from. rewrite He.
  cbn [negb nd_shape nd_data]. unfold nd_ndim. cbn [nd_shape].
  destruct (nd_shape a) as [|n s]; cbn [firstn skipn app filter length].
  - split; [|intros er H; simpl in H; congruence]. intros b. split; [discriminate|].
    intros (n & ones & H & _). discriminate.
  - split.
    2:{ intros er. destruct (negb _); intros H; [injection H as <-; reflexivity|discriminate]. }
    intros b. destruct (filter _ s) as [|z zs] eqn:F; cbn [length Nat.eqb negb].
    + split.
      * intros H. injection H as <-. exists n, s. split; [reflexivity|]. split; [|reflexivity].
        now apply filter_ones_nil.
      * intros (n' & ones & H & _ & ->). injection H as -> ->. reflexivity.
    + split; [discriminate|]. intros (n' & ones & H & Ho & _). injection H as -> ->.
      apply filter_ones_nil in Ho. congruence.
Qed.

(** C35: the same for 2-D; with a required number of columns that must match too. *)
Lemma pf_C35_2D : forall {E} cast d (a : ndarray E) e cols, issubdtype d e = true ->
  (forall b, ensure_ndarray_2D cast d a e cols = Ok b <->
     exists n m ones, nd_shape a = n :: m :: ones /\ Forall (fun s => s = 1%nat) ones
       /\ b = mkNd [n; m] (nd_data a) /\ (forall c, cols = Some c -> m = c))
  /\ (forall er, ensure_ndarray_2D cast d a e cols = Raise er -> er = ValueError).
Proof.
  intros E cast d a e cols He. unfold ensure_ndarray_2D, ensure_ndarray_size, squeeze_from. rewrite He.
  cbn [negb nd_shape nd_data]. unfold nd_ndim. cbn [nd_shape].
  destruct (nd_shape a) as [|n [|m s]]; cbn [firstn skipn app filter length].
  1,2: split; [|intros er H; simpl in H; congruence]; intros b; split; [discriminate|];
    intros (n' & m' & ones & H & _); discriminate.
  split.
  2:{ intros er. destruct (negb _); simpl; intros H; [injection H as <-; reflexivity|].
      destruct cols as [c|]; [|discriminate]. destruct (negb _); [injection H as <-; reflexivity|discriminate]. }
  intros b. destruct (filter _ s) as [|z zs] eqn:F; cbn [length Nat.eqb negb rbind nd_shape nth].
  - split.
    + intros H. assert (Hb : b = mkNd [n; m] (nd_data a) /\ forall c, cols = Some c -> m = c).
      { destruct cols as [c|].
        - destruct (Nat.eqb_spec m c); simpl in H; [|discriminate]. injection H as <-.
          split; [reflexivity|]. intros c' Hc. now injection Hc as <-.
        - injection H as <-. split; [reflexivity|discriminate]. }
      exists n, m, s. split; [reflexivity|]. split; [now apply filter_ones_nil|]. exact Hb.
    + intros (n' & m' & ones & H & _ & -> & Hc). injection H as -> -> ->.
      destruct cols as [c|]; [|reflexivity]. rewrite (Hc c eq_refl), Nat.eqb_refl. reflexivity.
  - split; [discriminate|]. intros (n' & m' & ones & H & Ho & _). injection H as -> -> ->.
    apply filter_ones_nil in Ho. congruence.
Qed.

(** C35: arrays of another dtype are converted, or refused with ValueError; the shape test comes first. *)
Lemma pf_C35_conversion : forall {E} cast d (a : ndarray E) e, issubdtype d e = false ->
  ensure_ndarray_1D cast d a e
  = match ensure_ndarray_1D cast d a EnOwn with
    | Ok b => match cast d (nd_data a) with Some l => Ok (mkNd (nd_shape b) l) | None => Raise ValueError end
    | Raise er => Raise er
    end.
Proof.
  intros E cast d a e He. unfold ensure_ndarray_1D, ensure_ndarray_size. rewrite He. simpl.
  destruct (negb _); reflexivity.
Qed.

(** C35: every kernel raises ValueError on numeric vectors of different lengths. *)
Lemma pf_C35_lengths : forall cast k (x y : list xr), length x <> length y ->
  kernel_call cast k DFloat (vec x) DFloat (vec y) = Raise ValueError.
Proof.
  intros. unfold kernel_call, check_input_arrays, ensure_ndarray_1D, ensure_ndarray_size.
  unfold vec, squeeze_from. simpl.
  assert (E : issubdtype DFloat (kernel_dtype k) = true) by now destruct k.
  rewrite E. simpl. apply Nat.eqb_neq in H. rewrite H. reflexivity.
Qed.

(*BEGIN PROP*)
(** C35: a column of shape (2,1) is accepted as a vector, a row of shape (1,2) is not. *)
Example C35_example : forall cast,
  ensure_ndarray_1D cast DFloat (mkNd [2; 1]%nat [Fin 4; Fin 5]) EnNumber = Ok (mkNd [2%nat] [Fin 4; Fin 5])
  /\ ensure_ndarray_1D cast DFloat (mkNd [1; 2]%nat [Fin 4; Fin 5]) EnNumber = Raise ValueError
  /\ ensure_ndarray_2D cast DFloat (mkNd [1; 2; 1]%nat [Fin 4; Fin 5]) EnNumber (Some 2%nat) = Ok (mkNd [1; 2]%nat [Fin 4; Fin 5]).
Proof. intros. split; [|split]; reflexivity. Qed.
(*END PROP*)
