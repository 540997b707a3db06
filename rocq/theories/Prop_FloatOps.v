(** C88: operations on kernel matrices in double precision.
    Generated by tools/split_props.py from FloatOpsProps.v: statements only, each closed by [exact]. *)
From Coq Require Import ZArith Bool List Permutation Reals Lia Lra Floats.SpecFloat.
From Verif Require Import Prelude KernelsModel XReal MatModel FloatModel SpecFloats SpecFloatVal SpecLinAlg RSum PSDFacts
  KernelFacts SpecKernels OpsFacts SpecFloatErr FloatProps FloatNormProps FloatRound FloatAny FloatSum FloatDiv FloatDotProps
  FloatOpsModel SpecFloatOps FloatOpsFacts.
Import ListNotations.
Local Open Scope R_scope.
From Verif Require Import FloatOpsProps.
Local Open Scope R_scope.

(** C88: center_km: every entry of the centred matrix of an n x n matrix with entries of magnitude at most M
    is off by at most 32 n eps M (and a multiple of the least positive number), whatever the order of the
    sums in the matrix products. *)
Theorem C88_center : forall e n K M, decent e -> INR n <= bpow 40 -> doubles2 n n K M -> M <= bpow 1000 ->
  forall i j, (i < n)%nat -> (j < n)%nat ->
  near (centred n (mvals K) i j) (32 * INR n * eps * M + 8 * INR n * least) (fcenter e n K i j).
Proof. exact (@pf_C88_center). Qed.
Print Assumptions C88_center.

(** C88: so the rows of a centred matrix add up to almost zero. *)
Theorem C88_center_rows : forall e n K M, decent e -> INR n <= bpow 40 -> doubles2 n n K M -> M <= bpow 1000 ->
  forall i, (i < n)%nat ->
  Rabs (rsum n (fun j => mvals (fcenter e n K) i j)) <= INR n * (32 * INR n * eps * M + 8 * INR n * least).
Proof. exact (@pf_C88_center_rows). Qed.
Print Assumptions C88_center_rows.

(** C88: and a centred matrix of a positive semidefinite matrix is positive semidefinite up to rounding. *)
Theorem C88_center_psd : forall e n K M, decent e -> INR n <= bpow 40 -> doubles2 n n K M -> M <= bpow 1000 ->
  psd n (mvals K) ->
  almost_psd n (mvals (fcenter e n K))
    (fun c => (32 * INR n * eps * M + 8 * INR n * least) * (rsum n (fun i => Rabs (c i)) * rsum n (fun i => Rabs (c i)))).
Proof. exact (@pf_C88_center_psd). Qed.
Print Assumptions C88_center_psd.

(** C88 (partial). The centred matrix of a symmetric matrix passes the symmetry test of
    KernelMatrixPrecomputed and of is_PSD as long as n M <= 2^18 (about 260000). Missing: larger entries, for
    which it is false (C88_center_symmetric_refuted). *)
Theorem C88_center_symmetric_partial : forall e n K M, decent e -> doubles2 n n K M -> INR n * M <= bpow 18 ->
  INR n <= bpow 40 -> (forall i j, (i < n)%nat -> (j < n)%nat -> K i j = K j i) ->
  fnot_symmetric n (fcenter e n K) = false.
Proof. exact (@pf_C88_center_symmetric_partial). Qed.
Print Assumptions C88_center_symmetric_partial.

(** C88 is false for larger entries: the kernel matrix of LinearKernel on the sample 100000, 100001, 100002 is
    symmetric and positive semidefinite, but the result of center_km is rejected by KernelMatrixPrecomputed as
    not symmetric, and is_PSD returns False for it; also when sums are accumulated in the other direction. *)
Theorem C88_center_symmetric_refuted : exists e e' n K M, decent e /\ decent e' /\ e_acc e [fone; ftwo] = e_acc e' [ftwo; fone] /\
  doubles2 n n K M /\ M <= bpow 34 /\ n = 3%nat /\ psd n (mvals K) /\
  (forall i j, (i < n)%nat -> (j < n)%nat -> K i j = K j i) /\
  fnot_symmetric n K = false /\ fnot_symmetric n (fcenter e n K) = true /\ fnot_symmetric n (fcenter e' n K) = true.
Proof. exact (@pf_C88_center_symmetric_refuted). Qed.
Print Assumptions C88_center_symmetric_refuted.

(** C88: frobenius_product of two n x m matrices: off by at most n m eps sum |A_ij B_ij|. *)
Theorem C88_frobenius : forall e n m A B a b, decent e -> INR (n * m) <= bpow 50 -> doubles2 n m A a -> doubles2 n m B b ->
  fprod n m (fun i j => Rabs (mvals A i j)) (fun i j => Rabs (mvals B i j)) <= bpow 1010 ->
  near (fprod n m (mvals A) (mvals B))
    (INR (n * m) * eps * fprod n m (fun i j => Rabs (mvals A i j)) (fun i j => Rabs (mvals B i j)) + INR (n * m) * least)
    (ffrobenius e n m A B).
Proof. exact (@pf_C88_frobenius). Qed.
Print Assumptions C88_frobenius.

(** C88: frobenius_norm has a relative error of at most (n m + 1) eps, apart from underflow. *)
Theorem C88_frobenius_norm : forall e n m A a, decent e -> INR (n * m) <= bpow 50 -> doubles2 n m A a ->
  fprod n m (mvals A) (mvals A) <= bpow 1010 ->
  f_nonneg (ffrobenius_norm e n m A) = true /\
  near (fnorm n m (mvals A)) ((INR (n * m) + 1) * eps * fnorm n m (mvals A) + 2 * sqrt (INR (n * m) * least))
    (ffrobenius_norm e n m A).
Proof. exact (@pf_C88_frobenius_norm). Qed.
Print Assumptions C88_frobenius_norm.

(** C88: alignment_centered on centred matrices (centered_already=True): when it returns a value computed from
    the matrices, it is the cosine of the angle between them up to 16 n^2 eps. *)
Theorem C88_alignment : forall e n A B a b v, decent e -> INR (n * n) <= bpow 40 -> doubles2 n n A a -> doubles2 n n B b ->
  fprod n n (mvals A) (mvals A) <= bpow 1000 -> fprod n n (mvals B) (mvals B) <= bpow 1000 ->
  falignment e n A B None true = Ok v ->
  near (fprod n n (mvals A) (mvals B) / (fnorm n n (mvals A) * fnorm n n (mvals B))) (16 * INR (n * n) * eps) v.
Proof. exact (@pf_C88_alignment). Qed.
Print Assumptions C88_alignment.

(** C88: alignment_centered, with and without centering, returns a value computed from the matrices between
    -1 and 1 up to 16 n^2 eps; it is finite. *)
Theorem C88_alignment_range : forall e n A B M c v, decent e -> INR (n * n) <= bpow 40 -> doubles2 n n A M -> doubles2 n n B M ->
  M <= bpow 400 -> falignment e n A B None c = Ok v ->
  near 0 (1 + 16 * INR (n * n) * eps) v.
Proof. exact (@pf_C88_alignment_range). Qed.
Print Assumptions C88_alignment_range.

(** C88: the alignment of a matrix with itself is 1 up to 16 n^2 eps. *)
Theorem C88_alignment_self : forall e n A M c v, decent e -> INR (n * n) <= bpow 40 -> doubles2 n n A M ->
  M <= bpow 400 -> falignment e n A A None c = Ok v ->
  near 1 (16 * INR (n * n) * eps) v.
Proof. exact (@pf_C88_alignment_self). Qed.
Print Assumptions C88_alignment_self.

(** C88: the test for a zero norm does not see that a centred matrix is zero: for the matrix
    10^9 (i + j + 1), whose centred matrix is zero, alignment_centered with value_if_zero_division='raise'
    raises no ValueError but returns a number, which depends on the order of summation. *)
Theorem C88_zero_norm_refuted : exists e e' n A B v v', decent e /\ decent e' /\
  doubles2 n n A (bpow 34) /\ doubles2 n n B (bpow 34) /\ fnorm n n (centred n (mvals A)) = 0 /\
  falignment e n A B None false = Ok v /\ fval v < - / 32 /\
  falignment e' n A B None false = Ok v' /\ 0 < fval v'.
Proof. exact (@pf_C88_zero_norm_refuted). Qed.
Print Assumptions C88_zero_norm_refuted.

(** C88: linear_combination without normalised weights: entry (i, j) is off by at most
    L eps sum_k |w_k K_k(i,j)| for L matrices. *)
Theorem C88_linear_combination : forall e L n m w Ks a b C,
  INR L <= bpow 50 -> (forall k, (k < L)%nat -> f_finite (w k) = true /\ valid_binary 53 1024 (w k) = true /\ Rabs (fval (w k)) <= a) ->
  (forall k, (k < L)%nat -> doubles2 n m (Ks k) b) -> INR L * (a * b) <= bpow 1010 ->
  flinear_combination e false (map w (seq 0 L)) (map Ks (seq 0 L)) = Ok C ->
  forall i j, (i < n)%nat -> (j < m)%nat ->
  near (rsum L (fun k => fval (w k) * mvals (Ks k) i j))
       (INR L * eps * rsum L (fun k => Rabs (fval (w k)) * Rabs (mvals (Ks k) i j)) + INR L * least) (C i j).
Proof. exact (@pf_C88_linear_combination). Qed.
Print Assumptions C88_linear_combination.

(** C88: with norm_weights=True and weights that are not negative: when it returns, the sum of the weights is
    positive, and entry (i, j) is the weighted mean up to 8 L eps M. *)
Theorem C88_weighted_mean : forall e L n m w Ks M C, decent e ->
  INR L <= bpow 40 -> (forall k, (k < L)%nat -> f_finite (w k) = true /\ valid_binary 53 1024 (w k) = true /\ 0 <= fval (w k)) ->
  rsum L (fun k => fval (w k)) <= bpow 1000 ->
  (forall k, (k < L)%nat -> doubles2 n m (Ks k) M) -> M <= bpow 1000 ->
  flinear_combination e true (map w (seq 0 L)) (map Ks (seq 0 L)) = Ok C ->
  0 < rsum L (fun k => fval (w k)) /\
  forall i j, (i < n)%nat -> (j < m)%nat ->
  near (rsum L (fun k => fval (w k) * mvals (Ks k) i j) / rsum L (fun k => fval (w k))) (8 * INR L * eps * M + INR L * least) (C i j).
Proof. exact (@pf_C88_weighted_mean). Qed.
Print Assumptions C88_weighted_mean.

(** C88: cases that meet the hypotheses: the matrices [far3] and [small3] on the plain platform; alignment and
    linear combination return, and the last alignment is not exactly 1. *)
Theorem C88_example : decent plain /\ decent plain_left /\ doubles2 3 3 far3 (bpow 34) /\ doubles2 3 3 small3 4 /\
  INR 3 * 4 <= bpow 18 /\ (forall i j, small3 i j = small3 j i) /\ fnot_symmetric 3 (fcenter plain 3 small3) = false /\
  falignment plain 3 far3 far3 None false = Ok (S754_finite false 9007199254740991 (-53)) /\
  falignment plain 3 far3 small3 None true = Ok (S754_finite false 5404391609597966 (-53)) /\
  res_map (fun C => C 2%nat 1%nat) (flinear_combination plain true [fint 1; fint 3] [far3; small3]) =
    Ok (S754_finite false 5243037290594304 (-21)).
Proof. exact (@pf_C88_example). Qed.
Print Assumptions C88_example.
