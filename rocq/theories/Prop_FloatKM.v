(** C91: KernelMatrix with normalized=True in double precision.
    Generated by tools/split_props.py from FloatKMProps.v: statements only, each closed by [exact]. *)
From Coq Require Import String ZArith Bool List Permutation Lia Lra Reals Floats.SpecFloat Arith.
Import ListNotations.
From Verif Require Import Prelude MatModel UtilsModel KMModel SpecKM KernelsModel FloatModel FloatOpsModel SpecFloats SpecFloatVal
  SpecLinAlg SpecFloatErr SpecFloatOps FloatKMModel SpecFloatKM.
From Verif Require Import MatFacts MFacts KMFacts RSum.
From Verif Require Import FloatProps FloatNormProps FloatRound FloatErrProps FloatAny FloatSum FloatDiv FloatDotProps FloatOpsFacts
  FloatRankProps FloatKMFacts.
Local Open Scope R_scope.
From Verif Require Import FloatKMProps.
Local Open Scope R_scope.

(** C91. In double precision, after every history, [full], [full_sparse] and [normed_km] of a KernelMatrix
    with normalized=True on one sample return a dense matrix of finite doubles, and entry (i, j) is
    A_ij / (sqrt(A_ii) sqrt(A_jj)) with a relative error of at most 2^-50 (and 2^-1020 in addition), [A]
    being the kernel values; numbers below the normal range included, whatever the order in which the platform
    accumulates matrix products, and whether the kernel matrix had been stored dense or sparse. *)
Theorem C91_one_sample :
  forall {U} e (K : kernel f64 f64) k (pre post : list (op f64 U)) x n d o, decent e ->
    never_raises K k x None n n d -> kfmt K = true -> admissible x None n n d -> no_attach post ->
    (o = OpFull \/ o = OpFullSparse \/ o = OpNormedKM) ->
    let A := entry k d x None in
    (forall i, (i < n)%nat -> fair (A i i)) ->
    (forall i j, (i < n)%nat -> (j < n)%nat ->
       f_finite (A i j) = true /\ valid_binary 53 1024 (A i j) = true /\ Rabs (exact_norm A i j) <= bpow 400) ->
    gives (outcome (fN e) o (after (fN e) K true pre x None post)) n n
      (fun i j v => f_finite v = true /\ valid_binary 53 1024 v = true /\
         Rabs (fval v - exact_norm A i j) <= bpow (-50) * Rabs (exact_norm A i j) + bpow (-1020)).
Proof. exact (@pf_C91_one_sample). Qed.
Print Assumptions C91_one_sample.

(** C91. The same with two samples and the self-similarities of the rows of both. *)
Theorem C91_two_samples :
  forall {U} e (K : kernel f64 f64) k (pre post : list (op f64 U)) x y n m d o, decent e ->
    never_raises K k x (Some y) n m d -> kfmt K = true -> admissible x (Some y) n m d -> no_attach post ->
    (o = OpFull \/ o = OpFullSparse \/ o = OpNormedKM) ->
    let A i j := k (row_of d x i) (row_of d y j) in
    let self z i := k (row_of d z i) (row_of d z i) in
    let t i j := fval (A i j) / (sqrt (fval (self x i)) * sqrt (fval (self y j))) in
    (forall i, (i < n)%nat -> fair (self x i)) -> (forall j, (j < m)%nat -> fair (self y j)) ->
    (forall i j, (i < n)%nat -> (j < m)%nat ->
       f_finite (A i j) = true /\ valid_binary 53 1024 (A i j) = true /\ Rabs (t i j) <= bpow 400) ->
    gives (outcome (fN e) o (after (fN e) K true pre x (Some y) post)) n m
      (fun i j v => f_finite v = true /\ valid_binary 53 1024 v = true /\ Rabs (fval v - t i j) <= bpow (-50) * Rabs (t i j) + bpow (-1020)).
Proof. exact (@pf_C91_two_samples). Qed.
Print Assumptions C91_two_samples.

(** C91. A self-similarity that np.isclose finds close to zero gives KMNormError; so those of magnitude at
    most 1e-8 do, and those of magnitude above 1.01e-8 do not. *)
Theorem C91_error :
  forall {U} e (K : kernel f64 f64) k (pre post : list (op f64 U)) x y n m d o,
    never_raises K k x y n m d -> kfmt K = true -> admissible x y n m d -> no_attach post ->
    (o = OpFull \/ o = OpFullSparse \/ o = OpNormedKM) ->
    (exists i, (i < n)%nat /\ fisclose (k (row_of d x i) (row_of d x i)) fzero = true) ->
    outcome (fN e) o (after (fN e) K true pre x y post) = Raise KMNormError.
Proof. exact (@pf_C91_error). Qed.
Print Assumptions C91_error.

(** C91. The same for a self-similarity of the second sample. *)
Theorem C91_error_second :
  forall {U} e (K : kernel f64 f64) k (pre post : list (op f64 U)) x y n m d o,
    never_raises K k x (Some y) n m d -> kfmt K = true -> admissible x (Some y) n m d -> no_attach post ->
    (o = OpFull \/ o = OpFullSparse \/ o = OpNormedKM) ->
    (exists j, (j < m)%nat /\ fisclose (k (row_of d y j) (row_of d y j)) fzero = true) ->
    outcome (fN e) o (after (fN e) K true pre x (Some y) post) = Raise KMNormError.
Proof. exact (@pf_C91_error_second). Qed.
Print Assumptions C91_error_second.

(** C91: which numbers np.isclose finds close to zero. *)
Theorem C91_close : forall v, f_finite v = true -> valid_binary 53 1024 v = true ->
  (Rabs (fval v) <= / 10 ^ 8 -> fisclose v fzero = true) /\
  (101 / 100 * / 10 ^ 8 < Rabs (fval v) -> fisclose v fzero = false).
Proof. exact (@pf_C91_close). Qed.
Print Assumptions C91_close.

(** C91. GaussianKernel, LaplacianKernel and Chi2Kernel (gamma positive and finite, any finite samples,
    non-negative in the case of Chi2Kernel): with normalized=True exactly the kernel values are returned,
    whatever overflows or underflows on the way (zeros may differ in sign). *)
Theorem C91_unit :
  forall {U} e k (pre post : list (op f64 U)) n d X o, decent e -> exp_doubles e ->
    distance_kernel (fun g => f_finite g = true /\ f_iszero g = false /\ f_nonneg g = true) k ->
    (forall i, (i < n)%nat -> f_domain k (features d (X i))) -> no_attach post ->
    (o = OpFull \/ o = OpFullSparse \/ o = OpNormedKM) ->
    gives (outcome (fN e) o (after (fN e) (fbuiltin e k) true pre (fsample n d X) None post)) n n
      (fun i j v => f_same v (fvalue e k (features d (X i)) (features d (X j)))).
Proof. exact (@pf_C91_unit). Qed.
Print Assumptions C91_unit.

(** C91. The same with two samples. *)
Theorem C91_unit_two :
  forall {U} e k (pre post : list (op f64 U)) n m d X Y o, decent e -> exp_doubles e ->
    distance_kernel (fun g => f_finite g = true /\ f_iszero g = false /\ f_nonneg g = true) k ->
    (forall i, (i < n)%nat -> f_domain k (features d (X i))) ->
    (forall j, (j < m)%nat -> f_domain k (features d (Y j))) -> no_attach post ->
    (o = OpFull \/ o = OpFullSparse \/ o = OpNormedKM) ->
    gives (outcome (fN e) o (after (fN e) (fbuiltin e k) true pre (fsample n d X) (Some (fsample m d Y)) post)) n m
      (fun i j v => f_same v (fvalue e k (features d (X i)) (features d (Y j)))).
Proof. exact (@pf_C91_unit_two). Qed.
Print Assumptions C91_unit_two.

(** C91. LinearKernel with normalized=True (up to 2^40 features, self-products from 1.1e-8 to 2^999): every
    entry is the cosine of the angle between the two samples up to (3 d + 5) eps. *)
Theorem C91_linear :
  forall {U} e (pre post : list (op f64 U)) n d X o, decent e -> INR d <= bpow 40 ->
    (forall i, (i < n)%nat -> big_enough d (X i)) -> no_attach post ->
    (o = OpFull \/ o = OpFullSparse \/ o = OpNormedKM) ->
    gives (outcome (fN e) o (after (fN e) (fbuiltin e FLinear) true pre (fsample n d X) None post)) n n
      (fun i j v => near (cosine d (vals (X i)) (vals (X j))) ((3 * INR d + 5) * eps) v /\ valid_binary 53 1024 v = true).
Proof. exact (@pf_C91_linear). Qed.
Print Assumptions C91_linear.

(** C91. The same with two samples. *)
Theorem C91_linear_two :
  forall {U} e (pre post : list (op f64 U)) n m d X Y o, decent e -> INR d <= bpow 40 ->
    (forall i, (i < n)%nat -> big_enough d (X i)) -> (forall j, (j < m)%nat -> big_enough d (Y j)) -> no_attach post ->
    (o = OpFull \/ o = OpFullSparse \/ o = OpNormedKM) ->
    gives (outcome (fN e) o (after (fN e) (fbuiltin e FLinear) true pre (fsample n d X) (Some (fsample m d Y)) post)) n m
      (fun i j v => near (cosine d (vals (X i)) (vals (Y j))) ((3 * INR d + 5) * eps) v /\ valid_binary 53 1024 v = true).
Proof. exact (@pf_C91_linear_two). Qed.
Print Assumptions C91_linear_two.

(** C91 on concrete data: the sample (1, 1), (1, 2). *)
Definition rows2 (i k : nat) : f64 := match i, k with S O, S O => fint 2 | _, _ => fint 1 end.

(** C91: what must not be expected is exact symmetry. The normalized kernel matrix of LinearKernel on (1, 1),
    (1, 2) is not symmetric, and its diagonal is not 1. *)
Theorem C91_symmetric_refuted : exists (x : ndarray f64) a b c d,
  outcome (fN plain) (@OpFull f64 unit) (after (fN plain) (fbuiltin plain FLinear) true [] x None [])
    = Ok (OArr (mkArr Dense (mkMat 2 2 [[a; b]; [c; d]]))) /\ decent plain /\
  f_finite a = true /\ f_finite b = true /\ f_finite c = true /\ fval b <> fval c /\ fval a <> 1.
Proof. exact (@pf_C91_symmetric_refuted). Qed.
Print Assumptions C91_symmetric_refuted.

(** C91: hypotheses of the theorems above that hold together, and the result on the sample (1, 1), (1, 2):
    both entries off the diagonal are within 11 eps of 3 / sqrt 10. *)
Theorem C91_example :
  (exists e, decent e /\ exp_doubles e) /\
  (forall i, (i < 2)%nat -> big_enough 2 (rows2 i)) /\
  (forall i, (i < 2)%nat -> f_domain (FChi2 fone) (features 2 (rows2 i))) /\
  cosine 2 (vals (rows2 0)) (vals (rows2 1)) = 3 / sqrt 10 /\
  near (3 / sqrt 10) (11 * eps) (S754_finite false 8544979495185813 (-53)) /\
  near (3 / sqrt 10) (11 * eps) (S754_finite false 8544979495185814 (-53)).
Proof. exact (@pf_C91_example). Qed.
Print Assumptions C91_example.
