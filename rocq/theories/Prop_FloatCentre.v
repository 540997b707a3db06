(** C93: [centered] and [frob_norm] of a KernelMatrix in double precision.
    Generated by tools/split_props.py from FloatCentreProps.v: statements only, each closed by [exact]. *)
From Coq Require Import String ZArith Bool List Permutation Lia Lra Reals Floats.SpecFloat Arith.
Import ListNotations.
From Verif Require Import Prelude MatModel UtilsModel KMModel SpecKM KernelsModel FloatModel FloatOpsModel SpecFloats SpecFloatVal
  SpecLinAlg SpecFloatErr SpecFloatOps FloatKMModel SpecFloatKM.
From Verif Require Import MatFacts MFacts KMFacts RSum KMInv KMTotal KMProps KMHist KMHist2 OpsFacts.
From Verif Require Import FloatProps FloatNormProps FloatRound FloatErrProps FloatAny FloatSum FloatDiv FloatDotProps FloatOpsFacts
  FloatOpsProps FloatRankProps FloatKMFacts FloatKMProps.
Local Open Scope R_scope.
From Verif Require Import FloatCentreProps.
Local Open Scope R_scope.

(** C93. In double precision, after every history without full_sparse and without a whole-matrix index,
    [centered] is a dense matrix of finite doubles; entry (i, j) is off by at most 32 n eps M (and a multiple
    of the least positive number) for kernel values of magnitude at most M. *)
Theorem C93_centered :
  forall {U} e (K : kernel f64 f64) k nrm (pre post : list (op f64 U)) x n d M, decent e -> INR n <= bpow 40 ->
    never_raises K k x None n n d -> kfmt K = true -> admissible x None n n d -> no_attach post ->
    no_full_sparse post -> no_whole_index n n post ->
    let A := entry k d x None in
    doubles2 n n A M -> M <= bpow 1000 ->
    gives (outcome (fN e) OpCentered (after (fN e) K nrm pre x None post)) n n
      (fun i j v => near (centred n (mvals A) i j) (32 * INR n * eps * M + 8 * INR n * least) v).
Proof. exact (@pf_C93_centered). Qed.
Print Assumptions C93_centered.

(** C93. When the kernel values are within delta of the numbers G_ij, the centred matrix is that much
    closer to the centred matrix of G. *)
Theorem C93_centered_close :
  forall {U} e (K : kernel f64 f64) k nrm (pre post : list (op f64 U)) x n d M (G : nat -> nat -> R) delta,
    decent e -> INR n <= bpow 40 ->
    never_raises K k x None n n d -> kfmt K = true -> admissible x None n n d -> no_attach post ->
    no_full_sparse post -> no_whole_index n n post ->
    let A := entry k d x None in
    doubles2 n n A M -> M <= bpow 1000 -> 0 <= delta ->
    (forall i j, (i < n)%nat -> (j < n)%nat -> Rabs (fval (A i j) - G i j) <= delta) ->
    gives (outcome (fN e) OpCentered (after (fN e) K nrm pre x None post)) n n
      (fun i j v => near (centred n G i j) (32 * INR n * eps * M + 8 * INR n * least + 4 * delta) v).
Proof. exact (@pf_C93_centered_close). Qed.
Print Assumptions C93_centered_close.

(** C93. For LinearKernel, [centered] is the matrix of the inner products of the samples with the mean
    subtracted, up to (33 n + 4 d) eps M, where M bounds sum_k |x_ik x_jk|. *)
Theorem C93_centered_linear :
  forall {U} e nrm (pre post : list (op f64 U)) n d X M, decent e -> INR n <= bpow 40 -> INR d <= bpow 40 ->
    (forall i, (i < n)%nat -> doubles d (X i)) ->
    (forall i j, (i < n)%nat -> (j < n)%nat -> absinner d (vals (X i)) (vals (X j)) <= M) -> M <= bpow 999 ->
    no_attach post -> no_full_sparse post -> no_whole_index n n post ->
    let mean k := rsum n (fun i => vals (X i) k) / INR n in
    gives (outcome (fN e) OpCentered (after (fN e) (fbuiltin e FLinear) nrm pre (fsample n d X) None post)) n n
      (fun i j v => near (inner d (fun k => vals (X i) k - mean k) (fun k => vals (X j) k - mean k))
                         ((33 * INR n + 4 * INR d) * eps * M + (9 * INR n + 4 * INR d) * least) v).
Proof. exact (@pf_C93_centered_linear). Qed.
Print Assumptions C93_centered_linear.

(** C93. [frob_norm], after the same histories, on one or two samples and with or without normalized=True: a
    number that is not negative, and the square root of the sum of the squared kernel values with a relative
    error of at most (n m + 1) eps, apart from underflow. *)
Theorem C93_frob :
  forall {U} e (K : kernel f64 f64) k nrm (pre post : list (op f64 U)) x y n m d b, decent e -> INR (n * m) <= bpow 50 ->
    never_raises K k x y n m d -> kfmt K = true -> admissible x y n m d -> no_attach post ->
    no_full_sparse post -> no_whole_index n m post ->
    let A := entry k d x y in
    doubles2 n m A b -> fprod n m (mvals A) (mvals A) <= bpow 1010 ->
    exists v, outcome (fN e) OpFrobNorm (after (fN e) K nrm pre x y post) = Ok (OVal v) /\ f_nonneg v = true /\
      near (fnorm n m (mvals A)) ((INR (n * m) + 1) * eps * fnorm n m (mvals A) + 2 * sqrt (INR (n * m) * least)) v.
Proof. exact (@pf_C93_frob). Qed.
Print Assumptions C93_frob.

(** C93. One kernel value of magnitude 1 or more makes the norm at least 1/2. *)
Theorem C93_frob_positive :
  forall {U} e (K : kernel f64 f64) k nrm (pre post : list (op f64 U)) x y n m d b, decent e -> INR (n * m) <= bpow 40 ->
    never_raises K k x y n m d -> kfmt K = true -> admissible x y n m d -> no_attach post ->
    no_full_sparse post -> no_whole_index n m post ->
    let A := entry k d x y in
    doubles2 n m A b -> fprod n m (mvals A) (mvals A) <= bpow 1010 ->
    (exists i j, (i < n)%nat /\ (j < m)%nat /\ 1 <= Rabs (fval (A i j))) ->
    exists v, outcome (fN e) OpFrobNorm (after (fN e) K nrm pre x y post) = Ok (OVal v) /\ f_finite v = true /\ / 2 <= fval v.
Proof. exact (@pf_C93_frob_positive). Qed.
Print Assumptions C93_frob_positive.

(** C93 is false after full_sparse: for LinearKernel and the sample 2, -1, -2 (one feature) the norm is 9
    on a fresh KernelMatrix, but NaN once full_sparse has been read. *)
Theorem C93_frob_sparse_refuted :
  exists e (post : list (op f64 unit)) X, decent e /\ no_attach post /\ no_whole_index 3 3 post /\
    (forall i, (i < 3)%nat -> doubles 1 (X i)) /\
    outcome (fN e) (@OpFrobNorm f64 unit) (after (fN e) (fbuiltin e FLinear) false [] (fsample 3 1 X) None []) = Ok (OVal (fint 9)) /\
    outcome (fN e) OpFrobNorm (after (fN e) (fbuiltin e FLinear) false [] (fsample 3 1 X) None post) = Ok (OVal S754_nan).
Proof. exact (@pf_C93_frob_sparse_refuted). Qed.
Print Assumptions C93_frob_sparse_refuted.

(** C93 on concrete data: the sample 2, -1, -2 (one feature). *)
Definition rows3 (i k : nat) : f64 := nth i [fint 2; fint (-1); fint (-2)] fzero.

(** C93: the sample meets the hypotheses; entry (0, 0) of [centered] is within 103 eps M of 49/9 = (2 + 1/3)^2,
    with M = 4. *)
Theorem C93_example :
  (forall i, (i < 3)%nat -> doubles 1 (rows3 i)) /\
  (forall i j, (i < 3)%nat -> (j < 3)%nat -> absinner 1 (vals (rows3 i)) (vals (rows3 j)) <= 4) /\
  exists B, outcome (fN plain) (@OpCentered f64 unit) (after (fN plain) (fbuiltin plain FLinear) true [] (fsample 3 1 rows3) None [OpFull; OpDiagonal])
              = Ok (OArr (mkArr Dense (tabulate 3 3 B))) /\
            near (49 / 9) (412 * eps + 31 * least) (B 0%nat 0%nat).
Proof. exact (@pf_C93_example). Qed.
Print Assumptions C93_example.
