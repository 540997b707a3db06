(** C93: the Frobenius norm of sparse matrices in double precision.
    Generated by tools/split_props.py from FloatSparseProps.v: statements only, each closed by [exact]. *)
From Coq Require Import String ZArith Bool List Permutation Lia Lra Reals Floats.SpecFloat Arith.
Import ListNotations.
From Verif Require Import Prelude MatModel UtilsModel KMModel KernelsModel FloatModel FloatOpsModel SpecFloats SpecFloatVal
  SpecFloatErr SpecFloatOps SpecLinAlg FloatKMModel.
From Verif Require Import MatFacts RSum.
From Verif Require Import FloatProps FloatNormProps FloatRound FloatErrProps FloatAny FloatSum FloatDiv FloatDotProps FloatOpsFacts.
Local Open Scope R_scope.
From Verif Require Import FloatSparseProps.
Local Open Scope R_scope.

(** C93. The Frobenius norm of a sparse matrix is computed as the square root of the sum of the entries of the matrix
    product A A: for an n x n matrix of finite doubles of magnitude at most M the radicand is off by at most
    4 n^4 eps M^2 and a multiple of the least positive number. *)
Theorem C93_sparse_norm :
  forall e a n M, decent e -> INR n <= bpow 40 -> is_sparse a = true -> mr (amat a) = n -> mc (amat a) = n ->
    doubles2 n n (fget (amat a)) M -> INR n * (INR n * (INR n * (M * M))) <= bpow 1000 ->
    let A := mvals (fget (amat a)) in
    exists s, ffrob_norm e a = Ok (fsqrt s) /\
      near (rsum n (fun i => rsum n (fun j => rsum n (fun k => A i k * A k j))))
           (4 * INR n ^ 4 * eps * (M * M) + 2 * INR n ^ 3 * least) s.
Proof. exact (@pf_C93_sparse_norm). Qed.
Print Assumptions C93_sparse_norm.

(** The matrix with rows (1, 2) and (2, 3), sparse: the norm is sqrt(9 + 25) on the plain platform. *)
Example C93_sparse_example :
  let a := mkArr Lil (mkMat 2 2 [[fint 1; fint 2]; [fint 2; fint 3]]) in
  ffrob_norm plain a = Ok (fsqrt (fint 34)) /\ doubles2 2 2 (fget (amat a)) 4.
Proof.
  cbv zeta. split; [vm_compute; reflexivity|]. intros i j Hi Hj.
  assert (G : forall z, (0 <= z <= 3)%Z -> f_finite (fint z) = true /\ valid_binary 53 1024 (fint z) = true /\ Rabs (fval (fint z)) <= 4).
  { intros z Hz. destruct (fint_any z ltac:(lia)) as [C E]. destruct (canon_valid _ C) as [F V]. split; [exact F|]. split; [exact V|].
    rewrite E, <- abs_IZR. apply IZR_le. lia. }
  destruct i as [|[|i]]; [| |lia]; (destruct j as [|[|j]]; [| |lia]); apply (G _); lia.
Qed.
