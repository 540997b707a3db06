(** Kernel matrices of samples drawn from other samples (C94), in any arithmetic.
    Generated by tools/split_props.py from SampleProps.v: statements only, each closed by [exact]. *)
From Coq Require Import String List Arith ZArith Bool Lia.
Import ListNotations.
From Verif Require Import Prelude MatModel MatFacts IndexModel KMModel SpecKM SpecSample KMProps ToyModel.
From Verif Require Import SampleProps.

(** C94. Whatever was done before and after attach_to (full_sparse apart), and in any arithmetic: if the points
    of one KernelMatrix occur among those of another, its entries are the corresponding entries of the
    other. This covers subsets, permutations and repetitions of a sample, the blocks of the matrix of a
    stacked sample, and a sample attached twice instead of once. Where one sample is attached the
    kernel has to be symmetric. *)
Theorem C94_full :
  forall {E V U} (N : numops V) (K : kernel E V) k (pre post pre' post' : list (op E U)) x y x' y' n m n' m' d f g,
    never_raises K k x y n m d -> kfmt K = true -> admissible x y n m d -> admissible x' y' n' m' d ->
    no_attach post -> no_full_sparse post -> no_attach post' -> no_full_sparse post' ->
    drawn d n m n' m' f g x y x' y' ->
    (symmetric_on k x y n m d \/ (y <> None /\ y' <> None)) ->
    exists a a', outcome N OpFull (after N K false pre x y post) = Ok (OArr a) /\
      outcome N OpFull (after N K false pre' x' y' post') = Ok (OArr a') /\
      mr (amat a') = n' /\ mc (amat a') = m' /\
      forall na i j, i < n' -> j < m' -> mget na (amat a') i j = mget na (amat a) (f i) (g j).
Proof. exact (@pf_C94_full). Qed.
Print Assumptions C94_full.

(** C94: with the two samples exchanged the matrix is transposed. *)
Theorem C94_transpose :
  forall {E V U} (N : numops V) (K : kernel E V) k (pre post pre' post' : list (op E U)) x y n m d,
    never_raises K k x (Some y) n m d -> kfmt K = true -> admissible x (Some y) n m d ->
    no_attach post -> no_full_sparse post -> no_attach post' -> no_full_sparse post' ->
    symmetric_on k x (Some y) n m d ->
    exists a a', outcome N OpFull (after N K false pre x (Some y) post) = Ok (OArr a) /\
      outcome N OpFull (after N K false pre' y (Some x) post') = Ok (OArr a') /\
      mr (amat a') = m /\ mc (amat a') = n /\
      forall na i j, i < n -> j < m -> mget na (amat a') j i = mget na (amat a) i j.
Proof. exact (@pf_C94_transpose). Qed.
Print Assumptions C94_transpose.

(** The points of [toyX] in reverse order. *)
Definition toyRev : ndarray (option Z) :=
  mkNd [3; 2]%nat [Some 5; Some 6; Some 3; Some 4; Some 1; Some 2]%Z.

(** C94: for a kernel that is not symmetric reversing one sample does not just reverse the matrix. *)
Theorem C94_asymmetric_refuted : exists (K : kernel (option Z) (option Z)) k a a',
  (forall x y n m d, never_raises K k x y n m d) /\ kfmt K = true /\
  admissible toyX None 3 3 2 /\ admissible toyRev None 3 3 2 /\
  drawn 2 3 3 3 3 (fun i => 2 - i) (fun i => 2 - i) toyX None toyRev None /\
  outcome toyN OpFull (after (U := unit) toyN K false [] toyX None []) = Ok (OArr a) /\
  outcome toyN OpFull (after (U := unit) toyN K false [] toyRev None []) = Ok (OArr a') /\
  mget None (amat a') 0 2 <> mget None (amat a) 2 0.
Proof. exact (@pf_C94_asymmetric_refuted). Qed.
Print Assumptions C94_asymmetric_refuted.

Lemma dotk_symmetric : forall x y n m d, symmetric_on dotk x y n m d.
Proof.
  intros x y n m d u v _ _. unfold dotk. revert v.
  induction u as [|a u IH]; intros [|b v]; try reflexivity.
  cbn. rewrite (IH v). destruct a, b; try reflexivity. cbn. rewrite Z.mul_comm. reflexivity.
Qed.
(** The hypotheses of C94_full: the first and last point of a sample against the second, as a block of the
    matrix of the whole sample; a sample in reverse order with its first point repeated. *)
Example C94_block_example :
  let x' := mkNd [2; 2]%nat [Some 1; Some 2; Some 5; Some 6]%Z in
  let y' := mkNd [1; 2]%nat [Some 3; Some 4]%Z in
  never_raises dot dotk toyX None 3 3 2 /\ admissible toyX None 3 3 2 /\ admissible x' (Some y') 2 1 2 /\
  drawn 2 3 3 2 1 (fun i => 2 * i) (fun j => 1 + j) toyX None x' (Some y') /\ symmetric_on dotk toyX None 3 3 2 /\
  outcome toyN OpFull (after (U := unit) toyN dot false [] toyX None []) =
    Ok (OArr (mkArr Dense (mkMat 3 3 [[Some 5; Some 11; Some 17]; [Some 11; Some 25; Some 39]; [Some 17; Some 39; Some 61]]%Z))) /\
  outcome toyN OpFull (after (U := unit) toyN dot false [] x' (Some y') []) =
    Ok (OArr (mkArr Dense (mkMat 2 1 [[Some 11]; [Some 39]]%Z))).
Proof.
  cbv zeta. split; [apply dot_total|]. split; [exact toyX_ok|].
  split; [split; exists []; (split; [reflexivity|constructor])|].
  split. { split; [intros [|[|i]] Hi|intros [|j] Hj]; try lia; (split; [lia|reflexivity]). }
  split; [apply dotk_symmetric|]. split; vm_compute; reflexivity.
Qed.
Example C94_repeat_example :
  let x' := mkNd [4; 2]%nat [Some 5; Some 6; Some 3; Some 4; Some 1; Some 2; Some 1; Some 2]%Z in
  admissible x' None 4 4 2 /\ drawn 2 3 3 4 4 (fun i => 2 - i) (fun i => 2 - i) toyX None x' None.
Proof.
  cbv zeta. split; [split; [exists []; split; [reflexivity|constructor]|reflexivity]|].
  split; intros [|[|[|[|i]]]] Hi; try lia; (split; [lia|reflexivity]).
Qed.
Example C94_transpose_example :
  never_raises dot dotk toyX (Some toyX2) 3 2 2 /\ admissible toyX (Some toyX2) 3 2 2 /\
  symmetric_on dotk toyX (Some toyX2) 3 2 2 /\
  outcome toyN OpFull (after (U := unit) toyN dot false [] toyX (Some toyX2) []) =
    Ok (OArr (mkArr Dense (mkMat 3 2 [[Some 2; Some 2]; [Some 6; Some 4]; [Some 10; Some 6]]%Z))) /\
  outcome toyN OpFull (after (U := unit) toyN dot false [] toyX2 (Some toyX) []) =
    Ok (OArr (mkArr Dense (mkMat 2 3 [[Some 2; Some 6; Some 10]; [Some 2; Some 4; Some 6]]%Z))).
Proof.
  split; [apply dot_total|]. split; [exact toyXX2_ok|]. split; [apply dotk_symmetric|].
  split; vm_compute; reflexivity.
Qed.
