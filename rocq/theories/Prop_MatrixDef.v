(** When the full matrix of a KernelMatrix is positive definite (C111), in exact arithmetic.
    Generated by tools/split_props.py from MatrixDefProps.v: statements only, each closed by [exact]. *)
From Coq Require Import String List Arith ZArith Bool Reals Lra Lia Psatz.
Import ListNotations.
From Verif Require Import Prelude MatModel MatFacts UtilsModel XReal SpecLinAlg RSum PSDFacts OpsModel OpsFacts OpsProps KernelsModel
  SpecKernels KernelFacts KernelProps KMXModel IndexModel KMModel SpecKM SpecSample SampleXProps SpecKMX KMProps KMXProps
  CategModel SpecCateg CategProps PosDefProps DefiniteProps MatchDefProps HadDefProps PolyDefProps.
Local Open Scope R_scope.
From Verif Require Import MatrixDefProps.
Local Open Scope R_scope.

(** C111, KernelMatrix with any numeric kernel whose values on the sample are finite (and, if the object is normalised,
    above 1e-8 on the diagonal): full, after any history (without the two sparse accesses when not normalised), is
    positive definite exactly if the matrix of kernel values is. *)
Theorem C111_matrix :
  forall {U} cast k nrm (pre post : list (op xr U)) n d X A,
    (forall i j, (i < n)%nat -> (j < n)%nat ->
       kernel_call cast k DFloat (fvec d (X i)) DFloat (fvec d (X j)) = Ok (Fin (A i j))) ->
    no_attach post ->
    (nrm = true /\ (forall i, (i < n)%nat -> 1/100000000 < A i i) \/
     nrm = false /\ no_full_sparse post /\ no_whole_index n n post) ->
    exists B,
      outcome xN OpFull (after xN (builtin k) nrm pre (rsample n d X) None post)
      = Ok (OArr (mkArr Dense (rmat n n B))) /\
      (pos_def n B <-> pos_def_on (fun x y => kernel_call cast k DFloat x DFloat y) n d X).
Proof. exact (@pf_C111_matrix). Qed.
Print Assumptions C111_matrix.

(** C111, KernelMatrix with a MatchCountKernel, normalised or not: the same. *)
Theorem C111_match_matrix :
  forall {U} perc nrm (pre post : list (op string U)) n d X, (1 <= d)%nat -> no_attach post ->
    (nrm = true \/ (no_full_sparse post /\ no_whole_index n n post)) ->
    exists B,
      outcome xN OpFull (after xN (categorical perc) nrm pre (csample n d X) None post)
      = Ok (OArr (mkArr Dense (rmat n n B))) /\
      (pos_def n B <-> pos_def_strings (fun x y => match_call String.eqb perc DStr x DStr y) n (fun i => map (X i) (seq 0 d))).
Proof. exact (@pf_C111_match_matrix). Qed.
Print Assumptions C111_match_matrix.

(** The normalised HadamardKernel matrix of 1 and -2, attached after another sample, read after its diagonal: positive
    definite. *)
Theorem C111_matrix_example : forall {U} (u : list (op xr U)), exists B,
  outcome xN OpFull (after xN (builtin (KHadamard 1)) true u
    (rsample 2 1 (fun i _ => match i with O => 1 | _ => -2 end)) None [OpDiagonal]) = Ok (OArr (mkArr Dense (rmat 2 2 B))) /\
  pos_def 2 B.
Proof. exact (@pf_C111_matrix_example). Qed.
Print Assumptions C111_matrix_example.
