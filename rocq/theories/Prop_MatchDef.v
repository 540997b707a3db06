(** Which match-count matrices are positive definite (C111), in exact arithmetic.
    Generated by tools/split_props.py from MatchDefProps.v: statements only, each closed by [exact]. *)
From Coq Require Import String List Arith ZArith Bool Reals Lra Lia Psatz.
Import ListNotations.
From Verif Require Import Prelude MatModel MatFacts UtilsModel XReal SpecLinAlg RSum PSDFacts OpsModel OpsFacts OpsProps KernelsModel
  SpecKernels KernelFacts KernelProps PosDefProps DefiniteProps.
Local Open Scope R_scope.
From Verif Require Import MatchDefProps.
Local Open Scope R_scope.

(** The matrix of a kernel on n vectors of strings is positive definite. *)
Definition pos_def_strings (call : ndarray string -> ndarray string -> res xr) (n : nat) (X : nat -> list string) : Prop :=
  exists K, pos_def n K /\
    forall i j, (i < n)%nat -> (j < n)%nat -> call (vec (X i)) (vec (X j)) = Ok (Fin (K i j)).
(** The sum of the weights of the points with value v in feature k. *)
Definition class_weight (n : nat) (X : nat -> list string) (c : nat -> R) (k : nat) (v : string) : R :=
  rsum n (fun i => if string_dec (nth k (X i) EmptyString) v then c i else 0).

(** C111, MatchCountKernel, with or without return_perc: the matrix is positive definite exactly if the points have no
    weights, other than zeros, with which in every feature the weights of the points sharing a value sum to zero. *)
Theorem C111_match : forall perc n d X, (1 <= d)%nat -> (forall i, (i < n)%nat -> length (X i) = d) ->
  (pos_def_strings (fun x y => match_call String.eqb perc DStr x DStr y) n X <->
   forall c, (forall k v, (k < d)%nat -> class_weight n X c k v = 0) -> forall i, (i < n)%nat -> c i = 0).
Proof. exact (@pf_C111_match). Qed.
Print Assumptions C111_match.

(** C111, MatchCountKernel: it is if in one of the features all values are different. *)
Theorem C111_match_feature : forall perc n d X k, (forall i, (i < n)%nat -> length (X i) = d) -> (k < d)%nat ->
  (forall i j, (i < n)%nat -> (j < n)%nat -> i <> j -> nth k (X i) EmptyString <> nth k (X j) EmptyString) ->
  pos_def_strings (fun x y => match_call String.eqb perc DStr x DStr y) n X.
Proof. exact (@pf_C111_match_feature). Qed.
Print Assumptions C111_match_feature.

(** C111, MatchCountKernel: it is not if two of the points are equal. *)
Theorem C111_match_equal : forall perc n d X, (1 <= d)%nat -> (forall i, (i < n)%nat -> length (X i) = d) ->
  pos_def_strings (fun x y => match_call String.eqb perc DStr x DStr y) n X ->
  forall i j, (i < n)%nat -> (j < n)%nat -> i <> j -> X i <> X j.
Proof. exact (@pf_C111_match_equal). Qed.
Print Assumptions C111_match_equal.

(** C111: different points are not enough for MatchCountKernel: the four pairs of the letters a and b; three of them are. *)
Theorem C111_match_refuted : forall perc, let X := fun i => nth i [["a"; "a"]; ["a"; "b"]; ["b"; "a"]; ["b"; "b"]]%string [] in
  (forall i j, (i < 4)%nat -> (j < 4)%nat -> i <> j -> X i <> X j) /\
  ~ pos_def_strings (fun x y => match_call String.eqb perc DStr x DStr y) 4 X /\
  pos_def_strings (fun x y => match_call String.eqb perc DStr x DStr y) 3 X.
Proof. exact (@pf_C111_match_refuted). Qed.
Print Assumptions C111_match_refuted.
