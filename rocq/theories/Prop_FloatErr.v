(** C77: normalize_km in double precision: the rounding error.
    Generated by tools/split_props.py from FloatErrProps.v: statements only, each closed by [exact]. *)
From Coq Require Import ZArith Bool List Lia Lra Reals Floats.SpecFloat.
Import ListNotations.
From Verif Require Import Prelude KernelsModel FloatModel SpecFloats SpecFloatVal FloatProps FloatNormProps FloatRound.
Local Open Scope R_scope.
From Verif Require Import FloatErrProps.
Local Open Scope R_scope.

(** C77. In double precision, normalize_km computes every entry K_ij / (sqrt(K_ii) sqrt(K_jj)) with a
    relative error of at most 2^-50, whatever the order in which the platform accumulates the matrix
    products. *)
Theorem C77_error : forall e n K, decent e -> moderate n K ->
  forall i j, (i < n)%nat -> (j < n)%nat ->
  f_finite (fnormalize e n K i j) = true /\
  Rabs (fval (fnormalize e n K i j) - exact_norm K i j) <= bpow (-50) * Rabs (exact_norm K i j).
Proof. exact (@pf_C77_error). Qed.
Print Assumptions C77_error.

(** C77. So the diagonal of the normalized matrix is 1 up to 2^-50. *)
Theorem C77_diagonal : forall e n K, decent e -> moderate n K ->
  forall i, (i < n)%nat -> Rabs (fval (fnormalize e n K i i) - 1) <= bpow (-50).
Proof. exact (@pf_C77_diagonal). Qed.
Print Assumptions C77_diagonal.

(** C77. And normalizing a symmetric matrix gives a matrix that is symmetric up to a relative 2^-49. *)
Theorem C77_symmetric : forall e n K, decent e -> moderate n K ->
  (forall i j, (i < n)%nat -> (j < n)%nat -> K i j = K j i) ->
  forall i j, (i < n)%nat -> (j < n)%nat ->
  Rabs (fval (fnormalize e n K i j) - fval (fnormalize e n K j i)) <= bpow (-49) * Rabs (exact_norm K i j).
Proof. exact (@pf_C77_symmetric). Qed.
Print Assumptions C77_symmetric.

(** C77: an instance: ((2, 3), (3, 5)). *)
Theorem C77_example : moderate 2 lin2 /\ exact_norm lin2 0 1 = 3 / (sqrt 2 * sqrt 5) /\
  forall e, decent e ->
  Rabs (fval (fnormalize e 2 lin2 0 1) - 3 / (sqrt 2 * sqrt 5)) <= bpow (-50).
Proof. exact (@pf_C77_example). Qed.
Print Assumptions C77_example.
