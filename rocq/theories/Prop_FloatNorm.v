(** C77: normalize_km in double precision.
    Generated by tools/split_props.py from FloatNormProps.v: statements only, each closed by [exact]. *)
From Coq Require Import ZArith Bool List Permutation Lia Floats.SpecFloat.
Import ListNotations.
From Verif Require Import Prelude KernelsModel FloatModel SpecFloats FloatProps.
From Verif Require Import FloatNormProps.

(** C77. In double precision, normalize_km leaves every finite
    matrix with ones on its diagonal exactly as it is: so the kernels with unit diagonal (C76) give the
    same symmetric matrix with normalized=True as with normalized=False. *)
Theorem C77_unit_diagonal : forall e n K, decent e ->
  (forall i j, i < n -> j < n -> f_finite (K i j) = true /\ valid_binary 53 1024 (K i j) = true) ->
  (forall i, i < n -> K i i = fone) ->
  forall i j, i < n -> j < n -> f_same (fnormalize e n K i j) (K i j).
Proof. exact (@pf_C77_unit_diagonal). Qed.
Print Assumptions C77_unit_diagonal.
