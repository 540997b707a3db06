(** Vocabulary for C104. *)
From Coq Require Import ZArith Bool List Floats.SpecFloat.
From Verif Require Import FloatModel FloatOpsModel SpecFloats.

(** A number of absolute value at most 1e-8 (the double), the tolerance of np.isclose. *)
Definition tiny (x : f64) : Prop := f_finite x = true /\ SFleb (fabs x) f_atol = true.
