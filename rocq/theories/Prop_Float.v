(** C76, C77: the kernels and normalize_km in double precision.
    Generated by tools/split_props.py from FloatProps.v: statements only, each closed by [exact]. *)
From Coq Require Import ZArith Bool List Permutation Lia Floats.SpecFloat.
Import ListNotations.
From Verif Require Import Prelude KernelsModel FloatModel SpecFloats.
From Verif Require Import FloatProps.

(** C76. In double precision with rounding, overflow, underflow and NaN, whatever the platform's
    elementary functions and its order of summation (the squares computed by pow must not depend on
    the sign, which matters for Chi2Kernel only): every kernel gives exactly the same float, or the same
    error, with its arguments exchanged. *)
Theorem C76_symmetric : forall e k x y,
  (forall v, e_pow e (fopp v) ftwo = e_pow e v ftwo) ->
  fkernel_value e k x y = fkernel_value e k y x.
Proof. exact (@pf_C76_symmetric). Qed.
Print Assumptions C76_symmetric.

(** The vectors on which a kernel is asked to behave: finite, and for Chi2Kernel without negative
    entries. *)
Definition f_domain (k : fkernel) (x : list f64) : Prop :=
  forallb f_finite x = true /\
  match k with FChi2 _ => forallb f_nonneg x = true | _ => True end.

(** The distance-based kernels, with the condition [P] on gamma. *)
Definition distance_kernel (P : f64 -> Prop) (k : fkernel) : Prop :=
  match k with FGaussian g | FLaplacian g | FChi2 g => P g | _ => False end.

(** C76. In double precision GaussianKernel, LaplacianKernel and Chi2Kernel with a finite gamma give
    exactly 1 between a finite vector and itself (non-negative in the case of Chi2Kernel), although
    intermediate results may overflow or be NaN. *)
Theorem C76_unit_diagonal : forall e k x, decent e ->
  distance_kernel (fun g => f_finite g = true) k -> f_domain k x ->
  fkernel_value e k x x = Ok fone.
Proof. exact (@pf_C76_unit_diagonal). Qed.
Print Assumptions C76_unit_diagonal.

(** C76. In double precision these kernels with a positive finite gamma return a number between 0 and 1,
    never NaN, for all finite vectors (non-negative in the case of Chi2Kernel), whatever overflows or underflows. *)
Theorem C76_range : forall e k x y, decent e ->
  distance_kernel (fun g => f_finite g = true /\ f_iszero g = false /\ f_nonneg g = true) k ->
  f_domain k x -> f_domain k y ->
  exists v, fkernel_value e k x y = Ok v /\ f_nonneg v = true /\ SFleb v fone = true.
Proof. exact (@pf_C76_range). Qed.
Print Assumptions C76_range.

(** C77. Exactly symmetric, with exactly ones on the diagonal, it need not be: on every platform normalize_km turns the
    symmetric matrix lin2 = ((2, 3), (3, 5))
    into one that is neither exactly symmetric nor has exactly ones on its diagonal. *)
Theorem C77_not_exact : forall e, decent e ->
  let A := fnormalize e 2 lin2 in
  A 0 0 <> fone /\ A 0 1 <> A 1 0.
Proof. exact (@pf_C77_not_exact). Qed.
Print Assumptions C77_not_exact.

(** C76: the requirements on the platform can be met. *)
Theorem C76_platform_example : decent plain.
Proof. exact (@pf_C76_platform_example). Qed.
Print Assumptions C76_platform_example.

(** C76 on concrete vectors: (1, 2) and (2, 2) with LinearKernel give 6 both ways; and Chi2Kernel gives
    exactly 1 between (0, 3) and itself although the first term is 0/0. *)
Example C76_example :
  fkernel_value plain FLinear [fint 1; fint 2] [fint 2; fint 2] = Ok (fint 6) /\
  fkernel_value plain FLinear [fint 2; fint 2] [fint 1; fint 2] = Ok (fint 6) /\
  fkernel_value plain (FChi2 fone) [fint 0; fint 3] [fint 0; fint 3] = Ok fone.
Proof. split; [| split]; vm_compute; reflexivity. Qed.
