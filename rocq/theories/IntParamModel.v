(** Kernels whose parameters are Python integers, e.g. PolyKernel(degree=2, gamma=1, b=1), on arrays of
    fixed-width integers. With float parameters the integer result of [np.dot] or [np.sum] becomes a
    float64 (IntModel.v); with integer parameters the whole formula is integer arithmetic, which
    wraps around. *)
From Coq Require Import Reals List Bool Arith ZArith.
Import ListNotations.
From Verif Require Import Prelude MatModel KMModel XReal KernelsModel IntModel.
Local Open Scope Z_scope.

(** The kernels whose formula combines a parameter with an integer (numeric_kernels.py:144, 256, 396).
    The others convert to float64 first (202 Gaussian: [np.linalg.norm]; 318 Chi2:
    ensure_dtype=np.float64) or have no such parameter. *)
Inductive pkernel : Type :=
| PPoly (degree gamma b : Z)
| PLaplacian (gamma : Z)
| PSigmoid (gamma offset : Z).

(** The kernel with the same parameters as floats. *)
Definition to_float (k : pkernel) : nkernel :=
  match k with
  | PPoly degree gamma b => KPoly (Z.to_nat degree) (IZR gamma) (IZR b)
  | PLaplacian gamma => KLaplacian (IZR gamma)
  | PSigmoid gamma offset => KSigmoid (IZR gamma) (IZR offset)
  end.

(** A numpy integer scalar to the power of a Python integer: "Integers to negative integer powers are
    not allowed". *)
Definition spow (t : itype) (a n : Z) : res Z :=
  if n <? 0 then Raise ValueError else Ok (ipow t a (Z.to_nat n)).

(** numeric_kernels.py:144, 256, 396. [t] is the dtype of both arrays, [u] the one in which numpy
    combines an integer scalar (of dtype t; for Laplacian, its 64-bit version) with a Python integer:
    for int64 arrays both are int64; for smaller signed ones u is int64 before numpy 2, and t (Poly,
    Sigmoid) from numpy 2 on. Parameters that [u] does not represent are not considered (float64 or
    OverflowError, depending on the version); [-self.gamma] is a Python integer. One integer and one
    float parameter: MixModel.v. exp or tanh in float16 or float32 (u of less than 64 bits) are not modelled. *)
Definition pkernel_value (t u : itype) (k : pkernel) (x y : list Z) : res xr :=
  match k with
  | PPoly degree gamma b =>
      rbind (spow u (iadd u b (imul u gamma (idot t x y))) degree) (fun v => Ok (ofZ v))
  | PLaplacian gamma =>
      Ok (xexp (ofZ (imul u (- gamma) (isum t (map (iabs t) (zip (isub t) x y))))))
  | PSigmoid gamma offset =>
      Ok (xtanh (ofZ (iadd u offset (imul u gamma (idot t x y)))))
  end.

(** Such a kernel in a KernelMatrix over integer samples of dtype [t]. *)
Definition builtin_param (t u : itype) (k : pkernel) : kernel Z xr :=
  mkKernel (fun _ x y => if Nat.eqb (length x) (length y) then pkernel_value t u k x y else Raise ValueError) true.
