(** The numeric kernels on arrays of fixed-width integers. KernelMatrix.attach_to keeps the dtype of
    the sample (base.py:251,266) and the kernels accept every numeric dtype (numeric_kernels.py:68,
    142, 200, 254, 394, 438: ensure_dtype=np.number), so the arithmetic below is numpy's integer
    arithmetic, which wraps around. *)
From Coq Require Import Reals List Bool Arith ZArith.
Import ListNotations.
From Verif Require Import Prelude MatModel KMModel XReal KernelsModel.
Local Open Scope Z_scope.

(** numpy's integer dtypes: (u)int8, (u)int16, (u)int32, (u)int64. *)
Inductive iwidth : Type := W8 | W16 | W32 | W64.
Record itype : Type := mkIt { i_width : iwidth; i_signed : bool }.
Definition bits (w : iwidth) : Z := match w with W8 => 8 | W16 => 16 | W32 => 32 | W64 => 64 end.

(** The value of the bit pattern of [z] in the dtype. *)
Definition wrap (t : itype) (z : Z) : Z :=
  let r := z mod 2 ^ bits (i_width t) in
  if i_signed t && (2 ^ (bits (i_width t) - 1) <=? r) then r - 2 ^ bits (i_width t) else r.

(** Elementwise operations on arrays of one dtype; [np.abs] of the least number is itself. *)
Definition isub (t : itype) (a b : Z) : Z := wrap t (a - b).
Definition iadd (t : itype) (a b : Z) : Z := wrap t (a + b).
Definition imul (t : itype) (a b : Z) : Z := wrap t (a * b).
Definition iabs (t : itype) (a : Z) : Z := wrap t (Z.abs a).
(** [np.power] with a non-negative integer exponent: repeated wrapping products. *)
Fixpoint ipow (t : itype) (a : Z) (n : nat) : Z :=
  match n with O => 1 | S n' => imul t a (ipow t a n') end.

(** [np.dot] of two integer vectors has their dtype (a wider accumulator, if any, is truncated in the
    end, which is the same). *)
Definition idot (t : itype) (x y : list Z) : Z :=
  fold_left (fun acc p => iadd t acc (imul t (fst p) (snd p))) (combine x y) 0.

(** [np.sum] of an integer array is done in 64 bits (signed or unsigned like the array). *)
Definition isum (t : itype) (l : list Z) : Z :=
  fold_left (fun acc a => iadd (mkIt W64 (i_signed t)) acc a) l 0.

(** Conversion to float64. Exact; rounding of integers beyond 2^53 is not modelled (see XReal.v). *)
Definition ofZ (z : Z) : xr := Fin (IZR z).

(** The kernels, with float parameters (Python integers as gamma or b: IntParamModel.v, MixModel.v) except
    for the degree and for alpha of HadamardKernel, whose default 3 is an integer (1 <= alpha). *)
Inductive ikernel : Type :=
| IHadamard (alpha : nat)
| IPoly (degree : nat) (gamma b : R)
| IGaussian (sigma : xr)
| ILaplacian (gamma : R)
| IChi2 (gamma : R)
| ISigmoid (gamma offset : R)
| ILinear.

(** The kernel object, as modelled on float arrays. *)
Definition to_nkernel (k : ikernel) : nkernel :=
  match k with
  | IHadamard alpha => KHadamard (INR alpha)
  | IPoly degree gamma b => KPoly degree gamma b
  | IGaussian sigma => KGaussian sigma
  | ILaplacian gamma => KLaplacian gamma
  | IChi2 gamma => KChi2 gamma
  | ISigmoid gamma offset => KSigmoid gamma offset
  | ILinear => KLinear
  end.

(** numeric_kernels.py:70-76 on integers: products and denominators in the dtype, true division in
    float64. *)
Definition ihadamard (t : itype) (alpha : nat) (x y : list Z) : xr :=
  let ax := map (fun v => ipow t (iabs t v) alpha) x in
  let ay := map (fun v => ipow t (iabs t v) alpha) y in
  let term a b := (imul t a b, imul t 2 (iadd t a b)) in
  xsum (map (fun p => xdiv (ofZ (fst p)) (ofZ (snd p))) (filter (fun p => 0 <? snd p) (zip term ax ay))).

(** numeric_kernels.py:144 (Poly), 202 (Gaussian; [np.linalg.norm] converts integers to float64),
    256 (Laplacian), 321-331 (Chi2, which converts its inputs), 396 (Sigmoid), 440 (Linear). Both
    vectors have the same dtype. *)
Definition ikernel_value (t : itype) (k : ikernel) (x y : list Z) : res xr :=
  match k with
  | IHadamard alpha => Ok (ihadamard t alpha x y)
  | IPoly degree gamma b => Ok (xpow (xadd (Fin b) (xmul (Fin gamma) (ofZ (idot t x y)))) degree)
  | IGaussian sigma =>
      let nrm := xnorm2 (map ofZ (zip (isub t) x y)) in
      Ok (xexp (xmul (xopp (gaussian_gamma sigma)) (xmul nrm nrm)))
  | ILaplacian gamma =>
      Ok (xexp (xmul (Fin (- gamma)) (ofZ (isum t (map (iabs t) (zip (isub t) x y))))))
  | IChi2 gamma => kernel_value (KChi2 gamma) (map ofZ x) (map ofZ y)
  | ISigmoid gamma offset => Ok (xtanh (xadd (Fin offset) (xmul (Fin gamma) (ofZ (idot t x y)))))
  | ILinear => Ok (ofZ (idot t x y))
  end.

(** Such a kernel in a KernelMatrix over integer samples of dtype [t]. *)
Definition builtin_int (t : itype) (k : ikernel) : kernel Z xr :=
  mkKernel (fun _ x y => if Nat.eqb (length x) (length y) then ikernel_value t k x y else Raise ValueError) true.
