(** Kernels whose parameters are Python integers or floats, in any combination, on arrays of fixed-width
    integers. This is what KernelBucket uses: config.py:49-58 has [2**exp], an integer for exp >= 0 and
    a float otherwise, as gamma of the Laplacian and sigmoid kernels, whose other parameters are floats. *)
From Coq Require Import Reals List Bool Arith ZArith.
Import ListNotations.
From Verif Require Import Prelude MatModel KMModel XReal KernelsModel IntModel IntParamModel.
Local Open Scope Z_scope.

(** A Python or numpy number: an integer or a float. *)
Inductive pnum : Type := PI (z : Z) | PF (r : R).
Definition pval (p : pnum) : R := match p with PI z => IZR z | PF r => r end.

(** [g * v], [b + s], [s ** n] and [-g], where [v] and an integer [s] are numpy integer scalars. [u] is the
    dtype in which numpy combines such a scalar with a Python integer (see IntParamModel.v); with a float
    it is converted to float64 (exactly; rounding is not modelled). *)
Definition pmul (u : itype) (g : pnum) (v : Z) : pnum :=
  match g with PI g => PI (imul u g v) | PF g => PF (g * IZR v)%R end.
Definition padd (u : itype) (b s : pnum) : pnum :=
  match b, s with
  | PI b, PI s => PI (iadd u b s)
  | _, _ => PF (pval b + pval s)%R
  end.
Definition ppow (u : itype) (s : pnum) (n : nat) : pnum :=
  match s with PI z => PI (ipow u z n) | PF r => PF (r ^ n)%R end.
Definition popp (g : pnum) : pnum := match g with PI z => PI (- z) | PF r => PF (- r)%R end.

(** The kernels; the degree is a non-negative integer (a negative one: C107_negative). [sigma] of the
    Gaussian kernel is only used in [1/(2*sigma**2)], numeric_kernels.py:186, which is a float either way,
    so that it is among the other kernels, which are those of IntModel.v. *)
Inductive mkernel : Type :=
| MPoly (degree : nat) (gamma b : pnum)
| MLaplacian (gamma : pnum)
| MSigmoid (gamma offset : pnum)
| MOther (k : ikernel).

(** The kernel object, as modelled on float arrays. *)
Definition to_nk (k : mkernel) : nkernel :=
  match k with
  | MPoly degree gamma b => KPoly degree (pval gamma) (pval b)
  | MLaplacian gamma => KLaplacian (pval gamma)
  | MSigmoid gamma offset => KSigmoid (pval gamma) (pval offset)
  | MOther k => to_nkernel k
  end.

(** numeric_kernels.py:144, 256, 396. *)
Definition mkernel_value (t u : itype) (k : mkernel) (x y : list Z) : res xr :=
  match k with
  | MPoly degree gamma b =>
      Ok (Fin (pval (ppow u (padd u b (pmul u gamma (idot t x y))) degree)))
  | MLaplacian gamma =>
      Ok (xexp (Fin (pval (pmul u (popp gamma) (isum t (map (iabs t) (zip (isub t) x y)))))))
  | MSigmoid gamma offset =>
      Ok (xtanh (Fin (pval (padd u offset (pmul u gamma (idot t x y))))))
  | MOther k => ikernel_value t k x y
  end.

(** Such a kernel in a KernelMatrix over integer samples of dtype [t]. *)
Definition builtin_mix (t u : itype) (k : mkernel) : kernel Z xr :=
  mkKernel (fun _ x y => if Nat.eqb (length x) (length y) then mkernel_value t u k x y else Raise ValueError) true.

(** [2**exp], config.py:49-51, 56-58. *)
Definition py_power (e : Z) : pnum := if 0 <=? e then PI (2 ^ e) else PF (powerRZ 2 e).
(** [range(start, stop, 2)] with [count] elements. *)
Fixpoint odd_range (start : Z) (count : nat) : list Z :=
  match count with O => [] | S n => start :: odd_range (start + 2) n end.

(** The kernels of the constructor of KernelBucket (sampling.py:143-153) for the ranges of the strategies
    'exhaustive' and 'light' (config.py:48-59), with the defaults of the constructors (numeric_kernels.py:109,
    363: gamma=1.0, b=1.0, offset=1.0). *)
Definition bucket_mix (degrees : list nat) (sigmas gammas sgammas : list Z) (offsets : list R) : list mkernel :=
  MOther ILinear ::
  map (fun d => MPoly d (PF 1) (PF 1)) degrees ++
  map (fun e => MOther (IGaussian (Fin (pval (py_power e))))) sigmas ++
  map (fun e => MLaplacian (py_power e)) gammas ++
  map (fun e => MSigmoid (py_power e) (PF 1)) sgammas ++
  map (fun o => MSigmoid (PF 1) (PF o)) offsets.
Definition exhaustive_mix : list mkernel :=
  bucket_mix [2; 3; 4]%nat (odd_range (-5) 6) (odd_range (-5) 6) (odd_range (-5) 6) [-2; 1; 2]%R.
Definition light_mix : list mkernel :=
  bucket_mix [2; 3]%nat (odd_range (-3) 3) (odd_range (-3) 3) (odd_range (-3) 5) [1]%R.
