(** The numeric kernels of kernelmethods/numeric_kernels.py and normalize_km of operations.py in IEEE 754
    double precision, with rounding (KernelsModel.v and OpsModel.v treat the same code with exact real
    numbers). The arithmetic is the one of the Coq standard library's SpecFloat, round to nearest even; it
    has a single NaN. Arguments are the vectors after validation. *)
From Coq Require Import ZArith Bool List Floats.SpecFloat.
Import ListNotations.
From Verif Require Import Prelude KernelsModel.

(** np.float64 *)
Definition f64 : Type := spec_float.
Definition fadd : f64 -> f64 -> f64 := SFadd 53 1024.
Definition fsub : f64 -> f64 -> f64 := SFsub 53 1024.
Definition fmul : f64 -> f64 -> f64 := SFmul 53 1024.
Definition fdiv : f64 -> f64 -> f64 := SFdiv 53 1024.
Definition fsqrt : f64 -> f64 := SFsqrt 53 1024.
Definition fopp : f64 -> f64 := SFopp.
Definition fabs : f64 -> f64 := SFabs.
Definition fltb : f64 -> f64 -> bool := SFltb.

(** The integer [z] as a float (for |z| up to 2^53). *)
Definition fint (z : Z) : f64 := binary_normalize 53 1024 z 0 false.
Definition fzero : f64 := fint 0.
Definition fone : f64 := fint 1.
Definition ftwo : f64 := fint 2.

Definition f_isnan (x : f64) : bool := match x with S754_nan => true | _ => false end.

(** What numpy leaves to the platform: the elementary functions, and the order in which a sum is
    accumulated ([e_sum]: np.sum; [e_acc]: the products inside np.dot and matrix multiplication, not
    fused). *)
Record platform : Type := mkPlatform {
  e_exp : f64 -> f64;
  e_tanh : f64 -> f64;
  e_pow : f64 -> f64 -> f64;
  e_sum : list f64 -> f64;
  e_acc : list f64 -> f64
}.

(** The kernels with their parameters as stored in the object ([gamma] of the Gaussian kernel is
    self.gamma, numeric_kernels.py:191). *)
Inductive fkernel : Type :=
| FHadamard (alpha : f64)                      (* lines 11-82 *)
| FPoly (degree gamma b : f64)                 (* lines 85-151 *)
| FGaussian (gamma : f64)                      (* lines 154-208 *)
| FLaplacian (gamma : f64)                     (* lines 211-262 *)
| FChi2 (gamma : f64)                          (* lines 265-337 *)
| FSigmoid (gamma offset : f64)                (* lines 340-402 *)
| FLinear.                                     (* lines 405-446 *)

Section Float.
  Variable e : platform.

  (** np.dot(x, y) of two vectors. *)
  Definition fdot (x y : list f64) : f64 := e_acc e (zip fmul x y).

  (** np.linalg.norm(d, ord=2) *)
  Definition fnorm2 (d : list f64) : f64 := fsqrt (fdot d d).

  (** np.nansum: NaN terms count as zero. *)
  Definition fnansum (l : list f64) : f64 := e_sum e (map (fun v => if f_isnan v then fzero else v) l).

  (** numeric_kernels.py:70-76. Both vectors of powers and the denominators are computed entry by entry,
      and entries with a denominator that is not positive are dropped. *)
  Definition fhadamard (alpha : f64) (x y : list f64) : f64 :=
    let ax := map (fun v => e_pow e (fabs v) alpha) x in
    let ay := map (fun v => e_pow e (fabs v) alpha) y in
    let term a b := (fmul a b, fmul ftwo (fadd a b)) in
    e_sum e (map (fun t => fdiv (fst t) (snd t))
                 (filter (fun t => fltb fzero (snd t)) (zip term ax ay))).

  (** numeric_kernels.py:144, 202, 256, 323-331, 396, 440. *)
  Definition fkernel_value (k : fkernel) (x y : list f64) : res f64 :=
    match k with
    | FHadamard alpha => Ok (fhadamard alpha x y)
    | FPoly degree gamma b => Ok (e_pow e (fadd b (fmul gamma (fdot x y))) degree)
    | FGaussian gamma =>
        Ok (e_exp e (fmul (fopp gamma) (e_pow e (fnorm2 (zip fsub x y)) ftwo)))
    | FLaplacian gamma => Ok (e_exp e (fmul (fopp gamma) (e_sum e (map fabs (zip fsub x y)))))
    | FChi2 gamma =>
        if existsb (fun v => fltb v fzero) x || existsb (fun v => fltb v fzero) y
        then Raise Chi2NegativeValues
        else Ok (e_exp e (fmul (fopp gamma)
                   (fnansum (zip (fun a b => fdiv (e_pow e (fsub a b) ftwo) (fadd a b)) x y))))
    | FSigmoid gamma offset => Ok (e_tanh e (fadd offset (fmul gamma (fdot x y))))
    | FLinear => Ok (fdot x y)
    end.

  (** Entry (i, j) of a product of two n x n matrices. *)
  Definition fmatmul (n : nat) (A B : nat -> nat -> f64) (i j : nat) : f64 :=
    e_acc e (map (fun k => fmul (A i k) (B k j)) (seq 0 n)).

  (** np.diagflat(1 / np.sqrt(diag)) *)
  Definition fdiagflat (d : nat -> f64) (i j : nat) : f64 :=
    if Nat.eqb i j then fdiv fone (fsqrt (d i)) else fzero.

  (** operations.py:150-176: the computation of normalize_km (its checks are in OpsModel.v). *)
  Definition fnormalize (n : nat) (K : nat -> nat -> f64) : nat -> nat -> f64 :=
    let D := fdiagflat (fun i => K i i) in
    fmatmul n (fmatmul n D K) D.
End Float.
