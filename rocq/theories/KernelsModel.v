(** Model of kernelmethods/numeric_kernels.py and kernelmethods/categorical.py.
    Kernels are modelled with skip_input_checks=False (the default); for True see
    VecModel.v. Elements are treated as real
    numbers whatever their numeric dtype (no integer overflow; numpy refuses negative
    integer powers of integer arrays, which is not modelled). *)
From Coq Require Import String Reals List Bool Arith.
Import ListNotations.
From Verif Require Import Prelude MatModel UtilsModel XReal.
Local Open Scope R_scope.

(** [np.finfo('float').eps], utils.py:130. *)
Definition float_eps : R := / 2 ^ 52.

(** [np.maximum(_float_eps, x)], utils.py:132-133 (NaN propagates). *)
Definition ensure_min_eps (x : xr) : xr :=
  match x with
  | NaN => NaN
  | _ => if xltb (Fin float_eps) x then x else Fin float_eps
  end.

(** [np.power(a, alpha)] for a >= 0 (a result of np.abs) and finite alpha. *)
Definition xpower (a : xr) (alpha : R) : xr :=
  if Req_EM_T alpha 0 then Fin 1 else
  match a with
  | Fin r => if Req_EM_T r 0 then (if Rlt_dec alpha 0 then PInf else Fin 0)
             else Fin (Rpower r alpha)
  | PInf => if Rlt_dec alpha 0 then Fin 0 else PInf
  | _ => NaN
  end.

(** Entrywise binary operation on two vectors of equal length. *)
Definition zip {A B C} (f : A -> B -> C) (x : list A) (y : list B) : list C :=
  map (fun p => f (fst p) (snd p)) (combine x y).

(** [np.dot(x, y)] *)
Definition xdot (x y : list xr) : xr := xsum (zip xmul x y).

(** [np.nansum]: NaN terms are skipped. *)
Definition xnansum (l : list xr) : xr := xsum (filter (fun a => negb (x_isnan a)) l).

(** [np.linalg.norm(d, ord=2)] of a vector. *)
Definition xnorm2 (d : list xr) : xr := xsqrt (xdot d d).

(** The numeric kernels with their parameters; numeric_kernels.py. *)
Inductive nkernel : Type :=
| KHadamard (alpha : R)                        (* lines 11-82 *)
| KPoly (degree : nat) (gamma b : R)           (* lines 85-151; integer degree >= 0 *)
| KGaussian (sigma : xr)                       (* lines 154-208 *)
| KLaplacian (gamma : R)                       (* lines 211-262 *)
| KChi2 (gamma : R)                            (* lines 265-337 *)
| KSigmoid (gamma offset : R)                  (* lines 340-402 *)
| KLinear.                                     (* lines 405-446 *)

(** Constructors: only HadamardKernel can refuse its parameter, numeric_kernels.py:56-59. *)
Definition kernel_init (k : nkernel) : res nkernel :=
  match k with
  | KHadamard alpha => if xisclose (Fin alpha) (Fin 0) then Raise ValueError else Ok k
  | _ => Ok k
  end.

(** numeric_kernels.py:190-191: the effective bandwidth and scale of the Gaussian kernel. *)
Definition gaussian_sigma (sigma : xr) : xr := ensure_min_eps sigma.
Definition gaussian_gamma (sigma : xr) : xr :=
  let s := gaussian_sigma sigma in
  ensure_min_eps (xdiv (Fin 1) (xmul (Fin 2) (xmul s s))).

(** numeric_kernels.py:70-76 *)
Definition hadamard_value (alpha : R) (x y : list xr) : xr :=
  let ax := map (fun v => xpower (xabs v) alpha) x in
  let ay := map (fun v => xpower (xabs v) alpha) y in
  let term a b := (xmul a b, xmul (Fin 2) (xadd a b)) in
  xsum (map (fun t => xdiv (fst t) (snd t))
            (filter (fun t => xltb (Fin 0) (snd t)) (zip term ax ay))).

(** The value of a kernel on two vectors that passed validation:
    numeric_kernels.py:144, 202, 256, 323-331, 396, 440. *)
Definition kernel_value (k : nkernel) (x y : list xr) : res xr :=
  match k with
  | KHadamard alpha => Ok (hadamard_value alpha x y)
  | KPoly degree gamma b => Ok (xpow (xadd (Fin b) (xmul (Fin gamma) (xdot x y))) degree)
  | KGaussian sigma =>
      let nrm := xnorm2 (zip xsub x y) in
      Ok (xexp (xmul (xopp (gaussian_gamma sigma)) (xmul nrm nrm)))
  | KLaplacian gamma =>
      Ok (xexp (xmul (Fin (- gamma)) (xsum (map xabs (zip xsub x y)))))
  | KChi2 gamma =>
      if existsb (fun v => xltb v (Fin 0)) x || existsb (fun v => xltb v (Fin 0)) y
      then Raise Chi2NegativeValues
      else Ok (xexp (xmul (Fin (- gamma))
                 (xnansum (zip (fun a b => xdiv (xmul (xsub a b) (xsub a b)) (xadd a b)) x y))))
  | KSigmoid gamma offset => Ok (xtanh (xadd (Fin offset) (xmul (Fin gamma) (xdot x y))))
  | KLinear => Ok (xdot x y)
  end.

(** Required dtype: np.float64 for Chi2Kernel (line 321), np.number for the others. *)
Definition kernel_dtype (k : nkernel) : ensure :=
  match k with KChi2 _ => EnFloat64 | _ => EnNumber end.

Section Call.
  (** numpy's conversion to float64, see [UtilsModel.ensure_ndarray_size]. *)
  Variable cast : dtype -> list xr -> option (list xr).

  (** [kernel(x, y)]: validate, then evaluate. *)
  Definition kernel_call (k : nkernel) (dx : dtype) (x : ndarray xr) (dy : dtype)
             (y : ndarray xr) : res xr :=
    rbind (check_input_arrays cast dx x dy y (kernel_dtype k))
          (fun p => kernel_value k (nd_data (fst p)) (nd_data (snd p))).
End Call.

(** A numeric kernel as used by KernelMatrix on float64 samples: rows of a sample are 1-D, and
    two rows have the same number of columns, so validation amounts to the size check. The result
    is formattable (BaseKernelFunction objects define __str__, base.py). *)
Definition kernel_rows (k : nkernel) (x y : list xr) : res xr :=
  if Nat.eqb (length x) (length y) then kernel_value k x y else Raise ValueError.

(** ** categorical.py *)
Section Categorical.
  Context {C : Type} (ceqb : C -> C -> bool).

  (** categorical.py:120-131 [_ensure_type_size] on ndarrays: no squeezing. *)
  Definition ensure_type_size (a : ndarray C) : res (ndarray C) :=
    if negb (nd_ndim a =? 1)%nat then Raise ValueError else Ok a.

  (** categorical.py:55-77, 86-117: [MatchCountKernel.__call__]. The sizes are compared before
      the dtypes; an empty pair of vectors gives 0/0 = NaN with return_perc. *)
  Definition match_count (x y : list C) : nat :=
    length (filter (fun p => ceqb (fst p) (snd p)) (combine x y)).
  Definition match_call (return_perc : bool) (dx : dtype) (x : ndarray C) (dy : dtype)
             (y : ndarray C) : res xr :=
    rbind (ensure_type_size x) (fun x' =>
    rbind (ensure_type_size y) (fun y' =>
      if negb (length (nd_data x') =? length (nd_data y'))%nat then Raise ValueError
      else match dx, dy with
           | DStr, DStr =>
               let c := Fin (INR (match_count (nd_data x') (nd_data y'))) in
               Ok (if return_perc then xdiv c (Fin (INR (length (nd_data y')))) else c)
           | _, _ => Raise TypeError
           end)).
End Categorical.
