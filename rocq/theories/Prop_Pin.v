(** Further statements for C34, C35 and C56: constants, dtypes and defaults.
    Generated by tools/split_props.py from PinProps.v: statements only, each closed by [exact]. *)
From Coq Require Import String Reals List Bool Arith Lra Lia.
Import ListNotations.
From Verif Require Import Prelude MatModel UtilsModel XReal KernelsModel SpecKernels KernelFacts KernelProps KMModel
  KMXModel KMXProps AlgoModel.
Local Open Scope R_scope.
From Verif Require Import PinProps.
Local Open Scope R_scope.

(** C34: sigma = 0 acts as the machine epsilon 2^-52: the kernel is exp(-2^103 ||x-y||^2). *)
Theorem C34_zero : forall cast d x y,
  kernel_call cast (KGaussian (Fin 0)) DFloat (fvec d x) DFloat (fvec d y)
  = Ok (Fin (exp (- 10141204801825835211973625643008 * dist2 d x y))).
Proof. exact (@pf_C34_zero). Qed.
Print Assumptions C34_zero.

(** C34: a sigma of 2^26 or more acts as the scale 2^-52: the kernel is exp(-2^-52 ||x-y||^2). *)
Theorem C34_large : forall cast sigma d x y, 67108864 <= sigma ->
  kernel_call cast (KGaussian (Fin sigma)) DFloat (fvec d x) DFloat (fvec d y)
  = Ok (Fin (exp (- dist2 d x y / 4503599627370496))).
Proof. exact (@pf_C34_large). Qed.
Print Assumptions C34_large.

(** C34: a NaN bandwidth gives NaN, for all vectors of equal length. *)
Theorem C34_nan : forall cast (x y : list xr), length x = length y ->
  kernel_call cast (KGaussian NaN) DFloat (vec x) DFloat (vec y) = Ok NaN.
Proof. exact (@pf_C34_nan). Qed.
Print Assumptions C34_nan.

(** C35: integer, float and complex arrays are accepted as numbers without conversion; arrays of
    booleans, strings or objects are converted to float64, or refused if that fails. *)
Theorem C35_dtypes : forall {E} cast (l : list E),
  (forall d, In d [DInt; DFloat; DComplex] -> ensure_ndarray_1D cast d (vec l) EnNumber = Ok (vec l)) /\
  (forall d, In d [DBool; DStr; DObject] -> ensure_ndarray_1D cast d (vec l) EnNumber =
     match cast d l with Some l' => Ok (mkNd [length l] l') | None => Raise ValueError end) /\
  ensure_ndarray_1D cast DFloat (vec l) EnFloat64 = Ok (vec l) /\
  (forall d, In d [DInt; DComplex; DBool; DStr; DObject] -> ensure_ndarray_1D cast d (vec l) EnFloat64 =
     match cast d l with Some l' => Ok (mkNd [length l] l') | None => Raise ValueError end).
Proof. exact (@pf_C35_dtypes). Qed.
Print Assumptions C35_dtypes.

(** C35: on integer vectors every kernel but Chi2Kernel computes with the integers themselves, whereas
    Chi2Kernel converts them to float64 first. *)
Theorem C35_integers : forall cast k (x y x' y' : list xr),
  cast DInt x = Some x' -> cast DInt y = Some y' ->
  kernel_call cast k DInt (vec x) DInt (vec y) =
    match k with
    | KChi2 _ => kernel_call cast k DFloat (vec x') DFloat (vec y')
    | _ => kernel_call cast k DFloat (vec x) DFloat (vec y)
    end.
Proof. exact (@pf_C35_integers). Qed.
Print Assumptions C35_integers.

(** C56: a machine made without a kernel uses GaussianKernel with sigma = 2, that is
    exp(-||x-y||^2 / 8). *)
Theorem C56_default_kernel : forall Y F reg learner nrm, exists K,
  m_k_func (machine_new (Y:=Y) (F:=F) reg PNone learner nrm) = PKernel K /\
  forall t d x y, kf K t (nd_data (fvec d x)) (nd_data (fvec d y)) = Ok (Fin (exp (- dist2 d x y / 8))).
Proof. exact (@pf_C56_default_kernel). Qed.
Print Assumptions C56_default_kernel.

(** C35: check_operation_kernel_matrix accepts exactly 'sum', 'product' and 'average', in any case, and returns the
    name in lower case; anything else is refused with ValueError. *)
Theorem C35_operation : forall s r,
  check_operation_kernel_matrix s = r <->
  r = Ok (lower s) /\ (lower s = "sum" \/ lower s = "product" \/ lower s = "average")%string \/
  r = Raise ValueError /\ (lower s <> "sum" /\ lower s <> "product" /\ lower s <> "average")%string.
Proof. exact (@pf_C35_operation). Qed.
Print Assumptions C35_operation.

(** A case: mixed case is accepted. *)
Theorem C35_operation_example :
  check_operation_kernel_matrix "Average" = Ok "average"%string /\ check_operation_kernel_matrix "max" = Raise ValueError.
Proof. exact (@pf_C35_operation_example). Qed.
Print Assumptions C35_operation_example.
