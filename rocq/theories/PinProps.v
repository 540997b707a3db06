(** Further statements for C34, C35 and C56: constants, dtypes and defaults. *)
From Coq Require Import String Reals List Bool Arith Lra Lia.
Import ListNotations.
From Verif Require Import Prelude MatModel UtilsModel XReal KernelsModel SpecKernels KernelFacts KernelProps KMModel
  KMXModel KMXProps AlgoModel.
Local Open Scope R_scope.

(** C34: sigma = 0 acts as the machine epsilon 2^-52: the kernel is exp(-2^103 ||x-y||^2). *)
Lemma pf_C34_zero : forall cast d x y,
  kernel_call cast (KGaussian (Fin 0)) DFloat (fvec d x) DFloat (fvec d y)
  = Ok (Fin (exp (- 10141204801825835211973625643008 * dist2 d x y))).
Proof.
  intros. rewrite (proj1 (pf_C34_clamped cast 0 d x y)).
  - do 3 f_equal. unfold float_eps. field.
  - unfold float_eps. lra.
Qed.

(** C34: a sigma of 2^26 or more acts as the scale 2^-52: the kernel is exp(-2^-52 ||x-y||^2). *)
Lemma pf_C34_large : forall cast sigma d x y, 67108864 <= sigma ->
  kernel_call cast (KGaussian (Fin sigma)) DFloat (fvec d x) DFloat (fvec d y)
  = Ok (Fin (exp (- dist2 d x y / 4503599627370496))).
Proof.
  intros cast sigma d x y H. rewrite (proj2 (pf_C34_clamped cast sigma d x y)).
  - do 3 f_equal. unfold float_eps. field.
  - assert (Hq : / 67108864 <= sqrt (2 * float_eps)).
    { replace (/ 67108864) with (sqrt (/ 4503599627370496)).
      - apply sqrt_le_1_alt. unfold float_eps. lra.
      - replace (/ 4503599627370496) with (/ 67108864 * / 67108864) by lra. apply sqrt_square. lra. }
    assert (Hp : 0 < sqrt (2 * float_eps)) by lra.
    apply (Rmult_le_reg_r (sqrt (2 * float_eps))); [exact Hp |].
    unfold Rdiv. rewrite Rmult_1_l, Rinv_l by lra.
    assert (67108864 * / 67108864 <= sigma * sqrt (2 * float_eps)) by (apply Rmult_le_compat; lra). lra.
Qed.

(** C34: a NaN bandwidth gives NaN, for all vectors of equal length. *)
Lemma pf_C34_nan : forall cast (x y : list xr), length x = length y ->
  kernel_call cast (KGaussian NaN) DFloat (vec x) DFloat (vec y) = Ok NaN.
Proof.
  intros cast x y H. rewrite <- pf_C63_rows_are_calls. unfold kernel_rows. rewrite H, Nat.eqb_refl. reflexivity.
Qed.

(** C35: integer, float and complex arrays are accepted as numbers without conversion; arrays of
    booleans, strings or objects are converted to float64, or refused if that fails. *)
Lemma pf_C35_dtypes : forall {E} cast (l : list E),
  (forall d, In d [DInt; DFloat; DComplex] -> ensure_ndarray_1D cast d (vec l) EnNumber = Ok (vec l)) /\
  (forall d, In d [DBool; DStr; DObject] -> ensure_ndarray_1D cast d (vec l) EnNumber =
     match cast d l with Some l' => Ok (mkNd [length l] l') | None => Raise ValueError end) /\
  ensure_ndarray_1D cast DFloat (vec l) EnFloat64 = Ok (vec l) /\
  (forall d, In d [DInt; DComplex; DBool; DStr; DObject] -> ensure_ndarray_1D cast d (vec l) EnFloat64 =
     match cast d l with Some l' => Ok (mkNd [length l] l') | None => Raise ValueError end).
Proof.
  intros E cast l. split; [| split; [| split]]; intros; cbn in *;
    repeat match goal with H : _ \/ _ |- _ => destruct H as [<- | H] | H : False |- _ => destruct H end; reflexivity.
Qed.

(** C35: on integer vectors every kernel but Chi2Kernel computes with the integers themselves, whereas
    Chi2Kernel converts them to float64 first. *)
Lemma pf_C35_integers : forall cast k (x y x' y' : list xr),
  cast DInt x = Some x' -> cast DInt y = Some y' ->
  kernel_call cast k DInt (vec x) DInt (vec y) =
    match k with
    | KChi2 _ => kernel_call cast k DFloat (vec x') DFloat (vec y')
    | _ => kernel_call cast k DFloat (vec x) DFloat (vec y)
    end.
Proof.
  intros cast k x y x' y' Hx Hy.
  destruct k; try reflexivity.
  unfold kernel_call, check_input_arrays, ensure_ndarray_1D, ensure_ndarray_size. cbn.
  rewrite Hx, Hy. cbn. destruct (length x' =? length y')%nat; reflexivity.
Qed.

(** C56: a machine made without a kernel uses GaussianKernel with sigma = 2, that is
    exp(-||x-y||^2 / 8). *)
Lemma pf_C56_default_kernel : forall Y F reg learner nrm, exists K,
  m_k_func (machine_new (Y:=Y) (F:=F) reg PNone learner nrm) = PKernel K /\
  forall t d x y, kf K t (nd_data (fvec d x)) (nd_data (fvec d y)) = Ok (Fin (exp (- dist2 d x y / 8))).
Proof.
  intros. exists (builtin (KGaussian (Fin 2))). split; [reflexivity |]. intros t d x y.
  cbn [kf builtin].
  rewrite (pf_C63_rows_are_calls (fun _ _ => None)).
  assert (Hv : forall z, vec (nd_data (fvec d z)) = fvec d z).
  { intros z. unfold vec, fvec. cbn [nd_data]. rewrite map_length, seq_length. reflexivity. }
  rewrite !Hv. rewrite pf_C34_bandwidth.
  - do 3 f_equal; lra.
  - unfold float_eps. lra.
  - assert (Hs : sqrt (2 * float_eps) <= / 2).
    { replace (/ 2) with (sqrt (/ 4)).
      - apply sqrt_le_1_alt. unfold float_eps. lra.
      - replace (/ 4) with (/ 2 * / 2) by lra. apply sqrt_square. lra. }
    assert (Hp : 0 < sqrt (2 * float_eps)) by (apply sqrt_lt_R0; unfold float_eps; lra).
    apply (Rmult_le_reg_r (sqrt (2 * float_eps))); [exact Hp |].
    unfold Rdiv. rewrite Rmult_1_l, Rinv_l by lra. lra.
Qed.

(** C35: check_operation_kernel_matrix accepts exactly 'sum', 'product' and 'average', in any case, and returns the
    name in lower case; anything else is refused with ValueError. *)
Lemma pf_C35_operation : forall s r,
  check_operation_kernel_matrix s = r <->
  r = Ok (lower s) /\ (lower s = "sum" \/ lower s = "product" \/ lower s = "average")%string \/
  r = Raise ValueError /\ (lower s <> "sum" /\ lower s <> "product" /\ lower s <> "average")%string.
Proof.
  intros s r. unfold check_operation_kernel_matrix. cbv zeta. cbn [existsb].
  destruct (String.eqb_spec (lower s) "sum") as [E1|E1];
  [|destruct (String.eqb_spec (lower s) "product") as [E2|E2];
    [|destruct (String.eqb_spec (lower s) "average") as [E3|E3]]];
  cbn [orb]; (split; [intros <-; tauto|intros [[-> H]|[-> H]]; tauto || (exfalso; tauto)]).
Qed.

(** A case: mixed case is accepted. *)
Lemma pf_C35_operation_example :
  check_operation_kernel_matrix "Average" = Ok "average"%string /\ check_operation_kernel_matrix "max" = Raise ValueError.
Proof. split; reflexivity. Qed.
