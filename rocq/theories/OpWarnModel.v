(** The warnings of operations.py (other than those of normalize_km, see WarnModel.v) and sampling.py: the
    functions of [OpsModel.v] and [BucketModel.v] that can issue one, with the calls of [warn] recorded.
    Warnings of numpy itself are not recorded, and no filter turns a warning into an exception. Prints
    are not recorded. *)
From Coq Require Import String Reals List Bool Arith ZArith.
Import ListNotations.
From Verif Require Import Prelude MatModel UtilsModel KMModel XReal OpsModel KernelsModel KMXModel SetModel
  BucketModel.

(** operations.py:66, 70, 86, 375; sampling.py:180-181 (kernel_func, param, and which of the values);
    sampling.py:214. *)
Inductive owarning : Type :=
| WNotSquare | WNotSymmetric | WUnknownFailure | WZeroNorm
| WSkipping (kernel_func param : string) (position : nat)
| WAlreadyBucket.

(** [warn] *)
Definition warn_o (w : owarning) : M (list owarning) unit := modify (fun l => l ++ [w]).

Section PSDWarn.
  (** scipy's [eigh]; which of its exceptions are LinAlgErrors. *)
  Variable eigvalsh : mat xr -> res (list xr).
  Variable linalg_error : exn -> bool.

  (** operations.py:28-101 [is_positive_semidefinite]. *)
  Definition is_PSD_w (a : arr xr) (tol : R) : M (list owarning) bool :=
    if negb (is_ndarray a) then raise TypeError
    else if negb (mr (amat a) =? mc (amat a)) then warn_o WNotSquare ;;; ret false
    else if negb (forallb (fun i => forallb (fun j =>
                    xisclose (xget (amat a) i j) (xget (amat a) j i)) (seq 0 (mc (amat a))))
                  (seq 0 (mr (amat a)))) then warn_o WNotSymmetric ;;; ret false
    else match eigvalsh (amat a) with
         | Raise e => if linalg_error e then ret false else warn_o WUnknownFailure ;;; ret false
         | Ok l => ret (negb (existsb (fun e => xltb e (xopp (Fin tol))) l))
         end.
End PSDWarn.

(** operations.py:314-380 [alignment_centered]. *)
Definition alignment_centered_w (a b : arr xr) (z : zero_div) (centered_already : bool)
  : M (list owarning) xr :=
  if negb (same_shape (amat a) (amat b)) then raise ValueError
  else if negb (is_ndarray a) || negb (is_ndarray b) then raise TypeError
  else
    ca <- (if centered_already then ret a else lift (center_km a)) ;;
    cb <- (if centered_already then ret b else lift (center_km b)) ;;
    na <- lift (frobenius_norm ca) ;;
    nb <- lift (frobenius_norm cb) ;;
    if xisclose na (Fin 0) || xisclose nb (Fin 0) then
      match z with
      | ZRaise => raise ValueError
      | ZValue v => warn_o WZeroNorm ;;; ret v
      end
    else p <- lift (frobenius_product ca cb) ;; ret (xdiv p (xmul na nb)).

(** ** sampling.py *)
Section BucketWarn.
  Context {U : Type}.
  Variable N : numops xr.
  Variable C : cmpops xr.
  Notation World := (world xr xr U).
  (** The heap, and the warnings so far, the latest last. *)
  Notation wact := (M (World * list owarning)).

  (** A part of the code that contains no [warn]. *)
  Definition quiet {A} (m : M World A) : wact A :=
    fun s => let (w', q) := m (fst s) in ((w', snd s), q).

  (** [try: m  except: warn(...)], sampling.py:174-181. *)
  Definition attempt_w {A} (v : owarning) (m : M World A) : wact unit :=
    fun s => match m (fst s) with
             | (w', Ok _) => ((w', snd s), Ok tt)
             | (w', Raise _) => ((w', snd s ++ [v]), Ok tt)
             end.

  (** The loop at sampling.py:173-181, from the i-th value on. *)
  Fixpoint add_each_w (b : bucket) (func param : string) (i : nat) (l : list (res (kernel xr xr)))
    : wact unit :=
    match l with
    | [] => ret tt
    | r :: l' => attempt_w (WSkipping func param i) (append_new N C b r) ;;; add_each_w b func param (S i) l'
    end.

  (** sampling.py:143-181 [add_parametrized_kernels]. The warning for values=None is commented out. *)
  Definition add_parametrized_w (b : bucket) (valid_class : bool) (func param : string) (vals : bvalues)
    : wact unit :=
    if negb valid_class then raise KernelMethodsError
    else match vals with
         | BNone => ret tt
         | BNotIterable => raise ValueError
         | BNoLen => raise TypeError
         | BIter [] => raise ValueError
         | BIter l => add_each_w b func param 0 l
         end.

  (** sampling.py:70-140 [KernelBucket.__init__]. *)
  Definition bucket_new_w (normalize_kernels skip_input_checks : option bool) (p : bparams) : wact bucket :=
    match normalize_kernels, skip_input_checks with
    | None, _ => raise TypeError
    | Some _, None => raise TypeError
    | Some nrm, Some _ =>
        l <- quiet (new_obj (OKM (km_new (builtin KLinear) nrm []))) ;;
        k <- quiet (set_new N C (KLIter [ARef l]) None) ;;
        s <- quiet (get_set k) ;;
        quiet (put_set k (mkSet NSNone (s_init s) (s_members s) (s_sample s))) ;;;
        let b := mkBucket k nrm in
        add_parametrized_w b true "PolyKernel" "degree" (bp_poly_degree p) ;;;
        add_parametrized_w b true "GaussianKernel" "sigma" (bp_rbf_sigma p) ;;;
        add_parametrized_w b true "LaplacianKernel" "gamma" (bp_laplace_gamma p) ;;;
        add_parametrized_w b true "SigmoidKernel" "gamma" (bp_sigmoid_gamma p) ;;;
        add_parametrized_w b true "SigmoidKernel" "offset" (bp_sigmoid_offset p) ;;;
        ret b
    end.

  (** sampling.py:184-247 [make_kernel_bucket]. *)
  Definition make_kernel_bucket_w (st : strategy) (normalize_kernels skip_input_checks : option bool)
    : wact bucket :=
    match st with
    | SBucket b => modify (fun s => (fst s, snd s ++ [WAlreadyBucket])) ;;; ret b
    | SOther => raise AttributeError
    | SName s =>
        let s := lower s in
        if String.eqb s "exhaustive" then bucket_new_w normalize_kernels skip_input_checks exhaustive_params
        else if String.eqb s "light" then bucket_new_w normalize_kernels skip_input_checks light_params
        else if String.eqb s "linear_only" then bucket_new_w normalize_kernels skip_input_checks linear_params
        else raise ValueError
    end.
End BucketWarn.
