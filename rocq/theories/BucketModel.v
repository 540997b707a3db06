(** Model of kernelmethods/sampling.py: KernelBucket (70-181) and make_kernel_bucket (184-247), with
    the values of config.py:46-59. A KernelBucket is a KernelSet (SetModel.v) with two flags; the
    flag skip_input_checks does not matter to kernels evaluated on the rows of float64 samples and
    is not kept. *)
From Coq Require Import String Reals List Bool Arith ZArith.
Import ListNotations.
From Verif Require Import Prelude MatModel UtilsModel KMModel XReal KernelsModel KMXModel SetModel.

(** [try: m  except: warn(...)] (a bare except clause, sampling.py:174-181). *)
Definition attempt {St A} (m : M St A) : M St unit := fun s => (fst (m s), Ok tt).

(** The argument [values] of add_parametrized_kernels. An iterable is given by the outcomes of
    [kernel_func( **{param: val, 'skip_input_checks': ...} )] for its elements. *)
Inductive bvalues : Type :=
| BNone
| BNotIterable                                (* or a str *)
| BNoLen                                      (* an iterable without len(), e.g. a generator *)
| BIter (outcomes : list (res (kernel xr xr))).

(** The kernels of the values given to the constructor, in the order of sampling.py:136-140. *)
Record bparams : Type := mkBP {
  bp_poly_degree : bvalues;
  bp_rbf_sigma : bvalues;
  bp_laplace_gamma : bvalues;
  bp_sigmoid_gamma : bvalues;
  bp_sigmoid_offset : bvalues
}.

(** A KernelBucket object: its KernelSet and the flag [_norm_kernels]. *)
Record bucket : Type := mkBucket { b_set : nat; b_norm : bool }.

Section Bucket.
  Context {U : Type}.
  Variable N : numops xr.
  Variable C : cmpops xr.
  Notation World := (world xr xr U).
  Notation act := (M World).

  (** [self.append(KernelMatrix(K, normalized=...))], sampling.py:177-178. *)
  Definition append_new (b : bucket) (r : res (kernel xr xr)) : act unit :=
    K <- lift r ;;
    l <- new_obj (OKM (km_new K (b_norm b) [])) ;;
    append N C (b_set b) (ARef l).

  (** sampling.py:143-181 [add_parametrized_kernels]; [valid_class]: kernel_func is a class derived
      from BaseKernelFunction. [len] of a generator raises TypeError (utils.py:190). *)
  Definition add_parametrized (b : bucket) (valid_class : bool) (vals : bvalues) : act unit :=
    if negb valid_class then raise KernelMethodsError
    else match vals with
         | BNone => ret tt
         | BNotIterable => raise ValueError
         | BNoLen => raise TypeError
         | BIter [] => raise ValueError
         | BIter l => for_each l (fun r => attempt (append_new b r))
         end.

  (** sampling.py:70-140 [__init__]; [None] for a flag that is not a bool. *)
  Definition bucket_new (normalize_kernels skip_input_checks : option bool) (p : bparams)
    : act bucket :=
    match normalize_kernels, skip_input_checks with
    | None, _ => raise TypeError
    | Some _, None => raise TypeError
    | Some nrm, Some _ =>
        l <- new_obj (OKM (km_new (builtin KLinear) nrm [])) ;;
        k <- set_new N C (KLIter [ARef l]) None ;;
        s <- get_set k ;;
        put_set k (mkSet NSNone (s_init s) (s_members s) (s_sample s)) ;;;
        let b := mkBucket k nrm in
        add_parametrized b true (bp_poly_degree p) ;;;
        add_parametrized b true (bp_rbf_sigma p) ;;;
        add_parametrized b true (bp_laplace_gamma p) ;;;
        add_parametrized b true (bp_sigmoid_gamma p) ;;;
        add_parametrized b true (bp_sigmoid_offset p) ;;;
        ret b
    end.

  (** ** make_kernel_bucket *)

  (** Kernels with one parameter given and the defaults for the others (numeric_kernels.py:109,
      170, 227, 363). *)
  Definition vals (l : list nkernel) : bvalues :=
    BIter (map (fun k => res_map builtin (kernel_init k)) l).
  Definition poly_degrees (l : list nat) : bvalues := vals (map (fun d => KPoly d 1 1) l).
  Definition rbf_sigmas (l : list R) : bvalues := vals (map (fun s => KGaussian (Fin s)) l).
  Definition laplace_gammas (l : list R) : bvalues := vals (map (fun g => KLaplacian g) l).
  Definition sigmoid_gammas (l : list R) : bvalues := vals (map (fun g => KSigmoid g 1) l).
  Definition sigmoid_offsets (l : list R) : bvalues := vals (map (fun o => KSigmoid 1 o) l).

  (** [2**exp for exp in range(a, b, 2)], config.py:49-51, 56-58 ([count] elements from [2^a]). *)
  Fixpoint powers (start : R) (count : nat) : list R :=
    match count with O => [] | S n => start :: powers (4 * start) n end.

  (** config.py:48-52 *)
  Definition exhaustive_params : bparams :=
    mkBP (poly_degrees [2; 3; 4]) (rbf_sigmas (powers (/ 32) 6)) (laplace_gammas (powers (/ 32) 6))
         (sigmoid_gammas (powers (/ 32) 6)) (sigmoid_offsets [-2; 1; 2]%R).
  (** config.py:55-59 *)
  Definition light_params : bparams :=
    mkBP (poly_degrees [2; 3]) (rbf_sigmas (powers (/ 8) 3)) (laplace_gammas (powers (/ 8) 3))
         (sigmoid_gammas (powers (/ 8) 5)) (sigmoid_offsets [1%R]).
  Definition linear_params : bparams := mkBP BNone BNone BNone BNone BNone.

  (** The argument [strategy]: a string; a KernelBucket or KernelSet (returned as it is); anything
      else has no method lower. *)
  Inductive strategy : Type := SName (s : string) | SBucket (b : bucket) | SOther.

  (** sampling.py:184-247 *)
  Definition make_kernel_bucket (st : strategy) (normalize_kernels skip_input_checks : option bool)
    : act bucket :=
    match st with
    | SBucket b => ret b
    | SOther => raise AttributeError
    | SName s =>
        let s := lower s in
        if String.eqb s "exhaustive" then bucket_new normalize_kernels skip_input_checks exhaustive_params
        else if String.eqb s "light" then bucket_new normalize_kernels skip_input_checks light_params
        else if String.eqb s "linear_only" then bucket_new normalize_kernels skip_input_checks linear_params
        else raise ValueError
    end.
End Bucket.
