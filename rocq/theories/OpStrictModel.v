(** operations.py, sampling.py and ranking.py while a filter of the module [warnings] turns some of the
    package's warnings into exceptions ([warnings.simplefilter('error', category)]): a call of [warn] then
    raises instead of returning. The functions are those of [OpWarnModel.v] and [RankModel.v]; the warnings of
    KernelMatrix (see [StrictModel.v]) and of numpy stay warnings. *)
From Coq Require Import String Reals List Bool Arith ZArith.
Import ListNotations.
From Verif Require Import Prelude MatModel UtilsModel KMModel XReal OpsModel KernelsModel KMXModel SetModel
  BucketModel RankModel OpWarnModel.

Section Strict.
  (** Which warnings are turned into exceptions, and into which (the warning itself: in Python the classes of
      warnings are exceptions). *)
  Variable f : owarning -> bool.
  Variable wexn : owarning -> exn.

  (** [warn(...); return a] *)
  Definition warn_then {A} (v : owarning) (a : A) : res A := if f v then Raise (wexn v) else Ok a.

  Section PSD.
    Variable eigvalsh : mat xr -> res (list xr).
    Variable linalg_error : exn -> bool.

    (** operations.py:28-101 [is_positive_semidefinite]. Line 86 is in an except clause: an exception raised
        there is not caught by it. *)
    Definition is_PSD_e (a : arr xr) (tol : R) : res bool :=
      if negb (is_ndarray a) then Raise TypeError
      else if negb (mr (amat a) =? mc (amat a)) then warn_then WNotSquare false
      else if negb (forallb (fun i => forallb (fun j =>
                      xisclose (xget (amat a) i j) (xget (amat a) j i)) (seq 0 (mc (amat a))))
                    (seq 0 (mr (amat a)))) then warn_then WNotSymmetric false
      else match eigvalsh (amat a) with
           | Raise e => if linalg_error e then Ok false else warn_then WUnknownFailure false
           | Ok l => Ok (negb (existsb (fun e => xltb e (xopp (Fin tol))) l))
           end.
  End PSD.

  (** operations.py:314-380 [alignment_centered]. *)
  Definition alignment_centered_e (a b : arr xr) (z : zero_div) (centered_already : bool) : res xr :=
    if negb (same_shape (amat a) (amat b)) then Raise ValueError
    else if negb (is_ndarray a) || negb (is_ndarray b) then Raise TypeError
    else
      rbind (if centered_already then Ok a else center_km a) (fun ca =>
      rbind (if centered_already then Ok b else center_km b) (fun cb =>
      rbind (frobenius_norm ca) (fun na =>
      rbind (frobenius_norm cb) (fun nb =>
        if xisclose na (Fin 0) || xisclose nb (Fin 0) then
          match z with
          | ZRaise => Raise ValueError
          | ZValue v => warn_then WZeroNorm v
          end
        else rbind (frobenius_product ca cb) (fun p => Ok (xdiv p (xmul na nb))))))).

  Section World.
    Context {U : Type}.
    Variable N : numops xr.
    Variable C : cmpops xr.
    Notation World := (world xr xr U).
    Notation act := (M World).

    (** [try: m  except: warn(...)], sampling.py:174-181: an exception raised in the except clause is not
        caught by it. *)
    Definition attempt_e {A} (v : owarning) (m : act A) : act unit :=
      fun w => match m w with
               | (w', Ok _) => (w', Ok tt)
               | (w', Raise _) => (w', warn_then v tt)
               end.

    (** The loop at sampling.py:173-181, from the i-th value on. *)
    Fixpoint add_each_e (b : bucket) (func param : string) (i : nat) (l : list (res (kernel xr xr)))
      : act unit :=
      match l with
      | [] => ret tt
      | r :: l' => attempt_e (WSkipping func param i) (append_new N C b r) ;;; add_each_e b func param (S i) l'
      end.

    (** sampling.py:143-181 [add_parametrized_kernels]. *)
    Definition add_parametrized_e (b : bucket) (valid_class : bool) (func param : string) (vals : bvalues)
      : act unit :=
      if negb valid_class then raise KernelMethodsError
      else match vals with
           | BNone => ret tt
           | BNotIterable => raise ValueError
           | BNoLen => raise TypeError
           | BIter [] => raise ValueError
           | BIter l => add_each_e b func param 0 l
           end.

    (** sampling.py:70-140 [KernelBucket.__init__]. *)
    Definition bucket_new_e (normalize_kernels skip_input_checks : option bool) (p : bparams) : act bucket :=
      match normalize_kernels, skip_input_checks with
      | None, _ => raise TypeError
      | Some _, None => raise TypeError
      | Some nrm, Some _ =>
          l <- new_obj (OKM (km_new (builtin KLinear) nrm [])) ;;
          k <- set_new N C (KLIter [ARef l]) None ;;
          s <- get_set k ;;
          put_set k (mkSet NSNone (s_init s) (s_members s) (s_sample s)) ;;;
          let b := mkBucket k nrm in
          add_parametrized_e b true "PolyKernel" "degree" (bp_poly_degree p) ;;;
          add_parametrized_e b true "GaussianKernel" "sigma" (bp_rbf_sigma p) ;;;
          add_parametrized_e b true "LaplacianKernel" "gamma" (bp_laplace_gamma p) ;;;
          add_parametrized_e b true "SigmoidKernel" "gamma" (bp_sigmoid_gamma p) ;;;
          add_parametrized_e b true "SigmoidKernel" "offset" (bp_sigmoid_offset p) ;;;
          ret b
      end.

    (** sampling.py:184-247 [make_kernel_bucket]. *)
    Definition make_kernel_bucket_e (st : strategy) (normalize_kernels skip_input_checks : option bool)
      : act bucket :=
      match st with
      | SBucket b => lift (warn_then WAlreadyBucket b)
      | SOther => raise AttributeError
      | SName s =>
          let s := lower s in
          if String.eqb s "exhaustive" then bucket_new_e normalize_kernels skip_input_checks exhaustive_params
          else if String.eqb s "light" then bucket_new_e normalize_kernels skip_input_checks light_params
          else if String.eqb s "linear_only" then bucket_new_e normalize_kernels skip_input_checks linear_params
          else raise ValueError
      end.

    (** [correlation_km] on other arrays, see [RankModel.v]. *)
    Variable corr_other : arr xr -> arr xr -> res xr.

    (** The dictionary at sampling.py:315-316. *)
    Definition metric_func_e (metric : string) : res (arr xr -> arr xr -> res xr) :=
      if String.eqb metric "corr" then Ok (correlation_km corr_other)
      else if String.eqb metric "align" then Ok (fun a b => alignment_centered_e a b (ZValue (Fin 0)) false)
      else Raise KeyError.

    (** sampling.py:292-332 [pairwise_similarity]. *)
    Definition pairwise_similarity_e (k : nat) (metric : string) : act (mat xr) :=
      s <- get_set k ;;
      let n := length (s_members s) in
      estimator <- lift (metric_func_e metric) ;;
      P <- fill_pairs estimator k
             (flat_map (fun i => map (fun j => (i, j)) (seq i (n - i))) (seq 0 n))
             (tabulate n n (fun _ _ => NaN)) ;;
      ret (tabulate n n (fun i j => if j <=? i then xget P j i else xget P i j)).

    Context {T : Type}.
    (** As in [RankModel.v]. *)
    Variable numbers : T -> res (list xr).
    Variable best_score : svm * list R -> Z -> arr xr -> T -> res xr.
    Variable numeric : list xr -> bool.

    (** ranking.py:134-150 [alignment_ranking]. *)
    Definition alignment_ranking_e (k : nat) (targets : T) (p : rparams) : act (list xr) :=
      ys <- lift (numbers targets) ;;
      ms <- set_iter k ;;
      map_each ms (fun l =>
        K <- obj_full xN l ;;
        if is_some (rp_folds p) || is_some (rp_estimator p) || rp_other p then raise TypeError
        else lift (alignment_centered_e K (mkArr Dense (outer ys)) (default (ZValue (Fin 0)) (rp_zero p))
                                      (default false (rp_centered p)))).

    (** ranking.py:58-92 [rank_kernels]. [CV_ranking] (ranking.py:95-131) contains no [warn]. *)
    Definition rank_kernels_e (k : nat) (targets : T) (method : string) (p : rparams) : act (list xr) :=
      if negb (valid_method method) then raise NotImplementedErr
      else if String.eqb (lower method) "align/corr" then alignment_ranking_e k targets p
      else CV_ranking best_score k targets p.

    (** ranking.py:18-55 [find_optimal_kernel]. *)
    Definition find_optimal_kernel_e (b : option bucket) (sample : ndarray xr) (targets : T)
               (method : string) (p : rparams) : act nat :=
      match b with
      | None => raise TypeError
      | Some b =>
          if negb (valid_method method) then raise NotImplementedErr
          else
            set_attach numeric (b_set b) sample None ;;;
            scores <- rank_kernels_e (b_set b) targets (lower method) p ;;
            i <- lift (argmax scores) ;;
            set_getitem (b_set b) (Some (Z.of_nat i))
      end.
  End World.
End Strict.
