(** The operations of a KernelMatrix while a filter of the module [warnings] turns some of the package's
    warnings into exceptions ([warnings.simplefilter('error', category)]): a call of [warn] then raises
    instead of returning. The warnings of numpy itself stay warnings. *)
From Coq Require Import String List Arith Bool.
Import ListNotations.
From Verif Require Import Prelude MatModel UtilsModel IndexModel KMModel WarnModel.

(** Which warnings are turned into exceptions; [wexn] gives the exception (the warning itself: in Python
    the classes of warnings are exceptions). *)
Definition filter : Type := warning -> bool.

Section Strict.
  Context {E V U : Type}.
  Variable N : numops V.
  Variable wexn : warning -> exn.
  Variable f : filter.
  Notation KM := (km E V U).
  Notation act := (M KM).

  (** A call of [warn]. *)
  Definition warn_e (w : warning) : act unit := if f w then raise (wexn w) else ret tt.

  (** base.py:755-758 and 504-507: the text is made first. *)
  Definition warn_nan_inf_e (a : arr V) : act unit :=
    s <- get ;;
    if contains_nan_inf N a
    then if kfmt (k_kernel s) then warn_e WKernelMatrix else raise TypeError
    else ret tt.

  (** base.py:698-760 [_populate_fully]: the warning comes last, after the try blocks. *)
  Definition populate_fully_e (dense_fmt fill_lower_tri : bool) : act (arr V) :=
    populate_upper N dense_fmt ;;;
    populate_lower N fill_lower_tri ;;;
    densify dense_fmt ;;;
    a <- attr_or k_full ;;
    warn_nan_inf_e a ;;;
    ret a.

  (** operations.py:170-205 [normalize_km]. Line 197 is in an except clause: a warning that raises there
      replaces the exception; line 201 is in the else clause, after which the result is returned. *)
  Definition op_normalize_e (method : string) (a : arr V) : res (arr V) :=
    if negb (mr (amat a) =? mc (amat a)) then op_normalize N method a
    else match op_normalize N method a with
         | Ok nk => if contains_nan_inf N nk && f WNormalization then Raise (wexn WNormalization) else Ok nk
         | Raise KMNormError => Raise KMNormError
         | Raise KernelMethodsError => Raise KernelMethodsError
         | Raise e => if f WUnableToNormalize then Raise (wexn WUnableToNormalize) else Raise e
         end.

  (** base.py:462-507 [normalize]. *)
  Definition normalize_e (method : string) : act unit :=
    s <- get ;;
    when (negb (k_populated s)) (populate_fully_e true true ;;; ret tt) ;;;
    s1 <- get ;;
    when (negb (k_is_normed s1))
      (two <- attr_or k_two ;;
       (if negb two
        then
          a <- attr_or k_full ;;
          nk <- lift (op_normalize_e method a) ;;
          modify (set_normed (Some nk))
        else
          x <- attr_or k_sample ;;
          y <- attr_or k_sample_two ;;
          a <- attr_or k_full ;;
          dx <- temp_diagonal 1 x ;;
          dy <- temp_diagonal 2 y ;;
          nk <- lift (op_normalize2 N a dx dy) ;;
          modify (set_normed (Some nk))) ;;;
       modify (set_is_normed true) ;;;
       nk <- attr_or k_normed ;;
       warn_nan_inf_e nk).

  (** base.py:404-420 [full]. *)
  Definition full_e : act (arr V) :=
    s <- get ;;
    match k_sample s with
    | None => raise ValueError
    | Some _ =>
        when (negb (k_populated s)) (populate_fully_e true true ;;; ret tt) ;;;
        if k_keep_normed s
        then
          s1 <- get ;;
          when (negb (k_is_normed s1)) (normalize_e default_method) ;;;
          attr_or k_normed
        else attr_or k_full
    end.

  (** base.py:423-433 [full_sparse]. *)
  Definition full_sparse_e : act (arr V) :=
    s <- get ;;
    if k_keep_normed s
    then
      when (negb (k_is_normed s)) (normalize_e default_method) ;;;
      attr_or k_normed
    else populate_fully_e false false.

  (** base.py:436-459 [center]. *)
  Definition center_e : act unit :=
    two <- attr_or k_two ;;
    if (two : bool) then raise NotImplementedErr
    else
      s <- get ;;
      when (negb (k_populated s))
        (a <- populate_fully_e true true ;; modify (set_full (Some a))) ;;;
      a <- attr_or k_full ;;
      c <- lift (op_center N a) ;;
      modify (set_centered (Some c)) ;;;
      modify (set_is_centered true).

  (** base.py:510-520 [centered]. *)
  Definition centered_e : act (arr V) :=
    two <- attr_or k_two ;;
    if (two : bool) then raise KMAccessError
    else
      s <- get ;;
      when (negb (k_is_centered s)) center_e ;;;
      attr_or k_centered.

  (** base.py:523-533 [frob_norm]. *)
  Definition frob_norm_e : act V :=
    s <- get ;;
    when (negb (k_populated s)) (populate_fully_e true true ;;; ret tt) ;;;
    s1 <- get ;;
    when (negb (is_some (k_frob s1)))
      (a <- attr_or k_full ;; v <- lift (op_frob N a) ;; modify (set_frob (Some v))) ;;;
    attr_or k_frob.

  (** base.py:553-560 [normed_km]. *)
  Definition normed_km_e : act (arr V) :=
    s <- get ;;
    when (negb (k_is_normed s)) (normalize_e default_method) ;;;
    attr_or k_normed.

  (** base.py:597-629 [__getitem__]. *)
  Definition getitem_pair_e (a b : idx1) : act (arr V) :=
    s <- get ;;
    r <- lift (get_indices_in_sample (option_map fst (k_shape s)) a) ;;
    c <- lift (get_indices_in_sample (option_map snd (k_shape s)) b) ;;
    if snd r && snd c
    then populate_fully_e false true
    else compute_for_index_combinations (fst r) (fst c).
  Definition getitem_e (ix : idx) : act (arr V) :=
    match ix with
    | IInvalid => raise KMAccessError
    | IPair a b => getitem_pair_e a b
    | IFlat k =>
        sh <- attr_or k_shape ;;
        p <- lift (unravel_index k (fst sh) (snd sh)) ;;
        getitem_pair_e (IInt (fst p)) (IInt (snd p))
    end.

  (** The public operations. *)
  Definition step_e (o : op E U) : act (out V U) :=
    match o with
    | OpFull => fmap OArr full_e
    | OpFullSparse => fmap OArr full_sparse_e
    | OpCenter => fmap (fun _ => OUnit) center_e
    | OpCentered => fmap OArr centered_e
    | OpNormalize m => fmap (fun _ => OUnit) (normalize_e m)
    | OpNormedKM => fmap OArr normed_km_e
    | OpFrobNorm => fmap OVal frob_norm_e
    | OpGetItem ix => fmap OArr (getitem_e ix)
    | OpAttach _ _ | OpDiagonal | OpSetAttr _ _ | OpGetAttr _ | OpAttributes | OpSize | OpShape
    | OpNumSamples => step N o
    end.
End Strict.

(** A history in which every operation has its own filter; exceptions are caught by the caller, who
    carries on. *)
Fixpoint run_e {E V U} (N : numops V) (wexn : warning -> exn) (ops : list (filter * op E U)) (s : km E V U)
  : km E V U :=
  match ops with
  | [] => s
  | fo :: ops' => run_e N wexn ops' (fst (step_e N wexn (fst fo) (snd fo) s))
  end.
