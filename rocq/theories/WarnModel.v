(** The warnings of a KernelMatrix: the operations of [KMModel.v] that can issue one, with the calls of
    [warn] recorded. Warnings of numpy itself are not recorded, and no filter turns a warning into an
    exception. *)
From Coq Require Import String List Arith Bool.
Import ListNotations.
From Verif Require Import Prelude MatModel UtilsModel IndexModel KMModel.

(** base.py:505-507 and 756-758 (KernelMethodsWarning, 'Kernel matrix computation resulted in Inf or
    NaN values!'); operations.py:201-202 ('normalization of kernel matrix resulted in Inf / NaN');
    operations.py:197 ('Unable to normalize kernel matrix using method'). *)
Inductive warning : Type := WKernelMatrix | WNormalization | WUnableToNormalize.

Section Warnings.
  Context {E V U : Type}.
  Variable N : numops V.
  Notation KM := (km E V U).
  (** The object, and the warnings so far, the latest last. *)
  Notation wact := (M (KM * list warning)).

  (** A part of the code that contains no [warn]. *)
  Definition silent {A} (m : M KM A) : wact A :=
    fun sw => let (s', q) := m (fst sw) in ((s', snd sw), q).

  Definition tell (l : list warning) : wact unit := modify (fun sw => (fst sw, snd sw ++ l)).

  (** base.py:755-758 and 504-507: the text of the warning contains format(kernel), whose TypeError
      comes before [warn] is called. *)
  Definition warn_nan_inf_w (a : arr V) : wact unit :=
    sw <- get ;;
    if contains_nan_inf N a
    then if kfmt (k_kernel (fst sw)) then tell [WKernelMatrix] else raise TypeError
    else ret tt.

  (** base.py:698-760 [_populate_fully]. *)
  Definition populate_fully_w (dense_fmt fill_lower_tri : bool) : wact (arr V) :=
    silent (populate_upper N dense_fmt) ;;;
    silent (populate_lower N fill_lower_tri) ;;;
    silent (densify dense_fmt) ;;;
    a <- silent (attr_or k_full) ;;
    warn_nan_inf_w a ;;;
    ret a.

  (** operations.py:170-205 [normalize_km]: the warnings it issues. A matrix that is not square is
      rejected before the try block. *)
  Definition normalize_km_warns (method : string) (a : arr V) : list warning :=
    if negb (mr (amat a) =? mc (amat a)) then []
    else match op_normalize N method a with
         | Ok nk => if contains_nan_inf N nk then [WNormalization] else []
         | Raise KMNormError | Raise KernelMethodsError => []
         | Raise _ => [WUnableToNormalize]
         end.

  (** base.py:462-507 [normalize]. [normalize_km_2sample] (operations.py:209-260) and the temporary
      objects issue no warnings. *)
  Definition normalize_w (method : string) : wact unit :=
    s <- silent get ;;
    when (negb (k_populated s)) (populate_fully_w true true ;;; ret tt) ;;;
    s1 <- silent get ;;
    when (negb (k_is_normed s1))
      (two <- silent (attr_or k_two) ;;
       (if negb two
        then
          a <- silent (attr_or k_full) ;;
          tell (normalize_km_warns method a) ;;;
          nk <- lift (op_normalize N method a) ;;
          silent (modify (set_normed (Some nk)))
        else
          x <- silent (attr_or k_sample) ;;
          y <- silent (attr_or k_sample_two) ;;
          a <- silent (attr_or k_full) ;;
          dx <- silent (temp_diagonal 1 x) ;;
          dy <- silent (temp_diagonal 2 y) ;;
          nk <- lift (op_normalize2 N a dx dy) ;;
          silent (modify (set_normed (Some nk)))) ;;;
       silent (modify (set_is_normed true)) ;;;
       nk <- silent (attr_or k_normed) ;;
       warn_nan_inf_w nk).

  (** base.py:404-420 [full]. *)
  Definition full_w : wact (arr V) :=
    s <- silent get ;;
    match k_sample s with
    | None => raise ValueError
    | Some _ =>
        when (negb (k_populated s)) (populate_fully_w true true ;;; ret tt) ;;;
        if k_keep_normed s
        then
          s1 <- silent get ;;
          when (negb (k_is_normed s1)) (normalize_w default_method) ;;;
          silent (attr_or k_normed)
        else silent (attr_or k_full)
    end.

  (** base.py:423-433 [full_sparse]. *)
  Definition full_sparse_w : wact (arr V) :=
    s <- silent get ;;
    if k_keep_normed s
    then
      when (negb (k_is_normed s)) (normalize_w default_method) ;;;
      silent (attr_or k_normed)
    else populate_fully_w false false.

  (** base.py:436-459 [center]. *)
  Definition center_w : wact unit :=
    two <- silent (attr_or k_two) ;;
    if (two : bool) then raise NotImplementedErr
    else
      s <- silent get ;;
      when (negb (k_populated s))
        (a <- populate_fully_w true true ;; silent (modify (set_full (Some a)))) ;;;
      a <- silent (attr_or k_full) ;;
      c <- lift (op_center N a) ;;
      silent (modify (set_centered (Some c))) ;;;
      silent (modify (set_is_centered true)).

  (** base.py:510-520 [centered]. *)
  Definition centered_w : wact (arr V) :=
    two <- silent (attr_or k_two) ;;
    if (two : bool) then raise KMAccessError
    else
      s <- silent get ;;
      when (negb (k_is_centered s)) center_w ;;;
      silent (attr_or k_centered).

  (** base.py:523-533 [frob_norm]. *)
  Definition frob_norm_w : wact V :=
    s <- silent get ;;
    when (negb (k_populated s)) (populate_fully_w true true ;;; ret tt) ;;;
    s1 <- silent get ;;
    when (negb (is_some (k_frob s1)))
      (a <- silent (attr_or k_full) ;; v <- lift (op_frob N a) ;; silent (modify (set_frob (Some v)))) ;;;
    silent (attr_or k_frob).

  (** base.py:553-560 [normed_km]. *)
  Definition normed_km_w : wact (arr V) :=
    s <- silent get ;;
    when (negb (k_is_normed s)) (normalize_w default_method) ;;;
    silent (attr_or k_normed).

  (** base.py:597-629 [__getitem__]. *)
  Definition getitem_pair_w (a b : idx1) : wact (arr V) :=
    s <- silent get ;;
    r <- lift (get_indices_in_sample (option_map fst (k_shape s)) a) ;;
    c <- lift (get_indices_in_sample (option_map snd (k_shape s)) b) ;;
    if snd r && snd c
    then populate_fully_w false true
    else silent (compute_for_index_combinations (fst r) (fst c)).
  Definition getitem_w (ix : idx) : wact (arr V) :=
    match ix with
    | IInvalid => raise KMAccessError
    | IPair a b => getitem_pair_w a b
    | IFlat k =>
        sh <- silent (attr_or k_shape) ;;
        p <- lift (unravel_index k (fst sh) (snd sh)) ;;
        getitem_pair_w (IInt (fst p)) (IInt (snd p))
    end.

  Definition wfmap {A B} (f : A -> B) (m : wact A) : wact B := a <- m ;; ret (f a).

  (** The public operations. *)
  Definition step_w (o : op E U) : wact (out V U) :=
    match o with
    | OpFull => wfmap OArr full_w
    | OpFullSparse => wfmap OArr full_sparse_w
    | OpCenter => wfmap (fun _ => OUnit) center_w
    | OpCentered => wfmap OArr centered_w
    | OpNormalize m => wfmap (fun _ => OUnit) (normalize_w m)
    | OpNormedKM => wfmap OArr normed_km_w
    | OpFrobNorm => wfmap OVal frob_norm_w
    | OpGetItem ix => wfmap OArr (getitem_w ix)
    | OpAttach _ _ | OpDiagonal | OpSetAttr _ _ | OpGetAttr _ | OpAttributes | OpSize | OpShape
    | OpNumSamples => silent (step N o)
    end.

  Fixpoint run_w (ops : list (op E U)) (sw : KM * list warning) : KM * list warning :=
    match ops with
    | [] => sw
    | o :: ops' => run_w ops' (fst (step_w o sw))
    end.
End Warnings.
