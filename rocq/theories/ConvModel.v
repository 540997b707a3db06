(** Model of a KernelMatrix whose kernel returns something other than doubles: Python ints, booleans,
    strings, Fractions, ... (kernelmethods/base.py:149-793). The dictionary [_KM] keeps what the kernel returned;
    only storing it in a matrix of dtype [cfg.km_dtype] (config.py:66) converts it, and the conversion may
    raise. KMModel.v is the case in which the kernel returns doubles.

    Simplifications: the results are scalars, and one function says what becomes of one of them, whether it is
    assigned to an entry of an ndarray or of a lil_matrix or comes as an element of the list given to
    [np.array(.., dtype=km_dtype)]. *)
From Coq Require Import String List Arith ZArith Bool Floats.SpecFloat.
Import ListNotations.
From Verif Require Import Prelude MatModel UtilsModel IndexModel KMModel FloatModel.

(** The object. [q_base] has the other attributes as in KMModel.v; its dictionary and its kernel, apart from
    [kfmt], are not used. *)
Record rawkm (E R V U : Type) : Type := mkRaw {
  q_base : km E V U;
  q_kernel : nat -> list E -> list E -> res R;    (* self.kernel, as [kf] in KMModel.v *)
  q_memo : list ((nat * nat) * R)                 (* self._KM *)
}.
Arguments mkRaw {E R V U}. Arguments q_base {E R V U}. Arguments q_kernel {E R V U}. Arguments q_memo {E R V U}.

(** What a call returns: [diagonal] makes an array of what the kernel returned ([np.array(..)] without dtype,
    base.py:549-550), the others return what they return in KMModel.v. *)
Inductive rawout (R V U : Type) : Type := QDiag (l : list R) | QOut (o : out V U).
Arguments QDiag {R V U}. Arguments QOut {R V U}.

(** A Python int (or bool) stored in an array of dtype f8 (config.py:66): correctly rounded to the nearest
    double, OverflowError when that is not finite (CPython's PyLong_AsDouble). *)
Definition int_to_f64 (z : Z) : res f64 :=
  match fint z with
  | S754_infinity _ => Raise OverflowErr
  | f => Ok f
  end.

Section Conv.
  Context {E R V U : Type}.
  Variable N : numops V.
  (** Conversion to km_dtype; operations.normalize_km_2sample for diagonals as returned by [diagonal]. *)
  Variable conv : R -> res V.
  Variable norm2 : arr V -> list R -> list R -> res (arr V).
  Notation KM := (km E V U).
  Notation Raw := (rawkm E R V U).
  Notation act := (M Raw).

  (** A part of the code that neither calls the kernel nor uses the dictionary. *)
  Definition base {A} (m : M KM A) : act A :=
    fun s => let (b, q) := m (q_base s) in (mkRaw b (q_kernel s) (q_memo s), q).

  (** base.py:574-578. *)
  Definition store_raw (p : nat * nat) (r : R) (s : Raw) : Raw :=
    let b := q_base s in
    mkRaw (mkKM (k_kernel b) (k_keep_normed b) (k_num_samples b) (k_sample b) (k_sample_two b) (k_two b)
                (k_shape b) (k_full b) (k_normed b) (k_frob b) (k_centered b) (k_populated b) (k_lower b)
                (k_is_centered b) (k_is_normed b) (k_memo b) (k_attr b) (S (k_evals b)) (g_calls b) (g_tag b))
          (q_kernel s) ((p, r) :: q_memo s).

  (** base.py:563-580 [_eval_kernel]. *)
  Definition eval_raw (i0 j0 : nat) : act R :=
    p <- base (if j0 <? i0
               then two <- attr_or k_two ;; ret (if negb two then (j0, i0) else (i0, j0))
               else ret (i0, j0)) ;;
    s <- get ;;
    match memo_find (q_memo s) p with
    | Some r => ret r
    | None =>
        x <- match k_sample (q_base s) with
             | None => raise TypeError
             | Some a => lift (nd_row a (fst p))
             end ;;
        y <- (a <- base (attr_or k_sample_two) ;; lift (nd_row a (snd p))) ;;
        base (modify (log_calls (mkCall (g_tag (q_base s)) p x y :: g_calls (q_base s)))) ;;;
        r <- lift (q_kernel s (length (g_calls (q_base s))) x y) ;;
        modify (store_raw p r) ;;;
        ret r
    end.

  (** [self._full_km[i, j] = self._eval_kernel(i, j)] (base.py:727-728, 745-746). *)
  Definition fill_raw (i j : nat) : act unit :=
    r <- eval_raw i j ;; v <- lift (conv r) ;; base (set_full_entry i j v).

  (** base.py:711-732. *)
  Definition populate_upper_raw (dense_fmt : bool) : act unit :=
    s <- get ;;
    when (negb (k_populated (q_base s)) && negb (is_some (k_full (q_base s))))
      (sh <- base (attr_or k_shape) ;;
       base (modify (set_full (Some (if dense_fmt
                                     then mkArr Dense (mfull (fst sh) (snd sh) (v_nan N))
                                     else mkArr Lil (mfull (fst sh) (snd sh) (v_zero N)))))) ;;;
       try_except
         (for_each (seq 0 (fst sh)) (fun i => for_each (seq i (snd sh - i)) (fun j => fill_raw i j)))
         RuntimeError ;;;
       base (modify (set_populated true))).

  (** base.py:734-750. *)
  Definition populate_lower_raw (fill_lower_tri : bool) : act unit :=
    s <- get ;;
    when (fill_lower_tri && negb (k_lower (q_base s)))
      (try_except
         (sh <- base (attr_or k_shape) ;;
          two <- base (attr_or k_two) ;;
          if negb two && (fst sh =? snd sh)
          then base (a <- attr_or k_full ;;
                     for_each (tril_indices (fst sh) (snd sh)) (fun p =>
                       set_full_entry (fst p) (snd p) (mget (v_nan N) (amat a) (snd p) (fst p))))
          else for_each (tril_indices (fst sh) (snd sh)) (fun p => fill_raw (fst p) (snd p)))
         RuntimeError ;;;
       base (modify (set_lower true))).

  (** base.py:698-760 [_populate_fully]. *)
  Definition populate_raw (dense_fmt fill_lower_tri : bool) : act (arr V) :=
    populate_upper_raw dense_fmt ;;;
    populate_lower_raw fill_lower_tri ;;;
    base (densify dense_fmt) ;;;
    a <- base (attr_or k_full) ;;
    base (warn_if_nan_inf N a) ;;;
    ret a.

  (** base.py:219-283 [attach_to]; [_reset] empties the dictionary. *)
  Definition attach_raw (x : ndarray E) (y : option (ndarray E)) : act unit :=
    base (attach_to x y) ;;; modify (fun s => mkRaw (q_base s) (q_kernel s) []).

  (** base.py:536-550 [diagonal]. *)
  Definition diagonal_raw : act (list R) :=
    two <- base (attr_or k_two) ;;
    if (two : bool) then raise KMAccessError
    else
      sh <- base (attr_or k_shape) ;;
      map_each (seq 0 (fst sh)) (fun i => eval_raw i i).

  (** base.py:487-498, as in KMModel.v. *)
  Definition new_raw (kern : nat -> list E -> list E -> res R) (formats normalized : bool)
      (calls : list (call E)) (tag : nat) : Raw :=
    mkRaw (km_new_tagged (mkKernel (fun _ _ _ => Raise NotImplementedErr) formats) normalized calls tag)
          kern [].
  Definition temp_diagonal_raw (tag : nat) (x : ndarray E) : act (list R) :=
    s <- get ;;
    let r := (attach_raw x None ;;; diagonal_raw)
               (new_raw (q_kernel s) (kfmt (k_kernel (q_base s))) false (g_calls (q_base s)) tag) in
    base (modify (log_calls (g_calls (q_base (fst r))))) ;;;
    lift (snd r).

  (** base.py:462-507 [normalize]. *)
  Definition normalize_raw (method : string) : act unit :=
    s <- get ;;
    when (negb (k_populated (q_base s))) (populate_raw true true ;;; ret tt) ;;;
    s1 <- get ;;
    when (negb (k_is_normed (q_base s1)))
      (two <- base (attr_or k_two) ;;
       (if negb two
        then base (a <- attr_or k_full ;;
                   nk <- lift (op_normalize N method a) ;;
                   modify (set_normed (Some nk)))
        else
          x <- base (attr_or k_sample) ;;
          y <- base (attr_or k_sample_two) ;;
          a <- base (attr_or k_full) ;;
          dx <- temp_diagonal_raw 1 x ;;
          dy <- temp_diagonal_raw 2 y ;;
          nk <- lift (norm2 a dx dy) ;;
          base (modify (set_normed (Some nk)))) ;;;
       base (modify (set_is_normed true) ;;;
             nk <- attr_or k_normed ;;
             warn_if_nan_inf N nk)).

  (** base.py:404-420 [full]. *)
  Definition full_raw : act (arr V) :=
    s <- get ;;
    match k_sample (q_base s) with
    | None => raise ValueError
    | Some _ =>
        when (negb (k_populated (q_base s))) (populate_raw true true ;;; ret tt) ;;;
        if k_keep_normed (q_base s)
        then
          s1 <- get ;;
          when (negb (k_is_normed (q_base s1))) (normalize_raw default_method) ;;;
          base (attr_or k_normed)
        else base (attr_or k_full)
    end.

  (** base.py:423-433 [full_sparse]. *)
  Definition full_sparse_raw : act (arr V) :=
    s <- get ;;
    if k_keep_normed (q_base s)
    then
      when (negb (k_is_normed (q_base s))) (normalize_raw default_method) ;;;
      base (attr_or k_normed)
    else populate_raw false false.

  (** base.py:436-459 [center]. *)
  Definition center_raw : act unit :=
    two <- base (attr_or k_two) ;;
    if (two : bool) then raise NotImplementedErr
    else
      s <- get ;;
      when (negb (k_populated (q_base s)))
        (a <- populate_raw true true ;; base (modify (set_full (Some a)))) ;;;
      base (a <- attr_or k_full ;;
            c <- lift (op_center N a) ;;
            modify (set_centered (Some c)) ;;;
            modify (set_is_centered true)).

  (** base.py:510-520 [centered]. *)
  Definition centered_raw : act (arr V) :=
    two <- base (attr_or k_two) ;;
    if (two : bool) then raise KMAccessError
    else
      s <- get ;;
      when (negb (k_is_centered (q_base s))) center_raw ;;;
      base (attr_or k_centered).

  (** base.py:523-533 [frob_norm]. *)
  Definition frob_norm_raw : act V :=
    s <- get ;;
    when (negb (k_populated (q_base s))) (populate_raw true true ;;; ret tt) ;;;
    s1 <- get ;;
    when (negb (is_some (k_frob (q_base s1))))
      (base (a <- attr_or k_full ;; v <- lift (op_frob N a) ;; modify (set_frob (Some v)))) ;;;
    base (attr_or k_frob).

  (** base.py:553-560 [normed_km]. *)
  Definition normed_km_raw : act (arr V) :=
    s <- get ;;
    when (negb (k_is_normed (q_base s))) (normalize_raw default_method) ;;;
    base (attr_or k_normed).

  (** base.py:688-695 [_compute_for_index_combinations]: the list is complete before it is converted. *)
  Definition combinations_raw (rows cols : list nat) : act (arr V) :=
    l <- map_each (product rows cols) (fun p => eval_raw (fst p) (snd p)) ;;
    vs <- lift (rmap conv l) ;;
    ret (mkArr Dense (mkMat (length rows) (length cols) (reshape (length rows) (length cols) vs))).

  (** base.py:597-629 [__getitem__]. *)
  Definition getitem_pair_raw (a b : idx1) : act (arr V) :=
    s <- get ;;
    r <- lift (get_indices_in_sample (option_map fst (k_shape (q_base s))) a) ;;
    c <- lift (get_indices_in_sample (option_map snd (k_shape (q_base s))) b) ;;
    if snd r && snd c
    then populate_raw false true
    else combinations_raw (fst r) (fst c).
  Definition getitem_raw (ix : idx) : act (arr V) :=
    match ix with
    | IInvalid => raise KMAccessError
    | IPair a b => getitem_pair_raw a b
    | IFlat k =>
        sh <- base (attr_or k_shape) ;;
        p <- lift (unravel_index k (fst sh) (snd sh)) ;;
        getitem_pair_raw (IInt (fst p)) (IInt (snd p))
    end.

  Definition qmap {A B} (f : A -> B) (m : act A) : act B := a <- m ;; ret (f a).

  Definition step_raw (o : op E U) : act (rawout R V U) :=
    match o with
    | OpAttach x y => qmap (fun _ => QOut OUnit) (attach_raw x y)
    | OpFull => qmap (fun a => QOut (OArr a)) full_raw
    | OpFullSparse => qmap (fun a => QOut (OArr a)) full_sparse_raw
    | OpCenter => qmap (fun _ => QOut OUnit) center_raw
    | OpCentered => qmap (fun a => QOut (OArr a)) centered_raw
    | OpNormalize m => qmap (fun _ => QOut OUnit) (normalize_raw m)
    | OpNormedKM => qmap (fun a => QOut (OArr a)) normed_km_raw
    | OpFrobNorm => qmap (fun v => QOut (OVal v)) frob_norm_raw
    | OpDiagonal => qmap QDiag diagonal_raw
    | OpGetItem ix => qmap (fun a => QOut (OArr a)) (getitem_raw ix)
    | OpSetAttr _ _ | OpGetAttr _ | OpAttributes | OpSize | OpShape | OpNumSamples =>
        qmap QOut (base (step N o))
    end.

  Fixpoint run_raw (ops : list (op E U)) (s : Raw) : Raw :=
    match ops with
    | [] => s
    | o :: ops' => run_raw ops' (fst (step_raw o s))
    end.
End Conv.
