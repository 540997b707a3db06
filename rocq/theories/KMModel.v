(** Model of kernelmethods/base.py:149-793, class KernelMatrix: a lazily filled,
    memoising kernel matrix object. Polymorphic in the element type [E] of samples,
    the value type [V] of matrix entries and the type [U] of user attribute values. *)
From Coq Require Import String List Arith ZArith Bool.
Import ListNotations.
From Verif Require Import Prelude MatModel UtilsModel IndexModel.

(** A kernel function (base.py:27-146). [kf t x y] is the outcome of the call
    [kernel(x, y)] when it is the [t]-th kernel call made on behalf of this
    KernelMatrix (ghost counter): a kernel may thus raise at any chosen call.
    [kfmt] says whether ['{}'.format(kernel)] works: true for kernels that use
    BaseKernelFunction.__format__ (base.py:76-79); false for KernelFromCallable,
    which sets [__format__ = __str__] (base.py:145), a one-argument method that
    [format] calls with two arguments, hence TypeError. *)
Record kernel (E V : Type) : Type := mkKernel {
  kf : nat -> list E -> list E -> res V;
  kfmt : bool
}.
Arguments mkKernel {E V} kf kfmt.
Arguments kf {E V} k.
Arguments kfmt {E V} k.

(** Numerical operations the object delegates to kernelmethods/operations.py, and the
    special values of the value type. Instantiated in OpsModel.v; left abstract here so
    that the results about the object hold for any arithmetic. *)
Record numops (V : Type) : Type := mkNumops {
  v_nan : V;                                        (* np.nan *)
  v_zero : V;                                       (* implicit entry of a lil_matrix *)
  v_finite : V -> bool;                             (* np.isfinite *)
  op_normalize : string -> arr V -> res (arr V);    (* operations.normalize_km *)
  op_normalize2 : arr V -> list V -> list V -> res (arr V);
                                                    (* operations.normalize_km_2sample *)
  op_center : arr V -> res (arr V);                 (* operations.center_km *)
  op_frob : arr V -> res V                          (* operations.frobenius_norm *)
}.
Arguments mkNumops {V}.
Arguments v_nan {V} n.
Arguments v_zero {V} n.
Arguments v_finite {V} n.
Arguments op_normalize {V} n.
Arguments op_normalize2 {V} n.
Arguments op_center {V} n.
Arguments op_frob {V} n.

(** [num_samples]: None, an int, or a pair of ints (base.py:209, 258, 273). *)
Inductive numsamp : Type := NSNone | NSOne (n : nat) | NSTwo (n m : nat).

Definition numsamp_eqb (a b : numsamp) : bool :=
  match a, b with
  | NSNone, NSNone => true
  | NSOne n, NSOne n' => Nat.eqb n n'
  | NSTwo n m, NSTwo n' m' => Nat.eqb n n' && Nat.eqb m m'
  | _, _ => false
  end.

(** What a method call returns, as seen by the caller. *)
Inductive out (V U : Type) : Type :=
| OUnit                                  (* None *)
| OArr (a : arr V)                       (* a matrix *)
| OVec (l : list V)                      (* a 1-D array *)
| OVal (v : V)                           (* a scalar *)
| OInt (n : nat)                         (* an int *)
| ONum (n : numsamp)                     (* num_samples *)
| OPairNat (p : nat * nat)               (* shape *)
| OAttrs (l : list (string * U))         (* the attribute dict *)
| OAttr (u : option U).                  (* an attribute value; None = default *)
Arguments OUnit {V U}.
Arguments OArr {V U} a.
Arguments OVec {V U} l.
Arguments OVal {V U} v.
Arguments OInt {V U} n.
Arguments ONum {V U} n.
Arguments OPairNat {V U} p.
Arguments OAttrs {V U} l.
Arguments OAttr {V U} u.

(** Ghost record of one kernel call: which object asked for it ([c_tag]: 0 for the
    user's object itself, 1 and 2 for the temporaries KM_XX and KM_YY of [normalize]),
    for which entry of that object, and the two rows passed to the kernel. *)
Record call (E : Type) : Type := mkCall {
  c_tag : nat; c_ix : nat * nat; c_x : list E; c_y : list E
}.
Arguments mkCall {E}.
Arguments c_tag {E} c.
Arguments c_ix {E} c.
Arguments c_x {E} c.
Arguments c_y {E} c.

(** The object. Fields of option type model attributes that may be absent
    (hasattr/delattr). [g_calls] and [g_tag] are ghost: the log of all kernel calls made
    on behalf of this object, newest first (never reset), and the object's own tag. *)
Record km (E V U : Type) : Type := mkKM {
  k_kernel : kernel E V;                      (* self.kernel *)
  k_keep_normed : bool;                       (* self._keep_normed *)
  k_num_samples : numsamp;                    (* self._num_samples *)
  k_sample : option (ndarray E);              (* self._sample *)
  k_sample_two : option (ndarray E);          (* self._sample_two *)
  k_two : option bool;                        (* self._two_samples *)
  k_shape : option (nat * nat);               (* self.shape *)
  k_full : option (arr V);                    (* self._full_km *)
  k_normed : option (arr V);                  (* self._normed_km *)
  k_frob : option V;                          (* self._frob_norm *)
  k_centered : option (arr V);                (* self._centered *)
  k_populated : bool;                         (* self._populated_fully *)
  k_lower : bool;                             (* self._lower_tri_km_filled *)
  k_is_centered : bool;                       (* self._is_centered *)
  k_is_normed : bool;                         (* self._is_normed *)
  k_memo : list ((nat * nat) * V);            (* self._KM *)
  k_attr : list (string * U);                 (* self._attr *)
  k_evals : nat;                              (* self._num_ker_eval *)
  g_calls : list (call E);                    (* ghost *)
  g_tag : nat                                 (* ghost *)
}.
Arguments mkKM {E V U}.
Arguments k_kernel {E V U} k.
Arguments k_keep_normed {E V U} k.
Arguments k_num_samples {E V U} k.
Arguments k_sample {E V U} k.
Arguments k_sample_two {E V U} k.
Arguments k_two {E V U} k.
Arguments k_shape {E V U} k.
Arguments k_full {E V U} k.
Arguments k_normed {E V U} k.
Arguments k_frob {E V U} k.
Arguments k_centered {E V U} k.
Arguments k_populated {E V U} k.
Arguments k_lower {E V U} k.
Arguments k_is_centered {E V U} k.
Arguments k_is_normed {E V U} k.
Arguments k_memo {E V U} k.
Arguments k_attr {E V U} k.
Arguments k_evals {E V U} k.
Arguments g_calls {E V U} k.
Arguments g_tag {E V U} k.

(** Dictionaries keyed by index pairs and by strings. Insertion does not check for an
    existing key: [_KM] is only written at absent keys (base.py:573); [dict_set] models
    [self._attr[name] = value] with replacement. *)
Definition pair_eqb (p q : nat * nat) : bool :=
  Nat.eqb (fst p) (fst q) && Nat.eqb (snd p) (snd q).

Fixpoint memo_find {V} (l : list ((nat * nat) * V)) (p : nat * nat) : option V :=
  match l with
  | [] => None
  | (q, v) :: l' => if pair_eqb p q then Some v else memo_find l' p
  end.

Fixpoint dict_get {U} (l : list (string * U)) (n : string) : option U :=
  match l with
  | [] => None
  | (m, u) :: l' => if String.eqb n m then Some u else dict_get l' n
  end.

Fixpoint dict_set {U} (l : list (string * U)) (n : string) (u : U) : list (string * U) :=
  match l with
  | [] => [(n, u)]
  | (m, w) :: l' => if String.eqb n m then (n, u) :: l' else (m, w) :: dict_set l' n u
  end.

(** Matrix of the given shape filled with one value, [np.full] / [lil_matrix(shape)]. *)
Definition mfull {V} (n m : nat) (v : V) : mat V := tabulate n m (fun _ _ => v).

(** Reshape a flat list to rows of length [c] (row-major), [.reshape(r, c)]. *)
Fixpoint reshape {V} (r c : nat) (l : list V) : list (list V) :=
  match r with
  | 0 => []
  | S r' => firstn c l :: reshape r' c (skipn c l)
  end.

(** Pairs strictly below the diagonal of an [n] x [m] matrix, row-major:
    [np.tril_indices(n, m=m, k=-1)] (base.py:738). *)
Definition tril_indices (n m : nat) : list (nat * nat) :=
  flat_map (fun i => map (fun j => (i, j)) (seq 0 (Nat.min i m))) (seq 0 n).

Section Setters.
  Context {E V U : Type}.
  Implicit Type s : km E V U.

  Definition set_full (x : option (arr V)) s :=
    mkKM (k_kernel s) (k_keep_normed s) (k_num_samples s) (k_sample s) (k_sample_two s)
         (k_two s) (k_shape s) x (k_normed s) (k_frob s) (k_centered s) (k_populated s)
         (k_lower s) (k_is_centered s) (k_is_normed s) (k_memo s) (k_attr s) (k_evals s)
         (g_calls s) (g_tag s).
  Definition set_normed (x : option (arr V)) s :=
    mkKM (k_kernel s) (k_keep_normed s) (k_num_samples s) (k_sample s) (k_sample_two s)
         (k_two s) (k_shape s) (k_full s) x (k_frob s) (k_centered s) (k_populated s)
         (k_lower s) (k_is_centered s) (k_is_normed s) (k_memo s) (k_attr s) (k_evals s)
         (g_calls s) (g_tag s).
  Definition set_frob (x : option V) s :=
    mkKM (k_kernel s) (k_keep_normed s) (k_num_samples s) (k_sample s) (k_sample_two s)
         (k_two s) (k_shape s) (k_full s) (k_normed s) x (k_centered s) (k_populated s)
         (k_lower s) (k_is_centered s) (k_is_normed s) (k_memo s) (k_attr s) (k_evals s)
         (g_calls s) (g_tag s).
  Definition set_centered (x : option (arr V)) s :=
    mkKM (k_kernel s) (k_keep_normed s) (k_num_samples s) (k_sample s) (k_sample_two s)
         (k_two s) (k_shape s) (k_full s) (k_normed s) (k_frob s) x (k_populated s)
         (k_lower s) (k_is_centered s) (k_is_normed s) (k_memo s) (k_attr s) (k_evals s)
         (g_calls s) (g_tag s).
  Definition set_populated (b : bool) s :=
    mkKM (k_kernel s) (k_keep_normed s) (k_num_samples s) (k_sample s) (k_sample_two s)
         (k_two s) (k_shape s) (k_full s) (k_normed s) (k_frob s) (k_centered s) b
         (k_lower s) (k_is_centered s) (k_is_normed s) (k_memo s) (k_attr s) (k_evals s)
         (g_calls s) (g_tag s).
  Definition set_lower (b : bool) s :=
    mkKM (k_kernel s) (k_keep_normed s) (k_num_samples s) (k_sample s) (k_sample_two s)
         (k_two s) (k_shape s) (k_full s) (k_normed s) (k_frob s) (k_centered s)
         (k_populated s) b (k_is_centered s) (k_is_normed s) (k_memo s) (k_attr s)
         (k_evals s) (g_calls s) (g_tag s).
  Definition set_is_centered (b : bool) s :=
    mkKM (k_kernel s) (k_keep_normed s) (k_num_samples s) (k_sample s) (k_sample_two s)
         (k_two s) (k_shape s) (k_full s) (k_normed s) (k_frob s) (k_centered s)
         (k_populated s) (k_lower s) b (k_is_normed s) (k_memo s) (k_attr s) (k_evals s)
         (g_calls s) (g_tag s).
  Definition set_is_normed (b : bool) s :=
    mkKM (k_kernel s) (k_keep_normed s) (k_num_samples s) (k_sample s) (k_sample_two s)
         (k_two s) (k_shape s) (k_full s) (k_normed s) (k_frob s) (k_centered s)
         (k_populated s) (k_lower s) (k_is_centered s) b (k_memo s) (k_attr s) (k_evals s)
         (g_calls s) (g_tag s).
  Definition set_attrs (x : list (string * U)) s :=
    mkKM (k_kernel s) (k_keep_normed s) (k_num_samples s) (k_sample s) (k_sample_two s)
         (k_two s) (k_shape s) (k_full s) (k_normed s) (k_frob s) (k_centered s)
         (k_populated s) (k_lower s) (k_is_centered s) (k_is_normed s) (k_memo s) x
         (k_evals s) (g_calls s) (g_tag s).
  (** Ghost: log a kernel call. *)
  Definition log_calls (x : list (call E)) s :=
    mkKM (k_kernel s) (k_keep_normed s) (k_num_samples s) (k_sample s) (k_sample_two s)
         (k_two s) (k_shape s) (k_full s) (k_normed s) (k_frob s) (k_centered s)
         (k_populated s) (k_lower s) (k_is_centered s) (k_is_normed s) (k_memo s)
         (k_attr s) (k_evals s) x (g_tag s).
  (** base.py:574-578: store a value and increment the evaluation counter. *)
  Definition store_memo (p : nat * nat) (v : V) s :=
    mkKM (k_kernel s) (k_keep_normed s) (k_num_samples s) (k_sample s) (k_sample_two s)
         (k_two s) (k_shape s) (k_full s) (k_normed s) (k_frob s) (k_centered s)
         (k_populated s) (k_lower s) (k_is_centered s) (k_is_normed s)
         ((p, v) :: k_memo s) (k_attr s) (S (k_evals s)) (g_calls s) (g_tag s).
  (** base.py:251-252: [self._sample = ...]. *)
  Definition set_sample (x : ndarray E) s :=
    mkKM (k_kernel s) (k_keep_normed s) (k_num_samples s) (Some x) (k_sample_two s)
         (k_two s) (k_shape s) (k_full s) (k_normed s) (k_frob s) (k_centered s)
         (k_populated s) (k_lower s) (k_is_centered s) (k_is_normed s) (k_memo s)
         (k_attr s) (k_evals s) (g_calls s) (g_tag s).
  (** base.py:255, 266: [self._sample_two = ...]. *)
  Definition set_sample_two (x : ndarray E) s :=
    mkKM (k_kernel s) (k_keep_normed s) (k_num_samples s) (k_sample s) (Some x)
         (k_two s) (k_shape s) (k_full s) (k_normed s) (k_frob s) (k_centered s)
         (k_populated s) (k_lower s) (k_is_centered s) (k_is_normed s) (k_memo s)
         (k_attr s) (k_evals s) (g_calls s) (g_tag s).
  (** base.py:258-260 and 273-276: sizes and the two-samples flag. *)
  Definition set_sizes (ns : numsamp) (sh : nat * nat) (two : bool) s :=
    mkKM (k_kernel s) (k_keep_normed s) ns (k_sample s) (k_sample_two s)
         (Some two) (Some sh) (k_full s) (k_normed s) (k_frob s) (k_centered s)
         (k_populated s) (k_lower s) (k_is_centered s) (k_is_normed s) (k_memo s)
         (k_attr s) (k_evals s) (g_calls s) (g_tag s).
  (** base.py:356-377 [_reset]. [_centered] is not deleted. *)
  Definition reset s : km E V U :=
    mkKM (k_kernel s) (k_keep_normed s) (k_num_samples s) (k_sample s) (k_sample_two s)
         (k_two s) (k_shape s) None None None (k_centered s)
         false false false false [] [] 0 (g_calls s) (g_tag s).
End Setters.

Section KernelMatrix.
  Context {E V U : Type}.
  Variable N : numops V.

  Notation KM := (km E V U).
  Notation act := (M KM).

  (** base.py:176-216 [__init__]; [kernel] and [normalized] of the right types.
      The ghost log starts at [calls] (the kernel calls already made by others). *)
  Definition km_new_tagged (k : kernel E V) (normalized : bool) (calls : list (call E))
             (tag : nat) : KM :=
    reset (mkKM k normalized NSNone None None None None None None None None
                false false false false [] [] 0 calls tag).
  Definition km_new (k : kernel E V) (normalized : bool) (calls : list (call E)) : KM :=
    km_new_tagged k normalized calls 0.

  (** Attribute reads that raise AttributeError when the attribute is absent. *)
  Definition attr_or {A} (f : KM -> option A) : act A :=
    s <- get ;; match f s with Some a => ret a | None => raise AttributeError end.

  (** base.py:563-580 [_eval_kernel]. Line 575: [self._sample] is None before any
      attach_to, so subscripting raises TypeError; a row index beyond the sample raises
      IndexError; [self._sample_two] may be absent (AttributeError). *)
  Definition eval_kernel (i0 j0 : nat) : act V :=
    (* line 568: [idx_one > idx_two and not self._two_samples] *)
    p <- (if j0 <? i0
          then two <- attr_or k_two ;; ret (if negb two then (j0, i0) else (i0, j0))
          else ret (i0, j0)) ;;
    s <- get ;;
    match memo_find (k_memo s) p with
    | Some v => ret v
    | None =>
        x <- match k_sample s with
             | None => raise TypeError
             | Some a => lift (nd_row a (fst p))
             end ;;
        y <- (a <- attr_or k_sample_two ;; lift (nd_row a (snd p))) ;;
        modify (log_calls (mkCall (g_tag s) p x y :: g_calls s)) ;;;
        v <- lift (kf (k_kernel s) (length (g_calls s)) x y) ;;
        modify (store_memo p v) ;;;
        ret v
    end.

  (** Write one entry of [self._full_km]. *)
  Definition set_full_entry (i j : nat) (v : V) : act unit :=
    a <- attr_or k_full ;;
    modify (set_full (Some (mkArr (afmt a) (mset (amat a) i j v)))).

  (** utils.py:165-181 [contains_nan_inf]. *)
  Definition contains_nan_inf (a : arr V) : bool :=
    negb (mall (v_finite N) (amat a)).

  (** base.py:755-758, 504-507: [warn('...'.format(self.kernel))]. Emitting the warning has
      no effect on the state; building its text raises TypeError if the kernel object
      does not support [format]. *)
  Definition warn_if_nan_inf (a : arr V) : act unit :=
    s <- get ;;
    if contains_nan_inf a && negb (kfmt (k_kernel s)) then raise TypeError else ret tt.

  (** base.py:711-732, first part of [_populate_fully]: nothing is computed if a matrix
      exists already, even if an earlier computation of it failed half-way. *)
  Definition populate_upper (dense_fmt : bool) : act unit :=
    s <- get ;;
    when (negb (k_populated s) && negb (is_some (k_full s)))
      (sh <- attr_or k_shape ;;
       modify (set_full (Some (if dense_fmt
                               then mkArr Dense (mfull (fst sh) (snd sh) (v_nan N))
                               else mkArr Lil (mfull (fst sh) (snd sh) (v_zero N))))) ;;;
       try_except
         (for_each (seq 0 (fst sh)) (fun i =>
            for_each (seq i (snd sh - i)) (fun j =>
              v <- eval_kernel i j ;; set_full_entry i j v)))
         RuntimeError ;;;
       modify (set_populated true)).

  (** base.py:734-750, second part of [_populate_fully]. *)
  Definition populate_lower (fill_lower_tri : bool) : act unit :=
    s <- get ;;
    when (fill_lower_tri && negb (k_lower s))
      (try_except
         (sh <- attr_or k_shape ;;
          two <- attr_or k_two ;;
          if negb two && (fst sh =? snd sh)
          then
            (* full[lower] = full.T[lower]: the right-hand side is read first *)
            a <- attr_or k_full ;;
            for_each (tril_indices (fst sh) (snd sh)) (fun p =>
              set_full_entry (fst p) (snd p)
                             (mget (v_nan N) (amat a) (snd p) (fst p)))
          else
            for_each (tril_indices (fst sh) (snd sh)) (fun p =>
              v <- eval_kernel (fst p) (snd p) ;; set_full_entry (fst p) (snd p) v))
         RuntimeError ;;;
       modify (set_lower true)).

  (** base.py:752-753: [todense()] of a sparse matrix is a [numpy.matrix]. *)
  Definition densify (dense_fmt : bool) : act unit :=
    a <- attr_or k_full ;;
    when (is_sparse a && dense_fmt)
      (modify (set_full (Some (mkArr NpMatrix (amat a))))).

  (** base.py:698-760 [_populate_fully]. *)
  Definition populate_fully (dense_fmt fill_lower_tri : bool) : act (arr V) :=
    populate_upper dense_fmt ;;;
    populate_lower fill_lower_tri ;;;
    densify dense_fmt ;;;
    a <- attr_or k_full ;;
    warn_if_nan_inf a ;;;
    ret a.

  (** base.py:219-283 [attach_to]. A sample argument that is not an array of a usable
      dimensionality makes [ensure_ndarray_2D] raise ValueError. Note the order: the
      first sample is stored before the second is validated, and [_reset] comes last.
      Names of samples are not modelled. *)
  Definition attach_to (sample_one : ndarray E) (sample_two : option (ndarray E))
    : act unit :=
    a <- lift (ensure_2D_own sample_one) ;;
    modify (set_sample a) ;;;
    match sample_two with
    | None =>
        let n := nth 0 (nd_shape a) 0 in
        modify (set_sample_two a) ;;;
        modify (set_sizes (NSOne n) (n, n) false)
    | Some y =>
        b <- lift (ensure_2D_own y) ;;
        modify (set_sample_two b) ;;;
        (if negb (nth 1 (nd_shape a) 0 =? nth 1 (nd_shape b) 0)
         then raise ValueError
         else
           let n := nth 0 (nd_shape a) 0 in
           let m := nth 0 (nd_shape b) 0 in
           modify (set_sizes (NSTwo n m) (n, m) true))
    end ;;;
    modify reset.

  (** base.py:536-550 [diagonal]. *)
  Definition diagonal : act (list V) :=
    two <- attr_or k_two ;;
    if (two : bool) then raise KMAccessError
    else
      sh <- attr_or k_shape ;;
      map_each (seq 0 (fst sh)) (fun i => eval_kernel i i).

  (** base.py:487-498, for one of the two temporaries of [normalize]:
      [T = KernelMatrix(self.kernel, normalized=False); T.attach_to(sample);
      T.diagonal()]. The temporary is a fresh object over the same kernel; the ghost log
      is threaded through it. (In the source KM_YY is attached before the diagonal of
      KM_XX is computed; attaching makes no kernel call and cannot fail on a sample that
      was itself accepted by [attach_to], so the order is unobservable.) *)
  Definition temp_diagonal (tag : nat) (x : ndarray E) : act (list V) :=
    s <- get ;;
    let r := (attach_to x None ;;; diagonal)
               (km_new_tagged (k_kernel s) false (g_calls s) tag) in
    modify (log_calls (g_calls (fst r))) ;;;
    lift (snd r).

  (** base.py:462-507 [normalize]. In the two-sample case the [method] argument is not
      passed on: [normalize_km_2sample] is called with its default. *)
  Definition normalize (method : string) : act unit :=
    s <- get ;;
    when (negb (k_populated s)) (populate_fully true true ;;; ret tt) ;;;
    s1 <- get ;;
    when (negb (k_is_normed s1))
      (two <- attr_or k_two ;;
       (if negb two
        then
          a <- attr_or k_full ;;
          nk <- lift (op_normalize N method a) ;;
          modify (set_normed (Some nk))
        else
          x <- attr_or k_sample ;;
          y <- attr_or k_sample_two ;;
          a <- attr_or k_full ;;
          dx <- temp_diagonal 1 x ;;
          dy <- temp_diagonal 2 y ;;
          nk <- lift (op_normalize2 N a dx dy) ;;
          modify (set_normed (Some nk))) ;;;
       modify (set_is_normed true) ;;;
       nk <- attr_or k_normed ;;
       warn_if_nan_inf nk).

  Definition default_method : string := "cosine".

  (** base.py:404-420 [full]. *)
  Definition full : act (arr V) :=
    s <- get ;;
    match k_sample s with
    | None => raise ValueError
    | Some _ =>
        when (negb (k_populated s)) (populate_fully true true ;;; ret tt) ;;;
        if k_keep_normed s
        then
          s1 <- get ;;
          when (negb (k_is_normed s1)) (normalize default_method) ;;;
          attr_or k_normed
        else attr_or k_full
    end.

  (** base.py:423-433 [full_sparse]. *)
  Definition full_sparse : act (arr V) :=
    s <- get ;;
    if k_keep_normed s
    then
      when (negb (k_is_normed s)) (normalize default_method) ;;;
      attr_or k_normed
    else populate_fully false false.

  (** base.py:436-459 [center]. *)
  Definition center : act unit :=
    two <- attr_or k_two ;;
    if (two : bool) then raise NotImplementedErr
    else
      s <- get ;;
      when (negb (k_populated s))
        (a <- populate_fully true true ;; modify (set_full (Some a))) ;;;
      a <- attr_or k_full ;;
      c <- lift (op_center N a) ;;
      modify (set_centered (Some c)) ;;;
      modify (set_is_centered true).

  (** base.py:510-520 [centered]. *)
  Definition centered : act (arr V) :=
    two <- attr_or k_two ;;
    if (two : bool) then raise KMAccessError
    else
      s <- get ;;
      when (negb (k_is_centered s)) center ;;;
      attr_or k_centered.

  (** base.py:523-533 [frob_norm]. *)
  Definition frob_norm : act V :=
    s <- get ;;
    when (negb (k_populated s)) (populate_fully true true ;;; ret tt) ;;;
    s1 <- get ;;
    when (negb (is_some (k_frob s1)))
      (a <- attr_or k_full ;; v <- lift (op_frob N a) ;; modify (set_frob (Some v))) ;;;
    attr_or k_frob.

  (** base.py:553-560 [normed_km]. *)
  Definition normed_km : act (arr V) :=
    s <- get ;;
    when (negb (k_is_normed s)) (normalize default_method) ;;;
    attr_or k_normed.

  (** base.py:688-695 [_compute_for_index_combinations]. *)
  Definition compute_for_index_combinations (rows cols : list nat) : act (arr V) :=
    l <- map_each (product rows cols) (fun p => eval_kernel (fst p) (snd p)) ;;
    ret (mkArr Dense (mkMat (length rows) (length cols)
                            (reshape (length rows) (length cols) l))).

  (** base.py:618-629: the two-index part of [__getitem__]. *)
  Definition getitem_pair (a b : idx1) : act (arr V) :=
    s <- get ;;
    r <- lift (get_indices_in_sample (option_map fst (k_shape s)) a) ;;
    c <- lift (get_indices_in_sample (option_map snd (k_shape s)) b) ;;
    if snd r && snd c
    then populate_fully false true
    else compute_for_index_combinations (fst r) (fst c).

  (** base.py:597-629 [__getitem__]. *)
  Definition getitem (ix : idx) : act (arr V) :=
    match ix with
    | IInvalid => raise KMAccessError
    | IPair a b => getitem_pair a b
    | IFlat k =>
        sh <- attr_or k_shape ;;
        p <- lift (unravel_index k (fst sh) (snd sh)) ;;
        getitem_pair (IInt (fst p)) (IInt (snd p))
    end.

  (** base.py:286-305 [set_attr]; 308-327 [get_attr]; 330-340 [attributes]. *)
  Definition set_attr (name : string) (value : U) : act unit :=
    modify (fun s => set_attrs (dict_set (k_attr s) name value) s).
  Definition get_attr (name : string) : act (option U) :=
    s <- get ;; ret (dict_get (k_attr s) name).

  (** base.py:380-401 [size] and [__len__] (before attach_to, [_two_samples] is absent). *)
  Definition size : act nat :=
    two <- attr_or k_two ;;
    s <- get ;;
    match (two : bool), k_num_samples s with
    | false, NSOne n => ret (n * n)
    | true, NSTwo n m => ret (n * m)
    | _, _ => raise TypeError
    end.

  (** The public operations of a KernelMatrix. *)
  Inductive op : Type :=
  | OpAttach (x : ndarray E) (y : option (ndarray E))
  | OpFull | OpFullSparse | OpCenter | OpCentered
  | OpNormalize (method : string) | OpNormedKM | OpFrobNorm | OpDiagonal
  | OpGetItem (ix : idx)
  | OpSetAttr (name : string) (value : U) | OpGetAttr (name : string)
  | OpAttributes | OpSize | OpShape | OpNumSamples.

  Definition fmap {A B} (f : A -> B) (m : act A) : act B := a <- m ;; ret (f a).

  Definition step (o : op) : act (out V U) :=
    match o with
    | OpAttach x y => fmap (fun _ => OUnit) (attach_to x y)
    | OpFull => fmap OArr full
    | OpFullSparse => fmap OArr full_sparse
    | OpCenter => fmap (fun _ => OUnit) center
    | OpCentered => fmap OArr centered
    | OpNormalize m => fmap (fun _ => OUnit) (normalize m)
    | OpNormedKM => fmap OArr normed_km
    | OpFrobNorm => fmap OVal frob_norm
    | OpDiagonal => fmap OVec diagonal
    | OpGetItem ix => fmap OArr (getitem ix)
    | OpSetAttr n v => fmap (fun _ => OUnit) (set_attr n v)
    | OpGetAttr n => fmap OAttr (get_attr n)
    | OpAttributes => fmap (fun s => OAttrs (k_attr s)) get
    | OpSize => fmap OInt size
    | OpShape => fmap OPairNat (attr_or k_shape)
    | OpNumSamples => fmap (fun s => ONum (k_num_samples s)) get
    end.

  (** State after a sequence of operations; exceptions are caught by the caller, who
      carries on. *)
  Fixpoint run (ops : list op) (s : KM) : KM :=
    match ops with
    | [] => s
    | o :: ops' => run ops' (fst (step o s))
    end.

  (** Outcomes of a sequence of operations. *)
  Fixpoint trace (ops : list op) (s : KM) : list (res (out V U)) :=
    match ops with
    | [] => []
    | o :: ops' => snd (step o s) :: trace ops' (fst (step o s))
    end.
End KernelMatrix.
Arguments op : clear implicits.
