(** Model of the containers of kernelmethods/base.py: KernelMatrixPrecomputed (796-866),
    ConstantKernelMatrix (869-1036), KernelSet (1042-1364).

    KernelSets hold REFERENCES to kernel matrices, so the state is a heap: kernel matrix
    objects and kernel sets live at locations (positions in two lists; objects are never
    freed) and one object may be a member of several sets. Names of objects and sets are not
    modelled. *)
From Coq Require Import String List Arith ZArith Bool.
Import ListNotations.
From Verif Require Import Prelude MatModel UtilsModel IndexModel KMModel.

(** [np.isclose] and [np.isreal] on matrix values. *)
Record cmpops (V : Type) : Type := mkCmp { c_close : V -> V -> bool; c_real : V -> bool }.
Arguments mkCmp {V}.
Arguments c_close {V} c.
Arguments c_real {V} c.

(** ** numpy broadcasting of two axis lengths (None: ValueError) *)
Definition bdim (n m : nat) : option nat :=
  if n =? m then Some n else if n =? 1 then Some m else if m =? 1 then Some n else None.

(** The entry of [A] used at position (i, j) of a broadcast result: an axis of length 1 is
    stretched. *)
Definition bget {V} (d : V) (A : mat V) (i j : nat) : V :=
  mget d A (if mr A =? 1 then 0 else i) (if mc A =? 1 then 0 else j).

Definition transpose {V} (d : V) (A : mat V) : mat V :=
  tabulate (mc A) (mr A) (fun i j => mget d A j i).

(** utils.py:135-141 [not_symmetric], negated: [np.isclose(A, A.T).all()]. The two operands
    are broadcast against each other, so a 1 x n matrix is compared with its n x 1 transpose
    over all n x n combinations; incompatible shapes raise ValueError. *)
Definition is_symmetric {V} (C : cmpops V) (d : V) (A : mat V) : res bool :=
  match bdim (mr A) (mc A), bdim (mc A) (mr A) with
  | Some r, Some c =>
      Ok (forallb (fun i => forallb (fun j =>
            c_close C (bget d A i j) (bget d (transpose d A) i j)) (seq 0 c)) (seq 0 r))
  | _, _ => Raise ValueError
  end.

(** base.py:801-819 [KernelMatrixPrecomputed.__init__]; the argument after [np.array]. The
    object is represented by its matrix [_KM]; [num_samples] is its number of rows. Values are
    numbers (np.isclose raises TypeError on strings, which is not modelled). *)
Definition precomputed_new {V} (C : cmpops V) (d : V) (a : ndarray V) : res (mat V) :=
  match nd_shape a with
  | [n; m] =>
      let A := mkMat n m (reshape n m (nd_data a)) in
      rbind (is_symmetric C d A) (fun b =>
        if negb b || negb (mall (c_real C) A) then Raise ValueError else Ok A)
  | _ => Raise ValueError
  end.

(** base.py:829-846: [size], [full], [diag]. *)
Definition precomputed_size {V} (A : mat V) : nat := mr A.
Definition precomputed_full {V} (A : mat V) : arr V := mkArr Dense A.
Definition precomputed_diag {V} (d : V) (A : mat V) : list V :=
  map (fun i => mget d A i i) (seq 0 (Nat.min (mr A) (mc A))).

(** ** ConstantKernelMatrix. The object is its size and its value (the dtype is that of the
    value: conversion by [np.full] is not modelled). *)
Record cmatrix (V : Type) : Type := mkConst { c_size : nat; c_value : V }.
Arguments mkConst {V}.
Arguments c_size {V} c.
Arguments c_value {V} c.

(** base.py:940-956 [full], [diag]. *)
Definition const_full {V} (c : cmatrix V) : mat V := mfull (c_size c) (c_size c) (c_value c).
Definition const_diag {V} (c : cmatrix V) : list V := repeat (c_value c) (c_size c).

(** An element of an iterable index: an integer, a float (truncated towards zero by [int],
    base.py:997-1000), or something [int] rejects (ValueError/TypeError, e.g. a string). *)
Inductive celt : Type := CInt (z : Z) | CFloat (trunc : Z) | CBad (e : exn).

(** An index along one dimension of a ConstantKernelMatrix, classified as at base.py:989-1007. *)
Inductive cidx : Type :=
| CIInt (z : Z)
| CISlice (start stop step : option Z)
| CIIter (l : list celt)
| CIStrNone                      (* a str or None *)
| CIOther.

Fixpoint celts (l : list celt) : res (list Z) :=
  match l with
  | [] => Ok []
  | CInt z :: l' | CFloat z :: l' => rbind (celts l') (fun zs => Ok (z :: zs))
  | CBad e :: _ => Raise e
  end.

(** base.py:979-1024 [_get_indices_in_sample]. An empty selection formats the undefined name
    [dim] (line 1019), hence NameError instead of the intended KMAccessError. *)
Definition const_indices (n : nat) (ix : cidx) : res (list Z) :=
  rbind (match ix with
         | CIStrNone => Raise KMAccessError
         | CIInt z => Ok [z]
         | CISlice a b st =>
             rbind (slice_indices a b st (Z.of_nat n)) (fun '(a', b', st') =>
               Ok (py_range a' b' st'))
         | CIIter l => celts l
         | CIOther => Raise KMAccessError
         end) (fun zs =>
    if existsb (fun z => (Z.of_nat n <=? z) || (z <? 0))%Z zs then Raise KMAccessError
    else match zs with [] => Raise NameError | _ => Ok (sort_uniq zs) end).

(** base.py:959-976 [__getitem__]; [None] for an object between the brackets that is not an
    iterable of length 2 or is a string. *)
Definition const_getitem {V} (c : cmatrix V) (ix : option (cidx * cidx)) : res (mat V) :=
  match ix with
  | None => Raise KMAccessError
  | Some (a, b) =>
      rbind (const_indices (c_size c) a) (fun rows =>
      rbind (const_indices (c_size c) b) (fun cols =>
        Ok (mfull (length rows) (length cols) (c_value c))))
  end.

(** ** The heap *)
Section Heap.
  Context {E V U : Type}.

  (** A kernel matrix object: a KernelMatrix, or a KernelMatrixPrecomputed. *)
  Inductive kobj : Type := OKM (s : km E V U) | OPre (A : mat V).

  (** The [num_samples] attribute of a kernel matrix object. *)
  Definition obj_num (o : kobj) : numsamp :=
    match o with OKM s => k_num_samples s | OPre A => NSOne (mr A) end.

  (** A KernelSet (base.py:1053-1101). *)
  Record kset : Type := mkSet {
    s_num : numsamp;                       (* self._num_samples *)
    s_init : bool;                         (* self._is_init *)
    s_members : list nat;                  (* self._km_set *)
    s_sample : option (ndarray E)          (* self.sample *)
  }.

  Record world : Type := mkW { w_objs : list kobj; w_sets : list kset }.

  Definition set_objs (l : list kobj) (w : world) : world := mkW l (w_sets w).
  Definition set_sets (l : list kset) (w : world) : world := mkW (w_objs w) l.
End Heap.
Arguments kobj : clear implicits.
Arguments kset : clear implicits.
Arguments world : clear implicits.

Section KernelSet.
  Context {E V U : Type}.
  Variable N : numops V.
  Variable C : cmpops V.
  (** Whether the data of a sample are numbers or can be converted to float64
      (utils.py:73-100, with the default ensure_dtype=np.number). *)
  Variable numeric : list E -> bool.

  Notation World := (world E V U).
  Notation act := (M World).

  (** ** Access to the heap. Dangling references do not occur; they are given the error
      NameError to make the functions total. *)
  Definition get_obj (l : nat) : act (kobj E V U) :=
    fun w => match nth_error (w_objs w) l with
             | Some o => (w, Ok o) | None => (w, Raise NameError) end.
  Definition get_set (k : nat) : act (kset E) :=
    fun w => match nth_error (w_sets w) k with
             | Some s => (w, Ok s) | None => (w, Raise NameError) end.
  Definition put_set (k : nat) (s : kset E) : act unit :=
    modify (fun w => set_sets (list_upd (w_sets w) k s) w).
  Definition new_obj (o : kobj E V U) : act nat :=
    fun w => (set_objs (w_objs w ++ [o]) w, Ok (length (w_objs w))).
  Definition new_set (s : kset E) : act nat :=
    fun w => (set_sets (w_sets w ++ [s]) w, Ok (length (w_sets w))).

  (** Run a KernelMatrix method on the object at [l]. KernelMatrixPrecomputed has none of
      the methods [attach_to], [set_attr], [get_attr]: AttributeError. *)
  Definition on_km {A} (l : nat) (m : M (km E V U) A) : act A :=
    fun w => match nth_error (w_objs w) l with
             | Some (OKM s) =>
                 let (s', r) := m s in (set_objs (list_upd (w_objs w) l (OKM s')) w, r)
             | Some (OPre _) => (w, Raise AttributeError)
             | None => (w, Raise NameError)
             end.

  (** The [full] property of a kernel matrix object. *)
  Definition obj_full (l : nat) : act (arr V) :=
    o <- get_obj l ;;
    match o with
    | OKM _ => on_km l (full N)
    | OPre A => ret (precomputed_full A)
    end.

  (** ** KernelSet *)

  (** An argument of [append]: a kernel matrix object; a BaseKernelFunction; or anything
      else, represented by the outcome of [np.array] on it. *)
  Inductive karg : Type :=
  | ARef (l : nat)
  | AFunc
  | AArray (r : res (ndarray V)).

  (** base.py:1123-1149 [append]. A kernel function passes the type test at 1136 but has no
      [num_samples] (AttributeError). *)
  Definition append (k : nat) (a : karg) : act unit :=
    l <- match a with
         | ARef l => ret l
         | AFunc => raise AttributeError
         | AArray r =>
             x <- lift r ;; A <- lift (precomputed_new C (v_nan N) x) ;; new_obj (OPre A)
         end ;;
    o <- get_obj l ;;
    s <- get_set k ;;
    (if negb (s_init s) && numsamp_eqb (s_num s) NSNone
     then put_set k (mkSet (obj_num o) true (s_members s) (s_sample s))
     else ret tt) ;;;
    s1 <- get_set k ;;
    if negb (numsamp_eqb (s_num s1) (obj_num o)) then raise KMSetAdditionError
    else put_set k (mkSet (s_num s1) (s_init s1) (s_members s1 ++ [l]) (s_sample s1)).

  (** The argument [km_list] of the constructor. A KernelMatrix or KernelMatrixPrecomputed
      has no [__iter__] and is not Iterable; an ndarray is. *)
  Inductive klist : Type :=
  | KLNone
  | KLIter (l : list karg)             (* any iterable but an ndarray *)
  | KLArray (a : ndarray V)
  | KLOne (l : nat)                    (* a KernelMatrix or KernelMatrixPrecomputed *)
  | KLOther.                           (* a str, a number, a kernel function, ... *)

  (** Iterating over an ndarray of shape (n, rest) yields n arrays of shape rest. *)
  Definition subarrays (a : ndarray V) : res (list karg) :=
    match nd_shape a with
    | [] => Raise TypeError
    | n :: rest =>
        Ok (map (fun l => AArray (Ok (mkNd rest l))) (reshape n (prod_list rest) (nd_data a)))
    end.

  (** base.py:1053-1101 [__init__]. When it raises no set exists for the caller; the model
      leaves the unreachable half-built set in the heap. *)
  Definition set_new (kl : klist) (num_samples : option nat) : act nat :=
    k <- new_set (match num_samples with
                  | Some n => mkSet (NSOne n) true [] None
                  | None => mkSet NSNone false [] None
                  end) ;;
    match kl with
    | KLNone => ret tt
    | KLIter l => for_each l (append k)
    | KLArray a => l <- lift (subarrays a) ;; for_each l (append k)
    | KLOne l => append k (ARef l)
    | KLOther => raise TypeError
    end ;;;
    ret k.

  (** base.py:1152-1166 [__getitem__]; [None] for an index that is not an integer. *)
  Definition set_getitem (k : nat) (ix : option Z) : act nat :=
    s <- get_set k ;;
    match ix with
    | None => raise ValueError
    | Some z =>
        if ((z <? 0) || (Z.of_nat (length (s_members s)) <=? z))%Z then raise IndexError
        else match nth_error (s_members s) (Z.to_nat z) with
             | Some l => ret l | None => raise IndexError end
    end.

  (** base.py:1225-1238 [_check_indices], on a list of integers. *)
  Definition check_indices (s : kset E) (ix : list Z) : res (list nat) :=
    if existsb (fun z => z <? 0)%Z ix
       || existsb (fun z => Z.of_nat (length (s_members s)) <=? z)%Z ix
    then Raise IndexError else Ok (map Z.to_nat ix).

  (** base.py:1169-1197 [take]: the new set shares the members. *)
  Definition take (k : nat) (ix : list Z) : act nat :=
    s <- get_set k ;;
    ns <- lift (check_indices s ix) ;;
    k' <- set_new KLNone None ;;
    for_each ns (fun i =>
      match nth_error (s_members s) i with
      | Some l => append k' (ARef l) | None => raise IndexError end) ;;;
    ret k'.

  (** base.py:1200-1222 [get_kernel_funcs], consumed at once (it returns a generator). *)
  Definition get_kernel_funcs (k : nat) (ix : list Z) : act (list (kernel E V)) :=
    s <- get_set k ;;
    ns <- lift (check_indices s ix) ;;
    map_each ns (fun i =>
      match nth_error (s_members s) i with
      | Some l => on_km l (t <- get ;; ret (k_kernel t))
      | None => raise IndexError end).

  (** base.py:1254-1258 [__iter__]: the size is read once, at the start. *)
  Definition set_iter (k : nat) : act (list nat) :=
    s <- get_set k ;; ret (s_members s).

  (** base.py:1261-1292 [attach_to]; [attr] is (attr_name, attr_value). The argument is an
      ndarray (a list has no [shape]: AttributeError). *)
  Definition set_attach (k : nat) (x : ndarray E) (attr : option (string * U)) : act unit :=
    s <- get_set k ;;
    a <- lift (if negb (numeric (nd_data x)) && (nd_ndim (squeeze_from 2 x) =? 2)
               then Raise ValueError else ensure_2D_own x) ;;
    put_set k (mkSet (s_num s) (s_init s) (s_members s) (Some a)) ;;;
    let n := nth 0 (nd_shape x) 0 in
    (if negb (numsamp_eqb (s_num s) NSNone) && negb (numsamp_eqb (s_num s) (NSOne n))
     then raise ValueError
     else put_set k (mkSet (NSOne n) (s_init s) (s_members s) (Some a))) ;;;
    for_each (s_members s) (fun l => on_km l (attach_to x None)) ;;;
    match attr with
    | None => ret tt
    | Some (name, u) => for_each (s_members s) (fun l => on_km l (set_attr name u))
    end.

  (** base.py:1295-1307 [extend]; [None] for an argument that is not a KernelSet. The other
      set's size is read once, so extending a set by itself terminates. *)
  Definition extend (k : nat) (other : option nat) : act unit :=
    match other with
    | None => raise KMSetAdditionError
    | Some k' =>
        s <- get_set k ;;
        s' <- get_set k' ;;
        if negb (numsamp_eqb (s_num s') (s_num s)) then raise KMSetAdditionError
        else for_each (s_members s') (fun l => append k (ARef l))
    end.

  (** The argument [values] of set_attr: not an iterable, or a str; or a sized iterable. *)
  Inductive avalues : Type := AScalar (u : U) | ASeq (l : list U).

  (** base.py:1310-1341 [set_attr]. *)
  Definition set_set_attr (k : nat) (name : string) (vals : avalues) : act unit :=
    s <- get_set k ;;
    vs <- match vals with
          | AScalar u => ret (repeat u (length (s_members s)))
          | ASeq l => if negb (length l =? length (s_members s)) then raise ValueError
                      else ret l
          end ;;
    for_each (combine (s_members s) vs) (fun p => on_km (fst p) (set_attr name (snd p))).

  (** base.py:1344-1364 [get_attr]; [None] stands for [value_if_not_found]. *)
  Definition set_get_attr (k : nat) (name : string) : act (list (option U)) :=
    s <- get_set k ;;
    map_each (s_members s) (fun l => on_km l (get_attr name)).

  (** ** Operations of a program using kernel matrices and sets *)
  Inductive wop : Type :=
  | WNewKM (K : kernel E V) (nrm : bool)
  | WNewPre (a : res (ndarray V))
  | WObj (l : nat) (o : op E U)                  (* a method of a KernelMatrix *)
  | WSetNew (kl : klist) (num_samples : option nat)
  | WAppend (k : nat) (a : karg)
  | WExtend (k : nat) (other : option nat)
  | WTake (k : nat) (ix : list Z)
  | WGetItem (k : nat) (ix : option Z)
  | WKernels (k : nat) (ix : list Z)
  | WIter (k : nat)
  | WAttach (k : nat) (x : ndarray E) (attr : option (string * U))
  | WSetAttr (k : nat) (name : string) (vals : avalues)
  | WGetAttr (k : nat) (name : string)
  | WNum (k : nat)                               (* num_samples *)
  | WLen (k : nat).                              (* size, __len__ *)

  (** What the caller gets: references are locations. *)
  Inductive wout : Type :=
  | WUnit | WRef (l : nat) | WSetRef (k : nat) | WOut (o : out V U) | WRefs (l : list nat)
  | WKers (l : list (kernel E V)) | WAttrs (l : list (option U)) | WNumS (n : numsamp)
  | WInt (n : nat).

  Definition wfmap {A B} (f : A -> B) (m : act A) : act B := a <- m ;; ret (f a).

  Definition wstep (o : wop) : act wout :=
    match o with
    | WNewKM K nrm => wfmap WRef (new_obj (OKM (km_new K nrm [])))
    | WNewPre r =>
        wfmap WRef (x <- lift r ;; A <- lift (precomputed_new C (v_nan N) x) ;; new_obj (OPre A))
    | WObj l o => wfmap WOut (on_km l (step N o))
    | WSetNew kl num => wfmap WSetRef (set_new kl num)
    | WAppend k a => wfmap (fun _ => WUnit) (append k a)
    | WExtend k other => wfmap (fun _ => WUnit) (extend k other)
    | WTake k ix => wfmap WSetRef (take k ix)
    | WGetItem k ix => wfmap WRef (set_getitem k ix)
    | WKernels k ix => wfmap WKers (get_kernel_funcs k ix)
    | WIter k => wfmap WRefs (set_iter k)
    | WAttach k x attr => wfmap (fun _ => WUnit) (set_attach k x attr)
    | WSetAttr k name vals => wfmap (fun _ => WUnit) (set_set_attr k name vals)
    | WGetAttr k name => wfmap WAttrs (set_get_attr k name)
    | WNum k => wfmap (fun s => WNumS (s_num s)) (get_set k)
    | WLen k => wfmap (fun s => WInt (length (s_members s))) (get_set k)
    end.

  Definition w_empty : World := mkW [] [].

  Fixpoint wrun (ops : list wop) (w : World) : World :=
    match ops with [] => w | o :: ops' => wrun ops' (fst (wstep o w)) end.
End KernelSet.
Arguments karg : clear implicits.
Arguments klist : clear implicits.
Arguments avalues : clear implicits.
Arguments wop : clear implicits.
Arguments wout : clear implicits.
