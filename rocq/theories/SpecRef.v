(** A reference object for an attached KernelMatrix whose kernel never raises: no memo of kernel
    values, no population loops, no evaluation counts and no flags, just the mathematical matrix and
    what has been asked so far. *)
From Coq Require Import String List Arith ZArith Bool.
Import ListNotations.
From Verif Require Import Prelude MatModel IndexModel KMModel SpecKM.

(** What a reference object remembers: the storage format of the matrix and whether its lower half is
    there (nothing before the first request for the whole matrix), the normalised and the centred matrix
    and the norm once they have been computed, and the attributes. *)
Record ref (V U : Type) : Type := mkRef {
  r_mat : option (fmt * bool);
  r_norm : option (arr V);
  r_cent : option (arr V);
  r_frob : option V;
  r_attr : list (string * U)
}.
Arguments mkRef {V U}.
Arguments r_mat {V U}.
Arguments r_norm {V U}.
Arguments r_cent {V U}.
Arguments r_frob {V U}.
Arguments r_attr {V U}.

Definition ref_new {V U} : ref V U := mkRef None None None None [].

Section Reference.
  Context {E V U : Type}.
  Variable N : numops V.
  (** The entries of the n x m matrix; the self-similarities of the points of both samples. *)
  Variables (n m : nat) (F : nat -> nat -> V) (dx dy : list V).
  (** Attached to two samples; normalized=True; the kernel object supports format(). *)
  Variables (two nrm formats : bool).
  Notation act := (M (ref V U)).

  (** The stored matrix: only the upper triangle, with zeros below, until someone asks for more. *)
  Definition stored_as (c : fmt * bool) : arr V :=
    mkArr (fst c) (tabulate n m (fun i j => if snd c || (i <=? j) then F i j else v_zero N)).

  (** A matrix with infinite or undefined entries is reported in a warning, whose text contains
      format(kernel). *)
  Definition reported (a : arr V) : act (arr V) :=
    if negb formats && negb (mall (v_finite N) (amat a)) then raise TypeError else ret a.

  Definition keep_mat (c : fmt * bool) (r : ref V U) : ref V U :=
    mkRef (Some c) (r_norm r) (r_cent r) (r_frob r) (r_attr r).

  (** Request for the matrix: the first request determines the format for good, later ones can only
      add the lower half. *)
  Definition request (f : fmt) (low : bool) : act (arr V) :=
    r <- get ;;
    let c := match r_mat r with None => (f, low) | Some (f', low') => (f', low' || low) end in
    modify (keep_mat c) ;;;
    reported (stored_as c).

  (** The matrix everything else is computed from. *)
  Definition current : act (arr V) :=
    r <- get ;;
    match r_mat r with Some c => ret (stored_as c) | None => request Dense true end.

  (** Normalisation happens once, whatever the method asked for later. *)
  Definition ref_normalize (method : string) : act unit :=
    a <- current ;;
    r <- get ;;
    match r_norm r with
    | Some _ => ret tt
    | None =>
        nk <- lift (if two then op_normalize2 N a dx dy else op_normalize N method a) ;;
        modify (fun r => mkRef (r_mat r) (Some nk) (r_cent r) (r_frob r) (r_attr r)) ;;;
        reported nk ;;;
        ret tt
    end.

  Definition ref_normed_km : act (arr V) :=
    r <- get ;;
    match r_norm r with
    | Some nk => ret nk
    | None =>
        ref_normalize "cosine" ;;;
        r <- get ;;
        match r_norm r with Some nk => ret nk | None => raise AttributeError end
    end.

  Definition ref_full : act (arr V) :=
    a <- current ;;
    if nrm then ref_normed_km else ret a.

  Definition ref_full_sparse : act (arr V) :=
    if nrm then ref_normed_km else request Lil false.

  Definition ref_center : act (arr V) :=
    a <- current ;;
    c <- lift (op_center N a) ;;
    modify (fun r => mkRef (r_mat r) (r_norm r) (Some c) (r_frob r) (r_attr r)) ;;;
    ret c.

  Definition ref_centered : act (arr V) :=
    r <- get ;;
    match r_cent r with Some c => ret c | None => ref_center end.

  Definition ref_frob_norm : act V :=
    a <- current ;;
    r <- get ;;
    match r_frob r with
    | Some v => ret v
    | None =>
        v <- lift (op_frob N a) ;;
        modify (fun r => mkRef (r_mat r) (r_norm r) (r_cent r) (Some v) (r_attr r)) ;;;
        ret v
    end.

  Definition giving {A B} (f : A -> B) (a : act A) : act B := v <- a ;; ret (f v).

  (** The operations other than attach_to and indexing. *)
  Definition ref_op (o : op E U) : act (out V U) :=
    match o with
    | OpFull => giving OArr ref_full
    | OpFullSparse => giving OArr ref_full_sparse
    | OpCenter => if two then raise NotImplementedErr else giving (fun _ => OUnit) ref_center
    | OpCentered => if two then raise KMAccessError else giving OArr ref_centered
    | OpNormalize method => giving (fun _ => OUnit) (ref_normalize method)
    | OpNormedKM => giving OArr ref_normed_km
    | OpFrobNorm => giving OVal ref_frob_norm
    | OpDiagonal => if two then raise KMAccessError else ret (OVec (map (fun i => F i i) (seq 0 n)))
    | OpSetAttr name v => modify (fun r => mkRef (r_mat r) (r_norm r) (r_cent r) (r_frob r)
                                             (dict_set (r_attr r) name v)) ;;; ret OUnit
    | OpGetAttr name => r <- get ;; ret (OAttr (dict_get (r_attr r) name))
    | OpAttributes => r <- get ;; ret (OAttrs (r_attr r))
    | OpSize => ret (OInt (n * m))
    | OpShape => ret (OPairNat (n, m))
    | OpNumSamples => ret (ONum (if two then NSTwo n m else NSOne n))
    | OpAttach _ _ | OpGetItem _ => raise AttributeError
    end.

  (** One operation leads from [r] to [r'] with outcome [q]. An index that selects everything is a
      request for the whole matrix, any other one gives the selected part, and invalid ones are
      rejected. *)
  Definition ref_does (o : op E U) (r r' : ref V U) (q : res (out V U)) : Prop :=
    match o with
    | OpAttach _ _ => False
    | OpGetItem ix =>
        (valid n m ix /\ selects_all n m ix /\ (r', q) = giving OArr (request Lil true) r) \/
        (exists rows cols, valid n m ix /\ selection2 n m ix rows cols /\ ~ whole n m rows cols /\
           r' = r /\ q = Ok (OArr (mkArr Dense (submatrix F rows cols)))) \/
        (~ valid n m ix /\ r' = r /\ exists e, q = Raise e /\ rejection n m ix e)
    | _ => (r', q) = ref_op o r
    end.

  (** A sequence of operations and their outcomes. *)
  Inductive ref_behaves : list (op E U) -> ref V U -> list (res (out V U)) -> Prop :=
  | rb_nil : forall r, ref_behaves [] r []
  | rb_cons : forall o ops r r' q qs,
      ref_does o r r' q -> ref_behaves ops r' qs -> ref_behaves (o :: ops) r (q :: qs).
End Reference.

(** ** What a history leaves behind *)

(** km[:, :] *)
Definition colons : idx := IPair (ISlice None None None) (ISlice None None None).

(** The operation makes the object compute the whole matrix as a dense array, if it has none yet. *)
Definition asks_dense {E U} (two nrm : bool) (o : op E U) : Prop :=
  match o with
  | OpFull | OpNormalize _ | OpNormedKM | OpFrobNorm => True
  | OpCenter | OpCentered => two = false
  | OpFullSparse => nrm = true
  | _ => False
  end.
(** The operation is full_sparse of an object that does not normalise. *)
Definition asks_sparse {E U} (nrm : bool) (o : op E U) : Prop := o = OpFullSparse /\ nrm = false.
(** The operation is an index expression that selects everything. *)
Definition asks_whole {E U} (n m : nat) (o : op E U) : Prop :=
  match o with OpGetItem ix => valid n m ix /\ selects_all n m ix | _ => False end.
Definition asks_nothing {E U} (two nrm : bool) (n m : nat) (o : op E U) : Prop :=
  ~ asks_dense two nrm o /\ ~ asks_sparse nrm o /\ ~ asks_whole n m o.

(** The first request in [ops] is [o], followed by [rest]. *)
Definition first_request {E U} (two nrm : bool) (n m : nat) (ops : list (op E U)) (o : op E U)
           (rest : list (op E U)) : Prop :=
  exists idle, ops = idle ++ o :: rest /\ Forall (asks_nothing two nrm n m) idle.

(** The four cases: no request at all; a dense matrix first; a sparse one first, of which at some time
    the whole was requested; full_sparse first and never a request for the whole matrix. *)
Inductive left_behind : Type := LNothing | LDense | LWhole | LUpper.
Definition leaves {E U} (two nrm : bool) (n m : nat) (ops : list (op E U)) (c : left_behind) : Prop :=
  match c with
  | LNothing => Forall (asks_nothing two nrm n m) ops
  | LDense => exists o rest, first_request two nrm n m ops o rest /\ asks_dense two nrm o
  | LWhole => exists o rest, first_request two nrm n m ops o rest /\
                (asks_whole n m o \/ (asks_sparse nrm o /\ Exists (asks_whole n m) rest))
  | LUpper => exists o rest, first_request two nrm n m ops o rest /\
                asks_sparse nrm o /\ Forall (fun o' => ~ asks_whole n m o') rest
  end.

(** The upper triangle of the kernel matrix, zeros below. *)
Definition upper_triangle {E V} (N : numops V) (k : list E -> list E -> V) (n m d : nat) (x : ndarray E)
           (y : option (ndarray E)) : mat V :=
  tabulate n m (fun i j => if i <=? j then entry k d x y i j else v_zero N).

(** k(x_i, x_i) for all points of a sample. *)
Definition self_similarities {E V} (k : list E -> list E -> V) (n d : nat) (x : ndarray E) : list V :=
  map (fun i => k (row_of d x i) (row_of d x i)) (seq 0 n).

(** The matrix of each case. *)
Definition left_matrix {E V} (N : numops V) (k : list E -> list E -> V) (n m d : nat) (x : ndarray E)
           (y : option (ndarray E)) (c : left_behind) : arr V :=
  match c with
  | LNothing | LDense => mkArr Dense (kernel_matrix k n m d x y)
  | LWhole => mkArr Lil (kernel_matrix k n m d x y)
  | LUpper => mkArr Lil (upper_triangle N k n m d x y)
  end.

(** The first request of the whole matrix fails if it has infinite or undefined entries and the kernel
    object does not support format(). *)
Definition unreportable {E V} (N : numops V) (K : kernel E V) (k : list E -> list E -> V) (n m d : nat)
           (x : ndarray E) (y : option (ndarray E)) : bool :=
  negb (kfmt K) && negb (mall (v_finite N) (kernel_matrix k n m d x y)).
(** Nothing was requested yet, and the first request fails. *)
Definition first_fails {E V} (N : numops V) (K : kernel E V) (k : list E -> list E -> V) (n m d : nat)
           (x : ndarray E) (y : option (ndarray E)) (c : left_behind) : bool :=
  match c with LNothing => unreportable N K k n m d x y | _ => false end.
