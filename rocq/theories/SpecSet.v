(** Vocabulary to state properties of KernelSets: what a program can observe of the heap. *)
From Coq Require Import String List Arith ZArith Bool Sorting.Sorted.
Import ListNotations.
From Verif Require Import Prelude MatModel IndexModel KMModel SpecKM SetModel.

Section SpecSet.
  Context {E V U : Type}.
  Notation World := (world E V U).

  (** The kernel matrix at [l] has the given num_samples. *)
  Definition has_num (w : World) (l : nat) (n : numsamp) : Prop :=
    exists o, nth_error (w_objs w) l = Some o /\ obj_num o = n.

  (** [k] is a KernelSet with the given num_samples and members, in order. *)
  Definition set_is (w : World) (k : nat) (n : numsamp) (ms : list nat) : Prop :=
    exists b x, nth_error (w_sets w) k = Some (mkSet n b ms x).

  (** [k] was constructed without num_samples and nothing was added to it since. *)
  Definition uninitialised (w : World) (k : nat) : Prop :=
    exists ms x, nth_error (w_sets w) k = Some (mkSet NSNone false ms x).

  (** Every member of [k] has the num_samples of [k]. *)
  Definition consistent_set (w : World) (k : nat) : Prop :=
    forall n ms, set_is w k n ms -> forall l, In l ms -> has_num w l n.

  Definition consistent (w : World) : Prop := forall k, consistent_set w k.

  (** The kernel matrices existing in [w] are unchanged in [w'] (new ones may exist). *)
  Definition objects_kept (w w' : World) : Prop :=
    forall l o, nth_error (w_objs w) l = Some o -> nth_error (w_objs w') l = Some o.

  (** The sets of [w] other than [k] are unchanged in [w']. *)
  Definition other_sets_kept (k : nat) (w w' : World) : Prop :=
    forall j s, j <> k -> nth_error (w_sets w) j = Some s -> nth_error (w_sets w') j = Some s.

  (** An operation re-attaches members of the set [k] behind its back: it is not an
      [attach_to] of [k] itself and changes the num_samples of a member of [k]. *)
  Definition behind_back (N : numops V) (C : cmpops V) (numeric : list E -> bool)
             (o : wop E V U) (w : World) (k : nat) : Prop :=
    (forall x attr, o <> WAttach k x attr) /\
    exists n ms l m, set_is w k n ms /\ In l ms /\ has_num w l m /\
                     ~ has_num (fst (wstep N C numeric o w)) l m.

  (** No operation of the program does that, whichever the set. *)
  Fixpoint considerate (N : numops V) (C : cmpops V) (numeric : list E -> bool)
           (ops : list (wop E V U)) (w : World) : Prop :=
    match ops with
    | [] => True
    | o :: rest => (forall k, ~ behind_back N C numeric o w k)
                   /\ considerate N C numeric rest (fst (wstep N C numeric o w))
    end.

  (** Kernel matrices are not re-attached directly, and a set is attached to a sample only when
      it has a num_samples already (i.e. to exchange samples of the same size). *)
  Fixpoint sized_attach (N : numops V) (C : cmpops V) (numeric : list E -> bool)
           (ops : list (wop E V U)) (w : World) : Prop :=
    match ops with
    | [] => True
    | o :: rest => (match o with
                    | WObj _ (OpAttach _ _) => False
                    | WAttach k _ _ => forall ms, ~ set_is w k NSNone ms
                    | _ => True
                    end) /\ sized_attach N C numeric rest (fst (wstep N C numeric o w))
    end.

  (** [x] is a two-dimensional array of numbers with [n] rows. *)
  Definition numeric_sample (numeric : list E -> bool) (x : ndarray E) (n : nat) : Prop :=
    (exists d, is_sample x n d) /\ numeric (nd_data x) = true.

  (** The user attribute [name] of the kernel matrix at [l]. *)
  Definition attr_of (w : World) (l : nat) (name : string) (v : option U) : Prop :=
    exists s, nth_error (w_objs w) l = Some (OKM s) /\ dict_get (k_attr s) name = v.

  Definition is_km (w : World) (l : nat) : Prop :=
    exists s, nth_error (w_objs w) l = Some (OKM s).

  (** The operation is meant to change the set [k] or members of some set. *)
  Definition may_change (o : wop E V U) (k : nat) : Prop :=
    match o with
    | WAppend j _ | WExtend j _ => j = k
    | WObj _ _ | WAttach _ _ _ | WSetAttr _ _ _ => True
    | _ => False
    end.

  (** The sets of [w] are unchanged in [w'] (new ones may exist). *)
  Definition sets_kept (w w' : World) : Prop :=
    forall j s, nth_error (w_sets w) j = Some s -> nth_error (w_sets w') j = Some s.

  (** The members at the requested positions, in the requested order. *)
  Definition selected (ms : list nat) (ix : list Z) (ls : list nat) : Prop :=
    Forall2 (fun z l => (0 <= z)%Z /\ nth_error ms (Z.to_nat z) = Some l) ix ls.

  (** What set_attr does to one kernel matrix. *)
  Definition with_attr (N : numops V) (name : string) (u : U) (s : km E V U) : km E V U :=
    fst (step N (OpSetAttr name u) s).
End SpecSet.

(** ** Indices into a ConstantKernelMatrix *)
(** [z] is one of the positions denoted by [ix] along a dimension of size [n]: numbers in an
    iterable are truncated to integers. *)
Definition cdenotes (n : nat) (ix : cidx) (z : Z) : Prop :=
  match ix with
  | CIInt z' => z = z'
  | CISlice a b st => denotes n (ISlice a b st) z
  | CIIter l => In (CInt z) l \/ In (CFloat z) l
  | CIStrNone | CIOther => False
  end.

(** The expression can be turned into integers at all. *)
Definition creadable (ix : cidx) : Prop :=
  match ix with
  | CIInt _ => True
  | CISlice _ _ st => st <> Some 0%Z
  | CIIter l => forall e, ~ In (CBad e) l
  | CIStrNone | CIOther => False
  end.

Definition cvalid (n : nat) (ix : cidx) : Prop :=
  creadable ix /\ (exists z, cdenotes n ix z) /\
  (forall z, cdenotes n ix z -> (0 <= z < Z.of_nat n)%Z).

Definition cselection (n : nat) (ix : cidx) (l : list nat) : Prop :=
  StronglySorted lt l /\ forall i, In i l <-> cdenotes n ix (Z.of_nat i).

(** The n x m array with entries [f i j]. *)
Definition array2 {V} (n m : nat) (f : nat -> nat -> V) : ndarray V :=
  mkNd [n; m] (flat_map (fun i => map (fun j => f i j) (seq 0 m)) (seq 0 n)).
