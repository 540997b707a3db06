(** What a KernelMatrix is supposed to be, stated without reference to the object's
    fields: the matrix of kernel values of the attached sample(s), the set of positions an
    index expression denotes, admissible arguments of attach_to. *)
From Coq Require Import String List Arith ZArith Bool Sorting.Sorted.
Import ListNotations.
From Verif Require Import Prelude MatModel IndexModel KMModel.

(** ** Samples *)

(** [x] is an [n] x [d] sample (trailing axes of length one are tolerated). *)
Definition is_sample {E} (x : ndarray E) (n d : nat) : Prop :=
  exists extra, nd_shape x = n :: d :: extra /\ Forall (fun s => s = 1) extra.

(** The [i]-th row of an array with [d] columns, stored row by row. *)
Definition row_of {E} (d : nat) (x : ndarray E) (i : nat) : list E :=
  firstn d (skipn (i * d) (nd_data x)).

(** Arguments [attach_to] accepts, with [n] rows, [m] columns of the kernel matrix and
    [d] features. *)
Definition admissible {E} (x : ndarray E) (y : option (ndarray E)) (n m d : nat) : Prop :=
  is_sample x n d /\
  match y with None => m = n | Some y' => is_sample y' m d end.

(** ** Kernels *)

(** [u] is a row of the attached data. *)
Definition is_row {E} (x : ndarray E) (y : option (ndarray E)) (n m d : nat) (u : list E) : Prop :=
  exists i, (i < n /\ u = row_of d x i) \/
            (i < m /\ u = row_of d (match y with Some y' => y' | None => x end) i).

(** On rows of the attached data the kernel is the mathematical function [k] and never raises. *)
Definition never_raises {E V} (K : kernel E V) (k : list E -> list E -> V)
           (x : ndarray E) (y : option (ndarray E)) (n m d : nat) : Prop :=
  forall t u v, is_row x y n m d u -> is_row x y n m d v -> kf K t u v = Ok (k u v).

(** What the kernel does in a call does not depend on earlier calls (it may raise). *)
Definition steady {E V} (K : kernel E V) : Prop := forall t u v, kf K t u v = kf K 0 u v.

(** On rows of the attached data the kernel computes [k] whenever it returns, but it may raise
    at any call. *)
Definition returns_only {E V} (K : kernel E V) (k : list E -> list E -> V)
           (x : ndarray E) (y : option (ndarray E)) (n m d : nat) : Prop :=
  forall t u v, is_row x y n m d u -> is_row x y n m d v ->
    kf K t u v = Ok (k u v) \/ exists e, kf K t u v = Raise e.

(** ** The kernel matrix *)

(** Entry (i, j): for two samples k(x_i, y_j); for one sample the upper triangle
    k(x_i, x_j), i <= j, mirrored below the diagonal. *)
Definition entry {E V} (k : list E -> list E -> V) (d : nat) (x : ndarray E)
           (y : option (ndarray E)) (i j : nat) : V :=
  match y with
  | Some y' => k (row_of d x i) (row_of d y' j)
  | None => if i <=? j then k (row_of d x i) (row_of d x j)
            else k (row_of d x j) (row_of d x i)
  end.

Definition kernel_matrix {E V} (k : list E -> list E -> V) (n m d : nat) (x : ndarray E)
           (y : option (ndarray E)) : mat V :=
  tabulate n m (entry k d x y).

(** ** Index expressions *)

(** Python's rule for one bound of a slice over [n] elements: negative bounds count from
    the end; then clip to the valid range for the direction of travel. *)
Definition bound (n step z : Z) : Z :=
  (let z' := if z <? 0 then z + n else z in
   if 0 <? step then Z.max 0 (Z.min n z') else Z.max (-1) (Z.min (n - 1) z'))%Z.

Definition slice_first (n step : Z) (a : option Z) : Z :=
  match a with Some z => bound n step z | None => if (0 <? step)%Z then 0%Z else (n - 1)%Z end.
Definition slice_last (n step : Z) (b : option Z) : Z :=
  match b with Some z => bound n step z | None => if (0 <? step)%Z then n else (-1)%Z end.

(** [z] is one of the positions denoted by [ix] along a dimension of size [n]. *)
Definition denotes (n : nat) (ix : idx1) (z : Z) : Prop :=
  match ix with
  | IInt z' => z = z'
  | IIter l => In (EInt z) l
  | ISlice a b st =>
      let step := match st with Some s => s | None => 1%Z end in
      exists q : nat,
        z = (slice_first (Z.of_nat n) step a + Z.of_nat q * step)%Z /\
        (if (0 <? step)%Z then (z < slice_last (Z.of_nat n) step b)%Z
         else (slice_last (Z.of_nat n) step b < z)%Z)
  | IFails _ | IOther => False
  end.

(** The index expressions that must be accepted along a dimension of size [n]. *)
Definition valid1 (n : nat) (ix : idx1) : Prop :=
  match ix with
  | IInt _ => True
  | ISlice _ _ st => st <> Some 0%Z
  | IIter l => ~ In ENonInt l
  | IFails _ | IOther => False
  end /\
  (exists z, denotes n ix z) /\
  (forall z, denotes n ix z -> (0 <= z < Z.of_nat n)%Z).

(** The selected positions, in ascending order and without repetition. *)
Definition selection (n : nat) (ix : idx1) (l : list nat) : Prop :=
  StronglySorted lt l /\ forall i, In i l <-> denotes n ix (Z.of_nat i).

Definition valid (n m : nat) (ix : idx) : Prop :=
  match ix with
  | IPair a b => valid1 n a /\ valid1 m b
  | IFlat k => (0 <= k < Z.of_nat (n * m))%Z
  | IInvalid => False
  end.

(** What is raised for an index that is not valid. *)
Definition rejection1 (ix : idx1) (e : exn) : Prop :=
  match ix with
  | ISlice _ _ (Some 0%Z) => e = ValueError
  | IFails e' => e = e'
  | _ => e = KMAccessError
  end.
Definition rejection (n m : nat) (ix : idx) (e : exn) : Prop :=
  match ix with
  | IPair a b => (~ valid1 n a /\ rejection1 a e) \/ (valid1 n a /\ ~ valid1 m b /\ rejection1 b e)
  | IFlat k => ((- 2 ^ 63 <= k < 2 ^ 64)%Z /\ e = ValueError) \/ (~ (- 2 ^ 63 <= k < 2 ^ 64)%Z /\ e = TypeError)
  | IInvalid => e = KMAccessError
  end.

(** The rows and columns selected by an index; a flat integer counts row by row. *)
Definition selection2 (n m : nat) (ix : idx) (rows cols : list nat) : Prop :=
  match ix with
  | IPair a b => selection n a rows /\ selection m b cols
  | IFlat k => exists i j, i < n /\ j < m /\ k = Z.of_nat (i * m + j) /\
                           rows = [i] /\ cols = [j]
  | IInvalid => False
  end.

(** All rows and all columns. *)
Definition whole (n m : nat) (rows cols : list nat) : Prop :=
  rows = seq 0 n /\ cols = seq 0 m.

(** The submatrix of [entry] at the given rows and columns. *)
Definition submatrix {V} (f : nat -> nat -> V) (rows cols : list nat) : mat V :=
  mkMat (length rows) (length cols) (map (fun i => map (fun j => f i j) cols) rows).

(** ** Histories *)
Definition is_attach {E U} (o : op E U) : bool :=
  match o with OpAttach _ _ => true | _ => false end.
Definition no_attach {E U} (ops : list (op E U)) : Prop :=
  forallb (fun o => negb (is_attach o)) ops = true.

(** ** Kernel calls *)

(** Index pairs of the successful calls in [calls] (newest first) made for the object
    with the given tag, when [base] calls had been made before. *)
Fixpoint successful {E V} (K : kernel E V) (tag base : nat) (calls : list (call E))
  : list (nat * nat) :=
  match calls with
  | [] => []
  | c :: rest =>
      let l := successful K tag base rest in
      if (c_tag c =? tag) && is_ok (kf K (base + length rest) (c_x c) (c_y c))
      then c_ix c :: l else l
  end.

(** The calls that returned a value, whoever asked for them. *)
Fixpoint returned {E V} (K : kernel E V) (base : nat) (calls : list (call E)) : list (call E) :=
  match calls with
  | [] => []
  | c :: rest =>
      if is_ok (kf K (base + length rest) (c_x c) (c_y c))
      then c :: returned K base rest else returned K base rest
  end.

(** ** Histories of one object *)

(** The object after [pre] (any operations, failed or not), a call attach_to(x, y) and
    then [post]. *)
Definition before {E V U} (N : numops V) (K : kernel E V) (nrm : bool) (pre : list (op E U))
  : km E V U := run N pre (km_new K nrm []).
Definition after {E V U} (N : numops V) (K : kernel E V) (nrm : bool) (pre : list (op E U))
           (x : ndarray E) (y : option (ndarray E)) (post : list (op E U)) : km E V U :=
  run N (pre ++ OpAttach x y :: post) (km_new K nrm []).

(** The outcome of one more operation. *)
Definition outcome {E V U} (N : numops V) (o : op E U) (s : km E V U) : res (out V U) :=
  snd (step N o s).

(** The index selects every row and every column. *)
Definition selects_all (n m : nat) (ix : idx) : Prop := selection2 n m ix (seq 0 n) (seq 0 m).

Definition no_full_sparse {E U} (ops : list (op E U)) : Prop := ~ In OpFullSparse ops.
Definition no_whole_index {E U} (n m : nat) (ops : list (op E U)) : Prop :=
  forall ix, In (OpGetItem ix) ops -> ~ selects_all n m ix.
Definition no_normalisation {E U} (ops : list (op E U)) : Prop :=
  forall o, In o ops -> match o with OpNormalize _ | OpNormedKM => False | _ => True end.

(** ** Attributes: the value last set for [name] since the last accepted attach_to *)
Definition sample_shape {E} (x : ndarray E) : option (nat * nat) :=
  match nd_shape x with
  | n :: d :: extra => if forallb (Nat.eqb 1) extra then Some (n, d) else None
  | _ => None
  end.

Definition accepts {E} (x : ndarray E) (y : option (ndarray E)) : bool :=
  match sample_shape x, y with
  | None, _ => false
  | Some _, None => true
  | Some (_, d), Some y' =>
      match sample_shape y' with Some (_, d') => Nat.eqb d d' | None => false end
  end.

Fixpoint last_value {E U} (name : string) (ops : list (op E U)) (current : option U) : option U :=
  match ops with
  | [] => current
  | OpSetAttr name' v :: rest =>
      last_value name rest (if String.eqb name' name then Some v else current)
  | OpAttach x y :: rest => last_value name rest (if accepts x y then None else current)
  | _ :: rest => last_value name rest current
  end.
