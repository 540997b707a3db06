(** C45: what the constructor of KernelSet makes of an ndarray, for every shape.
    Generated by tools/split_props.py from ArraySetProps.v: statements only, each closed by [exact]. *)
From Coq Require Import String List Arith ZArith Bool Lia.
Import ListNotations.
From Verif Require Import Prelude MatModel UtilsModel IndexModel KMModel SpecKM ToyModel SetModel SpecSet.
From Verif Require Import MatFacts MFacts KMFacts KMInv KMHist KMProps SetFacts SetFacts2 SetProps.
From Verif Require Import ArraySetProps.
Local Open Scope list_scope.
Local Open Scope nat_scope.

(** a[i] for an array of shape (c, n, m), row-major. *)
Definition slice3 {V} (a : ndarray V) (n m i : nat) : ndarray V :=
  mkNd [n; m] (firstn (n * m) (skipn (i * (n * m)) (nd_data a))).

(** An array of shape (c, n, m) whose slices are accepted by KernelMatrixPrecomputed gives the set of its
    slices, in order; each becomes a new kernel matrix. Nothing else changes. *)
Theorem C45_array : forall E V U (N : numops V) (C : cmpops V) (numeric : list E -> bool) (w : world E V U)
    (a : ndarray V) c n m num As,
  nd_shape a = [c; n; m] -> length As = c ->
  (forall i A, nth_error As i = Some A -> precomputed_new C (v_nan N) (slice3 a n m i) = Ok A) ->
  num = None \/ num = Some n ->
  exists w' k, wstep N C numeric (WSetNew (KLArray a) num) w = (w', Ok (WSetRef k)) /\
    nth_error (w_sets w) k = None /\
    set_is w' k (if 0 <? c then NSOne n else match num with Some p => NSOne p | None => NSNone end)
           (seq (length (w_objs w)) c) /\
    w_objs w' = w_objs w ++ map OPre As /\ sets_kept w w'.
Proof. exact (@pf_C45_array). Qed.
Print Assumptions C45_array.

(** The entries of a member are those of the array. *)
Theorem C45_array_entries : forall V (C : cmpops V) d (a : ndarray V) c n m i A p q,
  length (nd_data a) = c * n * m -> i < c -> p < n -> q < m ->
  precomputed_new C d (slice3 a n m i) = Ok A ->
  mr A = n /\ mc A = m /\ mget d A p q = nth ((i * n + p) * m + q) (nd_data a) d.
Proof. exact (@pf_C45_array_entries). Qed.
Print Assumptions C45_array_entries.

(** A slice not accepted makes the construction fail with ValueError. *)
Theorem C45_array_bad_slice : forall E V U (N : numops V) (C : cmpops V) (numeric : list E -> bool) (w : world E V U)
    (a : ndarray V) c n m num i e,
  nd_shape a = [c; n; m] -> i < c -> precomputed_new C (v_nan N) (slice3 a n m i) = Raise e ->
  num = None \/ num = Some n ->
  snd (wstep N C numeric (WSetNew (KLArray a) num) w) = Raise ValueError.
Proof. exact (@pf_C45_array_bad_slice). Qed.
Print Assumptions C45_array_bad_slice.

(** A number of samples that the slices do not have: the first slice decides how it fails. *)
Theorem C45_array_number : forall E V U (N : numops V) (C : cmpops V) (numeric : list E -> bool) (w : world E V U)
    (a : ndarray V) c n m p,
  nd_shape a = [S c; n; m] -> p <> n ->
  snd (wstep N C numeric (WSetNew (KLArray a) (Some p)) w) =
  Raise (match precomputed_new C (v_nan N) (slice3 a n m 0) with Ok _ => KMSetAdditionError | Raise _ => ValueError end).
Proof. exact (@pf_C45_array_number). Qed.
Print Assumptions C45_array_number.

(** Every other shape: no dimension, a TypeError (iteration over a 0-d array); first dimension zero, the
    empty set; otherwise ValueError, since what iteration yields is not a matrix. *)
Theorem C45_array_shapes : forall E V U (N : numops V) (C : cmpops V) (numeric : list E -> bool) (w : world E V U)
    (a : ndarray V) num,
  (nd_shape a = [] -> snd (wstep N C numeric (WSetNew (KLArray a) num) w) = Raise TypeError) /\
  (forall rest, nd_shape a = 0 :: rest ->
     exists w' k, wstep N C numeric (WSetNew (KLArray a) num) w = (w', Ok (WSetRef k)) /\
       set_is w' k (match num with Some p => NSOne p | None => NSNone end) [] /\ w_objs w' = w_objs w) /\
  (forall c rest, nd_shape a = S c :: rest -> length rest <> 2 ->
     snd (wstep N C numeric (WSetNew (KLArray a) num) w) = Raise ValueError).
Proof. exact (@pf_C45_array_shapes). Qed.
Print Assumptions C45_array_shapes.

(** Two symmetric 2 x 2 matrices in one array; and with the second spoilt. *)
Theorem C45_array_example :
  let a := mkNd [2; 2; 2] [Some 1; Some 2; Some 2; Some 5; Some 7; Some 0; Some 0; Some 7]%Z in
  let b := mkNd [2; 2; 2] [Some 1; Some 2; Some 2; Some 5; Some 7; Some 0; Some 1; Some 7]%Z in
  set_is (fst (wstep toyN toyC anynum (WSetNew (KLArray a) None) (w_empty : world _ _ Z))) 0 (NSOne 2) [0; 1] /\
  nth_error (w_objs (fst (wstep toyN toyC anynum (WSetNew (KLArray a) None) (w_empty : world _ _ Z)))) 1
    = Some (OPre (mkMat 2 2 [[Some 7; Some 0]; [Some 0; Some 7]]%Z)) /\
  snd (wstep toyN toyC anynum (WSetNew (KLArray b) None) (w_empty : world _ _ Z)) = Raise ValueError /\
  snd (wstep toyN toyC anynum (WSetNew (KLArray a) (Some 3)) (w_empty : world _ _ Z)) = Raise KMSetAdditionError.
Proof. exact (@pf_C45_array_example). Qed.
Print Assumptions C45_array_example.
