(** A KernelMatrixPrecomputed and the array it shares with its caller (C114).
    Generated by tools/split_props.py from PreProps.v: statements only, each closed by [exact]. *)
From Coq Require Import List Arith Bool Reals Lia Lra.
Import ListNotations.
From Verif Require Import Prelude MatModel UtilsModel KMModel XReal SetModel SpecSet PreModel.
From Verif Require Import MatFacts ContProps.
From Verif Require Import PreProps.

(** What an operation writes into entry (i, j) of the matrix: with [shared] the argument of the constructor is the
    array itself. *)
Definition written (shared : bool) (o : @pop xr) (i j : nat) : option xr :=
  match o with
  | PWrite HArg a b v => if shared && (a =? i) && (b =? j) then Some v else None
  | PWrite HFull a b v => if (a =? i) && (b =? j) then Some v else None
  | PWrite (HRow r) _ b v => if (r =? i) && (b =? j) then Some v else None
  | PWrite (HBlock p q) a b v => if (p + a =? i) && (q + b =? j) then Some v else None
  | _ => None
  end.
(** The last value written into entry (i, j), or [v]. *)
Definition entry_after (shared : bool) (l : list pop) (v : xr) (i j : nat) : xr :=
  fold_left (fun u o => match written shared o i j with Some w => w | None => u end) l v.
(** The same for the argument of the constructor, if it is not shared. *)
Definition own_after (l : list (@pop xr)) (v : xr) (i j : nat) : xr :=
  fold_left (fun u o => match o with PWrite HArg a b w => if (a =? i) && (b =? j) then w else u | _ => u end) l v.

(** The constructor accepts every n by n array that is symmetric up to the tolerance of allclose. *)
Theorem C114_init : forall n f shared, (forall i j, i < n -> j < n -> close (f i j) (f j i)) ->
  exists s, pre_init xC NaN shared (array2 n n f) = Ok s /\ p_num s = n /\ pre_full s = tabulate n n f.
Proof. exact (@pf_C114_init). Qed.
Print Assumptions C114_init.

(** Entry (i, j) of [full] is, at any time, the value last written to it: through [full], a row [km[r]], a
    block [km[a:, c:]], or the argument of the constructor if that was an ndarray; otherwise the entry of the
    argument. Nothing else changes it. *)
Theorem C114_full : forall n m f shared s l,
  pre_init xC NaN shared (array2 n m f) = Ok s ->
  pre_full (pre_run l s) = tabulate n m (fun i j => entry_after shared l (f i j) i j).
Proof. exact (@pf_C114_full). Qed.
Print Assumptions C114_full.

(** Indexing and [diag] read these entries; an index beyond the size raises KMAccessError. *)
Theorem C114_reads : forall n m f shared s l i j,
  pre_init xC NaN shared (array2 n m f) = Ok s ->
  pre_item NaN i j (pre_run l s)
    = (if (i <? n) && (j <? m) then Ok (entry_after shared l (f i j) i j) else Raise KMAccessError) /\
  pre_diag NaN (pre_run l s) = map (fun k => entry_after shared l (f k k) k k) (seq 0 (Nat.min n m)).
Proof. exact (@pf_C114_reads). Qed.
Print Assumptions C114_reads.

(** [size] is that of the array, also after assignments to [num_samples]. *)
Theorem C114_size : forall n m f shared s l,
  pre_init xC NaN shared (array2 n m f) = Ok s ->
  p_num s = n /\ pre_size (pre_run l s) = n /\
  (forall k, p_num (pre_run (l ++ [PSetNum k]) s) = k /\ pre_size (pre_run (l ++ [PSetNum k]) s) = n).
Proof. exact (@pf_C114_size). Qed.
Print Assumptions C114_size.

(** An ndarray given to the constructor and [full] are the same array at any time. *)
Theorem C114_same : forall n m f s l,
  pre_init xC NaN true (array2 n m f) = Ok s ->
  array_at (pre_run l s) (p_arg (pre_run l s)) = pre_full (pre_run l s).
Proof. exact (@pf_C114_same). Qed.
Print Assumptions C114_same.

(** A list given to the constructor has, at any time, the entries last written into it itself, and
    writing into it does not change [full]. *)
Theorem C114_list : forall n m f s l,
  pre_init xC NaN false (array2 n m f) = Ok s ->
  array_at (pre_run l s) (p_arg (pre_run l s)) = tabulate n m (fun i j => own_after l (f i j) i j) /\
  (forall i j v, pre_full (pre_run (l ++ [PWrite HArg i j v]) s) = pre_full (pre_run l s)).
Proof. exact (@pf_C114_list). Qed.
Print Assumptions C114_list.

(** The symmetry tested by the constructor is not kept: for every n above 1 and every accepted array there is one
    write of a finite number into [full], and, if the argument was an ndarray, one into the argument, after which the
    constructor would reject the matrix that [full] returns. *)
Theorem C114_refuted : forall n f, 1 < n -> (forall i j, i < n -> j < n -> close (f i j) (f j i)) ->
  exists r, forall h shared s, (h = HFull \/ h = HArg /\ shared = true) ->
    pre_init xC NaN shared (array2 n n f) = Ok s ->
    exists g, pre_full (pre_step (PWrite h 0 1 (Fin r)) s) = tabulate n n g /\
              precomputed_new xC NaN (array2 n n g) = Raise ValueError.
Proof. exact (@pf_C114_refuted). Qed.
Print Assumptions C114_refuted.

(** A case: the 2 by 2 identity given as an ndarray; 5 is written into entry (0, 1) of the argument, then 7
    into item 1 of the row [km[0]], 3 into the block [km[1:, 1:]], 9 beyond the array, and 8 into a copy. *)
Theorem C114_example :
  let f := fun i j : nat => if i =? j then Fin 1 else Fin 0 in
  exists s, pre_init xC NaN true (array2 2 2 f) = Ok s /\
    pre_full (pre_run [PWrite HArg 0 1 (Fin 5); PWrite (HRow 0) 0 1 (Fin 7); PWrite (HBlock 1 1) 0 0 (Fin 3);
                       PWrite HFull 2 0 (Fin 9); PWrite HCopy 1 0 (Fin 8); PSetNum 6] s)
      = mkMat 2 2 [[Fin 1; Fin 7]; [Fin 0; Fin 3]].
Proof. exact (@pf_C114_example). Qed.
Print Assumptions C114_example.

(** A case that is not square: a 1 by 2 ndarray of 3s is accepted; after 5 is written into item 1 of the row [km[0]]
    and 9 into entry (1, 0), which is beyond the array, [size] is 1 and [full] is [[3, 5]]. *)
Theorem C114_row_example :
  exists s, pre_init xC NaN true (array2 1 2 (fun _ _ => Fin 3)) = Ok s /\
    let s' := pre_run [PWrite (HRow 0) 0 1 (Fin 5); PWrite HFull 1 0 (Fin 9)] s in
    pre_full s' = mkMat 1 2 [[Fin 3; Fin 5]] /\ pre_size s' = 1.
Proof. exact (@pf_C114_row_example). Qed.
Print Assumptions C114_row_example.
