(** KernelMatrixPrecomputed and ConstantKernelMatrix: properties C46 and C47.
    Generated by tools/split_props.py from ContProps.v: statements only, each closed by [exact]. *)
From Coq Require Import String Reals List Arith ZArith Bool Lia Lra Sorting.Sorted.
Import ListNotations.
From Verif Require Import Prelude MatModel UtilsModel IndexModel KMModel SpecKM XReal SetModel SpecSet.
From Verif Require Import MatFacts KMIndex.
From Verif Require Import ContProps.
Local Open Scope list_scope.
Local Open Scope nat_scope.

(** Comparison of numbers as in the library: np.isclose with its default tolerances. Real arrays
    only ([np.isreal] holds of every entry). *)
Definition xC : cmpops xr := mkCmp xisclose (fun _ => true).

(** The documented meaning: finite numbers within 1e-8 + 1e-5 |b|; equal infinities; never NaN. *)
Definition close (a b : xr) : Prop :=
  match a, b with
  | Fin r, Fin s => (Rabs (r - s) <= 1/100000000 + 1/100000 * Rabs s)%R
  | PInf, PInf | NInf, NInf => True
  | _, _ => False
  end.

(** C46 (partial: not for arrays with exactly one row or one column but not 1 x 1, see
    C46_one_row_refuted). A square array is accepted if and only if every entry is close to its
    mirror entry, otherwise ValueError; the object then holds exactly this matrix. *)
Theorem C46_square_partial :
  forall n (f : nat -> nat -> xr),
    ((forall i j, i < n -> j < n -> close (f i j) (f j i)) ->
     precomputed_new xC NaN (array2 n n f) = Ok (tabulate n n f)) /\
    (~ (forall i j, i < n -> j < n -> close (f i j) (f j i)) ->
     precomputed_new xC NaN (array2 n n f) = Raise ValueError).
Proof. exact (@pf_C46_square_partial). Qed.
Print Assumptions C46_square_partial.

(** C46, arrays that are not square: ValueError, if no axis has length one. *)
Theorem C46_not_square_partial :
  forall n m (f : nat -> nat -> xr), n <> m -> n <> 1 -> m <> 1 ->
    precomputed_new xC NaN (array2 n m f) = Raise ValueError.
Proof. exact (@pf_C46_not_square_partial). Qed.
Print Assumptions C46_not_square_partial.

(** C46, arrays that are not 2-dimensional: ValueError. *)
Theorem C46_not_2D :
  forall {V} (C : cmpops V) d (a : ndarray V), length (nd_shape a) <> 2 ->
    precomputed_new C d a = Raise ValueError.
Proof. exact (@pf_C46_not_2D). Qed.
Print Assumptions C46_not_2D.

(** C46, what actually happens to arrays with one row or one column: they are accepted if and only
    if all pairs of entries are close, and rejected otherwise. *)
Theorem C46_one_row :
  forall m (v : nat -> xr), m <> 1 ->
    ((forall i j, i < m -> j < m -> close (v i) (v j)) ->
     precomputed_new xC NaN (array2 1 m (fun _ j => v j)) = Ok (tabulate 1 m (fun _ j => v j)) /\
     precomputed_new xC NaN (array2 m 1 (fun i _ => v i)) = Ok (tabulate m 1 (fun i _ => v i))) /\
    (~ (forall i j, i < m -> j < m -> close (v i) (v j)) ->
     precomputed_new xC NaN (array2 1 m (fun _ j => v j)) = Raise ValueError /\
     precomputed_new xC NaN (array2 m 1 (fun i _ => v i)) = Raise ValueError).
Proof. exact (@pf_C46_one_row). Qed.
Print Assumptions C46_one_row.

(** C46 is false: a 1 x 2 array, not square, is accepted. *)
Theorem C46_one_row_refuted :
  exists n m (f : nat -> nat -> xr) A, n <> m /\ precomputed_new xC NaN (array2 n m f) = Ok A.
Proof. exact (@pf_C46_one_row_refuted). Qed.
Print Assumptions C46_one_row_refuted.

(** C46, the observers: full is the matrix, diag its diagonal, size and num_samples its order. *)
Theorem C46_observers :
  forall {E U} n (f : nat -> nat -> xr) A,
    precomputed_new xC NaN (array2 n n f) = Ok A ->
    precomputed_full A = mkArr Dense (tabulate n n f) /\
    precomputed_diag NaN A = map (fun i => f i i) (seq 0 n) /\
    precomputed_size A = n /\ obj_num (OPre A : kobj E xr U) = NSOne n.
Proof. exact (@pf_C46_observers). Qed.
Print Assumptions C46_observers.

(** Not exactly symmetric but within the tolerance: accepted as it is. *)
Example C46_example :
  let f i j := Fin (if Nat.ltb i j then 2 else if Nat.ltb j i then 2 + 1/1000000 else 1)%R in
  (forall i j, i < 2 -> j < 2 -> close (f i j) (f j i)) /\
  ~ (forall i j, i < 2 -> j < 2 -> close (Fin (INR i)) (Fin (INR j))).
Proof.
  cbv zeta. split.
  - intros i j Hi Hj. destruct i as [|[|i]]; [| |lia]; destruct j as [|[|j]]; try lia; cbn [Nat.ltb Nat.leb];
      unfold close.
    + rewrite Rminus_diag_eq, Rabs_R0 by reflexivity. pose proof (Rabs_pos 1). lra.
    + rewrite Rabs_left by lra. rewrite Rabs_pos_eq by lra. lra.
    + rewrite !Rabs_pos_eq by lra. lra.
    + rewrite Rminus_diag_eq, Rabs_R0 by reflexivity. pose proof (Rabs_pos 1). lra.
  - intros H. specialize (H 1 0 ltac:(lia) ltac:(lia)). cbn in H. rewrite Rminus_0_r, Rabs_R0 in H.
    rewrite Rabs_pos_eq in H by lra. lra.
Qed.

(** C47, full and diag. *)
Theorem C47_full_diag :
  forall {V} (c : cmatrix V),
    const_full c = tabulate (c_size c) (c_size c) (fun _ _ => c_value c) /\
    length (const_diag c) = c_size c /\ Forall (fun v => v = c_value c) (const_diag c).
Proof. exact (@pf_C47_full_diag). Qed.
Print Assumptions C47_full_diag.

(** C47, valid index expressions (also with negative or omitted slice bounds, repeated indices,
    numbers truncated to integers): the constant matrix with one row per distinct selected row index
    and one column per distinct selected column index. *)
Theorem C47_getitem :
  forall {V} (c : cmatrix V) a b rows cols,
    cvalid (c_size c) a -> cvalid (c_size c) b ->
    cselection (c_size c) a rows -> cselection (c_size c) b cols ->
    const_getitem c (Some (a, b))
    = Ok (tabulate (length rows) (length cols) (fun _ _ => c_value c)).
Proof. exact (@pf_C47_getitem). Qed.
Print Assumptions C47_getitem.

(** C47 (partial: see the refutations for empty selections, slices with step 0 and elements that
    are not numbers). Invalid expressions raise KMAccessError: an index out of range along either
    dimension (the other dimension being readable), a str, None or other object, brackets without
    exactly two expressions. *)
Theorem C47_invalid_partial :
  forall {V} (c : cmatrix V),
    const_getitem c None = Raise KMAccessError /\
    (forall a b z, creadable a -> cdenotes (c_size c) a z -> ~ (0 <= z < Z.of_nat (c_size c))%Z ->
       const_getitem c (Some (a, b)) = Raise KMAccessError) /\
    (forall a b z, cvalid (c_size c) a ->
       creadable b -> cdenotes (c_size c) b z -> ~ (0 <= z < Z.of_nat (c_size c))%Z ->
       const_getitem c (Some (a, b)) = Raise KMAccessError) /\
    (forall a b, a = CIStrNone \/ a = CIOther -> const_getitem c (Some (a, b)) = Raise KMAccessError) /\
    (forall a b, cvalid (c_size c) a -> b = CIStrNone \/ b = CIOther ->
       const_getitem c (Some (a, b)) = Raise KMAccessError).
Proof. exact (@pf_C47_invalid_partial). Qed.
Print Assumptions C47_invalid_partial.

(** C47 is false for empty selections, all of them: NameError. *)
Theorem C47_empty_refuted :
  (forall {V} (c : cmatrix V) a b, creadable a -> (forall z, ~ cdenotes (c_size c) a z) ->
     const_getitem c (Some (a, b)) = Raise NameError) /\
  exists c : cmatrix Z, const_getitem c (Some (CISlice (Some 2) (Some 2) None, CIInt 0))%Z = Raise NameError.
Proof. exact (@pf_C47_empty_refuted). Qed.
Print Assumptions C47_empty_refuted.

(** C47 is false for slices with step 0 (ValueError) and for elements that are not numbers (the
    exception of int()). *)
Theorem C47_unreadable_refuted :
  exists c : cmatrix Z,
    const_getitem c (Some (CISlice None None (Some 0), CIInt 0))%Z = Raise ValueError /\
    const_getitem c (Some (CIIter [CInt 0; CBad TypeError], CIInt 0))%Z = Raise TypeError.
Proof. exact (@pf_C47_unreadable_refuted). Qed.
Print Assumptions C47_unreadable_refuted.

Example C47_example :
  let c := mkConst 4 7%Z in
  const_getitem c (Some (CISlice (Some (-3)) None (Some 2), CIIter [CInt 3; CFloat 0; CInt 3]))%Z
  = Ok (mkMat 2 2 [[7; 7]; [7; 7]]%Z) /\
  const_getitem c (Some (CIInt 4, CIInt 0))%Z = Raise KMAccessError /\
  cvalid 4 (CIIter [CInt 3; CFloat 0; CInt 3])%Z /\ cselection 4 (CIIter [CInt 3; CFloat 0; CInt 3])%Z [0; 3].
Proof.
  cbv zeta. split; [vm_compute; reflexivity|]. split; [vm_compute; reflexivity|]. split; [split; [|split]|split].
  - intros e H. cbn in H. intuition discriminate.
  - exists 3%Z. left. left. reflexivity.
  - intros z H. cbn in H. intuition (match goal with H : _ = _ |- _ => inversion H end; lia).
  - repeat constructor; lia.
  - intros i. cbn. split.
    + intros [<-|[<-|[]]]; cbn; auto.
    + intros H. intuition (try discriminate);
        match goal with H : _ = _ |- _ => inversion H as [H1] end; lia.
Qed.
