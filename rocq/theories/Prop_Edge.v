(** Exact values where the other theorems assume finite or square input: sparse Frobenius products (C22), the
    diagonal of a precomputed row (C46), HadamardKernel on infinite and NaN features (C95).
    Generated by tools/split_props.py from EdgeProps.v: statements only, each closed by [exact]. *)
From Coq Require Import String Reals List Bool Arith Lra Lia Psatz.
Import ListNotations.
From Verif Require Import Prelude MatModel MatFacts UtilsModel KMModel XReal OpsModel KMXModel SetModel SpecSet SpecLinAlg RSum PSDFacts OpsFacts.
From Verif Require Import KernelsModel KernelFacts ContProps.
Local Open Scope R_scope.
From Verif Require Import EdgeProps.
Local Open Scope R_scope.

(** C22 for two scipy.sparse matrices: what is returned is the sum of the entries of their MATRIX product; it
    exists for square matrices only. *)
Theorem C22_sparse : forall n m A B,
  frobenius_product (mkArr Lil (rmat n m A)) (mkArr Lil (rmat n m B)) =
  if (n =? m)%nat then Ok (Fin (rsum n (fun i => rsum n (fun j => rsum n (fun k => A i k * B k j)))))
  else Raise ValueError.
Proof. exact (@pf_C22_sparse). Qed.
Print Assumptions C22_sparse.

(** C46: whatever the shape of an accepted array (C46_one_row), full is the array, diag its diagonal, which
    ends with the shorter side, and size its number of rows. *)
Theorem C46_observers_any : forall n m (f : nat -> nat -> xr) A,
  precomputed_new xC NaN (array2 n m f) = Ok A ->
  precomputed_full A = mkArr Dense (tabulate n m f) /\
  precomputed_diag NaN A = map (fun i => f i i) (seq 0 (Nat.min n m)) /\ precomputed_size A = n.
Proof. exact (@pf_C46_observers_any). Qed.
Print Assumptions C46_observers_any.

(** |v|^alpha where it is a number: for alpha > 0 every finite v, for alpha < 0 every v but 0 (an infinite one
    counts 0). [None] where it is infinite. *)
Definition magnitude (alpha : R) (v : xr) : option R :=
  match v with
  | Fin r => if Req_EM_T r 0 then (if Rlt_dec 0 alpha then Some 0 else None) else Some (Rpower (Rabs r) alpha)
  | _ => if Rlt_dec 0 alpha then None else Some 0
  end.

(** What a feature adds: half the harmonic kernel of the magnitudes, nothing if both vanish or one value is
    NaN; no number if a magnitude is infinite. *)
Definition hadamard_term (alpha : R) (u v : xr) : option R :=
  match u, v with
  | NaN, _ | _, NaN => Some 0
  | _, _ =>
      match magnitude alpha u, magnitude alpha v with
      | Some a, Some b => Some (if Req_EM_T (a + b) 0 then 0 else a * b / (2 * (a + b)))
      | _, _ => None
      end
  end.

(** HadamardKernel on any features, also infinite or NaN ones, for every alpha its constructor accepts and
    more: the sum of what the features add, NaN as soon as one of them has no number to add. *)
Theorem C95_hadamard_exact : forall alpha d (x y : nat -> xr), alpha <> 0 ->
  ((forall k, (k < d)%nat -> hadamard_term alpha (x k) (y k) <> None) ->
     kernel_value (KHadamard alpha) (map x (seq 0 d)) (map y (seq 0 d)) =
     Ok (Fin (rsum d (fun k => match hadamard_term alpha (x k) (y k) with Some t => t | None => 0 end)))) /\
  ((exists k, (k < d)%nat /\ hadamard_term alpha (x k) (y k) = None) ->
     kernel_value (KHadamard alpha) (map x (seq 0 d)) (map y (seq 0 d)) = Ok NaN).
Proof. exact (@pf_C95_hadamard_exact). Qed.
Print Assumptions C95_hadamard_exact.

(** With alpha = -1: an infinite feature adds nothing, a zero makes the value NaN, a NaN is left out;
    with alpha = 1 an infinite feature makes it NaN. *)
Theorem C95_hadamard_example :
  hadamard_term (-1) PInf (Fin 2) = Some 0 /\ hadamard_term (-1) (Fin 0) (Fin 2) = None /\
  hadamard_term (-1) NaN (Fin 0) = Some 0 /\ hadamard_term 1 PInf (Fin 0) = None /\
  hadamard_term 1 (Fin 2) (Fin (-2)) = Some (1/2).
Proof. exact (@pf_C95_hadamard_example). Qed.
Print Assumptions C95_hadamard_example.
