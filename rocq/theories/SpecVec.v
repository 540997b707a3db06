(** Vocabulary to state properties of kernels on arrays of any dtype. *)
From Coq Require Import Reals List Arith ZArith.
Import ListNotations.
From Verif Require Import Prelude MatModel XReal IntModel SpecInt VecModel.
Local Open Scope Z_scope.

(** Every number of the first dtype is one of the second; the smallest dtype for the numbers of two. *)
Definition subtype (s p : itype) : Prop := forall z, fits s z -> fits p z.
Definition common_type (s t p : itype) : Prop :=
  subtype s p /\ subtype t p /\ forall q, subtype s q -> subtype t q -> subtype p q.

(** The numbers in an array of d elements: float64, or an integer dtype. *)
Inductive num : Type := NFloat (x : nat -> xr) | NInt (t : itype) (x : nat -> Z).
Definition num_vec (d : nat) (u : num) : vec :=
  match u with
  | NFloat x => VFloat (map x (seq 0 d))
  | NInt t x => VInt t (map x (seq 0 d))
  end.
Definition num_floats (d : nat) (u : num) : list xr :=
  match u with
  | NFloat x => map x (seq 0 d)
  | NInt t x => map (fun i => Fin (IZR (x i))) (seq 0 d)
  end.

(** For HadamardKernel: the powers of the elements are representable in the dtype of their array. *)
Definition own_powers (k : ikernel) (d : nat) (u : num) : Prop :=
  match k, u with
  | IHadamard a, NInt t x =>
      (1 <= a)%nat /\ forall i, (i < d)%nat -> fits t (Z.abs (x i)) /\ fits t (Z.abs (x i) ^ Z.of_nat a)
  | _, _ => True
  end.

(** Without validation Chi2Kernel computes with integers. *)
Definition safe_chi2 (t : itype) (k : ikernel) (d : nat) (x y : nat -> Z) : Prop :=
  match k with
  | IChi2 _ => forall i, (i < d)%nat -> fits t ((x i - y i) * (x i - y i)) /\ fits t (x i + y i)
  | _ => True
  end.

(** The integers that occur in the formula of the kernel are representable: in the common dtype of two
    integer arrays, if there is one; otherwise numpy computes with floats. *)
Definition sound (skip : bool) (k : ikernel) (d : nat) (u v : num) : Prop :=
  own_powers k d u /\ own_powers k d v /\
  match u, v with
  | NInt s x, NInt t y =>
      forall p, common_type s t p -> safe p k d x y /\ (skip = true -> safe_chi2 p k d x y)
  | _, _ => True
  end.

(** dtypes whose differences do not wrap to the other sign: at least one float or signed array. *)
Definition unsigned (v : vec) : Prop :=
  match v with VFloat _ => False | VInt t _ => i_signed t = false | VBool _ => True end.

(** An n x d sample of numbers of one dtype, or of booleans. *)
Inductive data : Type :=
| DFloat (X : nat -> nat -> R) | DInt (t : itype) (X : nat -> nat -> Z) | DBool (X : nat -> nat -> bool).
Definition data_elt (D : data) (i q : nat) : elt :=
  match D with DFloat X => EF (Fin (X i q)) | DInt t X => EI t (X i q) | DBool X => EB (X i q) end.
Definition data_sample (n d : nat) (D : data) : ndarray elt :=
  mkNd [n; d] (flat_map (fun i => map (data_elt D i) (seq 0 d)) (seq 0 n)).
Definition boolean (D : data) : Prop := exists X, D = DBool X.

(** The numbers in a row; True and False count as 1 and 0. *)
Definition bit (b : bool) : R := if b then 1%R else 0%R.
Definition data_row (D : data) (i : nat) : num :=
  match D with
  | DFloat X => NFloat (fun q => Fin (X i q))
  | DInt t X => NInt t (X i)
  | DBool X => NFloat (fun q => Fin (bit (X i q)))
  end.
Definition data_real (D : data) (i q : nat) : R :=
  match D with DFloat X => X i q | DInt _ X => IZR (X i q) | DBool X => bit (X i q) end.
