(** Vocabulary to state properties of kernels with integer parameters, in terms of unbounded integers. *)
From Coq Require Import Reals List Arith ZArith.
Import ListNotations.
From Verif Require Import MatModel XReal IntModel SpecInt IntParamModel.
Local Open Scope Z_scope.

(** The integer at the heart of the kernel: the polynomial, or the argument of exp or tanh. *)
Definition integer_of (k : pkernel) (d : nat) (x y : nat -> Z) : Z :=
  match k with
  | PPoly degree gamma b => (b + gamma * zsum d (fun i => x i * y i)) ^ degree
  | PLaplacian gamma => - gamma * zsum d (fun i => Z.abs (x i - y i))
  | PSigmoid gamma offset => offset + gamma * zsum d (fun i => x i * y i)
  end.

(** What the kernel does with it. *)
Definition outer (k : pkernel) (r : R) : R :=
  match k with PPoly _ _ _ => r | PLaplacian _ => exp r | PSigmoid _ _ => tanh r end.

(** The part of it that is computed before a parameter comes in is representable. *)
Definition data_safe (t : itype) (k : pkernel) (d : nat) (x y : nat -> Z) : Prop :=
  match k with
  | PPoly _ _ _ | PSigmoid _ _ => fits t (zsum d (fun i => x i * y i))
  | PLaplacian _ => (forall i, (i < d)%nat -> fits t (x i - y i) /\ fits t (Z.abs (x i - y i)))
                    /\ fits (sum_type t) (zsum d (fun i => Z.abs (x i - y i)))
  end.

(** The degree is not negative. *)
Definition natural (k : pkernel) : Prop :=
  match k with PPoly degree _ _ => 0 <= degree | _ => True end.
