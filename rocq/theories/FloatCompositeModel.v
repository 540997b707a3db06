(** The composite kernels of kernelmethods/base.py in IEEE 754 double precision (FloatModel.v), on the entries of
    the kernel matrices [Ks] of the members, plain ndarrays. The objects, their states and errors are in
    CompositeModel.v. *)
From Coq Require Import ZArith Bool List Arith Floats.SpecFloat.
Import ListNotations.
From Verif Require Import Prelude FloatModel FloatOpsModel.

(** base.py:1460-1471, SumKernel.fit; the weights are np.ones(size) when none are given. [fcombine] is
    [KM = zeros; KM = KM + weight * km.full] over all members. *)
Definition fsum_kernel (kernel_weights : option (list f64)) (Ks : list (nat -> nat -> f64)) : res (nat -> nat -> f64) :=
  match kernel_weights with
  | None => Ok (fcombine (repeat fone (length Ks)) Ks)
  | Some w => if Nat.eqb (length w) (length Ks) then Ok (fcombine w Ks) else Raise ValueError
  end.

(** base.py:1571-1573, WeightedAverageKernel.fit; the constructor (1560) has compared the lengths. *)
Definition fweighted_kernel (w : list f64) (Ks : list (nat -> nat -> f64)) : nat -> nat -> f64 := fcombine w Ks.

(** base.py:1499-1501, ProductKernel.fit *)
Definition fproduct_kernel (Ks : list (nat -> nat -> f64)) (i j : nat) : f64 :=
  fold_left (fun acc K => fmul acc (K i j)) Ks fone.

(** base.py:1528-1533, AverageKernel.fit *)
Definition faverage_kernel (Ks : list (nat -> nat -> f64)) (i j : nat) : f64 :=
  fdiv (fold_left (fun acc K => fadd acc (K i j)) Ks fzero) (fint (Z.of_nat (length Ks))).
