(** Vocabulary for matrices of doubles. *)
From Coq Require Import ZArith Bool List Reals Floats.SpecFloat.
From Verif Require Import FloatModel SpecFloats SpecFloatVal SpecLinAlg SpecFloatErr.
Local Open Scope R_scope.

(** The numbers that the entries stand for. *)
Definition mvals (A : nat -> nat -> f64) (i j : nat) : R := fval (A i j).

(** An n x m matrix of finite doubles of magnitude at most [b]. *)
Definition doubles2 (n m : nat) (A : nat -> nat -> f64) (b : R) : Prop :=
  forall i j, (i < n)%nat -> (j < m)%nat ->
    f_finite (A i j) = true /\ valid_binary 53 1024 (A i j) = true /\ Rabs (mvals A i j) <= b.

(** The kernel matrix of LinearKernel on the sample 100000, 100001, 100002 (one feature). *)
Definition far3 (i j : nat) : f64 := fint ((100000 + Z.of_nat i) * (100000 + Z.of_nat j)).

(** The products i j. *)
Definition small3 (i j : nat) : f64 := fint (Z.of_nat i * Z.of_nat j).

(** A matrix whose centred matrix is zero. *)
Definition slope (i j : nat) : f64 := fint (1000000000 * (Z.of_nat i + Z.of_nat j + 1)).

(** A platform that sums from the left. *)
Definition plain_left : platform :=
  mkPlatform (e_exp plain) (e_tanh plain) (e_pow plain) (fun l => fold_left fadd l fzero)
             (fun l => fold_left fadd l fzero).
