(** Vocabulary for statements about floating point. *)
From Coq Require Import ZArith Bool List Permutation Floats.SpecFloat.
Import ListNotations.
From Verif Require Import FloatModel.

(** A number, neither infinite nor NaN. *)
Definition f_finite (x : f64) : bool :=
  match x with S754_zero _ | S754_finite _ _ _ => true | _ => false end.

Definition f_iszero (x : f64) : bool := match x with S754_zero _ => true | _ => false end.

(** A number that is zero (of either sign) or positive, possibly infinite; not NaN. *)
Definition f_nonneg (x : f64) : bool :=
  match x with S754_zero _ => true | S754_finite s _ _ | S754_infinity s => negb s | S754_nan => false end.

(** [v] results from adding up the numbers in [l], with rounding, in some order and with some
    placement of the parentheses; zeros may be thrown in. *)
Inductive adds_up : list f64 -> f64 -> Prop :=
| adds_zero : forall s, adds_up [] (S754_zero s)
| adds_one : forall v, adds_up [v] v
| adds_plus : forall l1 l2 l a b,
    adds_up l1 a -> adds_up l2 b -> Permutation l (l1 ++ l2) -> adds_up l (fadd a b).

(** What is asked of the platform: sums are sums; squares by pow do not depend on the sign and are not
    negative, 0^2 = 0; exp(0) = 1 and the exponential of a number that is zero or negative lies between
    0 and 1. *)
Record decent (e : platform) : Prop := mkDecent {
  d_sum : forall l, adds_up l (e_sum e l);
  d_acc : forall l, adds_up l (e_acc e l);
  d_pow_even : forall v, e_pow e (fopp v) ftwo = e_pow e v ftwo;
  d_pow_nonneg : forall v, f_nonneg v = true -> f_nonneg (e_pow e v ftwo) = true;
  d_pow_zero : forall v, f_iszero v = true -> f_iszero (e_pow e v ftwo) = true;
  d_exp_zero : forall v, f_iszero v = true -> e_exp e v = fone;
  d_exp_range : forall v, f_nonneg (fopp v) = true ->
    f_nonneg (e_exp e v) = true /\ SFleb (e_exp e v) fone = true
}.

(** The same number: identical, or both zero (possibly of different sign). *)
Definition f_same (x y : f64) : Prop := x = y \/ (f_iszero x = true /\ f_iszero y = true).

(** The matrix [[2, 3], [3, 5]]: LinearKernel on the sample [[1, 1], [1, 2]]. *)
Definition lin2 (i j : nat) : f64 :=
  match i, j with
  | 0, 0 => fint 2
  | 0, _ | _, 0 => fint 3
  | _, _ => fint 5
  end.

(** A platform that sums from the right, whose pow squares and whose exp is 1, 0 or infinite. *)
Definition plain : platform :=
  mkPlatform (fun v => if f_iszero v then fone else if f_nonneg (fopp v) then fzero else S754_infinity false)
             (fun v => v) (fun v _ => fmul v v) (fold_right fadd fzero) (fold_right fadd fzero).
