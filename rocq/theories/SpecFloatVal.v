(** The real numbers that floats stand for. *)
From Coq Require Import ZArith Bool Reals Floats.SpecFloat.
From Verif Require Import FloatModel SpecFloats.
Local Open Scope R_scope.

(** 2^e *)
Definition bpow (e : Z) : R := powerRZ 2 e.

(** The number a finite float stands for. *)
Definition fval (x : f64) : R :=
  match x with
  | S754_finite s m e => (if s then -1 else 1) * (IZR (Z.pos m) * bpow e)
  | _ => 0
  end.

(** Normal numbers: 53 significant binary digits, exponent in the range of double precision. *)
Definition normal (x : f64) : Prop :=
  match x with
  | S754_finite _ m e => digits2_pos m = 53%positive /\ (-1074 <= e <= 971)%Z
  | _ => False
  end.

(** K_ij / (sqrt(K_ii) sqrt(K_jj)), computed exactly. *)
Definition exact_norm (K : nat -> nat -> f64) (i j : nat) : R :=
  fval (K i j) / (sqrt (fval (K i i)) * sqrt (fval (K j j))).

(** A matrix whose normalization neither overflows nor underflows: the diagonal lies between 2^-100 (the
    code asks for more than 10^-8) and 2^1000, and every entry is zero or normal with a normalized value
    between 2^-900 and 2^400 in magnitude. *)
Definition moderate (n : nat) (K : nat -> nat -> f64) : Prop :=
  (forall i, (i < n)%nat -> normal (K i i) /\ bpow (-100) <= fval (K i i) <= bpow 1000) /\
  (forall i j, (i < n)%nat -> (j < n)%nat ->
     f_iszero (K i j) = true \/
     (normal (K i j) /\ bpow (-900) <= Rabs (exact_norm K i j) <= bpow 400)).
