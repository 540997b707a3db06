(** Vocabulary for the accuracy of kernels in double precision. *)
From Coq Require Import ZArith Bool List Reals Floats.SpecFloat.
From Verif Require Import Prelude FloatModel SpecFloats SpecFloatVal SpecLinAlg SpecKernels.
Local Open Scope R_scope.

(** A vector of [d] features: [x 0, ..., x (d-1)]. *)
Definition features (d : nat) (x : nat -> f64) : list f64 := map x (seq 0 d).

(** All of them are finite double precision numbers. *)
Definition doubles (d : nat) (x : nat -> f64) : Prop :=
  forall k, (k < d)%nat -> f_finite (x k) = true /\ valid_binary 53 1024 (x k) = true.

(** The numbers they stand for. *)
Definition vals (x : nat -> f64) (k : nat) : R := fval (x k).

(** The spacing of the doubles at 1, and the least positive double. *)
Definition eps : R := bpow (-52).
Definition least : R := bpow (-1074).

(** |x_0 y_0| + ... + |x_(d-1) y_(d-1)| *)
Definition absinner (d : nat) (x y : nat -> R) : R := rsum d (fun k => Rabs (x k * y k)).

(** [near a b x]: the number [x] is a finite double with |x - a| <= b. *)
Definition near (a b : R) (x : f64) : Prop := f_finite x = true /\ Rabs (fval x - a) <= b.

(** The platform's exponential of a number that is zero or negative is off by at most [delta]. *)
Definition exp_within (delta : R) (e : platform) : Prop :=
  forall v, f_finite v = true -> valid_binary 53 1024 v = true -> fval v <= 0 ->
    near (exp (fval v)) delta (e_exp e v).

(** The platform's hyperbolic tangent is off by at most [delta]. *)
Definition tanh_within (delta : R) (e : platform) : Prop :=
  forall v, f_finite v = true -> valid_binary 53 1024 v = true -> near (tanh (fval v)) delta (e_tanh e v).

(** The platform's [k]-th powers have relative error [delta], and at most the least positive number in
    addition. *)
Definition pow_within (delta : R) (k : nat) (e : platform) : Prop :=
  forall v, f_finite v = true -> valid_binary 53 1024 v = true -> Rabs (fval v) ^ k <= bpow 1010 ->
    near (fval v ^ k) (delta * Rabs (fval v) ^ k + least) (e_pow e v (fint (Z.of_nat k))) /\
    valid_binary 53 1024 (e_pow e v (fint (Z.of_nat k))) = true.

(** The platform's powers with exponent [alpha]: 0 for 0, and relative error [delta] as long as the result
    lies between 2^-400 and 2^500. *)
Definition powers_within (delta : R) (alpha : f64) (e : platform) : Prop :=
  (forall v, f_iszero v = true -> f_iszero (e_pow e v alpha) = true) /\
  (forall v, f_finite v = true -> valid_binary 53 1024 v = true -> 0 < fval v ->
     bpow (-400) <= Rpower (fval v) (fval alpha) <= bpow 500 ->
     near (Rpower (fval v) (fval alpha)) (delta * Rpower (fval v) (fval alpha)) (e_pow e v alpha) /\
     valid_binary 53 1024 (e_pow e v alpha) = true).

(** |r|^alpha, which is 0 for r = 0 (alpha > 0). *)
Definition abspower (alpha r : R) : R := if Req_EM_T r 0 then 0 else Rpower (Rabs r) alpha.

(** Zero, or neither very small nor very large. *)
Definition midsize (r : R) : Prop := r = 0 \/ bpow (-400) <= r <= bpow 500.

(** The sum of a b / (2 (a + b)) over all features, with a = |x_k|^alpha, b = |y_k|^alpha; features that are
    zero in both vectors do not count. *)
Definition hadamard_sum (d : nat) (alpha : R) (x y : nat -> R) : R :=
  rsum d (fun k => let a := abspower alpha (x k) in let b := abspower alpha (y k) in
                   if Req_EM_T (a + b) 0 then 0 else a * b / (2 * (a + b))).

(** c' A c >= - b for the quadratic form of [A]. *)
Definition almost_psd (n : nat) (A : nat -> nat -> R) (b : (nat -> R) -> R) : Prop :=
  forall c, - b c <= quad n A c.
