(** center_km, frobenius_product, frobenius_norm, alignment_centered, linear_combination of
    kernelmethods/operations.py and not_symmetric of utils.py in IEEE 754 double precision (FloatModel.v).
    Checks of types and shapes are in OpsModel.v. *)
From Coq Require Import ZArith Bool List Arith Floats.SpecFloat.
Import ListNotations.
From Verif Require Import Prelude KernelsModel FloatModel.

(** The default tolerances of np.isclose, the doubles 1e-8 and 1e-5. *)
Definition f_atol : f64 := S754_finite false 6044629098073146 (-79).
Definition f_rtol : f64 := S754_finite false 5902958103587057 (-69).

(** np.isclose(a, b) *)
Definition f_isfinite (x : f64) : bool :=
  match x with S754_zero _ | S754_finite _ _ _ => true | _ => false end.
Definition fisclose (a b : f64) : bool :=
  if f_isfinite a && f_isfinite b
  then SFleb (fabs (fsub a b)) (fadd f_atol (fmul f_rtol (fabs b)))
  else SFeqb a b.

(** utils.py:135-141 on an n x n matrix; the same test is in operations.py:69. *)
Definition fnot_symmetric (n : nat) (A : nat -> nat -> f64) : bool :=
  negb (forallb (fun i => forallb (fun j => fisclose (A i j) (A j i)) (seq 0 n)) (seq 0 n)).

Section Ops.
  Variable e : platform.

  (** operations.py:136-139: [np.eye(n) - np.ones((n, n)) / n], and the two matrix products. *)
  Definition fcentering (n i j : nat) : f64 :=
    fsub (if Nat.eqb i j then fone else fzero) (fdiv fone (fint (Z.of_nat n))).
  Definition fcenter (n : nat) (K : nat -> nat -> f64) : nat -> nat -> f64 :=
    fmatmul e n (fmatmul e n (fcentering n) K) (fcentering n).

  (** operations.py:286: the sum of all products of entries of two n x m matrices. *)
  Definition ffrobenius (n m : nat) (A B : nat -> nat -> f64) : f64 :=
    e_sum e (map (fun k => fmul (A (k / m) (k mod m)) (B (k / m) (k mod m))) (seq 0 (n * m))).

  (** operations.py:305. *)
  Definition ffrobenius_norm (n m : nat) (A : nat -> nat -> f64) : f64 := fsqrt (ffrobenius n m A A).

  (** operations.py:353-376 on n x n matrices; [value] is value_if_zero_division, None for 'raise'. *)
  Definition falignment (n : nat) (A B : nat -> nat -> f64) (value : option f64) (centred_already : bool) : res f64 :=
    let a := if centred_already then A else fcenter n A in
    let b := if centred_already then B else fcenter n B in
    let na := ffrobenius_norm n n a in
    let nb := ffrobenius_norm n n b in
    if fisclose na fzero || fisclose nb fzero
    then match value with Some v => Ok v | None => Raise ValueError end
    else Ok (fdiv (ffrobenius n n a b) (fmul na nb)).

  (** operations.py:417-429, entry (i, j) of the combination of the matrices [Ks]; [weights / denom] when
      [norm_weights]. *)
  Definition fweights (norm_weights : bool) (w : list f64) : res (list f64) :=
    if norm_weights
    then let denom := e_sum e w in
         if fisclose denom fzero then Raise RuntimeError else Ok (map (fun v => fdiv v denom) w)
    else Ok w.
  Definition fcombine (w : list f64) (Ks : list (nat -> nat -> f64)) (i j : nat) : f64 :=
    fold_left (fun acc p => fadd acc (fmul (fst p) (snd p i j))) (combine w Ks) fzero.
  Definition flinear_combination (norm_weights : bool) (w : list f64) (Ks : list (nat -> nat -> f64))
    : res (nat -> nat -> f64) :=
    if Nat.eqb (length Ks) (length w)
    then res_map (fun w' => fcombine w' Ks) (fweights norm_weights w)
    else Raise ValueError.
End Ops.
