(** Numbers of the numerical part of the model: exact reals extended with the
    IEEE special values. numpy float64 arithmetic is modelled WITHOUT rounding,
    overflow or signed zeros; infinities and NaN arise and propagate exactly as in
    IEEE 754 (no trapping: numpy only warns). *)
From Coq Require Import Reals List Bool Lra.
Import ListNotations.
From Verif Require Import Prelude MatModel.
Local Open Scope R_scope.

Inductive xr : Type := Fin (r : R) | PInf | NInf | NaN.

Definition Rleb (a b : R) : bool := if Rle_dec a b then true else false.
Definition Rltb (a b : R) : bool := if Rlt_dec a b then true else false.
Definition Reqb (a b : R) : bool := if Req_EM_T a b then true else false.

(** [np.isnan], [np.isfinite] *)
Definition x_isnan (a : xr) : bool := match a with NaN => true | _ => false end.
Definition x_isfinite (a : xr) : bool := match a with Fin _ => true | _ => false end.

(** [-a], [a + b], [a - b] *)
Definition xopp (a : xr) : xr :=
  match a with Fin r => Fin (- r) | PInf => NInf | NInf => PInf | NaN => NaN end.
Definition xadd (a b : xr) : xr :=
  match a, b with
  | NaN, _ | _, NaN => NaN
  | Fin r, Fin s => Fin (r + s)
  | PInf, NInf | NInf, PInf => NaN
  | PInf, _ | _, PInf => PInf
  | NInf, _ | _, NInf => NInf
  end.
Definition xsub (a b : xr) : xr := xadd a (xopp b).

(** An infinity with the sign of [r]; NaN for [r = 0] (0 * inf, 0 / 0). *)
Definition signed_inf (r : R) : xr :=
  if Rlt_dec 0 r then PInf else if Rlt_dec r 0 then NInf else NaN.

(** [a * b] *)
Definition xmul (a b : xr) : xr :=
  match a, b with
  | NaN, _ | _, NaN => NaN
  | Fin r, Fin s => Fin (r * s)
  | Fin r, PInf | PInf, Fin r => signed_inf r
  | Fin r, NInf | NInf, Fin r => signed_inf (- r)
  | PInf, PInf | NInf, NInf => PInf
  | PInf, NInf | NInf, PInf => NInf
  end.

(** [a / b] *)
Definition xdiv (a b : xr) : xr :=
  match a, b with
  | NaN, _ | _, NaN => NaN
  | Fin r, Fin s => if Req_EM_T s 0 then signed_inf r else Fin (r / s)
  | Fin r, _ => Fin 0
  | PInf, Fin s => if Rlt_dec s 0 then NInf else PInf
  | NInf, Fin s => if Rlt_dec s 0 then PInf else NInf
  | _, _ => NaN
  end.

(** [np.sqrt], [np.abs], [np.exp], [np.tanh] *)
Definition xsqrt (a : xr) : xr :=
  match a with
  | Fin r => if Rlt_dec r 0 then NaN else Fin (sqrt r)
  | PInf => PInf | _ => NaN
  end.
Definition xabs (a : xr) : xr :=
  match a with Fin r => Fin (Rabs r) | PInf | NInf => PInf | NaN => NaN end.
Definition xexp (a : xr) : xr :=
  match a with Fin r => Fin (exp r) | PInf => PInf | NInf => Fin 0 | NaN => NaN end.
Definition xtanh (a : xr) : xr :=
  match a with Fin r => Fin (tanh r) | PInf => Fin 1 | NInf => Fin (-1) | NaN => NaN end.

(** [a ** n] for an integer exponent n >= 0 (a ** 0 = 1, also for NaN). *)
Fixpoint xpow (a : xr) (n : nat) : xr :=
  match n with O => Fin 1 | S n' => match n' with O => a | _ => xmul a (xpow a n') end end.

(** [a < b], [a <= b], [a == b]: false as soon as NaN is involved. *)
Definition xltb (a b : xr) : bool :=
  match a, b with
  | Fin r, Fin s => Rltb r s
  | NInf, Fin _ | NInf, PInf | Fin _, PInf => true
  | _, _ => false
  end.
Definition xeqb (a b : xr) : bool :=
  match a, b with
  | Fin r, Fin s => Reqb r s
  | PInf, PInf | NInf, NInf => true
  | _, _ => false
  end.
Definition xleb (a b : xr) : bool := xltb a b || xeqb a b.

(** [np.isclose(a, b)] with the default rtol=1e-5, atol=1e-8, equal_nan=False. *)
Definition xisclose (a b : xr) : bool :=
  match a, b with
  | Fin r, Fin s => Rleb (Rabs (r - s)) (1/100000000 + 1/100000 * Rabs s)
  | _, _ => xeqb a b
  end.

(** [np.sum] of a sequence (exact arithmetic: the order does not matter). *)
Definition xsum (l : list xr) : xr := fold_right xadd (Fin 0) l.

(** Entry of a matrix of numbers. *)
Definition xget (A : mat xr) (i j : nat) : xr := mget NaN A i j.

(** [A @ B] for dense operands of agreeing inner dimensions. *)
Definition matmul (A B : mat xr) : mat xr :=
  tabulate (mr A) (mc B) (fun i j =>
    xsum (map (fun k => xmul (xget A i k) (xget B k j)) (seq 0 (mc A)))).

(** A scipy.sparse matrix stores its non-zero entries ([lil_matrix] drops a zero on
    assignment; NaN is non-zero). *)
Definition nonzero (a : xr) : bool := negb (xeqb a (Fin 0)).

(** [A @ S] with dense [A] and sparse [S]: only stored entries of [S] enter the sums
    (scipy csr_matvecs on the transpose); the result is a dense ndarray. *)
Definition matmul_sp (A S : mat xr) : mat xr :=
  tabulate (mr A) (mc S) (fun i j =>
    xsum (map (fun k => xmul (xget A i k) (xget S k j))
              (filter (fun k => nonzero (xget S k j)) (seq 0 (mc A))))).

(** [S * T] with both operands sparse: only pairs of stored entries. *)
Definition matmul_spsp (S T : mat xr) : mat xr :=
  tabulate (mr S) (mc T) (fun i j =>
    xsum (map (fun k => xmul (xget S i k) (xget T k j))
              (filter (fun k => nonzero (xget S i k) && nonzero (xget T k j))
                      (seq 0 (mc S))))).

(** [np.sum(A, axis=None)] *)
Definition msum (A : mat xr) : xr :=
  xsum (map (fun i => xsum (map (fun j => xget A i j) (seq 0 (mc A)))) (seq 0 (mr A))).

(** Main diagonal, [A.diagonal()]. *)
Definition diagonal_of (A : mat xr) : list xr :=
  map (fun i => xget A i i) (seq 0 (Nat.min (mr A) (mc A))).

(** [np.diagflat(v)] *)
Definition diagflat (v : list xr) : mat xr :=
  tabulate (length v) (length v) (fun i j => if Nat.eqb i j then nth i v NaN else Fin 0).
