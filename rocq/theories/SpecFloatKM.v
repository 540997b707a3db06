(** Vocabulary for KernelMatrix in double precision. *)
From Coq Require Import ZArith Bool List Reals Floats.SpecFloat.
Import ListNotations.
From Verif Require Import Prelude MatModel KMModel SpecKM FloatModel FloatOpsModel SpecFloats SpecFloatVal SpecLinAlg SpecFloatErr SpecFloatOps
  FloatKMModel.
Local Open Scope R_scope.

(** The n x d sample with the entries [X i k]. *)
Definition fsample (n d : nat) (X : nat -> nat -> f64) : ndarray f64 :=
  mkNd [n; d] (flat_map (fun i => features d (X i)) (seq 0 n)).

(** The value of a built-in kernel (NaN where it raises). *)
Definition fvalue (e : platform) (k : fkernel) (u v : list f64) : f64 :=
  match fkernel_rows e k u v with Ok r => r | Raise _ => S754_nan end.

(** The exponential returns doubles. *)
Definition exp_doubles (e : platform) : Prop := forall v, valid_binary 53 1024 (e_exp e v) = true.

(** The matrix that the caller gets is dense, n x m, with entries as described by [P]. *)
Definition gives {U} (r : res (out f64 U)) (n m : nat) (P : nat -> nat -> f64 -> Prop) : Prop :=
  exists B, r = Ok (OArr (mkArr Dense (tabulate n m B))) /\
            forall i j, (i < n)%nat -> (j < m)%nat -> P i j (B i j).

(** Self-similarities for which 1 / sqrt neither overflows nor underflows (the code asks for more than
    1e-8 = 2^-26.6). *)
Definition fair (v : f64) : Prop :=
  f_finite v = true /\ valid_binary 53 1024 v = true /\ bpow (-27) <= fval v <= bpow 1000 /\ fisclose v fzero = false.

(** What an eigensolver returns for the matrix [A]: finite doubles that are the exact eigenvalues of a
    symmetric matrix whose entries differ from those in the lower triangle of [A] by at most [delta]. *)
Definition solves_within (delta : R) (eig : mat f64 -> res (list f64)) (n : nat) (A : nat -> nat -> f64) : Prop :=
  exists l B, eig (tabulate n n A) = Ok (map l (seq 0 n)) /\ doubles n l /\ eigenvalues_of n B (vals l) /\
    symmetric n B /\
    forall i j, (i < n)%nat -> (j < n)%nat -> Rabs (B i j - lowsym (mvals A) i j) <= delta.

(** The cosine of the angle between two vectors. *)
Definition cosine (d : nat) (x y : nat -> R) : R := inner d x y / (sqrt (inner d x x) * sqrt (inner d y y)).

(** Samples for LinearKernel: self-products above 1.1e-8 and no overflow. *)
Definition big_enough (d : nat) (x : nat -> f64) : Prop :=
  doubles d x /\ 110 / 100 * / 10 ^ 8 <= inner d (vals x) (vals x) <= bpow 999.
