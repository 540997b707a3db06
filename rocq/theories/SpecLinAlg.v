(** Small linear-algebra vocabulary over the reals used to STATE properties of the
    numerical code: finite sums, positive semidefiniteness, matrices of finite numbers. *)
From Coq Require Import Reals List Arith.
From Verif Require Import MatModel XReal.
Local Open Scope R_scope.

(** [f 0 + ... + f (n-1)] *)
Fixpoint rsum (n : nat) (f : nat -> R) : R :=
  match n with O => 0 | S k => rsum k f + f k end.

(** The matrix of finite numbers with the given entries. *)
Definition rmat (n m : nat) (f : nat -> nat -> R) : mat xr :=
  tabulate n m (fun i j => Fin (f i j)).

(** [c' A c] *)
Definition quad (n : nat) (A : nat -> nat -> R) (c : nat -> R) : R :=
  rsum n (fun i => rsum n (fun j => c i * A i j * c j)).

Definition symmetric (n : nat) (A : nat -> nat -> R) : Prop :=
  forall i j, (i < n)%nat -> (j < n)%nat -> A i j = A j i.

(** Positive semidefinite (symmetric with non-negative quadratic form). *)
Definition psd (n : nat) (A : nat -> nat -> R) : Prop :=
  symmetric n A /\ forall c, 0 <= quad n A c.

(** Means of rows, of columns, and of all entries. *)
Definition rowmean (n : nat) (A : nat -> nat -> R) (i : nat) : R :=
  rsum n (fun j => A i j) / INR n.
Definition colmean (n : nat) (A : nat -> nat -> R) (j : nat) : R :=
  rsum n (fun i => A i j) / INR n.
Definition allmean (n : nat) (A : nat -> nat -> R) : R :=
  rsum n (fun i => rsum n (fun j => A i j)) / (INR n * INR n).

(** The centred matrix. *)
Definition centred (n : nat) (A : nat -> nat -> R) (i j : nat) : R :=
  A i j - rowmean n A i - colmean n A j + allmean n A.

(** Entrywise (Frobenius) inner product and norm. *)
Definition fprod (n m : nat) (A B : nat -> nat -> R) : R :=
  rsum n (fun i => rsum m (fun j => A i j * B i j)).
Definition fnorm (n m : nat) (A : nat -> nat -> R) : R := sqrt (fprod n m A A).

(** Inner product of vectors. *)
Definition inner (d : nat) (x y : nat -> R) : R := rsum d (fun k => x k * y k).

(** The symmetric matrix given by the lower triangle of [A]. *)
Definition lowsym (A : nat -> nat -> R) (i j : nat) : R := A (Nat.max i j) (Nat.min i j).

(** [l 0, ..., l (n-1)] are the eigenvalues (with multiplicity) of the symmetric matrix given by
    the lower triangle of [A]: it is Q diag(l) Q' for an orthogonal Q. *)
Definition eigenvalues_of (n : nat) (A : nat -> nat -> R) (l : nat -> R) : Prop :=
  exists Q : nat -> nat -> R,
    (forall i j, (i < n)%nat -> (j < n)%nat ->
       rsum n (fun k => Q i k * Q j k) = if Nat.eqb i j then 1 else 0)
    /\ (forall i j, (i < n)%nat -> (j < n)%nat ->
       rsum n (fun k => Q k i * Q k j) = if Nat.eqb i j then 1 else 0)
    /\ (forall i j, (i < n)%nat -> (j < n)%nat ->
       lowsym A i j = rsum n (fun k => Q i k * l k * Q j k)).
