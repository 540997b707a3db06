(** Vocabulary to state properties of a KernelMatrix over real data. *)
From Coq Require Import Reals List Arith.
Import ListNotations.
From Verif Require Import Prelude MatModel XReal SpecLinAlg KernelsModel.

(** The n x d sample of finite numbers [X i k]. *)
Definition rsample (n d : nat) (X : nat -> nat -> R) : ndarray xr :=
  mkNd [n; d] (flat_map (fun i => map (fun k => Fin (X i k)) (seq 0 d)) (seq 0 n)).

(** [kr] are the values of the built-in kernel [k] on finite vectors: the number [kr u v] for
    all rows of the sample [X] (first argument) and [Y] (second argument). *)
Definition finite_on (k : nkernel) (d n m : nat) (X Y : nat -> nat -> R) (A : nat -> nat -> R) : Prop :=
  forall i j, (i < n)%nat -> (j < m)%nat ->
    kernel_value k (map (fun q => Fin (X i q)) (seq 0 d)) (map (fun q => Fin (Y j q)) (seq 0 d))
    = Ok (Fin (A i j)).
