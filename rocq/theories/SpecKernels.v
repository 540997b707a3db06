(** Vocabulary to STATE properties of kernel functions, independent of the kernels' model. *)
From Coq Require Import String Reals List Arith.
Import ListNotations.
From Verif Require Import Prelude MatModel XReal SpecLinAlg.
Local Open Scope R_scope.

(** A 1-D array with the given elements. *)
Definition vec {E} (l : list E) : ndarray E := mkNd [length l] l.

(** The 1-D array of the finite numbers [x 0, ..., x (d-1)]. *)
Definition fvec (d : nat) (x : nat -> R) : ndarray xr :=
  mkNd [d] (map (fun k => Fin (x k)) (seq 0 d)).

(** A finite sample: row [i] is [X i 0, ..., X i (d-1)]. The function [call] produces a positive
    semidefinite matrix of finite numbers on its first [n] rows. *)
Definition psd_on (call : ndarray xr -> ndarray xr -> res xr) (n d : nat) (X : nat -> nat -> R) : Prop :=
  exists K, psd n K /\
    forall i j, (i < n)%nat -> (j < n)%nat -> call (fvec d (X i)) (fvec d (X j)) = Ok (Fin (K i j)).

(** Squared Euclidean and Manhattan distance, chi-squared statistic. *)
Definition dist2 (d : nat) (x y : nat -> R) : R := rsum d (fun k => (x k - y k) * (x k - y k)).
Definition dist1 (d : nat) (x y : nat -> R) : R := rsum d (fun k => Rabs (x k - y k)).
Definition chi2stat (d : nat) (x y : nat -> R) : R :=
  rsum d (fun k => if Req_EM_T (x k + y k) 0 then 0
                   else (x k - y k) * (x k - y k) / (x k + y k)).

(** Number of positions at which two lists agree. *)
Fixpoint agreements (x y : list string) : nat :=
  match x, y with
  | a :: x', b :: y' => ((if string_dec a b then 1 else 0) + agreements x' y')%nat
  | _, _ => O
  end.
