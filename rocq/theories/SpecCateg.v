(** Vocabulary to state properties of kernel matrices over categorical data. *)
From Coq Require Import String Reals List Arith.
Import ListNotations.
From Verif Require Import MatModel XReal.

(** The n x d sample of strings [X i k]. *)
Definition csample (n d : nat) (X : nat -> nat -> string) : ndarray string :=
  mkNd [n; d] (flat_map (fun i => map (X i) (seq 0 d)) (seq 0 n)).

(** The number of the [d] features in which two observations agree. *)
Fixpoint matches (d : nat) (u v : nat -> string) : nat :=
  match d with
  | O => O
  | S d' => ((if string_dec (u d') (v d') then 1 else 0) + matches d' u v)%nat
  end.

(** The similarity a MatchCountKernel is documented to compute. *)
Definition match_similarity (return_perc : bool) (d : nat) (u v : nat -> string) : R :=
  (if return_perc then INR (matches d u v) / INR d else INR (matches d u v))%R.

(** Observations that agree in all [d] features. *)
Definition same_obs (d : nat) (u v : nat -> string) : Prop := forall k, (k < d)%nat -> u k = v k.
