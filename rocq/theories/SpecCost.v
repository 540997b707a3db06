(** Vocabulary for exact counts of kernel evaluations (C102). *)
From Coq Require Import List Bool Arith.
From Verif Require Import Prelude MatModel KMModel SpecKM.
Import ListNotations.

(** Does this operation ask for normalised values? On an object made with normalized=True
    [full] and [full_sparse] do as well. *)
Definition wants_normalised {E U} (nrm : bool) (o : op E U) : bool :=
  match o with
  | OpNormalize _ | OpNormedKM => true
  | OpFull | OpFullSparse => nrm
  | _ => false
  end.

(** No operation of the history that asks for normalised values raised an exception. The
    others may have raised. *)
Definition normalised_well {E V U} (nrm : bool) (ops : list (op E U)) (tr : list (res (out V U))) : Prop :=
  Forall (fun p => wants_normalised nrm (fst p) = true -> is_ok (snd p) = true) (combine ops tr).

(** The pairs of rows: for one sample the unordered pairs, each with itself included. *)
Definition row_pairs (two : bool) (n m : nat) : nat := if two then n * m else n * (n + 1) / 2.
