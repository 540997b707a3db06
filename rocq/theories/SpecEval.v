(** Vocabulary for counting kernel evaluations. *)
From Coq Require Import List.
From Verif Require Import Prelude KMModel.

(** The number of operations of a history that raised an exception. *)
Definition failures {A} (tr : list (res A)) : nat := length (filter (fun r => negb (is_ok r)) tr).
