(** Vocabulary for lists of scores in double precision. *)
From Coq Require Import ZArith Bool List Reals Floats.SpecFloat.
Import ListNotations.
From Verif Require Import FloatModel SpecFloats SpecFloatVal.
Local Open Scope R_scope.

(** At least one score; all are finite doubles, of magnitude at most 2^1000. *)
Definition score_list (l : list f64) : Prop :=
  l <> [] /\ Forall (fun x => f_finite x = true /\ valid_binary 53 1024 x = true /\ Rabs (fval x) <= bpow 1000) l.

(** The number that the [k]-th score stands for. *)
Definition score (l : list f64) (k : nat) : R := fval (nth k l fzero).

Definition largest (l : list f64) (m : R) : Prop :=
  (exists k, (k < length l)%nat /\ score l k = m) /\ (forall k, (k < length l)%nat -> score l k <= m).
Definition smallest (l : list f64) (m : R) : Prop :=
  (exists k, (k < length l)%nat /\ score l k = m) /\ (forall k, (k < length l)%nat -> m <= score l k).
