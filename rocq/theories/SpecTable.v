(** Vocabulary for the exact form of C79: a sample the caller writes into, and an object whose
    kernel looks its values up in a table. *)
From Coq Require Import String List Arith Bool.
Import ListNotations.
From Verif Require Import Prelude MatModel IndexModel KMModel SpecKM AliasModel SpecAlias.

(** The array passed to [attach_to] after the caller's writes into it. *)
Fixpoint written {E V U} (acts : list (cact E V U)) (x : ndarray E) : ndarray E :=
  match acts with
  | [] => x
  | WSample q e :: rest => written rest (write_nd q e x)
  | _ :: rest => written rest x
  end.

(** The array passed as second sample after the writes into it. *)
Fixpoint written_two {E V U} (acts : list (cact E V U)) (y : ndarray E) : ndarray E :=
  match acts with
  | [] => y
  | WSampleTwo q e :: rest => written_two rest (write_nd q e y)
  | _ :: rest => written_two rest y
  end.

(** The caller never asks for the normalised matrix. *)
Definition no_normalising {E V U} (acts : list (cact E V U)) : Prop :=
  forall o, In (Call o) acts -> match o with OpNormalize _ | OpNormedKM => False | _ => True end.

(** A kernel that looks its value up in a table, and the sample of the [n] row numbers. *)
Definition lookup {V} (T : nat -> nat -> V) (printable : bool) : kernel nat V :=
  mkKernel (fun _ u v => match u, v with [i], [j] => Ok (T i j) | _, _ => Raise TypeError end) printable.
Definition row_numbers (n : nat) : ndarray nat := mkNd [n; 1] (seq 0 n).

(** The same action on an object attached to row numbers: the same operation, or the same write
    into a result. Operations that attach a sample have no counterpart. *)
Definition same_op {E U} (o : op E U) : op nat U :=
  match o with
  | OpAttach _ _ => OpAttach (row_numbers 0) None
  | OpFull => OpFull | OpFullSparse => OpFullSparse | OpCenter => OpCenter | OpCentered => OpCentered
  | OpNormalize m => OpNormalize m | OpNormedKM => OpNormedKM | OpFrobNorm => OpFrobNorm
  | OpDiagonal => OpDiagonal | OpGetItem ix => OpGetItem ix
  | OpSetAttr name v => OpSetAttr name v | OpGetAttr name => OpGetAttr name
  | OpAttributes => OpAttributes | OpSize => OpSize | OpShape => OpShape | OpNumSamples => OpNumSamples
  end.
(** The actions, without the writes into the sample. *)
Fixpoint same_acts {E V U} (acts : list (cact E V U)) : list (cact nat V U) :=
  match acts with
  | [] => []
  | Call o :: rest => Call (same_op o) :: same_acts rest
  | WFull i j v :: rest => WFull i j v :: same_acts rest
  | WNormed i j v :: rest => WNormed i j v :: same_acts rest
  | WCentered i j v :: rest => WCentered i j v :: same_acts rest
  | WAttrs name u :: rest => WAttrs name u :: same_acts rest
  | _ :: rest => same_acts rest
  end.
