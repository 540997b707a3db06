(** Vocabulary for kernels whose results are not doubles. *)
From Coq Require Import String List Arith ZArith Bool.
Import ListNotations.
From Verif Require Import Prelude MatModel IndexModel KMModel SpecKM ConvModel.

(** On rows of the attached data the kernel is the function [k] and does not raise. *)
Definition raw_returns {E R} (kern : nat -> list E -> list E -> res R) (k : list E -> list E -> R)
    (x : ndarray E) (y : option (ndarray E)) (n m d : nat) : Prop :=
  forall t u v, is_row x y n m d u -> is_row x y n m d v -> kern t u v = Ok (k u v).

(** The kernel that converts its result itself, and raises what the conversion raises. *)
Definition converted {E R V} (conv : R -> res V) (k : list E -> list E -> R) (formats : bool) : kernel E V :=
  mkKernel (fun _ u v => conv (k u v)) formats.

(** The object after a history, as [after] in SpecKM.v. *)
Definition raw_after {E R V U} (N : numops V) (conv : R -> res V) (norm2 : arr V -> list R -> list R -> res (arr V))
    (kern : nat -> list E -> list E -> res R) (formats nrm : bool) (pre : list (op E U))
    (x : ndarray E) (y : option (ndarray E)) (post : list (op E U)) : rawkm E R V U :=
  run_raw N conv norm2 (pre ++ OpAttach x y :: post) (new_raw kern formats nrm [] 0).
Definition raw_outcome {E R V U} (N : numops V) (conv : R -> res V) (norm2 : arr V -> list R -> list R -> res (arr V))
    (o : op E U) (s : rawkm E R V U) : res (rawout R V U) := snd (step_raw N conv norm2 o s).

(** Diagonals of results that can be converted are normalised as the converted ones are, and the
    similarities of the rows with themselves can be converted. *)
Definition normalises_alike {E R V} (N : numops V) (conv : R -> res V)
    (norm2 : arr V -> list R -> list R -> res (arr V)) (k : list E -> list E -> R)
    (x y : ndarray E) (n m d : nat) : Prop :=
  (forall a dx dy lx ly, rmap conv dx = Ok lx -> rmap conv dy = Ok ly -> norm2 a dx dy = op_normalize2 N a lx ly) /\
  (forall i, i < n -> exists v, conv (k (row_of d x i) (row_of d x i)) = Ok v) /\
  (forall j, j < m -> exists v, conv (k (row_of d y j) (row_of d y j)) = Ok v).

(** The kernel calls of the object itself since samples were attached: index pairs, latest first ([before]
    calls were made earlier). *)
Definition raw_calls {E R V U} (before : nat) (s : rawkm E R V U) : list (nat * nat) :=
  let l := g_calls (q_base s) in
  map c_ix (filter (fun c => c_tag c =? 0) (firstn (length l - before) l)).
