(** What threads must be given for the normalised and the centred matrix and for the norm (C108). *)
From Coq Require Import List Arith Bool String.
Import ListNotations.
From Verif Require Import Prelude MatModel MatFacts KMModel ThreadModel ThreadDerivedModel ThreadProps SpecThread.

(** The kernel matrix. *)
Definition the_matrix {V} (nan : V) (kv : nat -> nat -> res V) (two : bool) (n m : nat) : arr V :=
  mkArr Dense (tabulate n m (fun i j => match pair_value kv two i j with Ok v => v | Raise _ => nan end)).

(** What the functions of operations.py make of it; for two samples with the kernel of every row with
    itself. *)
Definition right_normed {V} (N : numops V) kv kx ky two n m : res (arr V) :=
  let K := the_matrix (v_nan N) kv two n m in
  if two : bool
  then rbind (rmap kx (seq 0 n)) (fun dx => rbind (rmap ky (seq 0 m)) (fun dy => op_normalize2 N K dx dy))
  else op_normalize N "cosine"%string K.
Definition right_centered {V} (N : numops V) kv two n m : res (arr V) :=
  if two : bool then Raise KMAccessError else op_center N (the_matrix (v_nan N) kv two n m).
Definition right_frob {V} (N : numops V) kv two n m : res V := op_frob N (the_matrix (v_nan N) kv two n m).

(** The right answer to a derived request ([DFull]: of an object made with normalized=True). *)
Definition right_answer {V} (N : numops V) kv kx ky two n m (o : dop) : res (dout V) :=
  match o with
  | DFrob => rbind (right_frob N kv two n m) (fun v => Ok (DVal v))
  | DCentered => rbind (right_centered N kv two n m) (fun a => Ok (DArr a))
  | _ => rbind (right_normed N kv kx ky two n m) (fun a => Ok (DArr a))
  end.

(** Requests in range; threads that only read elements and the diagonal. *)
Definition d_valid (n m : nat) (work : list (list dop)) : Prop :=
  forall ops rows cols, In ops work -> In (DIndex rows cols) ops ->
    (forall i, In i rows -> i < n) /\ (forall j, In j cols -> j < m).
Definition only_elements (ops : list dop) : Prop :=
  forall o, In o ops -> o = DDiagonal \/ exists rows cols, o = DIndex rows cols.

(** Nothing derived and nothing recorded yet; the attributes may hold what an earlier sample left. *)
Definition nothing_derived {V} (d : dsh V) : Prop :=
  d_is_normed d = false /\ d_is_centered d = false /\ d_frob d = None /\ d_log d = [].

(** All threads have answered all their requests. *)
Definition d_finished {V} (c : list (prog (dsh V) unit) * dsh V) : Prop :=
  Forall (fun p => exists r, p = Ret r) (fst c).

(** The shared state and the sequential object are the same, derived attributes included; the request as a
    call of that object. *)
Record same_derived {E V U} (nan : V) (kern : kernel E V) (x y : ndarray E) (two : bool) (n m : nat)
    (d : dsh V) (k : km E V U) : Prop := {
  sd_base : same_object nan kern x y two n m (d_base d) k;
  sd_wf : forall p, mwf n m (array_at nan n m (d_base d) p);
  sd_normed : k_normed k = d_normed d;
  sd_is_normed : k_is_normed k = d_is_normed d;
  sd_centered : k_centered k = d_centered d;
  sd_is_centered : k_is_centered k = d_is_centered d;
  sd_frob : k_frob k = d_frob d
}.
Definition as_derived_call {E V U} (N : numops V) (o : dop) : M (km E V U) (dout V) :=
  match o with
  | DFrob => fun k => (fst (frob_norm N k), rbind (snd (frob_norm N k)) (fun v => Ok (DVal v)))
  | DCentered => fun k => (fst (centered N k), rbind (snd (centered N k)) (fun a => Ok (DArr a)))
  | _ => fun k => (fst (normed_km N k), rbind (snd (normed_km N k)) (fun a => Ok (DArr a)))
  end.
