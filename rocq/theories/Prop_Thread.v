(** C101: one kernel matrix read by several threads.
    Generated by tools/split_props.py from ThreadProps.v: statements only, each closed by [exact]. *)
From Coq Require Import List Arith Bool Lia Sumbool.
Import ListNotations.
From Verif Require Import Prelude MatModel MatFacts KMModel KMFacts ThreadModel ThreadFacts.
From Verif Require Import ThreadProps.

(** The value the entry (i, j) must have: the kernel of the two points, for one sample with the smaller
    index first; NaN marks what has not been computed. *)
Definition pair_value {V} (kv : nat -> nat -> res V) (two : bool) (i j : nat) : res V :=
  if two then kv i j else kv (Nat.min i j) (Nat.max i j).

(** The entry (i, j) of an array is that value. *)
Definition right_at {V} (nan : V) (kv : nat -> nat -> res V) (two : bool) (A : mat V) (i j : nat) : Prop :=
  pair_value kv two i j = Ok (mget nan A i j).

(** The kernel raises on no pair. *)
Definition total {V} (kv : nat -> nat -> res V) (n m : nat) : Prop :=
  forall i j, i < n -> j < m -> exists v, kv i j = Ok v.

(** An array in which nothing is wrong, an array that is complete on and above the diagonal, and a complete
    one. *)
Definition nothing_wrong {V} (nan : V) kv two n m (A : mat V) : Prop :=
  mwf n m A /\ forall i j, i < n -> j < m -> mget nan A i j = nan \/ right_at nan kv two A i j.
Definition upper_complete {V} (nan : V) kv two n m (A : mat V) : Prop :=
  mwf n m A /\ forall i j, i < n -> j < m -> i <= j -> right_at nan kv two A i j.
Definition all_complete {V} (nan : V) kv two n m (A : mat V) : Prop :=
  mwf n m A /\ forall i j, i < n -> j < m -> right_at nan kv two A i j.

(** Requests the object accepts: indices in range. *)
Definition valid_rop (n m : nat) (o : rop) : Prop :=
  match o with
  | ROIndex rows cols => (forall i, In i rows -> i < n) /\ (forall j, In j cols -> j < m)
  | _ => True
  end.

(** What a thread may be given for a request, once it has been given it. *)
Definition outcome_ok {V} (nan : V) kv two n m (s : shared V) (o : rop) (r : res (rout V)) : Prop :=
  match o, r with
  | ROIndex rows cols, Ok (RMat a) =>
      mr a = length rows /\ mc a = length cols /\
      forall i j, i < length rows -> j < length cols ->
        pair_value kv two (nth i rows 0) (nth j cols 0) = Ok (mget nan a i j)
  | ROIndex rows cols, Raise e => exists i j, In i rows /\ In j cols /\ pair_value kv two i j = Raise e
  | RODiagonal, Ok (RVec l) =>
      two = false /\ length l = n /\ forall i, i < n -> pair_value kv two i i = Ok (nth i l nan)
  | RODiagonal, Raise e => (two = true /\ e = KMAccessError) \/ (exists i, i < n /\ pair_value kv two i i = Raise e)
  | ROFull, Ok (RRef p) => p < length (sh_heap s) /\ nothing_wrong nan kv two n m (array_at nan n m s p)
  | ROFull, Raise e => e = RuntimeError /\ exists i j e', i < n /\ j < m /\ pair_value kv two i j = Raise e'
  | _, _ => False
  end.

(** The pairs a thread has evaluated the kernel on. *)
Definition calls_of {V} (t : nat) (s : shared V) : list (nat * nat) :=
  map snd (filter (fun c => fst c =? t) (sh_calls s)).

(** A thread that asks for the full matrix; the only one that does. *)
Definition asks_full (work : list (list rop)) (t : nat) : Prop := In ROFull (nth t work []).
Definition only_full (work : list (list rop)) (t : nat) : Prop :=
  forall u, u <> t -> ~ asks_full work u.

(** The requests of all threads are in range. *)
Definition valid_work (n m : nat) (work : list (list rop)) : Prop :=
  forall ops o, In ops work -> In o ops -> valid_rop n m o.

(** Under every schedule of every set of threads, also when the kernel raises: requested elements and
    diagonals are those of the kernel, a matrix handed out as [full] holds nothing but kernel values and
    NaN, and an exception is one the kernel raised (RuntimeError for [full]). *)
Theorem C101_results : forall V (nan : V) kv two n m work schedule,
  (two = false -> n = m) -> valid_work n m work ->
  let s := snd (execute nan kv two n m work attached schedule) in
  forall t o r, In (t, o, r) (sh_log s) -> outcome_ok nan kv two n m s o r.
Proof. exact (@pf_C101_results). Qed.
Print Assumptions C101_results.

(** A thread that is the only one to read [full] gets the complete matrix, the same one every time, and
    it stays complete; the others may read elements and the diagonal meanwhile. *)
Theorem C101_single : forall V (nan : V) kv two n m work schedule t,
  (two = false -> n = m) -> valid_work n m work -> total kv n m -> only_full work t ->
  let s := snd (execute nan kv two n m work attached schedule) in
  forall p, In (t, ROFull, Ok (RRef p)) (sh_log s) ->
    all_complete nan kv two n m (array_at nan n m s p) /\
    forall p', In (t, ROFull, Ok (RRef p')) (sh_log s) -> p' = p.
Proof. exact (@pf_C101_single). Qed.
Print Assumptions C101_single.

(** With several threads reading [full]: once all have finished, the next [full] evaluates nothing and is
    complete on and above the diagonal. *)
Theorem C101_upper : forall V (nan : V) kv two n m work schedule,
  (two = false -> n = m) -> valid_work n m work -> total kv n m ->
  let c := execute nan kv two n m work attached schedule in
  finished c -> forall t p0, In (t, ROFull, Ok (RRef p0)) (sh_log (snd c)) ->
  forall u, exists p, alone (t_op nan kv two n m u ROFull) (snd c) = (snd c, Ok (RRef p)) /\
    upper_complete nan kv two n m (array_at nan n m (snd c) p).
Proof. exact (@pf_C101_upper). Qed.
Print Assumptions C101_upper.

(** No thread evaluates the kernel twice on the same pair (for one sample: unordered pair). *)
Theorem C101_evaluations : forall V (nan : V) kv two n m work schedule,
  (two = false -> n = m) -> valid_work n m work -> total kv n m ->
  let s := snd (execute nan kv two n m work attached schedule) in
  forall t, NoDup (calls_of t s) /\
    (forall i j, In (i, j) (calls_of t s) -> i < n /\ j < m /\ (two = false -> i <= j)) /\
    length (calls_of t s) <= (if two then n * m else n * (n + 1) / 2).
Proof. exact (@pf_C101_evaluations). Qed.
Print Assumptions C101_evaluations.

(** Once one thread has read the whole matrix (nobody else asking for it), any number of threads may use
    the object in any order: the kernel is not called again, [full] is always that matrix, and nothing in
    it changes. *)
Theorem C101_quiet : forall V (nan : V) kv two n m work0 schedule0 t p,
  (two = false -> n = m) -> valid_work n m work0 -> total kv n m -> only_full work0 t -> t < length work0 ->
  let c0 := execute nan kv two n m work0 attached schedule0 in
  finished c0 -> In (t, ROFull, Ok (RRef p)) (sh_log (snd c0)) ->
  forall work schedule, valid_work n m work ->
  let s := snd (execute nan kv two n m work (snd c0) schedule) in
  sh_calls s = sh_calls (snd c0) /\ sh_evals s = sh_evals (snd c0) /\
  array_at nan n m s p = array_at nan n m (snd c0) p /\
  all_complete nan kv two n m (array_at nan n m s p) /\
  forall u r, In (u, ROFull, r) (sh_log s) -> In (u, ROFull, r) (sh_log (snd c0)) \/ r = Ok (RRef p).
Proof. exact (@pf_C101_quiet). Qed.
Print Assumptions C101_quiet.

(** No thread waits for another: there is a number of steps, fixed by the shape of the matrix and the
    requests alone, after which a thread has finished whatever the others, the kernel or the state of the
    object; so there is no deadlock. *)
Theorem C101_finishes : forall n m work, exists N, forall V (nan : V) kv two s schedule,
  (forall t, t < length work -> N <= count_occ Nat.eq_dec schedule t) ->
  finished (execute nan kv two n m work s schedule).
Proof. exact (@pf_C101_finishes). Qed.
Print Assumptions C101_finishes.

(** The requests of a thread that have been answered, oldest first. *)
Definition answered {V} (t : nat) (s : shared V) : list rop :=
  rev (map (fun e => snd (fst e)) (filter (fun e => fst (fst e) =? t) (sh_log s))).

(** Nothing is answered twice, out of order or not at all: what a thread has been answered is at any time
    an initial part of its requests, and all of them when it has finished. *)
Theorem C101_answers : forall V (nan : V) kv two n m work schedule,
  let c := execute nan kv two n m work attached schedule in
  forall t, t < length work ->
    (exists rest, answered t (snd c) ++ rest = nth t work []) /\
    (finished c -> answered t (snd c) = nth t work []).
Proof. exact (@pf_C101_answers). Qed.
Print Assumptions C101_answers.

(** That [full] is complete for every thread is false for one and for two samples: when a second thread
    asks for it while the first has found no matrix yet, the matrix that stays is never filled below the
    diagonal, and every later [full] returns it like that. *)
Theorem C101_full_refuted : forall two, exists (kv : nat -> nat -> res (option nat)) schedule p,
  total kv 2 2 /\
  let c := execute None kv two 2 2 [[ROFull]; [ROFull]] attached schedule in
  finished c /\ In (0, ROFull, Ok (RRef p)) (sh_log (snd c)) /\
  mget None (array_at None 2 2 (snd c) p) 1 0 = None /\
  ~ right_at None kv two (array_at None 2 2 (snd c) p) 1 0 /\
  forall u, alone (t_op None kv two 2 2 u ROFull) (snd c) = (snd c, Ok (RRef p)).
Proof. exact (@pf_C101_full_refuted). Qed.
Print Assumptions C101_full_refuted.

(** One sample, the second thread a step later: it is handed a matrix of nothing but NaN. *)
Theorem C101_blank_refuted : exists (kv : nat -> nat -> res (option nat)) schedule p,
  total kv 2 2 /\
  let c := execute None kv false 2 2 [[ROFull]; [ROFull]] attached schedule in
  In (1, ROFull, Ok (RRef p)) (sh_log (snd c)) /\
  forall i j, i < 2 -> j < 2 -> mget None (array_at None 2 2 (snd c) p) i j = None.
Proof. exact (@pf_C101_blank_refuted). Qed.
Print Assumptions C101_blank_refuted.

(** The counter of evaluations can fall behind: two threads, two pairs, two kernel calls, counter 1. *)
Theorem C101_counter_refuted : exists (kv : nat -> nat -> res (option nat)) schedule,
  total kv 2 2 /\
  let c := execute None kv false 2 2 [[ROIndex [0] [0]]; [ROIndex [1] [1]]] attached schedule in
  finished c /\ length (sh_memo (snd c)) = 2 /\ length (sh_calls (snd c)) = 2 /\ sh_evals (snd c) = 1.
Proof. exact (@pf_C101_counter_refuted). Qed.
Print Assumptions C101_counter_refuted.

(** The hypotheses can be met: three threads, one of which reads [full] twice. *)
Theorem C101_example :
  let kv := fun i j : nat => Ok (Some (10 * i + j)) in
  let work := [[ROFull; ROFull]; [ROIndex [1] [0]; RODiagonal]; [RODiagonal]] in
  let c := execute None kv false 2 2 work attached (concat (repeat [0; 1; 2; 1] 60)) in
  valid_work 2 2 work /\ total kv 2 2 /\ only_full work 0 /\ finished c /\
  In (0, ROFull, Ok (RRef 0)) (sh_log (snd c)) /\
  array_at None 2 2 (snd c) 0 = mkMat 2 2 [[Some 0; Some 1]; [Some 1; Some 11]].
Proof. exact (@pf_C101_example). Qed.
Print Assumptions C101_example.
