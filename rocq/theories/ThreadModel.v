(** Model of one KernelMatrix read by several threads (kernelmethods/base.py: full, diagonal, indexing,
    _eval_kernel, _populate_fully), for an object with normalized=False attached to one or two samples.

    A step of a thread is one access to something the threads share: reading or assigning an attribute of
    the object, looking up or storing a key of the dictionary _KM, reading or assigning one entry of an
    array, one call of the kernel. Each of these is atomic (in CPython: a bytecode run under the global
    interpreter lock); between any two of them the other threads may run. No thread attaches the object
    to another sample. Sparse requests (full_sparse, km[:, :]) and kernels without format() are left out. *)
From Coq Require Import List Arith Bool.
Import ListNotations.
From Verif Require Import Prelude MatModel KMModel.

(** What a thread asks for: km[rows, cols] for index lists that have passed _get_indices_in_sample and do
    not select everything, km.diagonal(), km.full. *)
Inductive rop : Type := ROIndex (rows cols : list nat) | RODiagonal | ROFull.

(** What it gets: a new array, a vector, or a reference to an array of the object. *)
Inductive rout (V : Type) : Type := RMat (a : mat V) | RVec (l : list V) | RRef (p : nat).
Arguments RMat {V}. Arguments RVec {V}. Arguments RRef {V}.

(** The attributes that change, the arrays on the heap, and ghost state: the thread that made each array,
    the kernel calls (thread and pair, newest first), the outcomes handed to the threads (newest first). *)
Record shared (V : Type) : Type := mkSh {
  sh_full : option nat;                       (* self._full_km, a reference *)
  sh_heap : list (mat V);
  sh_populated : bool;                        (* self._populated_fully *)
  sh_lower : bool;                            (* self._lower_tri_km_filled *)
  sh_memo : list ((nat * nat) * V);           (* self._KM *)
  sh_evals : nat;                             (* self._num_ker_eval *)
  sh_owner : list nat;                        (* ghost *)
  sh_calls : list (nat * (nat * nat));        (* ghost *)
  sh_log : list (nat * rop * res (rout V))    (* ghost *)
}.
Arguments mkSh {V}. Arguments sh_full {V}. Arguments sh_heap {V}. Arguments sh_populated {V}.
Arguments sh_lower {V}. Arguments sh_memo {V}. Arguments sh_evals {V}. Arguments sh_owner {V}.
Arguments sh_calls {V}. Arguments sh_log {V}.

(** A suspended thread: finished, or about to take one atomic step on the shared state; what it does next
    depends on the state it saw. *)
Inductive prog (S A : Type) : Type :=
| Ret (r : res A)
| Act (upd : S -> S) (next : S -> prog S A).
Arguments Ret {S A}. Arguments Act {S A}.

Section Prog.
  Context {S : Type}.
  Fixpoint pbind {A B} (p : prog S A) (k : A -> prog S B) : prog S B :=
    match p with
    | Ret (Ok a) => k a
    | Ret (Raise e) => Ret (Raise e)
    | Act u nx => Act u (fun s => pbind (nx s) k)
    end.
  Definition pret {A} (a : A) : prog S A := Ret (Ok a).
  Definition praise {A} (e : exn) : prog S A := Ret (Raise e).
  Definition read {A} (f : S -> A) : prog S A := Act (fun s => s) (fun s => pret (f s)).
  Definition write (u : S -> S) : prog S unit := Act u (fun _ => pret tt).
  Definition pwhen (b : bool) (p : prog S unit) : prog S unit := if b then p else pret tt.
  (** [try: p  except: raise e] *)
  Fixpoint pexcept {A} (p : prog S A) (e : exn) : prog S A :=
    match p with
    | Ret (Ok a) => Ret (Ok a)
    | Ret (Raise _) => Ret (Raise e)
    | Act u nx => Act u (fun s => pexcept (nx s) e)
    end.
  (** The outcome as a value (the caller in the thread handles the exception). *)
  Fixpoint pcatch {A} (p : prog S A) : prog S (res A) :=
    match p with
    | Ret r => pret r
    | Act u nx => Act u (fun s => pcatch (nx s))
    end.
  Fixpoint pfor {X} (l : list X) (f : X -> prog S unit) : prog S unit :=
    match l with [] => pret tt | x :: l' => pbind (f x) (fun _ => pfor l' f) end.
  Fixpoint pmap {X A} (l : list X) (f : X -> prog S A) : prog S (list A) :=
    match l with
    | [] => pret []
    | x :: l' => pbind (f x) (fun a => pbind (pmap l' f) (fun r => pret (a :: r)))
    end.
End Prog.

(** The pairs of the nested loop of base.py:724-727. *)
Definition upper_pairs (n m : nat) : list (nat * nat) :=
  flat_map (fun i => map (fun j => (i, j)) (seq i (m - i))) (seq 0 n).

Section Threads.
  Context {V : Type}.
  (** NaN; the value of the kernel on row [i] of the first and row [j] of the second sample (or what it
      raises); whether two samples are attached; the shape. *)
  Variable nan : V.
  Variable kv : nat -> nat -> res V.
  Variable two : bool.
  Variables n m : nat.
  Notation Sh := (shared V).
  Notation P := (prog Sh).

  Definition upd_populated x (s : Sh) := mkSh (sh_full s) (sh_heap s) x (sh_lower s) (sh_memo s) (sh_evals s)
    (sh_owner s) (sh_calls s) (sh_log s).
  Definition upd_lower x (s : Sh) := mkSh (sh_full s) (sh_heap s) (sh_populated s) x (sh_memo s) (sh_evals s)
    (sh_owner s) (sh_calls s) (sh_log s).
  Definition upd_memo x (s : Sh) := mkSh (sh_full s) (sh_heap s) (sh_populated s) (sh_lower s) x (sh_evals s)
    (sh_owner s) (sh_calls s) (sh_log s).
  Definition upd_evals x (s : Sh) := mkSh (sh_full s) (sh_heap s) (sh_populated s) (sh_lower s) (sh_memo s) x
    (sh_owner s) (sh_calls s) (sh_log s).
  Definition upd_calls x (s : Sh) := mkSh (sh_full s) (sh_heap s) (sh_populated s) (sh_lower s) (sh_memo s)
    (sh_evals s) (sh_owner s) x (sh_log s).
  Definition upd_log x (s : Sh) := mkSh (sh_full s) (sh_heap s) (sh_populated s) (sh_lower s) (sh_memo s)
    (sh_evals s) (sh_owner s) (sh_calls s) x.
  Definition upd_heap x (s : Sh) := mkSh (sh_full s) x (sh_populated s) (sh_lower s) (sh_memo s)
    (sh_evals s) (sh_owner s) (sh_calls s) (sh_log s).

  Definition blank : mat V := mfull n m nan.
  Definition array_at (s : Sh) (p : nat) : mat V := nth p (sh_heap s) blank.

  (** base.py:568-569: the key of a pair. *)
  Definition key (i j : nat) : nat * nat := if (j <? i) && negb two then (j, i) else (i, j).

  (** base.py:563-580 [_eval_kernel], by thread [t]: test for the key, kernel call, store, [+= 1] (a read
      and a write), final look-up. *)
  Definition t_eval (t i j : nat) : P V :=
    let p := key i j in
    pbind (read (fun s => is_some (memo_find (sh_memo s) p))) (fun known =>
    pbind (pwhen (negb known)
      (pbind (write (fun s => upd_calls ((t, p) :: sh_calls s) s)) (fun _ =>
       pbind (Ret (kv (fst p) (snd p))) (fun v =>
       pbind (write (fun s => upd_memo ((p, v) :: sh_memo s) s)) (fun _ =>
       pbind (read sh_evals) (fun c =>
       write (upd_evals (S c)))))))) (fun _ =>
    pbind (read (fun s => memo_find (sh_memo s) p)) (fun o =>
    match o with Some v => pret v | None => praise KeyError end))).

  (** Reading the attribute [_full_km]. *)
  Definition t_load : P nat :=
    pbind (read sh_full) (fun o => match o with Some p => pret p | None => praise AttributeError end).

  (** Assigning an entry of the array [p]. *)
  Definition t_store (p : nat) (q : nat * nat) (v : V) : P unit :=
    write (fun s => upd_heap (list_upd (sh_heap s) p (mset (array_at s p) (fst q) (snd q) v)) s).

  (** [self._full_km[q] = self._eval_kernel( *q )]: the value first, then the attribute, then the entry. *)
  Definition t_fill (t : nat) (q : nat * nat) : P unit :=
    pbind (t_eval t (fst q) (snd q)) (fun v => pbind t_load (fun p => t_store p q v)).

  (** base.py:717-718: a new array of NaN becomes [_full_km]. *)
  Definition t_alloc (t : nat) : P unit :=
    write (fun s => mkSh (Some (length (sh_heap s))) (sh_heap s ++ [blank]) (sh_populated s) (sh_lower s)
                         (sh_memo s) (sh_evals s) (sh_owner s ++ [t]) (sh_calls s) (sh_log s)).

  (** base.py:711-732, with dense_fmt=True. *)
  Definition t_upper (t : nat) : P unit :=
    pbind (read sh_populated) (fun b =>
    pwhen (negb b)
      (pbind (read (fun s => is_some (sh_full s))) (fun h =>
       pwhen (negb h)
         (pbind (t_alloc t) (fun _ =>
          pbind (pexcept (pfor (upper_pairs n m) (t_fill t)) RuntimeError) (fun _ =>
          write (upd_populated true))))))).

  (** base.py:734-750. For one sample the entries of the transpose are read one by one, then assigned one
      by one. *)
  Definition t_lower (t : nat) : P unit :=
    pbind (read sh_lower) (fun b =>
    pwhen (negb b)
      (pbind (pexcept
         (if negb two && (n =? m)
          then pbind t_load (fun p1 =>
               pbind (pmap (tril_indices n m)
                        (fun q => read (fun s => mget nan (array_at s p1) (snd q) (fst q)))) (fun vs =>
               pbind t_load (fun p2 =>
               pfor (combine (tril_indices n m) vs) (fun qv => t_store p2 (fst qv) (snd qv)))))
          else pfor (tril_indices n m) (t_fill t)) RuntimeError) (fun _ =>
       write (upd_lower true)))).

  (** base.py:698-760 (lines 752-760 only read the array). *)
  Definition t_populate (t : nat) : P unit :=
    pbind (t_upper t) (fun _ => pbind (t_lower t) (fun _ => pbind t_load (fun _ => pret tt))).

  (** base.py:405-423 [full], 688-695 [_compute_for_index_combinations], 536-550 [diagonal]. *)
  Definition t_op (t : nat) (o : rop) : P (rout V) :=
    match o with
    | ROFull =>
        pbind (read sh_populated) (fun b =>
        pbind (pwhen (negb b) (t_populate t)) (fun _ =>
        pbind t_load (fun p => pret (RRef p))))
    | ROIndex rows cols =>
        pbind (pmap (product rows cols) (fun q => t_eval t (fst q) (snd q))) (fun l =>
        pret (RMat (mkMat (length rows) (length cols) (reshape (length rows) (length cols) l))))
    | RODiagonal =>
        if two then praise KMAccessError
        else pbind (pmap (seq 0 n) (fun i => t_eval t i i)) (fun l => pret (RVec l))
    end.

  (** A thread that makes one request after the other and records what it gets. *)
  Definition thread (t : nat) (ops : list rop) : P unit :=
    pfor ops (fun o => pbind (pcatch (t_op t o)) (fun r =>
      write (fun s => upd_log ((t, o, r) :: sh_log s) s))).

  (** All threads, numbered in the order of the list. *)
  Definition pool (work : list (list rop)) : list (P unit) :=
    map (fun p => thread (fst p) (snd p)) (combine (seq 0 (length work)) work).

  (** The scheduler lets one thread take a step; a finished or unknown thread does nothing. *)
  Definition sched_step (c : list (P unit) * Sh) (t : nat) : list (P unit) * Sh :=
    match nth_error (fst c) t with
    | Some (Act u nx) => (list_upd (fst c) t (nx (snd c)), u (snd c))
    | _ => c
    end.

  (** A schedule says which thread moves next; any thread may also never move again. *)
  Definition execute (work : list (list rop)) (s : Sh) (schedule : list nat) : list (P unit) * Sh :=
    fold_left sched_step schedule (pool work, s).

  (** A request run to its end while no other thread moves. *)
  Fixpoint alone {A} (p : P A) (s : Sh) : Sh * res A :=
    match p with
    | Ret r => (s, r)
    | Act u nx => alone (nx s) (u s)
    end.

  (** The object after attach_to (base.py:356-377). *)
  Definition attached : Sh := mkSh None [] false false [] 0 [] [] [].

  Definition finished (c : list (P unit) * Sh) : Prop := Forall (fun p => exists r, p = Ret r) (fst c).
End Threads.
