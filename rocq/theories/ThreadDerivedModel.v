(** Model of what is derived from the matrix when one KernelMatrix is read by several threads
    (kernelmethods/base.py: normalize, normed_km, center, centered, frob_norm, and full of an object made
    with normalized=True), on top of ThreadModel.v.

    As there, one step is one access to something shared. A function of operations.py applied to the matrix
    reads every entry of the array once, row by row, with other threads running in between, and computes
    from what it has read (numpy may read entries more than once). A derived array is not changed after it
    has been assigned, so it is a value here and not a reference. *)
From Coq Require Import List Arith Bool String.
Import ListNotations.
From Verif Require Import Prelude MatModel KMModel ThreadModel.

(** What a thread asks for: as in ThreadModel.v, and km.normed_km, km.centered, km.frob_norm. *)
Inductive dop : Type := DIndex (rows cols : list nat) | DDiagonal | DFull | DNormed | DCentered | DFrob.
Inductive dout (V : Type) : Type := DArr (a : arr V) | DVal (v : V).
Arguments DArr {V}. Arguments DVal {V}.

(** The shared state with the derived attributes; ghost: the kernel calls of the two temporary objects of
    [normalize] (thread, whether the first sample, row), and the outcomes of the derived requests (those of
    the others are in [sh_log]). *)
Record dsh (V : Type) : Type := mkD {
  d_base : shared V;
  d_normed : option (arr V);                   (* self._normed_km *)
  d_is_normed : bool;                          (* self._is_normed *)
  d_centered : option (arr V);                 (* self._centered *)
  d_is_centered : bool;                        (* self._is_centered *)
  d_frob : option V;                           (* self._frob_norm *)
  d_self : list (nat * bool * nat);            (* ghost *)
  d_log : list (nat * dop * res (dout V))      (* ghost *)
}.
Arguments mkD {V}. Arguments d_base {V}. Arguments d_normed {V}. Arguments d_is_normed {V}.
Arguments d_centered {V}. Arguments d_is_centered {V}. Arguments d_frob {V}. Arguments d_self {V}.
Arguments d_log {V}.

Section Derived.
  Context {V : Type}.
  (** The functions of operations.py and NaN; the kernel on the rows of the two samples, as in
      ThreadModel.v, and on a row of the first (second) sample with itself; whether two samples are
      attached; whether the object was made with normalized=True; the shape. *)
  Variable N : numops V.
  Variable kv : nat -> nat -> res V.
  Variables kx ky : nat -> res V.
  Variables two keep : bool.
  Variables n m : nat.
  Notation D := (dsh V).
  Notation P := (prog D).
  Notation nan := (v_nan N).

  Definition put_base x (d : D) := mkD x (d_normed d) (d_is_normed d) (d_centered d) (d_is_centered d)
    (d_frob d) (d_self d) (d_log d).
  Definition put_normed x (d : D) := mkD (d_base d) x (d_is_normed d) (d_centered d) (d_is_centered d)
    (d_frob d) (d_self d) (d_log d).
  Definition put_is_normed x (d : D) := mkD (d_base d) (d_normed d) x (d_centered d) (d_is_centered d)
    (d_frob d) (d_self d) (d_log d).
  Definition put_centered x (d : D) := mkD (d_base d) (d_normed d) (d_is_normed d) x (d_is_centered d)
    (d_frob d) (d_self d) (d_log d).
  Definition put_is_centered x (d : D) := mkD (d_base d) (d_normed d) (d_is_normed d) (d_centered d) x
    (d_frob d) (d_self d) (d_log d).
  Definition put_frob x (d : D) := mkD (d_base d) (d_normed d) (d_is_normed d) (d_centered d)
    (d_is_centered d) x (d_self d) (d_log d).
  Definition put_self x (d : D) := mkD (d_base d) (d_normed d) (d_is_normed d) (d_centered d)
    (d_is_centered d) (d_frob d) x (d_log d).
  Definition put_log x (d : D) := mkD (d_base d) (d_normed d) (d_is_normed d) (d_centered d)
    (d_is_centered d) (d_frob d) (d_self d) x.
  Definition set_ref p (s : shared V) := mkSh (Some p) (sh_heap s) (sh_populated s) (sh_lower s)
    (sh_memo s) (sh_evals s) (sh_owner s) (sh_calls s) (sh_log s).

  (** A program of ThreadModel.v on the larger state. *)
  Fixpoint plift {A} (p : prog (shared V) A) : P A :=
    match p with
    | Ret r => Ret r
    | Act u nx => Act (fun d => put_base (u (d_base d)) d) (fun d => plift (nx (d_base d)))
    end.

  (** Reading an attribute; AttributeError if there is none. *)
  Definition load {A} (f : D -> option A) : P A :=
    pbind (read f) (fun o => match o with Some a => pret a | None => praise AttributeError end).

  (** [if not self._populated_fully: self._populate_fully(dense_fmt=True, fill_lower_tri=True)] *)
  Definition d_populate (t : nat) : P unit :=
    pbind (read (fun d => sh_populated (d_base d))) (fun b =>
    pwhen (negb b) (plift (t_populate nan kv two n m t))).

  (** The entries of the array [p], one by one. *)
  Definition d_entries (p : nat) : P (arr V) :=
    pbind (pmap (product (seq 0 n) (seq 0 m))
             (fun q => read (fun d => mget nan (array_at nan n m (d_base d) p) (fst q) (snd q)))) (fun vs =>
    pret (mkArr Dense (mkMat n m (reshape n m vs)))).

  (** The array [self._full_km] points to, read entry by entry. *)
  Definition d_array : P (arr V) := pbind (plift t_load) d_entries.

  (** base.py:489-500: the diagonal of a temporary object, which no other thread sees. *)
  Definition d_diagonal (t : nat) (which : bool) (k : nat -> res V) (c : nat) : P (list V) :=
    pmap (seq 0 c) (fun i =>
      pbind (write (fun d => put_self ((t, which, i) :: d_self d) d)) (fun _ => Ret (k i))).

  (** base.py:462-507 [normalize] (lines 504-507 only read the result). *)
  Definition d_normalize (t : nat) : P unit :=
    pbind (d_populate t) (fun _ =>
    pbind (read d_is_normed) (fun b =>
    pwhen (negb b)
      (pbind (if negb two
              then pbind d_array (fun a => Ret (op_normalize N "cosine"%string a))
              else pbind (plift t_load) (fun p =>
                   pbind (d_diagonal t true kx n) (fun dx =>
                   pbind (d_diagonal t false ky m) (fun dy =>
                   pbind (d_entries p) (fun a => Ret (op_normalize2 N a dx dy)))))) (fun nk =>
       pbind (write (put_normed (Some nk))) (fun _ =>
       pbind (write (put_is_normed true)) (fun _ =>
       pbind (load d_normed) (fun _ => pret tt))))))).

  (** base.py:552-560 [normed_km]. *)
  Definition d_normed_km (t : nat) : P (arr V) :=
    pbind (read d_is_normed) (fun b =>
    pbind (pwhen (negb b) (d_normalize t)) (fun _ => load d_normed)).

  (** base.py:404-420 [full] of an object made with normalized=True. *)
  Definition d_full (t : nat) : P (arr V) :=
    pbind (d_populate t) (fun _ => d_normed_km t).

  (** base.py:436-459 [center]; [self._full_km = self._populate_fully(..)] assigns the reference again. *)
  Definition d_center (t : nat) : P unit :=
    if two then praise NotImplementedErr
    else
      pbind (read (fun d => sh_populated (d_base d))) (fun b =>
      pbind (pwhen (negb b)
        (pbind (plift (t_populate nan kv two n m t)) (fun _ =>
         pbind (plift t_load) (fun p => plift (write (set_ref p)))))) (fun _ =>
      pbind d_array (fun a =>
      pbind (Ret (op_center N a)) (fun c =>
      pbind (write (put_centered (Some c))) (fun _ => write (put_is_centered true)))))).

  (** base.py:509-519 [centered]. *)
  Definition d_centered_km (t : nat) : P (arr V) :=
    if two then praise KMAccessError
    else pbind (read d_is_centered) (fun b =>
         pbind (pwhen (negb b) (d_center t)) (fun _ => load d_centered)).

  (** base.py:522-532 [frob_norm]. *)
  Definition d_frob_norm (t : nat) : P V :=
    pbind (d_populate t) (fun _ =>
    pbind (read (fun d => is_some (d_frob d))) (fun b =>
    pbind (pwhen (negb b)
      (pbind d_array (fun a => pbind (Ret (op_frob N a)) (fun v => write (put_frob (Some v)))))) (fun _ =>
    load d_frob))).

  (** The requests that are those of ThreadModel.v. *)
  Definition as_base (o : dop) : option rop :=
    match o with
    | DIndex rows cols => Some (ROIndex rows cols)
    | DDiagonal => Some RODiagonal
    | DFull => if keep then None else Some ROFull
    | _ => None
    end.

  (** The others. *)
  Definition d_op (t : nat) (o : dop) : P (dout V) :=
    match o with
    | DFrob => pbind (d_frob_norm t) (fun v => pret (DVal v))
    | DCentered => pbind (d_centered_km t) (fun a => pret (DArr a))
    | DNormed => pbind (d_normed_km t) (fun a => pret (DArr a))
    | _ => pbind (d_full t) (fun a => pret (DArr a))
    end.

  (** A request, handled and recorded as in ThreadModel.v. *)
  Definition d_request (t : nat) (o : dop) : P unit :=
    match as_base o with
    | Some b => plift (thread nan kv two n m t [b])
    | None => pbind (pcatch (d_op t o)) (fun r => write (fun d => put_log ((t, o, r) :: d_log d) d))
    end.

  Definition d_thread (t : nat) (ops : list dop) : P unit := pfor ops (d_request t).

  Definition d_pool (work : list (list dop)) : list (P unit) :=
    map (fun p => d_thread (fst p) (snd p)) (combine (seq 0 (List.length work)) work).

  (** The scheduler of ThreadModel.v. *)
  Definition d_step (c : list (P unit) * D) (t : nat) : list (P unit) * D :=
    match nth_error (fst c) t with
    | Some (Act u nx) => (list_upd (fst c) t (nx (snd c)), u (snd c))
    | _ => c
    end.
  Definition d_execute (work : list (list dop)) (d : D) (schedule : list nat) : list (P unit) * D :=
    fold_left d_step schedule (d_pool work, d).
  Fixpoint solo {A} (p : P A) (d : D) : D * res A :=
    match p with
    | Ret r => (d, r)
    | Act u nx => solo (nx d) (u d)
    end.

  (** Nothing derived yet (base.py:356-377 [attach_to] leaves the object so). *)
  Definition underived (s : shared V) : D := mkD s None false None false None [] [].
End Derived.
