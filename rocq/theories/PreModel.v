(** KernelMatrixPrecomputed (base.py:796-866) and the array it was made of: line 804-805 converts
    anything but an ndarray ([np.array], a new array), line 813 keeps the array without copying it.
    [SetModel.precomputed_new] is the test of the constructor.

    numpy: basic indexing ([km[i]], [km[a:, c:]]) and [full] give views of the array the object keeps,
    indexing with lists gives copies, [diagonal()] a read-only view. Assignments are of values of the dtype
    of the array. *)
From Coq Require Import List Arith Bool.
Import ListNotations.
From Verif Require Import Prelude MatModel UtilsModel KMModel SetModel.

Section Pre.
  Context {V : Type}.
  Variable C : cmpops V.
  Variable d : V.

  (** Arrays in memory; the one the object keeps ([_KM]); the argument of the constructor; the attribute
      [num_samples] (line 814). *)
  Record pstate : Type := mkP { p_heap : list (mat V); p_km : nat; p_arg : nat; p_num : nat }.

  (** base.py:801-819 on an ndarray ([shared]), or on a list of lists. *)
  Definition pre_init (shared : bool) (a : ndarray V) : res pstate :=
    rbind (precomputed_new C d a) (fun A =>
      Ok (if shared then mkP [A] 0 0 (mr A) else mkP [A; A] 0 1 (mr A))).

  Definition array_at (s : pstate) (l : nat) : mat V := nth l (p_heap s) (mkMat 0 0 []).

  (** base.py:829-846 [size], [full], [diag]; 849-855 [km[i, j]] for indices that are not negative. *)
  Definition pre_full (s : pstate) : mat V := array_at s (p_km s).
  Definition pre_size (s : pstate) : nat := mr (pre_full s).
  Definition pre_diag (s : pstate) : list V :=
    map (fun i => mget d (pre_full s) i i) (seq 0 (Nat.min (mr (pre_full s)) (mc (pre_full s)))).
  Definition pre_item (i j : nat) (s : pstate) : res V :=
    if (i <? mr (pre_full s)) && (j <? mc (pre_full s)) then Ok (mget d (pre_full s) i j) else Raise KMAccessError.

  (** What a caller can write into: the argument, [km.full], [km[r]], [km[a:, c:]], or what indexing with
      lists returned. *)
  Inductive handle : Type := HArg | HFull | HRow (r : nat) | HBlock (a c : nat) | HCopy.

  (** The array and the position that item (i, j) of the handle is (item j for a row). *)
  Definition target (s : pstate) (h : handle) (i j : nat) : option (nat * nat * nat) :=
    match h with
    | HArg => Some (p_arg s, i, j)
    | HFull => Some (p_km s, i, j)
    | HRow r => Some (p_km s, r, j)
    | HBlock a c => Some (p_km s, a + i, c + j)
    | HCopy => None
    end.

  Inductive pop : Type := PWrite (h : handle) (i j : nat) (v : V) | PSetNum (n : nat).

  (** A write beyond the array is an IndexError, which the program catches. *)
  Definition pre_step (o : pop) (s : pstate) : pstate :=
    match o with
    | PWrite h i j v =>
        match target s h i j with
        | Some (l, a, b) =>
            let A := array_at s l in
            if (a <? mr A) && (b <? mc A)
            then mkP (list_upd (p_heap s) l (mset A a b v)) (p_km s) (p_arg s) (p_num s) else s
        | None => s
        end
    | PSetNum n => mkP (p_heap s) (p_km s) (p_arg s) n
    end.

  Definition pre_run (l : list pop) (s : pstate) : pstate := fold_left (fun s o => pre_step o s) l s.
End Pre.
