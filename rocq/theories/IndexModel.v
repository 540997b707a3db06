(** Index expressions of KernelMatrix.__getitem__ (base.py:597-685). *)
From Coq Require Import List Arith ZArith Bool.
Import ListNotations.
From Verif Require Import Prelude.
Local Open Scope Z_scope.

(** An element of an iterable index: an integer (any numpy or Python integer type) or
    something else (bool, float, string, nested list, ...). *)
Inductive ielt : Type := EInt (z : Z) | ENonInt.

(** An index along one dimension. [IInt]: a Python int or np.int64 (what
    [np.issubdtype(type(i), np.int_)] accepts); [IIter]: a non-string iterable;
    [IFails e]: an iterable whose iteration raises [e] (TypeError for a 0-d array);
    [IOther]: anything else (str, None, float, bool, np.int32 scalar, ...). *)
Inductive idx1 : Type :=
| IInt (z : Z)
| ISlice (start stop step : option Z)
| IIter (l : list ielt)
| IFails (e : exn)
| IOther.

(** The object between the brackets. [IPair a b]: an iterable of length 2 that is not a
    string; [IFlat k]: an integer; [IInvalid]: anything else. If taking the length or
    one of the two items of an iterable raises [e] (a generator or a set: TypeError, a
    dict: KeyError), it is a pair with [IFails e] as that item. *)
Inductive idx : Type :=
| IPair (a b : idx1)
| IFlat (k : Z)
| IInvalid.

(** Python's [slice(start, stop, step).indices(n)] (CPython PySlice_AdjustIndices
    semantics); ValueError for step 0. *)
Definition slice_indices (start stop step : option Z) (n : Z) : res (Z * Z * Z) :=
  let st := match step with None => 1 | Some s => s end in
  if st =? 0 then Raise ValueError
  else
    let lower := if st <? 0 then -1 else 0 in
    let upper := if st <? 0 then n - 1 else n in
    let clip z := if z <? 0 then Z.max (z + n) lower else Z.min z upper in
    let a := match start with
             | None => if st <? 0 then upper else lower
             | Some z => clip z
             end in
    let b := match stop with
             | None => if st <? 0 then lower else upper
             | Some z => clip z
             end in
    Ok (a, b, st).

(** Number of elements of Python's [range(a, b, st)]. *)
Definition range_len (a b st : Z) : Z :=
  if 0 <? st then (if a <? b then (b - a - 1) / st + 1 else 0)
  else (if b <? a then (a - b - 1) / (- st) + 1 else 0).

(** [list(range(a, b, st))]. *)
Definition py_range (a b st : Z) : list Z :=
  map (fun k => a + Z.of_nat k * st) (seq 0 (Z.to_nat (range_len a b st))).

(** [sorted(list(set(l)))] on integers: insertion into a sorted duplicate-free list. *)
Fixpoint insert_uniq (z : Z) (l : list Z) : list Z :=
  match l with
  | [] => [z]
  | y :: l' => if z <? y then z :: l
               else if z =? y then l
               else y :: insert_uniq z l'
  end.

Definition sort_uniq (l : list Z) : list Z := fold_right insert_uniq [] l.

(** base.py:661-664: every element must be of integer type. *)
Fixpoint int_elts (l : list ielt) : res (list Z) :=
  match l with
  | [] => Ok []
  | EInt z :: l' => rbind (int_elts l') (fun zs => Ok (z :: zs))
  | ENonInt :: _ => Raise KMAccessError
  end.

(** base.py:632-685 [_get_indices_in_sample], for dimension size [shape_dim]
    ([None]: the object was never attached, so [self.shape] does not exist and reading it
    raises AttributeError). Returns the selected indices and whether all are selected.
    [np.isnan] on an integer is always False. The [index_obj_per_dim is None] test at
    line 648 is inside the slice branch and can never hold. *)
Definition get_indices_in_sample (shape_dim : option nat) (ix : idx1)
  : res (list nat * bool) :=
  rbind
    (match ix with
     | IInt z => Ok [EInt z]
     | ISlice a b st =>
         match shape_dim with
         | None => Raise AttributeError
         | Some n =>
             rbind (slice_indices a b st (Z.of_nat n)) (fun '(a', b', st') =>
               Ok (map EInt (py_range a' b' st')))
         end
     | IIter l => Ok l
     | IFails e => Raise e
     | IOther =>           (* the message at line 657-660 formats self.shape *)
         match shape_dim with None => Raise AttributeError | Some _ => Raise KMAccessError end
     end) (fun elts =>
  rbind (int_elts elts) (fun zs =>
    match zs, shape_dim with
    | [], _ => Raise KMAccessError                     (* line 676-677 *)
    | _ :: _, None => Raise AttributeError             (* line 667: self.shape *)
    | _ :: _, Some n =>
        if existsb (fun z => (Z.of_nat n <=? z) || (z <? 0)) zs
        then Raise KMAccessError                       (* lines 667-673 *)
        else
          let sel := map Z.to_nat (sort_uniq zs) in    (* line 680 *)
          Ok (sel, Nat.eqb (length sel) n)             (* lines 682-685 *)
    end)).

(** [np.unravel_index(k, (r, c))] (base.py:609): row-major; ValueError when out of
    bounds. An integer that fits neither int64 nor uint64 becomes an array of dtype
    object, which is refused with TypeError. ([r * c] is below 2^63, as for every array.) *)
Definition fits_64 (k : Z) : bool := (- 2 ^ 63 <=? k) && (k <? 2 ^ 64).
Definition unravel_index (k : Z) (r c : nat) : res (Z * Z) :=
  if (k <? 0) || (Z.of_nat (r * c) <=? k)
  then Raise (if fits_64 k then ValueError else TypeError)
  else Ok (k / Z.of_nat c, k mod Z.of_nat c).
