(** Python's [for], [in] and truth value on the classes of base.py. *)
From Coq Require Import String List Arith ZArith Bool Lia.
From Verif Require Import Prelude MatModel UtilsModel IndexModel KMModel SetModel.
Import ListNotations.
Local Open Scope km_scope.

(** [for v in obj] where the class of [obj] defines [__getitem__] but no [__iter__], as
    KernelMatrix (base.py:597), KernelMatrixPrecomputed (849) and ConstantKernelMatrix (959)
    do: Python calls [obj[0]], [obj[1]], ... An IndexError ends the loop normally, any other
    exception leaves it. [loop g i s l s' r]: from the index [i] and the state [s] of the
    object the loop body sees the items [l], the object ends in state [s'], and the loop ends
    normally ([r = None]) or with an exception. (StopIteration, which ends the loop as well,
    is not among the exceptions of the model.) *)
Inductive loop {St A : Type} (g : Z -> M St A) : Z -> St -> list A -> St -> option exn -> Prop :=
| loop_end : forall i s s', g i s = (s', Raise IndexError) -> loop g i s [] s' None
| loop_leave : forall i s s' e, g i s = (s', Raise e) -> e <> IndexError -> loop g i s [] s' (Some e)
| loop_next : forall i s s1 a l s' r, g i s = (s1, Ok a) -> loop g (i + 1)%Z s1 l s' r ->
    loop g i s (a :: l) s' r.

(** [v in obj] for such a class: the same calls until an item equals [v]. [hit] tells whether
    an item does. *)
Inductive search {St A : Type} (g : Z -> M St A) (hit : A -> bool) : Z -> St -> St -> res bool -> Prop :=
| search_end : forall i s s', g i s = (s', Raise IndexError) -> search g hit i s s' (Ok false)
| search_leave : forall i s s' e, g i s = (s', Raise e) -> e <> IndexError -> search g hit i s s' (Raise e)
| search_hit : forall i s s' a, g i s = (s', Ok a) -> hit a = true -> search g hit i s s' (Ok true)
| search_next : forall i s s1 a s' r, g i s = (s1, Ok a) -> hit a = false ->
    search g hit (i + 1)%Z s1 s' r -> search g hit i s s' r.

(** An item compared with a number: base.py:629 gives 1 x 1 matrices, whose truth value is that
    of their only entry; the truth value of a comparison of any other shape is an error in
    Python and does not occur. *)
Definition item_equals {V} (eqb : V -> V -> bool) (v : V) (a : arr V) : bool :=
  match md (amat a) with [[u]] => eqb u v | _ => false end.

(** Item [i] of a KernelMatrixPrecomputed, base.py:849-856: row [i] of the ndarray (numpy
    accepts negative numbers down to [- n]; a loop does not ask for them); every exception
    becomes KMAccessError. *)
Definition precomputed_item {V} (A : mat V) (i : Z) : M unit (list V) :=
  if ((0 <=? i) && (i <? Z.of_nat (mr A)))%Z
  then match nth_error (md A) (Z.to_nat i) with Some r => ret r | None => raise KMAccessError end
  else raise KMAccessError.

(** Item [i] of a ConstantKernelMatrix, base.py:962-965: an integer is not an iterable of length 2. *)
Definition constant_item {V} (c : cmatrix V) (i : Z) : M unit (mat V) := lift (const_getitem c None).

(** [bool(obj)]: [len(obj) != 0] for a class with [__len__] (base.py:397, 822, 921, 1117). *)
Definition km_truth {E V U} : M (km E V U) bool := n <- size ;; ret (negb (n =? 0)).

(** [for km in ks: body] for a KernelSet, base.py:1254-1258: a generator that reads the size
    at its first step and item [index] of the list of members when it gets there. [bodies i] is
    what the program does in the [i]-th round, to this set or to anything else. *)
Section SetLoop.
  Context {E V U : Type}.
  Variable N : numops V.
  Variable C : cmpops V.
  Variable numeric : list E -> bool.
  Variable bodies : nat -> list (wop E V U).

  Fixpoint set_rounds (k : nat) (todo : list nat) (w : world E V U) : world E V U * res (list nat) :=
    match todo with
    | [] => (w, Ok [])
    | i :: rest =>
        match nth_error (w_sets w) k with
        | None => (w, Raise NameError)
        | Some s =>
            match nth_error (s_members s) i with
            | None => (w, Raise IndexError)
            | Some l =>
                let r := set_rounds k rest (wrun N C numeric (bodies i) w) in
                (fst r, rbind (snd r) (fun ls => Ok (l :: ls)))
            end
        end
    end.

  Definition set_for (k : nat) (w : world E V U) : world E V U * res (list nat) :=
    match nth_error (w_sets w) k with
    | None => (w, Raise NameError)
    | Some s => set_rounds k (seq 0 (length (s_members s))) w
    end.
End SetLoop.
