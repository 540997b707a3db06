(** ConstantKernelMatrix as an object with attributes, dtype and a cached full matrix
    (base.py:869-1036). [SetModel.v] has the same class as a pair of size and value.

    Values are Python or numpy integers in the range of int64, floats and bools; the dtype is that of a
    float64, an int64 or a bool, or None. [num_samples] is an integer (the constructor does not look at
    it) with absolute value below 2^63. *)
From Coq Require Import List Arith ZArith Bool Reals.
Import ListNotations.
From Verif Require Import Prelude MatModel UtilsModel IndexModel KMModel XReal SetModel.
Local Open Scope Z_scope.

Inductive cval : Type := VInt (z : Z) | VFloat (x : xr) | VBool (b : bool).
Inductive cdt : Type := TFloat | TInt | TBool.

(** The integer part of a number towards zero (a C conversion of a double to an integer). *)
Definition rtrunc (r : R) : Z := if Rle_dec 0 r then Int_part r else - Int_part (- r).

Definition int64_ok (z : Z) : bool := (- 2 ^ 63 <=? z) && (z <? 2 ^ 63).

Section Const.
  (** What the conversion of a NaN, an infinity or a number beyond int64 to int64 gives (it depends on
      the processor), and the rounding of an integer with more than 53 bits to float64. *)
  Variable junk : xr -> Z.
  Variable rnd : Z -> xr.

  (** The element of [np.full(shape, fill_value=v, dtype=d)]: an unsafe cast. *)
  Definition np_cast (d : option cdt) (v : cval) : cval :=
    match d with
    | None => v
    | Some TFloat =>
        VFloat (match v with
                | VInt z => if Z.abs z <=? 2 ^ 53 then Fin (IZR z) else rnd z
                | VFloat x => x
                | VBool b => Fin (if b then 1 else 0)%R
                end)
    | Some TInt =>
        VInt (match v with
              | VInt z => z
              | VFloat (Fin r) => if int64_ok (rtrunc r) then rtrunc r else junk (Fin r)
              | VFloat x => junk x
              | VBool b => if b then 1 else 0
              end)
    | Some TBool =>
        VBool (match v with
               | VInt z => negb (z =? 0)
               | VFloat (Fin r) => if Req_EM_T r 0 then false else true
               | VFloat _ => true
               | VBool b => b
               end)
    end.

  (** base.py:888-920: [num_samples], [const_value], [dtype]; line 944: [_KM], absent at first. *)
  Record cobj : Type := mkC { o_num : Z; o_value : cval; o_dtype : option cdt; o_KM : option (mat cval) }.
  Definition const_new (n : Z) (v : cval) (d : option cdt) : cobj := mkC n v d None.

  Definition fill (s : cobj) : cval := np_cast (o_dtype s) (o_value s).

  (** base.py:923-937 [__len__], [size], [shape]: a negative result of [__len__] is a ValueError. *)
  Definition const_len : M cobj Z := fun s => (s, if o_num s <? 0 then Raise ValueError else Ok (o_num s)).
  Definition const_size_attr : M cobj Z := fun s => (s, Ok (o_num s)).

  (** base.py:940-949 [full]: np.full with a negative dimension is a ValueError. *)
  Definition const_full_attr : M cobj (mat cval) := fun s =>
    match o_KM s with
    | Some A => (s, Ok A)
    | None => if o_num s <? 0 then (s, Raise ValueError)
              else let A := mfull (Z.to_nat (o_num s)) (Z.to_nat (o_num s)) (fill s) in
                   (mkC (o_num s) (o_value s) (o_dtype s) (Some A), Ok A)
    end.

  (** base.py:952-956 [diag]. *)
  Definition const_diag_attr : M cobj (list cval) := fun s =>
    (s, if o_num s <? 0 then Raise ValueError else Ok (repeat (fill s) (Z.to_nat (o_num s)))).

  (** base.py:979-1024 [_get_indices_in_sample], as [SetModel.const_indices] with any [num_samples];
      [slice.indices] of a negative length is a ValueError. *)
  Definition const_indices_z (n : Z) (ix : cidx) : res (list Z) :=
    rbind (match ix with
           | CIStrNone => Raise KMAccessError
           | CIInt z => Ok [z]
           | CISlice a b st =>
               if n <? 0 then Raise ValueError
               else rbind (slice_indices a b st n) (fun '(a', b', st') => Ok (py_range a' b' st'))
           | CIIter l => celts l
           | CIOther => Raise KMAccessError
           end) (fun zs =>
      if existsb (fun z => (n <=? z) || (z <? 0)) zs then Raise KMAccessError
      else match zs with [] => Raise NameError | _ => Ok (sort_uniq zs) end).

  (** base.py:959-976 [__getitem__]. *)
  Definition const_item_attr (ix : option (cidx * cidx)) : M cobj (mat cval) := fun s =>
    (s, match ix with
        | None => Raise KMAccessError
        | Some (a, b) =>
            rbind (const_indices_z (o_num s) a) (fun rows =>
            rbind (const_indices_z (o_num s) b) (fun cols =>
              Ok (mfull (length rows) (length cols) (fill s))))
        end).

  (** What a program does with the object: reads, assignments to its attributes, and
      [c.full[i, j] = v], where v is of the dtype of the array (IndexError beyond the array). [full]
      returns the array the object keeps, not a copy. *)
  Inductive cop : Type :=
  | CFull | CDiag | CItem (ix : option (cidx * cidx)) | CLen | CSize
  | CSetNum (n : Z) | CSetValue (v : cval) | CSetDtype (d : option cdt)
  | CWrite (i j : nat) (v : cval).

  Definition const_write (i j : nat) (v : cval) : M cobj unit := fun s =>
    match const_full_attr s with
    | (s', Raise e) => (s', Raise e)
    | (s', Ok A) =>
        if (i <? mr A)%nat && (j <? mc A)%nat
        then (mkC (o_num s') (o_value s') (o_dtype s') (Some (mset A i j v)), Ok tt)
        else (s', Raise IndexError)
    end.

  Definition const_step (o : cop) (s : cobj) : cobj :=
    match o with
    | CFull => fst (const_full_attr s)
    | CDiag => fst (const_diag_attr s)
    | CItem ix => fst (const_item_attr ix s)
    | CLen => fst (const_len s)
    | CSize => fst (const_size_attr s)
    | CSetNum n => mkC n (o_value s) (o_dtype s) (o_KM s)
    | CSetValue v => mkC (o_num s) v (o_dtype s) (o_KM s)
    | CSetDtype d => mkC (o_num s) (o_value s) d (o_KM s)
    | CWrite i j v => fst (const_write i j v s)
    end.

  (** A program that catches the exceptions. *)
  Definition const_run (l : list cop) (s : cobj) : cobj := fold_left (fun s o => const_step o s) l s.
End Const.
