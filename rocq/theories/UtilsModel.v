(** Model of the array-validation part of kernelmethods/utils.py. *)
From Coq Require Import String List Arith Bool.
Import ListNotations.
From Verif Require Import Prelude MatModel.

(** Drop singleton axes from axis [k] on: utils.py:48-49 ([k] = 2) and
    utils.py:67-68 ([k] = 1): [axes_to_sqz = (ax for ax, sz in enumerate(shape)
    if sz == 1 and ax > k-1)]; [np.squeeze] removes them and keeps the data. *)
Definition squeeze_from {E} (k : nat) (a : ndarray E) : ndarray E :=
  mkNd (firstn k (nd_shape a) ++ filter (fun s => negb (s =? 1)) (skipn k (nd_shape a)))
       (nd_data a).

(** dtype kinds relevant to [np.issubdtype]. *)
Inductive dtype : Type := DInt | DFloat | DComplex | DBool | DStr | DObject.

(** [ensure_dtype] argument: [np.number], [np.float64], or [None]/the array's own dtype. *)
Inductive ensure : Type := EnNumber | EnFloat64 | EnOwn.

(** [np.issubdtype(array.dtype, ensure_dtype)], utils.py:81. *)
Definition issubdtype (d : dtype) (e : ensure) : bool :=
  match e with
  | EnOwn => true
  | EnNumber => match d with DInt | DFloat | DComplex => true | _ => false end
  | EnFloat64 => match d with DFloat => true | _ => false end
  end.

Section Ensure.
  Context {E : Type}.
  (** [astype(float64)] on the flat data, [None] when numpy raises
      TypeError/ValueError (e.g. unparsable strings). An oracle. *)
  Variable cast : dtype -> list E -> option (list E).

  (** utils.py:73-100 [ensure_ndarray_size]. All three conversion failures end in
      ValueError; [np.dtype(np.number)] failing with TypeError falls back to
      float64 (lines 86-92), otherwise numpy itself maps it to float64. *)
  Definition ensure_ndarray_size (d : dtype) (a : ndarray E) (e : ensure) (num_dim : nat)
    : res (ndarray E) :=
    if negb (nd_ndim a =? num_dim) then Raise ValueError
    else if negb (issubdtype d e) then
           match cast d (nd_data a) with
           | Some data => Ok (mkNd (nd_shape a) data)
           | None => Raise ValueError
           end
         else Ok a.

  (** utils.py:41-57 [ensure_ndarray_2D]. *)
  Definition ensure_ndarray_2D (d : dtype) (a : ndarray E) (e : ensure)
             (num_cols : option nat) : res (ndarray E) :=
    rbind (ensure_ndarray_size d (squeeze_from 2 a) e 2) (fun a' =>
      match num_cols with
      | Some c => if negb (nth 1 (nd_shape a') 0 =? c) then Raise ValueError else Ok a'
      | None => Ok a'
      end).

  (** utils.py:60-70 [ensure_ndarray_1D]. *)
  Definition ensure_ndarray_1D (d : dtype) (a : ndarray E) (e : ensure) : res (ndarray E) :=
    ensure_ndarray_size d (squeeze_from 1 a) e 1.

  (** utils.py:7-38 [check_input_arrays]; [x.size] is the number of elements. *)
  Definition check_input_arrays (dx : dtype) (x : ndarray E) (dy : dtype) (y : ndarray E)
             (e : ensure) : res (ndarray E * ndarray E) :=
    rbind (ensure_ndarray_1D dx x e) (fun x' =>
    rbind (ensure_ndarray_1D dy y e) (fun y' =>
      if negb (length (nd_data x') =? length (nd_data y')) then Raise ValueError
      else Ok (x', y'))).
End Ensure.

(** [ensure_ndarray_2D(sample, ensure_dtype=sample.dtype)] as used by
    base.py:251,266: the dtype test is [issubdtype(d, d)], always true. *)
Definition ensure_2D_own {E} (a : ndarray E) : res (ndarray E) :=
  ensure_ndarray_2D (fun _ _ => None) DFloat a EnOwn None.

(** config.py:38, utils.py:143-151 [check_operation_kernel_matrix]. *)
Definition check_operation_kernel_matrix (operation : string) : res string :=
  let opr := lower operation in
  if existsb (String.eqb opr) ["sum"; "product"; "average"]%string
  then Ok opr else Raise ValueError.

(** utils.py:103-116 [check_callable]: [arity] is the number of parameters reported
    by [inspect.signature], [None] for a non-callable. *)
Definition check_callable {F} (arity : option nat) (func : F) (min_num_args : nat) : res F :=
  match arity with
  | None => Raise TypeError
  | Some n => if n <? min_num_args then Raise TypeError else Ok func
  end.

(** utils.py:119-128 [get_callable_name]: [fname] is [input_func.__name__] if present. *)
Definition get_callable_name (fname : option string) (name : option string) : string :=
  match name with
  | None => match fname with Some n => n | None => EmptyString end
  | Some n => n
  end.
