(** Model of kernelmethods/operations.py. Warnings and prints are dropped. *)
From Coq Require Import String Reals List Bool Arith.
Import ListNotations.
From Verif Require Import Prelude MatModel XReal.

(** operations.py:104-141 [center_km]. [Ic.dot(KM).dot(Ic)] keeps ndarray /
    numpy.matrix; a sparse matrix is not an ndarray. *)
Definition center_matrix (n : nat) : mat xr :=
  tabulate n n (fun i j => xsub (if i =? j then Fin 1 else Fin 0)
                                (xdiv (Fin 1) (Fin (INR n)))).
Definition center_km (a : arr xr) : res (arr xr) :=
  if is_ndarray a then
    if mr (amat a) =? mc (amat a) then
      let Ic := center_matrix (mr (amat a)) in
      Ok (mkArr (afmt a) (matmul (matmul Ic (amat a)) Ic))
    else Raise ValueError
  else Raise ValueError.

(** [1 / np.sqrt(diag)], operations.py:186,255-256. *)
Definition inv_sqrt (v : list xr) : list xr := map (fun x => xdiv (Fin 1) (xsqrt x)) v.

(** [np.isclose(v, 0.0).any()], operations.py:179,247-248. *)
Definition any_zero (v : list xr) : bool := existsb (fun x => xisclose x (Fin 0)) v.

(** [diagflat(u) @ KM @ diagflat(v)], operations.py:188,258. Python evaluates from the
    left; a sparse KM makes the first product (and hence the result) a dense array. *)
Definition scale_both (u v : list xr) (a : arr xr) : arr xr :=
  match afmt a with
  | Lil => mkArr Dense (matmul (matmul_sp (diagflat u) (amat a)) (diagflat v))
  | f => mkArr f (matmul (matmul (diagflat u) (amat a)) (diagflat v))
  end.

(** operations.py:144-204 [normalize_km]; the bare [except] re-raises. *)
Definition normalize_km (method : string) (a : arr xr) : res (arr xr) :=
  if negb (mr (amat a) =? mc (amat a)) then Raise ValueError
  else if String.eqb (lower method) "cosine" then
    let km_diag := diagonal_of (amat a) in
    if any_zero km_diag then Raise KMNormError
    else Ok (scale_both (inv_sqrt km_diag) (inv_sqrt km_diag) a)
  else Raise NotImplementedErr.

(** operations.py:207-263 [normalize_km_2sample]. *)
Definition normalize_km_2sample (method : string) (a : arr xr) (dx dy : list xr)
  : res (arr xr) :=
  if negb (length dx =? mr (amat a)) || negb (mc (amat a) =? length dy)
  then Raise ValueError
  else if String.eqb (lower method) "cosine" then
    if any_zero dx || any_zero dy then Raise KMNormError
    else Ok (scale_both (inv_sqrt dx) (inv_sqrt dy) a)
  else Raise NotImplementedErr.

(** [A.shape != B.shape] negated. *)
Definition same_shape (A B : mat xr) : bool := (mr A =? mr B) && (mc A =? mc B).

(** operations.py:266-292 [frobenius_product]. [np.multiply] is entrywise on ndarrays and
    numpy.matrix. scipy.sparse matrices do not implement numpy ufuncs: each operand is
    wrapped as an object scalar and multiplied with [*], which for them is the MATRIX
    product (ValueError on a dimension mismatch), of which [np.sum] then adds up the
    entries. A mixed dense/sparse pair never occurs in the library and is not modelled
    (treated as dense). *)
Definition frobenius_product (a b : arr xr) : res xr :=
  if negb (same_shape (amat a) (amat b)) then Raise ValueError
  else if is_sparse a && is_sparse b then
    if mc (amat a) =? mr (amat b) then Ok (msum (matmul_spsp (amat a) (amat b)))
    else Raise ValueError
  else Ok (msum (tabulate (mr (amat a)) (mc (amat a))
                          (fun i j => xmul (xget (amat a) i j) (xget (amat b) i j)))).

(** operations.py:295-311 [frobenius_norm]. *)
Definition frobenius_norm (a : arr xr) : res xr := res_map xsqrt (frobenius_product a a).

(** The [value_if_zero_division] argument, operations.py:315,371:
    'raise' (or Exception), or a value to be returned. *)
Inductive zero_div : Type := ZRaise | ZValue (v : xr).

(** operations.py:314-380 [alignment_centered]. *)
Definition alignment_centered (a b : arr xr) (z : zero_div) (centered_already : bool)
  : res xr :=
  if negb (same_shape (amat a) (amat b)) then Raise ValueError
  else if negb (is_ndarray a) || negb (is_ndarray b) then Raise TypeError
  else rbind (if centered_already then Ok a else center_km a) (fun ca =>
       rbind (if centered_already then Ok b else center_km b) (fun cb =>
       rbind (frobenius_norm ca) (fun na =>
       rbind (frobenius_norm cb) (fun nb =>
         if xisclose na (Fin 0) || xisclose nb (Fin 0) then
           match z with ZRaise => Raise ValueError | ZValue v => Ok v end
         else rbind (frobenius_product ca cb) (fun p => Ok (xdiv p (xmul na nb))))))).

(** operations.py:28-101 [is_positive_semidefinite]. [eigvalsh] is scipy's [eigh]
    (eigenvalues only), a parameter: [Raise] covers LinAlgError and any other exception
    it may raise (both branches give [False]). *)
Section PSDCheck.
  Variable eigvalsh : mat xr -> res (list xr).
  Definition is_PSD (a : arr xr) (tol : R) : res bool :=
    if negb (is_ndarray a) then Raise TypeError
    else if negb (mr (amat a) =? mc (amat a)) then Ok false
    else if negb (forallb (fun i => forallb (fun j =>
                    xisclose (xget (amat a) i j) (xget (amat a) j i)) (seq 0 (mc (amat a))))
                  (seq 0 (mr (amat a)))) then Ok false
    else match eigvalsh (amat a) with
         | Raise _ => Ok false
         | Ok l => Ok (negb (existsb (fun e => xltb e (xopp (Fin tol))) l))
         end.
End PSDCheck.

(** operations.py:389-432 [linear_combination]. [fulls] are the outcomes of [km.full] for the
    members of the set in order, evaluated one after the other; [num_samples] is the set's
    [num_samples] used as the shape of the initial zero array ([n] x [m]; for one sample
    [np.zeros(n)] broadcasts over the rows of an n x n matrix, with the same result).
    Only dense member matrices are modelled; a weight is a number (ensure_ndarray_1D on
    numeric data is the identity). *)
Definition normed_weights (norm_weights : bool) (w : list xr) : res (list xr) :=
  if norm_weights then
    if xisclose (xsum w) (Fin 0) then Raise RuntimeError
    else Ok (map (fun x => xdiv x (xsum w)) w)
  else Ok w.

Fixpoint weighted_sum (n m : nat) (acc : mat xr) (w : list xr) (fulls : list (res (mat xr)))
  : res (mat xr) :=
  match w, fulls with
  | x :: w', f :: fulls' =>
      rbind f (fun K =>
        if (mr K =? n) && (mc K =? m) then
          weighted_sum n m (tabulate n m (fun i j =>
            xadd (xget acc i j) (xmul x (xget K i j)))) w' fulls'
        else Raise ValueError)
  | _, _ => Ok acc
  end.

Definition linear_combination (n m : nat) (fulls : list (res (mat xr))) (w : list xr)
           (norm_weights : bool) : res (mat xr) :=
  if negb (length fulls =? length w) then Raise ValueError
  else rbind (normed_weights norm_weights w) (fun w' =>
         weighted_sum n m (tabulate n m (fun _ _ => Fin 0)) w' fulls).
