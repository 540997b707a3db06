(** Model of [linear_combination] (operations.py:389-432) over the heap of SetModel.v: the members are
    kernel matrix objects, whose [full] is read in the loop and may raise, be sparse or a
    numpy.matrix. Arithmetic is exact (XReal.v). *)
From Coq Require Import String Reals List Bool Arith ZArith.
Import ListNotations.
From Verif Require Import Prelude MatModel UtilsModel KMModel XReal OpsModel KernelsModel KMXModel
  SetModel CompositeModel.

(** A numpy value: a 0-dimensional array, a 1-dimensional one, or a matrix (ndarray, numpy.matrix or
    scipy.sparse). *)
Inductive lcval : Type :=
| LScalar (v : xr)
| LVector (l : list xr)
| LMatrix (a : arr xr).

(** operations.py:428 [np.zeros(km_set.num_samples)]: the number of samples, a pair of numbers, or None
    (numpy reads the shape None as the empty shape). *)
Definition lc_zeros (n : numsamp) : lcval :=
  match n with
  | NSNone => LScalar (Fin 0)
  | NSOne n => LVector (repeat (Fin 0) n)
  | NSTwo n m => LMatrix (mkArr Dense (mfull n m (Fin 0)))
  end.

(** operations.py:430 [KM + K]: numpy broadcasting, a vector being a matrix of one row. A sparse
    operand takes over: [0 + sparse] is a copy of the sparse matrix (any other number raises
    NotImplementedError), sparse + sparse is sparse (ValueError unless the shapes agree), sparse + dense
    is a numpy.matrix of the shape of the sparse operand. *)
Definition lc_add (acc : lcval) (K : arr xr) : res lcval :=
  match acc with
  | LScalar v =>
      if is_sparse K then (if xeqb v (Fin 0) then Ok (LMatrix K) else Raise NotImplementedErr)
      else Ok (LMatrix (mkArr (afmt K) (tabulate (mr (amat K)) (mc (amat K)) (fun i j =>
             xadd v (xget (amat K) i j)))))
  | LVector l => res_map LMatrix (arr_add (mkArr Dense (mkMat 1 (length l) [l])) K)
  | LMatrix a =>
      if is_sparse a then
        if is_sparse K then
          if (mr (amat a) =? mr (amat K)) && (mc (amat a) =? mc (amat K))
          then Ok (LMatrix (mkArr Lil (tabulate (mr (amat a)) (mc (amat a)) (fun i j =>
                 xadd (xget (amat a) i j) (xget (amat K) i j)))))
          else Raise ValueError
        else res_map LMatrix (arr_add K a)
      else res_map LMatrix (arr_add a K)
  end.

Section LinComb.
  Context {E U : Type}.
  Notation World := (world E xr U).

  (** operations.py:429-430: [for weight, km in zip(weights, km_set): KM = KM + weight * km.full]. *)
  Fixpoint lc_loop (l : list (xr * nat)) (acc : lcval) : M World lcval :=
    match l with
    | [] => ret acc
    | (weight, m) :: l' =>
        K <- obj_full xN m ;;
        acc' <- lift (lc_add acc (arr_scale weight K)) ;;
        lc_loop l' acc'
    end.

  (** operations.py:411-432. [len(weights)] of a 0-dimensional array raises TypeError; [weights] is an
      array of numbers. *)
  Definition linear_combination_set (k : nat) (weights : ndarray xr) (norm_weights : bool)
    : M World lcval :=
    s <- get_set k ;;
    match nd_shape weights with
    | [] => raise TypeError
    | n :: _ =>
        if length (s_members s) =? n then
          ws <- lift (weights_1D weights) ;;
          ws' <- lift (normed_weights norm_weights ws) ;;
          ms <- set_iter k ;;
          lc_loop (combine ws' ms) (lc_zeros (s_num s))
        else raise ValueError
    end.
End LinComb.
