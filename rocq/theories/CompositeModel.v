(** Model of the composite kernels of kernelmethods/base.py: CompositeKernel (1367-1435),
    SumKernel (1438-1473), ProductKernel (1476-1503), AverageKernel (1506-1535),
    WeightedAverageKernel (1538-1575), over the heap of SetModel.v and the exact arithmetic of
    XReal.v. The [name] of a composite is not modelled. *)
From Coq Require Import String Reals List Bool Arith ZArith.
Import ListNotations.
From Verif Require Import Prelude MatModel UtilsModel KMModel XReal OpsModel KernelsModel KMXModel
  SetModel.

(** ** numpy / scipy arithmetic on the matrices returned by [km.full] *)

(** [weight * K] with a number [weight]; scipy multiplies the stored entries only. *)
Definition arr_scale (c : xr) (a : arr xr) : arr xr :=
  mkArr (afmt a)
    (tabulate (mr (amat a)) (mc (amat a)) (fun i j =>
       let v := xget (amat a) i j in
       if is_sparse a && negb (nonzero v) then Fin 0 else xmul c v)).

(** [acc + K]: entrywise, with numpy broadcasting; [acc] is an ndarray or a numpy.matrix (never
    sparse). A numpy.matrix operand makes the result one. A sparse [K] takes over the operation
    ([spmatrix.__radd__]): [acc] is broadcast to the shape of [K] and the result is a
    numpy.matrix. *)
Definition arr_add (acc K : arr xr) : res (arr xr) :=
  let f := match afmt acc, afmt K with Dense, Dense => Dense | _, _ => NpMatrix end in
  let entries r c :=
    mkArr f (tabulate r c (fun i j => xadd (bget NaN (amat acc) i j) (bget NaN (amat K) i j))) in
  match bdim (mr (amat acc)) (mr (amat K)), bdim (mc (amat acc)) (mc (amat K)) with
  | Some r, Some c =>
      if is_sparse K && negb ((r =? mr (amat K)) && (c =? mc (amat K)))
      then Raise ValueError else Ok (entries r c)
  | _, _ => Raise ValueError
  end.

(** [acc * K], base.py:1501: entrywise (with broadcasting) only if both operands are plain
    ndarrays. With a numpy.matrix on either side it is the MATRIX product (a numpy.matrix); a
    sparse [K] also gives the matrix product ([spmatrix.__rmul__]), of the class of [acc]. *)
Definition arr_mul (acc K : arr xr) : res (arr xr) :=
  match afmt acc, afmt K with
  | Dense, Dense =>
      match bdim (mr (amat acc)) (mr (amat K)), bdim (mc (amat acc)) (mc (amat K)) with
      | Some r, Some c =>
          Ok (mkArr Dense (tabulate r c (fun i j =>
                xmul (bget NaN (amat acc) i j) (bget NaN (amat K) i j))))
      | _, _ => Raise ValueError
      end
  | _, Lil =>
      if mc (amat acc) =? mr (amat K)
      then Ok (mkArr (afmt acc) (matmul_sp (amat acc) (amat K))) else Raise ValueError
  | _, _ =>
      if mc (amat acc) =? mr (amat K)
      then Ok (mkArr NpMatrix (matmul (amat acc) (amat K))) else Raise ValueError
  end.

(** [KM / n] for an integer n. *)
Definition arr_div (a : arr xr) (n : nat) : arr xr :=
  mkArr (afmt a) (tabulate (mr (amat a)) (mc (amat a)) (fun i j =>
    xdiv (xget (amat a) i j) (Fin (INR n)))).

(** [np.full((num_samples, num_samples), v)]: with a pair of sizes (two-sample members) the
    shape is a pair of tuples, which numpy rejects with TypeError. *)
Definition square (n : numsamp) (v : xr) : res (arr xr) :=
  match n with NSOne k => Ok (mkArr Dense (mfull k k v)) | _ => Raise TypeError end.

(** [ensure_ndarray_1D(weights)] on an array of numbers, utils.py:60-70. *)
Definition weights_1D (a : ndarray xr) : res (list xr) :=
  res_map (@nd_data xr) (ensure_ndarray_1D (fun _ _ => None) DFloat a EnNumber).

(** ** Composite objects *)
Inductive ckind : Type :=
| CSum | CProduct | CAverage
| CWeighted (weights : list xr).               (* self.weights *)

Record comp : Type := mkComp {
  c_kind : ckind;
  c_set : nat;                                 (* self.km_set, a reference *)
  c_num : numsamp;                             (* self.num_samples *)
  c_fitted : bool;                             (* self._is_fitted *)
  c_km : option (arr xr)                       (* self.KM *)
}.

Definition set_km (a : arr xr) (c : comp) : comp :=
  mkComp (c_kind c) (c_set c) (c_num c) (c_fitted c) (Some a).
Definition set_fitted (c : comp) : comp :=
  mkComp (c_kind c) (c_set c) (c_num c) true (c_km c).

(** The class to construct, with the constructor's own arguments. *)
Inductive cclass : Type :=
| NewSum | NewProduct | NewAverage
| NewWeighted (weights : ndarray xr).

Section Composite.
  Context {E U : Type}.
  Variable C : cmpops xr.
  Variable numeric : list E -> bool.
  Notation World := (world E xr U).

  (** base.py:1382-1398 [CompositeKernel.__init__], then 1552-1565 for the weights
      ([len(weights)] of a 0-d array raises TypeError). [None]: not a KernelSet. *)
  Definition comp_new (cls : cclass) (km_set : option nat) (w : World) : res comp :=
    match km_set with
    | None => Raise TypeError
    | Some k =>
        match nth_error (w_sets w) k with
        | None => Raise NameError                    (* dangling: does not occur *)
        | Some s =>
            if length (s_members s) <? 2 then Raise ValueError
            else if numsamp_eqb (s_num s) NSNone then Raise ValueError
            else
              let c kind := mkComp kind k (s_num s) false None in
              match cls with
              | NewSum => Ok (c CSum)
              | NewProduct => Ok (c CProduct)
              | NewAverage => Ok (c CAverage)
              | NewWeighted wts =>
                  match nd_shape wts with
                  | [] => Raise TypeError
                  | n :: _ =>
                      if length (s_members s) =? n
                      then res_map (fun l => c (CWeighted l)) (weights_1D wts)
                      else Raise ValueError
                  end
              end
        end
    end.

  (** State of a program using one composite over a heap. *)
  Definition cstate : Type := (World * comp)%type.
  Notation act := (M cstate).

  Definition on_world {A} (m : M World A) : act A :=
    fun s => let (w, r) := m (fst s) in ((w, snd s), r).
  Definition put_km (r : res (arr xr)) : act unit :=
    a <- lift r ;; modify (fun s => (fst s, set_km a (snd s))).

  (** [self.KM]: AttributeError if never assigned. *)
  Definition get_km : act (arr xr) :=
    s <- get ;; match c_km (snd s) with Some a => ret a | None => raise AttributeError end.

  (** One round of a loop: [self.KM = f(self.KM, km.full)]; Python evaluates [self.KM] first. *)
  Definition combine_step (f : arr xr -> arr xr -> res (arr xr)) (l : nat) : act unit :=
    a <- get_km ;;
    K <- on_world (obj_full xN l) ;;
    put_km (f a K).

  (** The argument [kernel_weights] of SumKernel.fit; base.py:1460-1467. *)
  Definition sum_weights (size : nat) (kernel_weights : option (ndarray xr)) : res (list xr) :=
    match kernel_weights with
    | None => Ok (repeat (Fin 1) size)
    | Some a => rbind (weights_1D a) (fun l =>
                  if negb (length l =? size) then Raise ValueError else Ok l)
    end.

  (** base.py:1469-1471, 1571-1573: [for weight, km in zip(weights, self.km_set)]. *)
  Definition fit_weighted (weights : list xr) : act unit :=
    s <- get ;;
    put_km (square (c_num (snd s)) (Fin 0)) ;;;
    ms <- on_world (set_iter (c_set (snd s))) ;;
    for_each (combine weights ms) (fun p =>
      combine_step (fun a K => arr_add a (arr_scale (fst p) K)) (snd p)).

  (** [fit]: base.py:1457-1473 (SumKernel), 1496-1503 (ProductKernel), 1525-1535 (AverageKernel),
      1568-1575 (WeightedAverageKernel). Only SumKernel.fit has an argument. *)
  Definition fit (kernel_weights : option (ndarray xr)) : act unit :=
    s <- get ;;
    ms <- on_world (set_iter (c_set (snd s))) ;;
    match c_kind (snd s) with
    | CSum =>
        wts <- lift (sum_weights (length ms) kernel_weights) ;;
        fit_weighted wts
    | CWeighted wts => fit_weighted wts
    | CProduct =>
        put_km (square (c_num (snd s)) (Fin 1)) ;;;
        for_each ms (combine_step arr_mul)
    | CAverage =>
        put_km (square (c_num (snd s)) (Fin 0)) ;;;
        for_each ms (combine_step arr_add) ;;;
        a <- get_km ;;
        put_km (Ok (arr_div a (length ms)))
    end ;;;
    modify (fun s => (fst s, set_fitted (snd s))).

  (** base.py:1406-1425 [composite_KM] and its alias [full]. *)
  Definition composite_KM : act (arr xr) :=
    s <- get ;;
    if c_fitted (snd s) then get_km else raise ValueError.

  (** Operations of a program: on the heap, and on the composite. *)
  Inductive cop : Type :=
  | CHeap (o : wop E xr U)
  | CFit (kernel_weights : option (ndarray xr))
  | CGet.
  Inductive cout : Type := COut (o : wout E xr U) | CUnit | CMat (a : arr xr).

  Definition cstep (o : cop) : act cout :=
    match o with
    | CHeap o => on_world (wfmap COut (wstep xN C numeric o))
    | CFit wts => fit wts ;;; ret CUnit
    | CGet => a <- composite_KM ;; ret (CMat a)
    end.

  Fixpoint crun (ops : list cop) (s : cstate) : cstate :=
    match ops with [] => s | o :: ops' => crun ops' (fst (cstep o s)) end.
End Composite.
Arguments cop : clear implicits.
Arguments cout : clear implicits.
