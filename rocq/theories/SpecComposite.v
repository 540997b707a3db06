(** Vocabulary to state what composite kernels compute. *)
From Coq Require Import String Reals List Arith Bool.
Import ListNotations.
From Verif Require Import Prelude MatModel KMModel SpecKM XReal SpecLinAlg SetModel KMXModel
  CompositeModel.

(** Reading [full] of each of the kernel matrices [ms], in this state of the heap, returns [Ks]. *)
Definition fulls {E U} (w : world E xr U) (ms : list nat) (Ks : list (arr xr)) : Prop :=
  Forall2 (fun l K => snd (obj_full xN l w) = Ok K) ms Ks.

(** An n x n matrix, of any storage format. *)
Definition is_square (n : nat) (a : arr xr) : Prop := mr (amat a) = n /\ mc (amat a) = n.

(** [a] is an n x n ndarray or numpy.matrix with the entries [f]. *)
Definition is_matrix (n : nat) (f : nat -> nat -> xr) (a : arr xr) : Prop :=
  is_square n a /\ is_ndarray a = true /\
  forall i j, i < n -> j < n -> xget (amat a) i j = f i j.

(** Entry (i, j) of the weighted sum, of the entrywise product, and of the entrywise mean. *)
Definition sum_entry (ws : list R) (Ks : list (arr xr)) (i j : nat) : xr :=
  xsum (map (fun p => xmul (Fin (fst p)) (xget (amat (snd p)) i j)) (combine ws Ks)).
Definition prod_entry (Ks : list (arr xr)) (i j : nat) : xr :=
  fold_right xmul (Fin 1) (map (fun K => xget (amat K) i j) Ks).
Definition mean_entry (Ks : list (arr xr)) (i j : nat) : xr :=
  xdiv (xsum (map (fun K => xget (amat K) i j) Ks)) (Fin (INR (length Ks))).

(** The total of a list of weights, and the weighted mean. *)
Definition total (ws : list R) : R := fold_right Rplus 0%R ws.
Definition weighted_mean_entry (ws : list R) (Ks : list (arr xr)) (i j : nat) : xr :=
  xdiv (sum_entry ws Ks i j) (Fin (total ws)).

(** An array holding the finite numbers [ws]: one-dimensional up to trailing axes of length 1. *)
Definition is_vector (a : ndarray xr) (ws : list R) : Prop :=
  nd_data a = map Fin ws /\
  exists extra, nd_shape a = length ws :: extra /\ Forall (fun s => s = 1) extra.

(** No [fit] among the operations; no [fit] that returned. *)
Definition no_fit {E U} (ops : list (cop E U)) : Prop := forall w, ~ In (CFit w) ops.
Fixpoint no_fit_returned {E U} (C : cmpops xr) (numeric : list E -> bool) (ops : list (cop E U))
         (s : cstate) : Prop :=
  match ops with
  | [] => True
  | o :: rest =>
      match o with CFit _ => is_ok (snd (cstep C numeric o s)) = false | _ => True end
      /\ no_fit_returned C numeric rest (fst (cstep C numeric o s))
  end.

(** [fit(weights)] returns, and from then on, until [fit] is called again, composite_KM returns
    one and the same matrix, which satisfies [P], whatever else the program does. *)
Definition fits {E U} (C : cmpops xr) (numeric : list E -> bool) (weights : option (ndarray xr))
           (s : cstate (E:=E) (U:=U)) (P : arr xr -> Prop) : Prop :=
  exists a, P a /\ snd (cstep C numeric (CFit weights) s) = Ok CUnit /\
    forall post, no_fit post ->
      snd (cstep C numeric CGet (crun C numeric post (fst (cstep C numeric (CFit weights) s))))
      = Ok (CMat a).

(** An n x n matrix of finite numbers that is positive semidefinite. *)
Definition psd_array (n : nat) (K : arr xr) : Prop :=
  is_square n K /\
  exists A, psd n A /\ forall i j, i < n -> j < n -> xget (amat K) i j = Fin (A i j).

(** The kernel matrix at [l] is a KernelMatrix (not normalised, kernel value [k]) that was attached
    to the sample [x] of n points, with arbitrary operations before (but for whole-matrix indexing
    and full_sparse, which change what [full] returns: C04) and no re-attachment since. *)
Definition attached_member {U} (n d : nat) (x : ndarray xr) (w : world xr xr U) (l : nat)
           (k : list xr -> list xr -> xr) : Prop :=
  exists (K : kernel xr xr) pre post,
    nth_error (w_objs w) l = Some (OKM (after xN K false pre x None post)) /\
    never_raises K k x None n n d /\ kfmt K = true /\ no_attach post /\
    no_full_sparse post /\ no_whole_index n n post.
