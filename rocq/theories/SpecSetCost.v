(** Vocabulary for the kernel evaluations of the functions that work on a whole KernelSet (C102). *)
From Coq Require Import String Reals List Arith ZArith Bool.
Import ListNotations.
From Verif Require Import Prelude MatModel KMModel SpecKM XReal SetModel SpecSet BucketModel RankModel
  KMXModel CompositeModel SpecComposite LinCombModel SpecCost.

Section Consumers.
  Context {U : Type}.
  Notation World := (world xr xr U).

  (** One call of a function that works on the members [ms] of the set [k], from [w] to [w']; [ok] says
      whether it returned: pairwise_similarity, linear_combination, rank_kernels (with either method), and
      [fit] of a composite of the set. A weight is given for each member. *)
  Inductive consumes (k : nat) (ms : list nat) (w w' : World) (ok : bool) : Prop :=
  | by_pairwise : forall co metric,
      fst (pairwise_similarity co k metric w) = w' ->
      is_ok (snd (pairwise_similarity co k metric w)) = ok -> consumes k ms w w' ok
  | by_combination : forall a ws norm,
      is_vector a ws -> length ws = length ms ->
      fst (linear_combination_set k a norm w) = w' ->
      is_ok (snd (linear_combination_set k a norm w)) = ok -> consumes k ms w w' ok
  | by_ranking : forall T (numbers : T -> res (list xr)) best_score t m p,
      fst (rank_kernels numbers best_score k t m p w) = w' ->
      is_ok (snd (rank_kernels numbers best_score k t m p w)) = ok -> consumes k ms w w' ok
  | by_composite : forall c kw,
      c_set c = k -> (forall ws, c_kind c = CWeighted ws -> length ws = length ms) ->
      fst (fst (fit kw (w, c))) = w' ->
      is_ok (snd (fit kw (w, c))) = ok -> consumes k ms w w' ok.

  (** The object at [l] is a KernelMatrix of the kernel [K] that has been attached to [x] (and [y]) after
      [c] kernel calls, and to nothing since; for two samples, normalised values were never asked for. *)
  Definition attached_since (w : World) (K : kernel xr xr) (nrm : bool) (x : ndarray xr)
             (y : option (ndarray xr)) (c l : nat) : Prop :=
    exists pre post,
      nth_error (w_objs w) l = Some (OKM (after xN K nrm pre x y post)) /\ no_attach post /\
      (y = None \/ nrm = false /\ no_full_sparse post /\
                   forallb (fun o => negb (wants_normalised nrm o)) post = true) /\
      length (g_calls (before (U:=U) xN K nrm pre)) = c.
End Consumers.
