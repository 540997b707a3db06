(** Vocabulary to state what a failed [fit] of a composite kernel leaves behind. *)
From Coq Require Import String Reals List Arith Bool.
Import ListNotations.
From Verif Require Import Prelude MatModel KMModel SpecKM XReal SpecLinAlg SetModel KMXModel
  CompositeModel SpecComposite.

(** Reading [full] of the kernel matrix [l] raises [e]; or it returns a matrix that can not be
    combined with n x n ones (other number of rows, and no broadcasting), which numpy and scipy refuse
    with ValueError. *)
Definition member_fails {E U} (n : nat) (w : world E xr U) (l : nat) (e : exn) : Prop :=
  snd (obj_full xN l w) = Raise e \/
  exists K, snd (obj_full xN l w) = Ok K /\ n <> 1 /\ mr (amat K) <> n /\ mr (amat K) <> 1 /\
            e = ValueError.

(** [fit(weights)] raises [e]. If composite_KM was not available before, it still is not (ValueError);
    if it was, then from now on, until [fit] is called again, it returns one and the same matrix,
    which satisfies [P] - whatever it returned before. *)
Definition fit_fails {E U} (C : cmpops xr) (numeric : list E -> bool) (weights : option (ndarray xr))
           (s : cstate (E:=E) (U:=U)) (e : exn) (P : arr xr -> Prop) : Prop :=
  let s' := fst (cstep C numeric (CFit weights) s) in
  snd (cstep C numeric (CFit weights) s) = Raise e /\
  (snd (cstep C numeric CGet s) = Raise ValueError ->
     forall post, no_fit post ->
       snd (cstep C numeric CGet (crun C numeric post s')) = Raise ValueError) /\
  (forall b, snd (cstep C numeric CGet s) = Ok b ->
     exists a, P a /\ forall post, no_fit post ->
       snd (cstep C numeric CGet (crun C numeric post s')) = Ok (CMat a)).
