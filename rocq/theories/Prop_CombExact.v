(** linear_combination of arbitrary matrices and weights, exactly: property C25.
    Generated by tools/split_props.py from CombExact.v: statements only, each closed by [exact]. *)
From Coq Require Import String Reals List Bool Arith Lia Lra.
Import ListNotations.
From Verif Require Import Prelude MatModel XReal OpsModel SpecLinAlg.
From Verif Require Import MatFacts OpsFacts OpsProps.
Local Open Scope list_scope.
Local Open Scope nat_scope.
From Verif Require Import CombExact.
Local Open Scope list_scope.
Local Open Scope nat_scope.

(** The full matrix of a member could be computed and has the shape of the set. *)
Definition fitting (n m : nat) (f : res (mat xr)) : Prop := exists K, f = Ok K /\ mr K = n /\ mc K = m.

(** It could not, or has another shape, and how that is announced. *)
Definition misfit (n m : nat) (f : res (mat xr)) (e : exn) : Prop :=
  f = Raise e \/ exists K, f = Ok K /\ (mr K <> n \/ mc K <> m) /\ e = ValueError.

(** C25: when linear_combination raises, exactly: a wrong number of weights; weights to be normalised whose
    sum is (nearly) zero; or the first member whose full matrix cannot be computed or has another shape, with
    the members before it all right. *)
Theorem C25_raises_exact : forall n m fulls w norm e,
  linear_combination n m fulls w norm = Raise e <->
  length fulls <> length w /\ e = ValueError \/
  length fulls = length w /\
  (norm = true /\ xisclose (xsum w) (Fin 0) = true /\ e = RuntimeError \/
   (norm = false \/ xisclose (xsum w) (Fin 0) = false) /\
   exists pre f post, fulls = pre ++ f :: post /\ Forall (fitting n m) pre /\ misfit n m f e).
Proof. exact (@pf_C25_raises_exact). Qed.
Print Assumptions C25_raises_exact.

(** C25: and otherwise the entries of the result, for arbitrary entries and weights (infinite, NaN): the
    members' entries times the weights, added up in order from zero. *)
Theorem C25_value_exact : forall n m Ks w norm,
  length Ks = length w -> Forall (fun K => mr K = n /\ mc K = m) Ks ->
  norm = false \/ xisclose (xsum w) (Fin 0) = false ->
  exists R, linear_combination n m (map Ok Ks) w norm = Ok R /\ mr R = n /\ mc R = m /\
    forall i j, i < n -> j < m ->
      xget R i j = fold_left (fun s p => xadd s (xmul (fst p) (xget (snd p) i j)))
                     (combine (if norm then map (fun x => xdiv x (xsum w)) w else w) Ks) (Fin 0).
Proof. exact (@pf_C25_value_exact). Qed.
Print Assumptions C25_value_exact.

(** C25: the hypotheses are met: a member of another shape after one that fits; and two members of which one
    has an infinite entry. *)
Theorem C25_exact_example :
  let A := mkMat 1 1 [[Fin 2]] in
  let B := mkMat 1 1 [[PInf]] in
  let D := mkMat 2 1 [[Fin 1]; [Fin 1]] in
  linear_combination 1 1 [Ok A; Ok D] [Fin 1; Fin 1] false = Raise ValueError /\
  exists R, linear_combination 1 1 [Ok A; Ok B] [Fin 1; Fin 0] false = Ok R /\ xget R 0 0 = NaN.
Proof. exact (@pf_C25_exact_example). Qed.
Print Assumptions C25_exact_example.
