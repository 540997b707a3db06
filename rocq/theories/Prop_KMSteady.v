(** C06: kernels whose outcome does not depend on earlier calls.
    Generated by tools/split_props.py from KMSteady.v: statements only, each closed by [exact]. *)
From Coq Require Import String List Arith Bool.
Import ListNotations.
From Verif Require Import Prelude MatModel UtilsModel KMModel SpecKM.
From Verif Require Import MatFacts MFacts KMFacts KMInv KMTotal KMHist KMHist2 KMProps.
From Verif Require Import KMSteady.
Local Open Scope list_scope.
Local Open Scope nat_scope.

(** C06, kernels whose outcome does not depend on earlier calls: after an accepted attach_to, the
    results of all later operations (values or exceptions) are those of an object made anew,
    whatever came before. *)
Theorem C06_steady :
  forall {E V U} (N : numops V) (K : kernel E V) nrm (pre post : list (op E U)) x y n m d,
    steady K -> admissible x y n m d ->
    trace N post (after N K nrm pre x y []) = trace N post (after N K nrm [] x y []).
Proof. exact (@pf_C06_steady). Qed.
Print Assumptions C06_steady.
