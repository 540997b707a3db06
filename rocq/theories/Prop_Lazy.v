(** What is evaluated after a successful full, for every history: property C12.
    Generated by tools/split_props.py from LazyProps.v: statements only, each closed by [exact]. *)
From Coq Require Import List Arith ZArith Bool Lia String.
Import ListNotations.
From Verif Require Import Prelude MatModel UtilsModel IndexModel KMModel SpecKM ToyModel.
From Verif Require Import MatFacts MFacts KMFacts KMInv KMIndex KMGet KMOps KMTotal KMTrack KMHist KMHist2 KMProps FullFacts.
Local Open Scope list_scope.
Local Open Scope nat_scope.
From Verif Require Import LazyProps.
Local Open Scope list_scope.
Local Open Scope nat_scope.

(** C12, exactly: after any history, once [full] has returned, reading it again evaluates nothing, and
    an index access evaluates the kernel at most on pairs strictly below the diagonal - and on none at
    all with one sample, with normalized=True, or if full_sparse was not read since attach_to. *)
Theorem C12_exact :
  forall {E V U} (N : numops V) (K : kernel E V) k nrm (pre post : list (op E U)) x y n m d ix,
    never_raises K k x y n m d -> admissible x y n m d -> no_attach post ->
    is_ok (outcome N OpFull (after N K nrm pre x y post)) = true ->
    let s := fst (step N OpFull (after N K nrm pre x y post)) in
    fst (step N OpFull s) = s /\
    exists added,
      g_calls (fst (step N (OpGetItem ix) s)) = added ++ g_calls s /\
      (forall c, In c added -> snd (c_ix c) < fst (c_ix c)) /\
      (y = None \/ nrm = true \/ no_full_sparse post -> added = []).
Proof. exact (@pf_C12_exact). Qed.
Print Assumptions C12_exact.

(** The other case does occur: two samples of three points each, full_sparse, full, and then one
    element below the diagonal is evaluated; reading it again is free. *)
Theorem C12_exact_example :
  let s := fst (step toyN OpFull (after (U:=Z) toyN dot false [] toyX (Some toyX) [OpFullSparse])) in
  let s' := fst (step toyN (OpGetItem (IPair (IInt 2) (IInt 1))) s) in
  is_ok (outcome toyN OpFull (after (U:=Z) toyN dot false [] toyX (Some toyX) [OpFullSparse])) = true /\
  map c_ix (g_calls s') = (2, 1) :: map c_ix (g_calls s) /\
  g_calls (fst (step toyN (OpGetItem (IPair (IInt 2) (IInt 1))) s')) = g_calls s'.
Proof. exact (@pf_C12_exact_example). Qed.
Print Assumptions C12_exact_example.
