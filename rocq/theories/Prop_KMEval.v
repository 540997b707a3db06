(** C02: the number of kernel evaluations with two samples.
    Generated by tools/split_props.py from KMEvalProps.v: statements only, each closed by [exact]. *)
From Coq Require Import String List Arith ZArith Bool Lia.
From Verif Require Import Prelude MatModel MatFacts UtilsModel IndexModel KMModel SpecKM SpecEval MFacts KMLog KMInv KMHist KMHist2 KMProps KMGet KMEval ToyModel.
Import ListNotations.
From Verif Require Import KMEvalProps.

(** C02 for any samples and histories: the kernel returns at most n m + (n + m) (1 + f) values between two
    attach_to calls, where f is the number of operations in between that raised an exception: apart from
    the n m pairs, the self-similarities are evaluated once, and again after every failed
    normalisation. *)
Theorem C02_two_samples_bound :
  forall {E V U} (N : numops V) (K : kernel E V) k nrm (pre post : list (op E U)) x y n m d,
    returns_only K k x y n m d -> admissible x y n m d -> no_attach post ->
    exists new,
      g_calls (after N K nrm pre x y post) = new ++ g_calls (before N K nrm pre) /\
      length (returned K (length (g_calls (before N K nrm pre))) new)
        <= n * m + (n + m) * (1 + failures (trace N post (after N K nrm pre x y []))).
Proof. exact (@pf_C02_two_samples_bound). Qed.
Print Assumptions C02_two_samples_bound.

Example C02_two_samples_example :
  let post := [OpFull; OpNormedKM; OpGetItem (IFlat 2); OpFull] in
  let s := after (U:=Z) toyN dot true [] toyX (Some toyX) post in
  length (returned dot 0 (g_calls s)) = 3 * 3 + (3 + 3) /\
  failures (trace toyN post (after (U:=Z) toyN dot true [] toyX (Some toyX) [])) = 0.
Proof. vm_compute. split; reflexivity. Qed.
