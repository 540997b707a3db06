(** C102: exactly how many kernel evaluations a kernel matrix costs.
    Generated by tools/split_props.py from CostProps.v: statements only, each closed by [exact]. *)
From Coq Require Import String List Arith ZArith Bool Lia.
From Verif Require Import Prelude MatModel MatFacts UtilsModel IndexModel KMModel SpecKM SpecEval SpecCost MFacts KMFacts KMLog KMInv KMHist KMHist2 KMProps KMGet KMEval KMEvalProps KMCount ToyModel.
Import ListNotations.
From Verif Require Import CostProps.

(** C102: which evaluations. After a successful [full] every pair of rows that makes up the matrix has been
    given to the kernel exactly once since attach_to, whatever was accessed before: for one sample the
    pairs (i, j) with i <= j, for two samples all pairs. *)
Theorem C102_each_pair_once :
  forall {E V U} (N : numops V) (K : kernel E V) k nrm (pre post : list (op E U)) x y n m d,
    never_raises K k x y n m d -> admissible x y n m d -> no_attach post ->
    y = None \/ nrm = true \/ no_full_sparse post ->
    is_ok (outcome N OpFull (after N K nrm pre x y post)) = true ->
    exists new,
      g_calls (after N K nrm pre x y (post ++ [OpFull])) = new ++ g_calls (before N K nrm pre) /\
      forall i j, i < n -> j < m -> (y = None -> i <= j) ->
        exists c, filter (fun c => (c_tag c =? 0) && (fst (c_ix c) =? i) && (snd (c_ix c) =? j)) new = [c] /\
          c_x c = row_of d x i /\ c_y c = row_of d (match y with Some y' => y' | None => x end) j.
Proof. exact (@pf_C102_each_pair_once). Qed.
Print Assumptions C102_each_pair_once.

(** C102: how many. A successful [full] brings the number of kernel calls since attach_to to
    n (n + 1) / 2 for one sample and to n m for two samples, whatever was accessed before; if anything
    asked for normalised values, two samples cost n + m calls more. (An operation that failed while
    normalising two samples may have cost more calls: C02.) *)
Theorem C102_count :
  forall {E V U} (N : numops V) (K : kernel E V) k nrm (pre post : list (op E U)) x y n m d,
    never_raises K k x y n m d -> admissible x y n m d -> no_attach post ->
    y = None \/ nrm = true \/ no_full_sparse post ->
    is_ok (outcome N OpFull (after N K nrm pre x y post)) = true ->
    y = None \/ normalised_well nrm post (trace N post (after N K nrm pre x y [])) ->
    exists new,
      g_calls (after N K nrm pre x y (post ++ [OpFull])) = new ++ g_calls (before N K nrm pre) /\
      length new = row_pairs (is_some y) n m +
        (if is_some y && existsb (wants_normalised nrm) (post ++ [OpFull]) then n + m else 0).
Proof. exact (@pf_C102_count). Qed.
Print Assumptions C102_count.

(** C102: after it nothing more is paid for: every further access that is not attach_to and does not ask
    for normalised values for the first time makes no call. *)
Theorem C102_nothing_more :
  forall {E V U} (N : numops V) (K : kernel E V) k nrm (pre post more : list (op E U)) x y n m d,
    never_raises K k x y n m d -> admissible x y n m d -> no_attach (post ++ [OpFull] ++ more) ->
    y = None \/ nrm = true \/ no_full_sparse post ->
    is_ok (outcome N OpFull (after N K nrm pre x y post)) = true ->
    y = None \/ nrm = true \/ forallb (fun o => negb (wants_normalised nrm o)) more = true ->
    g_calls (after N K nrm pre x y (post ++ [OpFull] ++ more)) = g_calls (after N K nrm pre x y (post ++ [OpFull])).
Proof. exact (@pf_C102_nothing_more). Qed.
Print Assumptions C102_nothing_more.

(** C102 applies: two samples of three rows, with accesses before [full] that repeat each other and one
    that raises; 3 * 3 + 3 + 3 calls. One sample: 6 calls. *)
Example C102_example :
  let post := [OpDiagonal; OpGetItem (IFlat 2); OpCenter; OpGetItem (IFlat 5); OpNormedKM; OpFrobNorm; OpFull] in
  length (g_calls (after (U:=Z) toyN dot false [] toyX (Some toyX) (post ++ [OpFull]))) = 3 * 3 + (3 + 3) /\
  length (g_calls (after (U:=Z) toyN dot false [] toyX (Some toyX) ([OpDiagonal; OpFrobNorm] ++ [OpFull]))) = 3 * 3 /\
  length (g_calls (after (U:=Z) toyN dot true [] toyX None (post ++ [OpFull]))) = 6 /\
  map is_ok (trace toyN post (after (U:=Z) toyN dot false [] toyX (Some toyX) [])) =
    [false; true; false; true; true; true; true] /\
  is_ok (outcome toyN OpFull (after (U:=Z) toyN dot false [] toyX (Some toyX) post)) = true.
Proof. vm_compute. repeat split. Qed.
