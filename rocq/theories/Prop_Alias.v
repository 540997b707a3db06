(** Arrays shared with the caller: what writes into returned matrices (C78) and into the
    attached sample (C79) can and cannot change.
    Generated by tools/split_props.py from AliasProps.v: statements only, each closed by [exact]. *)
From Coq Require Import String List Arith ZArith Bool Lia.
Import ListNotations.
From Verif Require Import Prelude MatModel MatFacts UtilsModel IndexModel KMModel SpecKM MFacts
  KMFacts KMInv KMOps KMIndex KMHist KMTotal KMGet KMTrack KMLog KMHist2 AliasModel SpecAlias
  AliasFacts ToyModel.
From Verif Require Import AliasProps.

(** C78, part that holds. Whatever the caller has written into the matrices and the dict the
    object returned, indexing any proper part of the matrix still returns the kernel values of
    the attached sample, for kernels that may raise. Missing from the full statement: the
    results that are such shared arrays themselves (full, full_sparse, normed_km, centered,
    whole-matrix indexing), for which it is false (C78_refuted). *)
Theorem C78_indexing_partial :
  forall {E V U} (N : numops V) (K : kernel E V) k nrm (pre : list (op E U)) acts
         x y n m d ix rows cols,
    returns_only K k x y n m d -> admissible x y n m d -> same_sample acts -> leaves_sample acts ->
    valid n m ix -> selection2 n m ix rows cols -> ~ whole n m rows cols ->
    outcome N (OpGetItem ix) (crun N acts (after N K nrm pre x y []))
    = Ok (OArr (mkArr Dense (submatrix (entry k d x y) rows cols))) \/
    exists e t u v, is_row x y n m d u /\ is_row x y n m d v /\ kf K t u v = Raise e /\
      outcome N (OpGetItem ix) (crun N acts (after N K nrm pre x y [])) = Raise e.
Proof. exact (@pf_C78_indexing_partial). Qed.
Print Assumptions C78_indexing_partial.

(** C78, the same for the diagonal of a one-sample matrix. *)
Theorem C78_diagonal_partial :
  forall {E V U} (N : numops V) (K : kernel E V) k nrm (pre : list (op E U)) acts x n d,
    never_raises K k x None n n d -> admissible x None n n d -> same_sample acts ->
    leaves_sample acts ->
    outcome N OpDiagonal (crun N acts (after N K nrm pre x None []))
    = Ok (OVec (map (fun i => k (row_of d x i) (row_of d x i)) (seq 0 n))).
Proof. exact (@pf_C78_diagonal_partial). Qed.
Print Assumptions C78_diagonal_partial.

(** C78, the number of kernel evaluations: still at most one successful evaluation per pair. *)
Theorem C78_pairs_once :
  forall {E V U} (N : numops V) (K : kernel E V) k nrm (pre : list (op E U)) acts x y n m d,
    returns_only K k x y n m d -> admissible x y n m d -> same_sample acts -> leaves_sample acts ->
    exists new,
      g_calls (crun N acts (after N K nrm pre x y [])) = new ++ g_calls (before N K nrm pre) /\
      NoDup (successful K 0 (length (g_calls (before N K nrm pre))) new).
Proof. exact (@pf_C78_pairs_once). Qed.
Print Assumptions C78_pairs_once.

(** C78, what goes wrong, for all inputs: the array returned by [full] is the object's own, so
    a value written into it is what [full] returns from then on. *)
Theorem C78_write_persists :
  forall {E V U} (N : numops V) (K : kernel E V) k (pre post : list (op E U)) x y n m d a i j v,
    never_raises K k x y n m d -> admissible x y n m d -> no_attach post ->
    outcome N OpFull (after N K false pre x y post) = Ok (OArr a) -> i < n -> j < m ->
    outcome N OpFull (crun N [Call OpFull; WFull i j v] (after N K false pre x y post))
    = Ok (OArr (mkArr (afmt a) (mset (amat a) i j v))).
Proof. exact (@pf_C78_write_persists). Qed.
Print Assumptions C78_write_persists.

(** Hypotheses of C78_indexing_partial met: every cell of the returned matrix overwritten. *)
Example C78_example :
  let acts := [Call OpFull; WFull 0 0 (Some 77%Z); WFull 0 1 (Some 78%Z); WFull 1 0 None;
               Call OpNormedKM; WNormed 0 1 (Some 79%Z); Call OpCentered; WCentered 1 1 None] in
  let s := crun toyN acts (after (U:=Z) toyN dot false [] toyX2 None []) in
  same_sample acts /\ leaves_sample acts /\
  outcome toyN OpFull s = Ok (OArr (mkArr Dense (mkMat 2 2 [[Some 77%Z; Some 78%Z]; [None; Some 1%Z]]))) /\
  outcome toyN (OpGetItem (IFlat 0)) s = Ok (OArr (mkArr Dense (mkMat 1 1 [[Some 4%Z]]))) /\
  outcome toyN OpDiagonal s = Ok (OVec [Some 4%Z; Some 1%Z]).
Proof. vm_compute. repeat split; reflexivity. Qed.

(** C78 is false as stated: [A = km.full; A[0, 0] = 9; km.full] (and the same with [normed_km],
    [centered] and whole-matrix indexing) returns the caller's value. *)
Theorem C78_refuted :
  exists (V : Type) (N : numops V) (K : kernel V V) k x n d v,
    never_raises K k x None n n d /\ admissible x None n n d /\
  (forall o, In o [OpFull; OpGetItem (IPair (ISlice None None None) (ISlice None None None))] ->
      outcome N o (crun N [Call OpFull; WFull 0 0 v] (after (U:=Z) N K false [] x None []))
      <> outcome N o (crun N [Call OpFull] (after (U:=Z) N K false [] x None []))) /\
  outcome N OpNormedKM (crun N [Call OpNormedKM; WNormed 0 0 v] (after (U:=Z) N K false [] x None []))
      <> outcome N OpNormedKM (after (U:=Z) N K false [] x None []) /\
  outcome N OpCentered (crun N [Call OpCentered; WCentered 0 0 v] (after (U:=Z) N K false [] x None []))
      <> outcome N OpCentered (after (U:=Z) N K false [] x None []).
Proof. exact (@pf_C78_refuted). Qed.
Print Assumptions C78_refuted.

(** C79, part that holds. Once [full] has returned for one sample, writing into the sample
    array changes no later outcome of any operation, whatever else the caller does.
    Missing from the full statement: sample arrays modified before that, and two samples,
    where it is false (C79_refuted, C79_two_samples_refuted). *)
Theorem C79_after_full_partial :
  forall {E V U} (N : numops V) (K : kernel E V) k nrm (pre post : list (op E U)) acts x n d,
    never_raises K k x None n n d -> admissible x None n n d -> no_attach post ->
    is_ok (outcome N OpFull (after N K nrm pre x None post)) = true -> same_sample acts ->
    let s := after N K nrm pre x None (post ++ [OpFull]) in
    ctrace N acts s = ctrace N (without_sample_writes acts) s.
Proof. exact (@pf_C79_after_full_partial). Qed.
Print Assumptions C79_after_full_partial.

(** Hypotheses met, with writes on both sides of a centring and an indexing. *)
Example C79_example :
  let acts := [WSample 0 (Some 50%Z); Call OpNormedKM; WSample 3 None; Call OpCentered;
               Call (OpGetItem (IFlat 1)); WFull 0 0 None; Call OpFull] in
  let s := after (U:=Z) toyN dot false [] toyX2 None [OpFull] in
  same_sample acts /\ is_ok (outcome toyN OpFull (after (U:=Z) toyN dot false [] toyX2 None [])) = true /\
  length (ctrace toyN acts s) = 4 /\
  k_sample (crun toyN acts s) = Some (mkNd [2; 2] [Some 50%Z; Some 0%Z; Some 0%Z; None]).
Proof. vm_compute. repeat split; reflexivity. Qed.

(** C79, before anything was computed: writing into a sample array after [attach_to] is the same as
    having attached the modified array, for every later action of the caller. *)
Theorem C79_before :
  forall {E V U} (N : numops V) (K : kernel E V) nrm (pre : list (op E U)) acts x y n m d q e,
    admissible x y n m d ->
    ctrace N acts (crun N [WSample q e] (after N K nrm pre x y []))
    = ctrace N acts (after N K nrm pre (write_nd q e x) y []) /\
    forall y', y = Some y' ->
      ctrace N acts (crun N [WSampleTwo q e] (after N K nrm pre x y []))
      = ctrace N acts (after N K nrm pre x (Some (write_nd q e y')) []).
Proof. exact (@pf_C79_before). Qed.
Print Assumptions C79_before.

(** C79 is false as stated: after [km.attach_to(X); km[0, 1]], modifying X makes [km.full] mix
    values from before and after: it is the kernel matrix neither of the old nor of the new X. *)
Theorem C79_refuted :
  exists (V : Type) (N : numops V) (K : kernel V V) k x n d q e a,
    (forall x', never_raises K k x' None n n d) /\ admissible x None n n d /\
  outcome N OpFull (crun N [Call (OpGetItem (IFlat 1)); WSample q e]
                           (after (U:=Z) N K false [] x None [])) = Ok (OArr a) /\
  amat a <> kernel_matrix k n n d x None /\
  amat a <> kernel_matrix k n n d (write_nd q e x) None.
Proof. exact (@pf_C79_refuted). Qed.
Print Assumptions C79_refuted.

(** For two samples even the results computed after [full] are affected: the normalised matrix
    divides the old kernel values by the diagonals of the modified sample. *)
Theorem C79_two_samples_refuted :
  exists (V : Type) (N : numops V) (K : kernel V V) k x y n m d q e,
    (forall x' y', never_raises K k x' y' n m d) /\ admissible x (Some y) n m d /\
  let s := after (U:=Z) N K false [] x (Some y) [OpFull] in
    is_ok (outcome N OpFull s) = true /\
  outcome N OpNormedKM (crun N [WSample q e] s) <> outcome N OpNormedKM s.
Proof. exact (@pf_C79_two_samples_refuted). Qed.
Print Assumptions C79_two_samples_refuted.
