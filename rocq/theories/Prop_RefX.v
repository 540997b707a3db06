(** C14 and C03 exactly, for the numeric operations of the package.
    Generated by tools/split_props.py from RefXProps.v: statements only, each closed by [exact]. *)
From Coq Require Import String List Arith ZArith Bool Lia.
Import ListNotations.
From Verif Require Import Prelude XReal MatModel MatFacts UtilsModel IndexModel KMModel OpsModel KMXModel SpecKM SpecRef
  RefFacts RefProps KernelsModel KMXProps.
From Verif Require Import RefXProps.
Local Open Scope list_scope.
Local Open Scope nat_scope.

(** C14, exactly. On one sample, [centered] is the centring of what the history left behind if that is
    a dense matrix, and raises ValueError if it is a sparse one. *)
Theorem C14_exact :
  forall {E U} (K : kernel E xr) k nrm (pre post : list (op E U)) x n d,
    never_raises K k x None n n d -> admissible x None n n d -> no_attach post ->
    exists c, leaves false nrm n n post c /\
      outcome xN OpCentered (after xN K nrm pre x None post) =
      match c with
      | LNothing | LDense =>
          if first_fails xN K k n n d x None c then Raise TypeError
          else res_map OArr (center_km (mkArr Dense (kernel_matrix k n n d x None)))
      | LWhole | LUpper => Raise ValueError
      end.
Proof. exact (@pf_C14_exact). Qed.
Print Assumptions C14_exact.

(** C03, exactly, two samples: with normalized=True, [full] and [normed_km] are the normalisation, with
    the self-similarities of both samples, of the complete kernel matrix in one of two formats: sparse
    if km[:, :] was the first request, dense otherwise. *)
Theorem C03_two_samples_exact :
  forall {E U} (K : kernel E xr) k (pre post : list (op E U)) x y n m d o,
    never_raises K k x (Some y) n m d -> kfmt K = true -> admissible x (Some y) n m d -> no_attach post ->
    (o = OpFull \/ o = OpFullSparse \/ o = OpNormedKM) ->
    exists c, leaves true true n m post c /\ c <> LUpper /\
      outcome xN o (after xN K true pre x (Some y) post) =
      res_map OArr (normalize_km_2sample "cosine" (left_matrix xN k n m d x (Some y) c)
                      (self_similarities k n d x) (self_similarities k m d y)).
Proof. exact (@pf_C03_two_samples_exact). Qed.
Print Assumptions C03_two_samples_exact.

(** After km[:, :] (as the first request) the centred matrix is refused; two samples likewise have
    their matrix in sparse format. *)
Example C14_exact_example :
  never_raises (builtin KLinear) xdot x12 None 2 2 1 /\ admissible x12 None 2 2 1 /\
  leaves false true 2 2 ([OpGetItem colons; OpFull] : list (op xr unit)) LWhole /\
  leaves false true 2 2 ([OpFullSparse; OpGetItem colons] : list (op xr unit)) LDense.
Proof.
  split; [apply linear_total; reflexivity|]. split; [exact x12_ok|]. split.
  - exists (OpGetItem colons), [OpFull]. split; [exists []; split; [reflexivity|constructor]|].
    left. apply colon_whole; lia.
  - exists OpFullSparse, [OpGetItem colons]. split; [exists []; split; [reflexivity|constructor]|reflexivity].
Qed.
Example C03_two_samples_exact_example :
  never_raises (builtin KLinear) xdot x12 (Some x12) 2 2 1 /\ admissible x12 (Some x12) 2 2 1 /\
  leaves true true 2 2 ([OpGetItem colons; OpFull] : list (op xr unit)) LWhole.
Proof.
  split; [apply linear_total; reflexivity|]. split; [split; exists []; (split; [reflexivity|constructor])|].
  exists (OpGetItem colons), [OpFull]. split; [exists []; split; [reflexivity|constructor]|].
  left. apply colon_whole; lia.
Qed.
