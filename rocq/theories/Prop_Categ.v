(** KernelMatrix over categorical data: C83.
    Generated by tools/split_props.py from CategProps.v: statements only, each closed by [exact]. *)
From Coq Require Import String Reals List Arith ZArith Bool Lia Lra.
Import ListNotations.
From Verif Require Import Prelude MatModel UtilsModel IndexModel KMModel SpecKM XReal OpsModel
  SpecLinAlg KernelsModel SpecKernels KMXModel SetModel SpecSet CategModel SpecCateg.
From Verif Require Import MatFacts MFacts KMFacts KMInv KMHist KMTotal KMProps RSum OpsFacts OpsProps
  PSDFacts KernelFacts KernelProps KMXProps SetFacts2 SetProps.
Local Open Scope list_scope.
Local Open Scope nat_scope.
From Verif Require Import CategProps.
Local Open Scope list_scope.
Local Open Scope nat_scope.

(** C83, values: a categorical KernelMatrix holds the number of features in which two observations
    agree, or the fraction of them, for any strings: [full] after any history without the two sparse
    accesses (C04), one or two samples, also for samples without observations. *)
Theorem C83_full :
  forall {U} perc (pre post : list (op string U)) n d X,
    (perc = true -> 1 <= d) -> no_attach post -> no_full_sparse post -> no_whole_index n n post ->
    outcome xN OpFull (after xN (categorical perc) false pre (csample n d X) None post)
    = Ok (OArr (mkArr Dense (rmat n n (fun i j => match_similarity perc d (X i) (X j))))).
Proof. exact (@pf_C83_full). Qed.
Print Assumptions C83_full.

(** C83, values for two samples. *)
Theorem C83_two_samples :
  forall {U} perc (pre post : list (op string U)) n m d X Y,
    (perc = true -> 1 <= d) -> no_attach post -> no_full_sparse post -> no_whole_index n m post ->
    outcome xN OpFull (after xN (categorical perc) false pre (csample n d X) (Some (csample m d Y)) post)
    = Ok (OArr (mkArr Dense (rmat n m (fun i j => match_similarity perc d (X i) (Y j))))).
Proof. exact (@pf_C83_two_samples). Qed.
Print Assumptions C83_two_samples.

(** C83: this matrix is positive semidefinite; the entries lie between 0 and the common value of the
    diagonal (d or 1), which is attained exactly by observations that agree in every feature. *)
Theorem C83_psd : forall perc n d (X : nat -> nat -> string), 1 <= d ->
  psd n (fun i j => match_similarity perc d (X i) (X j)) /\
  forall u v, (0 <= match_similarity perc d u v <= if perc then 1 else INR d)%R /\
    (match_similarity perc d u v = (if perc then 1 else INR d)%R <-> same_obs d u v).
Proof. exact (@pf_C83_psd). Qed.
Print Assumptions C83_psd.

(** C83, normalised, one sample: whether the kernel counts matches or returns the fraction, [full],
    [full_sparse] and [normed_km] of a normalised matrix are the fraction of matching features, after
    every history. *)
Theorem C83_normalised :
  forall {U} perc (pre post : list (op string U)) n d X o, 1 <= d -> no_attach post ->
    (o = OpFull \/ o = OpFullSparse \/ o = OpNormedKM) ->
    outcome xN o (after xN (categorical perc) true pre (csample n d X) None post)
    = Ok (OArr (mkArr Dense (rmat n n (fun i j => (INR (matches d (X i) (X j)) / INR d)%R)))).
Proof. exact (@pf_C83_normalised). Qed.
Print Assumptions C83_normalised.

(** C83, normalised, two samples: the same fractions. *)
Theorem C83_normalised_two :
  forall {U} perc (pre post : list (op string U)) n m d X Y o, 1 <= d -> no_attach post ->
    (o = OpFull \/ o = OpFullSparse \/ o = OpNormedKM) ->
    outcome xN o (after xN (categorical perc) true pre (csample n d X) (Some (csample m d Y)) post)
    = Ok (OArr (mkArr Dense (rmat n m (fun i j => (INR (matches d (X i) (Y j)) / INR d)%R)))).
Proof. exact (@pf_C83_normalised_two). Qed.
Print Assumptions C83_normalised_two.

(** C83: without features there is nothing to normalise by: the count is 0 everywhere and a
    normalised matrix of a non-empty sample raises KMNormError, after every history. *)
Theorem C83_no_features :
  forall {U} (pre post : list (op string U)) n X o, 1 <= n -> no_attach post ->
    (o = OpFull \/ o = OpFullSparse \/ o = OpNormedKM) ->
    outcome xN o (after xN (categorical false) true pre (csample n 0 X) None post) = Raise KMNormError.
Proof. exact (@pf_C83_no_features). Qed.
Print Assumptions C83_no_features.

(** C83 is false for a KernelSet: KernelSet.attach_to demands numbers. On a sample of strings that
    do not all denote numbers it raises ValueError and leaves every object as it was, whichever
    kernels the set holds, although each of its members accepts the sample. *)
Theorem C83_set_refused :
  forall {U} N C numeric (w : world string xr U) k num ms n d X attr,
    set_is w k num ms -> numeric (nd_data (csample n d X)) = false ->
    wstep N C numeric (WAttach k (csample n d X) attr) w = (w, Raise ValueError) /\
    forall perc nrm (pre : list (op string U)),
      outcome N (OpAttach (csample n d X) None) (run N pre (km_new (categorical perc) nrm [])) = Ok OUnit.
Proof. exact (@pf_C83_set_refused). Qed.
Print Assumptions C83_set_refused.

(** Three observations with two categorical features. *)
Definition pets (i k : nat) : string :=
  nth k (nth i [["cat"; "red"]; ["dog"; "red"]; ["cat"; "blue"]]%string []) EmptyString.

(** C83 on concrete data: the sample in row-major order, the histories allowed (reads, indexing,
    centering, normalisation, attributes), and a value of the resulting matrix. *)
Example C83_example :
  nd_data (csample 3 2 pets) = ["cat"; "red"; "dog"; "red"; "cat"; "blue"]%string
  /\ match_similarity true 2 (pets 0) (pets 1) = (1 / 2)%R
  /\ match_similarity false 2 (pets 1) (pets 2) = 0%R
  /\ no_attach ([OpFull; OpCenter; OpNormalize "cosine"; OpGetAttr "x"] : list (op string unit))
  /\ no_full_sparse ([OpFull; OpCenter; OpFrobNorm] : list (op string unit))
  /\ outcome xN OpFull (after xN (categorical false) true ([] : list (op string unit)) (csample 3 2 pets) None
       [OpFullSparse; OpCenter; OpNormalize "cosine"])
     = Ok (OArr (mkArr Dense (rmat 3 3 (fun i j => (INR (matches 2 (pets i) (pets j)) / INR 2)%R)))).
Proof.
  split; [reflexivity|]. split; [reflexivity|]. split; [reflexivity|]. split; [reflexivity|].
  split; [intros [H|[H|[H|[]]]]; discriminate|]. apply pf_C83_normalised; [lia|reflexivity|auto].
Qed.

(** A KernelSet of categorical kernel matrices, as C83_set_refused requires. *)
Example C83_set_example : forall N C (numeric : list string -> bool),
  set_is (wrun N C numeric ([WNewKM (categorical true) false; WNewKM (categorical false) false;
            WSetNew (KLIter [ARef 0; ARef 1]) None] : list (wop string xr unit)) w_empty) 0 NSNone [0; 1].
Proof. intros. eexists. eexists. reflexivity. Qed.
