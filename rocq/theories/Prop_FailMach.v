(** What a failed fit of a KernelMachine leaves behind: property C69.
    Generated by tools/split_props.py from FailMachProps.v: statements only, each closed by [exact]. *)
From Coq Require Import String Reals List Arith ZArith Bool Lia Lra.
Import ListNotations.
From Verif Require Import Prelude MatModel UtilsModel KMModel SpecKM XReal OpsModel SpecLinAlg KernelsModel
  KMXModel SetModel SpecSet BucketModel RankModel SpecRank AlgoModel SpecAlgo SpecFailMach.
From Verif Require Import MatFacts MFacts KMFacts KMInv KMHist KMHist2 KMProps OpsFacts OpsProps KMXProps SetFacts2
  AlgoFacts AlgoProps.
Local Open Scope list_scope.
Local Open Scope nat_scope.
From Verif Require Import FailMachProps.
Local Open Scope list_scope.
Local Open Scope nat_scope.

(** C69, exactly: whenever fit of a fitted machine raises, [failed_fit] lists the causes, and for each
    of them the training data and the support vector machine that later predictions combine. *)
Theorem C69_exact :
  forall {XIn YIn W Y F P} (S : sklearn XIn YIn W Y F P) (m : machine Y F) X y w x0 y0 v0 f0 e,
    checks_samples S ->
    m_km m <> None -> m_train m = Some (x0, y0) -> m_estimator m = Some (v0, f0) ->
    returned S (MFit X y w) m = Raise e ->
    exists x ys v f,
      failed_fit S m X y w x0 y0 v0 f0 e x ys v f /\
      predicts_with S (mrun S [MFit X y w] m) x ys v f.
Proof. exact (@pf_C69_exact). Qed.
Print Assumptions C69_exact.

(** C69, the causes are the exact ones: each of them does make fit raise its exception. *)
Theorem C69_causes :
  forall {XIn YIn W Y F P} (S : sklearn XIn YIn W Y F P) (m : machine Y F) X y w x0 y0 v0 f0 e x ys v f,
    checks_samples S -> failed_fit S m X y w x0 y0 v0 f0 e x ys v f ->
    returned S (MFit X y w) m = Raise e.
Proof. exact (@pf_C69_causes). Qed.
Print Assumptions C69_causes.

(** A stand-in for sklearn that accepts two-dimensional arrays only, remembers the matrix it is trained
    on, and refuses to be trained on three points - after having remembered them. *)
Definition sk3 : sklearn (ndarray xr) unit unit unit (option (arr xr)) (option (arr xr) * arr xr) :=
  mkSk (fun _ X _ => match nd_shape X with [_; _] => Ok (X, tt) | _ => Raise ValueError end)
       (fun X => Ok X) (fun y => Ok y) (fun _ p => Ok p) (fun p => Ok p)
       None (fun _ _ G _ _ => (Some G, if mr (amat G) =? 3 then Raise ValueError else Ok tt))
       (fun _ f G => Ok (f, G)).
(** The sample [[1], [2], [3]]. *)
Definition x123 : ndarray xr := mkNd [3; 1] [Fin 1; Fin 2; Fin 3].

(** C69_exact applies: a machine trained on [[1], [2]] is refitted on three points; the training raises
    ValueError, and from then on predictions use the three points and what that training left. *)
Theorem C69_exact_example :
  exists v0 f0 e v G, let m := mrun sk3 [MFit x12 tt tt] (linear_machine false "SVC") in
    checks_samples sk3 /\ m_km m <> None /\ m_train m = Some (x12, tt) /\ m_estimator m = Some (v0, f0) /\
    returned sk3 (MFit x123 tt tt) m = Raise e /\
    failed_fit sk3 m x123 tt tt x12 tt v0 f0 e x123 tt v (Some G) /\ f0 <> Some G.
Proof. exact (@pf_C69_exact_example). Qed.
Print Assumptions C69_exact_example.
