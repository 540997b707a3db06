(** The scores of alignment_ranking and the centred alignment on arbitrary input: properties C23, C52, C54.
    Generated by tools/split_props.py from AlignExact.v: statements only, each closed by [exact]. *)
From Coq Require Import String Reals List Arith ZArith Bool Lia Lra.
Import ListNotations.
From Verif Require Import Prelude MatModel UtilsModel KMModel SpecKM XReal OpsModel SpecLinAlg KernelsModel
  KMXModel SetModel SpecSet CompositeModel SpecComposite BucketModel SpecBucket RankModel SpecRank.
From Verif Require Import MatFacts MFacts RSum OpsFacts OpsProps KMXProps SetFacts SetProps ContProps FullFacts CompositeFacts CompositeProps RankFacts RankProps.
From Verif Require Import AlignExact.
Local Open Scope list_scope.
Local Open Scope nat_scope.

(** The n x n table [f] consists of the finite numbers [A]. *)
Definition numbers_of (n : nat) (f : nat -> nat -> xr) (A : nat -> nat -> R) : Prop :=
  forall i j, i < n -> j < n -> f i j = Fin (A i j).

(** Some entry is infinite or NaN. *)
Definition has_nonfinite (n : nat) (f : nat -> nat -> xr) : Prop :=
  exists i j, i < n /\ j < n /\ forall r, f i j <> Fin r.

(** The matrix itself for the caller who says it is centred already, else the centred one. *)
Definition as_centred (c : bool) (n : nat) (A : nat -> nat -> R) : nat -> nat -> R :=
  if c then A else centred n A.

(** All entries are finite and the norm of the centred matrix is (nearly) zero. *)
Definition vanishes (c : bool) (n : nat) (f : nat -> nat -> xr) : Prop :=
  exists A, numbers_of n f A /\ (fnorm n n (as_centred c n A) <= tiny)%R.

(** The centred alignment of two n x n tables of arbitrary numbers. *)
Definition alignment_is (z : zero_div) (c : bool) (n : nat) (f g : nat -> nat -> xr) (r : res xr) : Prop :=
  (vanishes c n f \/ vanishes c n g -> r = match z with ZRaise => Raise ValueError | ZValue v => Ok v end) /\
  (~ vanishes c n f -> ~ vanishes c n g ->
     (has_nonfinite n f \/ has_nonfinite n g -> r = Ok NaN) /\
     forall A B, numbers_of n f A -> numbers_of n g B ->
       r = Ok (Fin (fprod n n (as_centred c n A) (as_centred c n B) /
                    (fnorm n n (as_centred c n A) * fnorm n n (as_centred c n B))))).

(** C23: the centred alignment of any two n x n ndarrays (or numpy matrices) whatever their entries. *)
Theorem C23_exact : forall K L z c n,
  afmt K <> Lil -> afmt L <> Lil -> mr (amat K) = n -> mc (amat K) = n -> mr (amat L) = n -> mc (amat L) = n ->
  alignment_is z c n (xget (amat K)) (xget (amat L)) (alignment_centered K L z c).
Proof. exact (@pf_C23_exact). Qed.
Print Assumptions C23_exact.

(** C23: what [alignment_is] describes is one outcome, and there always is one. *)
Theorem C23_determined : forall z c n f g,
  (exists r, alignment_is z c n f g r) /\
  forall r r', alignment_is z c n f g r -> alignment_is z c n f g r' -> r = r'.
Proof. exact (@pf_C23_determined). Qed.
Print Assumptions C23_determined.

(** The score of any array [K] against any targets [y]: ValueError if their sizes differ, TypeError for a
    sparse matrix, else the alignment of K and yy'. *)
Definition scored (z : zero_div) (c : bool) (y : list xr) (K : arr xr) (r : res xr) : Prop :=
  let n := length y in
  (mr (amat K) <> n \/ mc (amat K) <> n -> r = Raise ValueError) /\
  (mr (amat K) = n -> mc (amat K) = n -> afmt K = Lil -> r = Raise TypeError) /\
  (mr (amat K) = n -> mc (amat K) = n -> afmt K <> Lil ->
   alignment_is z c n (xget (amat K)) (fun i j => xmul (nth i y NaN) (nth j y NaN)) r).

(** C54 exactly, for all kernel matrices and targets: the scores are those of the matrices one by one,
    unless one of them cannot be scored; then rank_kernels fails with the exception of the first such. *)
Theorem C54_exact :
  forall {U T} (numbers : T -> res (list xr)) best_score (w : world xr xr U) k num ms Ks (t : T) p m y,
    set_is w k num ms -> fulls w ms Ks -> lower m = "align/corr"%string -> align_params p -> numbers t = Ok y ->
    exists rs,
      Forall2 (scored (default (ZValue (Fin 0)) (rp_zero p)) (default false (rp_centered p)) y) Ks rs /\
      (forall ss, rs = map Ok ss -> snd (rank_kernels numbers best_score k t m p w) = Ok ss) /\
      (forall ss e rest, rs = map Ok ss ++ Raise e :: rest ->
         snd (rank_kernels numbers best_score k t m p w) = Raise e).
Proof. exact (@pf_C54_exact). Qed.
Print Assumptions C54_exact.

(** Three cases: an infinite entry gives NaN, if the targets vary; a constant matrix gives what was asked
    for, even against infinite targets; otherwise the alignment is a number. *)
Theorem C54_exact_example :
  scored ZRaise false [Fin 1; Fin (-1)] (mkArr Dense (mkMat 2 2 [[PInf; Fin 0]; [Fin 0; Fin 1]])) (Ok NaN) /\
  scored (ZValue (Fin 7)) false [PInf; Fin 1] (mkArr Dense (mkMat 2 2 [[Fin 1; Fin 1]; [Fin 1; Fin 1]])) (Ok (Fin 7)) /\
  scored ZRaise true [Fin 1; Fin 1] (mkArr Dense (mkMat 2 2 [[Fin 1; Fin 1]; [Fin 1; Fin 1]])) (Ok (Fin 1)).
Proof. exact (@pf_C54_exact_example). Qed.
Print Assumptions C54_exact_example.

(** C52: the learners that CV_ranking cross-validates: whatever the case of the name, 'svm' and 'svc' stand for a
    classifier and 'svr' for a regressor on precomputed kernel matrices, C being tried at the twelve powers
    of ten from 1e-6 to 1e5; there are no others. *)
Theorem C52_learner : forall name,
  match get_estimator name with
  | Ok (s, grid) =>
      (svm_regression s = false /\ (lower name = "svm"%string \/ lower name = "svc"%string) \/
       svm_regression s = true /\ lower name = "svr"%string) /\
      svm_kernel s = "precomputed"%string /\ svm_C s = 10%R /\
      length grid = 12 /\ forall i, i < 12 -> nth i grid 0%R = (10 ^ i / 1000000)%R
  | Raise e => e = NotImplementedErr /\ ~ In (lower name) ["svm"; "svc"; "svr"]%string
  end.
Proof. exact (@pf_C52_learner). Qed.
Print Assumptions C52_learner.
