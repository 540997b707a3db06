(** Vocabulary to state properties of kernel rankings. *)
From Coq Require Import String Reals List Arith Bool.
Import ListNotations.
From Verif Require Import Prelude MatModel KMModel SpecKM XReal OpsModel SpecLinAlg KMXModel SetModel RankModel.

(** [i] is the first position at which the list is maximal (no NaN is). *)
Definition first_best (ss : list xr) (i : nat) : Prop :=
  i < length ss /\
  (forall j, j < length ss -> xleb (nth j ss NaN) (nth i ss NaN) = true) /\
  (forall j, j < i -> xltb (nth j ss NaN) (nth i ss NaN) = true).

(** [i] is the first position of a NaN. *)
Definition first_nan (ss : list xr) (i : nat) : Prop :=
  i < length ss /\ nth i ss (Fin 0) = NaN /\ forall j, j < i -> nth j ss NaN <> NaN.

(** Without keyword arguments meant for the other ranking method. *)
Definition align_params (p : rparams) : Prop := rp_folds p = None /\ rp_estimator p = None /\ rp_other p = false.
Definition cv_params (p : rparams) : Prop := rp_zero p = None /\ rp_centered p = None /\ rp_other p = false.

Local Open Scope R_scope.

(** The matrix yy'. *)
Definition target_matrix (y : list R) (i j : nat) : R := nth i y 0 * nth j y 0.

(** The smallest norm taken for non-zero by numpy.isclose. *)
Definition tiny : R := 1/100000000.

(** What a matrix A should score against the targets y: the centred alignment with yy', and if one of
    the centred norms vanishes what the user asked for. *)
Definition align_score (z : zero_div) (n : nat) (y : list R) (A : nat -> nat -> R) : res xr :=
  let a := fnorm n n (centred n A) in
  let b := fnorm n n (centred n (target_matrix y)) in
  if Rle_dec a tiny then match z with ZRaise => Raise ValueError | ZValue v => Ok v end
  else if Rle_dec b tiny then match z with ZRaise => Raise ValueError | ZValue v => Ok v end
  else Ok (Fin (fprod n n (centred n A) (centred n (target_matrix y)) / (a * b))).

(** The centred alignment of two matrices, 0 if one of the centred norms vanishes. *)
Definition aligned (n : nat) (A B : nat -> nat -> R) : R :=
  let a := fnorm n n (centred n A) in
  let b := fnorm n n (centred n B) in
  if Rle_dec a tiny then 0 else if Rle_dec b tiny then 0
  else fprod n n (centred n A) (centred n B) / (a * b).

(** That of a matrix with yy': the score of alignment_ranking by default. *)
Definition align_value (n : nat) (y : list R) (A : nat -> nat -> R) : R := aligned n A (target_matrix y).

(** The metrics of pairwise_similarity. *)
Definition metric_named (corr_other : arr xr -> arr xr -> res xr) (metric : string)
           (f : arr xr -> arr xr -> res xr) : Prop :=
  (metric = "corr"%string /\ f = correlation_km corr_other) \/
  (metric = "align"%string /\ f = fun a b => alignment_centered a b (ZValue (Fin 0)) false).

(** (The value [nth] returns out of range.) *)
Definition dflt : arr xr := mkArr Dense (mkMat 0 0 []).

(** [P] is an n x n table with the entries v(i, j) for i <= j, mirrored below the diagonal. *)
Definition mirrored (n : nat) (v : nat -> nat -> xr) (P : mat xr) : Prop :=
  mr P = n /\ mc P = n /\
  forall i j, (i < n)%nat -> (j < n)%nat -> xget P i j = v (Nat.min i j) (Nat.max i j).

(** [Ks] are n x n ndarrays (or numpy matrices) with the finite entries [As]. *)
Definition finite_matrices (n : nat) (Ks : list (arr xr)) (As : list (nat -> nat -> R)) : Prop :=
  Forall2 (fun K A => afmt K <> Lil /\ amat K = rmat n n A) Ks As.

(** The matrix a KernelMatrix with kernel values [k] stands for on the sample [x] of n points:
    cosine-normalised or not. *)
Definition gram (nrm : bool) (k : list xr -> list xr -> xr) (n d : nat) (x : ndarray xr) : res (arr xr) :=
  let K := mkArr Dense (kernel_matrix k n n d x None) in
  if nrm then normalize_km "cosine" K else Ok K.

(** The object at [l] is a KernelMatrix, normalised or not, of a kernel that computes [k] on the rows
    of [x], with any history. *)
Definition candidate {U} (w : world xr xr U) (n d : nat) (x : ndarray xr) (l : nat)
           (c : (list xr -> list xr -> xr) * bool) : Prop :=
  exists (K : kernel xr xr) pre, nth_error (w_objs w) l = Some (OKM (before xN K (snd c) pre)) /\
    never_raises K (fst c) x None n n d /\ kfmt K = true.

(** The object at [l] in [w'] is the KernelMatrix that was at [l] in [w], attached to [x] since. *)
Definition now_attached {U} (w w' : world xr xr U) (x : ndarray xr) (l : nat) : Prop :=
  exists s post, nth_error (w_objs w) l = Some (OKM s) /\ no_attach post /\
    nth_error (w_objs w') l = Some (OKM (run xN (OpAttach x None :: post) s)).

(** Scores after min-max scaling to [0, 100]: all 0 if they are nearly equal. *)
Definition scaled (mn mx v : R) : R := if Rle_dec (mx - mn) tiny then 0 else 100 * ((v - mn) / (mx - mn)).
Definition extremes (l : list R) (mn mx : R) : Prop :=
  In mn l /\ In mx l /\ forall v, In v l -> mn <= v <= mx.

(** The mean of the entries, the deviations from it, and the Pearson correlation of all entries. *)
Definition entry_mean (n m : nat) (A : nat -> nat -> R) : R :=
  rsum n (fun i => rsum m (fun j => A i j)) / (INR n * INR m).
Definition deviation (n m : nat) (A : nat -> nat -> R) (i j : nat) : R := A i j - entry_mean n m A.
Definition pearson (n m : nat) (A B : nat -> nat -> R) : R :=
  fprod n m (deviation n m A) (deviation n m B) /
  (fnorm n m (deviation n m A) * fnorm n m (deviation n m B)).

(** Not all entries are equal. *)
Definition varies (n m : nat) (A : nat -> nat -> R) : Prop :=
  exists i j i' j', (i < n /\ i' < n /\ j < m /\ j' < m)%nat /\ A i j <> A i' j'.
