(** C104: NaN, infinities and rejected inputs in double precision.
    Generated by tools/split_props.py from FloatNanProps.v: statements only, each closed by [exact]. *)
From Coq Require Import String ZArith List Bool Arith Lia Permutation Floats.SpecFloat.
Import ListNotations.
From Verif Require Import Prelude MatModel MatFacts UtilsModel KMModel SpecKM KernelsModel FloatModel FloatOpsModel FloatKMModel SpecFloats SpecFloatNan FloatProps KMProps FloatKMFacts SpecFloatOps.
From Verif Require FloatCentreProps.
Local Open Scope nat_scope.
From Verif Require Import FloatNanProps.
Local Open Scope nat_scope.

(** C104: np.isclose in double precision: NaN is close to nothing, an infinity to itself only, and the numbers close to
    zero are those of absolute value at most 1e-8. *)
Theorem C104_isclose :
  (forall x, fisclose S754_nan x = false /\ fisclose x S754_nan = false) /\
  (forall s x, fisclose (S754_infinity s) x = true <-> x = S754_infinity s) /\
  (forall s x, fisclose x (S754_infinity s) = true <-> x = S754_infinity s) /\
  (forall x, fisclose x fzero = true <-> f_finite x = true /\ SFleb (fabs x) f_atol = true).
Proof. exact (@pf_C104_isclose). Qed.
Print Assumptions C104_isclose.

(** C104: normalize_km rejects exactly: matrices that are not square (ValueError), methods other than cosine
    (NotImplementedError), and matrices with a number of absolute value at most 1e-8 on the diagonal
    (KMNormError); in particular not those with NaN, an infinity or a negative number there. *)
Theorem C104_normalize_rejects : forall e method a,
  let n := mr (amat a) in
  let A := fget (amat a) in
  (n <> mc (amat a) -> fnormalize_km e method a = Raise ValueError) /\
  (n = mc (amat a) -> lower method <> "cosine"%string -> fnormalize_km e method a = Raise NotImplementedErr) /\
  (n = mc (amat a) -> lower method = "cosine"%string -> (exists i, i < n /\ tiny (A i i)) ->
     fnormalize_km e method a = Raise KMNormError) /\
  (n = mc (amat a) -> lower method = "cosine"%string -> (forall i, i < n -> ~ tiny (A i i)) ->
     exists B, fnormalize_km e method a = Ok B /\ mr (amat B) = n /\ mc (amat B) = n).
Proof. exact (@pf_C104_normalize_rejects). Qed.
Print Assumptions C104_normalize_rejects.

(** C104: normalize_km_2sample likewise. *)
Theorem C104_normalize2_rejects : forall e method a (dx dy : list f64),
  let bad := length dx <> mr (amat a) \/ mc (amat a) <> length dy in
  let zero := (exists i, i < length dx /\ tiny (nth i dx S754_nan)) \/ (exists i, i < length dy /\ tiny (nth i dy S754_nan)) in
  (bad -> fnormalize_km_2sample e method a dx dy = Raise ValueError) /\
  (~ bad -> lower method <> "cosine"%string -> fnormalize_km_2sample e method a dx dy = Raise NotImplementedErr) /\
  (~ bad -> lower method = "cosine"%string -> zero -> fnormalize_km_2sample e method a dx dy = Raise KMNormError) /\
  (~ bad -> lower method = "cosine"%string -> ~ zero ->
     exists B, fnormalize_km_2sample e method a dx dy = Ok B /\ mr (amat B) = length dx /\ mc (amat B) = length dy).
Proof. exact (@pf_C104_normalize2_rejects). Qed.
Print Assumptions C104_normalize2_rejects.

(** C104: linear_combination rejects exactly: a wrong number of weights (ValueError) and, if the weights are to be
    normalised, a sum of absolute value at most 1e-8 (RuntimeError); weights that are NaN or infinite are accepted. *)
Theorem C104_combination_rejects : forall e nw w Ks,
  (length Ks <> length w -> flinear_combination e nw w Ks = Raise ValueError) /\
  (length Ks = length w -> nw = true -> tiny (e_sum e w) -> flinear_combination e nw w Ks = Raise RuntimeError) /\
  (length Ks = length w -> nw = false \/ ~ tiny (e_sum e w) -> exists C, flinear_combination e nw w Ks = Ok C).
Proof. exact (@pf_C104_combination_rejects). Qed.
Print Assumptions C104_combination_rejects.

(** C104: center_km and frob_norm reject matrices that are not square: center_km every other, and every sparse one;
    frob_norm only sparse ones. *)
Theorem C104_square_only : forall e a,
  (is_ndarray a = false \/ mr (amat a) <> mc (amat a) <-> fcenter_km e a = Raise ValueError) /\
  ((exists B, fcenter_km e a = Ok B) <-> is_ndarray a = true /\ mr (amat a) = mc (amat a)) /\
  (ffrob_norm e a = Raise ValueError <-> is_sparse a = true /\ mr (amat a) <> mc (amat a)) /\
  ((exists v, ffrob_norm e a = Ok v) <-> is_sparse a = false \/ mr (amat a) = mc (amat a)).
Proof. exact (@pf_C104_square_only). Qed.
Print Assumptions C104_square_only.

(** C104: one NaN in a matrix, dense or sparse, makes every entry of the normalised matrix NaN. *)
Theorem C104_nan_normalize : forall e, decent e ->
  (forall method a B p q, fnormalize_km e method a = Ok B -> p < mr (amat a) -> q < mr (amat a) ->
     fget (amat a) p q = S754_nan ->
     forall i j, i < mr (amat a) -> j < mr (amat a) -> fget (amat B) i j = S754_nan) /\
  (forall method a (dx dy : list f64) B p q, fnormalize_km_2sample e method a dx dy = Ok B -> p < mr (amat a) -> q < mc (amat a) ->
     fget (amat a) p q = S754_nan ->
     forall i j, i < mr (amat a) -> j < mc (amat a) -> fget (amat B) i j = S754_nan).
Proof. exact (@pf_C104_nan_normalize). Qed.
Print Assumptions C104_nan_normalize.

(** C104: one NaN in an ndarray makes every entry of the centred matrix NaN, and the Frobenius products with any
    matrix and its norm. *)
Theorem C104_nan_dense : forall e n m (A : nat -> nat -> f64) p q, decent e -> p < n -> q < m -> A p q = S754_nan ->
  (n = m -> forall i j, fcenter e n A i j = S754_nan) /\
  (forall B, ffrobenius e n m A B = S754_nan /\ ffrobenius e n m B A = S754_nan) /\
  ffrobenius_norm e n m A = S754_nan.
Proof. exact (@pf_C104_nan_dense). Qed.
Print Assumptions C104_nan_dense.

(** C104: the alignment with a matrix that has a NaN is NaN, unless the other one is constant up to 1e-8 - then
    value_if_zero_division or ValueError, as if there were no NaN. *)
Theorem C104_nan_alignment : forall e n (A B : nat -> nat -> f64) value (c : bool) p q, decent e -> p < n -> q < n -> A p q = S754_nan ->
  let nb := ffrobenius_norm e n n (if c then B else fcenter e n B) in
  (~ tiny nb -> falignment e n A B value c = Ok S754_nan /\ falignment e n B A value c = Ok S754_nan) /\
  (tiny nb -> falignment e n A B value c = match value with Some v => Ok v | None => Raise ValueError end /\
              falignment e n B A value c = match value with Some v => Ok v | None => Raise ValueError end).
Proof. exact (@pf_C104_nan_alignment). Qed.
Print Assumptions C104_nan_alignment.

(** C104: in a linear combination a NaN stays at its place, whatever its weight (a weight 0 does not remove it); a weight
    NaN makes the whole combination NaN, also the others being normalised. *)
Theorem C104_nan_combination : forall e nw w Ks C l, decent e -> flinear_combination e nw w Ks = Ok C -> l < length w ->
  (forall i j, nth l Ks (fun _ _ => fzero) i j = S754_nan -> C i j = S754_nan) /\
  (nth l w fzero = S754_nan -> forall i j, C i j = S754_nan).
Proof. exact (@pf_C104_nan_combination). Qed.
Print Assumptions C104_nan_combination.

(** C104: a matrix with a NaN is neither symmetric nor positive semidefinite, whatever the eigenvalue routine does. *)
Theorem C104_nan_psd : forall n (A : nat -> nat -> f64) p q, p < n -> q < n -> A p q = S754_nan ->
  fnot_symmetric n A = true /\
  forall eigvalsh a tol, is_ndarray a = true -> n = mr (amat a) -> (forall i j, A i j = fget (amat a) i j) ->
    fis_PSD eigvalsh a tol = Ok false.
Proof. exact (@pf_C104_nan_psd). Qed.
Print Assumptions C104_nan_psd.

(** C104: so does an infinite entry, except possibly at its own place, where the normalised matrix has no finite number
    either. *)
Theorem C104_infinite_normalize : forall e, decent e ->
  (forall method a B p q, fnormalize_km e method a = Ok B -> p < mr (amat a) -> q < mr (amat a) ->
     f_finite (fget (amat a) p q) = false ->
     forall i j, i < mr (amat a) -> j < mr (amat a) ->
       f_finite (fget (amat B) i j) = false /\ (i <> p \/ j <> q -> fget (amat B) i j = S754_nan)) /\
  (forall method a (dx dy : list f64) B p q, fnormalize_km_2sample e method a dx dy = Ok B -> p < mr (amat a) -> q < mc (amat a) ->
     f_finite (fget (amat a) p q) = false ->
     forall i j, i < mr (amat a) -> j < mc (amat a) ->
       f_finite (fget (amat B) i j) = false /\ (i <> p \/ j <> q -> fget (amat B) i j = S754_nan)).
Proof. exact (@pf_C104_infinite_normalize). Qed.
Print Assumptions C104_infinite_normalize.

(** C104: the Frobenius norm of an ndarray with an infinite entry and no NaN is infinite. *)
Theorem C104_infinite_norm : forall e n m (A : nat -> nat -> f64) p q, decent e -> p < n -> q < m ->
  f_finite (A p q) = false -> (forall i j, i < n -> j < m -> A i j <> S754_nan) ->
  ffrobenius_norm e n m A = S754_infinity false.
Proof. exact (@pf_C104_infinite_norm). Qed.
Print Assumptions C104_infinite_norm.

(** C104: one NaN among the kernel values of a KernelMatrix makes every entry of what full, full_sparse and
    normed_km give with normalized=True NaN - if no self-similarity is close to zero, or else they raise
    KMNormError -, after every history; centered and frob_norm too, after those without full_sparse and whole-matrix
    indices. *)
Theorem C104_nan_matrix :
  forall {U} e (K : kernel f64 f64) k (pre post : list (op f64 U)) x y n m d p q, decent e ->
    never_raises K k x y n m d -> kfmt K = true -> admissible x y n m d -> no_attach post ->
    p < n -> q < m -> entry k d x y p q = S754_nan ->
    (forall o, o = OpFull \/ o = OpFullSparse \/ o = OpNormedKM ->
       outcome (fN e) o (after (fN e) K true pre x y post) = Raise KMNormError \/
       exists B, outcome (fN e) o (after (fN e) K true pre x y post) = Ok (OArr B) /\
         forall i j, i < n -> j < m -> fget (amat B) i j = S754_nan) /\
    (no_full_sparse post -> no_whole_index n m post -> forall nrm,
       outcome (fN e) OpFrobNorm (after (fN e) K nrm pre x y post) = Ok (OVal S754_nan) /\
       (y = None -> exists B, outcome (fN e) OpCentered (after (fN e) K nrm pre x y post) = Ok (OArr B) /\
          forall i j, i < n -> j < n -> fget (amat B) i j = S754_nan)).
Proof. exact (@pf_C104_nan_matrix). Qed.
Print Assumptions C104_nan_matrix.

(** C104: in a sparse matrix a NaN can be hidden: the Frobenius norm of the sparse matrix with rows (0, NaN) and (0, 0)
    is zero, as the entries of the matrix product are added up. *)
Theorem C104_sparse_refuted : exists a : arr f64,
  afmt a = Lil /\ fget (amat a) 0 1 = S754_nan /\ forall e, decent e -> exists s, ffrob_norm e a = Ok (S754_zero s).
Proof. exact (@pf_C104_sparse_refuted). Qed.
Print Assumptions C104_sparse_refuted.

(** The hypotheses are met: a symmetric 3 x 3 matrix with NaN at (0, 2) and (2, 0) and ones on the diagonal, as ndarray
    and sparse, on the plain platform. *)
Definition nan3 : mat f64 := tabulate 3 3 (fun i j => if i =? j then fone else if i + j =? 2 then S754_nan else fzero).
Example C104_example :
  decent plain /\ fget nan3 0 2 = S754_nan /\ (forall i, i < 3 -> ~ tiny (fget nan3 i i)) /\
  (exists B, fnormalize_km plain "cosine" (mkArr Lil nan3) = Ok B /\ fget (amat B) 1 1 = S754_nan) /\
  (exists B, fcenter_km plain (mkArr Dense nan3) = Ok B /\ fget (amat B) 1 1 = S754_nan) /\
  falignment plain 3 (fget nan3) far3 None false = Ok S754_nan /\
  fnormalize_km plain "cosine" (mkArr Dense (tabulate 2 2 (fun i j => if i =? j then fzero else S754_nan))) = Raise KMNormError.
Proof.
  split; [apply pf_C76_platform_example|]. split; [reflexivity|]. split.
  { intros i Hi (_ & H). destruct i as [|[|[|i]]]; [..|lia]; vm_compute in H; discriminate. }
  split; [eexists; split; vm_compute; reflexivity|]. split; [eexists; split; vm_compute; reflexivity|].
  split; vm_compute; reflexivity.
Qed.
