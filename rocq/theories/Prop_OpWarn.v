(** The warnings of the operations and of buckets: property C98.
    Generated by tools/split_props.py from OpWarnProps.v: statements only, each closed by [exact]. *)
From Coq Require Import String Reals List Arith ZArith Bool Lia Lra.
Import ListNotations.
From Verif Require Import Prelude MatModel UtilsModel KMModel SpecKM XReal OpsModel SpecLinAlg KernelsModel
  KMXModel SetModel SpecSet BucketModel SpecBucket RankModel SpecRank OpWarnModel.
From Verif Require Import MatFacts MFacts KMFacts KMInv OpsFacts OpsProps SetFacts SetProps ContProps KMXProps
  BucketProps AlignExact.
From Verif Require Import OpWarnProps.
Local Open Scope list_scope.
Local Open Scope nat_scope.

(** C98: is_PSD with its warnings recorded returns what it returns without; it warns at most once. *)
Theorem C98_psd_outcome : forall eig lin a tol log,
  snd (is_PSD_w eig lin a tol log) = is_PSD eig a tol /\
  (fst (is_PSD_w eig lin a tol log) = log \/ exists v, fst (is_PSD_w eig lin a tol log) = log ++ [v]).
Proof. exact (@pf_C98_psd_outcome). Qed.
Print Assumptions C98_psd_outcome.

(** C98: which warning, exactly: an ndarray that is not square; a square one with two entries a[i,j], a[j,i]
    that are not close; one whose eigenvalues could not be computed for a reason other than a LinAlgError. *)
Theorem C98_psd_exact : forall eig lin a tol log v,
  fst (is_PSD_w eig lin a tol log) = log ++ [v] <->
  is_ndarray a = true /\
  (mr (amat a) <> mc (amat a) /\ v = WNotSquare \/
   mr (amat a) = mc (amat a) /\
   ((exists i j, i < mr (amat a) /\ j < mr (amat a) /\ xisclose (xget (amat a) i j) (xget (amat a) j i) = false) /\
      v = WNotSymmetric \/
    (forall i j, i < mr (amat a) -> j < mr (amat a) -> xisclose (xget (amat a) i j) (xget (amat a) j i) = true) /\
      (exists e, eig (amat a) = Raise e /\ lin e = false) /\ v = WUnknownFailure)).
Proof. exact (@pf_C98_psd_exact). Qed.
Print Assumptions C98_psd_exact.

(** C98: so True is never returned with a warning. *)
Theorem C98_psd_true : forall eig lin a tol log,
  snd (is_PSD_w eig lin a tol log) = Ok true -> fst (is_PSD_w eig lin a tol log) = log.
Proof. exact (@pf_C98_psd_true). Qed.
Print Assumptions C98_psd_true.

(** C98: alignment_centered with its warnings recorded returns what it returns without, and warns at most
    once. *)
Theorem C98_alignment_outcome : forall a b z c log,
  snd (alignment_centered_w a b z c log) = alignment_centered a b z c /\
  (fst (alignment_centered_w a b z c log) = log \/ fst (alignment_centered_w a b z c log) = log ++ [WZeroNorm]).
Proof. exact (@pf_C98_alignment_outcome). Qed.
Print Assumptions C98_alignment_outcome.

(** C98: it warns exactly when it returns value_if_zero_division because one of the (centred) matrices, all
    of whose entries are finite, has (nearly) vanished. *)
Theorem C98_alignment_exact : forall K L z c n log,
  afmt K <> Lil -> afmt L <> Lil -> mr (amat K) = n -> mc (amat K) = n -> mr (amat L) = n -> mc (amat L) = n ->
  (fst (alignment_centered_w K L z c log) = log ++ [WZeroNorm] <->
   (vanishes c n (xget (amat K)) \/ vanishes c n (xget (amat L))) /\ z <> ZRaise).
Proof. exact (@pf_C98_alignment_exact). Qed.
Print Assumptions C98_alignment_exact.

(** C98: the functions of sampling.py with their warnings recorded do what they do without. *)
Theorem C98_bucket_outcome :
  forall {U} (N : numops xr) (C : cmpops xr) (w : world xr xr U) log,
  (forall b c f p v, exists ws, add_parametrized_w N C b c f p v (w, log) =
     ((fst (add_parametrized N C b c v w), log ++ ws), snd (add_parametrized N C b c v w))) /\
  (forall nk sk p, exists ws, bucket_new_w N C nk sk p (w, log) =
     ((fst (bucket_new N C nk sk p w), log ++ ws), snd (bucket_new N C nk sk p w))) /\
  (forall st nk sk, exists ws, make_kernel_bucket_w N C st nk sk (w, log) =
     ((fst (make_kernel_bucket N C st nk sk w), log ++ ws), snd (make_kernel_bucket N C st nk sk w))).
Proof. exact (@pf_C98_bucket_outcome). Qed.
Print Assumptions C98_bucket_outcome.

(** The positions, from [i] on, of the values for which no kernel could be constructed. *)
Fixpoint failing {A} (i : nat) (l : list (res A)) : list nat :=
  match l with
  | [] => []
  | Ok _ :: l' => failing (S i) l'
  | Raise _ :: l' => i :: failing (S i) l'
  end.

(** C98: for any bucket in any state, every value given to add_parametrized_kernels leads either to a new
    member or to one warning: no value disappears unnoticed. *)
Theorem C98_added_or_warned :
  forall {U} (N : numops xr) (C : cmpops xr) (w : world xr xr U) b num ms f p l log,
  set_is w (b_set b) num ms -> l <> [] ->
  let r := add_parametrized_w N C b true f p (BIter l) (w, log) in
  snd r = Ok tt /\
  exists new ws, set_is (fst (fst r)) (b_set b) num (ms ++ new) /\ snd (fst r) = log ++ ws /\
    length new + length ws = length l.
Proof. exact (@pf_C98_added_or_warned). Qed.
Print Assumptions C98_added_or_warned.

(** C98: which values are warned about: those for which no kernel can be constructed while the bucket is not
    attached, all of them once it is. *)
Theorem C98_warned_exact :
  forall {U} (N : numops xr) (C : cmpops xr) (w : world xr xr U) b num ms f p l log,
  set_is w (b_set b) num ms -> l <> [] ->
  snd (fst (add_parametrized_w N C b true f p (BIter l) (w, log))) =
  log ++ map (WSkipping f p) (if numsamp_eqb num NSNone then failing 0 l else seq 0 (length l)).
Proof. exact (@pf_C98_warned_exact). Qed.
Print Assumptions C98_warned_exact.

(** C98: arguments that are refused, and None, give no warning. *)
Theorem C98_no_values :
  forall {U} (N : numops xr) (C : cmpops xr) (w : world xr xr U) b c f p v log,
  c = false \/ v = BNone \/ unacceptable v -> fst (add_parametrized_w N C b c f p v (w, log)) = (w, log).
Proof. exact (@pf_C98_no_values). Qed.
Print Assumptions C98_no_values.

(** The warnings that one of the arguments of the constructor gives rise to. *)
Definition value_warnings (f p : string) (v : bvalues) : list owarning :=
  match v with BIter l => map (WSkipping f p) (failing 0 l) | _ => [] end.

(** C98: the warnings of the constructor: one for each value that is left out, in order. *)
Theorem C98_new :
  forall {U} (N : numops xr) (C : cmpops xr) (w : world xr xr U) nrm chk p K1 K2 K3 K4 K5 log,
  gives (bp_poly_degree p) K1 -> gives (bp_rbf_sigma p) K2 -> gives (bp_laplace_gamma p) K3 ->
  gives (bp_sigmoid_gamma p) K4 -> gives (bp_sigmoid_offset p) K5 ->
  snd (fst (bucket_new_w N C (Some nrm) (Some chk) p (w, log))) =
  log ++ value_warnings "PolyKernel" "degree" (bp_poly_degree p) ++
         value_warnings "GaussianKernel" "sigma" (bp_rbf_sigma p) ++
         value_warnings "LaplacianKernel" "gamma" (bp_laplace_gamma p) ++
         value_warnings "SigmoidKernel" "gamma" (bp_sigmoid_gamma p) ++
         value_warnings "SigmoidKernel" "offset" (bp_sigmoid_offset p).
Proof. exact (@pf_C98_new). Qed.
Print Assumptions C98_new.

(** C98: make_kernel_bucket warns exactly if it is given a bucket (or a set), which it returns. *)
Theorem C98_make :
  forall {U} (N : numops xr) (C : cmpops xr) (w : world xr xr U) log f g,
  (forall b, make_kernel_bucket_w N C (SBucket b) f g (w, log) = ((w, log ++ [WAlreadyBucket]), Ok b)) /\
  (forall s, snd (fst (make_kernel_bucket_w N C (SName s) f g (w, log))) = log) /\
  snd (fst (make_kernel_bucket_w N C SOther f g (w, log))) = log.
Proof. exact (@pf_C98_make). Qed.
Print Assumptions C98_make.

(** A case: of the degrees 2, (one that is refused), 3 the second is warned about; the warnings before are
    kept. After attaching the bucket to a sample all three are. *)
Theorem C98_example :
  let p := mkBP (BIter [Ok (builtin (KPoly 2 1 1)); Raise TypeError; Ok (builtin (KPoly 3 1 1))]) BNone BNone BNone BNone in
  snd (fst (bucket_new_w (U:=unit) xN xC (Some true) (Some false) p (w_empty, [WNotSquare])))
  = [WNotSquare; WSkipping "PolyKernel" "degree" 1] /\
  snd (fst (add_parametrized_w (U:=unit) xN xC (mkBucket 0 true) true "PolyKernel" "degree"
              (BIter [Ok (builtin (KPoly 2 1 1)); Raise TypeError; Ok (builtin (KPoly 3 1 1))])
              (mkW [] [mkSet (NSOne 2) true [] None], []))) = map (WSkipping "PolyKernel" "degree") [0; 1; 2].
Proof. exact (@pf_C98_example). Qed.
Print Assumptions C98_example.
