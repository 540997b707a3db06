(** Operations, buckets and rankings while warnings are exceptions: property C110.
    Generated by tools/split_props.py from OpStrictProps.v: statements only, each closed by [exact]. *)
From Coq Require Import String Reals List Arith ZArith Bool Lia Lra.
Import ListNotations.
From Verif Require Import Prelude MatModel UtilsModel KMModel SpecKM XReal OpsModel SpecLinAlg KernelsModel
  KMXModel SetModel SpecSet BucketModel SpecBucket SpecComposite RankModel SpecRank OpWarnModel OpStrictModel.
From Verif Require Import MatFacts MFacts KMFacts KMInv OpsFacts OpsProps SetFacts SetProps ContProps KMXProps
  BucketProps CompositeFacts RankFacts RankProps AlignExact OpWarnProps.
From Verif Require Import OpStrictProps.
Local Open Scope list_scope.
Local Open Scope nat_scope.

(** What a call does while the warnings in [f] are exceptions, told from what it does otherwise ([plain]) and
    from the warnings [ws] it issues then, in order: the first one in [f], if there is any, is raised. *)
Definition strict_outcome {A} (f : owarning -> bool) (wexn : owarning -> exn) (ws : list owarning) (plain r : res A)
  : Prop :=
  match find f ws with
  | None => r = plain
  | Some v => r = Raise (wexn v)
  end.

(** C110: is_PSD: the outcome is the usual one, unless it is accompanied by a warning that is an exception. *)
Theorem C110_psd : forall f wexn eig lin a tol,
  strict_outcome f wexn (fst (is_PSD_w eig lin a tol [])) (is_PSD eig a tol) (is_PSD_e f wexn eig lin a tol).
Proof. exact (@pf_C110_psd). Qed.
Print Assumptions C110_psd.

(** C110: so a matrix that is accepted is accepted whatever the filter is; and with all warnings exceptions,
    False is returned only for eigenvalues: a symmetric matrix for which they are computed and one of which is
    below the tolerance, or for which they cannot be computed (LinAlgError). *)
Theorem C110_psd_true : forall f wexn eig lin a tol,
  (is_PSD eig a tol = Ok true -> is_PSD_e f wexn eig lin a tol = Ok true) /\
  ((forall v, f v = true) -> is_PSD_e f wexn eig lin a tol = Ok false ->
     mr (amat a) = mc (amat a) /\
     (forall i j, i < mr (amat a) -> j < mr (amat a) -> xisclose (xget (amat a) i j) (xget (amat a) j i) = true) /\
     ((exists l v, eig (amat a) = Ok l /\ In v l /\ xltb v (xopp (Fin tol)) = true) \/
      (exists e, eig (amat a) = Raise e /\ lin e = true))).
Proof. exact (@pf_C110_psd_true). Qed.
Print Assumptions C110_psd_true.

(** C110: alignment_centered. *)
Theorem C110_alignment : forall f wexn a b z c,
  strict_outcome f wexn (fst (alignment_centered_w a b z c [])) (alignment_centered a b z c)
    (alignment_centered_e f wexn a b z c).
Proof. exact (@pf_C110_alignment). Qed.
Print Assumptions C110_alignment.

(** C110: while that warning is an exception the value for vanishing matrices makes no difference: with any
    value, the outcome is that of value_if_zero_division='raise', but for the exception raised. *)
Theorem C110_alignment_value : forall f wexn a b v c, f WZeroNorm = true ->
  alignment_centered_e f wexn a b (ZValue v) c = alignment_centered a b ZRaise c \/
  alignment_centered_e f wexn a b (ZValue v) c = Raise (wexn WZeroNorm) /\ alignment_centered a b ZRaise c = Raise ValueError.
Proof. exact (@pf_C110_alignment_value). Qed.
Print Assumptions C110_alignment_value.

(** C110: the functions of sampling.py that build buckets. If none of the warnings is an exception they leave
    the same state, too. *)
Theorem C110_bucket :
  forall {U} (N : numops xr) (C : cmpops xr) f wexn (w : world xr xr U),
  (forall b c g p v, let ws := snd (fst (add_parametrized_w N C b c g p v (w, []))) in
     strict_outcome f wexn ws (snd (add_parametrized N C b c v w)) (snd (add_parametrized_e f wexn N C b c g p v w)) /\
     (find f ws = None -> add_parametrized_e f wexn N C b c g p v w = add_parametrized N C b c v w)) /\
  (forall nk sk p, let ws := snd (fst (bucket_new_w N C nk sk p (w, []))) in
     strict_outcome f wexn ws (snd (bucket_new N C nk sk p w)) (snd (bucket_new_e f wexn N C nk sk p w)) /\
     (find f ws = None -> bucket_new_e f wexn N C nk sk p w = bucket_new N C nk sk p w)) /\
  (forall st nk sk, let ws := snd (fst (make_kernel_bucket_w N C st nk sk (w, []))) in
     strict_outcome f wexn ws (snd (make_kernel_bucket N C st nk sk w)) (snd (make_kernel_bucket_e f wexn N C st nk sk w)) /\
     (find f ws = None -> make_kernel_bucket_e f wexn N C st nk sk w = make_kernel_bucket N C st nk sk w)).
Proof. exact (@pf_C110_bucket). Qed.
Print Assumptions C110_bucket.

(** C110: where add_parametrized_kernels stops. With the values that lead to a warning (those for which no
    kernel can be constructed; all of them once the bucket is attached): if none of these warnings is an
    exception, it does what it does otherwise. If one is, the first such is raised, and everything is as if
    only the values up to that one had been given: the kernels added before stay in the bucket, the values
    after it are not looked at. *)
Theorem C110_stops :
  forall {U} (N : numops xr) (C : cmpops xr) f wexn (w : world xr xr U) b num ms g p l,
  set_is w (b_set b) num ms -> l <> [] ->
  match find (fun j => f (WSkipping g p j)) (if numsamp_eqb num NSNone then failing 0 l else seq 0 (length l)) with
  | None => add_parametrized_e f wexn N C b true g p (BIter l) w = add_parametrized N C b true (BIter l) w
  | Some j => add_parametrized_e f wexn N C b true g p (BIter l) w =
      (fst (add_parametrized N C b true (BIter (firstn (S j) l)) w), Raise (wexn (WSkipping g p j)))
  end.
Proof. exact (@pf_C110_stops). Qed.
Print Assumptions C110_stops.

(** C110: so, for a bucket that is not attached and with all warnings exceptions: exactly the kernels of the
    values before the first one that fails are added. *)
Theorem C110_prefix :
  forall {U} (N : numops xr) (C : cmpops xr) f wexn (w : world xr xr U) b ms g p pre e post,
  set_is w (b_set b) NSNone ms -> (forall v, f v = true) ->
  let r := add_parametrized_e f wexn N C b true g p (BIter (map Ok pre ++ Raise e :: post)) w in
  snd r = Raise (wexn (WSkipping g p (length pre))) /\
  exists new, set_is (fst r) (b_set b) NSNone (ms ++ new) /\ new_matrices w (fst r) (b_norm b) new pre /\
    objects_kept w (fst r) /\ other_sets_kept (b_set b) w (fst r).
Proof. exact (@pf_C110_prefix). Qed.
Print Assumptions C110_prefix.

(** C110: the constructor of buckets, whether it raises or not, leaves all existing kernel matrices and sets
    as they are. *)
Theorem C110_new_frame :
  forall {U} (N : numops xr) (C : cmpops xr) f wexn (w : world xr xr U) nk sk p,
  let r := bucket_new_e f wexn N C nk sk p w in objects_kept w (fst r) /\ sets_kept w (fst r).
Proof. exact (@pf_C110_new_frame). Qed.
Print Assumptions C110_new_frame.

(** C110: make_kernel_bucket: the named strategies give what they give otherwise, whatever the filter; a
    bucket given instead of a name is returned, or the warning raised, and nothing is changed. *)
Theorem C110_make :
  forall {U} (N : numops xr) (C : cmpops xr) f wexn (w : world xr xr U) nk sk,
  (forall s, make_kernel_bucket_e f wexn N C (SName s) nk sk w = make_kernel_bucket N C (SName s) nk sk w) /\
  (forall b, make_kernel_bucket_e f wexn N C (SBucket b) nk sk w =
             (w, if f WAlreadyBucket then Raise (wexn WAlreadyBucket) else Ok b)).
Proof. exact (@pf_C110_make). Qed.
Print Assumptions C110_make.

(** Ndarrays (or numpy matrices) of shape n x n, with any entries. *)
Definition square_arrays (n : nat) (Ks : list (arr xr)) : Prop :=
  forall K, In K Ks -> afmt K <> Lil /\ mr (amat K) = n /\ mc (amat K) = n.

(** C110: pairwise_similarity with metric 'align' while the warning about vanishing matrices is an exception:
    it is raised exactly if some kernel matrix, centred, (nearly) vanishes; otherwise the table is the same. *)
Theorem C110_pairwise :
  forall {U} f wexn co (w : world xr xr U) k num ms Ks n, f WZeroNorm = true ->
    set_is w k num ms -> fulls w ms Ks -> square_arrays n Ks ->
    ((exists K, In K Ks /\ vanishes false n (xget (amat K))) ->
       snd (pairwise_similarity_e f wexn co k "align" w) = Raise (wexn WZeroNorm)) /\
    ((forall K, In K Ks -> ~ vanishes false n (xget (amat K))) ->
       snd (pairwise_similarity_e f wexn co k "align" w) = snd (pairwise_similarity co k "align" w)).
Proof. exact (@pf_C110_pairwise). Qed.
Print Assumptions C110_pairwise.

(** C110: the scores of kernels by alignment, for any kernel matrices and targets of matching size, with any
    value_if_zero_division that is a value: an exception exactly if there is a kernel and it or the matrix of
    the targets vanishes. *)
Theorem C110_ranking :
  forall {U T} (numbers : T -> res (list xr)) best_score f wexn (w : world xr xr U) k num ms Ks (t : T) m p v ys,
    f WZeroNorm = true -> set_is w k num ms -> fulls w ms Ks -> lower m = "align/corr"%string -> align_params p ->
    default (ZValue (Fin 0)) (rp_zero p) = ZValue v -> numbers t = Ok ys -> square_arrays (length ys) Ks ->
    let c := default false (rp_centered p) in
    let yy := fun i j => xmul (nth i ys NaN) (nth j ys NaN) in
    ((exists K, In K Ks /\ (vanishes c (length ys) (xget (amat K)) \/ vanishes c (length ys) yy)) ->
       snd (rank_kernels_e f wexn numbers best_score k t m p w) = Raise (wexn WZeroNorm)) /\
    ((forall K, In K Ks -> ~ vanishes c (length ys) (xget (amat K)) /\ ~ vanishes c (length ys) yy) ->
       snd (rank_kernels_e f wexn numbers best_score k t m p w) = snd (rank_kernels numbers best_score k t m p w)).
Proof. exact (@pf_C110_ranking). Qed.
Print Assumptions C110_ranking.

(** C110: for all arguments and states, pairwise_similarity, rank_kernels and find_optimal_kernel do what they
    do otherwise, unless the warning about vanishing matrices is an exception and is raised. *)
Theorem C110_rank_any :
  forall {U T} (numbers : T -> res (list xr)) best_score numeric co f wexn (w : world xr xr U),
  (forall k metric, pairwise_similarity_e f wexn co k metric w = pairwise_similarity co k metric w \/
     f WZeroNorm = true /\ metric = "align"%string /\ snd (pairwise_similarity_e f wexn co k metric w) = Raise (wexn WZeroNorm)) /\
  (forall k t m p, rank_kernels_e f wexn numbers best_score k t m p w = rank_kernels numbers best_score k t m p w \/
     f WZeroNorm = true /\ lower m = "align/corr"%string /\
     snd (rank_kernels_e f wexn numbers best_score k t m p w) = Raise (wexn WZeroNorm)) /\
  (forall b x t m p,
     find_optimal_kernel_e f wexn numbers best_score numeric b x t m p w = find_optimal_kernel numbers best_score numeric b x t m p w \/
     f WZeroNorm = true /\
     snd (find_optimal_kernel_e f wexn numbers best_score numeric b x t m p w) = Raise (wexn WZeroNorm)).
Proof. exact (@pf_C110_rank_any). Qed.
Print Assumptions C110_rank_any.

(** "A call that raises a warning leaves the bucket as it was" is refuted: of the degrees 2, (one that is
    refused), 3 the first has been added when the warning is raised; without the filter 2 and 3 are. *)
Theorem C110_unchanged_refuted :
  exists (w : world xr xr unit) b l e,
    set_is w (b_set b) NSNone [0] /\
    snd (add_parametrized_e (fun _ => true) (fun _ => e) xN xC b true "PolyKernel" "degree" (BIter l) w) = Raise e /\
    set_is (fst (add_parametrized_e (fun _ => true) (fun _ => e) xN xC b true "PolyKernel" "degree" (BIter l) w)) (b_set b) NSNone [0; 1] /\
    set_is (fst (add_parametrized xN xC b true (BIter l) w)) (b_set b) NSNone [0; 1; 2].
Proof. exact (@pf_C110_unchanged_refuted). Qed.
Print Assumptions C110_unchanged_refuted.

(** Cases: the constructor given that list raises; a filter for another warning changes nothing; the zero
    matrix has an alignment only while the warning is none; a rectangular matrix is refused. *)
Theorem C110_example :
  let p := mkBP (BIter [Ok (builtin (KPoly 2 1 1)); Raise TypeError; Ok (builtin (KPoly 3 1 1))]) BNone BNone BNone BNone in
  let skip := fun v => match v with WSkipping _ _ _ => true | _ => false end in
  let zero := fun v => match v with WZeroNorm => true | _ => false end in
  let wexn := fun v => match v with WSkipping _ _ 1 => RuntimeError | _ => AttributeError end in
  snd (bucket_new_e (U:=unit) skip wexn xN xC (Some true) (Some false) p w_empty) = Raise RuntimeError /\
  snd (bucket_new_e (U:=unit) zero wexn xN xC (Some true) (Some false) p w_empty) = Ok (mkBucket 0 true) /\
  is_PSD_e (fun _ => true) wexn (fun _ => Ok []) (fun _ => true) (mkArr Dense (mkMat 1 2 [[Fin 1; Fin 2]])) 0 = Raise AttributeError /\
  is_PSD_e zero wexn (fun _ => Ok []) (fun _ => true) (mkArr Dense (mkMat 1 2 [[Fin 1; Fin 2]])) 0 = Ok false /\
  alignment_centered_e zero wexn (mkArr Dense (rmat 1 1 (fun _ _ => 0%R))) (mkArr Dense (rmat 1 1 (fun _ _ => 0%R)))
    (ZValue (Fin 7)) true = Raise AttributeError /\
  alignment_centered_e skip wexn (mkArr Dense (rmat 1 1 (fun _ _ => 0%R))) (mkArr Dense (rmat 1 1 (fun _ _ => 0%R)))
    (ZValue (Fin 7)) true = Ok (Fin 7).
Proof. exact (@pf_C110_example). Qed.
Print Assumptions C110_example.
