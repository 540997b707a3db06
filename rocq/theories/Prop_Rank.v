(** Kernel rankings: properties C50 - C54 and C68.
    Generated by tools/split_props.py from RankProps.v: statements only, each closed by [exact]. *)
From Coq Require Import String Reals List Arith ZArith Bool Lia Lra.
Import ListNotations.
From Verif Require Import Prelude MatModel UtilsModel KMModel SpecKM XReal OpsModel SpecLinAlg KernelsModel
  KMXModel SetModel SpecSet CompositeModel SpecComposite BucketModel SpecBucket RankModel SpecRank.
From Verif Require Import MatFacts MFacts KMFacts KMInv KMHist KMHist2 KMProps RSum OpsFacts OpsProps PSDFacts
  KMXProps SetFacts SetFacts2 SetProps ContProps FullFacts CompositeFacts CompositeProps RankFacts CorrFacts.
From Verif Require Import RankProps.
Local Open Scope list_scope.
Local Open Scope nat_scope.

(** C51: ideal_kernel(y)[i, j] = y_i * y_j, for arbitrary targets (infinities and NaN included). *)
Theorem C51_value : forall ys,
  mr (ideal_kernel ys) = length ys /\ mc (ideal_kernel ys) = length ys /\
  forall i j, i < length ys -> j < length ys ->
    xget (ideal_kernel ys) i j = xmul (nth i ys NaN) (nth j ys NaN).
Proof. exact (@pf_C51_value). Qed.
Print Assumptions C51_value.

(** C51: it is symmetric, and for finite targets positive semidefinite; it is the target matrix used
    by alignment_ranking. *)
Theorem C51_psd : forall y,
  ideal_kernel (map Fin y) = rmat (length y) (length y) (target_matrix y) /\
  psd (length y) (target_matrix y) /\
  (forall ys, ideal_kernel ys = outer ys) /\
  (forall ys i j, i < length ys -> j < length ys -> xget (ideal_kernel ys) i j = xget (ideal_kernel ys) j i).
Proof. exact (@pf_C51_psd). Qed.
Print Assumptions C51_psd.

(** C52: min_max_scale of a non-empty list of finite numbers: all zeros if the spread is at most 1e-8,
    otherwise v goes to (v - min) / (max - min). *)
Theorem C52_value : forall l mn mx, extremes l mn mx ->
  min_max_scale (map Fin l) = Ok (map (fun v => Fin (if Rle_dec (mx - mn) tiny then 0 else (v - mn) / (mx - mn))%R) l).
Proof. exact (@pf_C52_value). Qed.
Print Assumptions C52_value.

(** C52: hence the result lies in [0, 1], preserves the order, and if the spread exceeds 1e-8 sends the
    minimum to 0, the maximum to 1 and distinct values to distinct values. *)
Theorem C52_range : forall l mn mx, extremes l mn mx ->
  exists f, min_max_scale (map Fin l) = Ok (map (fun v => Fin (f v)) l) /\
    (forall v, In v l -> (0 <= f v <= 1)%R) /\
    (forall u v, (u <= v)%R -> (f u <= f v)%R) /\
    ((tiny < mx - mn)%R -> f mn = 0%R /\ f mx = 1%R /\ forall u v, (u < v)%R -> (f u < f v)%R) /\
    ((mx - mn <= tiny)%R -> forall v, f v = 0%R).
Proof. exact (@pf_C52_range). Qed.
Print Assumptions C52_range.

(** C52: the empty list raises ValueError; one NaN makes everything NaN. *)
Theorem C52_other : min_max_scale [] = Raise ValueError /\
  forall l, In NaN l -> min_max_scale l = Ok (map (fun _ => NaN) l).
Proof. exact (@pf_C52_other). Qed.
Print Assumptions C52_other.

(** C52: the scores of CV_ranking are the best cross-validation scores found for the
    members, scaled to [0, 100]; the best gets 100 unless the scores are (nearly) equal. *)
Theorem C52_cv :
  forall {U T} numbers best_score (w : world xr xr U) k num ms Ks (t : T) p method e rs mn mx,
    set_is w k num ms -> fulls w ms Ks -> lower method = "cv_risk"%string -> cv_params p ->
    get_estimator (default "SVM"%string (rp_estimator p)) = Ok e ->
    Forall2 (fun K r => best_score e (default 3%Z (rp_folds p)) K t = Ok (Fin r)) Ks rs ->
    extremes rs mn mx ->
    snd (rank_kernels numbers best_score k t method p w) = Ok (map (fun r => Fin (scaled mn mx r)) rs) /\
    (forall r, In r rs -> (0 <= scaled mn mx r <= 100)%R) /\
    ((tiny < mx - mn)%R -> scaled mn mx mx = 100%R) /\
    ((mx - mn <= tiny)%R -> forall r, scaled mn mx r = 0%R).
Proof. exact (@pf_C52_cv). Qed.
Print Assumptions C52_cv.

(** C52: an unknown estimator name raises NotImplementedError (if there is a kernel at all), keyword
    arguments of the other method TypeError, and a bucket without kernels ValueError. *)
Theorem C52_cv_errors :
  forall {U T} best_score (w : world xr xr U) k num ms (t : T) p, set_is w k num ms ->
    (get_estimator (default "SVM"%string (rp_estimator p)) = Raise NotImplementedErr -> ms <> [] -> cv_params p ->
       CV_ranking best_score k t p w = (w, Raise NotImplementedErr)) /\
    (~ cv_params p -> CV_ranking best_score k t p w = (w, Raise TypeError)) /\
    (ms = [] -> cv_params p -> CV_ranking best_score k t p w = (w, Raise ValueError)).
Proof. exact (@pf_C52_cv_errors). Qed.
Print Assumptions C52_cv_errors.

(** C54: alignment_ranking scores each kernel matrix by its centred alignment with yy' (on finite
    matrices and targets of the right length); where a centred norm vanishes, by
    value_if_zero_division (0 by default). *)
Theorem C54_value :
  forall {U T} (numbers : T -> res (list xr)) best_score (w : world xr xr U) k num ms Ks (t : T) p m n y As,
    set_is w k num ms -> fulls w ms Ks -> lower m = "align/corr"%string ->
    align_params p -> rp_centered p <> Some true ->
    numbers t = Ok (map Fin y) -> length y = n -> finite_matrices n Ks As ->
    snd (rank_kernels numbers best_score k t m p w)
    = rmap (align_score (default (ZValue (Fin 0)) (rp_zero p)) n y) As.
Proof. exact (@pf_C54_value). Qed.
Print Assumptions C54_value.

(** C54: by default these are numbers in [-1, 1], 0 for kernel matrices or targets whose centred norm
    vanishes. *)
Theorem C54_partial :
  forall {U T} (numbers : T -> res (list xr)) best_score (w : world xr xr U) k num ms Ks (t : T) m n y As,
    set_is w k num ms -> fulls w ms Ks -> lower m = "align/corr"%string ->
    numbers t = Ok (map Fin y) -> length y = n -> finite_matrices n Ks As ->
    snd (rank_kernels numbers best_score k t m no_params w) = Ok (map (fun A => Fin (align_value n y A)) As) /\
    forall A, (-1 <= align_value n y A <= 1)%R /\
      ((fnorm n n (centred n A) <= tiny \/ fnorm n n (centred n (target_matrix y)) <= tiny)%R ->
       align_value n y A = 0%R).
Proof. exact (@pf_C54_partial). Qed.
Print Assumptions C54_partial.

(** C53: with the scores of the members after attaching the sample, the result is the first member with
    the largest score; if a score is NaN, the first member whose score is. All members are attached to
    the sample from then on. *)
Theorem C53_best :
  forall {U T} (numbers : T -> res (list xr)) best_score numeric (w : world xr xr U) b num ms x n (t : T) m p,
    set_is w (b_set b) num ms -> numeric_sample numeric x n -> num = NSNone \/ num = NSOne n ->
    (forall l, In l ms -> is_km w l) -> valid_method m = true ->
    (forall l, In l ms ->
       now_attached w (fst (find_optimal_kernel numbers best_score numeric (Some b) x t m p w)) x l) /\
    match snd (rank_kernels numbers best_score (b_set b) t m p
                 (fst (set_attach numeric (b_set b) x None w))) with
    | Raise e => snd (find_optimal_kernel numbers best_score numeric (Some b) x t m p w) = Raise e
    | Ok ss =>
        length ss = length ms /\
        (ms = [] -> snd (find_optimal_kernel numbers best_score numeric (Some b) x t m p w) = Raise ValueError) /\
        (ms <> [] -> exists i l, nth_error ms i = Some l /\
           snd (find_optimal_kernel numbers best_score numeric (Some b) x t m p w) = Ok l /\
           (~ In NaN ss -> first_best ss i) /\ (In NaN ss -> first_nan ss i))
    end.
Proof. exact (@pf_C53_best). Qed.
Print Assumptions C53_best.

(** C53: something that is not a KernelBucket raises TypeError and an unknown method
    NotImplementedError; nothing has been attached (or read) by then. *)
Theorem C53_refuses :
  forall {U T} (numbers : T -> res (list xr)) best_score numeric (w : world xr xr U) x (t : T) m p,
    find_optimal_kernel numbers best_score numeric None x t m p w = (w, Raise TypeError) /\
    (lower m <> "align/corr"%string -> lower m <> "cv_risk"%string ->
       (forall b, find_optimal_kernel numbers best_score numeric (Some b) x t m p w = (w, Raise NotImplementedErr)) /\
       forall k, rank_kernels numbers best_score k t m p w = (w, Raise NotImplementedErr)).
Proof. exact (@pf_C53_refuses). Qed.
Print Assumptions C53_refuses.

(** C53: a sample that is not numeric or of another size than the bucket's raises ValueError. *)
Theorem C53_bad_sample :
  forall {U T} (numbers : T -> res (list xr)) best_score numeric (w : world xr xr U) b num ms x (t : T) m p,
    set_is w (b_set b) num ms -> valid_method m = true ->
    (forall n, numeric_sample numeric x n -> num <> NSNone /\ num <> NSOne n) ->
    snd (find_optimal_kernel numbers best_score numeric (Some b) x t m p w) = Raise ValueError.
Proof. exact (@pf_C53_bad_sample). Qed.
Print Assumptions C53_bad_sample.

(** C53 with method 'align/corr', from kernels and data to the result: the first of the kernel matrices
    on this sample (cosine-normalised where asked for) whose alignment with yy' is largest. *)
Theorem C53_align_partial :
  forall {U T} (numbers : T -> res (list xr)) best_score numeric (w : world xr xr U) b num ms x n d (t : T) m cs Ks As y,
    set_is w (b_set b) num ms -> is_sample x n d -> numeric (nd_data x) = true ->
    num = NSNone \/ num = NSOne n -> ms <> [] ->
    Forall2 (candidate w n d x) ms cs ->
    Forall2 (fun c K => gram (snd c) (fst c) n d x = Ok K) cs Ks -> finite_matrices n Ks As ->
    lower m = "align/corr"%string -> numbers t = Ok (map Fin y) -> length y = n ->
    exists i l, nth_error ms i = Some l /\
      snd (find_optimal_kernel numbers best_score numeric (Some b) x t m no_params w) = Ok l /\
      now_attached w (fst (find_optimal_kernel numbers best_score numeric (Some b) x t m no_params w)) x l /\
      (forall j, j < length As -> (align_value n y (nth j As (fun _ _ => 0)) <= align_value n y (nth i As (fun _ _ => 0)))%R) /\
      (forall j, j < i -> (align_value n y (nth j As (fun _ _ => 0)) < align_value n y (nth i As (fun _ _ => 0)))%R).
Proof. exact (@pf_C53_align_partial). Qed.
Print Assumptions C53_align_partial.

(** C53 with method 'cv_risk': the first of the kernels whose best cross-validation score is largest,
    or, if all scores are within 1e-8 of each other, the first kernel. *)
Theorem C53_cv_partial :
  forall {U T} (numbers : T -> res (list xr)) best_score numeric (w : world xr xr U) b num ms x n d (t : T) m cs Ks p e rs mn mx,
    set_is w (b_set b) num ms -> is_sample x n d -> numeric (nd_data x) = true ->
    num = NSNone \/ num = NSOne n -> ms <> [] ->
    Forall2 (candidate w n d x) ms cs ->
    Forall2 (fun c K => gram (snd c) (fst c) n d x = Ok K) cs Ks ->
    lower m = "cv_risk"%string -> cv_params p ->
    get_estimator (default "SVM"%string (rp_estimator p)) = Ok e ->
    Forall2 (fun K r => best_score e (default 3%Z (rp_folds p)) K t = Ok (Fin r)) Ks rs -> extremes rs mn mx ->
    exists i l, nth_error ms i = Some l /\
      snd (find_optimal_kernel numbers best_score numeric (Some b) x t m p w) = Ok l /\
      now_attached w (fst (find_optimal_kernel numbers best_score numeric (Some b) x t m p w)) x l /\
      ((mx - mn <= tiny)%R -> i = 0) /\
      ((tiny < mx - mn)%R -> nth i rs 0%R = mx /\ forall j, j < i -> (nth j rs 0 < mx)%R).
Proof. exact (@pf_C53_cv_partial). Qed.
Print Assumptions C53_cv_partial.

(** C50: pairwise_similarity[i, j] is the metric of the matrices min(i, j) and max(i, j), for all
    buckets whose matrices can be computed and whose metrics do not raise. *)
Theorem C50_partial :
  forall {U} co (w : world xr xr U) k num ms Ks metric f v,
    set_is w k num ms -> fulls w ms Ks -> metric_named co metric f ->
    (forall i j, i <= j -> j < length Ks -> f (nth i Ks dflt) (nth j Ks dflt) = Ok (v i j)) ->
    exists P, snd (pairwise_similarity co k metric w) = Ok P /\ mirrored (length ms) v P.
Proof. exact (@pf_C50_partial). Qed.
Print Assumptions C50_partial.

(** C50: an unknown metric raises KeyError, before any kernel matrix is computed. *)
Theorem C50_unknown :
  forall {U} co (w : world xr xr U) k num ms metric,
    set_is w k num ms -> metric <> "corr"%string -> metric <> "align"%string ->
    pairwise_similarity co k metric w = (w, Raise KeyError).
Proof. exact (@pf_C50_unknown). Qed.
Print Assumptions C50_unknown.

(** C50: if the metric raises for one of the pairs, so does pairwise_similarity: the exception is one
    that the metric raises. *)
Theorem C50_raises :
  forall {U} co (w : world xr xr U) k num ms Ks metric f i j e,
    set_is w k num ms -> fulls w ms Ks -> metric_named co metric f ->
    i <= j -> j < length Ks -> f (nth i Ks dflt) (nth j Ks dflt) = Raise e ->
    exists i' j' e', i' <= j' /\ j' < length Ks /\ f (nth i' Ks dflt) (nth j' Ks dflt) = Raise e' /\
      snd (pairwise_similarity co k metric w) = Raise e'.
Proof. exact (@pf_C50_raises). Qed.
Print Assumptions C50_raises.

(** C50 with metric 'align', on finite matrices: the table of centred alignments: symmetric, in
    [-1, 1], with 1 on the diagonal (0 where a centred norm vanishes). *)
Theorem C50_align :
  forall {U} co (w : world xr xr U) k num ms Ks n As,
    set_is w k num ms -> fulls w ms Ks -> finite_matrices n Ks As ->
    exists P, snd (pairwise_similarity co k "align" w) = Ok P /\ mr P = length ms /\ mc P = length ms /\
      forall i j, i < length ms -> j < length ms ->
        xget P i j = Fin (aligned n (nth i As (fun _ _ => 0%R)) (nth j As (fun _ _ => 0%R))) /\
        xget P i j = xget P j i /\
        (-1 <= aligned n (nth i As (fun _ _ => 0%R)) (nth j As (fun _ _ => 0%R)) <= 1)%R /\
        (xget P i i = Fin (if Rle_dec (fnorm n n (centred n (nth i As (fun _ _ => 0%R)))) tiny then 0 else 1)).
Proof. exact (@pf_C50_align). Qed.
Print Assumptions C50_align.

(** C54: a NaN anywhere in a kernel matrix makes its score NaN, whatever the targets are (unless
    their centred norm vanishes). *)
Theorem C54_nan : forall K n p q y z, afmt K <> Lil -> mr (amat K) = n -> mc (amat K) = n -> p < n -> q < n ->
  xget (amat K) p q = NaN -> length y = n -> (tiny < fnorm n n (centred n (target_matrix y)))%R ->
  alignment_centered K (mkArr Dense (outer (map Fin y))) z false = Ok NaN.
Proof. exact (@pf_C54_nan). Qed.
Print Assumptions C54_nan.

(** C53 is false if a score is NaN: the bucket of an unnormalised LinearKernel and a normalised
    PolyKernel(degree=1, gamma=-1, b=0) on the sample [[1], [2]] with the targets 1, -1. The first has the
    largest possible alignment 1, the second is returned. *)
Theorem C53_refuted :
  forall best_score, exists (w : world xr xr unit) b x y,
    w = fst ((b <- bucket_new xN xC (Some false) (Some false) (mkBP BNone BNone BNone BNone BNone) ;;
              l <- new_obj (OKM (km_new (builtin (KPoly 1 (-1) 0)) true [])) ;;
              append xN xC (b_set b) (ARef l)) w_empty) /\
    set_is w (b_set b) NSNone [0; 1] /\
    snd (rank_kernels (fun t => Ok (map Fin t)) best_score (b_set b) y "align/corr" no_params
           (fst (set_attach (fun _ => true) (b_set b) x None w))) = Ok [Fin 1; NaN] /\
    snd (find_optimal_kernel (fun t => Ok (map Fin t)) best_score (fun _ => true) (Some b) x y "align/corr"
           no_params w) = Ok 1 /\
    ~ first_best [Fin 1; NaN] 1.
Proof. exact (@pf_C53_refuted). Qed.
Print Assumptions C53_refuted.

(** C68: the correlation of two finite matrices, neither of them constant, is the Pearson correlation of
    their entries, which is symmetric, in [-1, 1], 1 for a matrix with itself, and does not change if a
    matrix is scaled by a positive number or shifted. *)
Theorem C68_value : forall co n m A B, varies n m A -> varies n m B ->
  correlation_km co (mkArr Dense (rmat n m A)) (mkArr Dense (rmat n m B)) = Ok (Fin (pearson n m A B)) /\
  (-1 <= pearson n m A B <= 1)%R /\ pearson n m A B = pearson n m B A /\ pearson n m A A = 1%R /\
  forall a c, (0 < a)%R -> pearson n m (fun i j => a * A i j + c)%R B = pearson n m A B.
Proof. exact (@pf_C68_value). Qed.
Print Assumptions C68_value.

(** C68: matrices of different sizes raise ValueError, matrices of fewer than two entries as well, and a
    constant matrix has the correlation NaN. *)
Theorem C68_otherwise : forall co n m A B,
  (forall n' m' B', n * m <> n' * m' ->
     correlation_km co (mkArr Dense (rmat n m A)) (mkArr Dense (rmat n' m' B')) = Raise ValueError) /\
  (n * m < 2 -> correlation_km co (mkArr Dense (rmat n m A)) (mkArr Dense (rmat n m B)) = Raise ValueError) /\
  (2 <= n * m -> ~ varies n m A \/ ~ varies n m B ->
     correlation_km co (mkArr Dense (rmat n m A)) (mkArr Dense (rmat n m B)) = Ok NaN).
Proof. exact (@pf_C68_otherwise). Qed.
Print Assumptions C68_otherwise.

(** C50 with metric 'corr', on ndarrays with finite, not constant entries: the table of Pearson
    correlations: symmetric, in [-1, 1], with 1 on the diagonal. *)
Theorem C50_corr :
  forall {U} co (w : world xr xr U) k num ms Ks n As,
    set_is w k num ms -> fulls w ms Ks ->
    Forall2 (fun K A => K = mkArr Dense (rmat n n A) /\ varies n n A) Ks As ->
    exists P, snd (pairwise_similarity co k "corr" w) = Ok P /\ mr P = length ms /\ mc P = length ms /\
      forall i j, i < length ms -> j < length ms ->
        xget P i j = Fin (pearson n n (nth i As (fun _ _ => 0%R)) (nth j As (fun _ _ => 0%R))) /\
        xget P i j = xget P j i /\ xget P i i = Fin 1 /\
        (-1 <= pearson n n (nth i As (fun _ _ => 0%R)) (nth j As (fun _ _ => 0%R)) <= 1)%R.
Proof. exact (@pf_C50_corr). Qed.
Print Assumptions C50_corr.

(** C50 with metric 'corr', exactly, on ndarrays with finite entries of any size n: the Pearson
    correlation of two matrices that are not constant, and NaN if one of them is; ValueError if n < 2
    (unless the set is empty). *)
Theorem C50_corr_exact :
  forall {U} co (w : world xr xr U) k num ms Ks n As,
    set_is w k num ms -> fulls w ms Ks ->
    Forall2 (fun K A => K = mkArr Dense (rmat n n A)) Ks As ->
    (2 <= n -> exists P, snd (pairwise_similarity co k "corr" w) = Ok P /\ mr P = length ms /\ mc P = length ms /\
       forall i j, i < length ms -> j < length ms ->
         let A := nth i As (fun _ _ => 0%R) in let B := nth j As (fun _ _ => 0%R) in
         (varies n n A -> varies n n B -> xget P i j = Fin (pearson n n A B)) /\
         (~ varies n n A \/ ~ varies n n B -> xget P i j = NaN)) /\
    (n < 2 -> ms <> [] -> snd (pairwise_similarity co k "corr" w) = Raise ValueError).
Proof. exact (@pf_C50_corr_exact). Qed.
Print Assumptions C50_corr_exact.

(** C50: the claim that no entry is undefined is false: the correlation with a constant kernel matrix
    (LinearKernel on the sample [[1], [1]]) is NaN. *)
Theorem C50_refuted :
  forall co, exists (w : world xr xr unit) x P,
    w = fst ((b <- bucket_new xN xC (Some false) (Some false) (mkBP BNone BNone BNone BNone BNone) ;;
              set_attach (fun _ => true) (b_set b) x None) w_empty) /\
    snd (pairwise_similarity co 0 "corr" w) = Ok P /\ mr P = 1 /\ mc P = 1 /\ xget P 0 0 = NaN.
Proof. exact (@pf_C50_refuted). Qed.
Print Assumptions C50_refuted.

(** The hypotheses of C50 - C54 and C68 hold for non-trivial inputs: a bucket of two kernels, on the
    sample [[1], [2]]. *)
Example C53_example :
  let w := mkW [OKM (km_new (builtin KLinear) false []); OKM (km_new (builtin (KPoly 2 1 0)) false [])]
               [mkSet NSNone true [0; 1] None] : world xr xr unit in
  let As := [(fun i j => (INR (1 + i) * INR (1 + j))%R); (fun i j => ((INR (1 + i) * INR (1 + j)) * (INR (1 + i) * INR (1 + j)))%R)] in
  set_is w 0 NSNone [0; 1] /\ is_sample x12 2 1 /\
  Forall2 (candidate w 2 1 x12) [0; 1] [(xdot, false); (valueOf (KPoly 2 1 0), false)] /\
  Forall2 (fun (c : (list xr -> list xr -> xr) * bool) K => gram (snd c) (fst c) 2 1 x12 = Ok K)
    [(xdot, false); (valueOf (KPoly 2 1 0), false)] (map (fun A => mkArr Dense (rmat 2 2 A)) As) /\
  finite_matrices 2 (map (fun A => mkArr Dense (rmat 2 2 A)) As) As /\
  Forall (varies 2 2) As /\
  extremes [1; 3; 2]%R 1 3 /\ align_params no_params /\ cv_params no_params.
Proof.
  cbv zeta. split; [eexists; eexists; reflexivity|]. split; [exists []; split; [reflexivity|constructor]|].
  split; [|split; [|split; [|split; [|split; [|split]]]]].
  - constructor; [|constructor; [|constructor]].
    + exists (builtin KLinear), []. split; [reflexivity|]. split; [|reflexivity]. apply linear_total; reflexivity.
    + exists (builtin (KPoly 2 1 0)), []. split; [reflexivity|]. split; [|reflexivity].
      intros t u v Hu Hv. cbn [builtin kf fst]. unfold kernel_rows.
      apply is_row_length in Hu; [|reflexivity|reflexivity]. apply is_row_length in Hv; [|reflexivity|reflexivity].
      rewrite Hu, Hv. reflexivity.
  - constructor; [|constructor; [|constructor]]; cbn [fst snd gram]; do 2 f_equal; apply tabulate_ext; intros i j Hi Hj;
      (destruct i as [|[|i]]; [| |lia]); (destruct j as [|[|j]]; [| |lia]); lazy -[Rplus Rmult IZR]; f_equal; ring.
  - constructor; [|constructor; [|constructor]]; (split; [discriminate|reflexivity]).
  - constructor; [|constructor; [|constructor]]; exists 0, 0, 1, 1; (split; [lia|]); cbn; lra.
  - split; [left; reflexivity|]. split; [right; left; reflexivity|]. intros v [<-|[<-|[<-|[]]]]; lra.
  - repeat split.
  - repeat split.
Qed.
