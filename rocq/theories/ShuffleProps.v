(** Rankings and similarities do not depend on the order of the samples (C118). *)
From Coq Require Import String Reals List Arith ZArith Bool Permutation Lia Lra Classical.
Import ListNotations.
From Verif Require Import Prelude MatModel UtilsModel IndexModel KMModel SpecKM XReal OpsModel SpecLinAlg
  KernelsModel SpecKernels KMXModel SpecKMX SetModel SpecSet BucketModel SpecBucket CompositeModel SpecComposite RankModel SpecRank.
From Verif Require Import MatFacts RSum OpsFacts OpsProps KMXProps ContProps SetProps CompositeProps RankProps OrderProps TakeOrderProps SubTableProps.
Local Open Scope list_scope.
Local Open Scope R_scope.

(*BEGIN PROP*)
(** [ix] is an order of 0, ..., n-1. *)
Definition order_of (n : nat) (ix : list nat) : Prop := Permutation ix (seq 0 n).
(** The matrix with the samples in this order, and the targets. *)
Definition shuffled (ix : list nat) (A : nat -> nat -> R) (i j : nat) : R := A (nth i ix 0%nat) (nth j ix 0%nat).
Definition shuffled_targets (ix : list nat) (y : list R) : list R := map (fun i => nth i y 0) ix.
(*END PROP*)

Lemma rsum_list : forall n f, rsum n f = fold_right Rplus 0 (map f (seq 0 n)).
Proof.
  induction n as [|n IH]; intros f; [reflexivity|]. cbn [rsum]. rewrite IH, seq_S, map_app.
  cbn [map plus]. generalize (map f (seq 0 n)) as l. induction l as [|a l IHl]; cbn; [lra|]. rewrite <- IHl. lra.
Qed.

Lemma fold_perm : forall l l', Permutation l l' -> fold_right Rplus 0 l = fold_right Rplus 0 l'.
Proof. intros l l' H. induction H; cbn; lra. Qed.

Lemma order_length : forall n ix, order_of n ix -> length ix = n.
Proof. intros n ix H. rewrite (Permutation_length H). apply seq_length. Qed.

Lemma order_lt : forall n ix i, order_of n ix -> (i < n)%nat -> (nth i ix 0 < n)%nat.
Proof.
  intros n ix i H Hi. assert (I : In (nth i ix 0%nat) (seq 0 n)).
  { apply (Permutation_in _ H), nth_In. rewrite (order_length n ix H). exact Hi. }
  apply in_seq in I. lia.
Qed.

Lemma map_nth_seq : forall (l : list nat) d, map (fun i => nth i l d) (seq 0 (length l)) = l.
Proof.
  induction l as [|a l IH]; intros d; [reflexivity|]. cbn [length seq map nth]. f_equal.
  rewrite <- seq_shift, map_map. exact (IH d).
Qed.

Lemma rsum_order : forall n ix f, order_of n ix -> rsum n (fun i => f (nth i ix 0%nat)) = rsum n f.
Proof.
  intros n ix f H. rewrite !rsum_list. rewrite <- (map_map (fun i => nth i ix 0%nat) f).
  replace (seq 0 n) with (seq 0 (length ix)) at 1 by (rewrite (order_length n ix H); reflexivity).
  rewrite map_nth_seq. apply fold_perm, Permutation_map, H.
Qed.

Section Order.
  Variables (n : nat) (ix : list nat).
  Hypothesis H : order_of n ix.

  Lemma rsum2_order : forall A, rsum n (fun i => rsum n (fun j => shuffled ix A i j)) = rsum n (fun i => rsum n (fun j => A i j)).
  Proof.
    intros A. rewrite <- (rsum_order n ix (fun i => rsum n (fun j => A i j)) H). apply rsum_ext. intros i _.
    exact (rsum_order n ix (A (nth i ix 0%nat)) H).
  Qed.

  Lemma centred_order : forall A i j, centred n (shuffled ix A) i j = shuffled ix (centred n A) i j.
  Proof.
    intros A i j. unfold centred, rowmean, colmean, allmean. rewrite rsum2_order. unfold shuffled at 1 2 3.
    rewrite (rsum_order n ix (fun b => A (nth i ix 0%nat) b) H), (rsum_order n ix (fun a => A a (nth j ix 0%nat)) H). reflexivity.
  Qed.

  Lemma deviation_order : forall A i j, deviation n n (shuffled ix A) i j = shuffled ix (deviation n n A) i j.
  Proof. intros A i j. unfold deviation, entry_mean. rewrite rsum2_order. reflexivity. Qed.

  Lemma fprod_order : forall A B A' B', (forall i j, A' i j = shuffled ix A i j) -> (forall i j, B' i j = shuffled ix B i j) ->
    fprod n n A' B' = fprod n n A B.
  Proof.
    intros A B A' B' HA HB. unfold fprod. rewrite <- (rsum2_order (fun i j => A i j * B i j)).
    apply rsum_ext. intros i _. apply rsum_ext. intros j _. rewrite HA, HB. reflexivity.
  Qed.

  Lemma fnorm_order : forall A A', (forall i j, A' i j = shuffled ix A i j) -> fnorm n n A' = fnorm n n A.
  Proof. intros A A' HA. unfold fnorm. rewrite (fprod_order A A A' A' HA HA). reflexivity. Qed.

  Lemma aligned_order : forall A B, aligned n (shuffled ix A) (shuffled ix B) = aligned n A B.
  Proof.
    intros A B. unfold aligned. rewrite !(fnorm_order (centred n _) _ (centred_order _)).
    rewrite (fprod_order _ _ _ _ (centred_order A) (centred_order B)). reflexivity.
  Qed.

  Lemma pearson_order : forall A B, pearson n n (shuffled ix A) (shuffled ix B) = pearson n n A B.
  Proof.
    intros A B. unfold pearson. rewrite !(fnorm_order (deviation n n _) _ (deviation_order _)).
    rewrite (fprod_order _ _ _ _ (deviation_order A) (deviation_order B)). reflexivity.
  Qed.

  Lemma targets_order : forall y, length y = n -> forall i j, (i < n)%nat -> (j < n)%nat ->
    target_matrix (shuffled_targets ix y) i j = shuffled ix (target_matrix y) i j.
  Proof.
    intros y Hy i j Hi Hj. unfold target_matrix, shuffled, shuffled_targets.
    assert (E : forall a, (a < n)%nat -> nth a (map (fun i => nth i y 0) ix) 0 = nth (nth a ix 0%nat) y 0).
    { intros a Ha. rewrite (nth_indep _ 0 (nth 0%nat y 0)) by (rewrite map_length, (order_length n ix H); exact Ha).
      exact (map_nth (fun i => nth i y 0) ix 0%nat a). }
    rewrite !E by assumption. reflexivity.
  Qed.
End Order.

Lemma align_score_order : forall z n ix y A, order_of n ix -> length y = n ->
  align_score z n (shuffled_targets ix y) (shuffled ix A) = align_score z n y A.
Proof.
  intros z n ix y A H Hy. set (T := target_matrix (shuffled_targets ix y)). set (T' := shuffled ix (target_matrix y)).
  assert (E : forall i j, (i < n)%nat -> (j < n)%nat -> centred n T i j = centred n T' i j).
  { apply centred_ext. exact (targets_order n ix H y Hy). }
  assert (X : forall B, fprod n n B (centred n T) = fprod n n B (centred n T')).
  { intros B. unfold fprod. apply rsum_ext. intros i Hi. apply rsum_ext. intros j Hj. rewrite E by assumption. reflexivity. }
  assert (N : fnorm n n (centred n T) = fnorm n n (centred n T')).
  { unfold fnorm. f_equal. unfold fprod. apply rsum_ext. intros i Hi. apply rsum_ext. intros j Hj. rewrite E by assumption. reflexivity. }
  unfold align_score. fold T. rewrite X, N. unfold T'.
  rewrite !(fnorm_order n ix H (centred n _) _ (centred_order n ix H _)).
  rewrite (fprod_order n ix H _ _ _ _ (centred_order n ix H A) (centred_order n ix H _)). reflexivity.
Qed.

Lemma rmap_map : forall {A B C} (f : A -> B) (g : B -> res C) (h : A -> res C) l, (forall a, g (f a) = h a) -> rmap g (map f l) = rmap h l.
Proof. intros A B C f g h l E. induction l as [|a l IH]; [reflexivity|]. cbn. rewrite E, IH. reflexivity. Qed.

(** Alignment rankings: if the matrices of a second set are those of a first one with the samples in another order,
    and the targets are in that order too, rank_kernels gives the same scores or the same exception. *)
Lemma pf_C118_ranking :
  forall {U U' T T'} numbers numbers' best_score best_score' (w : world xr xr U) (w' : world xr xr U') k num ms Ks k' num' ms' Ks'
         (t : T) (t' : T') p m n y As ix,
    set_is w k num ms -> fulls w ms Ks -> set_is w' k' num' ms' -> fulls w' ms' Ks' ->
    lower m = "align/corr"%string -> align_params p -> rp_centered p <> Some true -> length y = n -> order_of n ix ->
    numbers t = Ok (map Fin y) -> finite_matrices n Ks As ->
    numbers' t' = Ok (map Fin (shuffled_targets ix y)) -> finite_matrices n Ks' (map (shuffled ix) As) ->
    snd (rank_kernels numbers' best_score' k' t' m p w') = snd (rank_kernels numbers best_score k t m p w).
Proof.
  intros U U' T T' nb nb' bs bs' w w' k num ms Ks k' num' ms' Ks' t t' p m n y As ix S F S' F' Hm Hp Hc Hy O Ht D Ht' D'.
  rewrite (pf_C54_value nb bs w k num ms Ks t p m n y As S F Hm Hp Hc Ht Hy D).
  rewrite (pf_C54_value nb' bs' w' k' num' ms' Ks' t' p m n (shuffled_targets ix y) (map (shuffled ix) As) S' F' Hm Hp Hc Ht'); [|unfold shuffled_targets; rewrite map_length; exact (order_length n ix O)|exact D'].
  apply rmap_map. intros A. exact (align_score_order _ n ix y A O Hy).
Qed.

Lemma varies_order : forall n ix A, order_of n ix -> varies n n (shuffled ix A) <-> varies n n A.
Proof.
  intros n ix A O. split.
  - intros (i & j & i' & j' & (H1 & H2 & H3 & H4) & N). exists (nth i ix 0%nat), (nth j ix 0%nat), (nth i' ix 0%nat), (nth j' ix 0%nat).
    repeat split; try (apply order_lt; assumption). exact N.
  - assert (P : forall i, (i < n)%nat -> exists a, (a < n)%nat /\ nth a ix 0%nat = i).
    { intros i Hi. destruct (In_nth ix i 0%nat) as (a & Ha & E).
      - apply (Permutation_in _ (Permutation_sym O)), in_seq. lia.
      - exists a. rewrite (order_length n ix O) in Ha. split; assumption. }
    intros (i & j & i' & j' & (H1 & H2 & H3 & H4) & N).
    destruct (P i H1) as (a & Ha & <-), (P j H3) as (b & Hb & <-), (P i' H2) as (a' & Ha' & <-), (P j' H4) as (b' & Hb' & <-).
    exists a, b, a', b'. repeat split; assumption.
Qed.

(** Similarities: the tables of two such sets have the same entries, for both metrics. *)
Lemma pf_C118_similarity :
  forall {U U'} co co' (w : world xr xr U) (w' : world xr xr U') k num ms Ks k' num' ms' Ks' n As ix metric,
    set_is w k num ms -> fulls w ms Ks -> set_is w' k' num' ms' -> fulls w' ms' Ks' -> order_of n ix ->
    metric_defined metric n Ks As -> metric_defined metric n Ks' (map (shuffled ix) As) ->
    exists P P', snd (pairwise_similarity co k metric w) = Ok P /\ snd (pairwise_similarity co' k' metric w') = Ok P' /\
      mr P' = mr P /\ mc P' = mc P /\ mr P = length ms /\ mc P = length ms /\
      forall i j, (i < length ms)%nat -> (j < length ms)%nat -> xget P' i j = xget P i j.
Proof.
  intros U U' co co' w w' k num ms Ks k' num' ms' Ks' n As ix metric S F S' F' O D D'.
  destruct (metric_values co w k num ms Ks n As metric S F D) as (P & E & R & C & V).
  destruct (metric_values co' w' k' num' ms' Ks' n _ metric S' F' D') as (P' & E' & R' & C' & V').
  assert (LA : forall Ks As, metric_defined metric n Ks As -> length Ks = length As).
  { clear. intros Ks As D. destruct D as [[_ D]|(_ & _ & D)]; induction D; cbn; congruence. }
  assert (LF : length ms = length Ks) by (clear - F; induction F; cbn; congruence).
  assert (LF' : length ms' = length Ks') by (clear - F'; induction F'; cbn; congruence).
  assert (L : length ms' = length ms) by (rewrite LF, LF', (LA _ _ D), (LA _ _ D'), map_length; reflexivity).
  exists P, P'. rewrite R', C', R, C, L. repeat split; try assumption. intros i j Hi Hj.
  specialize (V i j Hi Hj). rewrite <- L in Hi, Hj. specialize (V' i j Hi Hj). cbv zeta in V, V'.
  set (zf := fun _ _ : nat => 0) in *.
  assert (N : forall i, nth i (map (shuffled ix) As) zf = shuffled ix (nth i As zf)) by exact (map_nth (shuffled ix) As zf).
  rewrite !N in V'. generalize dependent (nth i As zf). intros A V V'. generalize dependent (nth j As zf). intros B V V'.
  destruct V as [[-> V]|(-> & Va & Vb)], V' as [[M V']|(M & V'a & V'b)]; try discriminate M.
  - rewrite V, V', (aligned_order n ix O). reflexivity.
  - rewrite (pearson_order n ix O), !(varies_order n ix _ O) in V'a. rewrite !(varies_order n ix _ O) in V'b.
    destruct (classic (varies n n A)) as [Y|Y]; [|rewrite Vb, V'b by (left; exact Y); reflexivity].
    destruct (classic (varies n n B)) as [Y'|Y']; [|rewrite Vb, V'b by (right; exact Y'); reflexivity].
    rewrite Va, V'a by assumption. reflexivity.
Qed.

(** That the matrices are so related holds for the kernel matrices of a symmetric kernel on a sample and on the
    same points in another order. *)
Lemma pf_C118_kernel :
  forall (kv : list xr -> list xr -> xr) n d x x' ix A, order_of n ix -> (forall u v, kv u v = kv v u) ->
    (forall i, (i < n)%nat -> row_of d x' i = row_of d x (nth i ix 0%nat)) ->
    kernel_matrix kv n n d x None = rmat n n A ->
    kernel_matrix kv n n d x' None = rmat n n (shuffled ix A).
Proof.
  intros kv n d x x' ix A O Sy Hr E. unfold kernel_matrix, rmat in *.
  assert (G : forall z i j, entry kv d z None i j = kv (row_of d z i) (row_of d z j)).
  { intros z i j. cbn [entry]. destruct (i <=? j)%nat; [reflexivity|apply Sy]. }
  apply tabulate_ext. intros i j Hi Hj. rewrite G, !Hr by assumption. unfold shuffled.
  set (a := nth i ix 0%nat) in *. set (b := nth j ix 0%nat) in *.
  assert (Ha : (a < n)%nat) by (apply order_lt; assumption). assert (Hb : (b < n)%nat) by (apply order_lt; assumption).
  pose proof (f_equal (fun m => mget NaN m a b) E) as Q. cbn beta in Q. rewrite !mget_tabulate in Q by assumption.
  rewrite G in Q. exact Q.
Qed.

(** Centring and cosine normalisation of the matrix in another order give the result in that order. *)
Lemma pf_C118_operations :
  forall f n ix A, order_of n ix ->
    (f <> Lil -> exists B, center_km (mkArr f (rmat n n A)) = Ok (mkArr f (rmat n n B)) /\
       center_km (mkArr f (rmat n n (shuffled ix A))) = Ok (mkArr f (rmat n n (shuffled ix B)))) /\
    (forall meth, lower meth = "cosine"%string -> (forall i, (i < n)%nat -> tiny < A i i) ->
       exists g B, normalize_km meth (mkArr f (rmat n n A)) = Ok (mkArr g (rmat n n B)) /\
       normalize_km meth (mkArr f (rmat n n (shuffled ix A))) = Ok (mkArr g (rmat n n (shuffled ix B)))) /\
    (forall meth, normalize_km meth (mkArr f (rmat n n A)) = Raise KMNormError <->
       normalize_km meth (mkArr f (rmat n n (shuffled ix A))) = Raise KMNormError).
Proof.
  intros f n ix A O. split; [|split].
  - intros Hf. exists (centred n A). split; [exact (pf_C18_entries f n A Hf)|].
    rewrite (pf_C18_entries f n _ Hf). do 2 f_equal. apply tabulate_ext. intros i j _ _. f_equal. exact (centred_order n ix O A i j).
  - intros meth Hm Hd. eexists. eexists. split; [exact (pf_C19_entries meth f n A Hm Hd)|].
    exact (pf_C19_entries meth f n (shuffled ix A) Hm (fun i Hi => Hd _ (order_lt n ix i O Hi))).
  - intros meth. rewrite !pf_C20_norm_error_iff by reflexivity.
    split; intros (Hm & i & r & Hi & E & Hr); change (i < n)%nat in Hi; cbn [amat] in E; unfold rmat in E; (split; [exact Hm|]).
    + destruct (In_nth ix i 0%nat) as (a & Ha & Ea).
      { apply (Permutation_in _ (Permutation_sym O)), in_seq. lia. }
      rewrite (order_length n ix O) in Ha. exists a, r. split; [exact Ha|]. split; [|exact Hr].
      cbn [amat]. unfold rmat, xget in *. rewrite mget_tabulate in E |- * by assumption. unfold shuffled. rewrite Ea. exact E.
    + exists (nth i ix 0%nat), r. split; [exact (order_lt n ix i O Hi)|]. split; [|exact Hr].
      cbn [amat]. unfold rmat, xget in *. rewrite mget_tabulate in E by assumption. rewrite mget_tabulate by (apply order_lt; assumption). exact E.
Qed.

(** For a kernel that is not symmetric this is false. *)
Lemma pf_C118_asymmetric_refuted :
  exists (kv : list xr -> list xr -> xr) n d x x' ix A, order_of n ix /\
    (forall i, (i < n)%nat -> row_of d x' i = row_of d x (nth i ix 0%nat)) /\
    kernel_matrix kv n n d x None = rmat n n A /\
    kernel_matrix kv n n d x' None <> rmat n n (shuffled ix A).
Proof.
  exists (fun u _ => hd NaN u), 2%nat, 1%nat, (mkNd [2; 1]%nat [Fin 1; Fin 2]), (mkNd [2; 1]%nat [Fin 2; Fin 1]), [1; 0]%nat,
    (fun i j => match i, j with 1%nat, 1%nat => 2 | _, _ => 1 end).
  split; [apply perm_swap|]. split; [|split].
  - intros [|[|i]] Hi; [reflexivity..|lia].
  - reflexivity.
  - intros E. apply (f_equal (fun m => mget NaN m 0%nat 1%nat)) in E. cbn in E. injection E. lra.
Qed.

(*BEGIN PROP*)
(** A case: the objects of [w_order] (Prop_Order.v) attached to [[2], [1]] instead of [[1], [2]]. *)
Definition w_back : world xr xr unit :=
  wrun xN xC numx
    [WNewKM lin false; WNewKM three false; WObj 0 (OpAttach (mkNd [2; 1]%nat [Fin 2; Fin 1]) None);
     WObj 1 (OpAttach (mkNd [2; 1]%nat [Fin 2; Fin 1]) None); WSetNew (KLIter [ARef 0; ARef 1]) None] w_empty.

Example C118_example :
  order_of 2 [1; 0]%nat /\ set_is w_order 0 (NSOne 2) [0; 1]%nat /\ set_is w_back 0 (NSOne 2) [0; 1]%nat /\
  exists K K' Q Q', fulls w_order [0; 1]%nat [K; K'] /\ fulls w_back [0; 1]%nat [Q; Q'] /\
    numbers_of K 0%nat 0%nat <> numbers_of Q 0%nat 0%nat /\
    let As := [numbers_of K; numbers_of K'] in
    finite_matrices 2 [K; K'] As /\ finite_matrices 2 [Q; Q'] (map (shuffled [1; 0]%nat) As) /\
    metric_defined "corr" 2 [K; K'] As /\ metric_defined "corr" 2 [Q; Q'] (map (shuffled [1; 0]%nat) As).
Proof.
  split; [apply perm_swap|]. split; [eexists; eexists; calc; reflexivity|]. split; [eexists; eexists; calc; reflexivity|].
  eexists. eexists. eexists. eexists. split; [|split; [|split]].
  - constructor; [calc; reflexivity|]. constructor; [calc; reflexivity|]. constructor.
  - constructor; [calc; reflexivity|]. constructor; [calc; reflexivity|]. constructor.
  - unfold numbers_of. calc. lra.
  - cbv zeta. split; [|split; [|split]].
    + constructor; [split; [discriminate|reflexivity]|]. constructor; [split; [discriminate|reflexivity]|constructor].
    + constructor; [split; [discriminate|]|]; [unfold numbers_of, shuffled; calc; repeat (match goal with |- Fin _ = Fin _ => apply f_equal; lra | |- _ => reflexivity | |- _ => f_equal end)|].
      constructor; [split; [discriminate|reflexivity]|constructor].
    + right. split; [reflexivity|]. split; [lia|]. constructor; [reflexivity|]. constructor; [reflexivity|constructor].
    + right. split; [reflexivity|]. split; [lia|]. constructor; [unfold numbers_of, shuffled; calc; repeat (match goal with |- Fin _ = Fin _ => apply f_equal; lra | |- _ => reflexivity | |- _ => f_equal end)|].
      constructor; [reflexivity|constructor].
Qed.
(*END PROP*)
