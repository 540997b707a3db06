(** What the scores of alignment rankings do not depend on (C116). *)
From Coq Require Import String Reals List Arith ZArith Bool Permutation Lia Lra.
Import ListNotations.
From Verif Require Import Prelude MatModel UtilsModel IndexModel KMModel SpecKM XReal OpsModel SpecLinAlg
  KernelsModel SpecKernels KMXModel SpecKMX SetModel SpecSet BucketModel SpecBucket CompositeModel SpecComposite RankModel SpecRank.
From Verif Require Import MatFacts RSum OpsFacts KMXProps ContProps CompositeProps RankProps.
Local Open Scope list_scope.
Local Open Scope R_scope.

(*BEGIN PROP*)
(** The targets [y] in another unit and from another origin. *)
Definition recode (a s : R) (y : list R) : list R := map (fun v => a + s * v) y.
(** [y] gives [p] to the points of one class and [q] to the others; there are points of both classes. *)
Definition two_classes (c : list bool) (p q : R) (y : list R) : Prop :=
  In true c /\ In false c /\ y = map (fun b : bool => if b then p else q) c.
(** The centred norm of the target matrix, that alignment_centered compares with 1e-8. *)
Definition target_norm (y : list R) : R := fnorm (length y) (length y) (centred (length y) (target_matrix y)).
(*END PROP*)

Definition mean (n : nat) (g : nat -> R) : R := rsum n g / INR n.

Lemma centred_outer : forall n g i j, (i < n)%nat -> (j < n)%nat ->
  centred n (fun i j => g i * g j) i j = (g i - mean n g) * (g j - mean n g).
Proof.
  intros n g i j Hi Hj. assert (N : INR n <> 0) by (apply not_0_INR; lia).
  unfold centred, rowmean, colmean, allmean, mean.
  rewrite (rsum_scal n (g i) g). rewrite (rsum_scal_r n (g j) g).
  rewrite <- (rsum_mult n n g g). field. exact N.
Qed.

Lemma rsum_sq_terms : forall n v, fprod n n (fun i j => v i * v j) (fun i j => v i * v j) = rsum n (fun i => v i * v i) * rsum n (fun i => v i * v i).
Proof.
  intros n v. unfold fprod. rewrite rsum_mult. apply rsum_ext. intros i _. apply rsum_ext. intros j _. ring.
Qed.

Lemma fprod_ext : forall n A B A' B', (forall i j, (i < n)%nat -> (j < n)%nat -> A i j = A' i j) ->
  (forall i j, (i < n)%nat -> (j < n)%nat -> B i j = B' i j) -> fprod n n A B = fprod n n A' B'.
Proof.
  intros n A B A' B' H1 H2. unfold fprod. apply rsum_ext. intros i Hi. apply rsum_ext. intros j Hj. rewrite H1, H2 by assumption. reflexivity.
Qed.

(** The deviations of the targets from their mean. *)
Definition dev (y : list R) (i : nat) : R := nth i y 0 - mean (length y) (fun i => nth i y 0).

Lemma centred_target : forall y i j, (i < length y)%nat -> (j < length y)%nat ->
  centred (length y) (target_matrix y) i j = dev y i * dev y j.
Proof. intros y i j Hi Hj. exact (centred_outer (length y) (fun i => nth i y 0) i j Hi Hj). Qed.

Lemma target_norm_dev : forall y, target_norm y = rsum (length y) (fun i => dev y i * dev y i).
Proof.
  intros y. unfold target_norm, fnorm.
  rewrite (fprod_ext _ _ _ (fun i j => dev y i * dev y j) (fun i j => dev y i * dev y j)) by (intros; apply centred_target; assumption).
  rewrite rsum_sq_terms. apply sqrt_square. apply rsum_sqr_nonneg.
Qed.

Lemma dev_recode : forall a s y i, (i < length y)%nat -> dev (recode a s y) i = s * dev y i.
Proof.
  intros a s y i Hi. assert (N : INR (length y) <> 0) by (apply not_0_INR; lia). unfold dev, mean.
  assert (E : forall k, (k < length y)%nat -> nth k (recode a s y) 0 = a + s * nth k y 0).
  { intros k Hk. unfold recode. rewrite (nth_indep _ 0 (a + s * 0)) by (rewrite map_length; exact Hk).
    exact (map_nth (fun v => a + s * v) y 0 k). }
  assert (Lr : length (recode a s y) = length y) by (unfold recode; apply map_length). rewrite Lr, (E i Hi).
  rewrite (rsum_ext (length y) (fun k => nth k (recode a s y) 0) (fun k => a + s * nth k y 0)) by exact E.
  rewrite rsum_plus, rsum_const, rsum_scal. field. exact N.
Qed.

Lemma recode_length : forall a s y, length (recode a s y) = length y.
Proof. intros. unfold recode. apply map_length. Qed.

(** Recoding multiplies the centred norm of the target matrix by the square of the unit. *)
Lemma pf_C116_norm : forall a s y, target_norm (recode a s y) = s * s * target_norm y.
Proof.
  intros a s y. rewrite !target_norm_dev, recode_length, <- rsum_scal. apply rsum_ext.
  intros i Hi. rewrite dev_recode by exact Hi. ring.
Qed.

Lemma score_recode : forall z a s y A,
  (target_norm y <= tiny <-> s * s * target_norm y <= tiny) ->
  align_score z (length y) (recode a s y) A = align_score z (length y) y A.
Proof.
  intros z a s y A H. unfold align_score.
  pose proof (pf_C116_norm a s y) as E. unfold target_norm in E, H. rewrite recode_length in E. rewrite E.
  set (b := fnorm _ _ (centred _ (target_matrix y))) in *. set (f := fnorm _ _ (centred _ A)) in *.
  destruct (Rle_dec f tiny) as [|F]; [reflexivity|].
  destruct (Rle_dec (s * s * b) tiny) as [L|L], (Rle_dec b tiny) as [B|B]; try reflexivity; try tauto.
  assert (P : fprod (length y) (length y) (centred (length y) A) (centred (length y) (target_matrix (recode a s y)))
            = s * s * fprod (length y) (length y) (centred (length y) A) (centred (length y) (target_matrix y))).
  { unfold fprod. rewrite <- rsum_scal. apply rsum_ext. intros i Hi. rewrite <- rsum_scal. apply rsum_ext. intros j Hj.
    rewrite <- (recode_length a s y) at 2. rewrite !centred_target by (rewrite ?recode_length; assumption).
    rewrite !dev_recode by assumption. ring. }
  rewrite P. f_equal. f_equal. assert (0 < tiny) by (unfold tiny; lra).
  assert (s <> 0) by (intros ->; apply L; lra). field. repeat split; lra.
Qed.

(** Targets in another unit and from another origin give every member the same score, whatever was asked for in case
    of a vanishing norm, if the centred norms of both target matrices are above 1e-8, or neither is. *)
Lemma pf_C116_targets :
  forall {U T} (numbers : T -> res (list xr)) best_score (w : world xr xr U) k num ms Ks (t t' : T) p m y a s As,
    set_is w k num ms -> fulls w ms Ks -> lower m = "align/corr"%string ->
    align_params p -> rp_centered p <> Some true ->
    numbers t = Ok (map Fin y) -> numbers t' = Ok (map Fin (recode a s y)) -> finite_matrices (length y) Ks As ->
    (target_norm y <= tiny <-> target_norm (recode a s y) <= tiny) ->
    snd (rank_kernels numbers best_score k t' m p w) = snd (rank_kernels numbers best_score k t m p w).
Proof.
  intros U T numbers bs w k num ms Ks t t' p m y a s As H1 H2 H3 H4 H5 Ht Ht' Hf Hn.
  rewrite (pf_C54_value numbers bs w k num ms Ks t p m (length y) y As H1 H2 H3 H4 H5 Ht eq_refl Hf).
  rewrite (pf_C54_value numbers bs w k num ms Ks t' p m (length y) (recode a s y) As H1 H2 H3 H4 H5 Ht' (recode_length a s y) Hf).
  rewrite pf_C116_norm in Hn. clear Hf. induction As as [|A As IH]; [reflexivity|]. cbn [rmap].
  rewrite (score_recode _ a s y A Hn), IH. reflexivity.
Qed.

(** In particular for a change of sign and any shift, without condition. *)
Lemma pf_C116_sign :
  forall {U T} (numbers : T -> res (list xr)) best_score (w : world xr xr U) k num ms Ks (t t' : T) p m y a s As,
    set_is w k num ms -> fulls w ms Ks -> lower m = "align/corr"%string ->
    align_params p -> rp_centered p <> Some true ->
    numbers t = Ok (map Fin y) -> numbers t' = Ok (map Fin (recode a s y)) -> finite_matrices (length y) Ks As ->
    s = 1 \/ s = -1 ->
    snd (rank_kernels numbers best_score k t' m p w) = snd (rank_kernels numbers best_score k t m p w).
Proof.
  intros U T numbers bs w k num ms Ks t t' p m y a s As H1 H2 H3 H4 H5 Ht Ht' Hf Hs.
  apply (pf_C116_targets numbers bs w k num ms Ks t t' p m y a s As); try assumption.
  rewrite pf_C116_norm. replace (s * s) with 1 by (destruct Hs; subst s; lra). rewrite Rmult_1_l. reflexivity.
Qed.

Lemma two_classes_norm : forall c p q y, two_classes c p q y -> 1 <= Rabs (p - q) -> tiny < target_norm y.
Proof.
  intros c p q y (Ht & Hf & ->) Hd. rewrite target_norm_dev.
  set (y := map _ c). assert (L : length y = length c) by apply map_length.
  destruct (In_nth c true false Ht) as (i & Hi & Ei). destruct (In_nth c false true Hf) as (j & Hj & Ej).
  assert (Yi : nth i y 0 = p).
  { unfold y. rewrite (nth_indep _ 0 (if false then p else q)) by (rewrite map_length; exact Hi).
    rewrite (map_nth (fun b : bool => if b then p else q) c false i), Ei. reflexivity. }
  assert (Yj : nth j y 0 = q).
  { unfold y. rewrite (nth_indep _ 0 (if true then p else q)) by (rewrite map_length; exact Hj).
    rewrite (map_nth (fun b : bool => if b then p else q) c true j), Ej. reflexivity. }
  assert (T : forall k, (k < length y)%nat -> dev y k * dev y k <= rsum (length y) (fun i => dev y i * dev y i)).
  { intros k Hk. apply (rsum_term_le (length y) (fun i => dev y i * dev y i) k Hk). intros. apply Rle_0_sqr. }
  pose proof (T i ltac:(lia)) as Ti. pose proof (T j ltac:(lia)) as Tj. unfold tiny.
  assert (D : dev y i - dev y j = p - q) by (unfold dev; rewrite Yi, Yj; ring).
  assert (S : 1 <= (p - q) * (p - q)).
  { rewrite <- (Rabs_right ((p - q) * (p - q))) by (apply Rle_ge, Rle_0_sqr). rewrite Rabs_mult. nra. }
  rewrite <- D in S. set (X := rsum _ _) in *. nra.
Qed.

(** The numbers by which two classes are coded do not matter, if they are at least 1 apart: 0 and 1, -1 and 1 and 1 and
    2 give the same scores, and so do the codes exchanged. *)
Lemma pf_C116_classes :
  forall {U T} (numbers : T -> res (list xr)) best_score (w : world xr xr U) k num ms Ks (t t' : T) p m c u v u' v' y y' As,
    set_is w k num ms -> fulls w ms Ks -> lower m = "align/corr"%string ->
    align_params p -> rp_centered p <> Some true ->
    two_classes c u v y -> two_classes c u' v' y' -> 1 <= Rabs (u - v) -> 1 <= Rabs (u' - v') ->
    numbers t = Ok (map Fin y) -> numbers t' = Ok (map Fin y') -> finite_matrices (length c) Ks As ->
    snd (rank_kernels numbers best_score k t' m p w) = snd (rank_kernels numbers best_score k t m p w).
Proof.
  intros U T numbers bs w k num ms Ks t t' p m c u v u' v' y y' As H1 H2 H3 H4 H5 C1 C2 D1 D2 Ht Ht' Hf.
  pose proof (two_classes_norm c u v y C1 D1) as N1. pose proof (two_classes_norm c u' v' y' C2 D2) as N2.
  assert (Duv : u - v <> 0) by (intros E; rewrite E, Rabs_R0 in D1; lra).
  assert (E : y' = recode (v' - (u' - v') / (u - v) * v) ((u' - v') / (u - v)) y).
  { destruct C1 as (_ & _ & ->), C2 as (_ & _ & ->). unfold recode. rewrite map_map. apply map_ext.
    intros []; field; exact Duv. }
  assert (L : length y = length c) by (destruct C1 as (_ & _ & ->); apply map_length).
  rewrite E in Ht', N2. rewrite <- L in Hf.
  apply (pf_C116_targets numbers bs w k num ms Ks t t' p m y _ _ As H1 H2 H3 H4 H5 Ht Ht' Hf). split; intros; lra.
Qed.

Lemma value_recode : forall a s y A, (target_norm y <= tiny <-> target_norm (recode a s y) <= tiny) ->
  align_value (length y) (recode a s y) A = align_value (length y) y A.
Proof.
  intros a s y A H. rewrite pf_C116_norm in H. pose proof (score_recode (ZValue (Fin 0)) a s y A H) as E.
  unfold align_score in E. unfold align_value, aligned.
  destruct (Rle_dec _ _); [reflexivity|].
  destruct (Rle_dec _ _), (Rle_dec _ _); try reflexivity; injection E as E; first [exact E|lra].
Qed.

(** find_optimal_kernel chooses the same kernel for the targets and for the recoded ones. *)
Lemma pf_C116_optimal :
  forall {U T} (numbers : T -> res (list xr)) best_score numeric (w : world xr xr U) b num ms x n d (t t' : T) m cs Ks As y a s,
    set_is w (b_set b) num ms -> is_sample x n d -> numeric (nd_data x) = true ->
    num = NSNone \/ num = NSOne n -> ms <> [] ->
    Forall2 (candidate w n d x) ms cs ->
    Forall2 (fun c K => gram (snd c) (fst c) n d x = Ok K) cs Ks -> finite_matrices n Ks As ->
    lower m = "align/corr"%string -> numbers t = Ok (map Fin y) -> numbers t' = Ok (map Fin (recode a s y)) ->
    length y = n -> (target_norm y <= tiny <-> target_norm (recode a s y) <= tiny) ->
    snd (find_optimal_kernel numbers best_score numeric (Some b) x t' m no_params w)
    = snd (find_optimal_kernel numbers best_score numeric (Some b) x t m no_params w).
Proof.
  intros U T numbers bs numeric w b num ms x n d t t' m cs Ks As y a s H1 H2 H3 H4 H5 H6 H7 H8 H9 Ht Ht' Hl Hn.
  destruct (pf_C53_align_partial numbers bs numeric w b num ms x n d t m cs Ks As y H1 H2 H3 H4 H5 H6 H7 H8 H9 Ht Hl)
    as (i & l & Ni & F & _ & Mx & Fi).
  destruct (pf_C53_align_partial numbers bs numeric w b num ms x n d t' m cs Ks As (recode a s y) H1 H2 H3 H4 H5 H6 H7 H8 H9 Ht'
    (eq_trans (recode_length a s y) Hl)) as (i' & l' & Ni' & F' & _ & Mx' & Fi').
  assert (LA : length As = length ms).
  { assert (L1 : forall A B (R : A -> B -> Prop) p q, Forall2 R p q -> length p = length q) by (intros A B R p q HR; induction HR; cbn; congruence).
    rewrite (L1 _ _ _ _ _ H6), (L1 _ _ _ _ _ H7). symmetry. exact (L1 _ _ _ _ _ H8). }
  assert (Bi : (i < length As)%nat) by (rewrite LA; apply nth_error_Some; congruence).
  assert (Bi' : (i' < length As)%nat) by (rewrite LA; apply nth_error_Some; congruence).
  assert (V : forall A, align_value n (recode a s y) A = align_value n y A) by (intros A; rewrite <- Hl; apply value_recode, Hn).
  assert (E : i = i').
  { destruct (lt_eq_lt_dec i i') as [[L|L]|L]; [|exact L|].
    - specialize (Fi' i L). rewrite !V in Fi'. specialize (Mx i' Bi'). lra.
    - specialize (Fi i' L). specialize (Mx' i Bi). rewrite !V in Mx'. lra. }
  subst i'. rewrite F, F'. congruence.
Qed.

Lemma perm_related : forall {A B} (R : A -> B -> Prop) l l', Permutation l l' -> forall m, Forall2 R l m ->
  exists m', Forall2 R l' m' /\ Permutation (combine l m) (combine l' m').
Proof.
  intros A B R l l' P. induction P as [|x l l' P IH|x y l|l1 l2 l3 P1 IH1 P2 IH2]; intros m H.
  - inversion H; subst. exists []. split; [constructor|reflexivity].
  - inversion H as [|? u ? m0 Hx Hm]; subst. destruct (IH m0 Hm) as (m' & H1 & H2). exists (u :: m').
    split; [constructor; assumption|]. cbn. apply perm_skip, H2.
  - inversion H as [|? u ? m0 Hx Hm]; subst. inversion Hm as [|? v ? m1 Hy Hm1]; subst. exists (v :: u :: m1).
    split; [repeat constructor; assumption|]. cbn. apply perm_swap.
  - destruct (IH1 m H) as (m' & H1 & H2). destruct (IH2 m' H1) as (m2 & H3 & H4). exists m2. split; [exact H3|].
    exact (perm_trans H2 H4).
Qed.

Lemma combine_map_r : forall {A B D} (f : B -> D) (l : list A) m, combine l (map f m) = map (fun p => (fst p, f (snd p))) (combine l m).
Proof. intros A B D f l. induction l as [|x l IH]; intros [|y m]; cbn; try reflexivity. rewrite IH. reflexivity. Qed.

(** Every member has the same score in whatever order the members are in the set. *)
Lemma pf_C116_order :
  forall {U T} (numbers : T -> res (list xr)) best_score (w : world xr xr U) k num ms k' num' ms' Ks (t : T) m n y As,
    set_is w k num ms -> set_is w k' num' ms' -> Permutation ms ms' -> fulls w ms Ks ->
    lower m = "align/corr"%string -> numbers t = Ok (map Fin y) -> length y = n -> finite_matrices n Ks As ->
    exists ss ss', snd (rank_kernels numbers best_score k t m no_params w) = Ok ss /\
      snd (rank_kernels numbers best_score k' t m no_params w) = Ok ss' /\
      Permutation (combine ms ss) (combine ms' ss').
Proof.
  intros U T numbers bs w k num ms k' num' ms' Ks t m n y As H1 H1' P H2 H3 Ht Hl Hf.
  assert (J : Forall2 (fun l A => exists K, snd (obj_full xN l w) = Ok K /\ afmt K <> Lil /\ amat K = rmat n n A) ms As).
  { clear P H1. revert As Hf. unfold fulls in H2. induction H2 as [|l K ms Ks HK F IH]; intros As Hf; inversion Hf as [|? A ? As0 HA HAs]; subst; constructor.
    - exists K. split; [exact HK|exact HA].
    - apply IH; assumption. }
  destruct (perm_related _ ms ms' P As J) as (As' & J' & PA).
  assert (X : exists Ks', fulls w ms' Ks' /\ finite_matrices n Ks' As').
  { clear - J'. induction J' as [|l A ms As (K & HK & HA) F (Ks' & I1 & I2)]; [exists []; split; constructor|].
    exists (K :: Ks'). split; constructor; assumption. }
  destruct X as (Ks' & F' & Hf').
  exists (map (fun A => Fin (align_value n y A)) As), (map (fun A => Fin (align_value n y A)) As').
  split; [exact (proj1 (pf_C54_partial numbers bs w k num ms Ks t m n y As H1 H2 H3 Ht Hl Hf))|].
  split; [exact (proj1 (pf_C54_partial numbers bs w k' num' ms' Ks' t m n y As' H1' F' H3 Ht Hl Hf'))|].
  rewrite !combine_map_r. apply Permutation_map, PA.
Qed.

(** The unit does matter if it is small: any targets can be divided by a number such that all scores are 0. *)
Lemma pf_C116_refuted :
  forall {U T} (numbers : T -> res (list xr)) best_score (w : world xr xr U) k num ms Ks m y As,
    set_is w k num ms -> fulls w ms Ks -> lower m = "align/corr"%string -> finite_matrices (length y) Ks As ->
    exists s, 0 < s /\ forall t', numbers t' = Ok (map Fin (recode 0 s y)) ->
      snd (rank_kernels numbers best_score k t' m no_params w) = Ok (map (fun _ => Fin 0) As).
Proof.
  intros U T numbers bs w k num ms Ks m y As H1 H2 H3 Hf.
  assert (N : 0 <= target_norm y) by (rewrite target_norm_dev; apply rsum_sqr_nonneg).
  assert (T0 : 0 < tiny) by (unfold tiny; lra).
  assert (Q : 0 < tiny / (1 + target_norm y)) by (apply Rdiv_lt_0_compat; lra).
  exists (sqrt (tiny / (1 + target_norm y))). split; [apply sqrt_lt_R0, Q|]. intros t' Ht'.
  destruct (pf_C54_partial numbers bs w k num ms Ks t' m (length y) _ As H1 H2 H3 Ht' (recode_length _ _ _) Hf) as [E Z].
  rewrite E. f_equal. apply map_ext. intros A. f_equal. apply (proj2 (Z A)). right.
  set (s := sqrt _) in *. pose proof (pf_C116_norm 0 s y) as B. unfold target_norm at 1 in B. rewrite recode_length in B. rewrite B.
  unfold s. rewrite sqrt_sqrt by lra. apply Rmult_le_reg_r with (1 + target_norm y); [lra|].
  replace (tiny / (1 + target_norm y) * target_norm y * (1 + target_norm y)) with (tiny * target_norm y) by (field; lra). nra.
Qed.

(*BEGIN PROP*)
Definition real_entry (a : xr) : R := match a with Fin r => r | _ => 0 end.
(** A case: the set of two linear kernel matrices on [[1], [2]] of C36_example; the targets 1, -1 and their codes 0, 1. *)
Example C116_example :
  set_is w_lin 0 (NSOne 2) [0; 1]%nat /\ two_classes [true; false] 1 (-1) [1; -1] /\ two_classes [true; false] 0 1 [0; 1] /\
  exists Ks As, fulls w_lin [0; 1]%nat Ks /\ finite_matrices 2 Ks As.
Proof.
  split; [eexists; eexists; calc; reflexivity|].
  split; [split; [left; reflexivity|split; [right; left; reflexivity|reflexivity]]|].
  split; [split; [left; reflexivity|split; [right; left; reflexivity|reflexivity]]|].
  eexists [_; _]. eexists. split.
  - constructor; [calc; reflexivity|]. constructor; [calc; reflexivity|]. constructor.
  - repeat (apply Forall2_cons; [split; [discriminate|]|]); [| |apply Forall2_nil].
    + instantiate (1 := fun i j => real_entry (xget (kernel_matrix xdot 2 2 1 x12 None) i j)). calc. reflexivity.
    + instantiate (1 := fun i j => real_entry (xget (kernel_matrix xdot 2 2 1 x12 None) i j)). calc. reflexivity.
Qed.
(*END PROP*)
