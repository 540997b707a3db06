(** Kernel matrices of samples drawn from other samples (C94), in exact arithmetic: normalisation, centring,
    norms, alignments and rankings. *)
From Coq Require Import String List Arith ZArith Bool Reals Lra Lia Permutation.
Import ListNotations.
From Verif Require Import Prelude MatModel MatFacts XReal SpecLinAlg RSum KernelsModel KernelFacts KMXModel OpsModel OpsFacts OpsProps IndexModel
  KMModel SpecKM SpecSample SampleProps KMProps KMXProps SetModel SpecSet SpecComposite RankModel SpecRank RankProps.
Local Open Scope R_scope.

Lemma xdot_comm : forall u v, xdot u v = xdot v u.
Proof. intros u v. unfold xdot. now rewrite (zip_sym xmul u v xmul_comm). Qed.

Lemma rsum_list : forall n F, rsum n F = fold_right Rplus 0 (map F (seq 0 n)).
Proof.
  intros n F. induction n as [|n IH]; [reflexivity|].
  rewrite seq_S, map_app, fold_right_app. cbn [rsum map fold_right plus]. rewrite IH. clear IH.
  generalize (map F (seq 0 n)). intros l. induction l as [|a l IHl]; cbn [fold_right]; [ring|].
  rewrite <- IHl. ring.
Qed.
Lemma fold_right_perm : forall l l', Permutation l l' -> fold_right Rplus 0 l = fold_right Rplus 0 l'.
Proof. intros l l' H. induction H; cbn [fold_right]; try lra. Qed.
Lemma permutes_seq : forall n f, permutes n f -> Permutation (map f (seq 0 n)) (seq 0 n).
Proof.
  intros n f [Hlt Hinj]. apply NoDup_Permutation_bis.
  - assert (H : forall l, NoDup l -> (forall i, In i l -> (i < n)%nat) -> NoDup (map f l)).
    { intros l. induction l as [|a l IH]; intros Hnd Hl; [constructor|].
      inversion Hnd as [|? ? Ha Hnd']; subst. cbn [map]. constructor.
      - intros Hin. apply in_map_iff in Hin. destruct Hin as (b & Hb & Hbl). apply Ha.
        replace a with b; [exact Hbl|]. apply Hinj; [apply Hl; right; exact Hbl|apply Hl; left; reflexivity|exact Hb].
      - apply IH; [exact Hnd'|]. intros i Hi. apply Hl. right. exact Hi. }
    apply H; [apply seq_NoDup|]. intros i Hi. apply in_seq in Hi. lia.
  - rewrite map_length. lia.
  - intros i Hi. apply in_map_iff in Hi. destruct Hi as (j & <- & Hj). apply in_seq in Hj. apply in_seq.
    specialize (Hlt j). lia.
Qed.
Lemma rsum_permutes : forall n f F, permutes n f -> rsum n (fun i => F (f i)) = rsum n F.
Proof.
  intros n f F Hp. rewrite !rsum_list, <- map_map. apply fold_right_perm. apply Permutation_map.
  apply permutes_seq. exact Hp.
Qed.
Lemma rsum2_permutes : forall n m f g (F : nat -> nat -> R), permutes n f -> permutes m g ->
  rsum n (fun i => rsum m (fun j => F (f i) (g j))) = rsum n (fun i => rsum m (fun j => F i j)).
Proof.
  intros n m f g F Hf Hg. rewrite <- (rsum_permutes n f (fun i => rsum m (fun j => F i j)) Hf).
  apply rsum_ext. intros i _. exact (rsum_permutes m g (F (f i)) Hg).
Qed.
Lemma centred_permutes : forall n f A i j, permutes n f ->
  centred n (fun i j => A (f i) (f j)) i j = centred n A (f i) (f j).
Proof.
  intros n f A i j Hf. unfold centred, rowmean, colmean, allmean.
  rewrite (rsum_permutes n f (fun k => A (f i) k) Hf), (rsum_permutes n f (fun k => A k (f j)) Hf).
  rewrite (rsum2_permutes n n f f A Hf Hf). reflexivity.
Qed.
Lemma fprod_permutes : forall n f A B, permutes n f ->
  fprod n n (fun i j => A (f i) (f j)) (fun i j => B (f i) (f j)) = fprod n n A B.
Proof. intros n f A B Hf. unfold fprod. exact (rsum2_permutes n n f f (fun i j => A i j * B i j) Hf Hf). Qed.
Lemma fprod_ext : forall n m A B A' B',
  (forall i j, (i < n)%nat -> (j < m)%nat -> A i j = A' i j) ->
  (forall i j, (i < n)%nat -> (j < m)%nat -> B i j = B' i j) -> fprod n m A B = fprod n m A' B'.
Proof.
  intros n m A B A' B' HA HB. unfold fprod. apply rsum_ext. intros i Hi. apply rsum_ext. intros j Hj.
  rewrite HA, HB by assumption. reflexivity.
Qed.
Lemma fprod_centred_permutes : forall n f A B, permutes n f ->
  fprod n n (centred n (fun i j => A (f i) (f j))) (centred n (fun i j => B (f i) (f j)))
  = fprod n n (centred n A) (centred n B).
Proof.
  intros n f A B Hf. rewrite <- (fprod_permutes n f (centred n A) (centred n B) Hf).
  apply fprod_ext; intros i j _ _; apply centred_permutes; exact Hf.
Qed.
Lemma fnorm_centred_permutes : forall n f A, permutes n f ->
  fnorm n n (centred n (fun i j => A (f i) (f j))) = fnorm n n (centred n A).
Proof. intros n f A Hf. unfold fnorm. rewrite fprod_centred_permutes by exact Hf. reflexivity. Qed.

Lemma is_row_columns : forall {E} (x : ndarray E) y n m d u, is_row x y n m d u <->
  (exists i, (i < n)%nat /\ u = row_of d x i) \/ (exists j, (j < m)%nat /\ u = row_of d (columns x y) j).
Proof.
  intros. split.
  - intros [i [H|H]]; [left|right]; exists i; exact H.
  - intros [[i H]|[i H]]; exists i; [left|right]; exact H.
Qed.

(** The entries of the normalised matrix of one or two samples. *)
Lemma normalized_value :
  forall {E U} (K : kernel E xr) (r : list E -> list E -> R) (pre post : list (op E U)) x y n m d,
    never_raises K (fun u v => Fin (r u v)) x y n m d -> kfmt K = true -> admissible x y n m d -> no_attach post ->
    (symmetric_on r x y n m d \/ y <> None) ->
    (forall u, is_row x y n m d u -> 1/100000000 < r u u) ->
    exists g, (forall i j, g i j = r (row_of d x i) (row_of d (columns x y) j)
                 / sqrt (r (row_of d x i) (row_of d x i) * r (row_of d (columns x y) j) (row_of d (columns x y) j))) /\
    outcome xN OpFull (after xN K true pre x y post) = Ok (OArr (mkArr Dense (rmat n m g))).
Proof.
  intros E U K r pre post x y n m d Hnr Hfmt Hadm Hno Hs Hpos.
  eexists. split; [intros i j; reflexivity|].
  destruct y as [y|].
  - rewrite (pf_C03_two_samples_partial K (fun u v => Fin (r u v)) pre post x y n m d OpFull Hnr Hfmt Hadm Hno).
    + change (kernel_matrix (fun u v => Fin (r u v)) n m d x (Some y))
        with (rmat n m (fun i j => r (row_of d x i) (row_of d y j))).
      rewrite (pf_C21_entries "cosine" Dense n m _ (fun i => r (row_of d x i) (row_of d x i))
                 (fun j => r (row_of d y j) (row_of d y j))); [reflexivity|reflexivity|discriminate| |].
      * intros i Hi. apply Hpos. apply is_row_row. exact Hi.
      * intros j Hj. apply Hpos. exact (is_row_col x (Some y) n m d j Hj).
    + left. reflexivity.
    + intros i Hi. assert (H := Hpos _ (is_row_row x (Some y) n m d i Hi)). lra.
  - destruct Hadm as [Hx Hm]. subst m.
    rewrite (pf_C03_value K (fun u v => Fin (r u v)) pre post x n d OpFull
               (fun i j => r (row_of d x i) (row_of d x j)) Hnr Hfmt (conj Hx eq_refl) Hno).
    + reflexivity.
    + left. reflexivity.
    + apply tabulate_ext. intros i j Hi Hj. destruct Hs as [Hs|Hs]; [|congruence].
      cbn [entry]. destruct (i <=? j)%nat; [reflexivity|]. f_equal.
      apply Hs; apply is_row_row; assumption.
    + intros i Hi. apply Hpos. apply is_row_row. exact Hi.
Qed.

(** C94 with normalized=True: for finite kernel values and self-similarities above 1e-8, after every history. *)
Lemma pf_C94_normalized :
  forall {E U} (K : kernel E xr) (r : list E -> list E -> R) (pre post pre' post' : list (op E U))
         x y x' y' n m n' m' d f g,
    never_raises K (fun u v => Fin (r u v)) x y n m d -> kfmt K = true ->
    admissible x y n m d -> admissible x' y' n' m' d -> no_attach post -> no_attach post' ->
    drawn d n m n' m' f g x y x' y' ->
    (symmetric_on r x y n m d \/ (y <> None /\ y' <> None)) ->
    (forall u, is_row x y n m d u -> 1/100000000 < r u u) ->
    exists A, outcome xN OpFull (after xN K true pre x y post) = Ok (OArr (mkArr Dense (rmat n m A))) /\
      outcome xN OpFull (after xN K true pre' x' y' post')
      = Ok (OArr (mkArr Dense (rmat n' m' (fun i j => A (f i) (g j))))).
Proof.
  intros E U K r pre post pre' post' x y x' y' n m n' m' d f g Hnr Hfmt Ha Ha' Hno Hno' Hd Hs Hpos.
  destruct (normalized_value K r pre post x y n m d Hnr Hfmt Ha Hno) as (A & HA & H1);
    [destruct Hs as [Hs|[Hs _]]; auto|exact Hpos|].
  destruct (normalized_value K r pre' post' x' y' n' m' d
              (drawn_never_raises K _ d n m n' m' f g x y x' y' Hd Hnr) Hfmt Ha' Hno') as (A' & HA' & H2).
  - destruct Hs as [Hs|[_ Hs]]; [left; eapply drawn_symmetric; eauto|right; exact Hs].
  - intros u Hu. apply Hpos. eapply drawn_row; eauto.
  - exists A. split; [exact H1|]. rewrite H2. do 3 f_equal. apply tabulate_ext. intros i j Hi Hj. f_equal.
    rewrite HA', HA. destruct Hd as [Hf Hg]. destruct (Hf i Hi) as [_ ->]. destruct (Hg j Hj) as [_ ->]. reflexivity.
Qed.

Lemma kernel_matrix_drawn : forall {E} (k : list E -> list E -> xr) d n m n' m' f g x y x' y' A,
  drawn d n m n' m' f g x y x' y' -> (symmetric_on k x y n m d \/ (y <> None /\ y' <> None)) ->
  kernel_matrix k n m d x y = rmat n m A ->
  kernel_matrix k n' m' d x' y' = rmat n' m' (fun i j => A (f i) (g j)).
Proof.
  intros E k d n m n' m' f g x y x' y' A Hd Hs HA. apply tabulate_ext. intros i j Hi Hj.
  rewrite (entry_drawn k d n m n' m' f g x y x' y' i j Hd Hs Hi Hj).
  assert (Hfi := proj1 (proj1 Hd i Hi)). assert (Hgj := proj1 (proj2 Hd j Hj)).
  assert (H : mget NaN (kernel_matrix k n m d x y) (f i) (g j) = mget NaN (rmat n m A) (f i) (g j)) by (rewrite HA; reflexivity).
  unfold kernel_matrix, rmat in H. rewrite !mget_tabulate in H by assumption. exact H.
Qed.

(** C94: permuting the points permutes the centred matrix. *)
Lemma pf_C94_centered :
  forall {E U} (K : kernel E xr) k nrm nrm' (pre post pre' post' : list (op E U)) x x' n d f A,
    never_raises K k x None n n d -> kfmt K = true -> admissible x None n n d -> admissible x' None n n d ->
    no_attach post -> no_full_sparse post -> no_whole_index n n post ->
    no_attach post' -> no_full_sparse post' -> no_whole_index n n post' ->
    taken d n n f x x' -> permutes n f -> symmetric_on k x None n n d ->
    kernel_matrix k n n d x None = rmat n n A ->
    exists C, outcome xN OpCentered (after xN K nrm pre x None post) = Ok (OArr (mkArr Dense (rmat n n C))) /\
      outcome xN OpCentered (after xN K nrm' pre' x' None post')
      = Ok (OArr (mkArr Dense (rmat n n (fun i j => C (f i) (f j))))).
Proof.
  intros E U K k nrm nrm' pre post pre' post' x x' n d f A Hnr Hfmt Ha Ha' Hno Hns Hnw Hno' Hns' Hnw' Hf Hp Hs HA.
  assert (Hd : drawn d n n n n f f x None x' None) by (split; exact Hf).
  exists (centred n A). split.
  - rewrite (pf_C14_centered_partial xN K k nrm pre post x n d Hnr Hfmt Ha Hno Hns Hnw), HA.
    cbn [op_center xN]. rewrite pf_C18_entries by discriminate. reflexivity.
  - rewrite (pf_C14_centered_partial xN K k nrm' pre' post' x' n d
               (drawn_never_raises K _ d n n n n f f x None x' None Hd Hnr) Hfmt Ha' Hno' Hns' Hnw').
    rewrite (kernel_matrix_drawn k d n n n n f f x None x' None A Hd (or_introl Hs) HA).
    cbn [op_center xN]. rewrite pf_C18_entries by discriminate. cbn [res_map]. do 3 f_equal.
    apply tabulate_ext. intros i j _ _. f_equal. exact (centred_permutes n f A i j Hp).
Qed.

(** C94: permuting the points, of one sample or of either of two, does not change frob_norm. *)
Lemma pf_C94_frob_norm :
  forall {E U} (K : kernel E xr) k nrm nrm' (pre post pre' post' : list (op E U)) x y x' y' n m d f g A,
    never_raises K k x y n m d -> kfmt K = true -> admissible x y n m d -> admissible x' y' n m d ->
    no_attach post -> no_full_sparse post -> no_whole_index n m post ->
    no_attach post' -> no_full_sparse post' -> no_whole_index n m post' ->
    drawn d n m n m f g x y x' y' -> permutes n f -> permutes m g ->
    (symmetric_on k x y n m d \/ (y <> None /\ y' <> None)) ->
    kernel_matrix k n m d x y = rmat n m A ->
    exists v, outcome xN OpFrobNorm (after xN K nrm pre x y post) = Ok (OVal (Fin v)) /\
      outcome xN OpFrobNorm (after xN K nrm' pre' x' y' post') = Ok (OVal (Fin v)).
Proof.
  intros E U K k nrm nrm' pre post pre' post' x y x' y' n m d f g A Hnr Hfmt Ha Ha' Hno Hns Hnw Hno' Hns' Hnw' Hd Hf Hg Hs HA.
  eexists. split.
  - exact (pf_C61_value_partial K k nrm pre post x y n m d A Hnr Hfmt Ha Hno Hns Hnw HA).
  - rewrite (pf_C61_value_partial K k nrm' pre' post' x' y' n m d _
               (drawn_never_raises K _ d n m n m f g x y x' y' Hd Hnr) Hfmt Ha' Hno' Hns' Hnw'
               (kernel_matrix_drawn k d n m n m f g x y x' y' A Hd Hs HA)).
    do 4 f_equal. exact (rsum2_permutes n m f g (fun i j => A i j * A i j) Hf Hg).
Qed.

(** C94: reordering the points in both matrices does not change alignment_centered, in any of its outcomes. *)
Lemma pf_C94_alignment : forall fa fb n A B f z already, fa <> Lil -> fb <> Lil -> permutes n f ->
  alignment_centered (mkArr fa (rmat n n (fun i j => A (f i) (f j)))) (mkArr fb (rmat n n (fun i j => B (f i) (f j)))) z already
  = alignment_centered (mkArr fa (rmat n n A)) (mkArr fb (rmat n n B)) z already.
Proof.
  intros fa fb n A B f z already Hfa Hfb Hf. unfold alignment_centered, same_shape. cbn [amat].
  change (is_ndarray (mkArr fa (rmat n n (fun i j => A (f i) (f j))))) with (is_ndarray (mkArr fa (rmat n n A))).
  change (is_ndarray (mkArr fb (rmat n n (fun i j => B (f i) (f j))))) with (is_ndarray (mkArr fb (rmat n n B))).
  simpl mr. simpl mc. destruct (negb _); [reflexivity|]. destruct (_ || _); [reflexivity|].
  destruct already; cbn [rbind].
  - rewrite !norm_finite by assumption. cbn [rbind]. rewrite !frob_finite by assumption.
    unfold fnorm. rewrite !(fprod_permutes n f) by exact Hf. reflexivity.
  - rewrite !center_finite by assumption. cbn [rbind].
    rewrite !norm_finite by assumption. cbn [rbind]. rewrite !frob_finite by assumption.
    rewrite (fnorm_centred_permutes n f A Hf), (fnorm_centred_permutes n f B Hf).
    rewrite (fprod_centred_permutes n f A B Hf). reflexivity.
Qed.

(*BEGIN PROP*)
(** The targets [y'] and the matrices [As'] are [y] and [As] with the points in another order. *)
Definition reordered (n : nat) (f : nat -> nat) (y y' : list R) (As As' : list (nat -> nat -> R)) : Prop :=
  (forall i, (i < n)%nat -> nth i y' 0 = nth (f i) y 0) /\
  Forall2 (fun A A' => forall i j, (i < n)%nat -> (j < n)%nat -> A' i j = A (f i) (f j)) As As'.
(*END PROP*)

Lemma centred_ext : forall n A B, (forall i j, (i < n)%nat -> (j < n)%nat -> A i j = B i j) ->
  forall i j, (i < n)%nat -> (j < n)%nat -> centred n A i j = centred n B i j.
Proof.
  intros n A B H i j Hi Hj. unfold centred, rowmean, colmean, allmean. rewrite (H i j Hi Hj).
  rewrite (rsum_ext n (fun k => A i k) (fun k => B i k)) by (intros k Hk; apply H; assumption).
  rewrite (rsum_ext n (fun k => A k j) (fun k => B k j)) by (intros k Hk; apply H; assumption).
  rewrite (rsum_ext n (fun i => rsum n (fun j => A i j)) (fun i => rsum n (fun j => B i j)))
    by (intros p Hp; apply rsum_ext; intros q Hq; apply H; assumption).
  reflexivity.
Qed.
Lemma align_score_reordered : forall z n f y y' A A', permutes n f ->
  (forall i, (i < n)%nat -> nth i y' 0 = nth (f i) y 0) ->
  (forall i j, (i < n)%nat -> (j < n)%nat -> A' i j = A (f i) (f j)) ->
  align_score z n y' A' = align_score z n y A.
Proof.
  intros z n f y y' A A' Hf Hy HA. unfold align_score.
  assert (HT : forall i j, (i < n)%nat -> (j < n)%nat -> target_matrix y' i j = target_matrix y (f i) (f j))
    by (intros i j Hi Hj; unfold target_matrix; rewrite !Hy by assumption; reflexivity).
  assert (HcA := centred_ext n A' _ HA). assert (HcT := centred_ext n (target_matrix y') _ HT).
  assert (E1 : fnorm n n (centred n A') = fnorm n n (centred n A)).
  { rewrite <- (fnorm_centred_permutes n f A Hf). unfold fnorm. f_equal. apply fprod_ext; assumption. }
  assert (E2 : fnorm n n (centred n (target_matrix y')) = fnorm n n (centred n (target_matrix y))).
  { rewrite <- (fnorm_centred_permutes n f (target_matrix y) Hf). unfold fnorm. f_equal. apply fprod_ext; assumption. }
  assert (E3 : fprod n n (centred n A') (centred n (target_matrix y')) = fprod n n (centred n A) (centred n (target_matrix y))).
  { rewrite <- (fprod_centred_permutes n f A (target_matrix y) Hf). apply fprod_ext; assumption. }
  rewrite E1, E2, E3. reflexivity.
Qed.

(** C94: alignment_ranking scores every kernel alike if the points are reordered in the targets and in the
    kernel matrices. *)
Lemma pf_C94_ranking :
  forall {U T} (numbers : T -> res (list xr)) best_score best_score' (w w' : world xr xr U) k k' num num' ms ms' Ks Ks'
         (t t' : T) p m n f y y' As As',
    set_is w k num ms -> fulls w ms Ks -> set_is w' k' num' ms' -> fulls w' ms' Ks' ->
    lower m = "align/corr"%string -> align_params p -> rp_centered p <> Some true ->
    numbers t = Ok (map Fin y) -> length y = n -> numbers t' = Ok (map Fin y') -> length y' = n ->
    finite_matrices n Ks As -> finite_matrices n Ks' As' ->
    permutes n f -> reordered n f y y' As As' ->
    snd (rank_kernels numbers best_score' k' t' m p w') = snd (rank_kernels numbers best_score k t m p w).
Proof.
  intros U T numbers bs bs' w w' k k' num num' ms ms' Ks Ks' t t' p m n f y y' As As' Hk HF Hk' HF' Hm Hp Hc Ht Hn Ht' Hn' HA HA' Hf [Hy HAs].
  rewrite (pf_C54_value numbers bs w k num ms Ks t p m n y As Hk HF Hm Hp Hc Ht Hn HA).
  rewrite (pf_C54_value numbers bs' w' k' num' ms' Ks' t' p m n y' As' Hk' HF' Hm Hp Hc Ht' Hn' HA').
  clear -Hf Hy HAs. induction HAs as [|A A' As As' HA HAs IH]; [reflexivity|].
  cbn [rmap]. rewrite (align_score_reordered _ n f y y' A A' Hf Hy HA), IH. reflexivity.
Qed.

(** C94: the built-in numeric kernels meet the symmetry hypothesis. *)
Lemma pf_C94_builtin_symmetric : forall k kv x y n m d,
  never_raises (builtin k) kv x y n m d -> symmetric_on kv x y n m d.
Proof.
  intros k kv x y n m d Hnr u v Hu Hv. assert (H1 := Hnr 0%nat u v Hu Hv). assert (H2 := Hnr 0%nat v u Hv Hu).
  cbn [builtin kf] in H1, H2. unfold kernel_rows in H1, H2. rewrite Nat.eqb_sym in H2. rewrite value_sym in H2.
  congruence.
Qed.

(** C94: without finite kernel values it is false with normalized=True: a point with an undefined value spoils
    the normalised similarities of the other points. *)
Lemma pf_C94_normalized_nan_refuted : exists (K : kernel xr xr) k x x' a a',
  (forall y n m d, never_raises K k x y n m d) /\ kfmt K = true /\ (forall y n m d, symmetric_on k x y n m d) /\
  admissible x None 2 2 1 /\ admissible x' None 1 1 1 /\ drawn 1 2 2 1 1 (fun i => i) (fun i => i) x None x' None /\
  outcome xN OpFull (after (U := unit) xN K true [] x None []) = Ok (OArr a) /\
  outcome xN OpFull (after (U := unit) xN K true [] x' None []) = Ok (OArr a') /\
  xget (amat a) 0 0 = NaN /\ xget (amat a') 0 0 = Fin 1.
Proof.
  exists (mkKernel (fun _ u v => Ok (xadd (xdot u v) (Fin 1))) true), (fun u v => xadd (xdot u v) (Fin 1)).
  exists (mkNd [2; 1]%nat [Fin 1; NaN]), (mkNd [1; 1]%nat [Fin 1]).
  set (x := mkNd _ _). set (x' := mkNd _ _).
  assert (Hx : admissible x None 2 2 1) by (split; [exists []; split; [reflexivity|constructor]|reflexivity]).
  assert (Hx' : admissible x' None 1 1 1) by (split; [exists []; split; [reflexivity|constructor]|reflexivity]).
  assert (E : exists B, normalize_km "cosine" (mkArr Dense (kernel_matrix (fun u v => xadd (xdot u v) (Fin 1)) 2 2 1 x None)) = Ok B).
  { subst x. eexists. calc. rdec. reflexivity. }
  destruct E as [B HB]. exists B, (mkArr Dense (rmat 1 1 (fun i j => 2 / sqrt (2 * 2)))).
  split; [intros y n m d t u v _ _; reflexivity|]. split; [reflexivity|].
  split. { intros y n m d u v _ _. f_equal. apply xdot_comm. }
  split; [exact Hx|]. split; [exact Hx'|].
  split. { split; intros [|i] Hi; try lia; (split; [lia|reflexivity]). }
  split.
  { rewrite (pf_C03_one_sample _ (fun u v => xadd (xdot u v) (Fin 1)) [] [] x 2 1 OpFull); [rewrite HB; reflexivity| | | | |left; reflexivity].
    - intros t u v _ _. reflexivity.
    - reflexivity.
    - exact Hx.
    - constructor. }
  split.
  { rewrite (pf_C03_value _ (fun u v => xadd (xdot u v) (Fin 1)) [] [] x' 1 1 OpFull (fun _ _ => 2)); [reflexivity| | | | |left; reflexivity| |].
    - intros t u v _ _. reflexivity.
    - reflexivity.
    - exact Hx'.
    - constructor.
    - apply tabulate_ext. intros [|i] [|j] Hi Hj; try lia. lazy -[Rplus Rmult IZR]. f_equal. ring.
    - intros i _. lra. }
  split.
  - apply (pf_C62_nan_poisons "cosine" (mkArr Dense (kernel_matrix (fun u v => xadd (xdot u v) (Fin 1)) 2 2 1 x None)) B 0 1 HB);
      cbn; try lia. reflexivity.
  - change (Fin (2 / sqrt (2 * 2)) = Fin 1). f_equal. rewrite sqrt_square by lra. lra.
Qed.

(*BEGIN PROP*)
(** The sample 2, 1: [x12] in reverse order. *)
Definition x21 : ndarray xr := mkNd [2; 1]%nat [Fin 2; Fin 1].
Definition xdot_r (u v : list xr) : R := match xdot u v with Fin a => a | _ => 0 end.
Example C94_reverse_example :
  never_raises (builtin KLinear) (fun u v => Fin (xdot_r u v)) x12 None 2 2 1 /\
  admissible x12 None 2 2 1 /\ admissible x21 None 2 2 1 /\
  drawn 1 2 2 2 2 (fun i => 1 - i)%nat (fun i => 1 - i)%nat x12 None x21 None /\ permutes 2 (fun i => 1 - i)%nat /\
  symmetric_on xdot_r x12 None 2 2 1 /\
  (forall u, is_row x12 None 2 2 1 u -> 1/100000000 < xdot_r u u) /\
  kernel_matrix xdot 2 2 1 x12 None = rmat 2 2 (fun i j => INR (1 + i) * INR (1 + j)).
Proof.
  assert (Hrow : forall u, is_row x12 None 2 2 1 u -> u = [Fin 1] \/ u = [Fin 2]).
  { intros u [[|[|i]] [[Hi ->]|[Hi ->]]]; try lia; [left|left|right|right]; reflexivity. }
  split. { intros t u v Hu Hv. rewrite (linear_total x12 None 2 2 1 eq_refl eq_refl t u v Hu Hv).
    destruct (Hrow u Hu) as [->| ->]; destruct (Hrow v Hv) as [->| ->]; reflexivity. }
  split; [exact x12_ok|].
  split; [split; [exists []; split; [reflexivity|constructor]|reflexivity]|].
  split. { split; intros [|[|i]] Hi; try lia; (split; [lia|reflexivity]). }
  split. { split; lia. }
  split. { intros u v _ _. unfold xdot_r. rewrite xdot_comm. reflexivity. }
  split. { intros u Hu. destruct (Hrow u Hu) as [->| ->]; lazy -[Rplus Rmult IZR Rlt Rdiv]; lra. }
  apply tabulate_ext. intros i j Hi Hj.
  destruct i as [|[|i]]; [| |lia]; (destruct j as [|[|j]]; [| |lia]);
    lazy -[Rplus Rmult IZR]; f_equal; ring.
Qed.
Example C94_reordered_example : permutes 2 (fun i => 1 - i)%nat /\
  reordered 2 (fun i => 1 - i)%nat [3; 5] [5; 3] [fun i j => INR (i + 2 * j)] [fun i j => INR ((1 - i) + 2 * (1 - j))].
Proof.
  split; [split; lia|]. split.
  - intros [|[|i]] Hi; try lia; reflexivity.
  - constructor; [|constructor]. intros i j _ _. reflexivity.
Qed.
(*END PROP*)
