(** Histories of an attached KernelMatrix: the invariants instantiated. *)
From Coq Require Import String List Arith ZArith Bool Lia.
Import ListNotations.
From Verif Require Import Prelude MatModel MatFacts UtilsModel IndexModel KMModel SpecKM MFacts
  KMFacts KMInv KMOps KMIndex KMHist KMTotal KMGet KMTrack KMLog.

Section Hist2.
  Context {E V U : Type}.
  Variable N : numops V.
  Variable K : kernel E V.
  Variable k : list E -> list E -> V.
  Variable nrm : bool.
  Variables (pre post : list (op E U)) (x : ndarray E) (y : option (ndarray E)) (n m d : nat).
  Hypothesis Hadm : admissible x y n m d.
  Hypothesis Hno : no_attach post.
  Notation S0 := (before N K nrm pre).
  Notation S1 := (after N K nrm pre x y post).
  Notation XX := (stored n d x).
  Notation YY := (stored2 n m d x y).
  Notation two := (is_some y).
  Notation base := (g_calls S0).

  Lemma after_split : S1 = run N post (attached S0 x y n m d).
  Proof.
    unfold after. change (OpAttach x y :: post) with ([OpAttach x y] ++ post).
    rewrite app_assoc, run_app. f_equal. apply (hist_attached N K nrm pre x y n m d Hadm).
  Qed.

  Lemma no_attach_in : forall o, In o post -> is_attach o = false.
  Proof.
    intros o Ho. unfold no_attach in Hno. rewrite forallb_forall in Hno.
    apply negb_true_iff, Hno, Ho.
  Qed.

  Lemma attached_sane : sane N K k nrm XX YY two n m d base (attached S0 x y n m d).
  Proof.
    destruct (hist_attached N K nrm pre x y n m d Hadm) as (_ & HK & Hn & Ht).
    assert (H := attached_inv K k S0 x y n m d HK Hadm). unfold before in *.
    rewrite Hn, Ht in H. split; [exact H|]. unfold full_ok. cbn. auto.
  Qed.

  Lemma S1_sane : returns_only K k x y n m d -> sane N K k nrm XX YY two n m d base S1.
  Proof. intros Hret. apply (hist_sane N K k nrm pre post x y n m d Hret Hadm Hno). Qed.

  Lemma permitted_post : forall spi sps,
    (nrm = false -> sps = false -> no_full_sparse post) ->
    (spi = false -> no_whole_index n m post) ->
    forall o, In o post -> permitted nrm n m spi sps o.
  Proof.
    intros spi sps H1 H2 o Ho. destruct o; cbn; auto.
    - apply no_attach_in in Ho. discriminate.
    - intros Hn. destruct sps; [reflexivity|]. destruct (H1 Hn eq_refl Ho).
    - intros Hs. destruct spi; [reflexivity|]. destruct (H2 eq_refl ix Ho Hs).
  Qed.

  Lemma S1_good : forall spi sps, never_raises K k x y n m d ->
    (nrm = false -> sps = false -> no_full_sparse post) ->
    (spi = false -> no_whole_index n m post) ->
    good N K k nrm XX YY two n m d base spi sps S1.
  Proof.
    intros spi sps Hnr H1 H2. rewrite after_split.
    apply (good_run N K k nrm XX YY two n m d base (nr_stored K k x y n m d Hadm Hnr) eq_refl (stored2_shape x y n m d Hadm)
             (stored2_one x y n m d Hadm)).
    - apply permitted_post; assumption.
    - constructor; [apply attached_sane|..].
      + exact I.
      + intros a Ha. discriminate.
      + intros H. discriminate.
      + intros H. discriminate.
      + intros v H. discriminate.
  Qed.

  Lemma S1_tidy : forall spi sps, returns_only K k x y n m d ->
    (nrm = false -> sps = false -> no_full_sparse post) ->
    (spi = false -> no_whole_index n m post) ->
    tidy N K k nrm XX YY two n m d base spi sps S1.
  Proof.
    intros spi sps Hret H1 H2. rewrite after_split.
    apply (tidy_run N K k nrm XX YY two n m d base (ret_stored K k x y n m d Hadm Hret) eq_refl (stored2_shape x y n m d Hadm)
             (stored2_one x y n m d Hadm)).
    - apply permitted_post; assumption.
    - split; [apply attached_sane|]. split.
      + intros _ _ H. discriminate.
      + intros _ a H. discriminate.
  Qed.

  Lemma KMat_spec : KMat k XX YY two n m d = kernel_matrix k n m d x y.
  Proof.
    unfold KMat, kernel_matrix. apply tabulate_ext. intros i j _ _. apply truev_entry.
  Qed.

  Lemma sub_spec : forall rows cols,
    submatrix (truev k XX YY two d) rows cols = submatrix (entry k d x y) rows cols.
  Proof.
    intros rows cols. unfold submatrix. f_equal. apply map_ext. intros i. apply map_ext.
    intros j. apply truev_entry.
  Qed.

  Lemma outcome_fmap : forall {A B} (f : A -> B) (mm : M (km E V U) A) s,
    snd (fmap f mm s) = res_map f (snd (mm s)).
  Proof.
    intros A B f mm s. unfold fmap, bind, ret. destruct (mm s) as [s' [a|e]]; reflexivity.
  Qed.

  Lemma state_fmap : forall {A B} (f : A -> B) (mm : M (km E V U) A) s,
    fst (fmap f mm s) = fst (mm s).
  Proof.
    intros A B f mm s. unfold fmap, bind, ret. destruct (mm s) as [s' [a|e]]; reflexivity.
  Qed.
End Hist2.
