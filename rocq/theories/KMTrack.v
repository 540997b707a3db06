(** Invariants under a kernel that may raise at any call: format and symmetry of the stored
    matrix, and the owner of every logged kernel call. *)
From Coq Require Import String List Arith ZArith Bool Lia.
Import ListNotations.
From Verif Require Import Prelude MatModel MatFacts UtilsModel IndexModel KMModel SpecKM MFacts
  KMFacts KMInv KMOps KMIndex KMTotal KMGet.

Section Track.
  Context {E V U : Type}.
  Variable N : numops V.
  Variable K : kernel E V.
  Variable k : list E -> list E -> V.
  Variable nrm : bool.
  Variables (X Y : ndarray E) (two : bool) (n m d : nat).
  Variable base : list (call E).
  Hypothesis Hret : returns_only K k X (Some Y) n m d.
  Hypothesis HX : nd_shape X = [n; d].
  Hypothesis HY : nd_shape Y = [m; d].
  Hypothesis Hone : two = false -> Y = X /\ m = n.
  Variables (spi sps : bool).
  Notation KM := (km E V U).
  Notation tv := (truev k X Y two d).
  Notation saneA := (@sane E V U N K k nrm X Y two n m d base).
  Notation permittedA := (@permitted E U nrm n m spi sps).

  Definition lowP (s : KM) : Prop :=
    sps = false -> two = false \/ never_raises K k X (Some Y) n m d -> k_populated s = true -> k_lower s = true.
  Definition denseP (s : KM) : Prop :=
    spi || sps = false -> forall a, k_full s = Some a -> afmt a = Dense.
  Definition tidy (s : KM) : Prop := saneA s /\ lowP s /\ denseP s.

  (** populate_fully, piece by piece. *)
  Definition isdense (s : KM) : Prop := forall a, k_full s = Some a -> afmt a = Dense.
  Definition pres {A} (mm : M KM A) : Prop := forall s, isdense s -> isdense (fst (mm s)).

  Lemma pres_bind : forall {A B} (mm : M KM A) (f : A -> M KM B),
    pres mm -> (forall a, pres (f a)) -> pres (bind mm f).
  Proof.
    intros A B mm f Hm Hf s Hs. unfold bind. specialize (Hm s Hs).
    destruct (mm s) as [s' [a|e]]; cbn in *; [apply Hf|]; exact Hm.
  Qed.
  Lemma pres_same : forall {A} (mm : M KM A), (forall s, k_full (fst (mm s)) = k_full s) -> pres mm.
  Proof. intros A mm H s Hs a Ha. rewrite H in Ha. apply Hs, Ha. Qed.
  Lemma pres_for_each : forall {A} (l : list A) b, (forall a, pres (b a)) -> pres (for_each l b).
  Proof.
    intros A l b H. induction l as [|a l IH]; cbn [for_each]; [intros s Hs; exact Hs|].
    apply pres_bind; [apply H|intros; exact IH].
  Qed.
  Lemma pres_when : forall b mm, pres mm -> pres (when b mm).
  Proof. intros [] mm H; [exact H|intros s Hs; exact Hs]. Qed.
  Lemma pres_try : forall {A} (mm : M KM A) e, pres mm -> pres (try_except mm e).
  Proof.
    intros A mm e H s Hs. unfold try_except. specialize (H s Hs).
    destruct (mm s) as [s' [a|e']]; exact H.
  Qed.
  Lemma pres_attr_or : forall {A} (f : KM -> option A), pres (attr_or f).
  Proof.
    intros A f s Hs. unfold attr_or, bind, get, ret, raise. destruct (f s); exact Hs.
  Qed.
  Lemma pres_eval : forall i j, pres (eval_kernel i j).
  Proof.
    intros i j. apply pres_same. intros s. unfold eval_kernel, bind, attr_or, bind, get, ret, raise,
      lift, modify.
    destruct (j <? i).
    - destruct (k_two s); cbn; [|reflexivity].
      destruct (memo_find _ _); cbn; [reflexivity|].
      destruct (k_sample s); cbn; [|reflexivity].
      destruct (nd_row _ _); cbn; [|reflexivity].
      destruct (k_sample_two s); cbn; [|reflexivity].
      destruct (nd_row _ _); cbn; [|reflexivity].
      destruct (kf _ _ _ _); reflexivity.
    - destruct (memo_find _ _); cbn; [reflexivity|].
      destruct (k_sample s); cbn; [|reflexivity].
      destruct (nd_row _ _); cbn; [|reflexivity].
      destruct (k_sample_two s); cbn; [|reflexivity].
      destruct (nd_row _ _); cbn; [|reflexivity].
      destruct (kf _ _ _ _); reflexivity.
  Qed.
  Lemma pres_set_entry : forall i j v, pres (set_full_entry i j v).
  Proof.
    intros i j v s Hs. unfold set_full_entry, bind, attr_or, bind, get, ret, raise, modify.
    destruct (k_full s) as [a|] eqn:Ha; cbn; [|exact Hs].
    intros b Hb. cbn in Hb. inversion Hb. cbn. apply Hs, Ha.
  Qed.
  Lemma pres_populate : forall low, pres (populate_fully N true low).
  Proof.
    intros low. unfold populate_fully.
    apply pres_bind.
    { unfold populate_upper. apply pres_bind; [intros s Hs; exact Hs|]. intros s0.
      apply pres_when, pres_bind; [apply pres_attr_or|]. intros sh.
      apply pres_bind.
      { intros s _ a Ha. cbn in Ha. inversion Ha. reflexivity. }
      intros _. apply pres_bind.
      { apply pres_try, pres_for_each. intros i. apply pres_for_each. intros j.
        apply pres_bind; [apply pres_eval|]. intros v. apply pres_set_entry. }
      intros _. apply pres_same. reflexivity. }
    intros _. apply pres_bind.
    { unfold populate_lower. apply pres_bind; [intros s Hs; exact Hs|]. intros s0.
      apply pres_when, pres_bind; [|intros _; apply pres_same; reflexivity].
      apply pres_try, pres_bind; [apply pres_attr_or|]. intros sh.
      apply pres_bind; [apply pres_attr_or|]. intros tw.
      destruct (negb tw && (fst sh =? snd sh)).
      - apply pres_bind; [apply pres_attr_or|]. intros a. apply pres_for_each. intros p.
        apply pres_set_entry.
      - apply pres_for_each. intros p. apply pres_bind; [apply pres_eval|]. intros v.
        apply pres_set_entry. }
    intros _. apply pres_bind.
    { intros s Hs. unfold densify, bind, attr_or, bind, get, ret, raise.
      destruct (k_full s) as [a|] eqn:Ha; cbn; [|exact Hs].
      unfold is_sparse. rewrite (Hs a Ha). exact Hs. }
    intros _. apply pres_bind; [apply pres_attr_or|]. intros a.
    apply pres_bind; [|intros _ s Hs; exact Hs].
    apply pres_same. intros s. unfold warn_if_nan_inf, bind, get, raise, ret.
    destruct (contains_nan_inf N a && negb (kfmt (k_kernel s))); reflexivity.
  Qed.

  Lemma populate_low : forall dense s, saneA s ->
    holds (populate_fully N dense true) s (fun s' _ =>
      two = false \/ never_raises K k X (Some Y) n m d -> k_populated s' = true -> k_lower s' = true).
  Proof.
    intros dense s [Hi Hf]. unfold populate_fully. apply holds_bind.
    eapply holds_conseq;
      [apply (populate_upper_spec N K k nrm X Y two n m d 0 base Hret HX HY Hone dense s Hi Hf)|].
    intros s1 r1 (Hi1 & Hf1 & _ & Hl1 & _ & Hsome & Hr1).
    destruct r1 as [u1|e1].
    2:{ destruct Hr1 as (_ & _ & Hp & _). congruence. }
    destruct (k_full s1) as [a1|] eqn:Ha1; [|congruence].
    apply holds_bind. eapply holds_conseq;
      [apply (populate_lower_spec N K k nrm X Y two n m d 0 base Hret HX HY Hone true s1 a1 Hi1 Hf1 Ha1)|].
    intros s2 r2 (Hi2 & Hf2 & _ & Hp2 & _ & (B & HB & _) & Hr2).
    destruct r2 as [u2|e2].
    2:{ destruct Hr2 as (_ & Ht & _ & e' & t & u & v & Hu & Hv & He'). intros [Htwo|Hnr]; [congruence|].
        rewrite Hnr in He' by assumption. discriminate. }
    destruct Hr2 as (Hlow & _). specialize (Hlow eq_refl).
    apply holds_bind. eapply holds_conseq;
      [apply (densify_spec N K k nrm X Y two n m d 0 base dense s2 _ Hi2 Hf2 HB)|].
    intros s3 r3 (-> & Hi3 & Hf3 & _ & _ & Hl3 & _ & _ & HB3).
    apply holds_bind. eapply holds_attr_or; [exact HB3|].
    apply holds_bind. eapply holds_conseq;
      [apply (warn_spec N K _ s3 (fx_kernel _ _ _ _ _ _ _ _ _ (iv_fixed _ _ _ _ _ _ _ _ _ _ _ s3 Hi3)))|].
    intros s4 r4 [-> _]. destruct r4; [apply holds_ret|]; congruence.
  Qed.

  Definition kp {A} (mm : M KM A) : Prop := forall s, tidy s -> tidy (fst (mm s)).

  Lemma kp_bind : forall {A B} (mm : M KM A) (f : A -> M KM B),
    kp mm -> (forall a, kp (f a)) -> kp (bind mm f).
  Proof.
    intros A B mm f Hm Hf s Hs. unfold bind. specialize (Hm s Hs).
    destruct (mm s) as [s' [a|e]]; cbn in *; [apply Hf|]; exact Hm.
  Qed.
  Lemma kp_when : forall b mm, kp mm -> kp (when b mm).
  Proof. intros [] mm H; [exact H|intros s Hs; exact Hs]. Qed.
  Lemma kp_attr_or : forall {A} (f : KM -> option A), kp (attr_or f).
  Proof.
    intros A f s Hs. unfold attr_or, bind, get, ret, raise. destruct (f s); exact Hs.
  Qed.
  Lemma kp_id : forall {A} (mm : M KM A), (forall s, fst (mm s) = s) -> kp mm.
  Proof. intros A mm H s Hs. rewrite H. exact Hs. Qed.
  Lemma kp_core : forall s s' : KM, saneA s' -> k_populated s' = k_populated s ->
    k_lower s' = k_lower s -> k_full s' = k_full s -> tidy s -> tidy s'.
  Proof.
    intros s s' Hs Hp Hl Hf (_ & H1 & H2). split; [exact Hs|]. unfold lowP, denseP.
    rewrite Hp, Hl, Hf. auto.
  Qed.
  Lemma kp_modify : forall f, (forall s, saneA s -> saneA (f s)) ->
    (forall s, k_populated (f s) = k_populated s /\ k_lower (f s) = k_lower s /\
               k_full (f s) = k_full s) -> kp (modify f).
  Proof.
    intros f H1 H2 s Hs. cbn. destruct (H2 s) as (A & B & C).
    apply (kp_core s); try assumption. apply H1, Hs.
  Qed.

  Lemma kp_populate : forall dense low, (low = false -> sps = true) ->
    (dense = false -> spi || sps = true) -> kp (populate_fully N dense low).
  Proof.
    intros dense low Hl Hd s (Hs & H1 & H2). split; [|split].
    - apply (keeps_populate N K k nrm X Y two n m d base Hret HX HY Hone dense low s Hs).
    - intros Hsps. destruct low; [|specialize (Hl eq_refl); congruence].
      apply (populate_low dense s Hs).
    - intros Hsp. destruct dense; [|specialize (Hd eq_refl); congruence].
      apply pres_populate. exact (H2 Hsp).
  Qed.

  Lemma kp_populate_dense : kp (populate_fully N true true).
  Proof. apply kp_populate; discriminate. Qed.

  Lemma kp_warn : forall a, kp (warn_if_nan_inf N a).
  Proof.
    intros a. apply kp_id. intros s. unfold warn_if_nan_inf, bind, get, ret, raise.
    destruct (contains_nan_inf N a && negb (kfmt (k_kernel s))); reflexivity.
  Qed.

  Lemma kp_norm2 : kp (norm2 N).
  Proof.
    intros s Hs. apply (kp_core s); [|..|exact Hs].
    - apply (keeps_norm2 N K k nrm X Y two n m d base Hret HX HY Hone s (proj1 Hs)).
    - unfold norm2, temp_diagonal, bind, attr_or, bind, get, ret, raise, lift, modify.
      destruct (k_sample s); cbn; [|reflexivity]. destruct (k_sample_two s); cbn; [|reflexivity].
      destruct (k_full s); cbn; [|reflexivity].
      match goal with |- context [snd ?t] => destruct (snd t); cbn; [|reflexivity] end.
      match goal with |- context [snd ?t] => destruct (snd t); cbn; [|reflexivity] end.
      destruct (op_normalize2 N _ _ _); reflexivity.
    - unfold norm2, temp_diagonal, bind, attr_or, bind, get, ret, raise, lift, modify.
      destruct (k_sample s); cbn; [|reflexivity]. destruct (k_sample_two s); cbn; [|reflexivity].
      destruct (k_full s); cbn; [|reflexivity].
      match goal with |- context [snd ?t] => destruct (snd t); cbn; [|reflexivity] end.
      match goal with |- context [snd ?t] => destruct (snd t); cbn; [|reflexivity] end.
      destruct (op_normalize2 N _ _ _); reflexivity.
    - unfold norm2, temp_diagonal, bind, attr_or, bind, get, ret, raise, lift, modify.
      destruct (k_sample s); cbn; [|reflexivity]. destruct (k_sample_two s); cbn; [|reflexivity].
      destruct (k_full s) eqn:Hf; cbn; [|exact Hf].
      match goal with |- context [snd ?t] => destruct (snd t); cbn; [|exact Hf] end.
      match goal with |- context [snd ?t] => destruct (snd t); cbn; [|exact Hf] end.
      destruct (op_normalize2 N _ _ _); exact Hf.
  Qed.

  Lemma kp_normalize : forall meth, kp (normalize N meth).
  Proof.
    intros meth. unfold normalize.
    apply kp_bind; [apply kp_id; reflexivity|]. intros s0.
    apply kp_bind.
    { apply kp_when, kp_bind; [apply kp_populate_dense|intros; apply kp_id; reflexivity]. }
    intros _. apply kp_bind; [apply kp_id; reflexivity|]. intros s1.
    apply kp_when, kp_bind; [apply kp_attr_or|]. intros tw. apply kp_bind.
    { destruct (negb tw); [|apply kp_norm2].
      apply kp_bind; [apply kp_attr_or|]. intros a.
      apply kp_bind; [apply kp_id; reflexivity|]. intros nk.
      apply kp_modify; [intros; apply sane_set_normed; assumption|intros; repeat split]. }
    intros _. apply kp_bind.
    { apply kp_modify; [intros; apply sane_set_is_normed; assumption|intros; repeat split]. }
    intros _. apply kp_bind; [apply kp_attr_or|]. intros nk. apply kp_warn.
  Qed.

  Lemma kp_keep : forall s, tidy s -> k_keep_normed s = nrm.
  Proof.
    intros s [Hs _]. destruct (sane_fixed N K k nrm X Y two n m d base s Hs); tauto.
  Qed.

  Lemma kp_eval_list : forall (l : list (nat * nat)) s, tidy s ->
    (forall p, In p l -> fst p < n /\ snd p < m) ->
    tidy (fst (map_each l (fun p => eval_kernel (fst p) (snd p)) s)).
  Proof.
    intros l s Hs Hl.
    destruct (eval_list_holds N K k nrm X Y two n m d base Hret HX HY Hone l s (proj1 Hs) Hl)
      as (H1 & H2 & H3 & _).
    unfold core in H2. apply (kp_core s); try assumption; congruence.
  Qed.

  Theorem tidy_step : forall o, permittedA o -> kp (step N o).
  Proof.
    intros o Hp. destruct o; unfold step;
      try (unfold fmap; apply kp_bind; [|intros; apply kp_id; reflexivity]).
    - destruct Hp.
    - (* full *)
      unfold full. apply kp_bind; [apply kp_id; reflexivity|]. intros s0.
      destruct (k_sample s0); [|apply kp_id; reflexivity].
      apply kp_bind.
      { apply kp_when, kp_bind; [apply kp_populate_dense|intros; apply kp_id; reflexivity]. }
      intros _. destruct (k_keep_normed s0); [|apply kp_attr_or].
      apply kp_bind; [apply kp_id; reflexivity|]. intros s1.
      apply kp_bind; [apply kp_when, kp_normalize|]. intros _. apply kp_attr_or.
    - (* full_sparse *)
      intros s Hs. unfold full_sparse, bind, get. rewrite (kp_keep s Hs).
      destruct nrm eqn:Hn.
      + assert (H := kp_bind (when (negb (k_is_normed s)) (normalize N default_method))
                  (fun _ => attr_or k_normed) (kp_when _ _ (kp_normalize _))
                  (fun _ => kp_attr_or _) s Hs).
        exact H.
      + cbn in Hp. specialize (Hp eq_refl).
        apply (kp_populate false false); [intros; exact Hp| |exact Hs].
        intros _. rewrite Hp. apply orb_true_r.
    - (* center *)
      unfold center. apply kp_bind; [apply kp_attr_or|]. intros [].
      { apply kp_id; reflexivity. }
      apply kp_bind; [apply kp_id; reflexivity|]. intros s0.
      apply kp_bind.
      { apply kp_when. intros s Hs.
        assert (H := kp_populate_dense s Hs).
        assert (H' := populate_holds N K k nrm X Y two n m d base Hret HX HY Hone true true s (proj1 Hs)).
        unfold holds, bind, modify in *.
        destruct (populate_fully N true true s) as [s' [a|e]]; cbn in *; [|exact H].
        destruct H' as (_ & _ & _ & [Ha _] & _).
        replace (set_full (Some a) s') with s'; [exact H|].
        destruct s'; cbn in *; subst; reflexivity. }
      intros _. apply kp_bind; [apply kp_attr_or|]. intros a.
      apply kp_bind; [apply kp_id; reflexivity|]. intros c.
      apply kp_bind;
        [apply kp_modify; [intros; apply sane_set_centered; assumption|intros; repeat split]|].
      intros _.
      apply kp_modify; [intros; apply sane_set_is_centered; assumption|intros; repeat split].
    - (* centered *)
      unfold centered. apply kp_bind; [apply kp_attr_or|]. intros [].
      { apply kp_id; reflexivity. }
      apply kp_bind; [apply kp_id; reflexivity|]. intros s0.
      apply kp_bind; [|intros; apply kp_attr_or]. apply kp_when.
      unfold center. apply kp_bind; [apply kp_attr_or|]. intros [].
      { apply kp_id; reflexivity. }
      apply kp_bind; [apply kp_id; reflexivity|]. intros s1.
      apply kp_bind.
      { apply kp_when. intros s Hs.
        assert (H := kp_populate_dense s Hs).
        assert (H' := populate_holds N K k nrm X Y two n m d base Hret HX HY Hone true true s (proj1 Hs)).
        unfold holds, bind, modify in *.
        destruct (populate_fully N true true s) as [s' [a|e]]; cbn in *; [|exact H].
        destruct H' as (_ & _ & _ & [Ha _] & _).
        replace (set_full (Some a) s') with s'; [exact H|].
        destruct s'; cbn in *; subst; reflexivity. }
      intros _. apply kp_bind; [apply kp_attr_or|]. intros a.
      apply kp_bind; [apply kp_id; reflexivity|]. intros c.
      apply kp_bind;
        [apply kp_modify; [intros; apply sane_set_centered; assumption|intros; repeat split]|].
      intros _.
      apply kp_modify; [intros; apply sane_set_is_centered; assumption|intros; repeat split].
    - apply kp_normalize.
    - unfold normed_km. apply kp_bind; [apply kp_id; reflexivity|]. intros s0.
      apply kp_bind; [apply kp_when, kp_normalize|]. intros _. apply kp_attr_or.
    - unfold frob_norm. apply kp_bind; [apply kp_id; reflexivity|]. intros s0.
      apply kp_bind.
      { apply kp_when, kp_bind; [apply kp_populate_dense|intros; apply kp_id; reflexivity]. }
      intros _. apply kp_bind; [apply kp_id; reflexivity|]. intros s1.
      apply kp_bind; [|intros; apply kp_attr_or].
      apply kp_when, kp_bind; [apply kp_attr_or|]. intros a.
      apply kp_bind; [apply kp_id; reflexivity|]. intros v.
      apply kp_modify; [intros; apply sane_set_frob; assumption|intros; repeat split].
    - (* diagonal *)
      intros s Hs.
      destruct (diagonal_holds N K k nrm X Y two n m d base Hret HX HY Hone s (proj1 Hs)) as [H1 H2].
      destruct (Bool.bool_dec two true) as [Htwo|Htwo].
      + destruct (H1 Htwo) as [_ ->]. exact Hs.
      + apply not_true_is_false in Htwo. destruct (H2 Htwo) as (A1 & A2 & A3 & _).
        unfold core in A2. apply (kp_core s); try assumption; congruence.
    - (* getitem *)
      intros s Hs. destruct (valid_or_not n m ix) as [Hv|Hv].
      + destruct (resolve_valid n m ix Hv) as (rows & cols & Hr & Hsel & HR & HC & _).
        rewrite (getitem_resolve N s n m ix (sane_shape N K k nrm X Y two n m d base s (proj1 Hs))), Hr.
        destruct ((length rows =? n) && (length cols =? m)) eqn:Hall.
        * apply kp_populate; [discriminate| |exact Hs]. intros _.
          rewrite Hp; [reflexivity|].
          apply andb_true_iff in Hall. destruct Hall as [T1 T2].
          destruct ix as [a b|kk|]; cbn in Hsel, Hv.
          -- destruct Hsel as [S1 S2], Hv as [V1 V2].
             apply (proj1 (selection_whole n a rows V1 S1)) in T1.
             apply (proj1 (selection_whole m b cols V2 S2)) in T2. subst. split; assumption.
          -- destruct Hsel as (i & j & Hi & Hj & Hk & -> & ->).
             apply Nat.eqb_eq in T1, T2. cbn [length] in T1, T2.
             exists i, j. split; [exact Hi|]. split; [exact Hj|]. split; [exact Hk|].
             split; [rewrite <- T1|rewrite <- T2]; cbn; f_equal; lia.
          -- destruct Hsel.
        * unfold compute_for_index_combinations.
          assert (H := kp_eval_list (product rows cols) s Hs).
          unfold bind. destruct (map_each (product rows cols) _ s) as [s' [vs|e]]; cbn in *;
            apply H; intros [i j] Hin; apply in_product in Hin; destruct Hin; cbn; auto.
      + destruct (getitem_invalid N K k nrm X Y two n m d base s ix (proj1 Hs) Hv) as (e & -> & _).
        exact Hs.
    - unfold set_attr. apply (kp_modify (fun s => set_attrs (dict_set (k_attr s) name value) s));
        [intros; apply sane_set_attrs; assumption|intros; repeat split].
    - apply kp_id. reflexivity.
    - apply kp_id. reflexivity.
    - unfold size. apply kp_bind; [apply kp_attr_or|]. intros tw.
      apply kp_bind; [apply kp_id; reflexivity|]. intros s0.
      apply kp_id. intros s. destruct tw, (k_num_samples s0); reflexivity.
    - apply kp_attr_or.
    - apply kp_id. reflexivity.
  Qed.

  Theorem tidy_run : forall ops (s : KM), (forall o, In o ops -> permittedA o) -> tidy s ->
    tidy (run N ops s).
  Proof.
    induction ops as [|o ops IH]; intros s Hp Hg; [exact Hg|]. cbn [run]. apply IH.
    - intros o' Ho'. apply Hp. right; exact Ho'.
    - apply tidy_step; [apply Hp; left; reflexivity|exact Hg].
  Qed.
End Track.
