(** The log of kernel calls only grows, and calls made for other objects than the matrix
    itself occur only when two samples are normalised. *)
From Coq Require Import String List Arith ZArith Bool Lia.
Import ListNotations.
From Verif Require Import Prelude MatModel MatFacts UtilsModel IndexModel KMModel SpecKM MFacts.

Section Log.
  Context {E V U : Type}.
  Variable N : numops V.
  Notation KM := (km E V U).

  Definition quiet (b : bool) (s : KM) : Prop :=
    k_two s <> Some true \/ (b = true /\ k_keep_normed s = false).

  Definition R (b : bool) (s s' : KM) : Prop :=
    k_two s' = k_two s /\ k_keep_normed s' = k_keep_normed s /\ g_tag s' = g_tag s /\
    exists added, g_calls s' = added ++ g_calls s /\
      (quiet b s -> Forall (fun c => c_tag c = g_tag s) added).

  Lemma R_refl : forall b s, R b s s.
  Proof. intros b s. repeat (split; [reflexivity|]). exists []. split; [reflexivity|constructor]. Qed.

  Lemma R_trans : forall b s1 s2 s3, R b s1 s2 -> R b s2 s3 -> R b s1 s3.
  Proof.
    intros b s1 s2 s3 (A1 & A2 & A3 & l1 & A4 & A5) (B1 & B2 & B3 & l2 & B4 & B5).
    split; [congruence|]. split; [congruence|]. split; [congruence|].
    exists (l2 ++ l1). split; [rewrite B4, A4, app_assoc; reflexivity|].
    intros Hq. apply Forall_app. split; [|auto]. rewrite <- A3. apply B5.
    unfold quiet in *. rewrite A1, A2. exact Hq.
  Qed.

  Lemma R_weaken : forall s s', R true s s' -> R false s s'.
  Proof.
    intros s s' (A1 & A2 & A3 & l1 & A4 & A5). repeat (split; [assumption|]).
    exists l1. split; [exact A4|]. intros [Hq|[Hq _]]; [|discriminate]. apply A5. left; exact Hq.
  Qed.

  Definition tr (b : bool) {A} (m : M KM A) : Prop := forall s, R b s (fst (m s)).

  Lemma tr_bind : forall b {A B} (m : M KM A) (f : A -> M KM B),
    tr b m -> (forall a, tr b (f a)) -> tr b (bind m f).
  Proof.
    intros b A B m f Hm Hf s. unfold bind. specialize (Hm s).
    destruct (m s) as [s' [a|e]]; cbn in *; [|exact Hm].
    eapply R_trans; [exact Hm|apply Hf].
  Qed.
  Lemma tr_id : forall b {A} (m : M KM A), (forall s, fst (m s) = s) -> tr b m.
  Proof. intros b A m H s. rewrite H. apply R_refl. Qed.
  Lemma tr_modify : forall b f, (forall s, k_two (f s) = k_two s /\
    k_keep_normed (f s) = k_keep_normed s /\ g_tag (f s) = g_tag s /\ g_calls (f s) = g_calls s) ->
    tr b (modify f).
  Proof.
    intros b f H s. cbn. destruct (H s) as (A1 & A2 & A3 & A4).
    repeat (split; [assumption|]). exists []. split; [exact A4|constructor].
  Qed.
  Lemma tr_attr_or : forall b {A} (f : KM -> option A), tr b (attr_or f).
  Proof.
    intros b A f. apply tr_id. intros s. unfold attr_or, bind, get, ret, raise.
    destruct (f s); reflexivity.
  Qed.
  Lemma tr_when : forall b c m, tr b m -> tr b (when c m).
  Proof. intros b [] m H; [exact H|apply tr_id; reflexivity]. Qed.
  Lemma tr_try : forall b {A} (m : M KM A) e, tr b m -> tr b (try_except m e).
  Proof.
    intros b A m e H s. unfold try_except. specialize (H s).
    destruct (m s) as [s' [a|e']]; exact H.
  Qed.
  Lemma tr_for_each : forall b {A} (l : list A) f, (forall a, tr b (f a)) -> tr b (for_each l f).
  Proof.
    intros b A l f H. induction l as [|a l IH]; cbn [for_each]; [apply tr_id; reflexivity|].
    apply tr_bind; [apply H|intros; exact IH].
  Qed.
  Lemma tr_map_each : forall b {A B} (l : list A) (f : A -> M KM B), (forall a, tr b (f a)) ->
    tr b (map_each l f).
  Proof.
    intros b A B l f H. induction l as [|a l IH]; cbn [map_each]; [apply tr_id; reflexivity|].
    apply tr_bind; [apply H|]. intros c. apply tr_bind; [exact IH|].
    intros; apply tr_id; reflexivity.
  Qed.
  Lemma tr_fmap : forall b {A B} (g : A -> B) (m : M KM A), tr b m -> tr b (fmap g m).
  Proof. intros b A B g m H. apply tr_bind; [exact H|]. intros; apply tr_id; reflexivity. Qed.

  Lemma tr_eval : forall b i j, tr b (eval_kernel i j).
  Proof.
    intros b i j. unfold eval_kernel. apply tr_bind.
    { destruct (j <? i); [|apply tr_id; reflexivity].
      apply tr_bind; [apply tr_attr_or|]. intros; apply tr_id; reflexivity. }
    intros p s. unfold bind, get at 1.
    destruct (memo_find (k_memo s) p) as [v|]; [apply R_refl|].
    destruct (k_sample s) as [x|]; cbn; [|apply R_refl].
    destruct (nd_row x (fst p)) as [rx|]; cbn; [|apply R_refl].
    unfold attr_or, bind, get, ret, raise. destruct (k_sample_two s) as [y|]; cbn; [|apply R_refl].
    destruct (nd_row y (snd p)) as [ry|]; cbn; [|apply R_refl].
    assert (H : forall s' : KM, k_two s' = k_two s -> k_keep_normed s' = k_keep_normed s ->
              g_tag s' = g_tag s -> g_calls s' = mkCall (g_tag s) p rx ry :: g_calls s ->
              R b s s').
    { intros s' H1 H2 H3 H4. repeat (split; [assumption|]).
      exists [mkCall (g_tag s) p rx ry]. split; [exact H4|]. intros _.
      constructor; [reflexivity|constructor]. }
    destruct (kf _ _ _ _); cbn; apply H; reflexivity.
  Qed.

  Lemma tr_set_entry : forall b i j v, tr b (set_full_entry i j v).
  Proof.
    intros. unfold set_full_entry. apply tr_bind; [apply tr_attr_or|]. intros a.
    apply tr_modify. intros; repeat split.
  Qed.

  Lemma tr_warn : forall b a, tr b (warn_if_nan_inf N a).
  Proof.
    intros b a. apply tr_id. intros s. unfold warn_if_nan_inf, bind, get, ret, raise.
    destruct (contains_nan_inf N a && negb (kfmt (k_kernel s))); reflexivity.
  Qed.

  Lemma tr_populate : forall b dn lw, tr b (populate_fully N dn lw).
  Proof.
    intros b dn lw. unfold populate_fully. apply tr_bind.
    { unfold populate_upper. apply tr_bind; [apply tr_id; reflexivity|]. intros s0.
      apply tr_when, tr_bind; [apply tr_attr_or|]. intros sh. apply tr_bind.
      { apply tr_modify; intros; repeat split. }
      intros _. apply tr_bind; [|intros; apply tr_modify; intros; repeat split].
      apply tr_try, tr_for_each. intros i. apply tr_for_each. intros j.
      apply tr_bind; [apply tr_eval|]. intros v. apply tr_set_entry. }
    intros _. apply tr_bind.
    { unfold populate_lower. apply tr_bind; [apply tr_id; reflexivity|]. intros s0.
      apply tr_when, tr_bind; [|intros; apply tr_modify; intros; repeat split].
      apply tr_try, tr_bind; [apply tr_attr_or|]. intros sh.
      apply tr_bind; [apply tr_attr_or|]. intros tw.
      destruct (negb tw && (fst sh =? snd sh)).
      - apply tr_bind; [apply tr_attr_or|]. intros a. apply tr_for_each. intros p.
        apply tr_set_entry.
      - apply tr_for_each. intros p. apply tr_bind; [apply tr_eval|]. intros v.
        apply tr_set_entry. }
    intros _. apply tr_bind.
    { unfold densify. apply tr_bind; [apply tr_attr_or|]. intros a.
      apply tr_when, tr_modify; intros; repeat split. }
    intros _. apply tr_bind; [apply tr_attr_or|]. intros a.
    apply tr_bind; [apply tr_warn|]. intros; apply tr_id; reflexivity.
  Qed.

  Lemma tr_diagonal : forall b, tr b diagonal.
  Proof.
    intros b. unfold diagonal. apply tr_bind; [apply tr_attr_or|]. intros [].
    - apply tr_id; reflexivity.
    - apply tr_bind; [apply tr_attr_or|]. intros sh. apply tr_map_each. intros; apply tr_eval.
  Qed.

  Lemma attach_log : forall x y (s : KM), g_calls (fst (attach_to x y s)) = g_calls s.
  Proof.
    intros x y s. unfold attach_to, bind, lift, modify.
    destruct (ensure_2D_own x) as [a|]; [|reflexivity]. destruct y as [y|]; [|reflexivity].
    destruct (ensure_2D_own y) as [b|]; [|reflexivity].
    destruct (negb (nth 1 (nd_shape a) 0 =? nth 1 (nd_shape b) 0)); reflexivity.
  Qed.

  Lemma temp_log : forall tag x (s : KM), exists added,
    fst (temp_diagonal tag x s) = log_calls (added ++ g_calls s) s.
  Proof.
    intros tag x s. unfold temp_diagonal, bind at 1 3, get, modify, lift. cbn [fst snd].
    set (s0 := km_new_tagged (k_kernel s) false (g_calls s) tag).
    assert (H : exists added, g_calls (fst ((attach_to x None ;;; diagonal) s0)) = added ++ g_calls s).
    { unfold bind. assert (Ha := attach_log x None s0).
      destruct (attach_to x None s0) as [s1 [u|e]]; cbn in Ha.
      - destruct (tr_diagonal false s1) as (_ & _ & _ & added & H & _).
        exists added. rewrite H, Ha. reflexivity.
      - exists []. exact Ha. }
    destruct H as [added H]. exists added. cbn. rewrite <- H. reflexivity.
  Qed.

  Lemma tr_normalize : forall meth, tr false (normalize N meth).
  Proof.
    intros meth. unfold normalize. apply tr_bind; [apply tr_id; reflexivity|]. intros s0.
    apply tr_bind.
    { apply tr_when, tr_bind; [apply tr_populate|intros; apply tr_id; reflexivity]. }
    intros _. apply tr_bind; [apply tr_id; reflexivity|]. intros s1. apply tr_when.
    assert (Hend : tr false (modify (set_is_normed true) ;;;
                             nk <- attr_or k_normed ;; warn_if_nan_inf N nk)).
    { apply tr_bind; [apply tr_modify; intros; repeat split|]. intros _.
      apply tr_bind; [apply tr_attr_or|]. intros nk. apply tr_warn. }
    intros s. unfold bind at 1, attr_or at 1, bind at 1, get at 1.
    destruct (k_two s) as [[]|] eqn:H2; cbn [negb ret raise fst snd]; [| |apply R_refl].
    - assert (Hb : forall mm : M KM unit, R false s (fst (mm s)) -> R false s (fst ((mm ;;;
                modify (set_is_normed true) ;;;
                nk <- attr_or k_normed ;; warn_if_nan_inf N nk) s))).
      { intros mm Hm. unfold bind at 1. destruct (mm s) as [s' [u|e]]; cbn [fst] in *;
          [|exact Hm]. eapply R_trans; [exact Hm|apply Hend]. }
      apply Hb. clear Hb.
      assert (Hloud : forall s' : KM, k_two s' = k_two s ->
                k_keep_normed s' = k_keep_normed s -> g_tag s' = g_tag s ->
                (exists added, g_calls s' = added ++ g_calls s) -> R false s s').
      { intros s' Q1 Q2 Q3 [added Q4]. repeat (split; [assumption|]). exists added.
        split; [exact Q4|]. intros [Hq|[Hq _]]; congruence. }
      unfold bind at 1, attr_or at 1, bind at 1, get at 1.
      destruct (k_sample s) as [x|]; cbn [ret raise fst snd]; [|apply R_refl].
      unfold bind at 1, attr_or at 1, bind at 1, get at 1.
      destruct (k_sample_two s) as [y|]; cbn [ret raise fst snd]; [|apply R_refl].
      unfold bind at 1, attr_or at 1, bind at 1, get at 1.
      destruct (k_full s) as [a|]; cbn [ret raise fst snd]; [|apply R_refl].
      unfold bind at 1. destruct (temp_log 1 x s) as [l1 H1].
      destruct (temp_diagonal 1 x s) as [s1' [dx|e]]; cbn [fst] in H1 |- *; subst s1'.
      2:{ apply Hloud; try reflexivity. exists l1. reflexivity. }
      unfold bind at 1. destruct (temp_log 2 y (log_calls (l1 ++ g_calls s) s)) as [l2 H1'].
      destruct (temp_diagonal 2 y _) as [s2' [dy|e]]; cbn [fst] in H1' |- *; subst s2'.
      2:{ apply Hloud; try reflexivity. exists (l2 ++ l1). cbn. rewrite app_assoc. reflexivity. }
      unfold bind, lift, modify. destruct (op_normalize2 N a dx dy);
        (apply Hloud; try reflexivity; exists (l2 ++ l1); cbn; rewrite app_assoc; reflexivity).
    - apply tr_bind with (b := false); [|intros; exact Hend].
      apply tr_bind; [apply tr_attr_or|]. intros a.
      apply tr_bind; [apply tr_id; reflexivity|]. intros nk.
      apply tr_modify; intros; repeat split.
  Qed.

  (** Operations that normalise on request. *)
  Definition normalises (o : op E U) : bool :=
    match o with OpNormalize _ | OpNormedKM => true | _ => false end.

  Lemma R_false_true : forall s s' : KM, k_keep_normed s = true -> R false s s' -> R true s s'.
  Proof.
    intros s s' Hk (A1 & A2 & A3 & l1 & A4 & A5). repeat (split; [assumption|]).
    exists l1. split; [exact A4|]. intros [Hq|[_ Hq]]; [|congruence]. apply A5. left; exact Hq.
  Qed.

  Lemma tr_guarded : tr false (s <- get ;; when (negb (k_is_normed s)) (normalize N default_method) ;;;
                               attr_or k_normed).
  Proof.
    apply tr_bind; [apply tr_id; reflexivity|]. intros s0.
    apply tr_bind; [apply tr_when, tr_normalize|]. intros; apply tr_attr_or.
  Qed.

  Lemma tr_getitem_pair : forall b i j, tr b (getitem_pair N i j).
  Proof.
    intros b i j. unfold getitem_pair. apply tr_bind; [apply tr_id; reflexivity|]. intros s0.
    apply tr_bind; [apply tr_id; reflexivity|]. intros r.
    apply tr_bind; [apply tr_id; reflexivity|]. intros c.
    destruct (snd r && snd c); [apply tr_populate|].
    unfold compute_for_index_combinations. apply tr_bind; [|intros; apply tr_id; reflexivity].
    apply tr_map_each. intros; apply tr_eval.
  Qed.

  Lemma tr_center : forall b, tr b (center N).
  Proof.
    intros b. unfold center. apply tr_bind; [apply tr_attr_or|]. intros [].
    { apply tr_id; reflexivity. }
    apply tr_bind; [apply tr_id; reflexivity|]. intros s0.
    apply tr_bind.
    { apply tr_when, tr_bind; [apply tr_populate|]. intros a. apply tr_modify; intros; repeat split. }
    intros _. apply tr_bind; [apply tr_attr_or|]. intros a.
    apply tr_bind; [apply tr_id; reflexivity|]. intros c.
    apply tr_bind; [apply tr_modify; intros; repeat split|].
    intros _. apply tr_modify; intros; repeat split.
  Qed.

  Theorem tr_step : forall o, is_attach o = false -> tr (negb (normalises o)) (step N o).
  Proof.
    intros o Ho. destruct o; try discriminate; cbn [normalises negb]; unfold step; apply tr_fmap.
    - (* full *)
      intros s. unfold full, bind at 1, get at 1. destruct (k_sample s); [|apply R_refl].
      assert (H1 : forall b, tr b (when (negb (k_populated s)) (populate_fully N true true ;;; ret tt))).
      { intros b. apply tr_when, tr_bind; [apply tr_populate|intros; apply tr_id; reflexivity]. }
      destruct (k_keep_normed s) eqn:Hk.
      + apply R_false_true; [exact Hk|]. apply tr_bind; [apply H1|]. intros _. apply tr_guarded.
      + apply tr_bind; [apply H1|]. intros _. apply tr_attr_or.
    - (* full_sparse *)
      intros s. unfold full_sparse, bind at 1, get at 1. destruct (k_keep_normed s) eqn:Hk.
      + apply R_false_true; [exact Hk|]. apply tr_bind; [apply tr_when, tr_normalize|].
        intros; apply tr_attr_or.
      + apply tr_populate.
    - apply tr_center.
    - unfold centered. apply tr_bind; [apply tr_attr_or|]. intros [].
      { apply tr_id; reflexivity. }
      apply tr_bind; [apply tr_id; reflexivity|]. intros s0.
      apply tr_bind; [apply tr_when, tr_center|intros; apply tr_attr_or].
    - apply tr_normalize.
    - apply tr_guarded.
    - unfold frob_norm. apply tr_bind; [apply tr_id; reflexivity|]. intros s0.
      apply tr_bind.
      { apply tr_when, tr_bind; [apply tr_populate|intros; apply tr_id; reflexivity]. }
      intros _. apply tr_bind; [apply tr_id; reflexivity|]. intros s1.
      apply tr_bind; [|intros; apply tr_attr_or].
      apply tr_when, tr_bind; [apply tr_attr_or|]. intros a.
      apply tr_bind; [apply tr_id; reflexivity|]. intros v. apply tr_modify; intros; repeat split.
    - apply tr_diagonal.
    - unfold getitem. destruct ix as [a b|kk|].
      + apply tr_getitem_pair.
      + apply tr_bind; [apply tr_attr_or|]. intros sh.
        apply tr_bind; [apply tr_id; reflexivity|]. intros p. apply tr_getitem_pair.
      + apply tr_id; reflexivity.
    - apply tr_modify; intros; repeat split.
    - apply tr_id; reflexivity.
    - apply tr_id; reflexivity.
    - unfold size. apply tr_bind; [apply tr_attr_or|]. intros tw.
      apply tr_bind; [apply tr_id; reflexivity|]. intros s0.
      apply tr_id. intros s. destruct tw, (k_num_samples s0); reflexivity.
    - apply tr_attr_or.
    - apply tr_id; reflexivity.
  Qed.

  Theorem R_run : forall ops (s : KM), no_attach ops ->
    R (forallb (fun o => negb (normalises o)) ops) s (run N ops s).
  Proof.
    induction ops as [|o ops IH]; intros s Hno; [apply R_refl|].
    unfold no_attach in Hno. cbn [forallb] in Hno |- *. apply andb_true_iff in Hno.
    destruct Hno as [Ho Hno]. apply negb_true_iff in Ho. cbn [run].
    assert (H1 := tr_step o Ho s). assert (H2 := IH (fst (step N o s)) Hno).
    destruct (negb (normalises o)); cbn [andb].
    - eapply R_trans; [|exact H2].
      destruct (forallb _ ops); [exact H1|apply R_weaken; exact H1].
    - eapply R_trans; [exact H1|].
      destruct (forallb _ ops); [apply R_weaken; exact H2|exact H2].
  Qed.
End Log.
