(** Bounds on the kernel calls made for the two temporary matrices of [normalize]. *)
From Coq Require Import String List Arith ZArith Bool Lia.
Import ListNotations.
From Verif Require Import Prelude MatModel MatFacts UtilsModel IndexModel KMModel SpecKM SpecEval MFacts KMLog KMInv KMHist KMHist2.

Section Eval.
  Context {E V U : Type}.
  Variable N : numops V.
  Notation KM := (km E V U).

  Definition foreign (l : list (call E)) : nat := length (filter (fun c => negb (c_tag c =? 0)) l).
  Lemma foreign_app : forall a b, foreign (a ++ b) = foreign a + foreign b.
  Proof. intros a b. unfold foreign. rewrite filter_app, app_length. reflexivity. Qed.
  Lemma foreign_le : forall l, foreign l <= length l.
  Proof.
    intros l. unfold foreign. induction l as [|c l IH]; cbn; [lia|]. destruct (negb (c_tag c =? 0)); cbn; lia.
  Qed.

  Definition nrows (x : option (ndarray E)) : nat :=
    match x with Some x' => match ensure_2D_own x' with Ok a => nth 0 (nd_shape a) 0 | _ => 0 end | None => 0 end.
  Definition budget (s : KM) : nat := nrows (k_sample s) + nrows (k_sample_two s).

  (** From [s] to [s'] with an exception or not ([bad]). *)
  Definition G (bad : bool) (s s' : KM) : Prop :=
    g_tag s = 0 ->
    g_tag s' = 0 /\ k_sample s' = k_sample s /\ k_sample_two s' = k_sample_two s /\
    (k_is_normed s = true -> k_is_normed s' = true) /\
    exists added, g_calls s' = added ++ g_calls s /\ foreign added <= budget s /\
      (0 < foreign added -> k_is_normed s = false /\ (k_is_normed s' = true \/ bad = true)).

  Definition bad_ {A} (r : res A) : bool := negb (is_ok r).
  Definition gt {A} (m : M KM A) : Prop := forall s, G (bad_ (snd (m s))) s (fst (m s)).

  Lemma G_refl : forall b s, G b s s.
  Proof.
    intros b s Ht. repeat (split; [assumption || reflexivity|]). split; [auto|]. exists []. split; [reflexivity|].
    cbn. split; [lia|]. intros H. inversion H.
  Qed.
  Lemma G_trans : forall b s1 s2 s3, G false s1 s2 -> G b s2 s3 -> G b s1 s3.
  Proof.
    intros b s1 s2 s3 H1 H2 Ht. destruct (H1 Ht) as (T & X & Y & Nm & l1 & C1 & B1 & P1).
    destruct (H2 T) as (T' & X' & Y' & Nm' & l2 & C2 & B2 & P2).
    split; [exact T'|]. split; [congruence|]. split; [congruence|]. split; [auto|].
    exists (l2 ++ l1). split; [rewrite C2, C1, app_assoc; reflexivity|]. rewrite foreign_app.
    unfold budget in *. rewrite X, Y in B2.
    destruct (Nat.eq_dec (foreign l1) 0) as [Z|Z].
    - rewrite Z, Nat.add_0_r. split; [exact B2|]. intros Hp. destruct (P2 Hp) as [Q1 Q2]. split; [|exact Q2].
      destruct (k_is_normed s1); [rewrite Nm in Q1 by reflexivity; discriminate|reflexivity].
    - destruct (P1 ltac:(lia)) as [Q1 [Q2|Q2]]; [|discriminate].
      assert (Z2 : foreign l2 = 0).
      { destruct (foreign l2) eqn:F; [reflexivity|]. destruct (P2 ltac:(lia)) as [Q3 _]. congruence. }
      rewrite Z2. split; [exact B1|]. intros _. split; [exact Q1|]. left. apply Nm', Q2.
  Qed.

  Lemma gt_bind : forall {A B} (m : M KM A) (f : A -> M KM B), gt m -> (forall a, gt (f a)) -> gt (bind m f).
  Proof.
    intros A B m f Hm Hf s. unfold bind. specialize (Hm s). destruct (m s) as [s' [a|e]]; cbn [fst snd] in *.
    - eapply G_trans; [exact Hm|apply Hf].
    - exact Hm.
  Qed.
  Lemma gt_id : forall {A} (m : M KM A), (forall s, fst (m s) = s) -> gt m.
  Proof. intros A m H s. rewrite H. apply G_refl. Qed.
  Lemma gt_modify : forall f, (forall s, g_tag (f s) = g_tag s /\ k_sample (f s) = k_sample s /\
    k_sample_two (f s) = k_sample_two s /\ g_calls (f s) = g_calls s /\ (k_is_normed s = true -> k_is_normed (f s) = true)) ->
    gt (modify f).
  Proof.
    intros f H s. cbn [modify fst]. destruct (H s) as (A1 & A2 & A3 & A4 & A5). intros Ht.
    split; [congruence|]. split; [exact A2|]. split; [exact A3|]. split; [exact A5|].
    exists []. split; [exact A4|]. cbn. split; [lia|]. intros Q. inversion Q.
  Qed.
  Lemma gt_attr_or : forall {A} (f : KM -> option A), gt (attr_or f).
  Proof.
    intros A f. apply gt_id. intros s. unfold attr_or, bind, get, ret, raise. destruct (f s); reflexivity.
  Qed.
  Lemma gt_when : forall c m, gt m -> gt (when c m).
  Proof. intros [] m H; [exact H|apply gt_id; reflexivity]. Qed.
  Lemma gt_try : forall {A} (m : M KM A) e, gt m -> gt (try_except m e).
  Proof.
    intros A m e H s. unfold try_except. specialize (H s). destruct (m s) as [s' [a|e']]; exact H.
  Qed.
  Lemma gt_for_each : forall {A} (l : list A) f, (forall a, gt (f a)) -> gt (for_each l f).
  Proof.
    intros A l f H. induction l as [|a l IH]; cbn [for_each]; [apply gt_id; reflexivity|].
    apply gt_bind; [apply H|intros; exact IH].
  Qed.
  Lemma gt_map_each : forall {A B} (l : list A) (f : A -> M KM B), (forall a, gt (f a)) -> gt (map_each l f).
  Proof.
    intros A B l f H. induction l as [|a l IH]; cbn [map_each]; [apply gt_id; reflexivity|].
    apply gt_bind; [apply H|]. intros c. apply gt_bind; [exact IH|]. intros; apply gt_id; reflexivity.
  Qed.
  Lemma gt_fmap : forall {A B} (g : A -> B) (m : M KM A), gt m -> gt (fmap g m).
  Proof. intros A B g m H. apply gt_bind; [exact H|]. intros; apply gt_id; reflexivity. Qed.

  (** One evaluation makes at most one call, with the tag of the object. *)
  Definition Ev (k : nat) (s s' : KM) : Prop := exists added, g_calls s' = added ++ g_calls s /\
    length added <= k /\ Forall (fun c => c_tag c = g_tag s) added /\ g_tag s' = g_tag s /\
    k_sample s' = k_sample s /\ k_sample_two s' = k_sample_two s /\ k_is_normed s' = k_is_normed s.
  Lemma Ev_refl : forall k s, Ev k s s.
  Proof. intros k s. exists []. cbn. repeat split; auto. lia. Qed.
  Lemma Ev_trans : forall k l s1 s2 s3, Ev k s1 s2 -> Ev l s2 s3 -> Ev (k + l) s1 s3.
  Proof.
    intros k l s1 s2 s3 (l1 & A1 & A2 & A3 & A4 & A5 & A6 & A7) (l2 & B1 & B2 & B3 & B4 & B5 & B6 & B7).
    exists (l2 ++ l1). split; [rewrite B1, A1, app_assoc; reflexivity|]. rewrite app_length. split; [lia|].
    split; [apply Forall_app; split; [rewrite <- A4|]; assumption|]. repeat split; congruence.
  Qed.
  Lemma eval_log : forall i j (s : KM), Ev 1 s (fst (eval_kernel i j s)).
  Proof.
    intros i j s. unfold eval_kernel.
    set (sw := if j <? i then _ else _).
    assert (Hsw : fst (sw s) = s).
    { unfold sw. destruct (j <? i); [|reflexivity]. unfold attr_or, bind, get, ret, raise. destruct (k_two s); reflexivity. }
    unfold bind at 1. destruct (sw s) as [s1 [p|e]]; cbn [fst] in Hsw; subst s1; [|apply Ev_refl].
    unfold bind, get at 1.
    destruct (memo_find (k_memo s) p) as [v|]; [apply Ev_refl|].
    destruct (k_sample s) as [x|] eqn:Hx; cbn; [|apply Ev_refl].
    destruct (nd_row x (fst p)) as [rx|]; cbn; [|apply Ev_refl].
    unfold attr_or, bind, get, ret, raise. destruct (k_sample_two s) as [y|] eqn:Hy; cbn; [|apply Ev_refl].
    destruct (nd_row y (snd p)) as [ry|]; cbn; [|apply Ev_refl].
    assert (H : forall s' : KM, k_sample s' = k_sample s -> k_sample_two s' = k_sample_two s -> k_is_normed s' = k_is_normed s ->
              g_tag s' = g_tag s -> g_calls s' = mkCall (g_tag s) p rx ry :: g_calls s -> Ev 1 s s').
    { intros s' H1 H2 H3 H4 H5. exists [mkCall (g_tag s) p rx ry]. split; [exact H5|]. split; [cbn; lia|].
      split; [constructor; [reflexivity|constructor]|]. repeat split; assumption. }
    destruct (kf _ _ _ _); cbn; apply H; cbn; congruence.
  Qed.
  Lemma diag_log : forall l (s : KM), Ev (length l) s (fst (map_each l (fun i => eval_kernel i i) s)).
  Proof.
    induction l as [|i l IH]; intros s; cbn [map_each length]; [apply Ev_refl|].
    unfold bind at 1. assert (H := eval_log i i s). destruct (eval_kernel i i s) as [s1 [v|e]]; cbn [fst] in H |- *.
    - unfold bind. assert (H2 := IH s1). destruct (map_each l (fun i0 => eval_kernel i0 i0) s1) as [s2 [r|e]]; cbn [fst ret] in H2 |- *;
        apply (Ev_trans 1 (length l) s s1 s2 H H2).
    - destruct H as (ad & P1 & P2 & P3). exists ad. split; [exact P1|]. split; [lia|exact P3].
  Qed.

  Lemma gt_eval : forall i j, gt (eval_kernel i j).
  Proof.
    intros i j s Ht. destruct (eval_log i j s) as (ad & P1 & P2 & P3 & P4 & P5 & P6 & P7).
    split; [congruence|]. split; [exact P5|]. split; [exact P6|]. split; [congruence|].
    assert (Z : foreign ad = 0).
    { unfold foreign. clear P1 P2. induction P3 as [|c ad Hc Had IH]; [reflexivity|]. cbn. rewrite Hc, Ht. cbn. exact IH. }
    exists ad. split; [exact P1|]. rewrite Z. split; [lia|]. intros Q. inversion Q.
  Qed.

  Lemma temp_count : forall tag x (s : KM), exists added,
    fst (temp_diagonal tag x s) = log_calls (added ++ g_calls s) s /\ length added <= nrows (Some x).
  Proof.
    intros tag x s. unfold temp_diagonal, bind at 1 3, get, modify, lift. cbn [fst snd].
    set (s0 := km_new_tagged (k_kernel s) false (g_calls s) tag).
    assert (H : exists added, g_calls (fst ((attach_to x None ;;; diagonal) s0)) = added ++ g_calls s /\ length added <= nrows (Some x)).
    { unfold bind at 1. cbn [nrows]. unfold attach_to. unfold bind at 1. unfold lift at 1.
      destruct (ensure_2D_own x) as [a|e]; [|exists []; split; [reflexivity|cbn; lia]].
      unfold bind, modify. cbn [fst snd].
      match goal with |- context [diagonal ?st] => set (s1 := st) end.
      unfold diagonal, bind at 1, attr_or at 1, bind at 1, get at 1. 
      change (k_two s1) with (Some false). cbn [ret fst snd].
      unfold bind at 1, attr_or at 1, bind at 1, get at 1.
      change (k_shape s1) with (Some (nth 0 (nd_shape a) 0, nth 0 (nd_shape a) 0)). cbn [ret fst snd].
      destruct (diag_log (seq 0 (nth 0 (nd_shape a) 0)) s1) as (ad & P1 & P2 & _). rewrite seq_length in P2.
      exists ad. split; [exact P1|exact P2]. }
    destruct H as (added & H & L). exists added. split; [|exact L]. cbn. rewrite <- H. reflexivity.
  Qed.

  Lemma gt_set_entry : forall i j v, gt (set_full_entry i j v).
  Proof.
    intros. unfold set_full_entry. apply gt_bind; [apply gt_attr_or|]. intros a. apply gt_modify. intros; repeat split; auto.
  Qed.
  Lemma gt_warn : forall a, gt (warn_if_nan_inf N a).
  Proof.
    intros a. apply gt_id. intros s. unfold warn_if_nan_inf, bind, get, ret, raise.
    destruct (contains_nan_inf N a && negb (kfmt (k_kernel s))); reflexivity.
  Qed.
  Ltac mo := apply gt_modify; intros; repeat split; auto.
  Lemma gt_populate : forall dn lw, gt (populate_fully N dn lw).
  Proof.
    intros dn lw. unfold populate_fully. apply gt_bind.
    { unfold populate_upper. apply gt_bind; [apply gt_id; reflexivity|]. intros s0.
      apply gt_when, gt_bind; [apply gt_attr_or|]. intros sh. apply gt_bind; [mo|].
      intros _. apply gt_bind; [|intros; mo].
      apply gt_try, gt_for_each. intros i. apply gt_for_each. intros j.
      apply gt_bind; [apply gt_eval|]. intros v. apply gt_set_entry. }
    intros _. apply gt_bind.
    { unfold populate_lower. apply gt_bind; [apply gt_id; reflexivity|]. intros s0.
      apply gt_when, gt_bind; [|intros; mo].
      apply gt_try, gt_bind; [apply gt_attr_or|]. intros sh.
      apply gt_bind; [apply gt_attr_or|]. intros tw.
      destruct (negb tw && (fst sh =? snd sh)).
      - apply gt_bind; [apply gt_attr_or|]. intros a. apply gt_for_each. intros p. apply gt_set_entry.
      - apply gt_for_each. intros p. apply gt_bind; [apply gt_eval|]. intros v. apply gt_set_entry. }
    intros _. apply gt_bind.
    { unfold densify. apply gt_bind; [apply gt_attr_or|]. intros a. apply gt_when. mo. }
    intros _. apply gt_bind; [apply gt_attr_or|]. intros a.
    apply gt_bind; [apply gt_warn|]. intros; apply gt_id; reflexivity.
  Qed.
  Lemma gt_diagonal : gt diagonal.
  Proof.
    unfold diagonal. apply gt_bind; [apply gt_attr_or|]. intros [].
    - apply gt_id; reflexivity.
    - apply gt_bind; [apply gt_attr_or|]. intros sh. apply gt_map_each. intros; apply gt_eval.
  Qed.

  Definition GG {A} (s : KM) (r : KM * res A) : Prop := G (bad_ (snd r)) s (fst r).
  Lemma gt_normalize : forall meth, gt (normalize N meth).
  Proof.
    intros meth. unfold normalize. apply gt_bind; [apply gt_id; reflexivity|]. intros s0.
    apply gt_bind.
    { apply gt_when, gt_bind; [apply gt_populate|intros; apply gt_id; reflexivity]. }
    intros _ s. match goal with |- G _ s (fst ?r) => change (GG s r) end. unfold bind at 1, get at 1.
    destruct (k_is_normed s) eqn:Hn; cbn [negb when]; [apply G_refl|].
    assert (Hend : gt (modify (set_is_normed true) ;;; nk <- attr_or k_normed ;; warn_if_nan_inf N nk)).
    { apply gt_bind; [mo|]. intros _. apply gt_bind; [apply gt_attr_or|]. intros nk. apply gt_warn. }
    unfold bind at 1, attr_or at 1, bind at 1, get at 1.
    destruct (k_two s) as [[]|] eqn:H2; cbn [negb ret raise fst snd]; [| |apply G_refl].
    - assert (Hbad : forall l (s' : KM), g_tag s' = g_tag s -> k_sample s' = k_sample s -> k_sample_two s' = k_sample_two s ->
                k_is_normed s' = k_is_normed s -> g_calls s' = l ++ g_calls s -> length l <= budget s -> G true s s').
      { intros l s' Q1 Q2 Q3 Q4 Q5 Q6 Ht. split; [congruence|]. split; [exact Q2|]. split; [exact Q3|]. split; [congruence|].
        exists l. split; [exact Q5|]. assert (F := foreign_le l). split; [lia|]. intros _. split; [exact Hn|]. right. reflexivity. }
      assert (Hok : forall l b (s' : KM), g_tag s' = g_tag s -> k_sample s' = k_sample s -> k_sample_two s' = k_sample_two s ->
                k_is_normed s' = true -> g_calls s' = l ++ g_calls s -> length l <= budget s -> G b s s').
      { intros l b s' Q1 Q2 Q3 Q4 Q5 Q6 Ht. split; [congruence|]. split; [exact Q2|]. split; [exact Q3|]. split; [auto|].
        exists l. split; [exact Q5|]. assert (F := foreign_le l). split; [lia|]. intros _. split; [exact Hn|]. left. exact Q4. }
      set (PP := fun r : KM * res unit => exists l, g_tag (fst r) = g_tag s /\ k_sample (fst r) = k_sample s /\
                 k_sample_two (fst r) = k_sample_two s /\ k_is_normed (fst r) = k_is_normed s /\
                 g_calls (fst r) = l ++ g_calls s /\ length l <= budget s).
      assert (Hb : forall mm : M KM unit, PP (mm s) -> GG s ((mm ;;; modify (set_is_normed true) ;;;
                nk <- attr_or k_normed ;; warn_if_nan_inf N nk) s)).
      { intros mm (l & Q1 & Q2 & Q3 & Q4 & Q5 & Q6). unfold bind at 1. destruct (mm s) as [s' [u|e]]; cbn [fst] in *.
        - unfold bind at 1, modify at 1.
          match goal with |- GG s (?mm' ?st) => assert (Hs : fst (mm' st) = st) end.
          { unfold bind, attr_or, get, ret, raise, warn_if_nan_inf. cbn.
            destruct (k_normed s'); [|reflexivity]. unfold bind, get, ret, raise. cbn.
            match goal with |- context [if ?c then _ else _] => destruct c end; reflexivity. }
          unfold GG. rewrite Hs. apply (Hok l); cbn; try assumption; reflexivity.
        - apply (Hbad l); assumption. }
      apply Hb. clear Hb.
      assert (Pref : forall r, PP (s, r)) by (intros r; exists []; cbn; repeat split; lia).
      unfold bind at 1, attr_or at 1, bind at 1, get at 1.
      destruct (k_sample s) as [x|] eqn:Hx; cbn [ret raise fst snd]; [|apply Pref].
      unfold bind at 1, attr_or at 1, bind at 1, get at 1.
      destruct (k_sample_two s) as [y|] eqn:Hy; cbn [ret raise fst snd]; [|apply Pref].
      unfold bind at 1, attr_or at 1, bind at 1, get at 1.
      destruct (k_full s) as [a|]; cbn [ret raise fst snd]; [|apply Pref].
      assert (HB : budget s = nrows (Some x) + nrows (Some y)) by (unfold budget; rewrite Hx, Hy; reflexivity).
      unfold bind at 1. destruct (temp_count 1 x s) as (l1 & H1 & L1).
      destruct (temp_diagonal 1 x s) as [s1' [dx|e]]; cbn [fst] in H1; subst s1'.
      2:{ exists l1. cbn [fst]. cbn. repeat split; try congruence. lia. }
      unfold bind at 1. destruct (temp_count 2 y (log_calls (l1 ++ g_calls s) s)) as (l2 & H1' & L2).
      destruct (temp_diagonal 2 y (log_calls (l1 ++ g_calls s) s)) as [s2' [dy|e]]; cbn [fst] in H1'; subst s2'.
      2:{ exists (l2 ++ l1). cbn. rewrite app_length, app_assoc. repeat split; try congruence. lia. }
      unfold bind, lift, modify. destruct (op_normalize2 N a dx dy) as [nk|e];
        (exists (l2 ++ l1); cbn; rewrite app_length, app_assoc; repeat split; try congruence; lia).
    - apply (gt_bind _ _); [|intros; exact Hend].
      apply gt_bind; [apply gt_attr_or|]. intros a. apply gt_bind; [apply gt_id; reflexivity|]. intros nk. mo.
  Qed.

  Lemma gt_guarded : gt (s <- get ;; when (negb (k_is_normed s)) (normalize N default_method) ;;; attr_or k_normed).
  Proof.
    apply gt_bind; [apply gt_id; reflexivity|]. intros s0.
    apply gt_bind; [apply gt_when, gt_normalize|]. intros; apply gt_attr_or.
  Qed.
  Lemma gt_getitem_pair : forall i j, gt (getitem_pair N i j).
  Proof.
    intros i j. unfold getitem_pair. apply gt_bind; [apply gt_id; reflexivity|]. intros s0.
    apply gt_bind; [apply gt_id; reflexivity|]. intros r.
    apply gt_bind; [apply gt_id; reflexivity|]. intros c.
    destruct (snd r && snd c); [apply gt_populate|].
    unfold compute_for_index_combinations. apply gt_bind; [|intros; apply gt_id; reflexivity].
    apply gt_map_each. intros; apply gt_eval.
  Qed.
  Lemma gt_center : gt (center N).
  Proof.
    unfold center. apply gt_bind; [apply gt_attr_or|]. intros [].
    { apply gt_id; reflexivity. }
    apply gt_bind; [apply gt_id; reflexivity|]. intros s0.
    apply gt_bind.
    { apply gt_when, gt_bind; [apply gt_populate|]. intros a. mo. }
    intros _. apply gt_bind; [apply gt_attr_or|]. intros a.
    apply gt_bind; [apply gt_id; reflexivity|]. intros c.
    apply gt_bind; [mo|]. intros _. mo.
  Qed.

  Theorem gt_step : forall o, is_attach o = false -> gt (step N o).
  Proof.
    intros o Ho. destruct o; try discriminate; unfold step; apply gt_fmap.
    - unfold full. apply gt_bind; [apply gt_id; reflexivity|]. intros s0. destruct (k_sample s0); [|apply gt_id; reflexivity].
      apply gt_bind. { apply gt_when, gt_bind; [apply gt_populate|intros; apply gt_id; reflexivity]. }
      intros _. destruct (k_keep_normed s0); [apply gt_guarded|apply gt_attr_or].
    - unfold full_sparse. apply gt_bind; [apply gt_id; reflexivity|]. intros s0. destruct (k_keep_normed s0); [|apply gt_populate].
      apply gt_bind; [apply gt_when, gt_normalize|]. intros; apply gt_attr_or.
    - apply gt_center.
    - unfold centered. apply gt_bind; [apply gt_attr_or|]. intros [].
      { apply gt_id; reflexivity. }
      apply gt_bind; [apply gt_id; reflexivity|]. intros s0.
      apply gt_bind; [apply gt_when, gt_center|intros; apply gt_attr_or].
    - apply gt_normalize.
    - apply gt_guarded.
    - unfold frob_norm. apply gt_bind; [apply gt_id; reflexivity|]. intros s0.
      apply gt_bind.
      { apply gt_when, gt_bind; [apply gt_populate|intros; apply gt_id; reflexivity]. }
      intros _. apply gt_bind; [apply gt_id; reflexivity|]. intros s1.
      apply gt_bind; [|intros; apply gt_attr_or].
      apply gt_when, gt_bind; [apply gt_attr_or|]. intros a.
      apply gt_bind; [apply gt_id; reflexivity|]. intros v. mo.
    - apply gt_diagonal.
    - unfold getitem. destruct ix as [a b|kk|].
      + apply gt_getitem_pair.
      + apply gt_bind; [apply gt_attr_or|]. intros sh.
        apply gt_bind; [apply gt_id; reflexivity|]. intros p. apply gt_getitem_pair.
      + apply gt_id; reflexivity.
    - mo.
    - apply gt_id; reflexivity.
    - apply gt_id; reflexivity.
    - unfold size. apply gt_bind; [apply gt_attr_or|]. intros tw.
      apply gt_bind; [apply gt_id; reflexivity|]. intros s0.
      apply gt_id. intros s. destruct tw, (k_num_samples s0); reflexivity.
    - apply gt_attr_or.
    - apply gt_id; reflexivity.
  Qed.

  Lemma run_count : forall ops (s : KM), no_attach ops -> g_tag s = 0 ->
    exists added, g_calls (run N ops s) = added ++ g_calls s /\
      foreign added <= budget s * ((if k_is_normed s then 0 else 1) + failures (trace N ops s)).
  Proof.
    induction ops as [|o ops IH]; intros s Hno Ht; [exists []; split; [reflexivity|cbn; lia]|].
    unfold no_attach in Hno. cbn [forallb] in Hno. apply andb_true_iff in Hno. destruct Hno as [Ho Hno]. apply negb_true_iff in Ho.
    destruct (gt_step o Ho s Ht) as (T & X & Y & Nm & l1 & C1 & B1 & P1).
    destruct (IH (fst (step N o s)) Hno T) as (l2 & C2 & B2). cbn [run trace].
    exists (l2 ++ l1). split; [rewrite C2, C1, app_assoc; reflexivity|]. rewrite foreign_app.
    unfold budget in *. rewrite X, Y in B2. set (b := nrows (k_sample s) + nrows (k_sample_two s)) in *.
    unfold failures in *. cbn [filter].
    set (t := length (filter _ (trace N ops (fst (step N o s))))) in *.
    unfold bad_ in P1. destruct (is_ok (snd (step N o s))); cbn [negb length]; fold t.
    - destruct (Nat.eq_dec (foreign l1) 0) as [Z|Z].
      + rewrite Z. destruct (k_is_normed s) eqn:Hn; [rewrite Nm in B2 by reflexivity; lia|].
        destruct (k_is_normed (fst (step N o s))); nia.
      + destruct (P1 ltac:(lia)) as [Q1 [Q2|Q2]]; [|discriminate]. rewrite Q1, Q2 in *. nia.
    - destruct (k_is_normed s) eqn:Hn; [rewrite Nm in B2 by reflexivity; nia|].
      destruct (k_is_normed (fst (step N o s))); nia.
  Qed.
End Eval.
