(** The exact number of kernel calls made for the two temporary matrices of [normalize]. *)
From Coq Require Import String List Arith ZArith Bool Lia.
Import ListNotations.
From Verif Require Import Prelude MatModel MatFacts UtilsModel IndexModel KMModel SpecKM SpecEval SpecCost MFacts KMLog KMInv KMFacts KMHist KMHist2 KMEval.

Section Count.
  Context {E V U : Type}.
  Variable N : numops V.
  Notation KM := (km E V U).

  Definition nb (s : KM) : nat := if k_is_normed s then 1 else 0.

  (** [q]: normalisation allowed (then an exception spoils the count). *)
  Definition H (q bad : bool) (s s' : KM) : Prop :=
    g_tag s = 0 -> k_two s = Some true -> (q = true -> bad = false) ->
    g_tag s' = 0 /\ k_two s' = Some true /\ k_keep_normed s' = k_keep_normed s /\
    k_sample s' = k_sample s /\ k_sample_two s' = k_sample_two s /\
    (q = false -> k_is_normed s' = k_is_normed s) /\
    exists added, g_calls s' = added ++ g_calls s /\ foreign added + budget s * nb s = budget s * nb s'.

  Definition ht q {A} (m : M KM A) : Prop := forall s, H q (bad_ (snd (m s))) s (fst (m s)).

  Lemma H_refl : forall q b s, H q b s s.
  Proof.
    intros q b s Ht H2 _. repeat (split; [assumption || reflexivity|]). exists []. split; [reflexivity|]. reflexivity.
  Qed.
  Lemma H_trans : forall q b s1 s2 s3, H q false s1 s2 -> H q b s2 s3 -> H q b s1 s3.
  Proof.
    intros q b s1 s2 s3 H1 H2 Ht Htw Hq. destruct (H1 Ht Htw (fun _ => eq_refl)) as (T & W & Kp & X & Y & Fl & l1 & C1 & B1).
    destruct (H2 T W Hq) as (T' & W' & Kp' & X' & Y' & Fl' & l2 & C2 & B2).
    split; [exact T'|]. split; [exact W'|]. split; [congruence|]. split; [congruence|]. split; [congruence|].
    split; [intros Hf; rewrite (Fl' Hf); exact (Fl Hf)|].
    exists (l2 ++ l1). split; [rewrite C2, C1, app_assoc; reflexivity|]. rewrite foreign_app.
    unfold budget in *. rewrite X, Y in B2. lia.
  Qed.
  Section Q.
  Variable q : bool.
  Lemma ht_bind : forall {A B} (m : M KM A) (f : A -> M KM B), ht q m -> (forall a, ht q (f a)) -> ht q (bind m f).
  Proof.
    intros A B m f Hm Hf s. unfold bind. specialize (Hm s). destruct (m s) as [s' [a|e]]; cbn [fst snd] in *.
    - eapply H_trans; [exact Hm|apply Hf].
    - exact Hm.
  Qed.
  Lemma ht_id : forall {A} (m : M KM A), (forall s, fst (m s) = s) -> ht q m.
  Proof. intros A m Hm s. rewrite Hm. apply H_refl. Qed.
  Lemma ht_modify : forall f, (forall s, g_tag (f s) = g_tag s /\ k_two (f s) = k_two s /\ k_keep_normed (f s) = k_keep_normed s /\
    k_sample (f s) = k_sample s /\ k_sample_two (f s) = k_sample_two s /\ g_calls (f s) = g_calls s /\ k_is_normed (f s) = k_is_normed s) ->
    ht q (modify f).
  Proof.
    intros f Hf s. cbn [modify fst]. destruct (Hf s) as (A1 & A2 & A3 & A4 & A5 & A6 & A7). intros Ht Htw _.
    repeat (split; [congruence|]). exists []. split; [exact A6|]. unfold nb. rewrite A7. reflexivity.
  Qed.
  Lemma ht_attr_or : forall {A} (f : KM -> option A), ht q (attr_or f).
  Proof.
    intros A f. apply ht_id. intros s. unfold attr_or, bind, get, ret, raise. destruct (f s); reflexivity.
  Qed.
  Lemma ht_when : forall c m, ht q m -> ht q (when c m).
  Proof. intros [] m Hm; [exact Hm|apply ht_id; reflexivity]. Qed.
  Lemma ht_try : forall {A} (m : M KM A) e, ht q m -> ht q (try_except m e).
  Proof.
    intros A m e Hm s. unfold try_except. specialize (Hm s). destruct (m s) as [s' [a|e']]; exact Hm.
  Qed.
  Lemma ht_for_each : forall {A} (l : list A) f, (forall a, ht q (f a)) -> ht q (for_each l f).
  Proof.
    intros A l f Hf. induction l as [|a l IH]; cbn [for_each]; [apply ht_id; reflexivity|].
    apply ht_bind; [apply Hf|intros; exact IH].
  Qed.
  Lemma ht_map_each : forall {A B} (l : list A) (f : A -> M KM B), (forall a, ht q (f a)) -> ht q (map_each l f).
  Proof.
    intros A B l f Hf. induction l as [|a l IH]; cbn [map_each]; [apply ht_id; reflexivity|].
    apply ht_bind; [apply Hf|]. intros c. apply ht_bind; [exact IH|]. intros; apply ht_id; reflexivity.
  Qed.
  Lemma ht_fmap : forall {A B} (g : A -> B) (m : M KM A), ht q m -> ht q (fmap g m).
  Proof. intros A B g m Hm. apply ht_bind; [exact Hm|]. intros; apply ht_id; reflexivity. Qed.


  Lemma own_foreign : forall (ad : list (call E)), Forall (fun c => c_tag c = 0) ad -> foreign ad = 0.
  Proof.
    intros ad Hf. unfold foreign. induction Hf as [|c ad Hc Had IH]; [reflexivity|]. cbn. rewrite Hc. cbn. exact IH.
  Qed.
  Definition kept (s : KM) (r : KM * res V) : Prop := k_two (fst r) = k_two s /\ k_keep_normed (fst r) = k_keep_normed s.
  Lemma eval_keep : forall i j (s : KM), kept s (eval_kernel i j s).
  Proof.
    intros i j s. unfold eval_kernel.
    set (sw := if j <? i then _ else _).
    assert (Hsw : fst (sw s) = s).
    { unfold sw. destruct (j <? i); [|reflexivity]. unfold attr_or, bind, get, ret, raise. destruct (k_two s); reflexivity. }
    unfold bind at 1. destruct (sw s) as [s1 [p|e]]; cbn [fst] in Hsw; subst s1; [|split; reflexivity].
    unfold bind, get at 1.
    destruct (memo_find (k_memo s) p) as [v|]; [split; reflexivity|].
    destruct (k_sample s) as [x|] eqn:Hx; cbn; [|split; reflexivity].
    destruct (nd_row x (fst p)) as [rx|]; cbn; [|split; reflexivity].
    unfold attr_or, bind, get, ret, raise. destruct (k_sample_two s) as [y|] eqn:Hy; cbn; [|split; reflexivity].
    destruct (nd_row y (snd p)) as [ry|]; cbn; [|split; reflexivity].
    destruct (kf _ _ _ _); cbn; split; reflexivity.
  Qed.
  Lemma ht_eval : forall i j, ht q (eval_kernel i j).
  Proof.
    intros i j s Ht Htw _. destruct (eval_log i j s) as (ad & P1 & P2 & P3 & P4 & P5 & P6 & P7).
    destruct (eval_keep i j s) as [K1 K2].
    repeat (split; [congruence|]). exists ad. split; [exact P1|].
    rewrite own_foreign by (rewrite <- Ht; exact P3). unfold nb. rewrite P7. reflexivity.
  Qed.
  Lemma ht_set_entry : forall i j v, ht q (set_full_entry i j v).
  Proof.
    intros. unfold set_full_entry. apply ht_bind; [apply ht_attr_or|]. intros a. apply ht_modify. intros; repeat split; auto.
  Qed.
  Lemma ht_warn : forall a, ht q (warn_if_nan_inf N a).
  Proof.
    intros a. apply ht_id. intros s. unfold warn_if_nan_inf, bind, get, ret, raise.
    destruct (contains_nan_inf N a && negb (kfmt (k_kernel s))); reflexivity.
  Qed.
  Ltac mo := apply ht_modify; intros; repeat split; auto.
  Lemma ht_populate : forall dn lw, ht q (populate_fully N dn lw).
  Proof.
    intros dn lw. unfold populate_fully. apply ht_bind.
    { unfold populate_upper. apply ht_bind; [apply ht_id; reflexivity|]. intros s0.
      apply ht_when, ht_bind; [apply ht_attr_or|]. intros sh. apply ht_bind; [mo|].
      intros _. apply ht_bind; [|intros; mo].
      apply ht_try, ht_for_each. intros i. apply ht_for_each. intros j.
      apply ht_bind; [apply ht_eval|]. intros v. apply ht_set_entry. }
    intros _. apply ht_bind.
    { unfold populate_lower. apply ht_bind; [apply ht_id; reflexivity|]. intros s0.
      apply ht_when, ht_bind; [|intros; mo].
      apply ht_try, ht_bind; [apply ht_attr_or|]. intros sh.
      apply ht_bind; [apply ht_attr_or|]. intros tw.
      destruct (negb tw && (fst sh =? snd sh)).
      - apply ht_bind; [apply ht_attr_or|]. intros a. apply ht_for_each. intros p. apply ht_set_entry.
      - apply ht_for_each. intros p. apply ht_bind; [apply ht_eval|]. intros v. apply ht_set_entry. }
    intros _. apply ht_bind.
    { unfold densify. apply ht_bind; [apply ht_attr_or|]. intros a. apply ht_when. mo. }
    intros _. apply ht_bind; [apply ht_attr_or|]. intros a.
    apply ht_bind; [apply ht_warn|]. intros; apply ht_id; reflexivity.
  Qed.
  Lemma ht_diagonal : ht q diagonal.
  Proof.
    unfold diagonal. apply ht_bind; [apply ht_attr_or|]. intros [].
    - apply ht_id; reflexivity.
    - apply ht_bind; [apply ht_attr_or|]. intros sh. apply ht_map_each. intros; apply ht_eval.
  Qed.

  Lemma ht_getitem_pair : forall i j, ht q (getitem_pair N i j).
  Proof.
    intros i j. unfold getitem_pair. apply ht_bind; [apply ht_id; reflexivity|]. intros s0.
    apply ht_bind; [apply ht_id; reflexivity|]. intros r.
    apply ht_bind; [apply ht_id; reflexivity|]. intros c.
    destruct (snd r && snd c); [apply ht_populate|].
    unfold compute_for_index_combinations. apply ht_bind; [|intros; apply ht_id; reflexivity].
    apply ht_map_each. intros; apply ht_eval.
  Qed.
  Lemma ht_center : ht q (center N).
  Proof.
    unfold center. apply ht_bind; [apply ht_attr_or|]. intros [].
    { apply ht_id; reflexivity. }
    apply ht_bind; [apply ht_id; reflexivity|]. intros s0.
    apply ht_bind.
    { apply ht_when, ht_bind; [apply ht_populate|]. intros a. mo. }
    intros _. apply ht_bind; [apply ht_attr_or|]. intros a.
    apply ht_bind; [apply ht_id; reflexivity|]. intros c.
    apply ht_bind; [mo|]. intros _. mo.
  Qed.

  End Q.

  (** A fresh object evaluates its diagonal with one call per row. *)
  Definition one_call (i : nat) (s : KM) (r : KM * res V) : Prop := is_ok (snd r) = true ->
    exists c, g_calls (fst r) = c :: g_calls s /\ c_tag c = g_tag s /\
      g_tag (fst r) = g_tag s /\ map fst (k_memo (fst r)) = (i, i) :: map fst (k_memo s).
  Lemma eval_diag_exact : forall i (s : KM), ~ In (i, i) (map fst (k_memo s)) -> one_call i s (eval_kernel i i s).
  Proof.
    intros i s Hi. unfold eval_kernel. rewrite Nat.ltb_irrefl. unfold ret at 1. unfold bind, get.
    destruct (memo_find (k_memo s) (i, i)) as [w|] eqn:Hf.
    { exfalso. apply Hi. apply memo_find_some in Hf. apply in_map_iff. exists (i, i, w). split; [reflexivity|exact Hf]. }
    destruct (k_sample s) as [x|]; cbn; [|discriminate].
    destruct (nd_row x i) as [rx|]; cbn; [|discriminate].
    unfold attr_or, bind, get, ret, raise. destruct (k_sample_two s) as [y|]; cbn; [|discriminate].
    destruct (nd_row y i) as [ry|]; cbn; [|discriminate].
    destruct (kf _ _ _ _); cbn; [|discriminate]. intros _.
    eexists. split; [reflexivity|]. repeat split.
  Qed.
  Definition these_calls (n : nat) (s : KM) (r : KM * res (list V)) : Prop := is_ok (snd r) = true ->
    exists added, g_calls (fst r) = added ++ g_calls s /\ length added = n /\ Forall (fun c => c_tag c = g_tag s) added.
  Lemma diag_exact : forall l (s : KM), NoDup l -> (forall i, In i l -> ~ In (i, i) (map fst (k_memo s))) ->
    these_calls (length l) s (map_each l (fun i => eval_kernel i i) s).
  Proof.
    induction l as [|i l IH]; intros s Hnd Hin; cbn [map_each length].
    { intros _. exists []. repeat split; constructor. }
    unfold bind at 1. inversion Hnd as [|? ? Hni Hnd']. subst.
    assert (He := eval_diag_exact i s (Hin i (or_introl eq_refl))). destruct (eval_kernel i i s) as [s1 [v|e]]; [|discriminate].
    destruct (He eq_refl) as (c & C1 & C2 & C3 & C4). cbn [fst] in *.
    unfold bind. specialize (IH s1 Hnd').
    destruct (map_each l (fun i0 => eval_kernel i0 i0) s1) as [s2 [r|e]]; [|discriminate].
    intros _. destruct IH as (ad & A1 & A2 & A3); [|reflexivity|].
    { intros k Hk. rewrite C4. intros [Heq|Hb]; [inversion Heq; subst; contradiction|].
      exact (Hin k (or_intror Hk) Hb). }
    cbn [fst ret] in *. exists (ad ++ [c]). rewrite A1, C1, <- app_assoc. split; [reflexivity|].
    split; [rewrite app_length; cbn; lia|]. apply Forall_app. split; [rewrite <- C3; exact A3|]. constructor; [exact C2|constructor].
  Qed.

  Lemma tagged_foreign : forall tag (ad : list (call E)), tag <> 0 -> Forall (fun c => c_tag c = tag) ad -> foreign ad = length ad.
  Proof.
    intros tag ad Ht Hf. unfold foreign. induction Hf as [|c ad Hc Had IH]; [reflexivity|]. cbn. rewrite Hc.
    destruct (Nat.eqb_spec tag 0) as [|_]; [contradiction|]. cbn. rewrite IH. reflexivity.
  Qed.

  Lemma temp_exact : forall tag x (s : KM), tag <> 0 -> is_ok (snd (temp_diagonal tag x s)) = true -> exists added,
    fst (temp_diagonal tag x s) = log_calls (added ++ g_calls s) s /\ foreign added = nrows (Some x).
  Proof.
    intros tag x s Htag.
    assert (P : forall r : KM * res (list V), (is_ok (snd r) = true -> exists added, g_calls (fst r) = added ++ g_calls s /\
       foreign added = nrows (Some x)) ->
      let r' := (log_calls (g_calls (fst r)) s, snd r) in is_ok (snd r') = true -> exists added,
      fst r' = log_calls (added ++ g_calls s) s /\ foreign added = nrows (Some x)).
    { intros r Hr r' Hok. destruct (Hr Hok) as (ad & A1 & A2). exists ad. split; [|exact A2]. cbn. rewrite A1. reflexivity. }
    refine (P ((attach_to x None ;;; diagonal) (km_new_tagged (k_kernel s) false (g_calls s) tag)) _). clear P.
    set (s0 := km_new_tagged (k_kernel s) false (g_calls s) tag).
    match goal with |- is_ok (snd ?r) = true -> _ =>
      change ((fun r0 : KM * res (list V) => is_ok (snd r0) = true -> exists added, g_calls (fst r0) = added ++ g_calls s /\ foreign added = nrows (Some x)) r) end.
    unfold bind at 1. unfold attach_to. unfold bind at 1. unfold lift at 1. cbn [nrows].
    destruct (ensure_2D_own x) as [a|e]; [|discriminate].
    unfold bind, modify. cbn [fst snd].
    match goal with |- context [diagonal ?st] => set (s1 := st) end.
    unfold diagonal, bind at 1, attr_or at 1, bind at 1, get at 1.
    change (k_two s1) with (Some false). cbn [ret fst snd].
    unfold bind at 1, attr_or at 1, bind at 1, get at 1.
    change (k_shape s1) with (Some (nth 0 (nd_shape a) 0, nth 0 (nd_shape a) 0)). cbn [ret fst snd].
    intros Hok. assert (D := diag_exact (seq 0 (nth 0 (nd_shape a) 0)) s1 (seq_NoDup _ _) (fun i _ (b : In (i, i) []) => b) Hok).
    destruct D as (ad & P1 & P2 & P3). rewrite seq_length in P2.
    exists ad. split; [exact P1|]. rewrite (tagged_foreign tag); [exact P2|exact Htag|exact P3].
  Qed.

  Definition HH {A} q (s : KM) (r : KM * res A) : Prop := H q (bad_ (snd r)) s (fst r).
  Lemma ht_normalize : forall meth, ht true (normalize N meth).
  Proof.
    intros meth. unfold normalize. apply ht_bind; [apply ht_id; reflexivity|]. intros s0.
    apply ht_bind.
    { apply ht_when, ht_bind; [apply ht_populate|intros; apply ht_id; reflexivity]. }
    intros _ s. match goal with |- H _ _ s (fst ?r) => change (HH true s r) end. unfold bind at 1, get at 1.
    destruct (k_is_normed s) eqn:Hn; cbn [negb when]; [apply H_refl|].
    unfold bind at 1, attr_or at 1, bind at 1, get at 1.
    destruct (k_two s) as [[]|] eqn:H2; cbn [negb ret raise fst snd].
    2,3: intros _ Hx; rewrite H2 in Hx; discriminate.
    assert (Hbad : forall r : KM * res unit, bad_ (snd r) = true -> HH true s r).
    { intros r Hb _ _ Hq. rewrite Hb in Hq. specialize (Hq eq_refl). discriminate. }
    unfold HH. fold (HH (A:=unit)).
    set (PP := fun r : KM * res unit => is_ok (snd r) = true -> exists l, g_tag (fst r) = g_tag s /\ k_sample (fst r) = k_sample s /\
               k_sample_two (fst r) = k_sample_two s /\ k_two (fst r) = k_two s /\ k_keep_normed (fst r) = k_keep_normed s /\
               g_calls (fst r) = l ++ g_calls s /\ foreign l = budget s).
    assert (Hb : forall mm : M KM unit, PP (mm s) -> HH true s ((mm ;;; modify (set_is_normed true) ;;;
              nk <- attr_or k_normed ;; warn_if_nan_inf N nk) s)).
    { intros mm HP. unfold bind at 1. destruct (mm s) as [s' [u|e]]; [|apply Hbad; reflexivity].
      destruct (HP eq_refl) as (l & Q1 & Q2 & Q3 & Q4 & Q5 & Q6 & Q7). cbn [fst] in *.
      unfold bind at 1, modify at 1.
      match goal with |- HH true s (?mm' ?st) => assert (Hs : fst (mm' st) = st) end.
      { unfold bind, attr_or, get, ret, raise, warn_if_nan_inf. cbn.
        destruct (k_normed s'); [|reflexivity]. unfold bind, get, ret, raise. cbn.
        match goal with |- context [if ?c then _ else _] => destruct c end; reflexivity. }
      unfold HH. rewrite Hs. intros Ht Htw _. cbn. repeat (split; [congruence|]).
      exists l. split; [exact Q6|]. unfold nb. cbn. rewrite Hn, Q7. lia. }
    apply Hb. clear Hb.
    unfold bind at 1, attr_or at 1, bind at 1, get at 1.
    destruct (k_sample s) as [x|] eqn:Hx; cbn [ret raise fst snd]; [|discriminate].
    unfold bind at 1, attr_or at 1, bind at 1, get at 1.
    destruct (k_sample_two s) as [y|] eqn:Hy; cbn [ret raise fst snd]; [|discriminate].
    unfold bind at 1, attr_or at 1, bind at 1, get at 1.
    destruct (k_full s) as [a|]; cbn [ret raise fst snd]; [|discriminate].
    assert (HB : budget s = nrows (Some x) + nrows (Some y)) by (unfold budget; rewrite Hx, Hy; reflexivity).
    unfold bind at 1. assert (T1 := temp_exact 1 x s ltac:(discriminate)).
    destruct (temp_diagonal 1 x s) as [s1' [dx|e]]; [|discriminate]. destruct (T1 eq_refl) as (l1 & H1 & L1). cbn [fst] in H1; subst s1'.
    unfold bind at 1. assert (T2 := temp_exact 2 y (log_calls (l1 ++ g_calls s) s) ltac:(discriminate)).
    destruct (temp_diagonal 2 y (log_calls (l1 ++ g_calls s) s)) as [s2' [dy|e]]; [|discriminate].
    destruct (T2 eq_refl) as (l2 & H1' & L2). cbn [fst] in H1'; subst s2'.
    unfold bind, lift, modify. destruct (op_normalize2 N a dx dy) as [nk|e]; [|discriminate].
    intros _. exists (l2 ++ l1). cbn. rewrite foreign_app, app_assoc. repeat split; try congruence. lia.
  Qed.

  Lemma ht_guarded : ht true (s <- get ;; when (negb (k_is_normed s)) (normalize N default_method) ;;; attr_or k_normed).
  Proof.
    apply ht_bind; [apply ht_id; reflexivity|]. intros s0.
    apply ht_bind; [apply ht_when, ht_normalize|]. intros; apply ht_attr_or.
  Qed.
  Lemma ht_full : ht true (full N).
  Proof.
    unfold full. apply ht_bind; [apply ht_id; reflexivity|]. intros s0.
    destruct (k_sample s0); [|apply ht_id; reflexivity].
    apply ht_bind. { apply ht_when, ht_bind; [apply ht_populate|intros; apply ht_id; reflexivity]. }
    intros _. destruct (k_keep_normed s0); [apply ht_guarded|apply ht_attr_or].
  Qed.
  Lemma hh_full : forall s, k_keep_normed s = false -> HH false s (full N s).
  Proof.
    intros s Hk. unfold full, bind at 1, get at 1. rewrite Hk. destruct (k_sample s); [|apply H_refl].
    assert (X : ht false (when (negb (k_populated s)) (populate_fully N true true ;;; ret tt) ;;; attr_or k_full)).
    { apply ht_bind. { apply ht_when, ht_bind; [apply ht_populate|intros; apply ht_id; reflexivity]. }
      intros _. apply ht_attr_or. }
    apply X.
  Qed.
  Lemma ht_full_sparse : ht true (full_sparse N).
  Proof.
    unfold full_sparse. apply ht_bind; [apply ht_id; reflexivity|]. intros s0.
    destruct (k_keep_normed s0); [|apply ht_populate].
    apply ht_bind; [apply ht_when, ht_normalize|]. intros; apply ht_attr_or.
  Qed.
  Lemma hh_full_sparse : forall s, k_keep_normed s = false -> HH false s (full_sparse N s).
  Proof. intros s Hk. unfold full_sparse, bind at 1, get at 1. rewrite Hk. apply ht_populate. Qed.

  Lemma hh_fmap : forall {A B} q (g : A -> B) (m : M KM A) s, HH q s (m s) -> HH q s (fmap g m s).
  Proof. intros A B q g m s Hm. unfold fmap, bind. destruct (m s) as [s' [a|e]]; exact Hm. Qed.

  Lemma hh_step : forall o s, is_attach o = false -> HH (wants_normalised (k_keep_normed s) o) s (step N o s).
  Proof.
    intros o s Ho. destruct o; try discriminate; unfold step; apply hh_fmap; cbn [wants_normalised].
    - destruct (k_keep_normed s) eqn:Hk; [apply ht_full|apply hh_full, Hk].
    - destruct (k_keep_normed s) eqn:Hk; [apply ht_full_sparse|apply hh_full_sparse, Hk].
    - apply ht_center.
    - unfold centered. revert s. apply ht_bind; [apply ht_attr_or|]. intros [].
      { apply ht_id; reflexivity. }
      apply ht_bind; [apply ht_id; reflexivity|]. intros s0.
      apply ht_bind; [apply ht_when, ht_center|intros; apply ht_attr_or].
    - apply ht_normalize.
    - apply ht_guarded.
    - unfold frob_norm. revert s. apply ht_bind; [apply ht_id; reflexivity|]. intros s0.
      apply ht_bind.
      { apply ht_when, ht_bind; [apply ht_populate|intros; apply ht_id; reflexivity]. }
      intros _. apply ht_bind; [apply ht_id; reflexivity|]. intros s1.
      apply ht_bind; [|intros; apply ht_attr_or].
      apply ht_when, ht_bind; [apply ht_attr_or|]. intros a.
      apply ht_bind; [apply ht_id; reflexivity|]. intros v. apply ht_modify; intros; repeat split; auto.
    - apply ht_diagonal.
    - unfold getitem. destruct ix as [a b|kk|].
      + apply ht_getitem_pair.
      + revert s. apply ht_bind; [apply ht_attr_or|]. intros sh.
        apply ht_bind; [apply ht_id; reflexivity|]. intros p. apply ht_getitem_pair.
      + apply H_refl.
    - revert s. apply ht_modify; intros; repeat split; auto.
    - revert s. apply ht_id; reflexivity.
    - revert s. apply ht_id; reflexivity.
    - revert s. unfold size. apply ht_bind; [apply ht_attr_or|]. intros tw.
      apply ht_bind; [apply ht_id; reflexivity|]. intros s0.
      apply ht_id. intros s. destruct tw, (k_num_samples s0); reflexivity.
    - revert s. apply ht_attr_or.
    - revert s. apply ht_id; reflexivity.
  Qed.

  Lemma run_exact : forall ops (s : KM), no_attach ops -> g_tag s = 0 -> k_two s = Some true ->
    normalised_well (k_keep_normed s) ops (trace N ops s) ->
    exists added, g_calls (run N ops s) = added ++ g_calls s /\
      foreign added + budget s * nb s = budget s * nb (run N ops s).
  Proof.
    induction ops as [|o ops IH]; intros s Hno Ht Htw Hwell; [exists []; split; reflexivity|].
    unfold no_attach in Hno. cbn [forallb] in Hno. apply andb_true_iff in Hno. destruct Hno as [Ho Hno]. apply negb_true_iff in Ho.
    cbn [trace] in Hwell. inversion Hwell as [|? ? Hw1 Hw2]. subst. cbn [fst snd] in Hw1.
    destruct (hh_step o s Ho Ht Htw) as (T & W & Kp & X & Y & Fl & l1 & C1 & B1).
    { intros Hq. unfold bad_. rewrite (Hw1 Hq). reflexivity. }
    destruct (IH (fst (step N o s)) Hno T W) as (l2 & C2 & B2); [rewrite Kp; exact Hw2|]. cbn [run].
    exists (l2 ++ l1). split; [rewrite C2, C1, app_assoc; reflexivity|]. rewrite foreign_app.
    unfold budget in *. rewrite X, Y in B2. lia.
  Qed.

  (** The flag after an operation that asks for normalised values and succeeds, and it stays. *)
  Lemma step_normed : forall o (s : KM), is_attach o = false -> k_is_normed s = true -> g_tag s = 0 ->
    k_is_normed (fst (step N o s)) = true.
  Proof. intros o s Ho Hn Ht. destruct (gt_step N o Ho s Ht) as (_ & _ & _ & Nm & _). exact (Nm Hn). Qed.
  Lemma normalize_normed : forall meth (s : KM), is_ok (snd (normalize N meth s)) = true -> k_is_normed (fst (normalize N meth s)) = true.
  Proof.
    intros meth s.
    set (Q := fun r : KM * res unit => is_ok (snd r) = true -> k_is_normed (fst r) = true).
    change (Q (normalize N meth s)). unfold normalize, bind at 1, get at 1.
    unfold bind at 1. destruct (when _ _ s) as [s1 [u|e]]; [|discriminate].
    unfold bind at 1, get at 1. destruct (k_is_normed s1) eqn:Hn; [intros _; exact Hn|]. cbn [negb when].
    unfold bind at 1, attr_or at 1, bind at 1, get at 1. destruct (k_two s1); [|discriminate]. cbn [ret].
    unfold bind at 1. match goal with |- Q (let (_, _) := ?t in _) => destruct t as [s2 [u2|e]] end; [|discriminate].
    unfold bind at 1, modify at 1. unfold bind, attr_or, bind, get, ret, raise, warn_if_nan_inf. cbn.
    destruct (k_normed s2); cbn; [|discriminate]. unfold bind, get, ret, raise. cbn.
    match goal with |- context [if ?c then _ else _] => destruct c end; [discriminate|]. intros _. reflexivity.
  Qed.

  Lemma step_asks : forall o (s : KM), is_attach o = false -> wants_normalised (k_keep_normed s) o = true ->
    is_ok (snd (step N o s)) = true -> k_is_normed (fst (step N o s)) = true.
  Proof.
    assert (Gd : forall s : KM, is_ok (snd ((s1 <- get ;; when (negb (k_is_normed s1)) (normalize N default_method) ;;; attr_or k_normed) s)) = true ->
      k_is_normed (fst ((s1 <- get ;; when (negb (k_is_normed s1)) (normalize N default_method) ;;; attr_or k_normed) s)) = true).
    { intros s. set (Q := fun r : KM * res (arr V) => is_ok (snd r) = true -> k_is_normed (fst r) = true).
      match goal with |- is_ok (snd ?r) = true -> _ => change (Q r) end.
      unfold bind at 1, get at 1. unfold bind at 1.
      assert (W : forall u s', when (negb (k_is_normed s)) (normalize N default_method) s = (s', Ok u) -> k_is_normed s' = true).
      { intros u s'. destruct (k_is_normed s) eqn:Hn; cbn [negb when ret].
        - intros Heq. inversion Heq. subst. exact Hn.
        - intros Heq. assert (Hz := normalize_normed default_method s). rewrite Heq in Hz. exact (Hz eq_refl). }
      destruct (when _ _ s) as [s' [u|e]]; [|discriminate]. specialize (W u s' eq_refl).
      unfold attr_or, bind, get, ret, raise. destruct (k_normed s'); intros _; exact W. }
    assert (Fm : forall {A B} (g : A -> B) (m : M KM A) s, (is_ok (snd (m s)) = true -> k_is_normed (fst (m s)) = true) ->
      is_ok (snd (fmap g m s)) = true -> k_is_normed (fst (fmap g m s)) = true).
    { intros A B g m s. unfold fmap, bind. destruct (m s) as [s' [a|e]]; cbn; intros Hm Hok; [apply Hm; reflexivity|discriminate]. }
    intros o s Ho. destruct o; try discriminate; unfold step; cbn [wants_normalised]; intros Hk; apply Fm.
    - set (Q := fun r : KM * res (arr V) => is_ok (snd r) = true -> k_is_normed (fst r) = true).
      change (Q (full N s)). unfold full, bind at 1, get at 1. rewrite Hk. destruct (k_sample s); [|discriminate].
      unfold bind at 1. destruct (when _ _ s) as [s1 [u|e]]; [|discriminate]. exact (Gd s1).
    - set (Q := fun r : KM * res (arr V) => is_ok (snd r) = true -> k_is_normed (fst r) = true).
      change (Q (full_sparse N s)). unfold full_sparse, bind at 1, get at 1. rewrite Hk. exact (Gd s).
    - apply normalize_normed.
    - exact (Gd s).
  Qed.

  Lemma run_flag : forall ops (s : KM), no_attach ops -> g_tag s = 0 -> k_two s = Some true ->
    normalised_well (k_keep_normed s) ops (trace N ops s) ->
    k_is_normed (run N ops s) = k_is_normed s || existsb (wants_normalised (k_keep_normed s)) ops.
  Proof.
    induction ops as [|o ops IH]; intros s Hno Ht Htw Hwell; [cbn; rewrite orb_false_r; reflexivity|].
    unfold no_attach in Hno. cbn [forallb] in Hno. apply andb_true_iff in Hno. destruct Hno as [Ho Hno]. apply negb_true_iff in Ho.
    cbn [trace] in Hwell. inversion Hwell as [|? ? Hw1 Hw2]. subst. cbn [fst snd] in Hw1.
    destruct (hh_step o s Ho Ht Htw) as (T & W & Kp & X & Y & Fl & _).
    { intros Hq. unfold bad_. rewrite (Hw1 Hq). reflexivity. }
    cbn [run existsb]. rewrite (IH (fst (step N o s)) Hno T W); [|rewrite Kp; exact Hw2]. rewrite Kp.
    destruct (wants_normalised (k_keep_normed s) o) eqn:Hq.
    - rewrite (step_asks o s Ho Hq (Hw1 eq_refl)). cbn. rewrite orb_true_r. reflexivity.
    - rewrite (Fl eq_refl). reflexivity.
  Qed.
End Count.
