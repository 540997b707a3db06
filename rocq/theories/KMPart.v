(** The stored matrix when the kernel may raise at any call: which entries were computed, and in which
    order. *)
From Coq Require Import String List Arith ZArith Bool Lia.
Import ListNotations.
From Verif Require Import Prelude MatModel MatFacts UtilsModel IndexModel KMModel SpecKM MFacts
  KMFacts KMInv KMOps KMIndex KMTotal KMGet KMTrack.

Section Carry.
  Context {E V U : Type}.
  Variable N : numops V.
  Variable K : kernel E V.
  Variable k : list E -> list E -> V.
  Variable nrm : bool.
  Variables (X Y : ndarray E) (two : bool) (n m d : nat).
  Variable base : list (call E).
  Hypothesis Hret : returns_only K k X (Some Y) n m d.
  Hypothesis HX : nd_shape X = [n; d].
  Hypothesis HY : nd_shape Y = [m; d].
  Hypothesis Hone : two = false -> Y = X /\ m = n.
  Variables (spi sps strict : bool).
  Notation KM := (km E V U).
  Notation saneA := (@sane E V U N K k nrm X Y two n m d base).
  Notation tidyA := (@tidy E V U N K k nrm X Y two n m d base spi sps).
  Notation permittedA := (@permitted E U nrm n m spi sps).
  Variable Q : KM -> Prop.
  Hypothesis Qcore : forall s s' : KM, k_populated s' = k_populated s -> k_lower s' = k_lower s ->
    k_full s' = k_full s -> Q s -> Q s'.
  Definition fine {A} (r : res A) : Prop := strict = true -> r <> Raise RuntimeError.
  Hypothesis Qpop : forall dense low (s : KM), (low = false -> sps = true) ->
    (dense = false -> spi || sps = true) -> saneA s -> Q s ->
    fine (snd (populate_fully N dense low s)) -> Q (fst (populate_fully N dense low s)).

  Definition kq {A} (mm : M KM A) : Prop := forall s, tidyA s -> Q s -> fine (snd (mm s)) ->
    tidyA (fst (mm s)) /\ Q (fst (mm s)).

  Lemma kq_bind : forall {A B} (mm : M KM A) (f : A -> M KM B),
    kq mm -> (forall a, kq (f a)) -> kq (bind mm f).
  Proof.
    intros A B mm f Hm Hf s Hs Hq Hok. unfold bind in *. specialize (Hm s Hs Hq).
    destruct (mm s) as [s' [a|e]]; cbn [fst snd] in *.
    - destruct (Hm ltac:(intros _; discriminate)) as [H1 H2]. apply Hf; assumption.
    - apply Hm. intros H H'. apply (Hok H). injection H' as ->. reflexivity.
  Qed.
  Lemma kq_id : forall {A} (mm : M KM A), (forall s, fst (mm s) = s) -> kq mm.
  Proof. intros A mm H s Hs Hq _. rewrite H. auto. Qed.
  Lemma kq_when : forall b mm, kq mm -> kq (when b mm).
  Proof. intros [] mm H; [exact H|apply kq_id; reflexivity]. Qed.
  Lemma kq_attr_or : forall {A} (f : KM -> option A), kq (attr_or f).
  Proof.
    intros A f. apply kq_id. intros s. unfold attr_or, bind, get, ret, raise. destruct (f s); reflexivity.
  Qed.
  Lemma kq_core : forall {A} (mm : M KM A),
    (forall s, tidyA s -> tidyA (fst (mm s)) /\ k_populated (fst (mm s)) = k_populated s /\
       k_lower (fst (mm s)) = k_lower s /\ k_full (fst (mm s)) = k_full s) -> kq mm.
  Proof.
    intros A mm H s Hs Hq _. destruct (H s Hs) as (H1 & H2 & H3 & H4). split; [exact H1|].
    apply (Qcore s); assumption.
  Qed.
  Lemma kq_modify : forall f, (forall s, saneA s -> saneA (f s)) ->
    (forall s, k_populated (f s) = k_populated s /\ k_lower (f s) = k_lower s /\
               k_full (f s) = k_full s) -> kq (modify f).
  Proof.
    intros f H1 H2. apply kq_core. intros s Hs. split; [|exact (H2 s)].
    apply (kp_modify N K k nrm X Y two n m d base spi sps f H1 H2 s Hs).
  Qed.
  Lemma kq_populate : forall dense low, (low = false -> sps = true) ->
    (dense = false -> spi || sps = true) -> kq (populate_fully N dense low).
  Proof.
    intros dense low Hl Hd s Hs Hq Hok. split.
    - apply (kp_populate N K k nrm X Y two n m d base Hret HX HY Hone spi sps dense low Hl Hd s Hs).
    - apply (Qpop dense low s Hl Hd (proj1 Hs) Hq Hok).
  Qed.
  Lemma kq_populate_dense : kq (populate_fully N true true).
  Proof. apply kq_populate; discriminate. Qed.
  Lemma kq_warn : forall a, kq (warn_if_nan_inf N a).
  Proof.
    intros a. apply kq_id. intros s. unfold warn_if_nan_inf, bind, get, ret, raise.
    destruct (contains_nan_inf N a && negb (kfmt (k_kernel s))); reflexivity.
  Qed.
  Lemma kq_norm2 : kq (norm2 N).
  Proof.
    apply kq_core. intros s Hs.
    split; [apply (kp_norm2 N K k nrm X Y two n m d base Hret HX HY Hone spi sps s Hs)|].
    unfold norm2, temp_diagonal, bind, attr_or, bind, get, ret, raise, lift, modify.
    destruct (k_sample s); cbn; [|auto]. destruct (k_sample_two s); cbn; [|auto].
    destruct (k_full s) eqn:Hf; cbn; [|auto].
    match goal with |- context [snd ?t] => destruct (snd t); cbn; [|auto] end.
    match goal with |- context [snd ?t] => destruct (snd t); cbn; [|auto] end.
    destruct (op_normalize2 N _ _ _); cbn; auto.
  Qed.
  Lemma kq_normalize : forall meth, kq (normalize N meth).
  Proof.
    intros meth. unfold normalize.
    apply kq_bind; [apply kq_id; reflexivity|]. intros s0.
    apply kq_bind.
    { apply kq_when, kq_bind; [apply kq_populate_dense|intros; apply kq_id; reflexivity]. }
    intros _. apply kq_bind; [apply kq_id; reflexivity|]. intros s1.
    apply kq_when, kq_bind; [apply kq_attr_or|]. intros tw. apply kq_bind.
    { destruct (negb tw); [|apply kq_norm2].
      apply kq_bind; [apply kq_attr_or|]. intros a.
      apply kq_bind; [apply kq_id; reflexivity|]. intros nk.
      apply kq_modify; [intros; apply sane_set_normed; assumption|intros; repeat split]. }
    intros _. apply kq_bind.
    { apply kq_modify; [intros; apply sane_set_is_normed; assumption|intros; repeat split]. }
    intros _. apply kq_bind; [apply kq_attr_or|]. intros nk. apply kq_warn.
  Qed.
  Lemma kq_store : kq (a <- populate_fully N true true ;; modify (set_full (Some a))).
  Proof.
    intros s Hs Hq Hok. assert (H := kq_populate_dense s Hs Hq).
    assert (H' := populate_holds N K k nrm X Y two n m d base Hret HX HY Hone true true s (proj1 Hs)).
    unfold holds, bind, modify in *.
    destruct (populate_fully N true true s) as [s' [a|e]]; cbn [fst snd] in *.
    - destruct H' as (_ & _ & _ & [Ha _] & _).
      replace (set_full (Some a) s') with s'; [apply H; intros _; discriminate|].
      destruct s'; cbn in *; subst; reflexivity.
    - apply H. intros H0 H1. apply (Hok H0). injection H1 as ->. reflexivity.
  Qed.
  Lemma kq_center : kq (center N).
  Proof.
    unfold center. apply kq_bind; [apply kq_attr_or|]. intros [].
    { apply kq_id; reflexivity. }
    apply kq_bind; [apply kq_id; reflexivity|]. intros s0.
    apply kq_bind; [apply kq_when, kq_store|].
    intros _. apply kq_bind; [apply kq_attr_or|]. intros a.
    apply kq_bind; [apply kq_id; reflexivity|]. intros c.
    apply kq_bind;
      [apply kq_modify; [intros; apply sane_set_centered; assumption|intros; repeat split]|].
    intros _.
    apply kq_modify; [intros; apply sane_set_is_centered; assumption|intros; repeat split].
  Qed.

  Theorem carry_step : forall o, permittedA o -> kq (step N o).
  Proof.
    intros o Hp. destruct o; unfold step;
      try (unfold fmap; apply kq_bind; [|intros; apply kq_id; reflexivity]).
    - destruct Hp.
    - (* full *)
      unfold full. apply kq_bind; [apply kq_id; reflexivity|]. intros s0.
      destruct (k_sample s0); [|apply kq_id; reflexivity].
      apply kq_bind.
      { apply kq_when, kq_bind; [apply kq_populate_dense|intros; apply kq_id; reflexivity]. }
      intros _. destruct (k_keep_normed s0); [|apply kq_attr_or].
      apply kq_bind; [apply kq_id; reflexivity|]. intros s1.
      apply kq_bind; [apply kq_when, kq_normalize|]. intros _. apply kq_attr_or.
    - (* full_sparse *)
      intros s Hs.
      replace (full_sparse N s) with
        ((if k_keep_normed s then (when (negb (k_is_normed s)) (normalize N default_method) ;;; attr_or k_normed)
          else populate_fully N false false) s) by reflexivity.
      assert (Hk := kp_keep N K k nrm X Y two n m d base spi sps s Hs).
      destruct (k_keep_normed s).
      + apply (kq_bind (when (negb (k_is_normed s)) (normalize N default_method))
                  (fun _ => attr_or k_normed) (kq_when _ _ (kq_normalize _))
                  (fun _ => kq_attr_or _) s Hs).
      + cbn in Hp. specialize (Hp (eq_sym Hk)).
        apply (kq_populate false false); [intros; exact Hp| |exact Hs].
        intros _. rewrite Hp. apply orb_true_r.
    - apply kq_center.
    - (* centered *)
      unfold centered. apply kq_bind; [apply kq_attr_or|]. intros [].
      { apply kq_id; reflexivity. }
      apply kq_bind; [apply kq_id; reflexivity|]. intros s0.
      apply kq_bind; [|intros; apply kq_attr_or]. apply kq_when, kq_center.
    - apply kq_normalize.
    - unfold normed_km. apply kq_bind; [apply kq_id; reflexivity|]. intros s0.
      apply kq_bind; [apply kq_when, kq_normalize|]. intros _. apply kq_attr_or.
    - unfold frob_norm. apply kq_bind; [apply kq_id; reflexivity|]. intros s0.
      apply kq_bind.
      { apply kq_when, kq_bind; [apply kq_populate_dense|intros; apply kq_id; reflexivity]. }
      intros _. apply kq_bind; [apply kq_id; reflexivity|]. intros s1.
      apply kq_bind; [|intros; apply kq_attr_or].
      apply kq_when, kq_bind; [apply kq_attr_or|]. intros a.
      apply kq_bind; [apply kq_id; reflexivity|]. intros v.
      apply kq_modify; [intros; apply sane_set_frob; assumption|intros; repeat split].
    - (* diagonal *)
      apply kq_core. intros s Hs.
      destruct (diagonal_holds N K k nrm X Y two n m d base Hret HX HY Hone s (proj1 Hs)) as [H1 H2].
      destruct (Bool.bool_dec two true) as [Htwo|Htwo].
      + destruct (H1 Htwo) as [_ ->]. auto.
      + apply not_true_is_false in Htwo. destruct (H2 Htwo) as (A1 & A2 & A3 & _).
        unfold core in A2.
        split; [apply (kp_core N K k nrm X Y two n m d base spi sps s)|]; try assumption; try congruence.
        repeat split; congruence.
    - (* getitem *)
      intros s Hs Hq Hok. destruct (valid_or_not n m ix) as [Hv|Hv].
      + destruct (resolve_valid n m ix Hv) as (rows & cols & Hr & Hsel & HR & HC & _).
        revert Hok.
        rewrite (getitem_resolve N s n m ix (sane_shape N K k nrm X Y two n m d base s (proj1 Hs))), Hr.
        destruct ((length rows =? n) && (length cols =? m)) eqn:Hall.
        * apply kq_populate; [discriminate| |exact Hs|exact Hq]. intros _.
          rewrite Hp; [reflexivity|].
          apply andb_true_iff in Hall. destruct Hall as [T1 T2].
          destruct ix as [a b|kk|]; cbn in Hsel, Hv.
          -- destruct Hsel as [S1 S2], Hv as [V1 V2].
             apply (proj1 (selection_whole n a rows V1 S1)) in T1.
             apply (proj1 (selection_whole m b cols V2 S2)) in T2. subst. split; assumption.
          -- destruct Hsel as (i & j & Hi & Hj & Hk & -> & ->).
             apply Nat.eqb_eq in T1, T2. cbn [length] in T1, T2.
             exists i, j. split; [exact Hi|]. split; [exact Hj|]. split; [exact Hk|].
             split; [rewrite <- T1|rewrite <- T2]; cbn; f_equal; lia.
          -- destruct Hsel.
        * unfold compute_for_index_combinations. intros Hok. apply kq_bind; try assumption.
          2:{ intros. apply kq_id. reflexivity. }
          clear s Hs Hq Hok. apply kq_core. intros s Hs.
          assert (Hl : forall p, In p (product rows cols) -> fst p < n /\ snd p < m)
            by (intros [i j] Hin; apply in_product in Hin; destruct Hin; cbn; auto).
          split; [apply (kp_eval_list N K k nrm X Y two n m d base Hret HX HY Hone spi sps _ s Hs Hl)|].
          destruct (eval_list_holds N K k nrm X Y two n m d base Hret HX HY Hone _ s (proj1 Hs) Hl)
            as (_ & H2 & H3 & _). unfold core in H2. repeat split; congruence.
      + destruct (getitem_invalid N K k nrm X Y two n m d base s ix (proj1 Hs) Hv) as (e & -> & _). auto.
    - unfold set_attr. apply (kq_modify (fun s => set_attrs (dict_set (k_attr s) name value) s));
        [intros; apply sane_set_attrs; assumption|intros; repeat split].
    - apply kq_id. reflexivity.
    - apply kq_id. reflexivity.
    - unfold size. apply kq_bind; [apply kq_attr_or|]. intros tw.
      apply kq_bind; [apply kq_id; reflexivity|]. intros s0.
      apply kq_id. intros s. destruct tw, (k_num_samples s0); reflexivity.
    - apply kq_attr_or.
    - apply kq_id. reflexivity.
  Qed.

  Theorem carry_run : forall ops (s : KM), (forall o, In o ops -> permittedA o) ->
    (strict = true -> ~ In (Raise RuntimeError) (trace N ops s)) -> tidyA s -> Q s ->
    tidyA (run N ops s) /\ Q (run N ops s).
  Proof.
    induction ops as [|o ops IH]; intros s Hp Ht Hs Hq; [auto|]. cbn [run trace] in *.
    destruct (carry_step o ltac:(apply Hp; left; reflexivity) s Hs Hq) as [H1 H2].
    { intros H H'. apply (Ht H). left. exact H'. }
    apply IH; try assumption.
    - intros o' Ho'. apply Hp. right; exact Ho'.
    - intros H H'. apply (Ht H). right. exact H'.
  Qed.
End Carry.

Lemma prefix_or : forall (u u' v v' : list (nat * nat)), u ++ u' = v ++ v' ->
  exists w w', u ++ u' = w ++ w' /\ (forall p, pmem p w = pmem p u || pmem p v) /\
    (v' = [] -> w' = []).
Proof.
  induction u as [|a u IH]; intros u' v v' H.
  - exists v, v'. split; [exact H|]. split; [reflexivity|auto].
  - destruct v as [|b v].
    + exists (a :: u), u'. split; [reflexivity|]. split; [intros p; cbn [pmem existsb]; rewrite orb_false_r; reflexivity|].
      cbn in H. intros ->. discriminate.
    + cbn [app] in H. injection H as -> H. destruct (IH u' v v' H) as (w & w' & H1 & H2 & H3).
      exists (b :: w), w'. split; [cbn; congruence|]. split; [|exact H3].
      intros p. unfold pmem in *. cbn [existsb]. rewrite H2. destruct (pair_eqb p b); cbn; [reflexivity|].
      reflexivity.
Qed.

Section Part.
  Context {E V U : Type}.
  Variable N : numops V.
  Variable K : kernel E V.
  Variable k : list E -> list E -> V.
  Variable nrm : bool.
  Variables (X Y : ndarray E) (two : bool) (n m d : nat).
  Variable base : list (call E).
  Hypothesis Hret : returns_only K k X (Some Y) n m d.
  Hypothesis HX : nd_shape X = [n; d].
  Hypothesis HY : nd_shape Y = [m; d].
  Hypothesis Hone : two = false -> Y = X /\ m = n.
  Variables (spi sps : bool).
  Notation KM := (km E V U).
  Notation tv := (truev k X Y two d).
  Notation invA := (@inv E V U K k nrm X Y two n m d 0 base).
  Notation saneA := (@sane E V U N K k nrm X Y two n m d base).
  Notation tidyA := (@tidy E V U N K k nrm X Y two n m d base spi sps).
  Notation permittedA := (@permitted E U nrm n m spi sps).
  Notation filledA := (@filled E V U N k X Y two n m d).

  Lemma prefix_fill : forall (l : list (nat * nat)) f A done (s : KM), invA s ->
    (forall p, In p l -> fst p < n /\ snd p < m) -> filledA f A done s ->
    let q := for_each l fill_body s in
    exists u u', l = u ++ u' /\ core (fst q) = core s /\ filledA f A (done ++ u) (fst q) /\
      (is_ok (snd q) = true -> u' = []).
  Proof.
    induction l as [|[i j] l IH]; intros f A done s Hi Hl Hf q.
    - exists [], []. split; [reflexivity|]. split; [reflexivity|]. split; [rewrite app_nil_r; exact Hf|reflexivity].
    - subst q.
      change (for_each ((i, j) :: l) fill_body s) with
        (let (s', r) := (let (s1, r1) := eval_kernel i j s in
                         match r1 with Ok v => set_full_entry i j v s1 | Raise e => (s1, Raise e) end) in
         match r with Ok _ => for_each l fill_body s' | Raise e => (s', Raise e) end).
      destruct (Hl (i, j) (or_introl eq_refl)) as [Hi0 Hj0]. cbn [fst snd] in *.
      assert (H1 := eval_kernel_spec K k nrm X Y two n m d 0 base Hret HX HY Hone s i j Hi Hi0 Hj0).
      unfold holds in H1.
      destruct (eval_kernel i j s) as [s1 [v|e]]; cbn [fst snd] in *; destruct H1 as (Hi1 & Hc1 & Hf1 & _ & H1).
      + destruct H1 as [-> _].
        assert (Hf' : filledA f A done s1).
        { destruct Hf as (B & HB & Hrest). exists B. split; [congruence|exact Hrest]. }
        assert (H2 := set_full_entry_filled N k X Y two n m d f A done s1 i j Hf' Hi0 Hj0).
        unfold holds in H2. destruct (set_full_entry i j (tv i j) s1) as [s2 r2]; cbn [fst snd] in *.
        destruct H2 as (-> & Hf2 & x & Hs2).
        destruct (IH f A (done ++ [(i, j)]) s2) as (u & u' & E1 & E2 & E3 & E4).
        * rewrite Hs2. apply inv_set_full. exact Hi1.
        * intros p Hp. apply Hl. right. exact Hp.
        * exact Hf2.
        * exists ((i, j) :: u), u'. split; [cbn; congruence|]. rewrite <- app_assoc in E3.
          split; [|split; [exact E3|exact E4]]. rewrite E2, Hs2. exact Hc1.
      + exists [], ((i, j) :: l). split; [reflexivity|]. split; [exact Hc1|]. split; [|discriminate].
        rewrite app_nil_r. destruct Hf as (B & HB & Hrest). exists B. split; [congruence|exact Hrest].
  Qed.

  (** Entry (i, j) of the stored matrix: a kernel value if its position is among [u], or among [l] (two
      samples), the entry across the diagonal if it is among [l] (one sample), and [z] otherwise. *)
  Definition pict (A : mat V) (u l : list (nat * nat)) (z : V) : Prop :=
    forall i j, i < n -> j < m ->
      mget (v_nan N) A i j =
      if pmem (i, j) u then tv i j
      else if pmem (i, j) l then (if two then tv i j else mget (v_nan N) A j i)
      else z.
  Definition shape (s : KM) : Prop := forall a, k_full s = Some a ->
    exists u u' l l' z, triu_indices n m = u ++ u' /\ tril_indices n m = l ++ l' /\
      (z = v_nan N \/ (z = v_zero N /\ spi || sps = true)) /\
      (k_populated s = true -> u' = []) /\ (k_lower s = true -> l' = []) /\
      (two = false -> l = [] \/ l' = []) /\ pict (amat a) u l z.

  Lemma shape_core : forall s s' : KM, k_populated s' = k_populated s -> k_lower s' = k_lower s ->
    k_full s' = k_full s -> shape s -> shape s'.
  Proof. intros s s' H1 H2 H3 H a Ha. rewrite H1, H2. apply H. congruence. Qed.

  Lemma part_upper : forall dense (s : KM), (dense = false -> spi || sps = true) -> saneA s -> shape s ->
    shape (fst (populate_upper N dense s)).
  Proof.
    intros dense s Hd [Hi Hfo] Hs. unfold populate_upper. unfold bind at 1, get at 1.
    destruct (k_full s) as [a|] eqn:Hf.
    { cbn [is_some negb]. rewrite andb_false_r. exact Hs. }
    assert (Hfo' := Hfo). unfold full_ok in Hfo'. rewrite Hf in Hfo'. destruct Hfo' as [Hp Hl].
    rewrite Hp. cbn [negb is_some andb when].
    assert (Hsh := fx_shape _ _ _ _ _ _ _ _ _ (iv_fixed _ _ _ _ _ _ _ _ _ _ _ s Hi)).
    unfold attr_or, bind at 1 2, get, ret at 1. rewrite Hsh. unfold bind at 1, modify at 1. cbn [fst snd].
    set (a0 := if dense then mkArr Dense (mfull n m (v_nan N)) else mkArr Lil (mfull n m (v_zero N))).
    set (s0 := set_full (Some a0) s). unfold bind at 1, try_except at 1.
    rewrite (for_each_flat_map (fun i => seq i (m - i))
               (fun i j => v <- eval_kernel i j ;; set_full_entry i j v)
               pair fill_body (seq 0 n) s0) by reflexivity.
    fold (triu_indices n m).
    set (z := init_val N dense).
    assert (Hfill0 : filledA (init_fmt dense) (mfull n m z) [] s0).
    { exists (mfull n m z). split.
      - unfold s0, a0, init_fmt, z, init_val. destruct dense; reflexivity.
      - split; [apply tabulate_wf|]. intros i j _ _. reflexivity. }
    assert (Hrange : forall p, In p (triu_indices n m) -> fst p < n /\ snd p < m).
    { intros [i j] Hij. apply (in_triu X Y two n m Hone) in Hij. simpl. lia. }
    destruct (prefix_fill (triu_indices n m) _ _ [] s0
                (inv_set_full K k nrm X Y two n m d 0 base _ s Hi) Hrange Hfill0)
      as (u & u' & Hu & Hc & (B & HB & Hwf & Hg) & Hok). cbn [app] in Hg.
    assert (Hz : z = v_nan N \/ z = v_zero N /\ spi || sps = true).
    { unfold z, init_val. destruct dense; auto. }
    assert (HP : pict B u [] z).
    { intros i j Hi0 Hj0. rewrite Hg by assumption. destruct (pmem (i, j) u); [reflexivity|].
      cbn [pmem existsb]. unfold mfull. rewrite mget_tabulate by assumption. reflexivity. }
    assert (HL : k_lower (fst (for_each (triu_indices n m) fill_body s0)) = false).
    { unfold core in Hc. cbn in Hc. congruence. }
    assert (HPo : k_populated (fst (for_each (triu_indices n m) fill_body s0)) = false).
    { unfold core in Hc. cbn in Hc. congruence. }
    destruct (for_each (triu_indices n m) fill_body s0) as [s1 [[]|e]]; cbn [fst snd] in *.
    - intros a Ha. cbn in Ha. rewrite HB in Ha. injection Ha as <-.
      exists u, u', [], (tril_indices n m), z. cbn [amat k_lower modify fst].
      repeat (split; [solve [auto | reflexivity | cbn; congruence]|]). exact HP.
    - intros a Ha. cbn in Ha. rewrite HB in Ha. injection Ha as <-.
      exists u, u', [], (tril_indices n m), z. cbn [amat].
      repeat (split; [solve [auto | reflexivity | cbn; congruence]|]). exact HP.
  Qed.

  Lemma part_lower : forall low (s : KM), saneA s -> k_full s <> None -> shape s ->
    shape (fst (populate_lower N low s)).
  Proof.
    intros low s [Hi Hfo] Hne Hs. unfold populate_lower. unfold bind at 1, get at 1.
    destruct (low && negb (k_lower s)) eqn:Hcond; cbn [when]; [|exact Hs].
    apply andb_true_iff in Hcond. destruct Hcond as [-> Hnl]. apply negb_true_iff in Hnl.
    destruct (k_full s) as [[f A]|] eqn:Hf; [|congruence]. clear Hne.
    assert (Hfo' := Hfo). unfold full_ok in Hfo'. rewrite Hf in Hfo'. destruct Hfo' as (Hwf & _).
    cbn [amat] in Hwf.
    destruct (Hs _ Hf) as (u & u' & l & l' & z & Hu & Hl & Hz & Hpu & _ & Hat & HP). cbn [amat] in HP.
    assert (Hsh := fx_shape _ _ _ _ _ _ _ _ _ (iv_fixed _ _ _ _ _ _ _ _ _ _ _ s Hi)).
    assert (Htw := fx_two _ _ _ _ _ _ _ _ _ (iv_fixed _ _ _ _ _ _ _ _ _ _ _ s Hi)).
    unfold bind at 1, try_except at 1.
    unfold attr_or at 1, bind at 1 2, get at 1. rewrite Hsh. unfold ret at 1.
    unfold attr_or at 1, bind at 1 2, get at 1. rewrite Htw. unfold ret at 1. cbn [fst snd].
    assert (Hrange : forall p, In p (tril_indices n m) -> fst p < n /\ snd p < m).
    { intros [i j] Hij. apply (in_tril X Y two n m Hone) in Hij. simpl. lia. }
    assert (Hin_u : forall i j, pmem (i, j) u = true -> i <= j).
    { intros i j H. apply pmem_in in H. assert (H' : In (i, j) (triu_indices n m)) by (rewrite Hu; apply in_or_app; auto).
      apply (in_triu X Y two n m Hone) in H'. lia. }
    destruct (Bool.bool_dec two true) as [Htwo|Htwo];
      [|apply not_true_is_false in Htwo]; rewrite Htwo; cbn [negb andb].
    - assert (Hfill : filledA f A [] s).
      { exists A. split; [exact Hf|]. split; [exact Hwf|]. reflexivity. }
      destruct (prefix_fill (tril_indices n m) f A [] s Hi Hrange Hfill)
        as (v & v' & Hv & Hc & (B & HB & HwB & Hg) & Hok). cbn [app] in Hg.
      change (fun p : nat * nat => v <- eval_kernel (fst p) (snd p);; set_full_entry (fst p) (snd p) v)
        with (@fill_body E V U).
      assert (Hv0 := Hv). rewrite Hl in Hv0.
      destruct (prefix_or l l' v v' Hv0) as (w & w' & Hw & Hm & Hw').
      assert (HPB : pict B u w z).
      { intros i j Hi0 Hj0. rewrite Hg by assumption. rewrite Hm, Htwo.
        specialize (HP i j Hi0 Hj0). rewrite Htwo in HP. rewrite HP.
        destruct (pmem (i, j) v); [rewrite orb_true_r; destruct (pmem (i, j) u); reflexivity|].
        rewrite orb_false_r. reflexivity. }
      assert (HPo : k_populated (fst (for_each (tril_indices n m) fill_body s)) = k_populated s).
      { unfold core in Hc. congruence. }
      assert (HL : k_lower (fst (for_each (tril_indices n m) fill_body s)) = false).
      { unfold core in Hc. congruence. }
      destruct (for_each (tril_indices n m) fill_body s) as [s1 [[]|e]]; cbn [fst snd] in *;
        intros a Ha; cbn in Ha; rewrite HB in Ha; injection Ha as <-;
        exists u, u', w, w', z; cbn [amat fst snd modify];
        (split; [exact Hu|]); (split; [congruence|]); (split; [exact Hz|]).
      + split; [cbn; rewrite HPo; exact Hpu|]. split; [intros _; apply Hw', Hok; reflexivity|].
        split; [congruence|exact HPB].
      + split; [rewrite HPo; exact Hpu|]. split; [congruence|]. split; [congruence|exact HPB].
    - destruct (Hone Htwo) as [HYX Hmn].
      replace (n =? m) with true by (symmetry; apply Nat.eqb_eq; lia).
      unfold attr_or at 1, bind at 1 2, get at 1. rewrite Hf. unfold ret at 1. cbn [amat].
      assert (H1 := copy_list_spec N n m (tril_indices n m) f A s Hwf Hrange Hf). unfold holds in H1.
      set (q := for_each (tril_indices n m) (fun p => set_full_entry (fst p) (snd p) (mget (v_nan N) A (snd p) (fst p))) s) in *.
      destruct q as [s1 r1]. cbn [fst snd] in H1. destruct H1 as (-> & B & -> & HwB & Hg).
      intros a Ha. cbn in Ha. injection Ha as <-.
      exists u, u', (tril_indices n m), [], z. cbn [amat fst snd modify].
      split; [exact Hu|]. split; [symmetry; apply app_nil_r|]. split; [exact Hz|].
      split; [exact Hpu|]. split; [reflexivity|]. split; [auto|].
      intros i j Hi0 Hj0. rewrite Htwo. destruct (pmem (i, j) (tril_indices n m)) eqn:Ht.
      + assert (Ht' := Ht). apply pmem_in in Ht'. apply (in_tril X Y two n m Hone) in Ht'.
        destruct (pmem (i, j) u) eqn:E1; [apply Hin_u in E1; lia|].
        rewrite (Hg i j) by assumption. rewrite Ht. rewrite (Hg j i) by lia.
        destruct (pmem (j, i) (tril_indices n m)) eqn:E2; [|reflexivity].
        apply pmem_in in E2. apply (in_tril X Y two n m Hone) in E2. lia.
      + rewrite Hg by assumption. rewrite Ht. rewrite (HP i j) by assumption. rewrite Htwo.
        destruct (pmem (i, j) u); [reflexivity|]. destruct (pmem (i, j) l) eqn:E1; [|reflexivity].
        exfalso. assert (H : pmem (i, j) (tril_indices n m) = true); [|congruence].
        apply pmem_in. rewrite Hl. apply in_or_app. left. apply pmem_in, E1.
  Qed.

  Lemma populate_cut : forall dense low (s : KM), saneA s ->
    let s1 := fst (populate_upper N dense s) in
    let s2 := fst (populate_lower N low s1) in
    saneA s1 /\ k_full s1 <> None /\
    (snd (populate_upper N dense s) = Raise RuntimeError /\ populate_fully N dense low s = (s1, Raise RuntimeError) \/
     snd (populate_upper N dense s) = Ok tt /\
     (snd (populate_lower N low s1) = Raise RuntimeError /\ populate_fully N dense low s = (s2, Raise RuntimeError) \/
      snd (populate_lower N low s1) = Ok tt /\ snd (populate_fully N dense low s) <> Raise RuntimeError /\
      k_populated (fst (populate_fully N dense low s)) = k_populated s2 /\
      k_lower (fst (populate_fully N dense low s)) = k_lower s2 /\
      exists a b, k_full s2 = Some a /\ k_full (fst (populate_fully N dense low s)) = Some b /\ amat b = amat a)).
  Proof.
    intros dense low s [Hi Hfo] s1 s2.
    assert (H1 := populate_upper_spec N K k nrm X Y two n m d 0 base Hret HX HY Hone dense s Hi Hfo).
    unfold holds in H1. subst s1 s2.
    remember (populate_fully N dense low s) as q eqn:Hq. unfold populate_fully in Hq. unfold bind at 1 in Hq.
    destruct (populate_upper N dense s) as [s1 r1]; cbn [fst snd] in *.
    destruct H1 as (Hi1 & Hf1 & _ & _ & _ & Hsome & Hr1).
    split; [split; assumption|]. split; [exact Hsome|].
    destruct r1 as [[]|e]; [right|left; destruct Hr1 as (-> & _); auto].
    split; [reflexivity|].
    destruct (k_full s1) as [a1|] eqn:Ha1; [|congruence].
    assert (H2 := populate_lower_spec N K k nrm X Y two n m d 0 base Hret HX HY Hone low s1 a1 Hi1 Hf1 Ha1).
    unfold holds in H2. unfold bind at 1 in Hq.
    destruct (populate_lower N low s1) as [s2 r2]; cbn [fst snd] in *.
    destruct H2 as (Hi2 & Hf2 & _ & _ & _ & (B & HB & _) & Hr2).
    destruct r2 as [[]|e]; [right|left; destruct Hr2 as (-> & _); auto].
    assert (H3 := densify_spec N K k nrm X Y two n m d 0 base dense s2 _ Hi2 Hf2 HB).
    unfold holds in H3. unfold bind at 1 in Hq.
    destruct (densify dense s2) as [s3 r3]; cbn [fst snd] in *.
    destruct H3 as (-> & Hi3 & _ & _ & Hp3 & Hl3 & _ & _ & HB3).
    unfold attr_or, bind, get in Hq. rewrite HB3 in Hq. unfold ret at 1 in Hq.
    match type of Hq with context [warn_if_nan_inf N ?a s3] =>
      assert (H4 := warn_spec N K a s3 (fx_kernel _ _ _ _ _ _ _ _ _ (iv_fixed _ _ _ _ _ _ _ _ _ _ _ s3 Hi3)));
      unfold holds in H4; destruct (warn_if_nan_inf N a s3) as [s4 r4] end.
    cbn [fst snd] in *. destruct H4 as [-> H4].
    split; [reflexivity|]. subst q. destruct r4 as [[]|e]; cbn [fst snd ret] in *.
    - split; [discriminate|]. split; [exact Hp3|]. split; [exact Hl3|]. do 2 eexists. split; [exact HB|]. split; [exact HB3|reflexivity].
    - destruct H4 as (-> & _). split; [discriminate|]. split; [exact Hp3|]. split; [exact Hl3|].
      do 2 eexists. split; [exact HB|]. split; [exact HB3|reflexivity].
  Qed.

  Lemma shape_populate : forall dense low (s : KM), (dense = false -> spi || sps = true) -> saneA s -> shape s ->
    shape (fst (populate_fully N dense low s)).
  Proof.
    intros dense low s Hd Hsa Hs.
    destruct (populate_cut dense low s Hsa) as (Hsa1 & Hne & H).
    assert (S1 := part_upper dense s Hd Hsa Hs).
    assert (S2 := part_lower low _ Hsa1 Hne S1).
    destruct H as [[_ H]|[_ [[_ H]|(_ & _ & Hp & Hl & a & b & Ha & Hb & Hab)]]].
    - rewrite H. exact S1.
    - rewrite H. exact S2.
    - intros b' Hb'. rewrite Hp, Hl. replace (amat b') with (amat a) by congruence. apply S2. exact Ha.
  Qed.

  (** Nothing was left half-done. *)
  Definition done (s : KM) : Prop := k_full s <> None ->
    k_populated s = true /\ (sps = false -> k_lower s = true).
  Lemma done_core : forall s s' : KM, k_populated s' = k_populated s -> k_lower s' = k_lower s ->
    k_full s' = k_full s -> done s -> done s'.
  Proof. intros s s' H1 H2 H3 H. unfold done. rewrite H1, H2, H3. exact H. Qed.
  Lemma done_populate : forall dense low (s : KM), (low = false -> sps = true) -> saneA s -> done s ->
    snd (populate_fully N dense low s) <> Raise RuntimeError -> done (fst (populate_fully N dense low s)).
  Proof.
    intros dense low s Hlow Hsa Hs Hok.
    destruct (populate_cut dense low s Hsa) as ([Hi1 Hf1] & Hne & H).
    destruct H as [[_ H]|[H1 [[_ H]|(H2 & _ & Hp & Hl & _)]]].
    - rewrite H in Hok. destruct (Hok eq_refl).
    - rewrite H in Hok. destruct (Hok eq_refl).
    - unfold done. rewrite Hp, Hl. intros _. clear Hp Hl Hok.
      assert (HU := populate_upper_spec N K k nrm X Y two n m d 0 base Hret HX HY Hone dense s (proj1 Hsa) (proj2 Hsa)).
      unfold holds in HU. set (s1 := fst (populate_upper N dense s)) in *. rewrite H1 in HU.
      destruct HU as (_ & _ & _ & Hl1 & _ & _ & HU).
      destruct (k_full s1) as [a1|] eqn:Ha1; [|congruence].
      assert (HL := populate_lower_spec N K k nrm X Y two n m d 0 base Hret HX HY Hone low s1 a1 Hi1 Hf1 Ha1).
      unfold holds in HL. rewrite H2 in HL. destruct HL as (_ & _ & _ & Hp2 & _ & _ & HL & _).
      rewrite Hp2. split.
      + destruct (k_full s) as [a|] eqn:Ha; [|apply HU]. rewrite HU. apply Hs. congruence.
      + intros Hsps. apply HL. destruct low; [reflexivity|]. rewrite (Hlow eq_refl) in Hsps. discriminate.
  Qed.
End Part.
