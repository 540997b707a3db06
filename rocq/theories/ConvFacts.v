(** Lemmas about ConvModel.v: an object whose kernel's results are converted runs in step with one whose
    kernel converts itself. *)
From Coq Require Import String List Arith ZArith Bool Lia.
Import ListNotations.
From Verif Require Import Prelude MatModel MatFacts UtilsModel IndexModel KMModel SpecKM MFacts KMFacts KMIndex KMInv
  KMGet KMHist ConvModel SpecConv.
Local Open Scope list_scope.

Section Sim.
  Context {E R V U : Type}.
  Variable N : numops V.
  Variable conv : R -> res V.
  Variable norm2 : arr V -> list R -> list R -> res (arr V).
  Variable kern : nat -> list E -> list E -> res R.
  Variable k : list E -> list E -> R.
  Variable formats : bool.
  Variables X Y : ndarray E.
  Variable two : bool.
  Variables n m d : nat.
  Hypothesis HX : nd_shape X = [n; d].
  Hypothesis HY : nd_shape Y = [m; d].
  Hypothesis Hone : two = false -> Y = X /\ m = n.
  Hypothesis Hk : forall t i j, i < n -> j < m ->
    kern t (row_of d X i) (row_of d Y j) = Ok (k (row_of d X i) (row_of d Y j)).
  Notation KM := (km E V U).
  Notation Raw := (rawkm E R V U).
  Notation T := (converted conv k formats : kernel E V).

  (** What the two objects have in common. *)
  Definition view (b : KM) :=
    (k_keep_normed b, k_num_samples b, k_sample b, k_sample_two b, k_two b, k_shape b, k_full b, k_normed b,
     k_frob b, k_populated b, k_lower b, k_is_centered b, k_is_normed b, k_attr b, kfmt (k_kernel b)).
  Definition alike (b t : KM) : Prop :=
    view b = view t /\ (k_is_centered t = true -> k_centered b = k_centered t).
  Definition kept (t : KM) := (k_kernel t, k_memo t, k_sample t, k_sample_two t, k_two t, k_shape t).

  Lemma alike_fields : forall b t, alike b t ->
    k_keep_normed b = k_keep_normed t /\ k_num_samples b = k_num_samples t /\ k_sample b = k_sample t /\
    k_sample_two b = k_sample_two t /\ k_two b = k_two t /\ k_shape b = k_shape t /\ k_full b = k_full t /\
    k_normed b = k_normed t /\ k_frob b = k_frob t /\ k_populated b = k_populated t /\ k_lower b = k_lower t /\
    k_is_centered b = k_is_centered t /\ k_is_normed b = k_is_normed t /\ k_attr b = k_attr t /\
    kfmt (k_kernel b) = kfmt (k_kernel t).
  Proof. intros b t [H _]. unfold view in H. inversion H. repeat split; assumption. Qed.

  (** Programs on the common part. *)
  Definition simb {A} (p : M KM A) : Prop := forall b t, alike b t ->
    alike (fst (p b)) (fst (p t)) /\ snd (p b) = snd (p t) /\ kept (fst (p t)) = kept t.

  Lemma simb_ret : forall A (a : A), simb (ret a).
  Proof. intros A a b t H. cbn. auto. Qed.
  Lemma simb_raise : forall A e, simb (raise e : M KM A).
  Proof. intros A e b t H. cbn. auto. Qed.
  Lemma simb_lift : forall A (r : res A), simb (lift r).
  Proof. intros A r b t H. cbn. auto. Qed.
  Lemma simb_bind : forall A B (p : M KM A) (f : A -> M KM B), simb p -> (forall a, simb (f a)) -> simb (bind p f).
  Proof.
    intros A B p f Hp Hf b t H. unfold bind. destruct (Hp b t H) as (H1 & H2 & H3).
    destruct (p b) as [b' r]. destruct (p t) as [t' r']. cbn [fst snd] in *. subst r'.
    destruct r as [a|e]; [|cbn; auto]. destruct (Hf a b' t' H1) as (G1 & G2 & G3). split; [exact G1|]. split; [exact G2|].
    rewrite G3. exact H3.
  Qed.
  Lemma simb_each : forall A (l : list A) (f : A -> M KM unit), (forall a, simb (f a)) -> simb (for_each l f).
  Proof. intros A l f Hf. induction l as [|a l IH]; cbn [for_each]; [apply simb_ret|]. apply simb_bind; [apply Hf|intros _; exact IH]. Qed.
  Lemma simb_attr : forall A (f : KM -> option A), (forall b t, alike b t -> f b = f t) -> simb (attr_or f).
  Proof.
    intros A f Hf b t H. unfold attr_or, bind, get. rewrite (Hf b t H). destruct (f t); cbn; auto.
  Qed.
  Lemma simb_modify : forall g : KM -> KM, (forall b t, alike b t -> alike (g b) (g t)) -> (forall t, kept (g t) = kept t) -> simb (modify g).
  Proof. intros g H1 H2 b t H. cbn. auto. Qed.

  Ltac fields H := let F := fresh "F" in pose proof (alike_fields _ _ H) as F; destruct F as (?&?&?&?&?&?&?&?&?&?&?&?&?&?&?).
  Ltac upd := intros b t H; fields H; destruct H as [_ Hc]; split; [unfold view; cbn; congruence|cbn; auto].

  Lemma simb_full : forall v, simb (modify (set_full v)).
  Proof. intros v. apply simb_modify; [upd|reflexivity]. Qed.
  Lemma simb_normed : forall v, simb (modify (set_normed v)).
  Proof. intros v. apply simb_modify; [upd|reflexivity]. Qed.
  Lemma simb_frob : forall v, simb (modify (set_frob v)).
  Proof. intros v. apply simb_modify; [upd|reflexivity]. Qed.
  Lemma simb_populated : forall v, simb (modify (set_populated v)).
  Proof. intros v. apply simb_modify; [upd|reflexivity]. Qed.
  Lemma simb_lower : forall v, simb (modify (set_lower v)).
  Proof. intros v. apply simb_modify; [upd|reflexivity]. Qed.
  Lemma simb_is_normed : forall v, simb (modify (set_is_normed v)).
  Proof. intros v. apply simb_modify; [upd|reflexivity]. Qed.
  Lemma simb_set_attr : forall nm (v : U), simb (set_attr nm v).
  Proof.
    intros nm v. unfold set_attr. apply simb_modify; [|reflexivity].
    intros b t H; fields H; destruct H as [_ Hc]; split; [unfold view; cbn; congruence|cbn; auto].
  Qed.
  Lemma simb_attr_full : simb (attr_or k_full).
  Proof. apply simb_attr. intros b t H. fields H. assumption. Qed.
  Lemma simb_attr_normed : simb (attr_or k_normed).
  Proof. apply simb_attr. intros b t H. fields H. assumption. Qed.
  Lemma simb_attr_frob : simb (attr_or k_frob).
  Proof. apply simb_attr. intros b t H. fields H. assumption. Qed.
  Lemma simb_attr_two : simb (attr_or k_two).
  Proof. apply simb_attr. intros b t H. fields H. assumption. Qed.
  Lemma simb_attr_shape : simb (attr_or k_shape).
  Proof. apply simb_attr. intros b t H. fields H. assumption. Qed.
  Lemma simb_attr_sample : simb (attr_or k_sample).
  Proof. apply simb_attr. intros b t H. fields H. assumption. Qed.
  Lemma simb_attr_sample_two : simb (attr_or k_sample_two).
  Proof. apply simb_attr. intros b t H. fields H. assumption. Qed.
  Lemma simb_entry : forall i j v, simb (set_full_entry i j v).
  Proof. intros i j v. unfold set_full_entry. apply simb_bind; [apply simb_attr_full|]. intros a. apply simb_full. Qed.
  Lemma simb_warn : forall a, simb (warn_if_nan_inf N a).
  Proof.
    intros a b t H. unfold warn_if_nan_inf, bind, get. fields H.
    replace (kfmt (k_kernel b)) with (kfmt (k_kernel t)) by congruence.
    destruct (contains_nan_inf N a && negb (kfmt (k_kernel t))); cbn; auto.
  Qed.
  Lemma simb_densify : forall b, simb (densify b).
  Proof.
    intros b. unfold densify. apply simb_bind; [apply simb_attr_full|]. intros a. unfold when.
    destruct (is_sparse a && b); [apply simb_full|apply simb_ret].
  Qed.
  Lemma simb_center : simb (a <- attr_or k_full ;; c <- lift (op_center N a) ;;
    modify (set_centered (Some c)) ;;; modify (set_is_centered true)).
  Proof.
    apply simb_bind; [apply simb_attr_full|]. intros a. apply simb_bind; [apply simb_lift|]. intros c b t H.
    unfold bind, modify. cbn [fst snd]. fields H. split; [|split; reflexivity].
    split; [unfold view; cbn; congruence|reflexivity].
  Qed.

  (** ** The two objects *)
  Definition kv (p : nat * nat) : R := k (row_of d X (fst p)) (row_of d Y (snd p)).
  Definition swap (i j : nat) : nat * nat := if (j <? i) && negb two then (j, i) else (i, j).
  Definition fixed (t : KM) : Prop :=
    k_sample t = Some X /\ k_sample_two t = Some Y /\ k_two t = Some two /\ k_shape t = Some (n, m).
  Definition raw_ok (s : Raw) : Prop :=
    q_kernel s = kern /\ fixed (q_base s) /\ (forall p r, memo_find (q_memo s) p = Some r -> r = kv p).
  Definition conv_ok (t : KM) : Prop :=
    k_kernel t = T /\ fixed t /\ (forall p v, memo_find (k_memo t) p = Some v -> conv (kv p) = Ok v).
  Definition rel (s : Raw) (t : KM) : Prop := alike (q_base s) t /\ raw_ok s /\ conv_ok t.
  Definition sim {A} (p : M Raw A) (q : M KM A) : Prop := forall s t, rel s t ->
    rel (fst (p s)) (fst (q t)) /\ snd (p s) = snd (q t).

  Lemma fixed_kept : forall t t', kept t' = kept t -> fixed t -> fixed t'.
  Proof. intros t t' H F. unfold kept in H. inversion H. unfold fixed in *. intuition congruence. Qed.
  Lemma fixed_alike : forall b t, alike b t -> fixed t -> fixed b.
  Proof. intros b t H F. fields H. unfold fixed in *. intuition congruence. Qed.

  Lemma sim_base : forall A (p : M KM A), simb p -> sim (base p) p.
  Proof.
    intros A p Hp s t (Ha & (K1 & K2 & K3) & (C1 & C2 & C3)). destruct (Hp _ _ Ha) as (H1 & H2 & H3).
    unfold base. destruct (p (q_base s)) as [b r]. destruct (p t) as [t' r']. cbn [fst snd] in *.
    assert (F : fixed t') by (eapply fixed_kept; eassumption).
    split; [|exact H2]. split; [exact H1|]. split.
    - split; [exact K1|]. split; [|exact K3]. cbn [q_base]. eapply fixed_alike; eassumption.
    - unfold kept in H3. inversion H3. split; [congruence|]. split; [exact F|]. intros p0 v. rewrite H4. apply C3.
  Qed.
  Lemma sim_ret : forall A (a : A), sim (ret a) (ret a).
  Proof. intros A a s t H. cbn. auto. Qed.
  Lemma sim_raise : forall A e, sim (raise e) (raise e : M KM A).
  Proof. intros A e s t H. cbn. auto. Qed.
  Lemma sim_lift : forall A (r : res A), sim (lift r) (lift r).
  Proof. intros A r s t H. cbn. auto. Qed.
  Lemma sim_bind : forall A B (p : M Raw A) q (f : A -> M Raw B) g, sim p q -> (forall a, sim (f a) (g a)) ->
    sim (bind p f) (bind q g).
  Proof.
    intros A B p q f g Hp Hf s t H. unfold bind. destruct (Hp s t H) as [H1 H2].
    destruct (p s) as [s' r]. destruct (q t) as [t' r']. cbn [fst snd] in *. subst r'.
    destruct r as [a|e]; [apply Hf; exact H1|cbn; auto].
  Qed.
  Lemma sim_get : forall A (f : Raw -> M Raw A) g, (forall s t, rel s t ->
      rel (fst (f s s)) (fst (g t t)) /\ snd (f s s) = snd (g t t)) ->
    sim (bind get f) (bind get g).
  Proof. intros A f g H s t Hr. exact (H s t Hr). Qed.
  Lemma sim_try : forall A (p : M Raw A) q e, sim p q -> sim (try_except p e) (try_except q e).
  Proof.
    intros A p q e Hp s t H. unfold try_except. destruct (Hp s t H) as [H1 H2].
    destruct (p s) as [s' r]. destruct (q t) as [t' r']. cbn [fst snd] in *. subst r'. destruct r; cbn; auto.
  Qed.
  Lemma sim_when : forall b (p : M Raw unit) q, sim p q -> sim (when b p) (when b q).
  Proof. intros [] p q H; [exact H|apply sim_ret]. Qed.
  Lemma sim_each : forall A (l : list A) (f : A -> M Raw unit) g, (forall a, In a l -> sim (f a) (g a)) ->
    sim (for_each l f) (for_each l g).
  Proof.
    intros A l f g. induction l as [|a l IH]; intros H; cbn [for_each]; [apply sim_ret|].
    apply sim_bind; [apply H; left; reflexivity|]. intros _. apply IH. intros b Hb. apply H. right. exact Hb.
  Qed.

  Lemma row_X : forall i, i < n -> nd_row X i = Ok (row_of d X i).
  Proof. intros i Hi. unfold nd_row, row_of. rewrite HX. apply Nat.ltb_lt in Hi. rewrite Hi. reflexivity. Qed.
  Lemma row_Y : forall j, j < m -> nd_row Y j = Ok (row_of d Y j).
  Proof. intros i Hi. unfold nd_row, row_of. rewrite HY. apply Nat.ltb_lt in Hi. rewrite Hi. reflexivity. Qed.
  Lemma swap_range : forall i j, i < n -> j < m -> fst (swap i j) < n /\ snd (swap i j) < m.
  Proof.
    intros i j Hi Hj. unfold swap. destruct (j <? i) eqn:Ej; cbn [andb]; [|cbn; auto].
    destruct two; cbn [negb]; [cbn; auto|]. apply Nat.ltb_lt in Ej. destruct (Hone eq_refl). cbn. lia.
  Qed.

  (** Evaluating in the first object. *)
  Lemma eval_raw_ok : forall i j s t, i < n -> j < m -> rel s t ->
    rel (fst (eval_raw i j s)) t /\ snd (eval_raw i j s) = Ok (kv (swap i j)).
  Proof.
    intros i j s t Hi Hj (Ha & (K1 & K2 & K3) & HC). destruct K2 as (F1 & F2 & F3 & F4).
    destruct (swap_range i j Hi Hj) as [P1 P2].
    assert (Ep : base (if j <? i then two0 <- attr_or k_two ;; ret (if negb two0 then (j, i) else (i, j)) else ret (i, j)) s
                 = (s, Ok (swap i j)) :> Raw * res (nat * nat)).
    { unfold base, swap. destruct s as [b q mm]. cbn [q_base] in *. destruct (j <? i); cbn [andb].
      - unfold attr_or, bind, get. rewrite F3. cbn. destruct two; reflexivity.
      - reflexivity. }
    enough (G : exists s', eval_raw i j s = (s', Ok (kv (swap i j))) /\ rel s' t)
      by (destruct G as (s' & -> & G); split; [exact G|reflexivity]).
    unfold eval_raw. unfold bind at 1. rewrite Ep. cbv beta iota. unfold bind at 1, get at 1. cbv beta iota.
    destruct (memo_find (q_memo s) (swap i j)) as [r|] eqn:Em.
    { exists s. split; [unfold ret; rewrite (K3 _ _ Em); reflexivity|]. split; [exact Ha|]. split; [|exact HC].
      split; [exact K1|]. split; [unfold fixed; auto|exact K3]. }
    rewrite F1, (row_X _ P1). unfold base, attr_or, bind, get, lift, modify, ret. rewrite F2, (row_Y _ P2).
    cbv beta iota zeta. cbn [q_base q_kernel q_memo]. rewrite K1, (Hk _ _ _ P1 P2). fold (kv (swap i j)).
    eexists. split; [reflexivity|].
    split; [|split; [|exact HC]].
    - fields Ha. destruct Ha as [_ Hc]. split; [unfold view; cbn; congruence|cbn; exact Hc].
    - split; [reflexivity|]. split; [unfold fixed; cbn; auto|].
      cbn [store_raw q_memo memo_find]. intros p r. destruct (pair_eqb p (swap i j)) eqn:Eq; [|apply K3].
      intros H. inversion H. unfold pair_eqb in Eq. apply andb_true_iff in Eq. destruct Eq as [E1 E2].
      apply Nat.eqb_eq in E1. apply Nat.eqb_eq in E2. replace p with (swap i j); [reflexivity|].
      destruct p, (swap i j); cbn in *; congruence.
  Qed.

  (** Evaluating in the second. *)
  Lemma eval_conv_ok : forall i j s t, i < n -> j < m -> rel s t ->
    rel s (fst (eval_kernel i j t)) /\ snd (eval_kernel i j t) = conv (kv (swap i j)).
  Proof.
    intros i j s t Hi Hj (Ha & HR & (K1 & K2 & K3)). destruct K2 as (F1 & F2 & F3 & F4).
    destruct (swap_range i j Hi Hj) as [P1 P2].
    assert (Ep : (if j <? i then two0 <- attr_or k_two ;; ret (if negb two0 then (j, i) else (i, j)) else ret (i, j)) t
                 = (t, Ok (swap i j)) :> KM * res (nat * nat)).
    { unfold swap. destruct (j <? i); cbn [andb].
      - unfold attr_or, bind, get. rewrite F3. cbn. destruct two; reflexivity.
      - reflexivity. }
    enough (G : exists t', eval_kernel i j t = (t', conv (kv (swap i j))) /\ rel s t')
      by (destruct G as (t' & -> & G); split; [exact G|reflexivity]).
    unfold eval_kernel. unfold bind at 1. rewrite Ep. cbv beta iota. unfold bind at 1, get at 1. cbv beta iota.
    destruct (memo_find (k_memo t) (swap i j)) as [v|] eqn:Em.
    { exists t. split; [unfold ret; rewrite (K3 _ _ Em); reflexivity|]. split; [exact Ha|]. split; [exact HR|].
      split; [exact K1|]. split; [unfold fixed; auto|exact K3]. }
    rewrite F1, (row_X _ P1). unfold attr_or, bind, get, lift, modify, ret. rewrite F2, (row_Y _ P2).
    cbv beta iota zeta. rewrite K1. cbn [kf converted]. fold (kv (swap i j)).
    assert (Hlog : forall c, rel s (log_calls c t)).
    { intros c. split; [|split; [exact HR|]].
      - fields Ha. destruct Ha as [_ Hc]. split; [unfold view; cbn; congruence|cbn; exact Hc].
      - split; [exact K1|]. split; [unfold fixed; cbn; auto|exact K3]. }
    destruct (conv (kv (swap i j))) as [v|e] eqn:Ev; [|eexists; split; [reflexivity|apply Hlog]].
    eexists. split; [reflexivity|].
    split; [|split; [exact HR|]].
    - fields Ha. destruct Ha as [_ Hc]. split; [unfold view; cbn; congruence|cbn; exact Hc].
    - split; [exact K1|]. split; [unfold fixed; cbn; auto|].
      cbn [store_memo k_memo log_calls memo_find]. intros p v'. destruct (pair_eqb p (swap i j)) eqn:Eq; [|apply K3].
      intros H. inversion H. subst v'. unfold pair_eqb in Eq. apply andb_true_iff in Eq. destruct Eq as [E1 E2].
      apply Nat.eqb_eq in E1. apply Nat.eqb_eq in E2. replace p with (swap i j); [exact Ev|].
      destruct p, (swap i j); cbn in *; congruence.
  Qed.

  Lemma sim_fill : forall i j, i < n -> j < m ->
    sim (fill_raw conv i j) (v <- eval_kernel i j ;; set_full_entry i j v).
  Proof.
    intros i j Hi Hj s t H. unfold fill_raw. unfold bind.
    destruct (eval_raw_ok i j s t Hi Hj H) as [H1 H2]. destruct (eval_raw i j s) as [s' r]. cbn [fst snd] in *. subst r.
    destruct (eval_conv_ok i j s' t Hi Hj H1) as [H3 H4]. destruct (eval_kernel i j t) as [t' r]. cbn [fst snd] in *. subst r.
    unfold lift. destruct (conv (kv (swap i j))) as [v|e]; [|cbn; auto].
    exact (sim_base _ _ (simb_entry i j v) s' t' H3).
  Qed.

  Ltac rfields H := let F := fresh "F" in pose proof (alike_fields _ _ (proj1 H)) as F;
    destruct F as (?&?&?&?&?&?&?&?&?&?&?&?&?&?&?).
  Ltac into := match goal with
    | |- rel (fst (?p ?s)) (fst (?q ?t)) /\ snd (?p ?s) = snd (?q ?t) =>
        let G := fresh "G" in assert (G : sim p q); [|exact (G s t ltac:(assumption))] end.

  Lemma sim_shape : forall A (f : nat * nat -> M Raw A) g, sim (f (n, m)) (g (n, m)) ->
    sim (bind (base (attr_or k_shape)) f) (bind (attr_or k_shape) g).
  Proof.
    intros A f g H s t Hr. pose proof Hr as (Ha & (_ & (_ & _ & _ & Fs) & _) & (_ & (_ & _ & _ & Ft) & _)).
    unfold bind, base, attr_or, bind, get. rewrite Fs, Ft. cbn.
    destruct s as [b q mm]. exact (H _ _ Hr).
  Qed.
  Lemma sim_two : forall A (f : bool -> M Raw A) g, sim (f two) (g two) ->
    sim (bind (base (attr_or k_two)) f) (bind (attr_or k_two) g).
  Proof.
    intros A f g H s t Hr. pose proof Hr as (Ha & (_ & (_ & _ & Fs & _) & _) & (_ & (_ & _ & Ft & _) & _)).
    unfold bind, base, attr_or, bind, get. rewrite Fs, Ft. cbn.
    destruct s as [b q mm]. exact (H _ _ Hr).
  Qed.

  Lemma sim_upper : forall b, sim (populate_upper_raw N conv b) (populate_upper N b).
  Proof.
    intros b. unfold populate_upper_raw, populate_upper. apply sim_get. intros s t H. rfields H.
    replace (k_populated (q_base s)) with (k_populated t) by congruence.
    replace (k_full (q_base s)) with (k_full t) by congruence. into.
    apply sim_when. apply sim_shape. apply sim_bind; [apply sim_base, simb_full|]. intros _.
    apply sim_bind; [|intros _; apply sim_base, simb_populated]. apply sim_try. cbn [fst snd].
    apply sim_each. intros i Hi. apply in_seq in Hi. apply sim_each. intros j Hj. apply in_seq in Hj.
    apply sim_fill; lia.
  Qed.
  Lemma tril_range : forall a c p, In p (tril_indices a c) -> fst p < a /\ snd p < c.
  Proof.
    intros a c p H. unfold tril_indices in H. apply in_flat_map in H. destruct H as (i & Hi & Hp).
    apply in_map_iff in Hp. destruct Hp as (j & <- & Hj). apply in_seq in Hi. apply in_seq in Hj. cbn. lia.
  Qed.
  Lemma sim_lower : forall b, sim (populate_lower_raw N conv b) (populate_lower N b).
  Proof.
    intros b. unfold populate_lower_raw, populate_lower. apply sim_get. intros s t H. rfields H.
    replace (k_lower (q_base s)) with (k_lower t) by congruence. into.
    apply sim_when. apply sim_bind; [|intros _; apply sim_base, simb_lower]. apply sim_try.
    apply sim_shape. apply sim_two. cbn [fst snd]. destruct (negb two && (n =? m)).
    - apply sim_base. apply simb_bind; [apply simb_attr_full|]. intros a. apply simb_each. intros p. apply simb_entry.
    - apply sim_each. intros p Hp. apply tril_range in Hp. apply sim_fill; tauto.
  Qed.
  Lemma sim_populate : forall a b, sim (populate_raw N conv a b) (populate_fully N a b).
  Proof.
    intros a b. unfold populate_raw, populate_fully.
    apply sim_bind; [apply sim_upper|]. intros _. apply sim_bind; [apply sim_lower|]. intros _.
    apply sim_bind; [apply sim_base, simb_densify|]. intros _. apply sim_bind; [apply sim_base, simb_attr_full|].
    intros a0. apply sim_bind; [apply sim_base, simb_warn|]. intros _. apply sim_ret.
  Qed.

  (** ** The temporaries *)
  Lemma map_raw_ok : forall l s t, (forall p, In p l -> fst p < n /\ snd p < m) -> rel s t ->
    rel (fst (map_each l (fun p => eval_raw (fst p) (snd p)) s)) t /\
    snd (map_each l (fun p => eval_raw (fst p) (snd p)) s) = Ok (map (fun p => kv (swap (fst p) (snd p))) l).
  Proof.
    induction l as [|p l IH]; intros s t Hl H; cbn [map_each map]; [cbn; auto|].
    destruct (Hl p (or_introl eq_refl)) as [P1 P2]. unfold bind.
    destruct (eval_raw_ok _ _ s t P1 P2 H) as [H1 H2]. destruct (eval_raw (fst p) (snd p) s) as [s' r]. cbn [fst snd] in *. subst r.
    destruct (IH s' t (fun q Hq => Hl q (or_intror Hq)) H1) as [H3 H4].
    destruct (map_each l _ s') as [s'' r]. cbn [fst snd] in *. subst r. cbn. auto.
  Qed.
  Lemma map_conv_ok : forall l s t, (forall p, In p l -> fst p < n /\ snd p < m) -> rel s t ->
    rel s (fst (map_each l (fun p => eval_kernel (fst p) (snd p)) t)) /\
    snd (map_each l (fun p => eval_kernel (fst p) (snd p)) t) = rmap conv (map (fun p => kv (swap (fst p) (snd p))) l).
  Proof.
    induction l as [|p l IH]; intros s t Hl H; cbn [map_each map rmap]; [cbn; auto|].
    destruct (Hl p (or_introl eq_refl)) as [P1 P2]. unfold bind.
    destruct (eval_conv_ok _ _ s t P1 P2 H) as [H1 H2]. destruct (eval_kernel (fst p) (snd p) t) as [t' r]. cbn [fst snd] in *. subst r.
    destruct (conv (kv (swap (fst p) (snd p)))) as [v|e]; cbn [rbind]; [|cbn; auto].
    destruct (IH s t' (fun q Hq => Hl q (or_intror Hq)) H1) as [H3 H4].
    destruct (map_each l _ t') as [t'' r]. cbn [fst snd] in *. subst r. destruct (rmap conv _); cbn; auto.
  Qed.
  Lemma sim_combinations : forall rows cols, (forall i, In i rows -> i < n) -> (forall j, In j cols -> j < m) ->
    sim (combinations_raw conv rows cols) (compute_for_index_combinations rows cols).
  Proof.
    intros rows cols Hr Hc s t H. unfold combinations_raw, compute_for_index_combinations.
    assert (Hl : forall p, In p (product rows cols) -> fst p < n /\ snd p < m).
    { intros p Hp. unfold product in Hp. apply in_flat_map in Hp. destruct Hp as (i & Hi & Hp). apply in_map_iff in Hp.
      destruct Hp as (j & <- & Hj). cbn. auto. }
    destruct (map_raw_ok _ s t Hl H) as [H1 H2]. unfold bind.
    destruct (map_each (product rows cols) (fun p => eval_raw (fst p) (snd p)) s) as [s' r]. cbn [fst snd] in H1, H2. subst r.
    destruct (map_conv_ok _ s' t Hl H1) as [H3 H4].
    destruct (map_each (product rows cols) (fun p => eval_kernel (fst p) (snd p)) t) as [t' r]. cbn [fst snd] in H3, H4. subst r.
    unfold lift. destruct (rmap conv _); cbn; auto.
  Qed.
  Lemma indices_range : forall c ix r, get_indices_in_sample (Some c) ix = Ok r -> forall i, In i (fst r) -> i < c.
  Proof.
    intros c ix r H i Hi. unfold get_indices_in_sample in H.
    match type of H with rbind ?m _ = _ => destruct m as [elts|]; [|discriminate] end. cbn [rbind] in H.
    destruct (int_elts elts) as [zs|]; [|discriminate]. cbn [rbind] in H. destruct zs as [|z zs]; [discriminate|].
    destruct (existsb _ (z :: zs)) eqn:Ex; [discriminate|]. inversion H. subst r. cbn [fst] in Hi.
    apply in_map_iff in Hi. destruct Hi as (w & <- & Hw). apply (proj1 (sort_uniq_in w (z :: zs))) in Hw.
    assert (Hn : ((Z.of_nat c <=? w) || (w <? 0))%Z = false).
    { destruct ((Z.of_nat c <=? w) || (w <? 0))%Z eqn:Ew; [|reflexivity].
      assert (existsb (fun z => ((Z.of_nat c <=? z) || (z <? 0))%Z) (z :: zs) = true) by (apply existsb_exists; eauto). congruence. }
    apply orb_false_iff in Hn. destruct Hn as [N1 N2]. apply Z.leb_gt in N1. apply Z.ltb_ge in N2. lia.
  Qed.

  Lemma sim_pair : forall a b, sim (getitem_pair_raw N conv a b) (getitem_pair N a b).
  Proof.
    intros a b. unfold getitem_pair_raw, getitem_pair. apply sim_get. intros s t H.
    pose proof H as (_ & (_ & (_ & _ & _ & Fs) & _) & (_ & (_ & _ & _ & Ft) & _)). rewrite Fs, Ft. cbn [option_map fst snd].
    into. destruct (get_indices_in_sample (Some n) a) as [r|e] eqn:Er.
    2:{ intros s1 t1 H1. cbn. auto. }
    destruct (get_indices_in_sample (Some m) b) as [c|e] eqn:Ec.
    2:{ intros s1 t1 H1. cbn. auto. }
    assert (G : sim (if snd r && snd c then populate_raw N conv false true else combinations_raw conv (fst r) (fst c))
                    (if snd r && snd c then populate_fully N false true else compute_for_index_combinations (fst r) (fst c))).
    { destruct (snd r && snd c); [apply sim_populate|]. apply sim_combinations; eapply indices_range; eassumption. }
    intros s1 t1 H1. exact (G s1 t1 H1).
  Qed.

  Lemma sim_getitem : forall ix, sim (getitem_raw N conv ix) (getitem N ix).
  Proof.
    intros [a b|z|]; cbn [getitem_raw getitem].
    - apply sim_pair.
    - apply sim_shape. cbn [fst snd]. apply sim_bind; [apply sim_lift|]. intros p. apply sim_pair.
    - apply sim_raise.
  Qed.
End Sim.
