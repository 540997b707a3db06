(** Facts that hold in every state, attached or not: the kernel and the flag never
    change, attributes change only through set_attr and attach_to, and the stale centred
    matrix left by a re-attachment is never observed. *)
From Coq Require Import String List Arith ZArith Bool Lia.
Import ListNotations.
From Verif Require Import Prelude MatModel MatFacts UtilsModel IndexModel KMModel SpecKM MFacts
  KMFacts KMInv KMOps.

(** ** Projections preserved by a computation from every state *)
Section Stable.
  Context {E V U T : Type}.
  Notation KM := (km E V U).
  Variable f : KM -> T.

  Definition stable {A} (m : M KM A) : Prop := forall s, f (fst (m s)) = f s.

  Lemma stable_bind : forall {A B} (m : M KM A) (g : A -> M KM B),
    stable m -> (forall a, stable (g a)) -> stable (bind m g).
  Proof.
    intros A B m g Hm Hg s. unfold bind. specialize (Hm s).
    destruct (m s) as [s' [a|e]]; cbn in *; [rewrite (Hg a s')|]; exact Hm.
  Qed.
  Lemma stable_ret : forall {A} (a : A), stable (ret a).
  Proof. intros A a s. reflexivity. Qed.
  Lemma stable_raise : forall {A} e, stable (@raise KM A e).
  Proof. intros A e s. reflexivity. Qed.
  Lemma stable_lift : forall {A} (r : res A), stable (lift r).
  Proof. intros A r s. reflexivity. Qed.
  Lemma stable_get : stable get.
  Proof. intros s. reflexivity. Qed.
  Lemma stable_modify : forall g, (forall s, f (g s) = f s) -> stable (modify g).
  Proof. intros g H s. apply H. Qed.
  Lemma stable_when : forall b m, stable m -> stable (when b m).
  Proof. intros [] m H; [exact H|apply stable_ret]. Qed.
  Lemma stable_try : forall {A} (m : M KM A) e, stable m -> stable (try_except m e).
  Proof.
    intros A m e H s. unfold try_except. specialize (H s).
    destruct (m s) as [s' [a|e']]; exact H.
  Qed.
  Lemma stable_for_each : forall {A} (l : list A) b, (forall a, stable (b a)) ->
    stable (for_each l b).
  Proof.
    intros A l b H. induction l as [|a l IH]; cbn [for_each]; [apply stable_ret|].
    apply stable_bind; [apply H|intros; exact IH].
  Qed.
  Lemma stable_map_each : forall {A B} (l : list A) (b : A -> M KM B),
    (forall a, stable (b a)) -> stable (map_each l b).
  Proof.
    intros A B l b H. induction l as [|a l IH]; cbn [map_each]; [apply stable_ret|].
    apply stable_bind; [apply H|]. intros c. apply stable_bind; [exact IH|].
    intros; apply stable_ret.
  Qed.
  Lemma stable_attr_or : forall {A} (g : KM -> option A), stable (attr_or g).
  Proof.
    intros A g. unfold attr_or. apply stable_bind; [apply stable_get|].
    intros s. destruct (g s); [apply stable_ret|apply stable_raise].
  Qed.
  Lemma stable_fmap : forall {A B} (g : A -> B) (m : M KM A), stable m -> stable (fmap g m).
  Proof. intros A B g m H. apply stable_bind; [exact H|]. intros; apply stable_ret. Qed.
End Stable.

Ltac stab :=
  repeat (cbv beta; lazymatch goal with
    | |- stable _ (ret _) => apply stable_ret
    | |- stable _ (raise _) => apply stable_raise
    | |- stable _ (lift _) => apply stable_lift
    | |- stable _ get => apply stable_get
    | |- stable _ (attr_or _) => apply stable_attr_or
    | |- stable _ (modify _) => apply stable_modify; intros; reflexivity
    | |- stable _ (when _ _) => apply stable_when
    | |- stable _ (try_except _ _) => apply stable_try
    | |- stable _ (for_each _ _) => apply stable_for_each; intros
    | |- stable _ (map_each _ _) => apply stable_map_each; intros
    | |- stable _ (fmap _ _) => apply stable_fmap
    | |- stable _ (bind _ _) => apply stable_bind; [|intros]
    | |- stable _ (match ?x with _ => _ end) => destruct x
    | |- stable _ (if ?x then _ else _) => destruct x
    end).

Section Const.
  Context {E V U : Type}.
  Notation KM := (km E V U).
  Variable N : numops V.

  (** Everything only attach_to and set_attr may change. *)
  Definition frame (s : KM) :=
    (k_kernel s, k_keep_normed s, k_num_samples s, k_sample s, k_sample_two s,
     (k_two s, k_shape s, g_tag s)).

  Lemma frame_eval : forall i j, stable frame (eval_kernel i j : M KM V).
  Proof. intros. unfold eval_kernel. stab. Qed.
  Lemma frame_populate : forall dn lw, stable frame (populate_fully N dn lw : M KM (arr V)).
  Proof.
    intros. unfold populate_fully, populate_upper, populate_lower, densify,
      warn_if_nan_inf, set_full_entry. stab; try apply frame_eval.
  Qed.
  Lemma frame_temp : forall tg x, stable frame (temp_diagonal tg x : M KM (list V)).
  Proof. intros. unfold temp_diagonal. stab. Qed.
  Lemma frame_normalize : forall meth, stable frame (normalize N meth : M KM unit).
  Proof.
    intros. unfold normalize, warn_if_nan_inf. stab; try apply frame_populate;
      try apply frame_temp.
  Qed.
  Lemma frame_step : forall o, is_attach o = false -> stable frame (step N o : M KM (out V U)).
  Proof.
    intros o Ho. destruct o; [discriminate| | | | | | | | | | | | | | |]; unfold step.
    all: unfold full, full_sparse, centered, center, normed_km, frob_norm, diagonal,
           getitem, getitem_pair, compute_for_index_combinations, set_attr, get_attr, size.
    all: stab; try apply frame_populate; try apply frame_normalize; try apply frame_eval.
  Qed.

  (** Attributes. *)
  Lemma attr_eval : forall i j, stable k_attr (eval_kernel i j : M KM V).
  Proof. intros. unfold eval_kernel. stab. Qed.
  Lemma attr_populate : forall dn lw, stable k_attr (populate_fully N dn lw : M KM (arr V)).
  Proof.
    intros. unfold populate_fully, populate_upper, populate_lower, densify,
      warn_if_nan_inf, set_full_entry. stab; try apply attr_eval.
  Qed.
  Lemma attr_temp : forall tg x, stable k_attr (temp_diagonal tg x : M KM (list V)).
  Proof. intros. unfold temp_diagonal. stab. Qed.
  Lemma attr_normalize : forall meth, stable k_attr (normalize N meth : M KM unit).
  Proof.
    intros. unfold normalize, warn_if_nan_inf. stab; try apply attr_populate;
      try apply attr_temp.
  Qed.
  Lemma attr_step : forall o, is_attach o = false ->
    match o with OpSetAttr _ _ => False | _ => True end ->
    stable k_attr (step N o : M KM (out V U)).
  Proof.
    intros o Ho Hs. destruct o; [discriminate| | | | | | | | | |destruct Hs| | | | |];
      unfold step.
    all: unfold full, full_sparse, centered, center, normed_km, frob_norm, diagonal,
           getitem, getitem_pair, compute_for_index_combinations, get_attr, size.
    all: stab; try apply attr_populate; try apply attr_normalize; try apply attr_eval.
  Qed.

  (** The kernel, the flag and the tag. *)
  Definition ident (s : KM) := (k_kernel s, k_keep_normed s, g_tag s).

  Lemma ident_step : forall o, stable ident (step N o : M KM (out V U)).
  Proof.
    intros o. destruct (is_attach o) eqn:Ho.
    - destruct o; try discriminate. unfold step, attach_to. stab.
    - intros s. assert (H := frame_step o Ho s). unfold frame in H. unfold ident. congruence.
  Qed.

  Lemma ident_run : forall ops (s : KM), ident (run N ops s) = ident s.
  Proof.
    induction ops as [|o ops IH]; intros s; [reflexivity|]. cbn [run].
    rewrite IH. apply ident_step.
  Qed.

  Lemma run_app : forall ops1 ops2 (s : KM),
    run N (ops1 ++ ops2) s = run N ops2 (run N ops1 s).
  Proof. induction ops1 as [|o ops1 IH]; intros ops2 s; [reflexivity|]. apply IH. Qed.

  Lemma frame_run : forall ops (s : KM), no_attach ops -> frame (run N ops s) = frame s.
  Proof.
    induction ops as [|o ops IH]; intros s H; [reflexivity|]. cbn [run].
    unfold no_attach in H. cbn [forallb] in H. apply andb_true_iff in H. destruct H as [H1 H2].
    apply negb_true_iff in H1. rewrite (IH _ H2). apply frame_step, H1.
  Qed.
End Const.

(** ** Histories *)
Section History.
  Context {E V U : Type}.
  Variable N : numops V.
  Variable K : kernel E V.
  Variable k : list E -> list E -> V.
  Variable nrm : bool.

  (** The state reached by any history whose last attach_to is the successful one to
      [x], [y]. *)
  Lemma hist_attached : forall (pre : list (op E U)) x y n m d,
    admissible x y n m d ->
    let s0 := run N pre (km_new K nrm []) in
    run N (pre ++ [OpAttach x y]) (km_new K nrm []) = attached s0 x y n m d /\
    k_kernel s0 = K /\ k_keep_normed s0 = nrm /\ g_tag s0 = 0.
  Proof.
    intros pre x y n m d Hadm s0. rewrite run_app. fold s0. split.
    - cbn [run step]. unfold fmap, bind. rewrite (attach_to_ok s0 x y n m d Hadm). reflexivity.
    - assert (H := ident_run N pre (km_new K nrm [])). fold s0 in H. unfold ident in H.
      inversion H. auto.
  Qed.

  Lemma hist_sane : forall (pre post : list (op E U)) x y n m d,
    returns_only K k x y n m d -> admissible x y n m d -> no_attach post ->
    sane N K k nrm (stored n d x) (stored2 n m d x y) (is_some y) n m d
         (g_calls (run N pre (km_new K nrm [])))
         (run N (pre ++ OpAttach x y :: post) (km_new K nrm [])).
  Proof.
    intros pre post x y n m d Hret Hadm Hno.
    change (OpAttach x y :: post) with ([OpAttach x y] ++ post).
    rewrite app_assoc, run_app.
    destruct (hist_attached pre x y n m d Hadm) as (-> & HK & Hn & Ht).
    set (s0 := run N pre (km_new K nrm [])) in *.
    apply (keeps_run N K k nrm (stored n d x) (stored2 n m d x y) (is_some y) n m d
             (g_calls s0) (ret_stored K k x y n m d Hadm Hret) eq_refl (stored2_shape x y n m d Hadm)
             (stored2_one x y n m d Hadm) post _ Hno).
    assert (H := attached_inv K k s0 x y n m d HK Hadm). rewrite Hn, Ht in H.
    split; [exact H|]. unfold full_ok. cbn. auto.
  Qed.
End History.

(** ** The stale centred matrix is never observed *)
Section Blind.
  Context {E V U : Type}.
  Notation KM := (km E V U).
  Variable N : numops V.

  (** [m] neither reads nor writes the centred matrix. *)
  Definition blind {A} (m : M KM A) : Prop :=
    forall c s, m (set_centered c s) = (set_centered c (fst (m s)), snd (m s)).

  Lemma blind_bind : forall {A B} (m : M KM A) (g : A -> M KM B),
    blind m -> (forall a, blind (g a)) -> blind (bind m g).
  Proof.
    intros A B m g Hm Hg c s. unfold bind. rewrite Hm.
    destruct (m s) as [s' [a|e]]; cbn; [apply Hg|reflexivity].
  Qed.
  Lemma blind_ret : forall {A} (a : A), blind (ret a).
  Proof. intros A a c s. reflexivity. Qed.
  Lemma blind_raise : forall {A} e, blind (@raise KM A e).
  Proof. intros A e c s. reflexivity. Qed.
  Lemma blind_lift : forall {A} (r : res A), blind (lift r).
  Proof. intros A r c s. reflexivity. Qed.
  Lemma blind_modify : forall g, (forall c s, g (set_centered c s) = set_centered c (g s)) ->
    blind (modify g).
  Proof. intros g H c s. unfold modify. cbn. rewrite H. reflexivity. Qed.
  Lemma blind_get : forall {A} (g : KM -> M KM A),
    (forall s, blind (g s)) -> (forall c s, g (set_centered c s) = g s) ->
    blind (bind get g).
  Proof.
    intros A g H1 H2 c s. unfold bind, get. rewrite H2. apply H1.
  Qed.
  Lemma blind_when : forall b m, blind m -> blind (when b m).
  Proof. intros [] m H; [exact H|apply blind_ret]. Qed.
  Lemma blind_try : forall {A} (m : M KM A) e, blind m -> blind (try_except m e).
  Proof.
    intros A m e H c s. unfold try_except. rewrite H.
    destruct (m s) as [s' [a|e']]; reflexivity.
  Qed.
  Lemma blind_for_each : forall {A} (l : list A) b, (forall a, blind (b a)) ->
    blind (for_each l b).
  Proof.
    intros A l b H. induction l as [|a l IH]; cbn [for_each]; [apply blind_ret|].
    apply blind_bind; [apply H|intros; exact IH].
  Qed.
  Lemma blind_map_each : forall {A B} (l : list A) (b : A -> M KM B),
    (forall a, blind (b a)) -> blind (map_each l b).
  Proof.
    intros A B l b H. induction l as [|a l IH]; cbn [map_each]; [apply blind_ret|].
    apply blind_bind; [apply H|]. intros c. apply blind_bind; [exact IH|].
    intros; apply blind_ret.
  Qed.
  Lemma blind_attr_or : forall {A} (g : KM -> option A),
    (forall c s, g (set_centered c s) = g s) -> blind (attr_or g).
  Proof.
    intros A g H. unfold attr_or. apply blind_get.
    - intros s. destruct (g s); [apply blind_ret|apply blind_raise].
    - intros c s. rewrite H. reflexivity.
  Qed.
  Lemma blind_fmap : forall {A B} (g : A -> B) (m : M KM A), blind m -> blind (fmap g m).
  Proof. intros A B g m H. apply blind_bind; [exact H|]. intros; apply blind_ret. Qed.

  Ltac bl :=
    repeat (cbv beta; lazymatch goal with
      | |- blind (ret _) => apply blind_ret
      | |- blind (raise _) => apply blind_raise
      | |- blind (lift _) => apply blind_lift
      | |- blind (attr_or _) => apply blind_attr_or; reflexivity
      | |- blind (modify _) => apply blind_modify; intros; reflexivity
      | |- blind (when _ _) => apply blind_when
      | |- blind (try_except _ _) => apply blind_try
      | |- blind (for_each _ _) => apply blind_for_each; intros
      | |- blind (map_each _ _) => apply blind_map_each; intros
      | |- blind (fmap _ _) => apply blind_fmap
      | |- blind (bind get _) => apply blind_get; [intros|intros; reflexivity]
      | |- blind (bind _ _) => apply blind_bind; [|intros]
      | |- blind (match ?x with _ => _ end) => destruct x
      | |- blind (if ?x then _ else _) => destruct x
      end).

  Lemma blind_eval : forall i j, blind (eval_kernel i j).
  Proof. intros. unfold eval_kernel. bl. Qed.
  Lemma blind_populate : forall dn lw, blind (populate_fully N dn lw).
  Proof.
    intros. unfold populate_fully, populate_upper, populate_lower, densify,
      warn_if_nan_inf, set_full_entry. bl; apply blind_eval.
  Qed.
  Lemma blind_temp : forall tg x, blind (temp_diagonal tg x).
  Proof. intros tg x c s. reflexivity. Qed.
  Lemma blind_normalize : forall meth, blind (normalize N meth).
  Proof.
    intros. unfold normalize, warn_if_nan_inf. bl; try apply blind_populate;
      try apply blind_temp.
  Qed.
  Lemma blind_attach : forall x y, blind (attach_to x y).
  Proof. intros. unfold attach_to. bl. Qed.

  (** Two states that differ at most in a centred matrix not marked as computed. *)
  Definition sim (s t : KM) : Prop :=
    exists c, t = set_centered c s /\ (k_is_centered s = true -> k_centered s = c).

  Lemma ic_eval : forall i j, stable (fun s : KM => (k_is_centered s, k_centered s))
                                     (eval_kernel i j).
  Proof. intros. unfold eval_kernel. stab. Qed.
  Lemma ic_populate : forall dn lw, stable (fun s : KM => (k_is_centered s, k_centered s))
                                     (populate_fully N dn lw).
  Proof.
    intros. unfold populate_fully, populate_upper, populate_lower, densify,
      warn_if_nan_inf, set_full_entry. stab; apply ic_eval.
  Qed.
  Lemma ic_normalize : forall meth, stable (fun s : KM => (k_is_centered s, k_centered s))
                                     (normalize N meth).
  Proof.
    intros. unfold normalize, warn_if_nan_inf, temp_diagonal. stab; apply ic_populate.
  Qed.

  (** What the flag may do: stay, or be cleared. *)
  Lemma sim_blind : forall {A} (m : M KM A), blind m ->
    stable (fun s : KM => (k_is_centered s, k_centered s)) m ->
    forall s t, sim s t -> snd (m s) = snd (m t) /\ sim (fst (m s)) (fst (m t)).
  Proof.
    intros A m Hb Hst s t (c & -> & Hc). rewrite Hb. cbn. split; [reflexivity|].
    exists c. split; [reflexivity|]. specialize (Hst s). cbv beta in Hst.
    inversion Hst as [[H1 H2]]. rewrite H1, H2. exact Hc.
  Qed.

  Lemma set_centered_same : forall c (s : KM), k_centered s = c -> set_centered c s = s.
  Proof. intros c s H. destruct s; cbn in *; subst; reflexivity. Qed.

  (** center: the states agree afterwards up to the same rule. *)
  Lemma sim_center : forall s t, sim s t ->
    snd (center N s) = snd (center N t) /\
    sim (fst (center N s)) (fst (center N t)) /\
    (snd (center N s) = Ok tt ->
       k_is_centered (fst (center N s)) = true /\
       exists c, k_centered (fst (center N s)) = Some c).
  Proof.
    intros s t Hsim.
    assert (Hsplit : forall u : KM, center N u =
      (c <- (two <- attr_or k_two ;;
             if (two : bool) then raise NotImplementedErr
             else
               s0 <- get ;;
               when (negb (k_populated s0))
                 (a <- populate_fully N true true ;; modify (set_full (Some a))) ;;;
               a <- attr_or k_full ;;
               lift (op_center N a)) ;;
       (modify (set_centered (Some c)) ;;; modify (set_is_centered true))) u).
    { intros u. unfold center. unfold bind, attr_or, bind, get, lift, modify, when, raise, ret.
      destruct (k_two u) as [[]|]; cbn; [reflexivity| |reflexivity].
      destruct (negb (k_populated u)); cbn.
      - destruct (populate_fully N true true u) as [u' [a|e]]; [|reflexivity].
        cbn. destruct (op_center N a); reflexivity.
      - destruct (k_full u) as [a|]; [|reflexivity].
        destruct (op_center N a); reflexivity. }
    rewrite !Hsplit. clear Hsplit.
    set (m := (two <- attr_or k_two ;; _)).
    assert (Hb : blind m) by (unfold m; bl; apply blind_populate).
    assert (Hst : stable (fun s : KM => (k_is_centered s, k_centered s)) m)
      by (unfold m; stab; apply ic_populate).
    destruct Hsim as (c & -> & Hc). unfold bind, modify. rewrite Hb.
    specialize (Hst s). cbv beta in Hst.
    destruct (m s) as [s' [v|e]]; cbn in *.
    - split; [reflexivity|]. split.
      + exists (Some v). split; [destruct s'; reflexivity|reflexivity].
      + intros _. split; [reflexivity|]. exists v. reflexivity.
    - split; [reflexivity|]. split; [|discriminate].
      exists c. split; [reflexivity|]. inversion Hst as [[H1 H2]]. rewrite H1, H2. exact Hc.
  Qed.

  Lemma sim_centered : forall s t, sim s t ->
    snd (centered N s) = snd (centered N t) /\ sim (fst (centered N s)) (fst (centered N t)).
  Proof.
    intros s t Hsim. destruct Hsim as (c & Ht & Hc).
    unfold centered, bind, attr_or, bind, get, ret, raise, when.
    assert (H2 : k_two t = k_two s) by (subst t; reflexivity).
    assert (Hi : k_is_centered t = k_is_centered s) by (subst t; reflexivity).
    assert (Hs : sim s t) by (exists c; auto).
    rewrite H2. destruct (k_two s) as [[]|]; cbn; auto.
    rewrite Hi. destruct (k_is_centered s) eqn:Hic; cbn.
    - assert (Hts : t = s) by (rewrite Ht; apply set_centered_same, Hc; auto).
      assert (Hss : sim s s) by (exists (k_centered s); split; [symmetry; apply set_centered_same; reflexivity|reflexivity]).
      rewrite Hts. destruct (k_centered s); split; try reflexivity; exact Hss.
    - destruct (sim_center s t Hs) as (E1 & E2 & E3).
      destruct (center N s) as [s1 [[]|e1]], (center N t) as [t1 [[]|e2]]; cbn in *;
        try discriminate; [|inversion E1; subst; auto].
      destruct (E3 eq_refl) as (F1 & c1 & F2). destruct E2 as (c' & -> & Hc').
      specialize (Hc' F1). cbn. rewrite F2 in *. subst c'. cbn. split; [reflexivity|].
      exists (Some c1). split; [reflexivity|]. intros _. exact F2.
  Qed.

  Theorem sim_step : forall o s t, sim s t ->
    snd (step N o s) = snd (step N o t) /\ sim (fst (step N o s)) (fst (step N o t)).
  Proof.
    assert (Hfmap : forall A B (g : A -> B) (m : M KM A),
      (forall s t, sim s t -> snd (m s) = snd (m t) /\ sim (fst (m s)) (fst (m t))) ->
      forall s t, sim s t -> snd (fmap g m s) = snd (fmap g m t) /\
                             sim (fst (fmap g m s)) (fst (fmap g m t))).
    { intros A B g m H s t Hs. unfold fmap, bind, ret. destruct (H s t Hs) as [H1 H2].
      destruct (m s) as [s' [a|e]], (m t) as [t' [a'|e']]; cbn in *; try discriminate;
        inversion H1; subst; auto. }
    intros o. destruct o; unfold step.
    - apply Hfmap. intros s t (c & -> & Hc). rewrite blind_attach. cbn.
      split; [reflexivity|]. exists c. split; [reflexivity|].
      unfold attach_to, bind, lift, modify, raise.
      destruct (ensure_2D_own x) as [a|e]; cbn; [|exact Hc].
      destruct y as [y|]; [|discriminate].
      destruct (ensure_2D_own y) as [b|e]; cbn; [|exact Hc].
      destruct (negb (nth 1 (nd_shape a) 0 =? nth 1 (nd_shape b) 0)); cbn; [exact Hc|].
      discriminate.
    - apply Hfmap. apply sim_blind; unfold full; [bl|stab];
        try apply blind_populate; try apply blind_normalize; try apply ic_populate;
        try apply ic_normalize.
    - apply Hfmap. apply sim_blind; unfold full_sparse; [bl|stab];
        try apply blind_populate; try apply blind_normalize; try apply ic_populate;
        try apply ic_normalize.
    - apply Hfmap. intros s t H. destruct (sim_center s t H) as (H1 & H2 & _). auto.
    - apply Hfmap. apply sim_centered.
    - apply Hfmap. apply sim_blind; [apply blind_normalize|apply ic_normalize].
    - apply Hfmap. apply sim_blind; unfold normed_km; [bl|stab];
        try apply blind_normalize; try apply ic_normalize.
    - apply Hfmap. apply sim_blind; unfold frob_norm; [bl|stab];
        try apply blind_populate; try apply ic_populate.
    - apply Hfmap. apply sim_blind; unfold diagonal; [bl|stab];
        try apply blind_eval; try apply ic_eval.
    - apply Hfmap. apply sim_blind; unfold getitem, getitem_pair,
        compute_for_index_combinations; [bl|stab];
        try apply blind_populate; try apply ic_populate; try apply blind_eval;
        try apply ic_eval.
    - apply Hfmap. apply sim_blind; unfold set_attr; [bl|stab].
    - apply Hfmap. apply sim_blind; unfold get_attr; [bl|stab].
    - intros s t (c & -> & Hc). cbn. split; [reflexivity|]. exists c. auto.
    - apply Hfmap. apply sim_blind; unfold size; [bl|stab].
    - apply Hfmap. apply sim_blind; [bl|stab].
    - intros s t (c & -> & Hc). cbn. split; [reflexivity|]. exists c. auto.
  Qed.

  Theorem sim_trace : forall ops s t, sim s t ->
    trace N ops s = trace N ops t /\ sim (run N ops s) (run N ops t).
  Proof.
    induction ops as [|o ops IH]; intros s t H; [auto|]. cbn [trace run].
    destruct (sim_step o s t H) as [H1 H2]. destruct (IH _ _ H2) as [H3 H4].
    rewrite H1, H3. auto.
  Qed.

  (** A re-attached object is similar to a fresh one. *)
  Lemma sim_attach : forall K nrm (s : KM) x y n m d,
    k_kernel s = K -> k_keep_normed s = nrm -> g_tag s = 0 ->
    sim (attached s x y n m d) (attached (km_new K nrm (g_calls s)) x y n m d).
  Proof.
    intros K nrm s x y n m d HK Hn Ht. exists None. split; [|discriminate].
    unfold attached, reset, set_sizes, set_sample_two, set_sample, set_centered, km_new,
      km_new_tagged. cbn. rewrite HK, Hn, Ht. reflexivity.
  Qed.
End Blind.
