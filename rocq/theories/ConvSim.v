(** Lemmas about ConvModel.v: the operations of the two objects. *)
From Coq Require Import String List Arith ZArith Bool Lia.
Import ListNotations.
From Verif Require Import Prelude MatModel MatFacts UtilsModel IndexModel KMModel SpecKM MFacts KMFacts KMIndex KMInv
  KMGet KMHist ConvModel SpecConv ConvFacts.
Local Open Scope list_scope.

Lemma map_each_pairs : forall {St B} (g : nat * nat -> M St B) l s,
  map_each l (fun i => g (i, i)) s = map_each (map (fun i => (i, i)) l) g s.
Proof.
  intros St B g l. induction l as [|a l IH]; intros s; cbn [map_each map]; [reflexivity|].
  unfold bind. destruct (g (a, a) s) as [s' [b|e]]; [|reflexivity]. rewrite IH. reflexivity.
Qed.

Section Temp.
  Context {E R V U : Type}.
  Variable conv : R -> res V.
  Variable kern : nat -> list E -> list E -> res R.
  Variable k : list E -> list E -> R.
  Variable formats : bool.
  Variables (z : ndarray E) (c d : nat).
  Hypothesis Hz : nd_shape z = [c; d].
  Hypothesis Hk : forall t i j, i < c -> j < c -> kern t (row_of d z i) (row_of d z j) = Ok (k (row_of d z i) (row_of d z j)).
  Definition diag_of : list R := map (fun i => k (row_of d z i) (row_of d z i)) (seq 0 c).

  Definition temp_raw (calls : list (call E)) (tag : nat) : rawkm E R V U :=
    mkRaw (attached (q_base (new_raw kern formats false calls tag : rawkm E R V U)) z None c c d) kern [].
  Definition temp_conv (calls : list (call E)) (tag : nat) : km E V U :=
    attached (km_new_tagged (converted conv k formats) false calls tag) z None c c d.

  Lemma temp_adm : admissible z None c c d.
  Proof. split; [|reflexivity]. exists []. split; [exact Hz|constructor]. Qed.
  Lemma temp_rel : forall calls calls' tag tag',
    rel conv kern k formats (stored c d z) (stored c d z) false c c d (temp_raw calls tag) (temp_conv calls' tag').
  Proof.
    intros calls calls' tag tag'. split; [|split].
    - split; [reflexivity|]. intros H. discriminate H.
    - split; [reflexivity|]. split; [repeat split|]. intros p r H. discriminate H.
    - split; [reflexivity|]. split; [repeat split|]. intros p r H. discriminate H.
  Qed.

  Lemma diag_eq : map (fun p : nat * nat => kv k (stored c d z) (stored c d z) d (swap false (fst p) (snd p)))
      (map (fun i => (i, i)) (seq 0 c)) = diag_of.
  Proof.
    rewrite map_map. unfold diag_of. apply map_ext. intros i. unfold swap. cbn [fst snd]. rewrite Nat.ltb_irrefl. reflexivity.
  Qed.
  Lemma diag_pairs : forall p, In p (map (fun i => (i, i)) (seq 0 c)) -> fst p < c /\ snd p < c.
  Proof. intros p Hp. apply in_map_iff in Hp. destruct Hp as (i & <- & Hi). apply in_seq in Hi. cbn. lia. Qed.

  Lemma temp_diag_raw : forall tag (s : rawkm E R V U), q_kernel s = kern -> kfmt (k_kernel (q_base s)) = formats ->
    exists calls, temp_diagonal_raw tag z s =
      (mkRaw (log_calls calls (q_base s)) (q_kernel s) (q_memo s), Ok diag_of).
  Proof.
    intros tag s HK HF. unfold temp_diagonal_raw, bind at 1, get. rewrite HK, HF.
    assert (Er : snd ((attach_raw z None ;;; diagonal_raw) (new_raw kern formats false (g_calls (q_base s)) tag : rawkm E R V U)) = Ok diag_of).
    { unfold bind, attach_raw, bind, base. cbn [q_base new_raw].
      rewrite (attach_to_ok _ z None c c d temp_adm). unfold modify. cbn [q_base q_kernel].
      fold (temp_raw (g_calls (q_base s)) tag). unfold diagonal_raw, bind, base, attr_or, bind, get.
      cbn [q_base temp_raw attached k_two reset set_sizes is_some ret k_shape q_kernel q_memo fst].
      change (mkRaw _ kern []) with (temp_raw (g_calls (q_base s)) tag).
      rewrite (map_each_pairs (fun p => eval_raw (fst p) (snd p))).
      destruct (map_raw_ok conv kern k formats (stored c d z) (stored c d z) false c c d eq_refl eq_refl
        (fun _ => conj eq_refl eq_refl) Hk (map (fun i => (i, i)) (seq 0 c)) _ _ diag_pairs (temp_rel (g_calls (q_base s)) [] tag 0)) as [_ Ed].
      unfold temp_raw in Ed. rewrite diag_eq in Ed. exact Ed. }
    destruct ((attach_raw z None ;;; diagonal_raw) (new_raw kern formats false (g_calls (q_base s)) tag : rawkm E R V U)) as [s' r].
    cbn [snd] in Er. subst r. cbn [fst snd]. exists (g_calls (q_base s')). rewrite <- HK. reflexivity.
  Qed.

  Lemma temp_diag_conv : forall tag (t : km E V U), k_kernel t = converted conv k formats ->
    exists calls, temp_diagonal tag z t = (log_calls calls t, rmap conv diag_of).
  Proof.
    intros tag t HK. unfold temp_diagonal, bind at 1, get. rewrite HK.
    assert (Er : snd ((attach_to z None ;;; diagonal) (km_new_tagged (converted conv k formats) false (g_calls t) tag : km E V U)) = rmap conv diag_of).
    { unfold bind. rewrite (attach_to_ok _ z None c c d temp_adm). fold (temp_conv (g_calls t) tag).
      unfold diagonal, bind, attr_or, bind, get.
      cbn [temp_conv attached k_two reset set_sizes is_some ret k_shape fst].
      change (reset _) with (temp_conv (g_calls t) tag).
      rewrite (map_each_pairs (fun p => eval_kernel (fst p) (snd p))).
      destruct (map_conv_ok conv kern k formats (stored c d z) (stored c d z) false c c d eq_refl eq_refl
        (fun _ => conj eq_refl eq_refl) (map (fun i => (i, i)) (seq 0 c)) _ _ diag_pairs (temp_rel [] (g_calls t) 0 tag)) as [_ Ed].
      rewrite diag_eq in Ed. exact Ed. }
    destruct ((attach_to z None ;;; diagonal) (km_new_tagged (converted conv k formats) false (g_calls t) tag : km E V U)) as [t' r].
    cbn [snd] in Er. subst r. cbn [fst snd]. exists (g_calls t'). reflexivity.
  Qed.
End Temp.

Section Steps.
  Context {E R V U : Type}.
  Variable N : numops V.
  Variable conv : R -> res V.
  Variable norm2 : arr V -> list R -> list R -> res (arr V).
  Variable kern : nat -> list E -> list E -> res R.
  Variable k : list E -> list E -> R.
  Variable formats : bool.
  Variables X Y : ndarray E.
  Variable two : bool.
  Variables n m d : nat.
  Hypothesis HX : nd_shape X = [n; d].
  Hypothesis HY : nd_shape Y = [m; d].
  Hypothesis Hone : two = false -> Y = X /\ m = n.
  Hypothesis Hk : forall t i j, i < n -> j < m ->
    kern t (row_of d X i) (row_of d Y j) = Ok (k (row_of d X i) (row_of d Y j)).
  Hypothesis HkX : forall t i j, i < n -> j < n ->
    kern t (row_of d X i) (row_of d X j) = Ok (k (row_of d X i) (row_of d X j)).
  Hypothesis HkY : forall t i j, i < m -> j < m ->
    kern t (row_of d Y i) (row_of d Y j) = Ok (k (row_of d Y i) (row_of d Y j)).
  Hypothesis Hnorm : two = true -> normalises_alike N conv norm2 k X Y n m d.
  Notation KM := (km E V U).
  Notation Raw := (rawkm E R V U).
  Notation rel := (@rel E R V U conv kern k formats X Y two n m d).
  Notation sim := (@sim E R V U conv kern k formats X Y two n m d _).

  Ltac rfields H := let F := fresh "F" in pose proof (alike_fields _ _ (proj1 H)) as F;
    destruct F as (?&?&?&?&?&?&?&?&?&?&?&?&?&?&?).
  Ltac into := match goal with
    | |- rel (fst (?p ?s)) (fst (?q ?t)) /\ snd (?p ?s) = snd (?q ?t) =>
        let G := fresh "G" in assert (G : sim p q); [|exact (G s t ltac:(assumption))] end.
  Ltac sb := apply sim_base.

  Lemma rel_log : forall s t c c', rel s t ->
    rel (mkRaw (log_calls c (q_base s)) (q_kernel s) (q_memo s)) (log_calls c' t).
  Proof.
    intros s t c c' (Ha & (K1 & K2 & K3) & (C1 & C2 & C3)). split; [|split].
    - pose proof (alike_fields _ _ Ha) as (?&?&?&?&?&?&?&?&?&?&?&?&?&?&?). destruct Ha as [_ Hc].
      split; [unfold view; cbn; congruence|exact Hc].
    - split; [exact K1|]. split; [exact K2|exact K3].
    - split; [exact C1|]. split; [exact C2|exact C3].
  Qed.

  Lemma rmap_total : forall (f : nat -> R) c, (forall i, i < c -> exists v, conv (f i) = Ok v) ->
    exists l, rmap conv (map f (seq 0 c)) = Ok l.
  Proof.
    intros f c H. assert (G : forall l, (forall i, In i l -> i < c) -> exists vs, rmap conv (map f l) = Ok vs).
    { induction l as [|i l IH]; intros Hl; [eexists; reflexivity|]. cbn [map rmap].
      destruct (H i (Hl i (or_introl eq_refl))) as [v ->]. destruct IH as [vs ->]; [intros j Hj; apply Hl; right; exact Hj|].
      eexists. reflexivity. }
    apply G. intros i Hi. apply in_seq in Hi. lia.
  Qed.

  Lemma sim_if : forall A (b : bool) (p1 p2 : M Raw A) (q1 q2 : M KM A), (b = true -> sim p1 q1) -> (b = false -> sim p2 q2) ->
    sim (if b then p1 else p2) (if b then q1 else q2).
  Proof. intros A [] p1 p2 q1 q2 H1 H2; auto. Qed.

  Lemma sim_norm_two : two = true -> sim
    (x <- base (attr_or k_sample) ;; y <- base (attr_or k_sample_two) ;; a <- base (attr_or k_full) ;;
     dx <- temp_diagonal_raw 1 x ;; dy <- temp_diagonal_raw 2 y ;; nk <- lift (norm2 a dx dy) ;;
     base (modify (set_normed (Some nk))))
    (x <- attr_or k_sample ;; y <- attr_or k_sample_two ;; a <- attr_or k_full ;;
     dx <- temp_diagonal 1 x ;; dy <- temp_diagonal 2 y ;; nk <- lift (op_normalize2 N a dx dy) ;;
     modify (set_normed (Some nk))).
  Proof.
    intros Ht s t H. destruct (Hnorm Ht) as (A1 & A2 & A3).
    pose proof H as (Ha & (K1 & (S1 & S2 & _) & _) & (C1 & (T1 & T2 & _) & _)). rfields H.
    destruct (rmap_total (fun i => k (row_of d X i) (row_of d X i)) n A2) as [lx Elx].
    destruct (rmap_total (fun j => k (row_of d Y j) (row_of d Y j)) m A3) as [ly Ely].
    destruct (k_full t) as [a|] eqn:Ef.
    2:{ unfold bind, base, attr_or, bind, get. rewrite S1, T1. cbn [ret]. cbn [q_base]. rewrite S2, T2. cbn [ret]. cbn [q_base].
        rewrite Ef. match goal with Q : k_full (q_base s) = _ |- _ => rewrite Q end. cbn [raise fst snd].
        split; [|reflexivity]. destruct s; exact H. }
    set (s1 := mkRaw (q_base s) (q_kernel s) (q_memo s)).
    assert (Es : s1 = s) by (destruct s; reflexivity).
    assert (Hfm : kfmt (k_kernel (q_base s)) = formats) by (match goal with Q : kfmt _ = _ |- _ => rewrite Q, C1; reflexivity end).
    destruct (temp_diag_raw conv kern k formats X n d HX HkX 1 s K1 Hfm) as [c1 E1].
    destruct (temp_diag_conv conv kern k formats X n d HX 1 t C1) as [c1' E1'].
    pose proof (rel_log s t c1 c1' H) as L1.
    set (s2 := mkRaw (log_calls c1 (q_base s)) (q_kernel s) (q_memo s)) in *.
    set (t2 := log_calls c1' t) in *.
    destruct (temp_diag_raw conv kern k formats Y m d HY HkY 2 s2 K1 Hfm) as [c2 E2].
    destruct (temp_diag_conv conv kern k formats Y m d HY 2 t2 C1) as [c2' E2'].
    pose proof (rel_log s2 t2 c2 c2' L1) as L2.
    assert (Q1 : forall B (f : _ -> M Raw B), bind (base (attr_or k_sample)) f s = f X s).
    { intros B f. unfold bind, base, attr_or, bind, get. rewrite S1. cbn [ret]. fold s1. rewrite Es. reflexivity. }
    assert (Q2 : forall B (f : _ -> M Raw B), bind (base (attr_or k_sample_two)) f s = f Y s).
    { intros B f. unfold bind, base, attr_or, bind, get. rewrite S2. cbn [ret]. fold s1. rewrite Es. reflexivity. }
    assert (Q3 : forall B (f : _ -> M Raw B), bind (base (attr_or k_full)) f s = f a s).
    { intros B f. unfold bind, base, attr_or, bind, get. match goal with Q : k_full (q_base s) = _ |- _ => rewrite Q end.
      cbn [ret]. fold s1. rewrite Es. reflexivity. }
    assert (P1 : forall B (f : _ -> M KM B), bind (attr_or k_sample) f t = f X t).
    { intros B f. unfold bind, attr_or, bind, get. rewrite T1. reflexivity. }
    assert (P2 : forall B (f : _ -> M KM B), bind (attr_or k_sample_two) f t = f Y t).
    { intros B f. unfold bind, attr_or, bind, get. rewrite T2. reflexivity. }
    assert (P3 : forall B (f : _ -> M KM B), bind (attr_or k_full) f t = f a t).
    { intros B f. unfold bind, attr_or, bind, get. rewrite Ef. reflexivity. }
    rewrite Q1, Q2, Q3, P1, P2, P3. clear Q1 Q2 Q3 P1 P2 P3.
    assert (W : forall St A B (p : M St A) (f : A -> M St B) u u' v, p u = (u', Ok v) -> bind p f u = f v u').
    { intros St A B p f u u' v Hp. unfold bind. rewrite Hp. reflexivity. }
    unfold diag_of in E1', E2'. rewrite Elx in E1'. rewrite Ely in E2'.
    rewrite (W _ _ _ _ _ _ _ _ E1), (W _ _ _ _ _ _ _ _ E2), (W _ _ _ _ _ _ _ _ E1'), (W _ _ _ _ _ _ _ _ E2').
    unfold diag_of. rewrite (A1 a _ _ lx ly Elx Ely).
    match goal with |- rel (fst (?p ?s)) (fst (?q ?t)) /\ _ => assert (G : sim p q) end.
    { apply sim_bind; [apply sim_lift|]. intros nk. sb. apply simb_normed. }
    exact (G _ _ L2).
  Qed.

  Lemma simb_norm_one : forall meth, simb (a <- attr_or k_full ;; nk <- lift (op_normalize N meth a) ;;
    modify (set_normed (Some nk)) : M KM unit).
  Proof.
    intros meth. apply simb_bind; [apply simb_attr_full|]. intros a. apply simb_bind; [apply simb_lift|]. intros nk. apply simb_normed.
  Qed.
  Lemma simb_norm_end : simb (modify (set_is_normed true) ;;; nk <- attr_or k_normed ;; warn_if_nan_inf N nk : M KM unit).
  Proof.
    apply simb_bind; [apply simb_is_normed|]. intros _. apply simb_bind; [apply simb_attr_normed|]. intros a. apply simb_warn.
  Qed.

  Ltac pop := apply sim_when; apply sim_bind; [apply (sim_populate N conv kern k formats X Y two n m d HX HY Hone Hk)|intros _; apply sim_ret].

  Lemma sim_normalize : forall meth, sim (normalize_raw N conv norm2 meth) (normalize N meth).
  Proof.
    intros meth. unfold normalize_raw, normalize. apply sim_get. intros s t H. rfields H.
    replace (k_populated (q_base s)) with (k_populated t) by congruence. into.
    apply sim_bind; [pop|]. intros _. apply sim_get. intros s1 t1 Hr1. rfields Hr1.
    replace (k_is_normed (q_base s1)) with (k_is_normed t1) by congruence. into.
    apply sim_when. apply sim_two. apply sim_bind; [|intros _; sb; apply simb_norm_end].
    apply sim_if; intros Et.
    - sb. apply simb_norm_one.
    - apply negb_false_iff in Et. apply (sim_norm_two Et).
  Qed.

  Lemma sim_full : sim (full_raw N conv norm2) (full N).
  Proof.
    unfold full_raw, full. apply sim_get. intros s t H. rfields H.
    replace (k_sample (q_base s)) with (k_sample t) by congruence.
    replace (k_populated (q_base s)) with (k_populated t) by congruence.
    replace (k_keep_normed (q_base s)) with (k_keep_normed t) by congruence. into.
    destruct (k_sample t); [|apply sim_raise]. apply sim_bind; [pop|]. intros _.
    destruct (k_keep_normed t); [|sb; apply simb_attr_full].
    apply sim_get. intros s1 t1 Hr1. rfields Hr1.
    replace (k_is_normed (q_base s1)) with (k_is_normed t1) by congruence. into.
    apply sim_bind; [apply sim_when; apply sim_normalize|]. intros _. sb. apply simb_attr_normed.
  Qed.
  Lemma sim_full_sparse : sim (full_sparse_raw N conv norm2) (full_sparse N).
  Proof.
    unfold full_sparse_raw, full_sparse. apply sim_get. intros s t H. rfields H.
    replace (k_is_normed (q_base s)) with (k_is_normed t) by congruence.
    replace (k_keep_normed (q_base s)) with (k_keep_normed t) by congruence. into.
    destruct (k_keep_normed t); [|apply (sim_populate N conv kern k formats X Y two n m d HX HY Hone Hk)].
    apply sim_bind; [apply sim_when; apply sim_normalize|]. intros _. sb. apply simb_attr_normed.
  Qed.
  Lemma sim_center : sim (center_raw N conv) (center N).
  Proof.
    unfold center_raw, center. apply sim_two. apply sim_if; intros Et; [apply sim_raise|].
    apply sim_get. intros s t H. rfields H.
    replace (k_populated (q_base s)) with (k_populated t) by congruence. into.
    apply sim_bind; [|intros _; sb; apply simb_center].
    apply sim_when. apply sim_bind; [apply (sim_populate N conv kern k formats X Y two n m d HX HY Hone Hk)|].
    intros a. sb. apply simb_full.
  Qed.
  Lemma center_sets : forall t : KM, snd (center N t) = Ok tt -> k_is_centered (fst (center N t)) = true.
  Proof.
    intros t. unfold center, attr_or, bind, get, when, ret, raise, modify, lift.
    destruct (k_two t) as [[|]|]; try discriminate.
    destruct (k_populated t); cbn [negb]; [|destruct (populate_fully N true true t) as [t1 [a|e]]; [|discriminate]; cbn [k_full set_full]].
    - destruct (k_full t) as [a|]; [|discriminate]. destruct (op_center N a) as [c|e]; [|discriminate]. reflexivity.
    - destruct (op_center N a) as [c|e]; [|discriminate]. reflexivity.
  Qed.
  Lemma sim_centered : sim (centered_raw N conv) (centered N).
  Proof.
    unfold centered_raw, centered. apply sim_two. apply sim_if; intros Et; [apply sim_raise|].
    apply sim_get. intros s t H. rfields H.
    replace (k_is_centered (q_base s)) with (k_is_centered t) by congruence.
    assert (G : forall s t, rel s t -> k_is_centered t = true ->
      rel (fst (base (attr_or k_centered) s)) (fst (attr_or k_centered t)) /\
      snd (base (attr_or k_centered) s) = snd (attr_or k_centered t)).
    { intros s0 t0 Hr0 Hc. unfold base, attr_or, bind, get. rewrite (proj2 (proj1 Hr0) Hc).
      destruct s0 as [b0 q0 m0]. destruct (k_centered t0); cbn [ret raise fst snd q_base q_kernel q_memo]; split; try reflexivity; exact Hr0. }
    destruct (k_is_centered t) eqn:Ec; unfold when; cbn [negb]; unfold bind.
    - cbn [ret]. apply (G s t H Ec).
    - destruct (sim_center s t H) as [J1 J2]. pose proof (center_sets t) as J3.
      destruct (center_raw N conv s) as [s' r]. destruct (center N t) as [t' r']. cbn [fst snd] in *. subst r'.
      destruct r as [[]|e]; [|split; [exact J1|reflexivity]]. apply G; [exact J1|apply J3; reflexivity].
  Qed.
  Lemma sim_frob : sim (frob_norm_raw N conv) (frob_norm N).
  Proof.
    unfold frob_norm_raw, frob_norm. apply sim_get. intros s t H. rfields H.
    replace (k_populated (q_base s)) with (k_populated t) by congruence. into.
    apply sim_bind; [pop|]. intros _. apply sim_get. intros s1 t1 Hr1. rfields Hr1.
    replace (k_frob (q_base s1)) with (k_frob t1) by congruence. into.
    apply sim_bind; [|intros _; sb; apply simb_attr_frob]. apply sim_when. sb.
    apply simb_bind; [apply simb_attr_full|]. intros a. apply simb_bind; [apply simb_lift|]. intros v. apply simb_frob.
  Qed.
  Lemma sim_normed_km : sim (normed_km_raw N conv norm2) (normed_km N).
  Proof.
    unfold normed_km_raw, normed_km. apply sim_get. intros s t H. rfields H.
    replace (k_is_normed (q_base s)) with (k_is_normed t) by congruence. into.
    apply sim_bind; [apply sim_when; apply sim_normalize|]. intros _. sb. apply simb_attr_normed.
  Qed.

  Lemma simb_get : forall A (f : KM -> A), (forall b t, alike b t -> f b = f t) -> simb (fmap f get).
  Proof. intros A f Hf b t H. unfold fmap, bind, get. cbn. split; [exact H|]. split; [f_equal; apply Hf; exact H|reflexivity]. Qed.

  Definition other (o : op E U) : bool :=
    match o with OpSetAttr _ _ | OpGetAttr _ | OpAttributes | OpSize | OpShape | OpNumSamples => true | _ => false end.
  Lemma simb_other : forall o, other o = true -> simb (step N o : M KM _).
  Proof.
    intros o Ho. destruct o; try discriminate Ho; cbn [step].
    - unfold fmap. apply simb_bind; [apply simb_set_attr|]. intros a. apply simb_ret.
    - unfold fmap. apply simb_bind; [|intros a; apply simb_ret]. intros b t H. unfold get_attr, bind, get.
      pose proof (alike_fields _ _ H) as (?&?&?&?&?&?&?&?&?&?&?&?&?&Q&?). rewrite Q.
      repeat match goal with |- context [match ?x with _ => _ end] => destruct x end; cbn; auto.
    - apply simb_get. intros b t H. pose proof (alike_fields _ _ H) as (?&?&?&?&?&?&?&?&?&?&?&?&?&Q&?). rewrite Q. reflexivity.
    - unfold fmap. apply simb_bind; [|intros a; apply simb_ret]. intros b t H. unfold size, attr_or, bind, get.
      pose proof (alike_fields _ _ H) as (?&Q1&?&?&Q2&?&?&?&?&?&?&?&?&?&?). rewrite Q2.
      destruct (k_two t) as [[|]|]; cbn [ret raise]; rewrite ?Q1; try destruct (k_num_samples t); cbn; auto.
    - unfold fmap. apply simb_bind; [apply simb_attr_shape|]. intros a. apply simb_ret.
    - apply simb_get. intros b t H. pose proof (alike_fields _ _ H) as (?&Q&?&?&?&?&?&?&?&?&?&?&?&?&?). rewrite Q. reflexivity.
  Qed.

  Lemma sim_fmap : forall A B C (f : A -> B) (g : A -> C) (h : C -> B) (p : M Raw A) (q : M KM A),
    sim p q -> (forall a, f a = h (g a)) ->
    forall s t, rel s t -> rel (fst (qmap f p s)) (fst (fmap g q t)) /\ snd (qmap f p s) = res_map h (snd (fmap g q t)).
  Proof.
    intros A B C f g h p q Hs Hf s t H. destruct (Hs s t H) as [H1 H2]. unfold qmap, fmap, bind.
    destruct (p s) as [s' r]. destruct (q t) as [t' r']. cbn [fst snd] in *. subst r'.
    destruct r as [a|e]; cbn [ret fst snd res_map]; split; try exact H1; [rewrite Hf; reflexivity|reflexivity].
  Qed.

  Lemma other_sim : forall o s t, other o = true -> rel s t ->
    rel (fst (qmap (@QOut R V U) (base (step N o)) s)) (fst (step N o t)) /\
    snd (qmap (@QOut R V U) (base (step N o)) s) = res_map QOut (snd (step N o t)).
  Proof.
    intros o s t Ho H.
    destruct (sim_base conv kern k formats X Y two n m d _ (step N o) (simb_other o Ho) s t H) as [H1 H2].
    unfold qmap, bind. destruct (base (step N o) s) as [s' r]. destruct (step N o t) as [t' r']. cbn [fst snd] in H1, H2. subst r'.
    destruct r; cbn [ret fst snd res_map]; split; auto.
  Qed.

  Lemma step_sim : forall o s t, (forall x y, o <> OpAttach x y) -> o <> OpDiagonal -> rel s t ->
    rel (fst (step_raw N conv norm2 o s)) (fst (step N o t)) /\
    snd (step_raw N conv norm2 o s) = res_map QOut (snd (step N o t)).
  Proof.
    intros o s t Hna Hnd H.
    destruct o as [x y| | | | |meth| | | |ix|nm v|nm| | | |];
      try (exfalso; eapply Hna; reflexivity); try (exfalso; apply Hnd; reflexivity); cbn [step_raw];
      try (apply other_sim; [reflexivity|exact H]);
      cbn [step]; apply sim_fmap; try reflexivity; auto using sim_full, sim_full_sparse, sim_center, sim_centered,
        sim_normalize, sim_frob, sim_normed_km.
    - exact (sim_getitem N conv kern k formats X Y two n m d HX HY Hone Hk ix).
  Qed.

  Lemma dpairs : two = false -> forall p, In p (map (fun i => (i, i)) (seq 0 n)) -> fst p < n /\ snd p < m.
  Proof. intros Ht p Hp. destruct (Hone Ht) as [_ ->]. apply in_map_iff in Hp. destruct Hp as (i & <- & Hi). apply in_seq in Hi. cbn. lia. Qed.

  Lemma diag_raw_at : forall b (s : Raw), k_two (q_base s) = Some b -> k_shape (q_base s) = Some (n, m) ->
    diagonal_raw s = (if b then raise KMAccessError
      else map_each (map (fun i => (i, i)) (seq 0 n)) (fun p => eval_raw (fst p) (snd p))) s.
  Proof.
    intros b s H1 H2. unfold diagonal_raw, bind, base, attr_or, bind, get. rewrite H1. cbn [ret].
    replace (mkRaw (q_base s) (q_kernel s) (q_memo s)) with s by (destruct s; reflexivity).
    destruct b; [reflexivity|]. rewrite H2. cbn [ret fst].
    replace (mkRaw (q_base s) (q_kernel s) (q_memo s)) with s by (destruct s; reflexivity).
    apply (map_each_pairs (fun p => eval_raw (fst p) (snd p))).
  Qed.
  Lemma diag_conv_at : forall b (t : KM), k_two t = Some b -> k_shape t = Some (n, m) ->
    diagonal t = (if b then raise KMAccessError
      else map_each (map (fun i => (i, i)) (seq 0 n)) (fun p => eval_kernel (fst p) (snd p))) t.
  Proof.
    intros b t H1 H2. unfold diagonal, bind, attr_or, bind, get. rewrite H1. cbn [ret].
    destruct b; [reflexivity|]. rewrite H2. cbn [ret fst].
    apply (map_each_pairs (fun p => eval_kernel (fst p) (snd p))).
  Qed.

  Lemma diag_two : two = true -> forall s t, rel s t ->
    rel (fst (step_raw N conv norm2 OpDiagonal s)) (fst (step N OpDiagonal t)) /\
    snd (step_raw N conv norm2 OpDiagonal s) = Raise KMAccessError.
  Proof.
    intros Et s t H. cbn [step_raw step]. pose proof H as (_ & (_ & (S1 & S2 & S3 & S4) & _) & (_ & (T1 & T2 & T3 & T4) & _)).
    rewrite Et in S3, T3. unfold qmap, fmap, bind. rewrite (diag_raw_at _ s S3 S4), (diag_conv_at _ t T3 T4).
    split; [exact H|reflexivity].
  Qed.
  Lemma diag_one : two = false -> forall s t, rel s t ->
    rel (fst (step_raw N conv norm2 OpDiagonal s)) (fst (step N OpDiagonal t)) /\
    snd (step_raw N conv norm2 OpDiagonal s) = Ok (QDiag (map (fun i => k (row_of d X i) (row_of d X i)) (seq 0 n))).
  Proof.
    intros Et s t H. cbn [step_raw step]. pose proof H as (_ & (_ & (S1 & S2 & S3 & S4) & _) & (_ & (T1 & T2 & T3 & T4) & _)).
    rewrite Et in S3, T3. unfold qmap, fmap, bind. rewrite (diag_raw_at _ s S3 S4), (diag_conv_at _ t T3 T4).
    destruct (map_raw_ok conv kern k formats X Y two n m d HX HY Hone Hk _ s t (dpairs Et) H) as [R1 R2].
    destruct (map_each _ _ s) as [s' r]. cbn [fst snd] in R1, R2. subst r.
    destruct (map_conv_ok conv kern k formats X Y two n m d HX HY Hone _ s' t (dpairs Et) R1) as [R3 _].
    destruct (map_each _ _ t) as [t' r]. cbn [fst snd] in R3. cbn [ret fst snd].
    split; [destruct r; exact R3|]. f_equal. f_equal. rewrite map_map. apply map_ext. intros i. unfold kv, swap. cbn [fst snd].
    rewrite Nat.ltb_irrefl. cbn. destruct (Hone Et) as [-> _]. reflexivity.
  Qed.
  Lemma diag_sim : forall s t, rel s t ->
    rel (fst (step_raw N conv norm2 OpDiagonal s)) (fst (step N OpDiagonal t)).
  Proof.
    intros s t H. assert (Hb : two = true \/ two = false) by (clear; destruct two; auto).
    destruct Hb as [Et|Et]; [apply (diag_two Et s t H)|apply (diag_one Et s t H)].
  Qed.

  Lemma run_sim : forall ops s t, no_attach ops -> rel s t -> rel (run_raw N conv norm2 ops s) (run N ops t).
  Proof.
    induction ops as [|o ops IH]; intros s t Hna H; [exact H|]. cbn [run_raw run].
    unfold no_attach in Hna. cbn [forallb] in Hna. apply andb_prop in Hna. destruct Hna as [Ho Hna]. apply IH; [exact Hna|].
    destruct (Bool.bool_dec (match o with OpDiagonal => true | _ => false end) true) as [Ed|Ed].
    - destruct o; try discriminate Ed. apply diag_sim; exact H.
    - apply step_sim; [intros x y ->; discriminate Ho|intros ->; apply Ed; reflexivity|exact H].
  Qed.
End Steps.
