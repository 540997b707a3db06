(** C101: a thread that is not interrupted does what the object of KMModel.v does. *)
From Coq Require Import List Arith Bool Lia String.
Import ListNotations.
From Verif Require Import Prelude MatModel MatFacts UtilsModel KMModel KMFacts ThreadModel SpecThread ThreadFacts ThreadProps.

Section Alone.
  Context {E V U : Type}.
  Variable N : numops V.
  Variable kern : kernel E V.
  Variables x y : ndarray E.
  Variable two : bool.
  Variables n m : nat.
  Hypothesis Hshape : two = false -> n = m.
  Hypothesis Hrep : forall c a b, kf kern c a b = kf kern 0 a b.
  Hypothesis Hfmt : kfmt kern = true.
  Hypothesis Hx : forall i, i < n -> exists a, nd_row x i = Ok a.
  Hypothesis Hy : forall j, j < m -> exists b, nd_row y j = Ok b.
  Notation Sh := (shared V).
  Notation KM := (km E V U).
  Notation nan := (v_nan N).
  Notation kv := (rows_value kern x y).
  Notation same := (same_object (U := U) nan kern x y two n m).

  Definition agree {A B} (rel : A -> B -> Prop) (p : Sh * res A) (q : KM * res B) : Prop :=
    same (fst p) (fst q) /\
    match snd p, snd q with
    | Ok a, Ok b => rel a b
    | Raise e, Raise e' => e = e'
    | _, _ => False
    end.

  Lemma alone_bind : forall {A B} (p : prog Sh A) (k : A -> prog Sh B) s,
    alone (pbind p k) s = match alone p s with
                          | (s', Ok a) => alone (k a) s'
                          | (s', Raise e) => (s', Raise e)
                          end.
  Proof. intros A B p k. induction p as [[a|e]|u nx IH]; intros s; cbn; auto. Qed.

  Lemma agree_bind : forall {A B A' B'} (rel : A -> B -> Prop) (rel' : A' -> B' -> Prop)
      (p : prog Sh A) (f : A -> prog Sh A') (a : M KM B) (g : B -> M KM B') s k,
    agree rel (alone p s) (a k) ->
    (forall s' k' u v, same s' k' -> rel u v -> agree rel' (alone (f u) s') (g v k')) ->
    agree rel' (alone (pbind p f) s) (bind a g k).
  Proof.
    intros A B A' B' rel rel' p f a g s k [H1 H2] K. rewrite alone_bind. unfold bind.
    destruct (alone p s) as [s1 [u|e]], (a k) as [k1 [v|e']]; cbn in H1, H2; try destruct H2.
    - apply K; assumption.
    - split; [exact H1|reflexivity].
  Qed.

  Lemma agree_except : forall {A B} (rel : A -> B -> Prop) (p : prog Sh A) (a : M KM B) e s k,
    agree rel (alone p s) (a k) -> agree rel (alone (pexcept p e) s) (try_except a e k).
  Proof.
    intros A B rel p a e s k H.
    assert (Ep : alone (pexcept p e) s = match alone p s with
                                         | (s', Ok v) => (s', Ok v)
                                         | (s', Raise _) => (s', Raise e)
                                         end).
    { clear. revert s. induction p as [[v|e']|u nx IH]; intros s; cbn; auto. }
    rewrite Ep. unfold try_except. destruct H as [H1 H2].
    destruct (alone p s) as [s1 [u|e1]], (a k) as [k1 [v|e2]]; cbn in H1, H2; try destruct H2; split; cbn; auto.
  Qed.

  Lemma agree_for : forall {X} (f : X -> prog Sh unit) (g : X -> M KM unit) l,
    (forall q s k, In q l -> same s k -> agree eq (alone (f q) s) (g q k)) ->
    forall s k, same s k -> agree eq (alone (pfor l f) s) (for_each l g k).
  Proof.
    intros X f g l. induction l as [|q l IH]; intros H s k HS; cbn [pfor for_each].
    - split; [exact HS|reflexivity].
    - apply (agree_bind eq); [apply H; [now left|exact HS]|]. intros s' k' _ _ HS' _.
      apply IH; [|exact HS']. intros q' s2 k2 Hq. apply H. now right.
  Qed.

  Lemma agree_map : forall {X A} (f : X -> prog Sh A) (g : X -> M KM A) l,
    (forall q s k, In q l -> same s k -> agree eq (alone (f q) s) (g q k)) ->
    forall s k, same s k -> agree eq (alone (pmap l f) s) (map_each l g k).
  Proof.
    intros X A f g l. induction l as [|q l IH]; intros H s k HS; cbn [pmap map_each].
    - split; [exact HS|reflexivity].
    - apply (agree_bind eq); [apply H; [now left|exact HS]|]. intros s' k' u v HS' <-.
      apply (agree_bind eq).
      + apply IH; [|exact HS']. intros q' s2 k2 Hq. apply H. now right.
      + intros s2 k2 us vs HS2 <-. split; [exact HS2|reflexivity].
  Qed.

  Lemma pair_eqb_refl : forall q, pair_eqb q q = true.
  Proof. intros q. now apply pair_eqb_eq. Qed.

  Lemma agree_eval : forall t i j s k, i < n -> j < m -> same s k ->
    agree eq (alone (t_eval kv two t i j) s) (eval_kernel i j k).
  Proof.
    intros t i j s k Hi Hj HS.
    destruct (key_range two n m Hshape i j Hi Hj) as [Kn Km].
    assert (Ek : eval_kernel i j k =
      (match memo_find (k_memo k) (key two i j) with
       | Some v => ret v
       | None =>
           bind (match k_sample k with None => raise TypeError | Some a => lift (nd_row a (fst (key two i j))) end) (fun a =>
           bind (bind (attr_or k_sample_two) (fun b => lift (nd_row b (snd (key two i j))))) (fun b =>
           bind (modify (log_calls (mkCall (g_tag k) (key two i j) a b :: g_calls k))) (fun _ =>
           bind (lift (kf (k_kernel k) (List.length (g_calls k)) a b)) (fun v =>
           bind (modify (store_memo (key two i j) v)) (fun _ => ret v)))))
       end) k).
    { unfold eval_kernel, key. destruct (j <? i); cbn [andb].
      - unfold bind at 1 2. unfold attr_or at 1. unfold bind at 1. cbn [get]. rewrite (so_two _ _ _ _ _ _ _ _ _ HS).
        cbn [ret]. destruct two; reflexivity.
      - reflexivity. }
    rewrite Ek. clear Ek. set (q := key two i j) in *.
    unfold t_eval. fold q. rewrite (so_memo _ _ _ _ _ _ _ _ _ HS).
    cbn [read pbind alone pret]. destruct (memo_find (sh_memo s) q) as [v|] eqn:Em.
    - cbn [is_some negb pwhen pbind pret alone]. rewrite Em. cbn. split; [exact HS|reflexivity].
    - cbn [is_some negb pwhen pbind pret alone write].
      rewrite (so_sample _ _ _ _ _ _ _ _ _ HS).
      destruct (Hx _ Kn) as (a & Ea). destruct (Hy _ Km) as (b & Eb).
      unfold rows_value at 1. rewrite Ea, Eb.
      unfold attr_or, bind, lift, get, modify, ret. rewrite (so_sample_two _ _ _ _ _ _ _ _ _ HS). cbv beta iota. rewrite Eb.
      rewrite (so_kernel _ _ _ _ _ _ _ _ _ HS), (Hrep (List.length (g_calls k))).
      destruct (kf kern 0 a b) as [v|e] eqn:Ev.
      + cbn [pbind pret alone write read upd_calls upd_memo upd_evals sh_memo sh_evals memo_find ret].
        rewrite pair_eqb_refl. cbn [pret alone]. split; [|reflexivity]. cbn [fst].
        destruct HS. constructor; cbn; auto; congruence.
      + cbn [pbind alone]. split; [|reflexivity]. cbn [fst].
        destruct HS. constructor; cbn; auto.
  Qed.

  Lemma same_put : forall s (k : KM) p q v, same s k -> sh_full s = Some p ->
    same (put nan n m p q v s) (set_full (Some (mkArr Dense (mset (array_at nan n m s p) (fst q) (snd q) v))) k).
  Proof.
    intros s k p q v HS Ef. pose proof (so_ref _ _ _ _ _ _ _ _ _ HS p Ef) as L.
    destruct HS. constructor; cbn; auto.
    - rewrite Ef. cbn. f_equal. f_equal. fold (put nan n m p q v s). unfold array_at at 1. cbn.
      rewrite list_upd_nth, Nat.eqb_refl. apply Nat.ltb_lt in L. now rewrite L.
    - intros p' Ep. rewrite list_upd_length. auto.
  Qed.

  Lemma agree_store : forall s k p q v, same s k -> sh_full s = Some p ->
    agree eq (alone (t_store nan n m p q v) s) (set_full_entry (fst q) (snd q) v k).
  Proof.
    intros s k p q v HS Ef. unfold t_store, set_full_entry, attr_or, bind, get, modify.
    rewrite (so_full _ _ _ _ _ _ _ _ _ HS), Ef. cbn [option_map ret alone write pret fst snd afmt amat].
    split; [|reflexivity]. exact (same_put s k p q v HS Ef).
  Qed.

  (** Reading [_full_km]. *)
  Lemma agree_load : forall {B B'} (rel : B -> B' -> Prop) (f : nat -> prog Sh B) (g : arr V -> M KM B') s k,
    same s k ->
    (forall p, sh_full s = Some p ->
       agree rel (alone (f p) s) (g (mkArr Dense (array_at nan n m s p)) k)) ->
    agree rel (alone (pbind t_load f) s) (bind (attr_or k_full) g k).
  Proof.
    intros B B' rel f g s k HS H. cbn [t_load pbind read alone pret].
    unfold bind, attr_or, bind, get. rewrite (so_full _ _ _ _ _ _ _ _ _ HS).
    destruct (sh_full s) as [p|] eqn:Ef; cbn [option_map pbind alone praise ret raise].
    - exact (H p eq_refl).
    - split; [exact HS|reflexivity].
  Qed.

  Lemma agree_fill : forall t q s k, fst q < n -> snd q < m -> same s k ->
    agree eq (alone (t_fill nan kv two n m t q) s)
             (bind (eval_kernel (fst q) (snd q)) (fun v => set_full_entry (fst q) (snd q) v) k).
  Proof.
    intros t q s k H1 H2 HS. unfold t_fill. apply (agree_bind eq).
    - apply agree_eval; assumption.
    - intros s' k' v w HS' <-. unfold set_full_entry. apply (agree_load eq); [exact HS'|].
      intros p Ef. pose proof (agree_store s' k' p q v HS' Ef) as H.
      unfold set_full_entry, attr_or, bind, get in H. unfold modify in *.
      rewrite (so_full _ _ _ _ _ _ _ _ _ HS'), Ef in H. exact H.
  Qed.

  Lemma for_each_app : forall {St X} (g : X -> M St unit) l l' k,
    for_each (l ++ l') g k = bind (for_each l g) (fun _ => for_each l' g) k.
  Proof.
    intros St X g l l'. induction l as [|a l IH]; intros k; cbn [app for_each]; [reflexivity|].
    unfold bind in *. destruct (g a k) as [k1 [u|e]]; [|reflexivity]. apply IH.
  Qed.
  Lemma for_each_map : forall {St X Y} (h : Y -> X) (g : X -> M St unit) l k,
    for_each (map h l) g k = for_each l (fun z => g (h z)) k.
  Proof.
    intros St X Y h g l. induction l as [|a l IH]; intros k; cbn [map for_each]; [reflexivity|].
    unfold bind. destruct (g (h a) k) as [k1 [u|e]]; [apply IH|reflexivity].
  Qed.
  Lemma for_each_flat : forall {St X Y Z} (h : Z -> list Y) (w : Z -> Y -> X) (g : X -> M St unit) l k,
    for_each (flat_map (fun z => map (w z) (h z)) l) g k =
    for_each l (fun z => for_each (h z) (fun y => g (w z y))) k.
  Proof.
    intros St X Y Z h w g l. induction l as [|a l IH]; intros k; cbn [flat_map for_each]; [reflexivity|].
    rewrite for_each_app. unfold bind. rewrite for_each_map.
    destruct (for_each (h a) (fun y0 => g (w a y0)) k) as [k1 [u|e]]; [apply IH|reflexivity].
  Qed.

  Lemma try_ext : forall {St A} (a b : M St A) e k, a k = b k -> try_except a e k = try_except b e k.
  Proof. intros St A a b e k H. unfold try_except. now rewrite H. Qed.

  Lemma agree_upper : forall t s k, same s k ->
    agree eq (alone (t_upper nan kv two n m t) s) (populate_upper N true k).
  Proof.
    intros t s k HS. unfold t_upper, populate_upper. cbn [pbind read alone pret].
    unfold bind at 1. cbn [get]. rewrite (so_populated _ _ _ _ _ _ _ _ _ HS), (so_full _ _ _ _ _ _ _ _ _ HS).
    destruct (sh_populated s) eqn:Ep; cbn [negb andb pwhen alone pret when].
    { split; [exact HS|reflexivity]. }
    destruct (sh_full s) as [p|] eqn:Ef; cbn [option_map is_some negb andb pwhen when alone pret pbind].
    { split; [exact HS|reflexivity]. }
    unfold bind at 1, attr_or, bind at 1. cbn [get]. rewrite (so_shape _ _ _ _ _ _ _ _ _ HS). cbn [ret fst snd].
    unfold t_alloc. cbn [pbind write alone pret]. unfold bind at 1. cbn [modify].
    assert (HS1 : same (mkSh (Some (List.length (sh_heap s))) (sh_heap s ++ [blank nan n m]) (sh_populated s)
                         (sh_lower s) (sh_memo s) (sh_evals s) (sh_owner s ++ [t]) (sh_calls s) (sh_log s))
                       (set_full (Some (mkArr Dense (mfull n m nan))) k)).
    { destruct HS. constructor; cbn; auto.
      - f_equal. f_equal. unfold array_at. cbn. rewrite app_nth2, Nat.sub_diag by lia. reflexivity.
      - intros p E'. injection E' as <-. rewrite app_length. cbn. lia. }
    apply (agree_bind eq).
    - rewrite (try_ext _ (for_each (upper_pairs n m) (fun q => bind (eval_kernel (fst q) (snd q))
                            (fun v => set_full_entry (fst q) (snd q) v)))).
      + apply agree_except, agree_for; [|exact HS1]. intros [i j] s' k' Hq HS'. apply in_upper in Hq.
        apply agree_fill; cbn; lia || assumption.
      + unfold upper_pairs. now rewrite for_each_flat.
    - intros s' k' _ _ HS' _. unfold modify. cbn [alone write pret]. split; [|reflexivity].
      destruct HS'. constructor; cbn; auto.
  Qed.

  Lemma pmap_reads : forall {X A} (f : X -> Sh -> A) l s,
    alone (pmap l (fun q => read (f q))) s = (s, Ok (map (fun q => f q s) l)).
  Proof.
    intros X A f l. induction l as [|q l IH]; intros s; cbn [pmap map]; [reflexivity|].
    rewrite alone_bind. cbn [read alone pret]. rewrite alone_bind, IH. reflexivity.
  Qed.

  Lemma agree_lower : forall t s k, same s k ->
    agree eq (alone (t_lower nan kv two n m t) s) (populate_lower N true k).
  Proof.
    intros t s k HS. unfold t_lower, populate_lower. cbn [pbind read alone pret].
    unfold bind at 1. cbn [get]. rewrite (so_lower _ _ _ _ _ _ _ _ _ HS).
    destruct (sh_lower s) eqn:El; cbn [negb andb pwhen alone pret when].
    { split; [exact HS|reflexivity]. }
    apply (agree_bind eq).
    - apply agree_except. unfold bind at 1, attr_or at 1, bind at 1. cbn [get].
      rewrite (so_shape _ _ _ _ _ _ _ _ _ HS). cbn [ret fst snd].
      unfold bind at 1, attr_or at 1, bind at 1. cbn [get]. rewrite (so_two _ _ _ _ _ _ _ _ _ HS). cbn [ret].
      destruct (negb two && (n =? m)).
      + apply (agree_load eq); [exact HS|]. intros p Ef.
        rewrite alone_bind, pmap_reads. cbv beta iota. rewrite alone_bind. unfold t_load. rewrite alone_bind. cbn [read alone pret pbind].
        rewrite Ef. cbn [alone pret].
        set (a := array_at nan n m s p). cbn [amat].
        assert (G : forall l s' k', same s' k' -> sh_full s' = Some p ->
          agree eq (alone (pfor (combine l (map (fun q : nat * nat => mget nan a (snd q) (fst q)) l))
                       (fun qv => t_store nan n m p (fst qv) (snd qv))) s')
                   (for_each l (fun q => set_full_entry (fst q) (snd q) (mget nan a (snd q) (fst q))) k')).
        { induction l as [|q l IH]; intros s' k' HS' Ef'; cbn [map combine pfor for_each].
          - split; [exact HS'|reflexivity].
          - rewrite alone_bind. cbn [fst snd]. unfold bind.
            pose proof (agree_store s' k' p q (mget nan a (snd q) (fst q)) HS' Ef') as [A B].
            unfold t_store in *. cbn [write alone pret fst snd] in *.
            destruct (set_full_entry (fst q) (snd q) (mget nan a (snd q) (fst q)) k') as [k2 [u|e]]; cbn in A, B; [|destruct B].
            apply IH; [exact A|exact Ef']. }
        apply G; assumption.
      + apply agree_for; [|exact HS]. intros [i j] s' k' Hq HS'. apply in_low in Hq.
        apply agree_fill; cbn; lia || assumption.
    - intros s' k' _ _ HS' _. unfold modify. cbn [alone write pret]. split; [|reflexivity].
      destruct HS'. constructor; cbn; auto.
  Qed.

  Lemma agree_populate : forall t s k, same s k ->
    agree (fun _ _ => True) (alone (t_populate nan kv two n m t) s) (populate_fully N true true k).
  Proof.
    intros t s k HS. unfold t_populate, populate_fully.
    apply (agree_bind eq); [apply agree_upper, HS|]. intros s1 k1 _ _ HS1 _.
    apply (agree_bind eq); [apply agree_lower, HS1|]. intros s2 k2 _ _ HS2 _.
    cbn [t_load pbind read alone pret]. unfold densify, attr_or, bind, get.
    rewrite (so_full _ _ _ _ _ _ _ _ _ HS2).
    destruct (sh_full s2) as [p|] eqn:Ef; cbn [option_map pbind alone pret praise ret raise].
    - cbn [is_sparse afmt andb when ret]. rewrite (so_full _ _ _ _ _ _ _ _ _ HS2), Ef. cbn [option_map ret].
      unfold warn_if_nan_inf, bind, get. rewrite (so_kernel _ _ _ _ _ _ _ _ _ HS2), Hfmt, andb_false_r. cbn [ret].
      split; [exact HS2|exact I].
    - split; [exact HS2|reflexivity].
  Qed.

  Lemma agree_op : forall t o s k, valid_rop n m o -> same s k ->
    same (fst (alone (t_op nan kv two n m t o) s)) (fst (as_call N o k)) /\
    same_outcome nan n m (fst (alone (t_op nan kv two n m t o) s))
      (snd (alone (t_op nan kv two n m t o) s)) (snd (as_call N o k)).
  Proof.
    intros t o s k Hv HS. destruct o as [rows cols| |]; cbn [t_op as_call].
    - assert (H : agree (fun a b => exists c, a = RMat c /\ b = mkArr Dense c)
        (alone (pbind (pmap (product rows cols) (fun q => t_eval kv two t (fst q) (snd q))) (fun l =>
           pret (RMat (mkMat (List.length rows) (List.length cols) (reshape (List.length rows) (List.length cols) l))))) s)
        (compute_for_index_combinations rows cols k)).
      { unfold compute_for_index_combinations. apply (agree_bind eq).
        - apply agree_map; [|exact HS]. intros [i j] s' k' Hq HS'. apply in_product_iff in Hq.
          destruct Hv as [A B]. apply agree_eval; cbn; auto; [apply A|apply B]; apply Hq.
        - intros s' k' u v HS' <-. split; [exact HS'|]. cbn. eauto. }
      destruct H as [H1 H2]. cbn [fst snd]. split; [exact H1|].
      destruct (snd (alone _ s)) as [r|e], (snd (compute_for_index_combinations rows cols k)) as [b|e']; try destruct H2.
      + destruct H as [-> ->]. reflexivity.
      + reflexivity.
    - assert (Ed : diagonal k = (if two then raise KMAccessError
                                 else map_each (seq 0 n) (fun i => eval_kernel i i)) k).
      { unfold diagonal, attr_or, bind, get. rewrite (so_two _ _ _ _ _ _ _ _ _ HS). unfold ret. cbv beta iota.
        destruct two; [reflexivity|]. rewrite (so_shape _ _ _ _ _ _ _ _ _ HS). reflexivity. }
      rewrite Ed. clear Ed.
      destruct (Sumbool.sumbool_of_bool two) as [E2|E2]; [rewrite !(if_true _ _ two E2)|rewrite !(if_false _ _ two E2)].
      + cbn. split; [exact HS|reflexivity].
      +
        assert (H : agree eq (alone (pmap (seq 0 n) (fun i => t_eval kv two t i i)) s)
                            (map_each (seq 0 n) (fun i => eval_kernel i i) k)).
        { apply agree_map; [|exact HS]. intros i s' k' Hi HS'. apply in_seq in Hi.
          pose proof (Hshape E2). apply agree_eval; auto; lia. }
        rewrite alone_bind. destruct H as [H1 H2].
        destruct (alone (pmap (seq 0 n) _) s) as [s1 [l|e]], (map_each (seq 0 n) _ k) as [k1 [l'|e']];
          cbn in H1, H2 |- *; try destruct H2; auto.
    - assert (H : agree (fun _ _ => True)
        (alone (pwhen (negb (sh_populated s)) (t_populate nan kv two n m t)) s)
        (when (negb (k_populated k)) (bind (populate_fully N true true) (fun _ => ret tt)) k)).
      { rewrite (so_populated _ _ _ _ _ _ _ _ _ HS). destruct (sh_populated s); cbn [negb pwhen when].
        - split; [exact HS|exact I].
        - destruct (agree_populate t s k HS) as [A B]. unfold bind.
          destruct (alone (t_populate nan kv two n m t) s) as [s1 [u|e]], (populate_fully N true true k) as [k1 [v|e']];
            cbn in A, B |- *; try destruct B; split; cbn; auto. }
      assert (Ed : full N k =
        match when (negb (k_populated k)) (bind (populate_fully N true true) (fun _ => ret tt)) k with
        | (k1, Ok _) => attr_or k_full k1
        | (k1, Raise e) => (k1, Raise e)
        end).
      { unfold full, bind at 1, get. rewrite (so_sample _ _ _ _ _ _ _ _ _ HS), (so_plain _ _ _ _ _ _ _ _ _ HS).
        reflexivity. }
      rewrite Ed. clear Ed.
      cbn [pbind read alone pret]. rewrite alone_bind. destruct H as [H1 H2].
      destruct (alone (pwhen (negb (sh_populated s)) _) s) as [s1 [u|e]],
        (when (negb (k_populated k)) _ k) as [k1 [v|e']]; cbn in H1, H2; try destruct H2.
      + unfold t_load, attr_or, bind, get. cbn [pbind read alone pret].
        rewrite (so_full _ _ _ _ _ _ _ _ _ H1).
        destruct (sh_full s1) as [p|] eqn:Ef; cbn; (split; [exact H1|]); [split; [exact Ef|reflexivity]|reflexivity].
      + cbn. auto.
  Qed.
End Alone.

(** Left alone, a thread does what the sequential object does: the same outcome and the same object after,
    whatever was computed before, also when the kernel raises. So everything proved about the object of
    KMModel.v holds for a thread that is not interrupted. *)
Lemma pf_C101_alone : forall E V U (N : numops V) (kern : kernel E V) (x y : ndarray E) two n m,
  (two = false -> n = m) -> (forall c a b, kf kern c a b = kf kern 0 a b) -> kfmt kern = true ->
  (forall i, i < n -> exists a, nd_row x i = Ok a) -> (forall j, j < m -> exists b, nd_row y j = Ok b) ->
  forall t o (s : shared V) (k : km E V U), valid_rop n m o ->
  same_object (v_nan N) kern x y two n m s k ->
  let r := alone (t_op (v_nan N) (rows_value kern x y) two n m t o) s in
  let r' := as_call N o k in
  same_object (v_nan N) kern x y two n m (fst r) (fst r') /\
  same_outcome (v_nan N) n m (fst r) (snd r) (snd r').
Proof.
  intros E V U N kern x y two n m H1 H2 H3 H4 H5 t o s k Hv HS. apply agree_op; assumption.
Qed.

(** The two start out the same after attach_to, for one and for two samples. *)
Lemma pf_C101_attached : forall E V U (N : numops V) (kern : kernel E V) (x : ndarray E) y calls (k : km E V U),
  attach_to x y (km_new kern false calls) = (k, Ok tt) ->
  exists x' y' two n m, same_object (v_nan N) kern x' y' two n m attached k /\ (two = false -> n = m) /\
    (forall i, i < n -> exists a, nd_row x' i = Ok a) /\ (forall j, j < m -> exists b, nd_row y' j = Ok b).
Proof.
  intros E V U N kern x y calls k H.
  assert (R : forall a (z : ndarray E), ensure_2D_own z = Ok a ->
            forall i, i < nth 0 (nd_shape a) 0 -> exists r, nd_row a i = Ok r).
  { intros a z Hz i Hi. unfold ensure_2D_own, ensure_ndarray_2D, ensure_ndarray_size, rbind in Hz.
    destruct (negb (nd_ndim (squeeze_from 2 z) =? 2)) eqn:En; [discriminate Hz|]. cbn [issubdtype negb] in Hz.
    injection Hz as <-. apply negb_false_iff, Nat.eqb_eq in En. unfold nd_ndim in En. unfold nd_row.
    destruct (nd_shape (squeeze_from 2 z)) as [|p [|q [|r l]]]; try discriminate En.
    cbn in Hi. apply Nat.ltb_lt in Hi. rewrite Hi. eauto. }
  unfold attach_to, bind, lift, modify in H.
  destruct (ensure_2D_own x) as [a|e] eqn:Ea; [|discriminate H].
  destruct y as [y|].
  - destruct (ensure_2D_own y) as [b|e] eqn:Eb; [|discriminate H].
    destruct (negb (nth 1 (nd_shape a) 0 =? nth 1 (nd_shape b) 0)); [discriminate H|].
    injection H as <-. exists a, b, true, (nth 0 (nd_shape a) 0), (nth 0 (nd_shape b) 0).
    split; [constructor; cbn; auto; discriminate|]. split; [discriminate|]. split; [exact (R a x Ea)|exact (R b y Eb)].
  - injection H as <-. exists a, a, false, (nth 0 (nd_shape a) 0), (nth 0 (nd_shape a) 0).
    split; [constructor; cbn; auto; discriminate|]. split; [auto|]. split; exact (R a x Ea).
Qed.

(** The hypotheses are met and the outcome is what one expects: three values on two points, and the matrix. *)
Lemma pf_C101_alone_example : forall (N : numops nat), v_nan N = 99 ->
  let kern := mkKernel (fun _ a b => Ok (hd 0 a * hd 0 b)) true in
  let x := mkNd [2; 1] [3; 4] in
  let k := fst (attach_to x None (km_new (U := unit) kern false [])) in
  let r := alone (t_op 99 (rows_value kern x x) false 2 2 0 ROFull) attached in
  let r' := as_call N ROFull k in
  same_object 99 kern x x false 2 2 attached k /\ valid_rop 2 2 ROFull /\
  snd r = Ok (RRef 0) /\ array_at 99 2 2 (fst r) 0 = mkMat 2 2 [[9; 12]; [12; 16]] /\
  snd r' = Ok (inl (mkArr Dense (mkMat 2 2 [[9; 12]; [12; 16]]))) /\
  sh_evals (fst r) = 3 /\ k_evals (fst r') = 3.
Proof.
  intros N HN. cbv zeta. split; [constructor; cbn; auto; discriminate|].
  assert (H := pf_C101_alone nat nat unit N (mkKernel (fun _ a b => Ok (hd 0 a * hd 0 b)) true)
    (mkNd [2; 1] [3; 4]) (mkNd [2; 1] [3; 4]) false 2 2 (fun _ => eq_refl) (fun _ _ _ => eq_refl) eq_refl).
  rewrite HN in H.
  specialize (H ltac:(intros i Hi; unfold nd_row; cbn [nd_shape]; apply Nat.ltb_lt in Hi; rewrite Hi; eauto)
                ltac:(intros i Hi; unfold nd_row; cbn [nd_shape]; apply Nat.ltb_lt in Hi; rewrite Hi; eauto)
                0 ROFull attached
                (fst (attach_to (mkNd [2; 1] [3; 4]) None (km_new (U := unit) (mkKernel (fun _ a b => Ok (hd 0 a * hd 0 b)) true) false [])))
                I ltac:(constructor; cbn; auto; discriminate)).
  cbv zeta in H. destruct H as [H1 H2].
  split; [exact I|]. split; [vm_compute; reflexivity|]. split; [vm_compute; reflexivity|].
  apply so_evals in H1.
  assert (E3 : sh_evals (fst (alone (t_op 99 (rows_value (mkKernel (fun _ a b => Ok (hd 0 a * hd 0 b)) true)
     (mkNd [2; 1] [3; 4]) (mkNd [2; 1] [3; 4])) false 2 2 0 ROFull) attached)) = 3) by (vm_compute; reflexivity).
  split; [|split; [exact E3|rewrite H1; exact E3]].
  set (r := alone _ _) in H2.
  assert (Er : snd r = Ok (RRef 0)) by (vm_compute; reflexivity).
  rewrite Er in H2. destruct (snd (as_call N ROFull _)) as [[b|l]|e]; cbn in H2; try contradiction.
  destruct H2 as [_ ->]. vm_compute. reflexivity.
Qed.
