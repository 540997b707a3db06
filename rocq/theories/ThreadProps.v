(** C101: one kernel matrix read by several threads. *)
From Coq Require Import List Arith Bool Lia Sumbool.
Import ListNotations.
From Verif Require Import Prelude MatModel MatFacts KMModel KMFacts ThreadModel ThreadFacts.

(*BEGIN PROP*)
(** The value the entry (i, j) must have: the kernel of the two points, for one sample with the smaller
    index first; NaN marks what has not been computed. *)
Definition pair_value {V} (kv : nat -> nat -> res V) (two : bool) (i j : nat) : res V :=
  if two then kv i j else kv (Nat.min i j) (Nat.max i j).

(** The entry (i, j) of an array is that value. *)
Definition right_at {V} (nan : V) (kv : nat -> nat -> res V) (two : bool) (A : mat V) (i j : nat) : Prop :=
  pair_value kv two i j = Ok (mget nan A i j).

(** The kernel raises on no pair. *)
Definition total {V} (kv : nat -> nat -> res V) (n m : nat) : Prop :=
  forall i j, i < n -> j < m -> exists v, kv i j = Ok v.

(** An array in which nothing is wrong, an array that is complete on and above the diagonal, and a complete
    one. *)
Definition nothing_wrong {V} (nan : V) kv two n m (A : mat V) : Prop :=
  mwf n m A /\ forall i j, i < n -> j < m -> mget nan A i j = nan \/ right_at nan kv two A i j.
Definition upper_complete {V} (nan : V) kv two n m (A : mat V) : Prop :=
  mwf n m A /\ forall i j, i < n -> j < m -> i <= j -> right_at nan kv two A i j.
Definition all_complete {V} (nan : V) kv two n m (A : mat V) : Prop :=
  mwf n m A /\ forall i j, i < n -> j < m -> right_at nan kv two A i j.

(** Requests the object accepts: indices in range. *)
Definition valid_rop (n m : nat) (o : rop) : Prop :=
  match o with
  | ROIndex rows cols => (forall i, In i rows -> i < n) /\ (forall j, In j cols -> j < m)
  | _ => True
  end.

(** What a thread may be given for a request, once it has been given it. *)
Definition outcome_ok {V} (nan : V) kv two n m (s : shared V) (o : rop) (r : res (rout V)) : Prop :=
  match o, r with
  | ROIndex rows cols, Ok (RMat a) =>
      mr a = length rows /\ mc a = length cols /\
      forall i j, i < length rows -> j < length cols ->
        pair_value kv two (nth i rows 0) (nth j cols 0) = Ok (mget nan a i j)
  | ROIndex rows cols, Raise e => exists i j, In i rows /\ In j cols /\ pair_value kv two i j = Raise e
  | RODiagonal, Ok (RVec l) =>
      two = false /\ length l = n /\ forall i, i < n -> pair_value kv two i i = Ok (nth i l nan)
  | RODiagonal, Raise e => (two = true /\ e = KMAccessError) \/ (exists i, i < n /\ pair_value kv two i i = Raise e)
  | ROFull, Ok (RRef p) => p < length (sh_heap s) /\ nothing_wrong nan kv two n m (array_at nan n m s p)
  | ROFull, Raise e => e = RuntimeError /\ exists i j e', i < n /\ j < m /\ pair_value kv two i j = Raise e'
  | _, _ => False
  end.

(** The pairs a thread has evaluated the kernel on. *)
Definition calls_of {V} (t : nat) (s : shared V) : list (nat * nat) :=
  map snd (filter (fun c => fst c =? t) (sh_calls s)).

(** A thread that asks for the full matrix; the only one that does. *)
Definition asks_full (work : list (list rop)) (t : nat) : Prop := In ROFull (nth t work []).
Definition only_full (work : list (list rop)) (t : nat) : Prop :=
  forall u, u <> t -> ~ asks_full work u.
(*END PROP*)

Section Proof.
  Context {V : Type}.
  Variable nan : V.
  Variable kv : nat -> nat -> res V.
  Variable two : bool.
  Variables n m : nat.
  Variable writer : nat -> Prop.
  Hypothesis Hshape : two = false -> n = m.

  Notation Sh := (shared V).
  Notation pv := (pair_value kv two).
  Notation right := (right_at nan kv two).
  Notation at_ := (array_at nan n m).
  Notation arr_ok := (nothing_wrong nan kv two n m).
  Notation upper := (upper_complete nan kv two n m).
  Notation complete := (all_complete nan kv two n m).
  Notation tot := (total kv n m).

  Definition sole t := forall u, u <> t -> ~ writer u.
  Definition ref_of t (s : Sh) p := exists o, In (t, o, Ok (RRef p)) (sh_log s).

  Lemma key_value : forall i j, kv (fst (key two i j)) (snd (key two i j)) = pv i j.
  Proof.
    intros i j. unfold key, pair_value. destruct two; cbn [negb].
    - now rewrite andb_false_r.
    - rewrite andb_true_r. destruct (j <? i) eqn:E; cbn [fst snd].
      + apply Nat.ltb_lt in E. now rewrite Nat.min_r, Nat.max_l by lia.
      + apply Nat.ltb_ge in E. now rewrite Nat.min_l, Nat.max_r by lia.
  Qed.

  Lemma key_sym : two = false -> forall i j, key two i j = key two j i.
  Proof.
    intros E i j. unfold key. rewrite E. cbn [negb]. rewrite !andb_true_r.
    destruct (Nat.ltb_spec j i), (Nat.ltb_spec i j); try lia; try reflexivity.
    f_equal; lia.
  Qed.

  Lemma in_product_iff : forall (l l' : list nat) i j, In (i, j) (product l l') <-> In i l /\ In j l'.
  Proof.
    clear Hshape.
    intros l l' i j. unfold product. rewrite in_flat_map. split.
    - intros (a & Ha & H). apply in_map_iff in H. destruct H as (b & E & Hb). injection E as <- <-. auto.
    - intros [H K]. exists i. split; [exact H|]. apply in_map_iff. now exists j.
  Qed.

  Lemma key_range : forall i j, i < n -> j < m -> fst (key two i j) < n /\ snd (key two i j) < m.
  Proof.
    intros i j Hi Hj. unfold key. destruct two; cbn [negb].
    - rewrite andb_false_r. auto.
    - specialize (Hshape eq_refl). rewrite andb_true_r. destruct (j <? i); cbn [fst snd]; lia.
  Qed.

  Lemma tot_pv : tot -> forall i j, i < n -> j < m -> exists v, pv i j = Ok v.
  Proof.
    intros H i j Hi Hj. rewrite <- key_value. destruct (key_range i j Hi Hj). apply H; assumption.
  Qed.

  Lemma no_raise : forall i j e, i < n -> j < m -> pv i j = Raise e -> tot -> False.
  Proof. intros i j e Hi Hj E H. destruct (tot_pv H i j Hi Hj). congruence. Qed.

  (** The invariant of the shared state. *)
  Record Inv (s : Sh) : Prop := {
    i_memo : forall q v, memo_find (sh_memo s) q = Some v -> kv (fst q) (snd q) = Ok v;
    i_heap : forall p, p < length (sh_heap s) -> arr_ok (at_ s p);
    i_full : forall p, sh_full s = Some p -> p < length (sh_heap s);
    i_pop : sh_populated s = true -> sh_full s <> None;
    i_some : 0 < length (sh_heap s) -> sh_full s <> None;
    i_owner : length (sh_owner s) = length (sh_heap s);
    i_ownw : forall p t, nth_error (sh_owner s) p = Some t -> writer t;
    i_log : forall t o r, In (t, o, r) (sh_log s) -> outcome_ok nan kv two n m s o r;
    i_sole : forall t p, sole t -> tot -> ref_of t s p ->
               complete (at_ s p) /\ forall p', ref_of t s p' -> p' = p;
    i_calls : forall t, tot -> NoDup (calls_of t s) /\
                forall q, In q (calls_of t s) -> exists i j, i < n /\ j < m /\ q = key two i j
  }.

  (** What every step does at most. *)
  Record ext (s s' : Sh) : Prop := {
    x_memo : forall q v, memo_find (sh_memo s) q = Some v -> memo_find (sh_memo s') q = Some v;
    x_len : length (sh_heap s) <= length (sh_heap s');
    x_heap : forall p i j, p < length (sh_heap s) -> i < n -> j < m -> i <= j ->
               right (at_ s p) i j -> right (at_ s' p) i j;
    x_full : sh_full s' = sh_full s \/ exists p, sh_full s' = Some p /\ length (sh_heap s) <= p;
    x_pop : sh_populated s = true -> sh_populated s' = true;
    x_low : sh_lower s = true -> sh_lower s' = true;
    x_own : forall p t, nth_error (sh_owner s) p = Some t -> nth_error (sh_owner s') p = Some t;
    x_log : forall ev, In ev (sh_log s) -> In ev (sh_log s')
  }.

  Definition same_arrays (s s' : Sh) : Prop :=
    sh_full s' = sh_full s /\ sh_heap s' = sh_heap s /\ sh_populated s' = sh_populated s /\
    sh_lower s' = sh_lower s.

  (** What thread [t] relies on, and what it guarantees. *)
  Record Rely (t : nat) (s s' : Sh) : Prop := {
    r_ext : ext s s';
    r_calls : calls_of t s' = calls_of t s;
    r_own : forall p, nth_error (sh_owner s') p = Some t -> nth_error (sh_owner s) p = Some t;
    r_same : sole t -> same_arrays s s';
    r_log : forall o r, In (t, o, r) (sh_log s') -> In (t, o, r) (sh_log s)
  }.
  Record Guar (t : nat) (s s' : Sh) : Prop := {
    g_ext : ext s s';
    gu_calls : forall u, u <> t -> calls_of u s' = calls_of u s;
    g_own : forall u p, u <> t -> nth_error (sh_owner s') p = Some u -> nth_error (sh_owner s) p = Some u;
    g_same : ~ writer t -> same_arrays s s';
    g_log : forall u o r, u <> t -> In (u, o, r) (sh_log s') -> In (u, o, r) (sh_log s)
  }.

  Lemma ext_refl : forall s, ext s s.
  Proof. intros s. constructor; auto. Qed.

  Lemma ext_trans : forall a b c, ext a b -> ext b c -> ext a c.
  Proof.
    intros a b c H K. pose proof (x_len _ _ H). pose proof (x_len _ _ K). constructor.
    - intros q v E. apply (x_memo _ _ K), (x_memo _ _ H), E.
    - lia.
    - intros p i j Hp Hi Hj Hij E. apply (x_heap _ _ K); auto; [lia|]. apply (x_heap _ _ H); auto.
    - destruct (x_full _ _ K) as [E|(p & E & L)].
      + rewrite E. exact (x_full _ _ H).
      + right. exists p. split; [exact E|lia].
    - intros E. apply (x_pop _ _ K), (x_pop _ _ H), E.
    - intros E. apply (x_low _ _ K), (x_low _ _ H), E.
    - intros p t E. apply (x_own _ _ K), (x_own _ _ H), E.
    - intros ev E. apply (x_log _ _ K), (x_log _ _ H), E.
  Qed.

  Lemma same_refl : forall s, same_arrays s s.
  Proof. repeat split. Qed.
  Lemma same_trans : forall a b c, same_arrays a b -> same_arrays b c -> same_arrays a c.
  Proof. intros a b c (A1 & A2 & A3 & A4) (B1 & B2 & B3 & B4). repeat split; congruence. Qed.

  Lemma R_refl : forall t s, Rely t s s.
  Proof. intros t s. constructor; auto using ext_refl, same_refl. Qed.
  Lemma R_trans : forall t a b c, Rely t a b -> Rely t b c -> Rely t a c.
  Proof.
    intros t a b c H K. constructor.
    - exact (ext_trans _ _ _ (r_ext _ _ _ H) (r_ext _ _ _ K)).
    - rewrite (r_calls _ _ _ K). exact (r_calls _ _ _ H).
    - intros p E. apply (r_own _ _ _ H), (r_own _ _ _ K), E.
    - intros Hs. exact (same_trans _ _ _ (r_same _ _ _ H Hs) (r_same _ _ _ K Hs)).
    - intros o r E. apply (r_log _ _ _ H), (r_log _ _ _ K), E.
  Qed.
  Lemma G_refl : forall t s, Guar t s s.
  Proof. intros t s. constructor; auto using ext_refl, same_refl. Qed.
  Lemma G_R : forall t u s s', t <> u -> Guar t s s' -> Rely u s s'.
  Proof.
    intros t u s s' N H. constructor.
    - exact (g_ext _ _ _ H).
    - apply (gu_calls _ _ _ H). auto.
    - intros p E. apply (g_own _ _ _ H); auto.
    - intros Hs. apply (g_same _ _ _ H). apply (Hs t N).
    - intros o r E. apply (g_log _ _ _ H); auto.
  Qed.

  (** ** What a thread knows between its steps *)
  Definition settled t (s : Sh) : Prop :=
    tot -> forall q, In q (calls_of t s) -> memo_find (sh_memo s) q <> None.
  Definition mine t (s : Sh) : Prop :=
    tot -> forall p, nth_error (sh_owner s) p = Some t ->
      sh_populated s = true /\ (sh_full s = Some p -> upper (at_ s p)).
  (** The memo holds these pairs. *)
  Definition known (l : list (nat * nat)) (s : Sh) : Prop :=
    forall q, In q l -> memo_find (sh_memo s) (key two (fst q) (snd q)) <> None.
  Definition norefs t (s : Sh) : Prop := sole t -> tot -> forall p, ~ ref_of t s p.
  Definition idle t (s : Sh) : Prop := sole t -> tot ->
    (sh_full s = None /\ sh_populated s = false /\ sh_lower s = false /\ forall p, ~ ref_of t s p) \/
    (exists p, sh_full s = Some p /\ sh_populated s = true /\ sh_lower s = true /\ complete (at_ s p) /\
       known (product (seq 0 n) (seq 0 m)) s /\ forall p', ref_of t s p' -> p' = p).

  Lemma at_same : forall s s' p, sh_heap s' = sh_heap s -> at_ s' p = at_ s p.
  Proof. intros s s' p E. unfold array_at. now rewrite E. Qed.

  Lemma settled_stable : forall t s s', Rely t s s' -> settled t s -> settled t s'.
  Proof.
    intros t s s' H K Ht q Hq. rewrite (r_calls _ _ _ H) in Hq. specialize (K Ht q Hq).
    destruct (memo_find (sh_memo s) q) as [v|] eqn:E; [|congruence].
    rewrite (x_memo _ _ (r_ext _ _ _ H) q v E). discriminate.
  Qed.

  Lemma known_ext : forall l s s', ext s s' -> known l s -> known l s'.
  Proof.
    intros l s s' H K q Hq. specialize (K q Hq).
    destruct (memo_find (sh_memo s) _) as [v|] eqn:E; [|congruence].
    rewrite (x_memo _ _ H _ v E). discriminate.
  Qed.

  Lemma known_app : forall l l' s, known l s -> known l' s -> known (l ++ l') s.
  Proof. intros l l' s H K q Hq. apply in_app_or in Hq. destruct Hq; auto. Qed.

  (** The current array was current before, or is newer than all arrays of then. *)
  Lemma full_back : forall s s' p, ext s s' -> p < length (sh_heap s) -> sh_full s' = Some p -> sh_full s = Some p.
  Proof.
    intros s s' p H Hp E. destruct (x_full _ _ H) as [K|(p' & K & L)]; [congruence|].
    rewrite K in E. injection E as ->. lia.
  Qed.

  Lemma own_len : forall s p t, Inv s -> nth_error (sh_owner s) p = Some t -> p < length (sh_heap s).
  Proof. intros s p t H E. rewrite <- (i_owner _ H). apply nth_error_Some. congruence. Qed.

  Lemma upper_ext : forall s s' p, ext s s' -> Inv s' -> p < length (sh_heap s) -> upper (at_ s p) -> upper (at_ s' p).
  Proof.
    intros s s' p H HI Hp [_ K]. pose proof (x_len _ _ H). split.
    - apply (i_heap _ HI). lia.
    - intros i j Hi Hj Hij. apply (x_heap _ _ H); auto.
  Qed.

  Lemma mine_stable : forall t s s', Inv s -> Rely t s s' -> Inv s' -> mine t s -> mine t s'.
  Proof.
    intros t s s' HI H HI' K Ht p Ho. apply (r_own _ _ _ H) in Ho.
    assert (Hp := own_len _ _ _ HI Ho). destruct (K Ht p Ho) as [K1 K2].
    split; [exact (x_pop _ _ (r_ext _ _ _ H) K1)|]. intros Hf.
    assert (Hf' := full_back _ _ _ (r_ext _ _ _ H) Hp Hf).
    apply (upper_ext s); auto using (r_ext _ _ _ H).
  Qed.

  Lemma ref_back : forall t s s' p, Rely t s s' -> ref_of t s' p -> ref_of t s p.
  Proof. intros t s s' p H (o & E). exists o. apply (r_log _ _ _ H), E. Qed.

  Lemma idle_stable : forall t s s', Rely t s s' -> idle t s -> idle t s'.
  Proof.
    intros t s s' H K Hs Ht. destruct (r_same _ _ _ H Hs) as (E1 & E2 & E3 & E4).
    destruct (K Hs Ht) as [(A & B & C & D)|(p & A & B & C & D & F & L)].
    - left. rewrite E1, E3, E4. repeat split; auto. intros p Hr. apply (D p), (ref_back _ _ _ _ H Hr).
    - right. exists p. rewrite E1, E3, E4, (at_same s s' p E2). repeat (split; [assumption|]).
      split; [exact (known_ext _ _ _ (r_ext _ _ _ H) F)|].
      intros p' Hr. exact (L p' (ref_back _ _ _ _ H Hr)).
  Qed.

  (** ** Steps *)

  (** Steps that leave the arrays alone. *)
  Definition frame (s s' : Sh) : Prop :=
    same_arrays s s' /\ sh_owner s' = sh_owner s /\ sh_log s' = sh_log s /\
    forall q v, memo_find (sh_memo s) q = Some v -> memo_find (sh_memo s') q = Some v.

  Lemma frame_event : forall s s' o r, sh_heap s' = sh_heap s ->
    outcome_ok nan kv two n m s o r -> outcome_ok nan kv two n m s' o r.
  Proof.
    intros s s' o r E H. destruct o; cbn in *; [destruct r as [[]|]; auto|destruct r as [[]|]; auto|].
    destruct r as [[| |p]|e]; auto. rewrite E, (at_same s s' p E). exact H.
  Qed.

  Lemma frame_inv : forall s s', frame s s' -> Inv s ->
    (forall q v, memo_find (sh_memo s') q = Some v -> kv (fst q) (snd q) = Ok v) ->
    (forall t, tot -> NoDup (calls_of t s') /\
                forall q, In q (calls_of t s') -> exists i j, i < n /\ j < m /\ q = key two i j) ->
    Inv s'.
  Proof.
    intros s s' ((E1 & E2 & E3 & E4) & E5 & E6 & E7) HI Hm Hc. constructor; auto.
    - rewrite E2. intros p Hp. rewrite (at_same s s' p E2). exact (i_heap _ HI p Hp).
    - rewrite E1, E2. exact (i_full _ HI).
    - rewrite E1, E3. exact (i_pop _ HI).
    - rewrite E1, E2. exact (i_some _ HI).
    - rewrite E5, E2. exact (i_owner _ HI).
    - rewrite E5. exact (i_ownw _ HI).
    - rewrite E6. intros t o r Hin. apply (frame_event s); [exact E2|]. exact (i_log _ HI t o r Hin).
    - intros t p Hs Ht (o & Hr). rewrite E6 in Hr. rewrite (at_same s s' p E2).
      assert (Hr' : ref_of t s p) by now exists o. destruct (i_sole _ HI t p Hs Ht Hr') as [A B].
      split; [exact A|]. intros p' (o' & Hr2). rewrite E6 in Hr2. apply B. now exists o'.
  Qed.

  Lemma frame_guar : forall t s s', frame s s' ->
    (forall u, u <> t -> calls_of u s' = calls_of u s) ->
    Guar t s s'.
  Proof.
    intros t s s' (Hsame & E5 & E6 & Hm) Hc. destruct (Hsame) as (E1 & E2 & E3 & E4). constructor.
    - constructor.
      + exact Hm.
      + rewrite E2. lia.
      + intros p i j _ _ _ _. now rewrite (at_same s s' p E2).
      + now left.
      + now rewrite E3.
      + now rewrite E4.
      + intros p u. now rewrite E5.
      + intros ev. now rewrite E6.
    - exact Hc.
    - intros u p _. now rewrite E5.
    - intros _. exact Hsame.
    - intros u o r _. now rewrite E6.
  Qed.

  (** [_eval_kernel]. [X] is whatever else the thread knows about the arrays. *)
  Lemma eval_safe : forall t i j (X : Sh -> Prop),
    (forall s s', Inv s -> Rely t s s' -> Inv s' -> X s -> X s') -> (forall s s', frame s s' -> X s -> X s') ->
    i < n -> j < m -> forall s, Inv s -> settled t s -> X s ->
    safe Inv (Rely t) (Guar t) (t_eval kv two t i j)
      (fun r s' => match r with
                   | Ok v => pv i j = Ok v /\ settled t s' /\ X s' /\ memo_find (sh_memo s') (key two i j) <> None
                   | Raise e => pv i j = Raise e
                   end) s.
  Proof.
    intros t i j X HXR HXF Hi Hj s HI HS HX. unfold t_eval. set (q := key two i j).
    assert (Hq : kv (fst q) (snd q) = pv i j) by apply key_value.
    apply safe_bread; [apply G_refl|]. intros s1 R1 I1.
    assert (S1 := settled_stable _ _ _ R1 HS). assert (X1 := HXR _ _ HI R1 I1 HX).
    (* the final look-up *)
    assert (Fin : forall s4, Inv s4 -> settled t s4 -> X s4 -> memo_find (sh_memo s4) q <> None ->
      safe Inv (Rely t) (Guar t)
        (pbind (read (fun s0 => memo_find (sh_memo s0) q))
           (fun o => match o with Some v => pret v | None => praise KeyError end))
        (fun r s' => match r with
                     | Ok v => pv i j = Ok v /\ settled t s' /\ X s' /\ memo_find (sh_memo s') q <> None
                     | Raise e => pv i j = Raise e
                     end) s4).
    { intros s4 I4 S4 X4 M4. apply safe_bread; [apply G_refl|]. intros s5 R5 I5.
      destruct (memo_find (sh_memo s4) q) as [v|] eqn:E4; [|congruence].
      rewrite (x_memo _ _ (r_ext _ _ _ R5) q v E4). apply safe_ret. intros s6 R6 I6.
      assert (R46 := R_trans _ _ _ _ R5 R6).
      split; [|split; [|split]].
      - rewrite <- Hq. exact (i_memo _ I4 q v E4).
      - exact (settled_stable _ _ _ R46 S4).
      - exact (HXR _ _ I4 R46 I6 X4).
      - rewrite (x_memo _ _ (r_ext _ _ _ R46) q v E4). discriminate. }
    destruct (memo_find (sh_memo s1) q) as [v1|] eqn:E1; cbn [is_some negb pwhen].
    - cbn [pbind pret]. apply Fin; auto. congruence.
    - (* the kernel is called *)
      apply (safe_bind Inv (Rely t) (Guar t) (R_refl t)).
      apply safe_bwrite. intros s2 R2 I2.
      assert (S2 := settled_stable _ _ _ R2 S1). assert (X2 := HXR _ _ I1 R2 I2 X1).
      assert (C2 : calls_of t s2 = calls_of t s1) by apply (r_calls _ _ _ R2).
      set (u2 := upd_calls ((t, q) :: sh_calls s2) s2).
      assert (Cu : calls_of t u2 = q :: calls_of t s2).
      { unfold u2, calls_of. cbn. now rewrite Nat.eqb_refl. }
      assert (Co : forall v, v <> t -> calls_of v u2 = calls_of v s2).
      { intros v N. unfold u2, calls_of. cbn. apply Nat.neq_sym, Nat.eqb_neq in N. now rewrite N. }
      assert (F2 : frame s2 u2) by (repeat split; auto).
      assert (Iu2 : Inv u2).
      { apply (frame_inv s2 u2 F2 I2); [exact (i_memo _ I2)|]. intros v Ht.
        destruct (Nat.eq_dec v t) as [->|N].
        - rewrite Cu. destruct (i_calls _ I2 t Ht) as [ND RG]. split.
          + constructor; [|exact ND]. intros Hin. rewrite C2 in Hin. exact (S1 Ht q Hin E1).
          + intros q' [<-|Hin]; [|exact (RG q' Hin)]. now exists i, j.
        - rewrite (Co v N). exact (i_calls _ I2 v Ht). }
      split; [exact Iu2|]. split; [apply frame_guar; [exact F2|exact Co]|].
      assert (Xu2 : X u2) by (apply (HXF s2); auto).
      assert (Su2 : tot -> forall q', In q' (calls_of t u2) -> q' = q \/ memo_find (sh_memo u2) q' <> None).
      { intros Ht q' Hin. rewrite Cu in Hin. destruct Hin as [<-|Hin]; [now left|]. right. exact (S2 Ht q' Hin). }
      rewrite Hq. destruct (pv i j) as [v|e] eqn:Ev.
      + cbn [pbind]. apply safe_bwrite. intros s3 R3 I3.
        set (u3 := upd_memo ((q, v) :: sh_memo s3) s3).
        assert (M3 : forall q' w, memo_find (sh_memo s3) q' = Some w -> memo_find (sh_memo u3) q' = Some w).
        { intros q' w Ew. cbn. destruct (pair_eqb q' q) eqn:Eq; [|exact Ew].
          apply pair_eqb_eq in Eq. subst q'. apply (i_memo _ I3) in Ew. congruence. }
        assert (F3 : frame s3 u3) by (repeat split; exact M3).
        assert (Iu3 : Inv u3).
        { apply (frame_inv s3 u3 F3 I3); [|exact (i_calls _ I3)].
          intros q' w Ew. cbn in Ew. destruct (pair_eqb q' q) eqn:Eq; [|exact (i_memo _ I3 q' w Ew)].
          apply pair_eqb_eq in Eq. subst q'. congruence. }
        assert (Gu3 : Guar t s3 u3) by (apply frame_guar; auto).
        split; [exact Iu3|]. split; [exact Gu3|].
        assert (Xu3 : X u3) by (apply (HXF s3); [exact F3|]; exact (HXR _ _ Iu2 R3 I3 Xu2)).
        assert (Mq : memo_find (sh_memo u3) q <> None).
        { cbn. now rewrite (proj2 (pair_eqb_eq q q) eq_refl). }
        assert (Su3 : settled t u3).
        { intros Ht q' Hin. change (calls_of t u3) with (calls_of t s3) in Hin.
          rewrite (r_calls _ _ _ R3) in Hin. destruct (Su2 Ht q' Hin) as [->|N]; [exact Mq|].
          destruct (memo_find (sh_memo u2) q') as [w|] eqn:Ew; [|congruence].
          rewrite (M3 q' w (x_memo _ _ (r_ext _ _ _ R3) q' w Ew)). discriminate. }
        apply safe_bread; [apply G_refl|]. intros s4 R4 I4.
        apply safe_write. intros s5 R5 I5.
        set (u5 := upd_evals (S (sh_evals s4)) s5).
        assert (F5 : frame s5 u5) by (repeat split; auto).
        assert (Iu5 : Inv u5) by (apply (frame_inv s5 u5 F5 I5); [exact (i_memo _ I5)|exact (i_calls _ I5)]).
        split; [exact Iu5|]. split; [apply frame_guar; auto|].
        assert (R35 := R_trans _ _ _ _ R4 R5).
        intros s6 R6 I6. cbn [bindpost]. apply Fin; [exact I6| | |].
        * apply (settled_stable t u5 s6 R6). exact (settled_stable t u3 s5 R35 Su3).
        * apply (HXR _ _ Iu5 R6 I6), (HXF s5 _ F5), (HXR _ _ Iu3 R35 I5), Xu3.
        * destruct (memo_find (sh_memo u3) q) as [w|] eqn:Ew; [|congruence].
          apply (x_memo _ _ (r_ext _ _ _ R35)) in Ew. apply (x_memo _ _ (r_ext _ _ _ R6)) in Ew. congruence.
      + cbn [pbind]. apply safe_ret. intros s3 R3 I3. cbn [bindpost]. reflexivity.
  Qed.

  (** Assigning an entry. *)
  Definition put (p : nat) (q : nat * nat) (v : V) (s : Sh) : Sh :=
    upd_heap (list_upd (sh_heap s) p (mset (at_ s p) (fst q) (snd q) v)) s.

  Lemma at_put : forall s p q v p', p < length (sh_heap s) ->
    at_ (put p q v s) p' = if p' =? p then mset (at_ s p) (fst q) (snd q) v else at_ s p'.
  Proof.
    intros s p q v p' Hp. unfold array_at at 1, put, upd_heap. cbn [sh_heap]. rewrite list_upd_nth.
    apply Nat.ltb_lt in Hp. rewrite Hp, andb_true_r. reflexivity.
  Qed.

  Lemma right_put : forall s p q v p' i j, Inv s -> p < length (sh_heap s) -> p' < length (sh_heap s) ->
    i < n -> j < m ->
    mget nan (at_ (put p q v s) p') i j =
    if (p' =? p) && ((i =? fst q) && (j =? snd q)) then v else mget nan (at_ s p') i j.
  Proof.
    intros s p q v p' i j HI Hp Hp' Hi Hj. rewrite at_put by exact Hp.
    destruct (p' =? p) eqn:E; cbn [andb]; [|reflexivity]. apply Nat.eqb_eq in E. subst p'.
    destruct (i_heap _ HI p Hp) as [W _]. apply (mget_mset nan n m); assumption.
  Qed.

  Lemma store_IG : forall t s p q v, Inv s -> writer t -> norefs t s -> p < length (sh_heap s) ->
    fst q < n -> snd q < m -> (v = nan \/ pv (fst q) (snd q) = Ok v) ->
    (fst q <= snd q -> pv (fst q) (snd q) = Ok v) ->
    Inv (put p q v s) /\ Guar t s (put p q v s).
  Proof.
    intros t s p q v HI Hw Hn Hp Hq1 Hq2 Hv Hu.
    assert (Hlen : length (sh_heap (put p q v s)) = length (sh_heap s)).
    { unfold put, upd_heap. cbn [sh_heap]. apply list_upd_length. }
    assert (Hok : forall p', p' < length (sh_heap s) -> arr_ok (at_ (put p q v s) p')).
    { intros p' Hp'. destruct (i_heap _ HI p' Hp') as [W K]. split.
      - rewrite at_put by exact Hp. destruct (p' =? p) eqn:E; [|exact W].
        apply Nat.eqb_eq in E. subst p'. apply mset_wf, W.
      - intros i j Hi Hj. unfold right_at. rewrite (right_put s p q v p' i j HI Hp Hp' Hi Hj).
        destruct ((p' =? p) && ((i =? fst q) && (j =? snd q))) eqn:E; [|exact (K i j Hi Hj)].
        apply andb_true_iff in E. destruct E as [_ E]. apply andb_true_iff in E. destruct E as [E1 E2].
        apply Nat.eqb_eq in E1, E2. subst i j. exact Hv. }
    split.
    - constructor.
      + exact (i_memo _ HI).
      + rewrite Hlen. exact Hok.
      + rewrite Hlen. exact (i_full _ HI).
      + exact (i_pop _ HI).
      + rewrite Hlen. exact (i_some _ HI).
      + rewrite Hlen. exact (i_owner _ HI).
      + exact (i_ownw _ HI).
      + intros u o r Hin. pose proof (i_log _ HI u o r Hin) as K.
        destruct o; cbn in K |- *; [destruct r as [[]|]; auto|destruct r as [[]|]; auto|].
        destruct r as [[| |p']|e]; auto. destruct K as [K1 K2].
        rewrite list_upd_length. split; [exact K1|]. exact (Hok p' K1).
      + intros u p' Hs Ht Hr. change (ref_of u (put p q v s) p') with (ref_of u s p') in Hr.
        destruct (Nat.eq_dec u t) as [->|N].
        * exfalso. exact (Hn Hs Ht p' Hr).
        * exfalso. apply (Hs t); auto.
      + exact (i_calls _ HI).
    - constructor; auto.
      + constructor; auto.
        * rewrite Hlen. lia.
        * intros p' i j Hp' Hi Hj Hij K. unfold right_at in *.
          rewrite (right_put s p q v p' i j HI Hp Hp' Hi Hj).
          destruct ((p' =? p) && ((i =? fst q) && (j =? snd q))) eqn:E; [|exact K].
          apply andb_true_iff in E. destruct E as [_ E]. apply andb_true_iff in E. destruct E as [E1 E2].
          apply Nat.eqb_eq in E1, E2. subst i j. exact (Hu Hij).
      + intros N. contradiction.
  Qed.

  Lemma full_persists : forall s s', ext s s' -> sh_full s <> None -> sh_full s' <> None.
  Proof.
    intros s s' H K. destruct (x_full _ _ H) as [E|(p & E & _)]; rewrite E; [exact K|discriminate].
  Qed.

  Lemma load_safe : forall t {B} (k : nat -> prog Sh B) Q s, sh_full s <> None ->
    (forall s' p, Rely t s s' -> Inv s' -> sh_full s' = Some p -> safe Inv (Rely t) (Guar t) (k p) Q s') ->
    safe Inv (Rely t) (Guar t) (pbind t_load k) Q s.
  Proof.
    intros t B k Q s Hf H s' HR HI. split; [exact HI|]. split; [apply G_refl|].
    pose proof (full_persists _ _ (r_ext _ _ _ HR) Hf) as Hf'. cbn [pbind pret].
    destruct (sh_full s') as [p|] eqn:E; [|congruence]. cbn [pbind pret].
    exact (H s' p HR HI E).
  Qed.

  Lemma norefs_stable : forall t s s', Rely t s s' -> norefs t s -> norefs t s'.
  Proof. intros t s s' H K Hs Ht p Hr. exact (K Hs Ht p (ref_back _ _ _ _ H Hr)). Qed.

  (** [self._full_km[q] = self._eval_kernel( *q )]. *)
  Lemma fill_safe : forall t q (X X' : Sh -> Prop),
    (forall s s', Inv s -> Rely t s s' -> Inv s' -> X s -> X s') -> (forall s s', frame s s' -> X s -> X s') ->
    (forall s s', Inv s -> Rely t s s' -> Inv s' -> X' s -> X' s') ->
    (forall s, X s -> sh_full s <> None) -> (forall s, X s -> norefs t s) ->
    writer t -> fst q < n -> snd q < m ->
    (forall s0 s p v, Inv s0 -> X s0 -> sh_full s0 = Some p -> Rely t s0 s -> Inv s -> X s ->
       pv (fst q) (snd q) = Ok v -> Guar t s (put p q v s) -> Inv (put p q v s) -> X' (put p q v s)) ->
    forall s, Inv s -> settled t s -> X s ->
    safe Inv (Rely t) (Guar t) (t_fill nan kv two n m t q)
      (fun r s' => match r with
                   | Ok _ => settled t s' /\ X' s' /\ known [q] s'
                   | Raise e => pv (fst q) (snd q) = Raise e
                   end) s.
  Proof.
    intros t q X X' HXR HXF HX'R HXf HXn Hw Hq1 Hq2 Hstep s HI HS HX. unfold t_fill.
    eapply safe_seq; [apply R_refl| | |].
    - apply (eval_safe t (fst q) (snd q) X HXR HXF Hq1 Hq2 s HI HS HX).
    - intros v s1 I1 (Ev & S1 & X1 & N1). apply load_safe; [exact (HXf s1 X1)|].
      intros s2 p R2 I2 Ef. assert (X2 := HXR _ _ I1 R2 I2 X1). apply safe_write.
      intros s3 R3 I3. assert (X3 := HXR _ _ I2 R3 I3 X2).
      pose proof (x_len _ _ (r_ext _ _ _ R3)) as L3. pose proof (i_full _ I2 p Ef) as Lp.
      destruct (store_IG t s3 p q v I3 Hw (HXn s3 X3)) as [Iu Gu]; auto; [lia|].
      split; [exact Iu|]. split; [exact Gu|].
      intros s4 R4 I4. split; [|split].
      + apply (settled_stable t _ s4 R4). change (settled t s3).
        apply (settled_stable t s2 s3 R3), (settled_stable t s1 s2 R2), S1.
      + apply (HX'R _ _ Iu R4 I4). apply (Hstep s2 s3 p v); auto.
      + apply (known_ext _ _ _ (r_ext _ _ _ R4)). change (known [q] s3).
        apply (known_ext _ _ _ (r_ext _ _ _ R3)), (known_ext _ _ _ (r_ext _ _ _ R2)).
        intros q' [<-|[]]. exact N1.
    - intros e s1 _ H. exact H.
  Qed.

  Lemma in_upper : forall i j, In (i, j) (upper_pairs n m) <-> i < n /\ i <= j /\ j < m.
  Proof.
    clear Hshape.
    intros i j. unfold upper_pairs. rewrite in_flat_map. split.
    - intros (a & Ha & Hin). apply in_map_iff in Hin. destruct Hin as (b & Hb & Hin).
      inversion Hb; subst. apply in_seq in Ha, Hin. lia.
    - intros (H1 & H2 & H3). exists i. split; [apply in_seq; lia|].
      apply in_map_iff. exists j. split; [reflexivity|]. apply in_seq. lia.
  Qed.

  Lemma in_low : forall i j, In (i, j) (tril_indices n m) <-> i < n /\ j < i /\ j < m.
  Proof.
    clear Hshape.
    intros i j. unfold tril_indices. rewrite in_flat_map. split.
    - intros (a & Ha & Hin). apply in_map_iff in Hin. destruct Hin as (b & Hb & Hin).
      inversion Hb; subst. apply in_seq in Ha, Hin. lia.
    - intros (H1 & H2 & H3). exists i. split; [apply in_seq; lia|].
      apply in_map_iff. exists j. split; [reflexivity|]. apply in_seq. lia.
  Qed.

  Lemma frame_at : forall s s' p, frame s s' -> at_ s' p = at_ s p.
  Proof. intros s s' p ((_ & E & _) & _). apply at_same, E. Qed.
  Lemma frame_ref : forall s s' t p, frame s s' -> ref_of t s' p -> ref_of t s p.
  Proof. intros s s' t p (_ & _ & E & _) (o & H). exists o. now rewrite <- E. Qed.
  Lemma frame_norefs : forall s s' t, frame s s' -> norefs t s -> norefs t s'.
  Proof. intros s s' t F K Hs Ht p Hr. exact (K Hs Ht p (frame_ref _ _ _ _ F Hr)). Qed.
  Lemma frame_mine : forall s s' t, frame s s' -> mine t s -> mine t s'.
  Proof.
    intros s s' t F K Ht p Ho. rewrite (frame_at _ _ p F).
    destruct F as ((E1 & _ & E3 & _) & E5 & _). rewrite E5 in Ho. rewrite E1, E3. exact (K Ht p Ho).
  Qed.
  Lemma frame_known : forall s s' l, frame s s' -> known l s -> known l s'.
  Proof.
    intros s s' l (_ & _ & _ & H) K q Hq. specialize (K q Hq).
    destruct (memo_find (sh_memo s) _) as [v|] eqn:E; [|congruence]. rewrite (H _ v E). discriminate.
  Qed.

  (** *** The upper triangle *)
  Definition up_inv t p0 (pre : list (nat * nat)) (s : Sh) : Prop :=
    incl pre (upper_pairs n m) /\
    nth_error (sh_owner s) p0 = Some t /\ sh_full s <> None /\ norefs t s /\
    (tot -> sh_full s = Some p0 -> forall q, In q pre -> right (at_ s p0) (fst q) (snd q)) /\
    (tot -> forall p, p <> p0 -> nth_error (sh_owner s) p = Some t ->
       sh_populated s = true /\ (sh_full s = Some p -> upper (at_ s p))) /\
    (sole t -> tot -> sh_full s = Some p0 /\ sh_populated s = false /\ sh_lower s = false).

  Lemma up_stable : forall t p0 pre s s', Inv s -> Rely t s s' -> Inv s' -> up_inv t p0 pre s -> up_inv t p0 pre s'.
  Proof.
    intros t p0 pre s s' HI HR HI' (H1 & H2 & H3 & H4 & H5 & H6 & H7).
    pose proof (r_ext _ _ _ HR) as X. pose proof (own_len _ _ _ HI H2) as L0.
    split; [exact H1|]. split; [exact (x_own _ _ X _ _ H2)|]. split; [exact (full_persists _ _ X H3)|].
    split; [exact (norefs_stable _ _ _ HR H4)|]. split; [|split].
    - intros Ht Hf q Hq. pose proof (full_back _ _ _ X L0 Hf) as Hf0.
      pose proof (H1 q Hq) as Hin. destruct q as [i j]. apply in_upper in Hin. cbn [fst snd].
      apply (x_heap _ _ X); try lia. exact (H5 Ht Hf0 (i, j) Hq).
    - intros Ht p N Ho. apply (r_own _ _ _ HR) in Ho. pose proof (own_len _ _ _ HI Ho) as Lp.
      destruct (H6 Ht p N Ho) as [K1 K2]. split; [exact (x_pop _ _ X K1)|]. intros Hf.
      apply (upper_ext s); auto. apply K2. exact (full_back _ _ _ X Lp Hf).
    - intros Hs Ht. destruct (r_same _ _ _ HR Hs) as (E1 & E2 & E3 & E4). rewrite E1, E3, E4. auto.
  Qed.

  Lemma up_frame : forall t p0 pre s s', frame s s' -> up_inv t p0 pre s -> up_inv t p0 pre s'.
  Proof.
    intros t p0 pre s s' F (H1 & H2 & H3 & H4 & H5 & H6 & H7). pose proof (frame_at s s' p0 F) as Ea.
    pose proof (frame_norefs s s' t F H4) as Hn.
    assert (Eb : forall p, at_ s' p = at_ s p) by (intros p; exact (frame_at s s' p F)).
    destruct F as ((E1 & E2 & E3 & E4) & E5 & E6 & _).
    unfold up_inv. rewrite E1, E3, E4, E5, Ea. repeat (split; [assumption|]). split; [|assumption].
    intros Ht p N Ho. rewrite Eb. auto.
  Qed.

  Definition raises : Prop := exists i j e, i < n /\ j < m /\ pv i j = Raise e.
  Lemma raises_tot : raises -> ~ tot.
  Proof. intros (i & j & e & Hi & Hj & E) Ht. exact (no_raise i j e Hi Hj E Ht). Qed.

  Lemma upper_loop : forall t p0 s, writer t -> Inv s -> settled t s -> up_inv t p0 [] s ->
    safe Inv (Rely t) (Guar t)
      (pexcept (pfor (upper_pairs n m) (t_fill nan kv two n m t)) RuntimeError)
      (fun r s' => match r with
                   | Ok _ => settled t s' /\ up_inv t p0 (upper_pairs n m) s' /\ known (upper_pairs n m) s'
                   | Raise e => e = RuntimeError /\ raises
                   end) s.
  Proof.
    intros t p0 s Hw HI HS HU. apply safe_except.
    apply (safe_weaken Inv (Rely t) (Guar t) _
      (fun r s' => match r with
                   | Ok _ => (Inv s' /\ settled t s' /\ known (upper_pairs n m) s') /\
                             up_inv t p0 (upper_pairs n m) s'
                   | Raise _ => raises end)).
    { intros [a|e] s' _ H; [destruct H as ((_ & H1 & H2) & H3); auto|auto]. }
    apply (safe_for Inv (Rely t) (Guar t) (R_refl t) (t_fill nan kv two n m t)
             (fun pre s' => (Inv s' /\ settled t s' /\ known pre s') /\ up_inv t p0 pre s') (fun _ _ => raises)).
    - intros pre s1 s2 R2 I2 ((I1 & S1 & N1) & U1).
      split; [split; [exact I2|split; [exact (settled_stable _ _ _ R2 S1)|]]|exact (up_stable _ _ _ _ _ I1 R2 I2 U1)].
      exact (known_ext _ _ _ (r_ext _ _ _ R2) N1).
    - intros pre q post s1 El I1 ((_ & S1 & N1) & U1).
      assert (Hq : In q (upper_pairs n m)) by (rewrite El; apply in_elt).
      assert (Hq' := Hq). destruct q as [i j]. apply in_upper in Hq'.
      eapply safe_weaken; [|apply (fill_safe t (i, j) (fun s => up_inv t p0 pre s /\ known pre s)
                                     (fun s => up_inv t p0 (pre ++ [(i, j)]) s /\ known pre s)); auto].
      + intros [a|e] s2 I2 H; cbn in H.
        * destruct H as (H1 & (H2 & H3) & H4). split; [split; [exact I2|split; [exact H1|exact (known_app _ _ _ H3 H4)]]|exact H2].
        * exists i, j, e. repeat split; try lia. exact H.
      + intros s2 s3 I2 R3 I3 [A B]. split; [exact (up_stable _ _ _ _ _ I2 R3 I3 A)|exact (known_ext _ _ _ (r_ext _ _ _ R3) B)].
      + intros s2 s3 F [A B]. split; [exact (up_frame _ _ _ _ _ F A)|exact (frame_known _ _ _ F B)].
      + intros s2 s3 I2 R3 I3 [A B]. split; [exact (up_stable _ _ _ _ _ I2 R3 I3 A)|exact (known_ext _ _ _ (r_ext _ _ _ R3) B)].
      + intros s2 ((_ & _ & H & _) & _). exact H.
      + intros s2 ((_ & _ & _ & H & _) & _). exact H.
      + cbn [fst]. lia.
      + cbn [snd]. lia.
      + cbn [fst snd]. intros s0 s2 p v I0 [X0 _] Ef R2 I2 [X2 N2] Ev Gu Iu.
        split; [|exact N2].
        destruct X2 as (H1 & H2 & H3 & H4 & H5 & H6 & H7).
        pose proof (own_len _ _ _ I2 H2) as L0.
        pose proof (x_len _ _ (r_ext _ _ _ R2)) as L2. pose proof (i_full _ I0 p Ef) as Lp.
        assert (L00 : p0 < length (sh_heap s0)).
        { destruct X0 as (_ & K & _). exact (own_len _ _ _ I0 K). }
        split; [|split; [exact H2|split; [exact H3|split; [exact H4|split; [|split]]]]].
        * intros q Hin. apply in_app_or in Hin. destruct Hin as [Hin|[<-|[]]]; auto.
        * intros Ht Hf q Hin. change (sh_full s2 = Some p0) in Hf.
          assert (Ep : p = p0).
          { pose proof (full_back _ _ _ (r_ext _ _ _ R2) L00 Hf) as E0. congruence. }
          subst p. assert (Hqr : fst q < n /\ snd q < m).
          { apply in_app_or in Hin. destruct Hin as [Hin|[<-|[]]]; [|cbn; lia].
            apply H1 in Hin. destruct q as [a b]. apply in_upper in Hin. cbn. lia. }
          unfold right_at. rewrite right_put; try lia; auto. rewrite Nat.eqb_refl. cbn [andb].
          destruct ((fst q =? fst (i, j)) && (snd q =? snd (i, j))) eqn:Eq.
          -- apply andb_true_iff in Eq. destruct Eq as [Ea Eb]. apply Nat.eqb_eq in Ea, Eb.
             cbn in Ea, Eb. rewrite Ea, Eb. exact Ev.
          -- apply in_app_or in Hin. destruct Hin as [Hin|[<-|[]]]; [exact (H5 Ht Hf q Hin)|].
             rewrite !Nat.eqb_refl in Eq. discriminate.
        * intros Ht p' N Ho. change (nth_error (sh_owner s2) p' = Some t) in Ho.
          destruct (H6 Ht p' N Ho) as [K1 K2]. split; [exact K1|]. intros Hf. change (sh_full s2 = Some p') in Hf.
          apply (upper_ext s2); auto using (g_ext _ _ _ Gu). exact (own_len _ _ _ I2 Ho).
        * exact H7.
    - split; [|exact HU]. split; [exact HI|]. split; [exact HS|intros q []].
  Qed.

  (** After the first part of [_populate_fully]. *)
  Definition after_upper t (s : Sh) : Prop := sole t -> tot ->
    exists p, sh_full s = Some p /\ sh_populated s = true /\ upper (at_ s p) /\
      known (upper_pairs n m) s /\
      ((sh_lower s = false /\ forall p', ~ ref_of t s p') \/
       (sh_lower s = true /\ complete (at_ s p) /\ known (product (seq 0 n) (seq 0 m)) s /\
        forall p', ref_of t s p' -> p' = p)).

  Definition K_upper t (s : Sh) : Prop := settled t s /\ mine t s /\ sh_full s <> None /\ after_upper t s.

  Lemma after_upper_stable : forall t s s', Rely t s s' -> after_upper t s -> after_upper t s'.
  Proof.
    intros t s s' HR H Hs Ht. destruct (r_same _ _ _ HR Hs) as (E1 & E2 & E3 & E4).
    destruct (H Hs Ht) as (p & A & B & C & N & D). exists p.
    rewrite E1, E3, E4, (at_same s s' p E2). repeat (split; [assumption|]).
    split; [exact (known_ext _ _ _ (r_ext _ _ _ HR) N)|].
    destruct D as [[D1 D2]|(D1 & D2 & D3 & D4)]; [left|right].
    2:{ split; [exact D1|]. split; [exact D2|]. split; [exact (known_ext _ _ _ (r_ext _ _ _ HR) D3)|].
        intros p' Hr. exact (D4 p' (ref_back _ _ _ _ HR Hr)). }
    split; [exact D1|].
    intros p' Hr. exact (D2 p' (ref_back _ _ _ _ HR Hr)).
  Qed.

  Lemma K_upper_stable : forall t s s', Inv s -> Rely t s s' -> Inv s' -> K_upper t s -> K_upper t s'.
  Proof.
    intros t s s' HI HR HI' (A & B & C & D). split; [exact (settled_stable _ _ _ HR A)|].
    split; [exact (mine_stable _ _ _ HI HR HI' B)|].
    split; [exact (full_persists _ _ (r_ext _ _ _ HR) C)|exact (after_upper_stable _ _ _ HR D)].
  Qed.

  Lemma blank_ok : arr_ok (blank nan n m).
  Proof.
    split; [apply tabulate_wf|]. intros i j Hi Hj. left. now apply mget_tabulate.
  Qed.

  Lemma complete_upper : forall A, complete A -> upper A.
  Proof. intros A [W H]. split; auto. Qed.

  Lemma upper_safe : forall t s, writer t -> Inv s -> settled t s -> mine t s -> idle t s ->
    safe Inv (Rely t) (Guar t) (t_upper nan kv two n m t)
      (fun r s' => match r with Ok _ => K_upper t s' | Raise e => e = RuntimeError /\ raises end) s.
  Proof.
    intros t s Hw HI HS HM HD. unfold t_upper. apply safe_bread; [apply G_refl|]. intros s1 R1 I1.
    assert (S1 := settled_stable _ _ _ R1 HS). assert (M1 := mine_stable _ _ _ HI R1 I1 HM).
    assert (D1 := idle_stable _ _ _ R1 HD).
    destruct (sh_populated s1) eqn:Ep; cbn [negb pwhen].
    - apply safe_ret. intros s2 R2 I2. apply (K_upper_stable t s1 s2 I1 R2 I2).
      split; [exact S1|]. split; [exact M1|]. split; [exact (i_pop _ I1 Ep)|].
      intros Hs Ht. destruct (D1 Hs Ht) as [(_ & B & _)|(p & A & B & C & D & N & L)]; [congruence|].
      exists p. split; [exact A|]. split; [exact B|]. split; [apply complete_upper, D|].
      split; [|right; split; [exact C|split; [exact D|split; [exact N|exact L]]]]. intros [i j] Hq. apply in_upper in Hq. apply N, in_product_iff.
      rewrite !in_seq. lia.
    - apply safe_bread; [apply G_refl|]. intros s2 R2 I2.
      assert (S2 := settled_stable _ _ _ R2 S1). assert (M2 := mine_stable _ _ _ I1 R2 I2 M1).
      assert (D2 := idle_stable _ _ _ R2 D1).
      assert (N2 : sole t -> tot -> sh_full s2 = None /\ sh_populated s2 = false /\ sh_lower s2 = false /\
                   forall p, ~ ref_of t s2 p).
      { intros Hs Ht. destruct (D2 Hs Ht) as [A|(p & A & B & C & D)]; [exact A|].
        destruct (r_same _ _ _ R2 Hs) as (_ & _ & E & _). congruence. }
      destruct (sh_full s2) as [p2|] eqn:Ef; cbn [is_some negb pwhen].
      + apply safe_ret. intros s3 R3 I3. apply (K_upper_stable t s2 s3 I2 R3 I3).
        split; [exact S2|]. split; [exact M2|]. split; [congruence|].
        intros Hs Ht. destruct (N2 Hs Ht) as [A _]. discriminate.
      + apply safe_bwrite. intros s3 R3 I3.
        assert (S3 := settled_stable _ _ _ R3 S2).
        set (u := mkSh (Some (length (sh_heap s3))) (sh_heap s3 ++ [blank nan n m]) (sh_populated s3)
                       (sh_lower s3) (sh_memo s3) (sh_evals s3) (sh_owner s3 ++ [t]) (sh_calls s3) (sh_log s3)).
        assert (Eold : forall p, p < length (sh_heap s3) -> at_ u p = at_ s3 p).
        { intros p Hp. unfold array_at, u. cbn [sh_heap]. now rewrite app_nth1. }
        assert (Enew : at_ u (length (sh_heap s3)) = blank nan n m).
        { unfold array_at, u. cbn [sh_heap]. rewrite app_nth2, Nat.sub_diag by lia. reflexivity. }
        assert (Ho3 := i_owner _ I3).
        assert (N3 : sole t -> tot -> sh_full s3 = None /\ sh_populated s3 = false /\ sh_lower s3 = false /\
                   forall p, ~ ref_of t s3 p).
        { intros Hs Ht. destruct (N2 Hs Ht) as (A & B & C & D).
          destruct (r_same _ _ _ R3 Hs) as (E1 & _ & E3 & E4). rewrite E1, E3, E4. repeat split; auto.
          intros p Hr. exact (D p (ref_back _ _ _ _ R3 Hr)). }
        assert (Lu : length (sh_heap u) = S (length (sh_heap s3))).
        { unfold u. cbn [sh_heap]. rewrite app_length. cbn. lia. }
        assert (Iu : Inv u).
        { constructor.
          - exact (i_memo _ I3).
          - intros p Hp. destruct (Nat.eq_dec p (length (sh_heap s3))) as [->|N].
            + rewrite Enew. exact blank_ok.
            + rewrite Eold by lia. apply (i_heap _ I3). lia.
          - intros p E. cbn in E. injection E as <-. lia.
          - intros _. discriminate.
          - intros _. discriminate.
          - rewrite Lu. unfold u. cbn [sh_owner]. rewrite app_length. cbn. lia.
          - intros p v E. unfold u in E. cbn [sh_owner] in E.
            destruct (Nat.lt_ge_cases p (length (sh_owner s3))) as [L|L].
            + rewrite nth_error_app1 in E by exact L. exact (i_ownw _ I3 p v E).
            + rewrite nth_error_app2 in E by exact L.
              destruct (p - length (sh_owner s3)) as [|[|k]]; cbn in E; congruence.
          - intros v o r Hin. pose proof (i_log _ I3 v o r Hin) as K.
            destruct o; cbn in K; [destruct r as [[]|]; exact K|destruct r as [[]|]; exact K|].
            destruct r as [[| |p']|e]; try exact K. destruct K as [K1 K2]. split; [lia|].
            rewrite Eold by exact K1. exact K2.
          - intros v p Hs Ht Hr. change (ref_of v s3 p) in Hr.
            assert (Lp : p < length (sh_heap s3)).
            { destruct Hr as (o & Hr). pose proof (i_log _ I3 v o _ Hr) as K. destruct o; cbn in K; tauto. }
            rewrite Eold by exact Lp. exact (i_sole _ I3 v p Hs Ht Hr).
          - exact (i_calls _ I3). }
        assert (Xu : ext s3 u).
        { constructor; auto.
          - lia.
          - intros p i j Hp _ _ _. now rewrite Eold.
          - right. exists (length (sh_heap s3)). split; [reflexivity|lia].
          - intros p v E. unfold u. cbn [sh_owner]. rewrite nth_error_app1; [exact E|].
            apply nth_error_Some. congruence. }
        split; [exact Iu|]. split.
        { constructor; auto.
          - intros v p N E. unfold u in E. cbn [sh_owner] in E.
            destruct (Nat.lt_ge_cases p (length (sh_owner s3))) as [L|L].
            + now rewrite nth_error_app1 in E.
            + rewrite nth_error_app2 in E by exact L.
              destruct (p - length (sh_owner s3)) as [|[|k]]; cbn in E; congruence.
          - intros N. contradiction. }
        eapply safe_seq; [apply R_refl| | |].
        * apply (upper_loop t (length (sh_heap s3)) u Hw Iu); [exact S3|].
          split; [intros q []|]. split; [|split; [discriminate|split; [|split; [|split]]]].
          -- unfold u. cbn [sh_owner]. rewrite nth_error_app2, Ho3, Nat.sub_diag by lia. reflexivity.
          -- intros Hs Ht p Hr. destruct (N3 Hs Ht) as (_ & _ & _ & D). exact (D p Hr).
          -- intros _ _ q [].
          -- intros Ht p N E. unfold u in E. cbn [sh_owner] in E.
             destruct (Nat.lt_ge_cases p (length (sh_owner s3))) as [L|L].
             ++ rewrite nth_error_app1 in E by exact L.
                destruct (mine_stable _ _ _ I2 R3 I3 M2 Ht p E) as [K _]. split; [exact K|].
                intros E'. cbn in E'. congruence.
             ++ rewrite Ho3 in L. exfalso. assert (p <> length (sh_owner s3)) by congruence.
                rewrite nth_error_app2 in E by lia.
                destruct (p - length (sh_owner s3)) as [|[|k]] eqn:Ek; cbn in E; try congruence. lia.
          -- intros Hs Ht. destruct (N3 Hs Ht) as (_ & B & C & _). auto.
        * intros [] s4 I4 (S4 & U4 & N4). apply safe_write. intros s5 R5 I5.
          apply (known_ext _ _ _ (r_ext _ _ _ R5)) in N4.
          apply (up_stable _ _ _ _ _ I4 R5 I5) in U4. apply (settled_stable _ _ _ R5) in S4.
          set (u5 := upd_populated true s5).
          destruct U4 as (_ & U2 & U3 & U4 & U5 & U6 & U7).
          assert (Iu5 : Inv u5).
          { constructor; try apply I5. intros _. exact U3. }
          split; [exact Iu5|]. split.
          { constructor; auto; [|intros N; contradiction].
            constructor; auto. }
          assert (Up : tot -> sh_full s5 = Some (length (sh_heap s3)) -> upper (at_ s5 (length (sh_heap s3)))).
          { intros Ht Hf. split; [apply (i_heap _ I5), (own_len _ _ _ I5 U2)|].
            intros i j Hi Hj Hij. apply (U5 Ht Hf (i, j)). apply in_upper. lia. }
          intros s6 R6 I6. apply (K_upper_stable t u5 s6 Iu5 R6 I6).
          split; [exact S4|]. split; [|split; [exact U3|]].
          -- intros Ht p Ho. change (at_ u5 p) with (at_ s5 p). split; [reflexivity|].
             destruct (Nat.eq_dec p (length (sh_heap s3))) as [->|N]; [exact (Up Ht)|].
             exact (proj2 (U6 Ht p N Ho)).
          -- intros Hs Ht. destruct (U7 Hs Ht) as (A & B & C). exists (length (sh_heap s3)).
             split; [exact A|]. split; [reflexivity|]. split; [exact (Up Ht A)|].
             split; [exact N4|]. left.
             split; [exact C|]. exact (U4 Hs Ht).
        * intros e s4 _ H. exact H.
  Qed.

  (** *** The lower triangle *)
  Definition low_inv t (pre : list (nat * nat)) (s : Sh) : Prop :=
    incl pre (tril_indices n m) /\ mine t s /\ sh_full s <> None /\ norefs t s /\
    (sole t -> tot -> exists p, sh_full s = Some p /\ sh_populated s = true /\ sh_lower s = false /\
       upper (at_ s p) /\ known (upper_pairs n m) s /\ forall q, In q pre -> right (at_ s p) (fst q) (snd q)).

  Lemma low_stable : forall t pre s s', Inv s -> Rely t s s' -> Inv s' -> low_inv t pre s -> low_inv t pre s'.
  Proof.
    intros t pre s s' HI HR HI' (H1 & H2 & H3 & H4 & H5).
    split; [exact H1|]. split; [exact (mine_stable _ _ _ HI HR HI' H2)|].
    split; [exact (full_persists _ _ (r_ext _ _ _ HR) H3)|]. split; [exact (norefs_stable _ _ _ HR H4)|].
    intros Hs Ht. destruct (r_same _ _ _ HR Hs) as (E1 & E2 & E3 & E4).
    destruct (H5 Hs Ht) as (p & A & B & C & D & N & K). exists p.
    rewrite E1, E3, E4, (at_same s s' p E2). repeat (split; [assumption|]).
    split; [exact (known_ext _ _ _ (r_ext _ _ _ HR) N)|exact K].
  Qed.

  Lemma low_frame : forall t pre s s', frame s s' -> low_inv t pre s -> low_inv t pre s'.
  Proof.
    intros t pre s s' F (H1 & H2 & H3 & H4 & H5).
    split; [exact H1|]. split; [exact (frame_mine _ _ _ F H2)|].
    pose proof (frame_norefs s s' t F H4) as Hn.
    assert (Eb : forall p, at_ s' p = at_ s p) by (intros p; exact (frame_at s s' p F)).
    pose proof (frame_known s s' (upper_pairs n m) F) as Fk.
    destruct F as ((E1 & E2 & E3 & E4) & E5 & E6 & _).
    split; [now rewrite E1|]. split; [exact Hn|].
    intros Hs Ht. destruct (H5 Hs Ht) as (p & A & B & C & D & N & K). exists p.
    rewrite E1, E3, E4, Eb. repeat (split; [assumption|]). split; [exact (Fk N)|exact K].
  Qed.

  (** One assignment below the diagonal. *)
  Lemma low_put : forall t pre q v p s, Inv s -> low_inv t pre s -> In q (tril_indices n m) ->
    p < length (sh_heap s) -> Guar t s (put p q v s) -> Inv (put p q v s) ->
    (sole t -> tot -> sh_full s = Some p /\ pv (fst q) (snd q) = Ok v) ->
    low_inv t (pre ++ [q]) (put p q v s).
  Proof.
    intros t pre q v p s HI (H1 & H2 & H3 & H4 & H5) Hq Hp Gu Iu Hex.
    split; [|split; [|split; [exact H3|split; [exact H4|]]]].
    - intros q' Hin. apply in_app_or in Hin. destruct Hin as [Hin|[<-|[]]]; auto.
    - intros Ht p' Ho. change (nth_error (sh_owner s) p' = Some t) in Ho.
      destruct (H2 Ht p' Ho) as [K1 K2]. split; [exact K1|]. intros Hf. change (sh_full s = Some p') in Hf.
      apply (upper_ext s); auto using (g_ext _ _ _ Gu). exact (own_len _ _ _ HI Ho).
    - intros Hs Ht. destruct (H5 Hs Ht) as (p' & A & B & C & D & N & E).
      destruct (Hex Hs Ht) as [Ef Ev]. assert (p' = p) by congruence. subst p'.
      exists p. split; [exact A|]. split; [exact B|]. split; [exact C|]. split; [|split; [exact N|]].
      + apply (upper_ext s); auto using (g_ext _ _ _ Gu).
      + intros q' Hin. assert (Hr : fst q' < n /\ snd q' < m).
        { apply in_app_or in Hin. destruct Hin as [Hin|[<-|[]]].
          - apply H1 in Hin. destruct q' as [a b]. apply in_low in Hin. cbn. lia.
          - destruct q as [a b]. apply in_low in Hq. cbn. lia. }
        unfold right_at. rewrite right_put; try lia; auto. rewrite Nat.eqb_refl. cbn [andb].
        destruct ((fst q' =? fst q) && (snd q' =? snd q)) eqn:Eq.
        * apply andb_true_iff in Eq. destruct Eq as [Ea Eb]. apply Nat.eqb_eq in Ea, Eb.
          rewrite Ea, Eb. exact Ev.
        * apply in_app_or in Hin. destruct Hin as [Hin|[<-|[]]]; [exact (E q' Hin)|].
          rewrite !Nat.eqb_refl in Eq. discriminate.
  Qed.

  Lemma low_start : forall t s, K_upper t s -> sh_lower s = false -> low_inv t [] s.
  Proof.
    intros t s (A & B & C & D) El. split; [intros q []|]. split; [exact B|]. split; [exact C|]. split.
    - intros Hs Ht. destruct (D Hs Ht) as (p & _ & _ & _ & _ & [[_ K]|[K _]]); [exact K|congruence].
    - intros Hs Ht. destruct (D Hs Ht) as (p & P1 & P2 & P3 & P4 & _). exists p.
      repeat (split; [assumption|]). intros q [].
  Qed.

  Lemma pv_sym : two = false -> forall i j, pv i j = pv j i.
  Proof. intros E i j. unfold pair_value. rewrite E. now rewrite Nat.min_comm, Nat.max_comm. Qed.

  (** What the copies hold. *)
  Definition copied t (q : nat * nat) (v : V) : Prop :=
    (v = nan \/ pv (fst q) (snd q) = Ok v) /\ (sole t -> tot -> pv (fst q) (snd q) = Ok v).

  Lemma Forall2_snoc : forall {A B} (P : A -> B -> Prop) l l' a b,
    Forall2 P l l' -> P a b -> Forall2 P (l ++ [a]) (l' ++ [b]).
  Proof. intros A B P l l' a b H K. apply Forall2_app; [exact H|repeat constructor; exact K]. Qed.

  Lemma Forall2_combine : forall {A B} (P : A -> B -> Prop) l l', Forall2 P l l' ->
    (forall q v, In (q, v) (combine l l') -> P q v) /\ map fst (combine l l') = l.
  Proof.
    intros A B P l l' H. induction H as [|a b l l' Hab H [IH1 IH2]]; cbn; [split; [tauto|reflexivity]|].
    split; [|now rewrite IH2]. intros q v [E|Hin]; [now injection E as <- <-|exact (IH1 q v Hin)].
  Qed.

  Lemma lower_copy : forall t s, writer t -> two = false -> Inv s -> settled t s -> low_inv t [] s ->
    safe Inv (Rely t) (Guar t)
      (pbind t_load (fun p1 =>
       pbind (pmap (tril_indices n m)
                (fun q => read (fun s => mget nan (at_ s p1) (snd q) (fst q)))) (fun vs =>
       pbind t_load (fun p2 =>
       pfor (combine (tril_indices n m) vs) (fun qv => t_store nan n m p2 (fst qv) (snd qv))))))
      (fun r s' => match r with
                   | Ok _ => settled t s' /\ low_inv t (tril_indices n m) s'
                   | Raise e => False
                   end) s.
  Proof.
    intros t s Hw H2 HI HS HL. apply load_safe; [apply HL|]. intros s1 p1 R1 I1 E1.
    apply (settled_stable _ _ _ R1) in HS. apply (low_stable _ _ _ _ HI R1 I1) in HL.
    assert (Enm := Hshape H2).
    (* reading *)
    apply safe_seq with (Q1 := fun r s' => match r with
       | Ok vs => (Inv s' /\ settled t s' /\ low_inv t [] s' /\ p1 < length (sh_heap s') /\
                   (sole t -> tot -> sh_full s' = Some p1)) /\ Forall2 (copied t) (tril_indices n m) vs
       | Raise _ => False end); [apply R_refl| | |].
    - apply (safe_map Inv (Rely t) (Guar t) (R_refl t)
               (fun q => read (fun s => mget nan (at_ s p1) (snd q) (fst q)))
               (fun pre vs s' => (Inv s' /\ settled t s' /\ low_inv t [] s' /\ p1 < length (sh_heap s') /\
                  (sole t -> tot -> sh_full s' = Some p1)) /\ Forall2 (copied t) pre vs)
               (fun _ _ => False) (tril_indices n m)).
      + intros pre vs s2 s3 R3 I3 ((I2 & S2 & L2 & P2 & F2) & C2).
        split; [|exact C2]. split; [exact I3|]. split; [exact (settled_stable _ _ _ R3 S2)|].
        split; [exact (low_stable _ _ _ _ I2 R3 I3 L2)|].
        split; [pose proof (x_len _ _ (r_ext _ _ _ R3)); lia|].
        intros Hs Ht. destruct (r_same _ _ _ R3 Hs) as (K & _). rewrite K. auto.
      + intros pre q post vs s2 El I2 ((_ & S2 & L2 & P2 & F2) & C2).
        assert (Hq : In q (tril_indices n m)) by (rewrite El; apply in_elt).
        destruct q as [i j]. apply in_low in Hq. apply safe_read; [apply G_refl|].
        intros s3 s4 R3 I3 R4 I4. cbn [fst snd].
        assert (R24 := R_trans _ _ _ _ R3 R4).
        pose proof (low_stable _ _ _ _ I2 R3 I3 L2) as L3.
        pose proof (x_len _ _ (r_ext _ _ _ R3)) as P3. pose proof (x_len _ _ (r_ext _ _ _ R24)) as P4.
        split.
        * split; [exact I4|]. split; [exact (settled_stable _ _ _ R24 S2)|].
          split; [exact (low_stable _ _ _ _ I2 R24 I4 L2)|]. split; [lia|].
          intros Hs Ht. destruct (r_same _ _ _ R24 Hs) as (K & _). rewrite K. auto.
        * apply Forall2_snoc; [exact C2|]. split; cbn [fst snd].
          -- assert (P3' : p1 < length (sh_heap s3)) by lia.
             destruct (i_heap _ I3 p1 P3') as [_ K]. destruct (K j i) as [K'|K']; [lia|lia|now left|right].
             rewrite (pv_sym H2). exact K'.
          -- intros Hs Ht. destruct L3 as (_ & _ & _ & _ & L3).
             destruct (L3 Hs Ht) as (p & A & _ & _ & D & _).
             destruct (r_same _ _ _ R3 Hs) as (K & _). rewrite K, (F2 Hs Ht) in A. injection A as <-.
             rewrite (pv_sym H2). apply D; lia.
      + split; [|constructor]. split; [exact I1|]. split; [exact HS|]. split; [exact HL|].
        split; [exact (i_full _ I1 p1 E1)|]. intros _ _. exact E1.
    - (* writing *)
      intros vs s2 I2 ((_ & S2 & L2 & P2 & F2) & C2). apply load_safe; [apply L2|].
      intros s3 p2 R3 I3 E3.
      pose proof (settled_stable _ _ _ R3 S2) as S3. pose proof (low_stable _ _ _ _ I2 R3 I3 L2) as L3.
      destruct (Forall2_combine _ _ _ C2) as [CC CF].
      eapply safe_weaken; [|apply (safe_for Inv (Rely t) (Guar t) (R_refl t)
               (fun qv => t_store nan n m p2 (fst qv) (snd qv))
               (fun pre s' => Inv s' /\ settled t s' /\ low_inv t (map fst pre) s' /\ p2 < length (sh_heap s') /\
                  (sole t -> tot -> sh_full s' = Some p2))
               (fun _ _ => False) (combine (tril_indices n m) vs))].
      + intros [a|e] s4 I4 H; [|exact H]. destruct H as (_ & S4 & L4 & _). rewrite CF in L4. auto.
      + intros pre s4 s5 R5 I5 (I4 & S4 & L4 & P4 & F4).
        split; [exact I5|]. split; [exact (settled_stable _ _ _ R5 S4)|].
        split; [exact (low_stable _ _ _ _ I4 R5 I5 L4)|].
        split; [pose proof (x_len _ _ (r_ext _ _ _ R5)); lia|].
        intros Hs Ht. destruct (r_same _ _ _ R5 Hs) as (K & _). rewrite K. auto.
      + intros pre [q v] post s4 El I4 (_ & S4 & L4 & P4 & F4). cbn [fst snd].
        assert (Hin : In (q, v) (combine (tril_indices n m) vs)) by (rewrite El; apply in_elt).
        destruct (CC q v Hin) as [Cv Cx]. apply in_combine_l in Hin.
        assert (Hq : fst q < n /\ snd q < fst q /\ snd q < m).
        { destruct q as [i j]. apply in_low in Hin. exact Hin. }
        apply safe_write. intros s5 R5 I5.
        pose proof (low_stable _ _ _ _ I4 R5 I5 L4) as L5. pose proof (x_len _ _ (r_ext _ _ _ R5)) as P5.
        destruct (store_IG t s5 p2 q v I5 Hw) as [Iu Gu]; try lia; auto.
        { apply L5. }
        split; [exact Iu|]. split; [exact Gu|]. intros s6 R6 I6.
        assert (Fu : sole t -> tot -> sh_full s5 = Some p2).
        { intros Hs Ht. destruct (r_same _ _ _ R5 Hs) as (K & _). rewrite K. auto. }
        split; [exact I6|]. split.
        { apply (settled_stable t _ s6 R6). change (settled t s5). exact (settled_stable _ _ _ R5 S4). }
        split.
        { apply (low_stable t _ _ s6 Iu R6 I6). rewrite map_app. cbn [map fst].
          apply low_put; auto; lia. }
        split.
        { eapply Nat.lt_le_trans; [|exact (x_len _ _ (r_ext _ _ _ R6))].
          eapply Nat.lt_le_trans; [|exact (x_len _ _ (g_ext _ _ _ Gu))]. lia. }
        intros Hs Ht. destruct (r_same _ _ _ R6 Hs) as (K & _). rewrite K. exact (Fu Hs Ht).
      + split; [exact I3|]. split; [exact S3|]. split; [exact L3|]. split; [exact (i_full _ I3 p2 E3)|].
        intros _ _. exact E3.
    - intros e s2 _ [].
  Qed.

  Lemma lower_eval : forall t s, writer t -> Inv s -> settled t s -> low_inv t [] s ->
    safe Inv (Rely t) (Guar t) (pfor (tril_indices n m) (t_fill nan kv two n m t))
      (fun r s' => match r with
                   | Ok _ => settled t s' /\ low_inv t (tril_indices n m) s' /\ known (tril_indices n m) s'
                   | Raise e => raises
                   end) s.
  Proof.
    intros t s Hw HI HS HL.
    eapply safe_weaken; [|apply (safe_for Inv (Rely t) (Guar t) (R_refl t) (t_fill nan kv two n m t)
             (fun pre s' => (Inv s' /\ settled t s' /\ known pre s') /\ low_inv t pre s') (fun _ _ => raises))].
    - intros [a|e] s' _ H; [destruct H as ((_ & H1 & H2) & H3); auto|exact H].
    - intros pre s1 s2 R2 I2 ((I1 & S1 & N1) & U1).
      split; [split; [exact I2|split; [exact (settled_stable _ _ _ R2 S1)|]]|exact (low_stable _ _ _ _ I1 R2 I2 U1)].
      exact (known_ext _ _ _ (r_ext _ _ _ R2) N1).
    - intros pre q post s1 El I1 ((_ & S1 & N1) & U1).
      assert (Hq : In q (tril_indices n m)) by (rewrite El; apply in_elt).
      assert (Hr : fst q < n /\ snd q < m).
      { destruct q as [i j]. apply in_low in Hq. cbn. lia. }
      eapply safe_weaken; [|apply (fill_safe t q (fun s => low_inv t pre s /\ known pre s)
                                     (fun s => low_inv t (pre ++ [q]) s /\ known pre s)); try tauto].
      + intros [a|e] s2 I2 H; cbn in H.
        * destruct H as (H1 & (H2 & H3) & H4). split; [split; [exact I2|split; [exact H1|exact (known_app _ _ _ H3 H4)]]|exact H2].
        * exists (fst q), (snd q), e. repeat split; try lia. exact H.
      + intros s2 s3 I2 R3 I3 [A B]. split; [exact (low_stable _ _ _ _ I2 R3 I3 A)|exact (known_ext _ _ _ (r_ext _ _ _ R3) B)].
      + intros s2 s3 F [A B]. split; [exact (low_frame _ _ _ _ F A)|exact (frame_known _ _ _ F B)].
      + intros s2 s3 I2 R3 I3 [A B]. split; [exact (low_stable _ _ _ _ I2 R3 I3 A)|exact (known_ext _ _ _ (r_ext _ _ _ R3) B)].
      + intros s2 [H _]. apply H.
      + intros s2 [H _]. apply H.
      + intros s0 s2 p v I0 [X0 _] Ef R2 I2 [X2 N2] Ev Gu Iu. split; [|exact N2].
        pose proof (x_len _ _ (r_ext _ _ _ R2)). pose proof (i_full _ I0 p Ef).
        apply low_put; auto; [lia|].
        intros Hs Ht. destruct (r_same _ _ _ R2 Hs) as (K & _). rewrite K. auto.
    - split; [|exact HL]. split; [exact HI|]. split; [exact HS|intros q []].
  Qed.

  Definition K_done t (s : Sh) : Prop := settled t s /\ mine t s /\ idle t s.

  Lemma K_done_stable : forall t s s', Inv s -> Rely t s s' -> Inv s' -> K_done t s -> K_done t s'.
  Proof.
    intros t s s' HI HR HI' (A & B & C). split; [exact (settled_stable _ _ _ HR A)|].
    split; [exact (mine_stable _ _ _ HI HR HI' B)|exact (idle_stable _ _ _ HR C)].
  Qed.

  Lemma lower_safe : forall t s, writer t -> Inv s -> K_upper t s ->
    safe Inv (Rely t) (Guar t) (t_lower nan kv two n m t)
      (fun r s' => match r with Ok _ => K_done t s' /\ sh_full s' <> None | Raise e => e = RuntimeError /\ raises end) s.
  Proof.
    intros t s Hw HI HK. unfold t_lower. apply safe_bread; [apply G_refl|]. intros s1 R1 I1.
    apply (K_upper_stable _ _ _ HI R1 I1) in HK.
    destruct (sh_lower s1) eqn:El; cbn [negb pwhen].
    - apply safe_ret. intros s2 R2 I2. destruct HK as (A & B & C & D).
      split; [|exact (full_persists _ _ (r_ext _ _ _ R2) C)].
      apply (K_done_stable t s1 s2 I1 R2 I2). split; [exact A|]. split; [exact B|].
      intros Hs Ht. destruct (D Hs Ht) as (p & P1 & P2 & P3 & _ & [[P4 _]|(P4 & P5 & P6 & P7)]); [congruence|].
      right. exists p. repeat (split; [assumption|]). exact P7.
    - pose proof (low_start t s1 HK El) as HL. destruct HK as (HS & _).
      apply safe_seq with (Q1 := fun r s' => match r with
        | Ok _ => settled t s' /\ low_inv t (tril_indices n m) s' /\ (two = true -> known (tril_indices n m) s')
        | Raise e => e = RuntimeError /\ raises end); [apply R_refl| | |].
      + apply safe_except.
        apply (safe_weaken Inv (Rely t) (Guar t) _
          (fun r s' => match r with
                       | Ok _ => settled t s' /\ low_inv t (tril_indices n m) s' /\
                                 (two = true -> known (tril_indices n m) s')
                       | Raise _ => raises end)).
        { intros [a|e] s' _ H; [exact H|split; [reflexivity|exact H]]. }
        destruct (negb two && (n =? m)) eqn:Eb.
        * apply andb_true_iff in Eb. destruct Eb as [Eb _]. apply negb_true_iff in Eb.
          eapply safe_weaken; [|apply lower_copy; auto].
          intros [a|e] s' _ H; [|destruct H]. destruct H as [H1 H2]. split; [exact H1|]. split; [exact H2|congruence].
        * eapply safe_weaken; [|apply lower_eval; auto].
          intros [a|e] s' _ H; [|exact H]. destruct H as (H1 & H2 & H3). auto.
      + intros [] s2 I2 (S2 & L2 & N2). cbn [pbind]. apply safe_write. intros s3 R3 I3.
        assert (N3 : two = true -> known (tril_indices n m) s3).
        { intros E. exact (known_ext _ _ _ (r_ext _ _ _ R3) (N2 E)). }
        apply (settled_stable _ _ _ R3) in S2. apply (low_stable _ _ _ _ I2 R3 I3) in L2.
        set (u := upd_lower true s3). destruct L2 as (_ & L2 & L3 & L4 & L5).
        assert (Iu : Inv u) by (constructor; apply I3).
        split; [exact Iu|]. split.
        { constructor; auto; [|intros N; contradiction]. constructor; auto. }
        intros s4 R4 I4. split; [|exact (full_persists _ _ (r_ext _ _ _ R4) L3)].
        apply (K_done_stable t u s4 Iu R4 I4). split; [exact S2|]. split; [exact L2|].
        intros Hs Ht. destruct (L5 Hs Ht) as (p & P1 & P2 & P3 & P4 & N & P5).
        right. exists p. split; [exact P1|]. split; [exact P2|]. split; [reflexivity|]. split; [split; [apply P4|]|split].
        * intros i j Hi Hj. destruct (Nat.le_gt_cases i j) as [Hle|Hgt].
          -- apply P4; auto.
          -- apply (P5 (i, j)). apply in_low. lia.
        * intros [i j] Hq. apply in_product_iff in Hq. rewrite !in_seq in Hq. cbn [fst snd].
          change (memo_find (sh_memo s3) (key two i j) <> None).
          destruct (Nat.le_gt_cases i j) as [Hle|Hgt]; [apply (N (i, j)), in_upper; lia|].
          destruct (Sumbool.sumbool_of_bool two) as [E2|E2]; [apply (N3 E2 (i, j)), in_low; lia|].
          rewrite (key_sym E2 i j). apply (N (j, i)), in_upper. pose proof (Hshape E2). lia.
        * intros p' Hr. exfalso. exact (L4 Hs Ht p' Hr).
      + intros e s2 _ H. exact H.
  Qed.

  (** ** Requests *)
  Definition K_op t (o : rop) (r : res (rout V)) (s : Sh) : Prop :=
    K_done t s /\ outcome_ok nan kv two n m s o r /\
    forall p, r = Ok (RRef p) -> sole t -> tot -> complete (at_ s p) /\ sh_full s = Some p.

  Lemma not_tot_done : forall t s, raises -> K_done t s.
  Proof.
    intros t s H. apply raises_tot in H.
    split; [intros K; contradiction|split; [intros K; contradiction|intros _ K; contradiction]].
  Qed.

  Lemma frame_done : forall t s s', frame s s' -> mine t s /\ idle t s -> mine t s' /\ idle t s'.
  Proof.
    intros t s s' F [HM HD]. split; [exact (frame_mine _ _ _ F HM)|].
    intros Hs Ht. assert (Eb : forall p, at_ s' p = at_ s p) by (intros p; exact (frame_at s s' p F)).
    pose proof (fun p => frame_ref s s' t p F) as Fr. pose proof (frame_known s s' (product (seq 0 n) (seq 0 m)) F) as Fk.
    destruct F as ((E1 & E2 & E3 & E4) & E5 & E6 & _).
    rewrite E1, E3, E4. destruct (HD Hs Ht) as [(A & B & C & D)|(p & A & B & C & D & N & L)].
    - left. repeat split; auto. intros p Hr. exact (D p (Fr p Hr)).
    - right. exists p. rewrite Eb. repeat (split; [assumption|]). split; [exact (Fk N)|].
      intros p' Hr. exact (L p' (Fr p' Hr)).
  Qed.

  Lemma evals_safe : forall t (l : list (nat * nat)), (forall q, In q l -> fst q < n /\ snd q < m) ->
    forall s, Inv s -> K_done t s ->
    safe Inv (Rely t) (Guar t) (pmap l (fun q => t_eval kv two t (fst q) (snd q)))
      (fun r s' => match r with
                   | Ok vs => K_done t s' /\ Forall2 (fun q v => pv (fst q) (snd q) = Ok v) l vs
                   | Raise e => exists q, In q l /\ pv (fst q) (snd q) = Raise e
                   end) s.
  Proof.
    intros t l Hl s HI HK.
    eapply safe_weaken; [|apply (safe_map Inv (Rely t) (Guar t) (R_refl t)
      (fun q => t_eval kv two t (fst q) (snd q))
      (fun pre vs s' => (Inv s' /\ K_done t s') /\ Forall2 (fun q v => pv (fst q) (snd q) = Ok v) pre vs)
      (fun e _ => exists q, In q l /\ pv (fst q) (snd q) = Raise e) l)].
    - intros [a|e] s' _ H; [destruct H as ((_ & H1) & H2); auto|exact H].
    - intros pre vs s1 s2 R2 I2 ((I1 & K1) & C). split; [|exact C]. split; [exact I2|].
      exact (K_done_stable _ _ _ I1 R2 I2 K1).
    - intros pre q post vs s1 El I1 ((_ & S1 & M1 & D1) & C).
      assert (Hq : In q l) by (rewrite El; apply in_elt). destruct (Hl q Hq) as [Hi Hj].
      eapply safe_weaken; [|apply (eval_safe t (fst q) (snd q) (fun s => mine t s /\ idle t s)); auto].
      + intros [v|e] s2 I2 H; cbn in H.
        * destruct H as (Ev & S2 & (M2 & D2) & _). split; [split; [exact I2|exact (conj S2 (conj M2 D2))]|].
          now apply Forall2_snoc.
        * now exists q.
      + intros s2 s3 I2 R3 I3 [A B]. split; [exact (mine_stable _ _ _ I2 R3 I3 A)|exact (idle_stable _ _ _ R3 B)].
      + apply frame_done.
    - split; [auto|constructor].
  Qed.

  Lemma reshape_rows : forall (rows cols : list nat) (vs : list V) i j,
    Forall2 (fun q v => pv (fst q) (snd q) = Ok v) (product rows cols) vs ->
    i < length rows -> j < length cols ->
    pv (nth i rows 0) (nth j cols 0) = Ok (nth j (nth i (reshape (length rows) (length cols) vs) []) nan).
  Proof.
    induction rows as [|r rows IH]; intros cols vs i j H Hi Hj; [cbn in Hi; lia|].
    unfold product in H. cbn [flat_map] in H. fold (product rows cols) in H.
    apply Forall2_app_inv_l in H. destruct H as (v1 & v2 & H1 & H2 & ->).
    assert (L1 : length v1 = length cols).
    { clear -H1. remember (map (fun b => (r, b)) cols) as l eqn:E. rewrite <- (map_length (fun b => (r, b)) cols), <- E.
      clear E. induction H1; cbn; auto. }
    cbn [length reshape].
    replace (firstn (length cols) (v1 ++ v2)) with v1
      by (rewrite <- L1, firstn_app, firstn_all, Nat.sub_diag; cbn [firstn]; now rewrite app_nil_r).
    replace (skipn (length cols) (v1 ++ v2)) with v2
      by (rewrite <- L1, skipn_app, skipn_all, Nat.sub_diag; reflexivity).
    destruct i as [|i]; cbn [nth].
    - clear -H1 Hj. revert v1 H1 j Hj. induction cols as [|c cols IHc]; intros v1 H1 j Hj; [cbn in Hj; lia|].
      cbn [map] in H1. inversion H1; subst. destruct j as [|j]; cbn [nth]; [assumption|].
      apply IHc; [assumption|]. cbn in Hj. lia.
    - apply IH; auto. cbn in Hi. lia.
  Qed.

  Lemma if_true : forall {A} (a b : A) c, c = true -> (if c then a else b) = a.
  Proof. intros A a b c ->. reflexivity. Qed.
  Lemma if_false : forall {A} (a b : A) c, c = false -> (if c then a else b) = b.
  Proof. intros A a b c ->. reflexivity. Qed.

  Lemma op_safe : forall t o s, valid_rop n m o -> (o = ROFull -> writer t) -> Inv s -> K_done t s ->
    safe Inv (Rely t) (Guar t) (t_op nan kv two n m t o) (K_op t o) s.
  Proof.
    intros t o s Hv Hw HI HK. destruct o as [rows cols| |]; cbn [t_op].
    - destruct Hv as [Hr Hc].
      assert (Hl : forall q, In q (product rows cols) -> In (fst q) rows /\ In (snd q) cols).
      { intros [i j] Hin. unfold product in Hin. apply in_flat_map in Hin. destruct Hin as (a & Ha & Hin).
        apply in_map_iff in Hin. destruct Hin as (b & E & Hb). injection E as <- <-. auto. }
      eapply safe_seq; [apply R_refl| | |].
      + apply (evals_safe t (product rows cols)); auto. intros q Hq. destruct (Hl q Hq). auto.
      + intros vs s1 I1 [K1 F]. apply safe_ret. intros s2 R2 I2.
        split; [exact (K_done_stable _ _ _ I1 R2 I2 K1)|]. split; [|discriminate].
        cbn. repeat split. intros i j Hi Hj. unfold mget. cbn [md]. now apply reshape_rows.
      + intros e s1 I1 (q & Hq & E). destruct (Hl q Hq). split.
        * apply not_tot_done. exists (fst q), (snd q), e. auto.
        * split; [|discriminate]. cbn. exists (fst q), (snd q). auto.
    - destruct (Sumbool.sumbool_of_bool two) as [E2|E2]; [rewrite (if_true _ _ two E2)|rewrite (if_false _ _ two E2)].
      + apply safe_ret. intros s1 R1 I1. split; [exact (K_done_stable _ _ _ HI R1 I1 HK)|].
        split; [|discriminate]. cbn. left. auto.
      + assert (Enm := Hshape E2).
        assert (Em : pmap (seq 0 n) (fun i => t_eval kv two t i i)
                   = pmap (map (fun i => (i, i)) (seq 0 n)) (fun q => t_eval kv two t (fst q) (snd q))).
        { generalize (seq 0 n) as l. induction l as [|x l IH]; [reflexivity|].
          cbn [map pmap fst snd]. now rewrite IH. }
        rewrite Em. eapply safe_seq; [apply R_refl| | |].
        * apply (evals_safe t (map (fun i => (i, i)) (seq 0 n))); auto.
          intros q Hq. apply in_map_iff in Hq. destruct Hq as (i & <- & Hi). apply in_seq in Hi. cbn. lia.
        * intros vs s1 I1 [K1 F]. apply safe_ret. intros s2 R2 I2.
          split; [exact (K_done_stable _ _ _ I1 R2 I2 K1)|]. split; [|discriminate].
          cbn. split; [exact E2|]. assert (Lv : length vs = n).
          { clear -F. remember (map (fun i => (i, i)) (seq 0 n)) as l eqn:E.
            rewrite <- (seq_length n 0), <- (map_length (fun i => (i, i)) (seq 0 n)), <- E. clear E.
            induction F; cbn; auto. }
          split; [exact Lv|]. intros i Hi.
          assert (G : forall l vs, Forall2 (fun q v => pv (fst q) (snd q) = Ok v) (map (fun i => (i, i)) l) vs ->
                      forall i, i < length l -> pv (nth i l 0) (nth i l 0) = Ok (nth i vs nan)).
          { clear. induction l as [|x l IH]; intros vs F i Hi; [cbn in Hi; lia|].
            cbn [map] in F. inversion F; subst. destruct i as [|i]; cbn [nth]; [assumption|].
            apply IH; [assumption|]. cbn in Hi. lia. }
          specialize (G (seq 0 n) vs F i). rewrite seq_length, seq_nth in G by lia. exact (G Hi).
        * intros e s1 I1 (q & Hq & E). apply in_map_iff in Hq. destruct Hq as (i & <- & Hi).
          apply in_seq in Hi. cbn [fst snd] in E. split.
          -- apply not_tot_done. exists i, i, e. repeat split; try lia. exact E.
          -- split; [|discriminate]. cbn. right. exists i. split; [lia|]. exact E.
    - specialize (Hw eq_refl). apply safe_bread; [apply G_refl|]. intros s1 R1 I1.
      apply (K_done_stable _ _ _ HI R1 I1) in HK.
      apply safe_seq with (Q1 := fun r s' => match r with
        | Ok _ => K_done t s' /\ sh_full s' <> None
        | Raise e => e = RuntimeError /\ raises end); [apply R_refl| | |].
      + destruct (sh_populated s1) eqn:Ep; cbn [negb pwhen].
        * apply safe_ret. intros s2 R2 I2. split; [exact (K_done_stable _ _ _ I1 R2 I2 HK)|].
          exact (full_persists _ _ (r_ext _ _ _ R2) (i_pop _ I1 Ep)).
        * unfold t_populate. destruct HK as (S1 & M1 & D1). eapply safe_seq; [apply R_refl| | |].
          -- apply (upper_safe t s1 Hw I1 S1 M1 D1).
          -- intros [] s2 I2 K2. eapply safe_seq; [apply R_refl| | |].
             ++ apply (lower_safe t s2 Hw I2 K2).
             ++ intros [] s3 I3 [K3 F3]. apply load_safe; [exact F3|]. intros s4 p R4 I4 E4.
                apply safe_ret. intros s5 R5 I5. assert (R35 := R_trans _ _ _ _ R4 R5).
                split; [exact (K_done_stable _ _ _ I3 R35 I5 K3)|].
                exact (full_persists _ _ (r_ext _ _ _ R35) F3).
             ++ intros e s3 _ H. exact H.
          -- intros e s2 _ H. exact H.
      + intros [] s2 I2 [K2 F2]. apply load_safe; [exact F2|]. intros s3 p R3 I3 E3.
        apply safe_ret. intros s4 R4 I4. assert (R24 := R_trans _ _ _ _ R3 R4).
        pose proof (K_done_stable _ _ _ I2 R24 I4 K2) as K4. split; [exact K4|].
        pose proof (x_len _ _ (r_ext _ _ _ R4)) as L4. pose proof (i_full _ I3 p E3) as Lp.
        split.
        * cbn. split; [lia|]. apply (i_heap _ I4). lia.
        * intros p' E Hs Ht. injection E as <-.
          destruct (r_same _ _ _ R4 Hs) as (Ef & Eh & _). rewrite E3 in Ef. split; [|exact Ef].
          destruct K4 as (_ & _ & D4). destruct (D4 Hs Ht) as [(A & _)|(p' & A & _ & _ & D & _)]; [congruence|].
          assert (p' = p) by congruence. subst p'. exact D.
      + intros e s2 I2 [-> Hr]. split; [apply not_tot_done, Hr|]. split; [|discriminate].
        cbn. split; [reflexivity|]. destruct Hr as (i & j & e' & Hi & Hj & E). now exists i, j, e'.
  Qed.

  Lemma thread_safe : forall t ops s, (forall o, In o ops -> valid_rop n m o /\ (o = ROFull -> writer t)) ->
    Inv s -> K_done t s ->
    safe Inv (Rely t) (Guar t) (thread nan kv two n m t ops) (fun r s' => r = Ok tt /\ K_done t s') s.
  Proof.
    intros t ops s Hops HI HK. unfold thread.
    eapply safe_weaken; [|apply (safe_for Inv (Rely t) (Guar t) (R_refl t) _
      (fun _ s' => Inv s' /\ K_done t s') (fun _ _ => False) ops)].
    - intros [[]|e] s' _ H; [|destruct H]. destruct H; auto.
    - intros _ s1 s2 R2 I2 [I1 K1]. split; [exact I2|exact (K_done_stable _ _ _ I1 R2 I2 K1)].
    - intros pre o post s1 El I1 [_ K1].
      assert (Ho : In o ops) by (rewrite El; apply in_elt). destruct (Hops o Ho) as [Hv Hw].
      apply safe_seq with (Q1 := fun r s' => match r with Ok r' => K_op t o r' s' | Raise _ => False end);
        [apply R_refl| | |].
      + apply safe_catch. cbv beta iota. exact (op_safe t o s1 Hv Hw I1 K1).
      + intros r s2 I2 (K2 & O2 & F2). apply safe_write. intros s3 R3 I3.
        pose proof (K_done_stable _ _ _ I2 R3 I3 K2) as K3.
        pose proof (r_ext _ _ _ R3) as X3.
        assert (O3 : outcome_ok nan kv two n m s3 o r).
        { clear -O2 X3 I3. destruct o; cbn in O2 |- *; [destruct r as [[]|]; exact O2|destruct r as [[]|]; exact O2|].
          destruct r as [[| |p]|e]; try exact O2. destruct O2 as [Lp _].
          pose proof (x_len _ _ X3). split; [lia|]. apply (i_heap _ I3). lia. }
        assert (F3 : forall p, r = Ok (RRef p) -> sole t -> tot -> complete (at_ s3 p) /\ sh_full s3 = Some p).
        { intros p E Hs Ht. destruct (F2 p E Hs Ht) as [A B]. destruct (r_same _ _ _ R3 Hs) as (E1 & E2 & _).
          rewrite (at_same s2 s3 p E2), E1. auto. }
        set (u := upd_log ((t, o, r) :: sh_log s3) s3).
        assert (Iu : Inv u).
        { constructor; try apply I3.
          - intros v o' r' [E|Hin].
            + injection E as <- <- <-. apply (frame_event s3); [reflexivity|exact O3].
            + apply (frame_event s3); [reflexivity|]. exact (i_log _ I3 v o' r' Hin).
          - intros v p Hs Ht Hr.
            assert (Old : forall p', ref_of v u p' -> ref_of v s3 p' \/ (v = t /\ r = Ok (RRef p'))).
            { intros p' (o' & [E|Hin]); [right; injection E as -> -> ->; auto|left; now exists o']. }
            change (complete (at_ s3 p) /\ forall p', ref_of v u p' -> p' = p).
            assert (Cur : v = t -> forall p' p'', r = Ok (RRef p') -> ref_of v s3 p'' -> p'' = p').
            { intros -> p' p'' E Hr'. destruct (F3 p' E Hs Ht) as [_ Ef].
              destruct K3 as (_ & _ & D). destruct (D Hs Ht) as [(D1 & _)|(q & Q1 & _ & _ & _ & _ & Q6)]; [congruence|].
              rewrite (Q6 p'' Hr'). congruence. }
            destruct (Old p Hr) as [Hp|[-> Hp]].
            + destruct (i_sole _ I3 v p Hs Ht Hp) as [A B]. split; [exact A|].
              intros p' Hr'. destruct (Old p' Hr') as [Hp'|[E Hp']]; [exact (B p' Hp')|].
              symmetry. exact (Cur E p' p Hp' Hp).
            + split; [apply (F3 p Hp Hs Ht)|]. intros p' Hr'.
              destruct (Old p' Hr') as [Hp'|[_ Hp']]; [exact (Cur eq_refl p p' Hp Hp')|congruence]. }
        split; [exact Iu|]. split.
        { constructor; auto.
          - constructor; auto. intros ev Hin. now right.
          - intros _. repeat split.
          - intros v o' r' N [E|Hin]; [congruence|exact Hin]. }
        intros s4 R4 I4. split; [exact I4|]. apply (K_done_stable t u s4 Iu R4 I4).
        destruct K3 as (A & B & D). split; [exact A|]. split; [exact B|].
        intros Hs Ht. destruct (D Hs Ht) as [(D1 & D2 & D3 & D4)|(q & Q1 & Q2 & Q3 & Q4 & Q5 & Q6)].
        2:{ right. exists q. repeat (split; [assumption|]). intros p (o' & [E|Hin]).
            - injection E as <- ->. destruct (F3 p eq_refl Hs Ht) as [_ K]. congruence.
            - apply Q6. now exists o'. }
        left. repeat split; auto. intros p (o' & [E|Hin]).
        * injection E as <- ->. destruct (F3 p eq_refl Hs Ht) as [_ K]. congruence.
        * apply (D4 p). now exists o'.
      + intros e s2 _ [].
    - split; [exact HI|exact HK].
  Qed.

  Lemma attached_inv : Inv attached.
  Proof.
    clear Hshape.
    constructor.
    - intros q v E. discriminate E.
    - intros p Hp. cbn in Hp. lia.
    - intros p E. discriminate E.
    - intros E. discriminate E.
    - intros E. cbn in E. lia.
    - reflexivity.
    - intros [|p] t E; discriminate E.
    - intros t o r [].
    - intros t p _ _ (o & []).
    - intros t _. split; [constructor|intros q []].
  Qed.

  Lemma attached_done : forall t, K_done t attached.
  Proof.
    intros t. split; [intros _ q []|]. split; [intros _ [|p] E; discriminate E|].
    intros _ _. left. repeat split; auto. intros p (o & []).
  Qed.
End Proof.

(*BEGIN PROP*)
(** The requests of all threads are in range. *)
Definition valid_work (n m : nat) (work : list (list rop)) : Prop :=
  forall ops o, In ops work -> In o ops -> valid_rop n m o.
(*END PROP*)

Section Runs.
  Context {V : Type}.
  Variable nan : V.
  Variable kv : nat -> nat -> res V.
  Variable two : bool.
  Variables n m : nat.
  Hypothesis Hshape : two = false -> n = m.

  Lemma pool_from : forall work a t p,
    nth_error (map (fun q => thread nan kv two n m (fst q) (snd q)) (combine (seq a (length work)) work)) t = Some p ->
    exists ops, nth_error work t = Some ops /\ p = thread nan kv two n m (a + t) ops.
  Proof.
    clear Hshape.
    induction work as [|ops work IH]; intros a t p E; [destruct t; discriminate E|].
    cbn [length seq combine map] in E. destruct t as [|t]; cbn [nth_error] in E.
    - injection E as <-. exists ops. split; [reflexivity|]. now rewrite Nat.add_0_r.
    - destruct (IH (S a) t p E) as (ops' & E1 & E2). exists ops'. split; [exact E1|].
      rewrite E2. f_equal. lia.
  Qed.

  Lemma pool_length : forall work, length (pool nan kv two n m work) = length work.
  Proof. intros work. unfold pool. rewrite map_length, combine_length, seq_length. apply Nat.min_id. Qed.

  Definition post (writer : nat -> Prop) (t : nat) (r : res unit) (s : shared V) : Prop :=
    r = Ok tt /\ K_done nan kv two n m writer t s.
  Notation AS work := (all_safe (Inv nan kv two n m (asks_full work)) (Rely nan kv two n m (asks_full work))
                 (Guar nan kv two n m (asks_full work)) (post (asks_full work))).

  Lemma run_ok : forall work schedule, valid_work n m work ->
    AS work (execute nan kv two n m work attached schedule).
  Proof.
    intros work schedule Hv. unfold execute. apply run_safe.
    - apply R_refl.
    - intros t a b c H1 H2. eapply R_trans; eassumption.
    - intros t u a b H1 H2. eapply G_R; eassumption.
    - split; cbn [fst snd]; [apply attached_inv|]. intros t p Hp.
      destruct (pool_from work 0 t p Hp) as (ops & E1 & ->). cbn [Nat.add].
      apply (thread_safe nan kv two n m _ Hshape).
      + intros o Ho. split; [exact (Hv ops o (nth_error_In _ _ E1) Ho)|]. intros ->.
        unfold asks_full. now rewrite (nth_error_nth _ _ _ E1).
      + apply attached_inv.
      + apply attached_done.
  Qed.

  Lemma step_length : forall c t, length (fst (@sched_step V c t)) = length (fst c).
  Proof.
    intros [pl s] t. unfold sched_step. cbn [fst snd]. destruct (nth_error pl t) as [[r|u nx]|]; cbn [fst]; auto.
    apply list_upd_length.
  Qed.
  Lemma run_length : forall schedule c, length (fst (fold_left (@sched_step V) schedule c)) = length (fst c).
  Proof. induction schedule as [|t l IH]; intros c; cbn; [reflexivity|]. now rewrite IH, step_length. Qed.

  Lemma finished_done : forall work schedule, valid_work n m work ->
    finished (execute nan kv two n m work attached schedule) ->
    forall t, t < length work ->
      K_done nan kv two n m (asks_full work) t (snd (execute nan kv two n m work attached schedule)).
  Proof.
    intros work schedule Hv Hf t Ht. destruct (run_ok work schedule Hv) as [HI HS].
    pose proof (run_length schedule (pool nan kv two n m work, attached)) as L. cbn [fst] in L.
    rewrite pool_length in L. fold (execute nan kv two n m work attached schedule) in L.
    destruct (nth_error (fst (execute nan kv two n m work attached schedule)) t) as [p|] eqn:E.
    2:{ apply nth_error_None in E. rewrite L in E. lia. }
    pose proof (HS t p E) as S. unfold finished in Hf. rewrite Forall_forall in Hf.
    destruct (Hf p (nth_error_In _ _ E)) as (r & ->). cbn in S.
    destruct (S _ (R_refl _ _ _ _ _ _ _ _) HI) as [_ K]. exact K.
  Qed.

  Lemma asks_lt : forall work t, asks_full work t -> t < length work.
  Proof.
    clear Hshape.
    intros work t H. destruct (Nat.lt_ge_cases t (length work)) as [L|L]; [exact L|].
    unfold asks_full in H. rewrite nth_overflow in H by exact L. destruct H.
  Qed.

  Lemma finished_upper : forall work schedule, valid_work n m work ->
    finished (execute nan kv two n m work attached schedule) -> total kv n m ->
    forall p, sh_full (snd (execute nan kv two n m work attached schedule)) = Some p ->
      sh_populated (snd (execute nan kv two n m work attached schedule)) = true /\
      upper_complete nan kv two n m (array_at nan n m (snd (execute nan kv two n m work attached schedule)) p).
  Proof.
    intros work schedule Hv Hf Ht p E. destruct (run_ok work schedule Hv) as [HI _].
    pose proof (i_full _ _ _ _ _ _ _ HI p E) as L. rewrite <- (i_owner _ _ _ _ _ _ _ HI) in L.
    destruct (nth_error (sh_owner (snd (execute nan kv two n m work attached schedule))) p) as [t|] eqn:Eo.
    2:{ apply nth_error_None in Eo. lia. }
    pose proof (asks_lt work t (i_ownw _ _ _ _ _ _ _ HI p t Eo)) as Lt.
    destruct (finished_done work schedule Hv Hf t Lt) as (_ & M & _).
    destruct (M Ht p Eo) as [A B]. auto.
  Qed.
End Runs.

(** Under every schedule of every set of threads, also when the kernel raises: requested elements and
    diagonals are those of the kernel, a matrix handed out as [full] holds nothing but kernel values and
    NaN, and an exception is one the kernel raised (RuntimeError for [full]). *)
Lemma pf_C101_results : forall V (nan : V) kv two n m work schedule,
  (two = false -> n = m) -> valid_work n m work ->
  let s := snd (execute nan kv two n m work attached schedule) in
  forall t o r, In (t, o, r) (sh_log s) -> outcome_ok nan kv two n m s o r.
Proof.
  intros V nan kv two n m work schedule Hs Hv s t o r Hin.
  destruct (run_ok nan kv two n m Hs work schedule Hv) as [HI _]. exact (i_log _ _ _ _ _ _ _ HI t o r Hin).
Qed.

(** A thread that is the only one to read [full] gets the complete matrix, the same one every time, and
    it stays complete; the others may read elements and the diagonal meanwhile. *)
Lemma pf_C101_single : forall V (nan : V) kv two n m work schedule t,
  (two = false -> n = m) -> valid_work n m work -> total kv n m -> only_full work t ->
  let s := snd (execute nan kv two n m work attached schedule) in
  forall p, In (t, ROFull, Ok (RRef p)) (sh_log s) ->
    all_complete nan kv two n m (array_at nan n m s p) /\
    forall p', In (t, ROFull, Ok (RRef p')) (sh_log s) -> p' = p.
Proof.
  intros V nan kv two n m work schedule t Hs Hv Ht Ho s p Hin.
  destruct (run_ok nan kv two n m Hs work schedule Hv) as [HI _].
  destruct (i_sole _ _ _ _ _ _ _ HI t p Ho Ht (ex_intro _ ROFull Hin)) as [A B].
  split; [exact A|]. intros p' Hin'. apply B. now exists ROFull.
Qed.

(** With several threads reading [full]: once all have finished, the next [full] evaluates nothing and is
    complete on and above the diagonal. *)
Lemma pf_C101_upper : forall V (nan : V) kv two n m work schedule,
  (two = false -> n = m) -> valid_work n m work -> total kv n m ->
  let c := execute nan kv two n m work attached schedule in
  finished c -> forall t p0, In (t, ROFull, Ok (RRef p0)) (sh_log (snd c)) ->
  forall u, exists p, alone (t_op nan kv two n m u ROFull) (snd c) = (snd c, Ok (RRef p)) /\
    upper_complete nan kv two n m (array_at nan n m (snd c) p).
Proof.
  intros V nan kv two n m work schedule Hs Hv Ht c Hf t p0 Hin u.
  destruct (run_ok nan kv two n m Hs work schedule Hv) as [HI _]. fold c in HI.
  pose proof (i_log _ _ _ _ _ _ _ HI t _ _ Hin) as [L0 _].
  assert (Hn : sh_full (snd c) <> None) by (apply (i_some _ _ _ _ _ _ _ HI); lia).
  destruct (sh_full (snd c)) as [p|] eqn:E; [|congruence].
  destruct (finished_upper nan kv two n m Hs work schedule Hv Hf Ht p E) as [A B]. fold c in A, B.
  exists p. split; [|exact B]. cbn. rewrite A. cbn. rewrite E. reflexivity.
Qed.

(** No thread evaluates the kernel twice on the same pair (for one sample: unordered pair). *)
Lemma pf_C101_evaluations : forall V (nan : V) kv two n m work schedule,
  (two = false -> n = m) -> valid_work n m work -> total kv n m ->
  let s := snd (execute nan kv two n m work attached schedule) in
  forall t, NoDup (calls_of t s) /\
    (forall i j, In (i, j) (calls_of t s) -> i < n /\ j < m /\ (two = false -> i <= j)) /\
    length (calls_of t s) <= (if two then n * m else n * (n + 1) / 2).
Proof.
  intros V nan kv two n m work schedule Hs Hv Ht s t.
  destruct (run_ok nan kv two n m Hs work schedule Hv) as [HI _].
  destruct (i_calls _ _ _ _ _ _ _ HI t Ht) as [A B]. fold s in A, B.
  assert (C : forall i j, In (i, j) (calls_of t s) -> i < n /\ j < m /\ (two = false -> i <= j)).
  { intros i j Hin. destruct (B _ Hin) as (a & b & Ha & Hb & E).
    destruct (key_range two n m Hs a b Ha Hb) as [K1 K2]. rewrite <- E in K1, K2. cbn in K1, K2.
    split; [exact K1|]. split; [exact K2|]. intros E2. unfold key in E. rewrite E2 in E. cbn [negb] in E.
    rewrite andb_true_r in E. destruct (Nat.ltb_spec b a); injection E as -> ->; lia. }
  split; [exact A|]. split; [exact C|].
  destruct two eqn:E2.
  - replace (n * m) with (length (product (seq 0 n) (seq 0 m))).
    + apply NoDup_incl_length; [exact A|]. intros [i j] Hin. apply in_product_iff. rewrite !in_seq.
      destruct (C i j Hin). lia.
    + transitivity (length (seq 0 n) * length (seq 0 m)); [|now rewrite !seq_length].
      generalize (seq 0 n) as l. induction l as [|a l IH]; [reflexivity|]. unfold product in *.
      cbn [flat_map length Nat.mul]. now rewrite app_length, map_length, IH.
  - specialize (Hs eq_refl). subst m.
    assert (L : length (upper_pairs n n) = n * (n + 1) / 2).
    { unfold upper_pairs. rewrite flat_map_concat_map, <- Nat.div2_div.
      assert (G : forall k a, a + k = n ->
        2 * length (concat (map (fun i => map (fun j => (i, j)) (seq i (n - i))) (seq a k))) = k * (k + 1)).
      { clear. induction k as [|k IH]; intros a E; [reflexivity|].
        cbn [seq map concat]. rewrite app_length, map_length, seq_length, Nat.mul_add_distr_l, IH by lia. nia. }
      rewrite <- (G n 0) by lia. now rewrite Nat.div2_double. }
    rewrite <- L. apply NoDup_incl_length; [exact A|]. intros [i j] Hin. apply in_upper.
    destruct (C i j Hin) as (? & ? & K). specialize (K eq_refl). lia.
Qed.

(** ** After the matrix is there *)
Section Quiet.
  Context {V : Type}.
  Variable nan : V.
  Variable kv : nat -> nat -> res V.
  Variable two : bool.
  Variables n m : nat.
  Variable s0 : shared V.
  Variable p0 : nat.
  Hypothesis Hfull : sh_full s0 = Some p0.
  Hypothesis Hpop : sh_populated s0 = true.
  Hypothesis Hknown : known two (product (seq 0 n) (seq 0 m)) s0.
  Notation Sh := (shared V).
  Let Any : Sh -> Sh -> Prop := fun _ _ => True.

  Definition still (s : Sh) : Prop :=
    sh_full s = sh_full s0 /\ sh_heap s = sh_heap s0 /\ sh_populated s = true /\ sh_memo s = sh_memo s0 /\
    sh_evals s = sh_evals s0 /\ sh_calls s = sh_calls s0 /\
    forall t r, In (t, ROFull, r) (sh_log s) -> In (t, ROFull, r) (sh_log s0) \/ r = Ok (RRef p0).

  Lemma still_eval : forall t i j s, i < n -> j < m ->
    safe still Any Any (t_eval kv two t i j) (fun _ _ => True) s.
  Proof.
    intros t i j s Hi Hj. unfold t_eval. apply safe_bread; [exact (fun _ => I)|]. intros s1 _ I1.
    assert (K : memo_find (sh_memo s1) (key two i j) <> None).
    { destruct I1 as (_ & _ & _ & E & _). rewrite E. apply (Hknown (i, j)), in_product_iff.
      rewrite !in_seq. lia. }
    destruct (memo_find (sh_memo s1) (key two i j)) as [v|] eqn:E1; [|congruence].
    cbn [is_some negb pwhen pbind pret]. apply safe_bread; [exact (fun _ => I)|]. intros s2 _ _.
    destruct (memo_find (sh_memo s2) (key two i j)); apply safe_ret; auto.
  Qed.

  Lemma still_evals : forall t l s, (forall q, In q l -> fst q < n /\ snd q < m) ->
    safe still Any Any (pmap l (fun q => t_eval kv two t (fst q) (snd q))) (fun _ _ => True) s.
  Proof.
    intros t l s Hl. eapply safe_weaken; [|apply (safe_map still Any Any (fun _ => I) _
       (fun _ _ _ => True) (fun _ _ => True) l)]; auto.
    intros pre q post vs s1 El _ _. destruct (Hl q) as [A B]; [rewrite El; apply in_elt|].
    eapply safe_weaken; [|apply still_eval; assumption]. intros [v|e] s2 _ _; exact I.
  Qed.

  Lemma still_op : forall t o s, (two = false -> n = m) -> valid_rop n m o ->
    safe still Any Any (t_op nan kv two n m t o) (fun r _ => o = ROFull -> r = Ok (RRef p0)) s.
  Proof.
    intros t o s Hs Hv. destruct o as [rows cols| |]; cbn [t_op].
    - eapply safe_seq; [exact (fun _ => I)| | |].
      + apply still_evals. intros [i j] Hin. apply in_product_iff in Hin. destruct Hv as [A B].
        split; [apply A|apply B]; apply Hin.
      + intros vs s1 _ _. apply safe_ret. discriminate.
      + intros e s1 _ _. discriminate.
    - destruct (Sumbool.sumbool_of_bool two) as [E2|E2]; [rewrite (if_true _ _ two E2)|rewrite (if_false _ _ two E2)].
      + apply safe_ret. discriminate.
      + assert (Em : pmap (seq 0 n) (fun i => t_eval kv two t i i)
                   = pmap (map (fun i => (i, i)) (seq 0 n)) (fun q => t_eval kv two t (fst q) (snd q))).
        { generalize (seq 0 n) as l. induction l as [|x l IH]; [reflexivity|].
          cbn [map pmap fst snd]. now rewrite IH. }
        rewrite Em. eapply safe_seq; [exact (fun _ => I)| | |].
        * apply still_evals. intros q Hq. apply in_map_iff in Hq. destruct Hq as (i & <- & Hi).
          apply in_seq in Hi. cbn [fst snd]. specialize (Hs E2). lia.
        * intros vs s1 _ _. apply safe_ret. discriminate.
        * intros e s1 _ _. discriminate.
    - apply safe_bread; [exact (fun _ => I)|]. intros s1 _ I1. destruct I1 as (_ & _ & E & _).
      rewrite E. cbn [negb pwhen pbind pret]. unfold t_load.
      intros s2 _ I2. split; [exact I2|]. split; [exact I|]. destruct I2 as (E2 & _). rewrite E2, Hfull.
      cbn [pbind pret]. apply safe_ret. auto.
  Qed.

  Lemma still_thread : forall t ops s, (two = false -> n = m) -> (forall o, In o ops -> valid_rop n m o) ->
    safe still Any Any (thread nan kv two n m t ops) (fun _ _ => True) s.
  Proof.
    intros t ops s Hs Hv. unfold thread. eapply safe_weaken; [|apply (safe_for still Any Any (fun _ => I) _
       (fun _ _ => True) (fun _ _ => True) ops)]; auto.
    intros pre o post s1 El _ _. assert (Ho : In o ops) by (rewrite El; apply in_elt).
    apply safe_seq with (Q1 := fun r (_ : Sh) => match r with Ok r' => o = ROFull -> r' = Ok (RRef p0) | Raise _ => True end);
      [exact (fun _ => I)| | |].
    - apply safe_catch. cbv beta iota. apply still_op; auto.
    - intros r s2 _ K. apply safe_write. intros s3 _ (A1 & A2 & A3 & A4 & A5 & A6 & A7).
      split; [|split; [exact I|intros; exact I]].
      repeat (split; [assumption|]). intros u r' [E|Hin]; [|exact (A7 u r' Hin)].
      injection E as <- -> <-. right. auto.
    - intros e s2 _ _. exact I.
  Qed.
End Quiet.

(** Once one thread has read the whole matrix (nobody else asking for it), any number of threads may use
    the object in any order: the kernel is not called again, [full] is always that matrix, and nothing in
    it changes. *)
Lemma pf_C101_quiet : forall V (nan : V) kv two n m work0 schedule0 t p,
  (two = false -> n = m) -> valid_work n m work0 -> total kv n m -> only_full work0 t -> t < length work0 ->
  let c0 := execute nan kv two n m work0 attached schedule0 in
  finished c0 -> In (t, ROFull, Ok (RRef p)) (sh_log (snd c0)) ->
  forall work schedule, valid_work n m work ->
  let s := snd (execute nan kv two n m work (snd c0) schedule) in
  sh_calls s = sh_calls (snd c0) /\ sh_evals s = sh_evals (snd c0) /\
  array_at nan n m s p = array_at nan n m (snd c0) p /\
  all_complete nan kv two n m (array_at nan n m s p) /\
  forall u r, In (u, ROFull, r) (sh_log s) -> In (u, ROFull, r) (sh_log (snd c0)) \/ r = Ok (RRef p).
Proof.
  intros V nan kv two n m work0 schedule0 t p Hs Hv0 Ht Ho Hlt c0 Hf Hin work schedule Hv s.
  destruct (finished_done nan kv two n m Hs work0 schedule0 Hv0 Hf t Hlt) as (_ & _ & D).
  fold c0 in D. destruct (D Ho Ht) as [(_ & _ & _ & N)|(p' & P1 & P2 & P3 & P4 & P5 & P6)].
  { exfalso. apply (N p). now exists ROFull. }
  assert (p = p') by (apply P6; now exists ROFull). subst p'.
  assert (St : still (snd c0) p s).
  { unfold s, execute.
    refine (proj1 (run_safe (still (snd c0) p) (fun _ _ _ => True) (fun _ _ _ => True) (fun _ _ => I)
              (fun _ _ _ _ _ _ => I) (fun _ _ _ _ _ _ => I) (fun _ _ _ => True) schedule _ _)).
    split; cbn [fst snd].
    - repeat split; auto.
    - intros u q Hq. destruct (pool_from nan kv two n m work 0 u q Hq) as (ops & E1 & ->). cbn [Nat.add].
      apply still_thread; auto. intros o Hop. exact (Hv ops o (nth_error_In _ _ E1) Hop). }
  destruct St as (A1 & A2 & A3 & A4 & A5 & A6 & A7).
  assert (Ea : array_at nan n m s p = array_at nan n m (snd c0) p) by (unfold array_at; now rewrite A2).
  split; [exact A6|]. split; [exact A5|]. split; [exact Ea|]. split; [rewrite Ea; exact P4|exact A7].
Qed.

(** ** No thread waits for another *)
Section Steps.
  Context {S : Type}.
  (** At most [d] more steps. *)
  Fixpoint within {A} (d : nat) (p : prog S A) {struct p} : Prop :=
    match p with
    | Ret _ => True
    | Act _ nx => match d with 0 => False | Datatypes.S d' => forall s, within d' (nx s) end
    end.

  Lemma within_mono : forall {A} (p : prog S A) d e, d <= e -> within d p -> within e p.
  Proof.
    intros A p. induction p as [r|u nx IH]; intros d e L H; cbn in *; [exact I|].
    destruct d as [|d]; [destruct H|]. destruct e as [|e]; [lia|]. intros s. apply (IH s d); [lia|auto].
  Qed.

  Lemma within_bind : forall {A B} (p : prog S A) (k : A -> prog S B) d e,
    within d p -> (forall a, within e (k a)) -> within (d + e) (pbind p k).
  Proof.
    intros A B p k. induction p as [[a|x]|u nx IH]; intros d e H K; cbn in *.
    - apply (within_mono _ e); [lia|auto].
    - exact I.
    - destruct d as [|d]; [destruct H|]. cbn. intros s. apply IH; auto.
  Qed.

  Lemma within_except : forall {A} (p : prog S A) x d, within d p -> within d (pexcept p x).
  Proof.
    intros A p x. induction p as [[a|y]|u nx IH]; intros d H; cbn in *; auto.
    destruct d as [|d]; [exact H|]. intros s. auto.
  Qed.

  Lemma within_catch : forall {A} (p : prog S A) d, within d p -> within d (pcatch p).
  Proof.
    intros A p. induction p as [r|u nx IH]; intros d H; cbn in *; auto.
    destruct d as [|d]; [exact H|]. intros s. auto.
  Qed.

  Lemma within_for : forall {X} (f : X -> prog S unit) d l, (forall x, within d (f x)) ->
    within (length l * d) (pfor l f).
  Proof.
    intros X f d l H. induction l as [|x l IH]; cbn [pfor length Nat.mul]; [exact I|].
    apply within_bind; auto.
  Qed.

  Lemma within_map : forall {X A} (f : X -> prog S A) d l, (forall x, within d (f x)) ->
    within (length l * d) (pmap l f).
  Proof.
    intros X A f d l H. induction l as [|x l IH]; cbn [pmap length Nat.mul]; [exact I|].
    apply within_bind; [auto|]. intros a. rewrite <- (Nat.add_0_r (length l * d)).
    apply within_bind; [auto|]. intros r. exact I.
  Qed.
End Steps.

Section Bounds.
  Context {V : Type}.
  Variable nan : V.
  Variable kv : nat -> nat -> res V.
  Variable two : bool.
  Variables n m : nat.

  Lemma eval_within : forall t i j, within 6 (t_eval (V := V) kv two t i j).
  Proof.
    intros t i j. unfold t_eval. apply (within_bind _ _ 1 5); [intros s; exact I|]. intros b.
    apply (within_bind _ _ 4 1).
    - destruct b; cbn [negb pwhen]; [exact I|]. apply (within_bind _ _ 1 3); [intros s; exact I|]. intros _.
      apply (within_bind _ _ 0 3); [exact I|]. intros v.
      apply (within_bind _ _ 1 2); [intros s; exact I|]. intros _.
      apply (within_bind _ _ 1 1); [intros s; exact I|]. intros c s. exact I.
    - intros _. apply (within_bind _ _ 1 0); [intros s; exact I|]. intros [v|]; exact I.
  Qed.

  Lemma load_within : forall {B} (k : nat -> prog (shared V) B) d, (forall p, within d (k p)) ->
    within (1 + d) (pbind t_load k).
  Proof. intros B k d H s. cbn [pbind pret]. destruct (sh_full s); cbn [pbind]; [apply H|exact I]. Qed.

  Lemma fill_within : forall t q, within 8 (t_fill nan kv two n m t q).
  Proof.
    intros t q. unfold t_fill. apply (within_bind _ _ 6 2); [apply eval_within|]. intros v.
    apply (load_within _ 1). intros p s. exact I.
  Qed.

  Lemma upper_within : forall t, within (4 + length (upper_pairs n m) * 8) (t_upper nan kv two n m t).
  Proof.
    intros t. unfold t_upper. apply (within_bind _ _ 1); [intros s; exact I|]. intros b.
    destruct b; cbn [negb pwhen]; [exact I|]. apply (within_bind _ _ 1); [intros s; exact I|]. intros h.
    destruct h; cbn [negb pwhen]; [exact I|]. apply (within_bind _ _ 1); [intros s; exact I|]. intros _.
    apply (within_mono _ (length (upper_pairs n m) * 8 + 1)); [lia|]. apply within_bind; [|intros _ s; exact I].
    apply within_except, within_for. intros q. apply fill_within.
  Qed.

  Lemma lower_within : forall t, within (4 + length (tril_indices n m) * 8) (t_lower nan kv two n m t).
  Proof.
    intros t. unfold t_lower. set (l := tril_indices n m).
    apply (within_mono _ (1 + ((2 + length l * 8) + 1))); [lia|].
    apply (within_bind _ _ 1); [intros s; exact I|]. intros b.
    destruct b; cbn [negb pwhen]; [exact I|]. apply within_bind; [|intros _ s; exact I].
    apply within_except. destruct (negb two && (n =? m)).
    - apply (within_mono _ (1 + (length l * 1 + (1 + length l * 1)))); [lia|].
      apply load_within. intros p1. apply within_bind; [apply within_map; intros q s; exact I|]. intros vs.
      apply load_within. intros p2. apply (within_mono _ (length (combine l vs) * 1)).
      { rewrite combine_length. lia. }
      apply within_for. intros q s. exact I.
    - apply (within_mono _ (length l * 8)); [lia|]. apply within_for. intros q. apply fill_within.
  Qed.

  Definition op_steps (o : rop) : nat :=
    match o with
    | ROIndex rows cols => length (product rows cols) * 6
    | RODiagonal => n * 6
    | ROFull => 11 + length (upper_pairs n m) * 8 + length (tril_indices n m) * 8
    end.

  Lemma op_within : forall t o, within (op_steps o) (t_op nan kv two n m t o).
  Proof.
    intros t o. destruct o as [rows cols| |]; cbn [t_op op_steps].
    - rewrite <- (Nat.add_0_r (length (product rows cols) * 6)). apply within_bind; [|intros; exact I].
      apply within_map. intros q. apply eval_within.
    - assert (W : within (n * 6) (pbind (pmap (seq 0 n) (fun i => t_eval kv two t i i)) (fun l => pret (RVec l)))).
      { rewrite <- (Nat.add_0_r (n * 6)). apply within_bind; [|intros; exact I].
        replace n with (length (seq 0 n)) at 1 by apply seq_length. apply within_map. intros i. apply eval_within. }
      destruct two; [exact I|exact W].
    - set (a := length (upper_pairs n m) * 8). set (b := length (tril_indices n m) * 8).
      apply (within_mono _ (1 + (((4 + a) + ((4 + b) + 1)) + 1))); [lia|].
      apply (within_bind _ _ 1); [intros s; exact I|]. intros x.
      apply within_bind.
      + destruct x; cbn [negb pwhen]; [exact I|]. unfold t_populate.
        apply within_bind; [apply upper_within|]. intros _. apply within_bind; [apply lower_within|]. intros _.
        apply (load_within _ 0). intros p. exact I.
      + intros _. apply (load_within _ 0). intros p. exact I.
  Qed.

  Lemma thread_within : forall t ops,
    within (fold_right (fun o d => op_steps o + 1 + d) 0 ops) (thread nan kv two n m t ops).
  Proof.
    intros t ops. unfold thread. induction ops as [|o ops IH]; cbn [pfor fold_right]; [exact I|].
    apply within_bind; [|intros _; exact IH]. apply within_bind; [|intros r s; exact I].
    apply within_catch, op_within.
  Qed.
End Bounds.

Lemma run_finishes : forall V schedule (c : list (prog (shared V) unit) * shared V) (D : nat -> nat),
  (forall t p, nth_error (fst c) t = Some p -> within (D t) p) ->
  (forall t, t < length (fst c) -> D t <= count_occ Nat.eq_dec schedule t) ->
  finished (fold_left sched_step schedule c).
Proof.
  intros V schedule. induction schedule as [|u l IH]; intros [pl s] D HW HC; cbn [fold_left fst snd] in *.
  - apply Forall_forall. intros p Hin. apply In_nth_error in Hin. destruct Hin as (t & E).
    pose proof (HW t p E) as W. assert (Lt : t < length pl) by (apply nth_error_Some; cbn in E; now rewrite E).
    specialize (HC t Lt). cbn in HC. destruct p as [r|up nx]; [now exists r|].
    destruct (D t); [destruct W|lia].
  - apply (IH _ (fun t => if t =? u then pred (D t) else D t)).
    + intros t p E. unfold sched_step in E. cbn [fst snd] in E.
      destruct (nth_error pl u) as [[r|up nx]|] eqn:Eu; cbn [fst] in E.
      * pose proof (HW t p E) as W. destruct (Nat.eqb_spec t u) as [->|N]; [|exact W].
        rewrite Eu in E. injection E as <-. exact I.
      * rewrite nth_error_list_upd in E. destruct (Nat.eqb_spec t u) as [->|N]; cbn [andb] in E.
        -- assert (Lu : u < length pl) by (apply nth_error_Some; congruence). apply Nat.ltb_lt in Lu.
           rewrite Lu in E. injection E as <-. pose proof (HW u _ Eu) as W. cbn in W.
           destruct (D u) as [|d]; [destruct W|]. apply W.
        -- exact (HW t p E).
      * pose proof (HW t p E) as W. destruct (Nat.eqb_spec t u) as [->|N]; [|exact W]. congruence.
    + intros t Lt. rewrite step_length in Lt. cbn [fst] in Lt. specialize (HC t Lt).
      cbn [count_occ] in HC. destruct (Nat.eq_dec u t) as [->|N].
      * rewrite Nat.eqb_refl. lia.
      * destruct (Nat.eqb_spec t u) as [->|N']; [congruence|exact HC].
Qed.

(** No thread waits for another: there is a number of steps, fixed by the shape of the matrix and the
    requests alone, after which a thread has finished whatever the others, the kernel or the state of the
    object; so there is no deadlock. *)
Lemma pf_C101_finishes : forall n m work, exists N, forall V (nan : V) kv two s schedule,
  (forall t, t < length work -> N <= count_occ Nat.eq_dec schedule t) ->
  finished (execute nan kv two n m work s schedule).
Proof.
  intros n m work.
  set (d := fun ops => fold_right (fun o d => op_steps n m o + 1 + d) 0 ops).
  exists (fold_right (fun ops a => d ops + a) 0 work).
  intros V nan kv two s schedule H. unfold execute.
  apply (run_finishes V schedule _ (fun _ => fold_right (fun ops a => d ops + a) 0 work)).
  - cbn [fst]. intros t p E. destruct (pool_from nan kv two n m work 0 t p E) as (ops & E1 & ->).
    apply (within_mono _ (d ops)); [|apply thread_within]. apply nth_error_In in E1.
    clear -E1. induction work as [|o work IH]; [destruct E1|]. cbn. destruct E1 as [->|E1]; [lia|].
    specialize (IH E1). lia.
  - cbn [fst]. intros t Lt. rewrite pool_length in Lt. exact (H t Lt).
Qed.

(** ** Every request is answered once, in the order the thread made them *)
(*BEGIN PROP*)
(** The requests of a thread that have been answered, oldest first. *)
Definition answered {V} (t : nat) (s : shared V) : list rop :=
  rev (map (fun e => snd (fst e)) (filter (fun e => fst (fst e) =? t) (sh_log s))).
(*END PROP*)

Section Log.
  Context {V : Type}.
  Notation Sh := (shared V).
  Fixpoint nolog {A} (p : prog Sh A) : Prop :=
    match p with
    | Ret _ => True
    | Act u nx => forall s, sh_log (u s) = sh_log s /\ nolog (nx s)
    end.
  Fixpoint logs {A} (t : nat) (rest : list rop) (p : prog Sh A) : Prop :=
    match p with
    | Ret _ => rest = []
    | Act u nx => forall s,
        (sh_log (u s) = sh_log s /\ logs t rest (nx s)) \/
        exists o rest' r, rest = o :: rest' /\ sh_log (u s) = (t, o, r) :: sh_log s /\ logs t rest' (nx s)
    end.

  Lemma nolog_bind : forall {A B} (p : prog Sh A) (k : A -> prog Sh B),
    nolog p -> (forall a, nolog (k a)) -> nolog (pbind p k).
  Proof.
    intros A B p k. induction p as [[a|x]|u nx IH]; intros H K; cbn in *; auto.
    intros s. destruct (H s). auto.
  Qed.
  Lemma nolog_except : forall {A} (p : prog Sh A) x, nolog p -> nolog (pexcept p x).
  Proof.
    intros A p x. induction p as [[a|y]|u nx IH]; intros H; cbn in *; auto.
    intros s. destruct (H s). auto.
  Qed.
  Lemma nolog_for : forall {X} (f : X -> prog Sh unit) l, (forall x, nolog (f x)) -> nolog (pfor l f).
  Proof. intros X f l H. induction l as [|x l IH]; cbn [pfor]; [exact I|]. apply nolog_bind; auto. Qed.
  Lemma nolog_map : forall {X A} (f : X -> prog Sh A) l, (forall x, nolog (f x)) -> nolog (pmap l f).
  Proof.
    intros X A f l H. induction l as [|x l IH]; cbn [pmap]; [exact I|]. apply nolog_bind; [auto|].
    intros a. apply nolog_bind; [exact IH|]. intros r. exact I.
  Qed.
  Lemma nolog_read : forall {A} (f : Sh -> A), nolog (read f).
  Proof. intros A f s. split; [reflexivity|exact I]. Qed.
  Lemma nolog_write : forall u : Sh -> Sh, (forall s, sh_log (u s) = sh_log s) -> nolog (write u).
  Proof. intros u H s. split; [apply H|exact I]. Qed.

  Lemma logs_catch : forall {A B} (p : prog Sh A) (k : res A -> prog Sh B) t rest,
    nolog p -> (forall r, logs t rest (k r)) -> logs t rest (pbind (pcatch p) k).
  Proof.
    intros A B p k t rest. induction p as [r|u nx IH]; intros H K; cbn in *; auto.
    intros s. destruct (H s). left. auto.
  Qed.
  Lemma pbind_assoc_catch : forall {A B C} (p : prog Sh A) (k : res A -> prog Sh B) (l : B -> prog Sh C) t rest,
    logs t rest (pbind (pcatch p) (fun r => pbind (k r) l)) -> logs t rest (pbind (pbind (pcatch p) k) l).
  Proof.
    intros A B C p k l t. induction p as [r|u nx IH]; intros rest H; cbn in *; [exact H|].
    intros s. destruct (H s) as [[E K]|(o & rest' & r & E1 & E2 & K)].
    - left. auto.
    - right. exists o, rest', r. auto.
  Qed.

  Variable nan : V.
  Variable kv : nat -> nat -> res V.
  Variable two : bool.
  Variables n m : nat.

  Lemma nolog_eval : forall t i j, nolog (t_eval kv two t i j).
  Proof.
    intros t i j. unfold t_eval. apply nolog_bind; [apply nolog_read|]. intros b.
    apply nolog_bind.
    - destruct b; cbn [negb pwhen]; [exact I|]. apply nolog_bind; [now apply nolog_write|]. intros _.
      apply nolog_bind; [exact I|]. intros v. apply nolog_bind; [now apply nolog_write|]. intros _.
      apply nolog_bind; [apply nolog_read|]. intros c. now apply nolog_write.
    - intros _. apply nolog_bind; [apply nolog_read|]. intros [v|]; exact I.
  Qed.
  Lemma nolog_load : nolog (@t_load V).
  Proof. apply nolog_bind; [apply nolog_read|]. intros [p|]; exact I. Qed.
  Lemma nolog_fill : forall t q, nolog (t_fill nan kv two n m t q).
  Proof.
    intros t q. apply nolog_bind; [apply nolog_eval|]. intros v. apply nolog_bind; [apply nolog_load|].
    intros p. now apply nolog_write.
  Qed.
  Lemma nolog_op : forall t o, nolog (t_op nan kv two n m t o).
  Proof.
    intros t o. destruct o as [rows cols| |]; cbn [t_op].
    - apply nolog_bind; [|intros; exact I]. apply nolog_map. intros q. apply nolog_eval.
    - destruct (Sumbool.sumbool_of_bool two) as [E2|E2]; [rewrite (if_true _ _ two E2)|rewrite (if_false _ _ two E2)];
        [exact I|]. apply nolog_bind; [|intros; exact I]. apply nolog_map. intros q. apply nolog_eval.
    - apply nolog_bind; [apply nolog_read|]. intros b. apply nolog_bind.
      + destruct b; cbn [negb pwhen]; [exact I|]. apply nolog_bind; [|intros _; apply nolog_bind].
        * unfold t_upper. apply nolog_bind; [apply nolog_read|]. intros c.
          destruct c; cbn [negb pwhen]; [exact I|]. apply nolog_bind; [apply nolog_read|]. intros h.
          destruct h; cbn [negb pwhen]; [exact I|]. apply nolog_bind; [now apply nolog_write|]. intros _.
          apply nolog_bind; [|intros _; now apply nolog_write].
          apply nolog_except, nolog_for. intros q. apply nolog_fill.
        * unfold t_lower. apply nolog_bind; [apply nolog_read|]. intros c.
          destruct c; cbn [negb pwhen]; [exact I|]. apply nolog_bind; [|intros _; now apply nolog_write].
          apply nolog_except. destruct (negb two && (n =? m)).
          -- apply nolog_bind; [apply nolog_load|]. intros p1. apply nolog_bind.
             ++ apply nolog_map. intros q. apply nolog_read.
             ++ intros vs. apply nolog_bind; [apply nolog_load|]. intros p2. apply nolog_for.
                intros q. now apply nolog_write.
          -- apply nolog_for. intros q. apply nolog_fill.
        * intros _. apply nolog_bind; [apply nolog_load|]. intros p. exact I.
      + intros _. apply nolog_bind; [apply nolog_load|]. intros p. exact I.
  Qed.

  Lemma logs_thread : forall t ops, logs t ops (thread nan kv two n m t ops).
  Proof.
    intros t ops. unfold thread. induction ops as [|o ops IH]; [reflexivity|].
    cbn [pfor]. apply pbind_assoc_catch. apply logs_catch; [apply nolog_op|].
    intros r s. right. exists o, ops, r. split; [reflexivity|]. split; [reflexivity|]. exact IH.
  Qed.

  Lemma answered_same : forall t (s s' : Sh), sh_log s' = sh_log s -> answered t s' = answered t s.
  Proof. intros t s s' E. unfold answered. now rewrite E. Qed.
  Lemma answered_cons : forall t u o r (s s' : Sh), sh_log s' = (u, o, r) :: sh_log s ->
    answered t s' = if u =? t then answered t s ++ [o] else answered t s.
  Proof.
    intros t u o r s s' E. unfold answered. rewrite E. cbn [filter fst].
    destruct (u =? t); reflexivity.
  Qed.

  Lemma run_answers : forall (work : nat -> list rop) schedule c,
    (forall t p, nth_error (fst c) t = Some p -> exists rest, logs t rest p /\ answered t (snd c) ++ rest = work t) ->
    forall t p, nth_error (fst (fold_left sched_step schedule c)) t = Some p ->
      exists rest, logs t rest p /\ answered t (snd (fold_left sched_step schedule c)) ++ rest = work t.
  Proof.
    intros work schedule. induction schedule as [|u l IH]; intros c H; cbn [fold_left]; [exact H|].
    apply IH. clear IH. intros t p E. unfold sched_step in *.
    destruct (nth_error (fst c) u) as [[r|up nx]|] eqn:Eu; try exact (H t p E). cbn [fst snd] in *.
    destruct (H u _ Eu) as (rest & K1 & K2). cbn in K1. rewrite nth_error_list_upd in E.
    destruct (Nat.eqb_spec t u) as [->|N]; cbn [andb] in E.
    - assert (Lu : u < length (fst c)) by (apply nth_error_Some; congruence). apply Nat.ltb_lt in Lu.
      rewrite Lu in E. injection E as <-.
      destruct (K1 (snd c)) as [[E K]|(o & rest' & r & -> & E & K)].
      + exists rest. split; [exact K|]. now rewrite (answered_same u _ _ E).
      + exists rest'. split; [exact K|]. rewrite (answered_cons u u o r _ _ E), Nat.eqb_refl, <- app_assoc. exact K2.
    - destruct (H t p E) as (rest' & L1 & L2). exists rest'. split; [exact L1|].
      destruct (K1 (snd c)) as [[E' K]|(o & rest'' & r & -> & E' & K)].
      + now rewrite (answered_same t _ _ E').
      + rewrite (answered_cons t u o r _ _ E'). destruct (Nat.eqb_spec u t); [congruence|exact L2].
  Qed.
End Log.

(** Nothing is answered twice, out of order or not at all: what a thread has been answered is at any time
    an initial part of its requests, and all of them when it has finished. *)
Lemma pf_C101_answers : forall V (nan : V) kv two n m work schedule,
  let c := execute nan kv two n m work attached schedule in
  forall t, t < length work ->
    (exists rest, answered t (snd c) ++ rest = nth t work []) /\
    (finished c -> answered t (snd c) = nth t work []).
Proof.
  intros V nan kv two n m work schedule c t Lt.
  assert (H : forall t p, nth_error (fst c) t = Some p ->
            exists rest, logs t rest p /\ answered t (snd c) ++ rest = nth t work []).
  { apply (run_answers (fun t => nth t work [])). cbn [fst snd]. intros u p E.
    destruct (pool_from nan kv two n m work 0 u p E) as (ops & E1 & ->). exists ops.
    split; [apply logs_thread|]. cbn. now rewrite (nth_error_nth _ _ _ E1). }
  assert (L : length (fst c) = length work).
  { unfold c, execute. rewrite run_length. cbn [fst]. apply pool_length. }
  destruct (nth_error (fst c) t) as [p|] eqn:E.
  2:{ apply nth_error_None in E. lia. }
  destruct (H t p E) as (rest & K1 & K2). split; [now exists rest|]. intros Hf.
  unfold finished in Hf. rewrite Forall_forall in Hf. destruct (Hf p (nth_error_In _ _ E)) as (r & ->).
  cbn in K1. subst rest. rewrite app_nil_r in K2. exact K2.
Qed.

(** ** What goes wrong *)

(** That [full] is complete for every thread is false for one and for two samples: when a second thread
    asks for it while the first has found no matrix yet, the matrix that stays is never filled below the
    diagonal, and every later [full] returns it like that. *)
Lemma pf_C101_full_refuted : forall two, exists (kv : nat -> nat -> res (option nat)) schedule p,
  total kv 2 2 /\
  let c := execute None kv two 2 2 [[ROFull]; [ROFull]] attached schedule in
  finished c /\ In (0, ROFull, Ok (RRef p)) (sh_log (snd c)) /\
  mget None (array_at None 2 2 (snd c) p) 1 0 = None /\
  ~ right_at None kv two (array_at None 2 2 (snd c) p) 1 0 /\
  forall u, alone (t_op None kv two 2 2 u ROFull) (snd c) = (snd c, Ok (RRef p)).
Proof.
  intros two. exists (fun i j => Ok (Some (10 * i + j))), (repeat 0 3 ++ repeat 1 80 ++ repeat 0 80), 1.
  split; [intros i j _ _; eauto|]. destruct two; cbv zeta.
  - split; [|split; [|split; [|split]]].
    + vm_compute. repeat constructor; eauto.
    + vm_compute. tauto.
    + vm_compute. reflexivity.
    + vm_compute. discriminate.
    + intros u. vm_compute. reflexivity.
  - split; [|split; [|split; [|split]]].
    + vm_compute. repeat constructor; eauto.
    + vm_compute. tauto.
    + vm_compute. reflexivity.
    + vm_compute. discriminate.
    + intros u. vm_compute. reflexivity.
Qed.

(** One sample, the second thread a step later: it is handed a matrix of nothing but NaN. *)
Lemma pf_C101_blank_refuted : exists (kv : nat -> nat -> res (option nat)) schedule p,
  total kv 2 2 /\
  let c := execute None kv false 2 2 [[ROFull]; [ROFull]] attached schedule in
  In (1, ROFull, Ok (RRef p)) (sh_log (snd c)) /\
  forall i j, i < 2 -> j < 2 -> mget None (array_at None 2 2 (snd c) p) i j = None.
Proof.
  exists (fun i j => Ok (Some (10 * i + j))), (repeat 0 4 ++ repeat 1 80), 0.
  split; [intros i j _ _; eauto|]. cbv zeta. split; [vm_compute; tauto|].
  intros [|[|i]] [|[|j]] Hi Hj; try lia; vm_compute; reflexivity.
Qed.

(** The counter of evaluations can fall behind: two threads, two pairs, two kernel calls, counter 1. *)
Lemma pf_C101_counter_refuted : exists (kv : nat -> nat -> res (option nat)) schedule,
  total kv 2 2 /\
  let c := execute None kv false 2 2 [[ROIndex [0] [0]]; [ROIndex [1] [1]]] attached schedule in
  finished c /\ length (sh_memo (snd c)) = 2 /\ length (sh_calls (snd c)) = 2 /\ sh_evals (snd c) = 1.
Proof.
  exists (fun i j => Ok (Some (10 * i + j))), (repeat 0 4 ++ repeat 1 4 ++ repeat 0 10 ++ repeat 1 10).
  split; [intros i j _ _; eauto|]. cbv zeta. split; [vm_compute; repeat constructor; eauto|].
  vm_compute. auto.
Qed.

(** The hypotheses can be met: three threads, one of which reads [full] twice. *)
Lemma pf_C101_example :
  let kv := fun i j : nat => Ok (Some (10 * i + j)) in
  let work := [[ROFull; ROFull]; [ROIndex [1] [0]; RODiagonal]; [RODiagonal]] in
  let c := execute None kv false 2 2 work attached (concat (repeat [0; 1; 2; 1] 60)) in
  valid_work 2 2 work /\ total kv 2 2 /\ only_full work 0 /\ finished c /\
  In (0, ROFull, Ok (RRef 0)) (sh_log (snd c)) /\
  array_at None 2 2 (snd c) 0 = mkMat 2 2 [[Some 0; Some 1]; [Some 1; Some 11]].
Proof.
  cbv zeta. split.
  { intros ops o [<-|[<-|[<-|[]]]]; cbn.
    - intros [<-|[<-|[]]]; exact I.
    - intros [<-|[<-|[]]]; cbn; [|exact I]. split; intros k [<-|[]]; lia.
    - intros [<-|[]]; exact I. }
  split; [intros i j _ _; eauto|]. split.
  { intros [|[|[|u]]] N; [congruence| | |]; unfold asks_full; cbn; intros H; repeat (destruct H as [H|H]; try discriminate H); try destruct H. destruct u; destruct H. }
  split; [vm_compute; repeat constructor; eauto|]. vm_compute. split; [tauto|reflexivity].
Qed.
