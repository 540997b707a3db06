(** Kernels made from callables (KernelFromCallable): which callables are accepted and what happens
    when the kernel is called (C80). *)
From Coq Require Import String List Arith Bool Lia Sorting.Sorted.
Import ListNotations.
From Verif Require Import Prelude UtilsModel MatModel KMModel SpecKM CallableModel SpecCallable.
Local Open Scope string_scope.
Local Open Scope list_scope.

Lemma kw_find_in {A} (l : list (string * A)) n a : kw_find l n = Some a -> In (n, a) l.
Proof.
  induction l as [|[m b] l IH]; cbn; [discriminate|].
  destruct (String.eqb_spec n m); [intros H; inversion H; subst; auto | auto].
Qed.
Lemma kw_find_none {A} (l : list (string * A)) n : kw_find l n = None <-> ~ In n (map fst l).
Proof.
  induction l as [|[m b] l IH]; cbn; [tauto|].
  destruct (String.eqb_spec n m); [subst; split; [discriminate | intros H; exfalso; auto]|].
  rewrite IH. split; [intros H [E|E]; auto | intros H E; auto].
Qed.
Lemma kw_find_iff {A} (l : list (string * A)) n a :
  NoDup (map fst l) -> (kw_find l n = Some a <-> In (n, a) l).
Proof.
  intros D; split; [apply kw_find_in|].
  induction l as [|[m b] l IH]; cbn; [tauto|].
  inversion D; subst. intros [E|E].
  - inversion E; subst. now rewrite String.eqb_refl.
  - destruct (String.eqb_spec n m); [|auto].
    subst. exfalso. apply H1. now apply (in_map fst) in E.
Qed.

Lemma positionals_eq sig : filter positional sig = positionals sig.
Proof. reflexivity. Qed.

Lemma signature_cons p sig : signature (p :: sig) ->
  signature sig /\ Forall (before_param p) sig /\ ~ In (p_name p) (map p_name sig).
Proof.
  intros [S D]. inversion S; subst. inversion D; subst. repeat split; auto.
Qed.

Lemma no_positionals p sig : Forall (before_param p) sig -> 2 <= rank (p_kind p) -> positionals sig = [].
Proof.
  intros F L. unfold positionals. induction F as [|q sig B F IH]; cbn; auto.
  destruct B as [B | [B _]]; destruct (p_kind q) eqn:K; cbn in *; try assumption;
    try (rewrite <- B in K); try rewrite B in L; cbn in *; try lia; auto.
Qed.

Lemma has_kind_iff k sig : has_kind k sig = true <-> variadic k sig.
Proof.
  unfold has_kind, variadic. rewrite existsb_exists.
  split; intros (p & Hp & K); exists p; (split; [assumption|]).
  - destruct (p_kind p), k; congruence.
  - rewrite K. destruct k; reflexivity.
Qed.

Lemma by_keyword_iff p : by_keyword p = true <-> named p.
Proof. unfold by_keyword, named. destruct (p_kind p); split; intuition congruence. Qed.

Lemma known_iff sig n : known sig n = true <-> exists p, In p sig /\ named p /\ p_name p = n.
Proof.
  unfold known. rewrite existsb_exists.
  split; intros (p & Hp & H); exists p.
  - apply andb_true_iff in H. destruct H as [H1 H2].
    apply by_keyword_iff in H1. apply String.eqb_eq in H2. auto.
  - destruct H as [H1 H2]. split; [assumption|]. apply andb_true_iff.
    split; [now apply by_keyword_iff | now apply String.eqb_eq].
Qed.

(** The conditions checked by the binding algorithm, without the surplus keywords. *)
Definition fits (sig : list param) (n : nat) (keys : list string) : Prop :=
  (n <= length (positionals sig) \/ variadic VarPos sig) /\
  (forall p, In p (firstn n (positionals sig)) -> p_kind p = PosOrKw -> ~ In (p_name p) keys) /\
  (forall p, In p sig -> required p ->
     In p (firstn n (positionals sig)) \/ (named p /\ In (p_name p) keys)).

Lemma rbind_ok {A B} (m : res A) (k : A -> B) l :
  rbind m (fun x => Ok (k x)) = Ok l <-> exists x, m = Ok x /\ l = k x.
Proof.
  destruct m; cbn; split.
  - intros H; inversion H; eauto.
  - intros (x & H1 & H2); inversion H1; subst; auto.
  - discriminate.
  - intros (x & H1 & _); discriminate.
Qed.

Lemma bind_args_raises {A} sp sig : forall (pos : list A) kw e,
  bind_args sp sig pos kw = Raise e -> e = TypeError.
Proof.
  induction sig as [|p sig IH]; intros pos kw e; cbn.
  - destruct pos; intros H; inversion H; auto.
  - repeat match goal with
           | |- context [match ?x with _ => _ end] =>
               match x with context [bind_args] => fail 1 | _ => destruct x eqn:? end
           end; intros H;
      try (now inversion H);
      match type of H with
      | rbind ?m _ = _ => destruct m eqn:B; cbn in H; [discriminate | inversion H; subst; eauto]
      end.
Qed.

Lemma fits_skip p sig n keys :
  ~ is_positional p -> ~ In (p_name p) (map p_name sig) ->
  (required p -> named p /\ In (p_name p) keys) -> p_kind p <> VarPos ->
  (fits (p :: sig) n keys <-> fits sig n keys).
Proof.
  intros NP D R NV.
  assert (E : positionals (p :: sig) = positionals sig).
  { unfold positionals, is_positional in *. cbn. destruct (p_kind p); intuition congruence. }
  unfold fits. rewrite E. unfold variadic. cbn.
  split; intros (H1 & H2 & H3); repeat split; auto.
  - destruct H1 as [H1|(q & [Hq|Hq] & K)]; [auto | subst; congruence | right; exists q; auto].
  - destruct H1 as [H1|(q & Hq & K)]; [auto | right; exists q; auto].
  - intros q [Hq|Hq] Rq; [subst; right; auto | auto].
Qed.

Lemma in_positionals p sig : In p (positionals sig) -> In p sig.
Proof. unfold positionals. intros H; apply filter_In in H; tauto. Qed.

Lemma in_firstn {A} n (l : list A) x : In x (firstn n l) -> In x l.
Proof. rewrite <- (firstn_skipn n l) at 2. intros; apply in_or_app; auto. Qed.

Lemma bind_args_iff {A} sp sig : forall (pos : list A) kw,
  signature sig ->
  ((exists env, bind_args sp sig pos kw = Ok env) <-> fits sig (length pos) (map fst kw)).
Proof.
  induction sig as [|p sig IH]; intros pos kw S.
  - cbn. unfold fits, variadic. cbn. destruct pos; cbn.
    + split; [|eauto]. intros _. repeat split; auto; intros; contradiction.
    + split; [intros (env & H); discriminate | intros ([H|(q & [] & _)] & _); lia].
  - apply signature_cons in S. destruct S as (S & F & D).
    assert (RB : forall pos b,
      (exists env, rbind (bind_args sp sig pos kw) (fun l => Ok ((p_name p, b) :: l)) = Ok env) <->
      fits sig (length pos) (map fst kw)).
    { intros pos' b. rewrite <- (IH pos' kw S). split.
      - intros (env & H). apply rbind_ok in H. destruct H as (x & H & _); eauto.
      - intros (env & H). rewrite H. cbn. eauto. }
    assert (NO : forall e : exn, ~ exists env, Raise e = Ok env :> res (list (string * bound A)))
      by (intros e (env & H); discriminate).
    cbn [bind_args].
    destruct (p_kind p) eqn:K.
    + (* positional-only *)
      assert (E : positionals (p :: sig) = p :: positionals sig) by (unfold positionals; cbn; now rewrite K).
      assert (BK : by_keyword p = false) by (unfold by_keyword; now rewrite K).
      rewrite BK. cbn [andb].
      destruct pos as [|a pos].
      * destruct (p_default p) eqn:Df.
        -- rewrite (RB [] BDefault). cbn. unfold fits. rewrite E. cbn.
           split; intros (H1 & H2 & H3); repeat split; auto; try lia; try tauto.
           ++ intros q [Hq|Hq] Rq; [subst; destruct Rq; congruence | auto].
        -- split; [intros H; now apply NO in H|]. intros (H1 & H2 & H3). exfalso.
           rewrite E in H3. destruct (H3 p) as [[]|[[N|N] _]]; cbn; auto; try congruence.
           unfold required; rewrite K; repeat split; auto; discriminate.
      * rewrite (RB pos (BArg a)). unfold fits. rewrite E. cbn [length firstn].
        split; intros (H1 & H2 & H3); repeat split.
        -- destruct H1 as [H1|(q & Hq & Kq)]; [left; lia | right; exists q; cbn; auto].
        -- intros q [Hq|Hq] Kq; [subst; congruence | auto].
        -- intros q [Hq|Hq] Rq; [subst; left; cbn; auto |].
           destruct (H3 q Hq Rq) as [H|H]; [left; cbn; auto | auto].
        -- destruct H1 as [H1|(q & [Hq|Hq] & Kq)]; [left; lia | subst; congruence | right; exists q; auto].
        -- intros q Hq Kq. apply H2; cbn; auto.
        -- intros q Hq Rq. destruct (H3 q) as [[H|H]|H]; cbn; auto.
           subst. exfalso. apply D. now apply in_map.
    + (* ordinary *)
      assert (E : positionals (p :: sig) = p :: positionals sig) by (unfold positionals; cbn; now rewrite K).
      assert (BK : by_keyword p = true) by (unfold by_keyword; now rewrite K).
      rewrite BK. cbn [andb].
      destruct pos as [|a pos].
      * destruct (kw_find kw (p_name p)) as [b|] eqn:Fd.
        -- rewrite (RB [] (BArg b)).
           apply kw_find_in in Fd. apply (in_map fst) in Fd. cbn in Fd.
           cbn. unfold fits. rewrite E. cbn.
           split; intros (H1 & H2 & H3); repeat split; auto; try lia; try tauto.
           intros q [Hq|Hq] Rq; [subst; right; split; auto; left; auto | auto].
        -- apply kw_find_none in Fd.
           destruct (p_default p) eqn:Df.
           ++ rewrite (RB [] BDefault). cbn. unfold fits. rewrite E. cbn.
              split; intros (H1 & H2 & H3); repeat split; auto; try lia; try tauto.
              intros q [Hq|Hq] Rq; [subst; destruct Rq; congruence | auto].
           ++ split; [intros H; now apply NO in H|]. intros (H1 & H2 & H3). exfalso.
              rewrite E in H3. destruct (H3 p) as [[]|[_ N]]; cbn; auto.
              unfold required; rewrite K; repeat split; auto; discriminate.
      * destruct (kw_find kw (p_name p)) as [b|] eqn:Fd; cbn [is_some].
        -- split; [intros H; now apply NO in H|]. intros (H1 & H2 & H3). exfalso.
           rewrite E in H2. apply (H2 p); cbn; auto.
           apply kw_find_in in Fd. now apply (in_map fst) in Fd.
        -- apply kw_find_none in Fd.
           rewrite (RB pos (BArg a)). unfold fits. rewrite E. cbn [length firstn].
           split; intros (H1 & H2 & H3); repeat split.
           ++ destruct H1 as [H1|(q & Hq & Kq)]; [left; lia | right; exists q; cbn; auto].
           ++ intros q [Hq|Hq] Kq; [subst; auto | auto].
           ++ intros q [Hq|Hq] Rq; [subst; left; cbn; auto |].
              destruct (H3 q Hq Rq) as [H|H]; [left; cbn; auto | auto].
           ++ destruct H1 as [H1|(q & [Hq|Hq] & Kq)]; [left; lia | subst; congruence | right; exists q; auto].
           ++ intros q Hq Kq. apply H2; cbn; auto.
           ++ intros q Hq Rq. destruct (H3 q) as [[H|H]|H]; cbn; auto.
              subst. exfalso. apply D. now apply in_map.
    + (* star *)
      assert (E0 : positionals sig = []) by (eapply no_positionals; eauto; rewrite K; cbn; lia).
      assert (E : positionals (p :: sig) = []) by (unfold positionals in *; cbn; now rewrite K).
      rewrite (RB [] (BTuple pos)). unfold fits. rewrite E, E0. cbn [length]. rewrite !firstn_nil.
      split; intros (H1 & H2 & H3); (split; [|split]).
      * right. exists p; cbn; auto.
      * intros ? [].
      * intros q [Hq|Hq] Rq; [subst; destruct Rq as (_ & Rq & _); congruence | auto].
      * left; cbn; lia.
      * intros ? [].
      * intros q Hq Rq. apply H3; cbn; auto.
    + (* keyword-only *)
      destruct (kw_find kw (p_name p)) as [b|] eqn:Fd.
      * rewrite (RB pos (BArg b)). symmetry. apply fits_skip; auto.
        -- intros [X|X]; congruence.
        -- intros _. split; [right; auto|]. apply kw_find_in in Fd. now apply (in_map fst) in Fd.
        -- congruence.
      * apply kw_find_none in Fd. destruct (p_default p) eqn:Df.
        -- rewrite (RB pos BDefault). symmetry. apply fits_skip; auto.
           ++ intros [X|X]; congruence.
           ++ intros (R & _). congruence.
           ++ congruence.
        -- split; [intros H; now apply NO in H|]. intros (H1 & H2 & H3). exfalso.
           destruct (H3 p) as [H|[_ H]]; cbn; auto.
           ++ unfold required; rewrite K; repeat split; auto; discriminate.
           ++ apply in_firstn in H. unfold positionals in H. apply filter_In in H.
              rewrite K in H. destruct H; discriminate.
    + (* double star *)
      rewrite (RB pos (BDict sp)). symmetry. apply fits_skip; auto.
      * intros [X|X]; congruence.
      * intros (_ & _ & R). congruence.
      * congruence.
Qed.

Lemma surplus_nil {A} sig (kw : list (string * A)) :
  length (surplus_of sig kw) = 0 <->
  forall key, In key (map fst kw) -> exists p, In p sig /\ named p /\ p_name p = key.
Proof.
  unfold surplus_of. split.
  - intros H key Hk. apply in_map_iff in Hk. destruct Hk as ((n & a) & E & Hin). cbn in E; subst.
    apply known_iff. destruct (known sig key) eqn:Kn; auto. exfalso.
    apply length_zero_iff_nil in H.
    assert (I : In (key, a) (filter (fun x => negb (known sig (fst x))) kw)).
    { apply filter_In. cbn. rewrite Kn. auto. }
    rewrite H in I. destruct I.
  - intros H. destruct (filter _ kw) as [|[n a] l] eqn:Fl; auto. exfalso.
    assert (I : In (n, a) (filter (fun x => negb (known sig (fst x))) kw)) by (rewrite Fl; cbn; auto).
    apply filter_In in I. cbn in I. destruct I as [I1 I2].
    apply (in_map fst) in I1. apply H in I1. apply known_iff in I1. cbn in I1.
    rewrite I1 in I2. discriminate.
Qed.

Lemma bind_call_iff {A} sig (pos : list A) kw : signature sig ->
  ((exists env, bind_call sig pos kw = Ok env) <-> suits sig (length pos) (map fst kw)).
Proof.
  intros S. unfold bind_call.
  destruct (has_kind VarKw sig) eqn:HK; cbn [negb andb].
  - apply has_kind_iff in HK. rewrite bind_args_iff by assumption.
    unfold suits, fits. intuition.
  - assert (NK : ~ variadic VarKw sig) by (rewrite <- has_kind_iff; congruence).
    destruct (Nat.eqb_spec (length (surplus_of sig kw)) 0) as [Z|Z]; cbn [negb].
    + rewrite bind_args_iff by assumption. rewrite surplus_nil in Z.
      unfold suits, fits. intuition.
    + split; [intros (env & H); discriminate|]. intros (_ & _ & _ & H). exfalso.
      apply Z. apply surplus_nil. intros key Hk. destruct (H key Hk); [auto | contradiction].
Qed.

Lemma bind_call_raises {A} sig (pos : list A) kw e : bind_call sig pos kw = Raise e -> e = TypeError.
Proof.
  unfold bind_call. destruct (_ && _); [intros H; now inversion H | apply bind_args_raises].
Qed.

(** What is bound. *)
Lemma bind_args_env {A} sp sig : forall (pos : list A) kw env,
  signature sig -> NoDup (map fst kw) -> bind_args sp sig pos kw = Ok env ->
  map fst env = map p_name sig /\
  (forall i p a, nth_error (positionals sig) i = Some p -> nth_error pos i = Some a ->
     In (p_name p, BArg a) env) /\
  (forall p a, In p sig -> named p -> In (p_name p, a) kw -> In (p_name p, BArg a) env) /\
  (forall p, In p sig -> p_kind p <> VarPos -> p_kind p <> VarKw ->
     ~ In p (firstn (length pos) (positionals sig)) ->
     ~ (named p /\ In (p_name p) (map fst kw)) -> In (p_name p, BDefault) env) /\
  (forall p, In p sig -> p_kind p = VarPos ->
     In (p_name p, BTuple (skipn (length (positionals sig)) pos)) env) /\
  (forall p, In p sig -> p_kind p = VarKw -> In (p_name p, BDict sp) env).
Proof.
  induction sig as [|p sig IH]; intros pos kw env S DK B.
  - cbn in B. destruct pos; inversion B; subst. cbn.
    repeat split; auto; try (intros; contradiction). intros i q a H; destruct i; discriminate.
  - apply signature_cons in S. destruct S as (S & F & D).
    assert (R : forall pos' b, rbind (bind_args sp sig pos' kw) (fun l => Ok ((p_name p, b) :: l)) = Ok env ->
              exists env', bind_args sp sig pos' kw = Ok env' /\ env = (p_name p, b) :: env').
    { intros pos' b H. apply rbind_ok in H. destruct H as (x & H1 & H2); eauto. }
    cbn [bind_args] in B.
    assert (KWH : forall a, In (p_name p, a) kw -> kw_find kw (p_name p) = Some a)
      by (intros a; now apply kw_find_iff).
    destruct (p_kind p) eqn:K.
    + assert (E : positionals (p :: sig) = p :: positionals sig) by (unfold positionals; cbn; now rewrite K).
      assert (BK : by_keyword p = false) by (unfold by_keyword; now rewrite K).
      assert (NN : ~ named p) by (rewrite <- by_keyword_iff; congruence).
      rewrite BK in B. cbn [andb] in B. rewrite E.
      destruct pos as [|a pos].
      * destruct (p_default p); [|discriminate].
        apply R in B. destruct B as (env' & B & ->).
        destruct (IH _ _ _ S DK B) as (I1 & I2 & I3 & I4 & I5 & I6).
        cbn. repeat split.
        -- now rewrite I1.
        -- intros i q b _ H. destruct i; discriminate.
        -- intros q b [Hq|Hq] N Hk; [subst; contradiction | right; auto].
        -- intros q [Hq|Hq]; [subst; auto | intros; right; apply I4; auto].
        -- intros q [Hq|Hq] Kq; [subst; congruence |]. right.
           specialize (I5 q Hq Kq). rewrite skipn_nil in I5. exact I5.
        -- intros q [Hq|Hq] Kq; [subst; congruence | right; auto].
      * apply R in B. destruct B as (env' & B & ->).
        destruct (IH _ _ _ S DK B) as (I1 & I2 & I3 & I4 & I5 & I6).
        cbn. repeat split.
        -- now rewrite I1.
        -- intros i q b Hq Hb. destruct i; cbn in *; [inversion Hq; inversion Hb; subst; auto | right; eauto].
        -- intros q b [Hq|Hq] N Hk; [subst; contradiction | right; auto].
        -- intros q [Hq|Hq] V1 V2 NI NK; [subst; exfalso; auto | right; apply I4; auto].
        -- intros q [Hq|Hq] Kq; [subst; congruence |]. right. auto.
        -- intros q [Hq|Hq] Kq; [subst; congruence | right; auto].
    + assert (E : positionals (p :: sig) = p :: positionals sig) by (unfold positionals; cbn; now rewrite K).
      assert (BK : by_keyword p = true) by (unfold by_keyword; now rewrite K).
      assert (NN : named p) by (now apply by_keyword_iff).
      rewrite BK in B. cbn [andb] in B. rewrite E.
      destruct pos as [|a pos].
      * destruct (kw_find kw (p_name p)) as [b|] eqn:Fd.
        -- apply R in B. destruct B as (env' & B & ->).
           destruct (IH _ _ _ S DK B) as (I1 & I2 & I3 & I4 & I5 & I6).
           cbn. repeat split.
           ++ now rewrite I1.
           ++ intros i q c _ H. destruct i; discriminate.
           ++ intros q c [Hq|Hq] N Hk; [subst; apply KWH in Hk; inversion Hk; subst; auto | right; auto].
           ++ intros q [Hq|Hq] V1 V2 NI NK; [|right; apply I4; auto].
              subst. exfalso. apply NK. split; auto.
              apply kw_find_in in Fd. now apply (in_map fst) in Fd.
           ++ intros q [Hq|Hq] Kq; [subst; congruence |]. right.
              specialize (I5 q Hq Kq). rewrite skipn_nil in I5. exact I5.
           ++ intros q [Hq|Hq] Kq; [subst; congruence | right; auto].
        -- destruct (p_default p); [|discriminate].
           apply R in B. destruct B as (env' & B & ->).
           destruct (IH _ _ _ S DK B) as (I1 & I2 & I3 & I4 & I5 & I6).
           cbn. repeat split.
           ++ now rewrite I1.
           ++ intros i q c _ H. destruct i; discriminate.
           ++ intros q c [Hq|Hq] N Hk; [subst; apply KWH in Hk; discriminate | right; auto].
           ++ intros q [Hq|Hq]; [subst; auto | intros; right; apply I4; auto].
           ++ intros q [Hq|Hq] Kq; [subst; congruence |]. right.
              specialize (I5 q Hq Kq). rewrite skipn_nil in I5. exact I5.
           ++ intros q [Hq|Hq] Kq; [subst; congruence | right; auto].
      * destruct (kw_find kw (p_name p)) as [b|] eqn:Fd; cbn [is_some] in B; [discriminate|].
        apply R in B. destruct B as (env' & B & ->).
        destruct (IH _ _ _ S DK B) as (I1 & I2 & I3 & I4 & I5 & I6).
        cbn. repeat split.
        -- now rewrite I1.
        -- intros i q b Hq Hb. destruct i; cbn in *; [inversion Hq; inversion Hb; subst; auto | right; eauto].
        -- intros q b [Hq|Hq] N Hk; [subst; apply KWH in Hk; discriminate | right; auto].
        -- intros q [Hq|Hq] V1 V2 NI NK; [subst; exfalso; auto | right; apply I4; auto].
        -- intros q [Hq|Hq] Kq; [subst; congruence |]. right. auto.
        -- intros q [Hq|Hq] Kq; [subst; congruence | right; auto].
    + assert (E0 : positionals sig = []) by (eapply no_positionals; eauto; rewrite K; cbn; lia).
      assert (E : positionals (p :: sig) = []) by (unfold positionals in *; cbn; now rewrite K).
      apply R in B. destruct B as (env' & B & ->).
      destruct (IH _ _ _ S DK B) as (I1 & I2 & I3 & I4 & I5 & I6).
      rewrite E, E0 in *. cbn. repeat split.
      * now rewrite I1.
      * intros i q b H. destruct i; discriminate.
      * intros q b [Hq|Hq] N Hk; [subst; destruct N; congruence | right; auto].
      * intros q [Hq|Hq] V1 V2 NI NK; [subst; congruence | right; apply I4; auto].
      * intros q [Hq|Hq] Kq; [subst; auto |].
        (* a second star parameter is impossible *)
        exfalso. rewrite Forall_forall in F. apply F in Hq. destruct Hq as [Hq|(_ & Hq & _)].
        -- rewrite K, Kq in Hq. lia.
        -- congruence.
      * intros q [Hq|Hq] Kq; [subst; congruence | right; auto].
    + assert (E : positionals (p :: sig) = positionals sig) by (unfold positionals; cbn; now rewrite K).
      assert (NN : named p) by (right; auto). rewrite E.
      destruct (kw_find kw (p_name p)) as [b|] eqn:Fd.
      * apply R in B. destruct B as (env' & B & ->).
        destruct (IH _ _ _ S DK B) as (I1 & I2 & I3 & I4 & I5 & I6).
        cbn. repeat split.
        -- now rewrite I1.
        -- intros; right; eauto.
        -- intros q c [Hq|Hq] N Hk; [subst; apply KWH in Hk; inversion Hk; subst; auto | right; auto].
        -- intros q [Hq|Hq] V1 V2 NI NK; [|right; apply I4; auto].
           subst. exfalso. apply NK. split; auto.
           apply kw_find_in in Fd. now apply (in_map fst) in Fd.
        -- intros q [Hq|Hq] Kq; [subst; congruence | right; auto].
        -- intros q [Hq|Hq] Kq; [subst; congruence | right; auto].
      * destruct (p_default p); [|discriminate].
        apply R in B. destruct B as (env' & B & ->).
        destruct (IH _ _ _ S DK B) as (I1 & I2 & I3 & I4 & I5 & I6).
        cbn. repeat split.
        -- now rewrite I1.
        -- intros; right; eauto.
        -- intros q c [Hq|Hq] N Hk; [subst; apply KWH in Hk; discriminate | right; auto].
        -- intros q [Hq|Hq]; [subst; auto | intros; right; apply I4; auto].
        -- intros q [Hq|Hq] Kq; [subst; congruence | right; auto].
        -- intros q [Hq|Hq] Kq; [subst; congruence | right; auto].
    + assert (E : positionals (p :: sig) = positionals sig) by (unfold positionals; cbn; now rewrite K).
      rewrite E. apply R in B. destruct B as (env' & B & ->).
      destruct (IH _ _ _ S DK B) as (I1 & I2 & I3 & I4 & I5 & I6).
      cbn. repeat split.
      * now rewrite I1.
      * intros; right; eauto.
      * intros q c [Hq|Hq] N Hk; [subst; destruct N; congruence | right; auto].
      * intros q [Hq|Hq] V1 V2 NI NK; [subst; congruence | right; apply I4; auto].
      * intros q [Hq|Hq] Kq; [subst; congruence | right; auto].
      * intros q [Hq|Hq] Kq; [subst; auto | right; auto].
Qed.

Lemma bind_call_receives {A} sig (pos : list A) kw env :
  signature sig -> NoDup (map fst kw) -> bind_call sig pos kw = Ok env -> receives sig pos kw env.
Proof.
  intros S D. unfold bind_call. destruct (_ && _); [discriminate|]. intros B.
  destruct (bind_args_env _ _ _ _ _ S D B) as (I1 & I2 & I3 & I4 & I5 & I6).
  repeat split; auto. intros p Hp Kp. exists (surplus_of sig kw). split; [auto|].
  intros key a. unfold surplus_of. rewrite filter_In. cbn.
  rewrite <- (known_iff sig key). destruct (known sig key); cbn; intuition congruence.
Qed.

Lemma is_some_find {A} (kws : list (string * A)) n : is_some (kw_find kws n) = true <-> In n (map fst kws).
Proof.
  destruct (kw_find kws n) eqn:Fd; cbn.
  - apply kw_find_in in Fd. apply (in_map fst) in Fd. split; auto.
  - apply kw_find_none in Fd. split; [discriminate | contradiction].
Qed.

Definition left_over {A} (kws : list (string * A)) := filter (fun x => negb (String.eqb (fst x) "name")) kws.

Lemma left_over_keys {A} (kws : list (string * A)) key : In key (map fst (left_over kws)) <-> passed_on kws key.
Proof.
  unfold passed_on, left_over. rewrite !in_map_iff. split.
  - intros ((n & a) & E & H). cbn in E; subst. apply filter_In in H. cbn in H. destruct H as [H N].
    destruct (String.eqb_spec key "name"); [discriminate|]. split; auto. exists (key, a); auto.
  - intros (((n & a) & E & H) & N). cbn in E; subst. exists (key, a). split; auto.
    apply filter_In. cbn. split; auto. destruct (String.eqb_spec key "name"); [contradiction | auto].
Qed.

Lemma nodup_filter {A} (f : string * A -> bool) l : NoDup (map fst l) -> NoDup (map fst (filter f l)).
Proof.
  induction l as [|x l IH]; cbn; auto. intros D; inversion D; subst.
  destruct (f x); cbn; auto. constructor; auto.
  intros H. apply H1. apply in_map_iff in H. destruct H as (y & E & H). apply filter_In in H.
  rewrite <- E. apply in_map. tauto.
Qed.

Lemma suits_ext sig n k1 k2 : (forall key, In key k1 <-> In key k2) -> suits sig n k1 -> suits sig n k2.
Proof.
  intros E (H1 & H2 & H3 & H4). repeat split; auto.
  - intros p Hp Kp Hk. apply (H2 p Hp Kp). now apply E.
  - intros p Hp Rp. destruct (H3 p Hp Rp) as [H|[H H']]; auto. right; split; auto. now apply E.
  - intros key Hk. apply H4. now apply E.
Qed.

(** C80, the constructor, exactly: an object that is not callable is a TypeError, a builtin a
    ValueError, and a callable is accepted if and only if it has two parameters of any kind and
    the keywords do not repeat an argument of the constructor. *)
Lemma pf_C80_constructor :
  forall {A V} (str_of : A -> string) is_none (f : callable_obj A V) kws,
    (forall e, kfc_new str_of is_none f kws = Raise e -> e = TypeError \/ e = ValueError) /\
    (c_callable f = false -> kfc_new str_of is_none f kws = Raise TypeError) /\
    (In "self" (map fst kws) \/ In "input_func" (map fst kws) ->
       kfc_new str_of is_none f kws = Raise TypeError) /\
    (kfc_new str_of is_none f kws = Raise ValueError <->
       c_callable f = true /\ c_sig f = None /\
       ~ In "self" (map fst kws) /\ ~ In "input_func" (map fst kws)) /\
    ((exists k, kfc_new str_of is_none f kws = Ok k) <->
       c_callable f = true /\ (exists sig, c_sig f = Some sig /\ 2 <= length sig) /\
       ~ In "self" (map fst kws) /\ ~ In "input_func" (map fst kws)).
Proof.
  intros A V str_of is_none f kws. unfold kfc_new, check_callable_obj, check_callable.
  rewrite <- !is_some_find.
  destruct (is_some (kw_find kws "self")), (is_some (kw_find kws "input_func")); cbn [orb];
    try (repeat split; intros; try discriminate; try congruence;
         try (match goal with H : Raise _ = Raise _ |- _ => inversion H; auto end);
         try (match goal with H : exists _, _ |- _ => destruct H; discriminate end);
         intuition congruence).
  destruct (c_callable f); cbn [negb].
  2:{ repeat split; intros; cbn in *; try discriminate; try congruence; auto;
      try (match goal with H : Raise _ = Raise _ |- _ => inversion H; auto end);
      try (match goal with H : exists _, _ |- _ => destruct H; discriminate end);
      intuition congruence. }
  destruct (c_sig f) as [sig|].
  2:{ cbn. repeat split; intros; try discriminate; try congruence; auto;
      try (match goal with H : Raise _ = Raise _ |- _ => inversion H; auto end);
      try (match goal with H : exists _, _ |- _ => destruct H; discriminate end);
      try (intuition congruence).
      destruct H as (_ & (sig & H & _) & _); discriminate. }
  destruct (Nat.ltb_spec (length sig) 2); cbn [rbind];
    repeat split; intros; try discriminate; try congruence; auto;
      try (match goal with H : Raise _ = Raise _ |- _ => inversion H; auto end);
      try (match goal with H : exists _, _ |- _ => destruct H; discriminate end);
      try (intuition congruence); eauto.
  destruct H0 as (_ & (sig' & E & L) & _). inversion E; subst. lia.
Qed.

(** C80, the name: the one given, unless it is None; otherwise the name of the function, or the empty
    text if it has none. *)
Lemma pf_C80_named :
  forall {A V} (str_of : A -> string) is_none (f : callable_obj A V) kws k,
    kfc_new str_of is_none f kws = Ok k -> NoDup (map fst kws) ->
    (forall a, In ("name", a) kws -> is_none a = false -> kc_name k = str_of a) /\
    (~ In "name" (map fst kws) \/ (exists a, In ("name", a) kws /\ is_none a = true) ->
       (forall n, c_fname f = Some n -> kc_name k = n) /\ (c_fname f = None -> kc_name k = "")).
Proof.
  intros A V str_of is_none f kws k New D. unfold kfc_new in New.
  destruct (_ || _); [discriminate|]. destruct (check_callable_obj f) as [g|e]; [|discriminate].
  cbn [rbind] in New. injection New as <-. cbn [kc_name]. split.
  - intros a Ha Hn. apply (kw_find_iff kws "name" a D) in Ha. rewrite Ha, Hn. reflexivity.
  - intros H.
    assert (Z : match kw_find kws "name" with
                | Some a => if is_none a then None else Some (str_of a) | None => None end = None).
    { destruct H as [H|(a & Ha & Hn)].
      - apply kw_find_none in H. rewrite H. reflexivity.
      - apply (kw_find_iff kws "name" a D) in Ha. rewrite Ha, Hn. reflexivity. }
    rewrite Z. split; [intros n ->; reflexivity|intros ->; reflexivity].
Qed.

(** C80, the call, exactly: for every accepted callable the call with x and y succeeds in
    reaching the function if and only if two positional arguments and the keywords passed on suit
    its signature; then each parameter receives what Python's rules say (x and y by position, the
    keywords by name, defaults for the rest) and the result is that of the function. Otherwise
    every call raises TypeError. *)
Lemma pf_C80_call :
  forall {A V} (str_of : A -> string) is_none (f : callable_obj A V) kws k sig keys,
    kfc_new str_of is_none f kws = Ok k -> c_sig f = Some sig -> signature sig ->
    NoDup (map fst kws) -> (forall key, In key keys <-> passed_on kws key) ->
    (suits sig 2 keys ->
       forall x y, exists given env,
         (forall key a, In (key, a) given <-> In (key, a) kws /\ key <> "name") /\
         receives sig [x; y] given env /\ kfc_call k x y = c_body f env) /\
    (~ suits sig 2 keys -> forall x y, kfc_call k x y = Raise TypeError).
Proof.
  intros A V str_of is_none f kws k sig keys New Sg S D Keys.
  assert (Hk : c_callable f = true /\ kc_func k = f /\ kc_params k = left_over kws).
  { unfold kfc_new, check_callable_obj, check_callable in New. rewrite Sg in New.
    destruct (_ || _); [discriminate|].
    destruct (c_callable f); cbn [negb] in New; [|discriminate].
    destruct (Nat.ltb (length sig) 2); cbn in New; [discriminate|]. inversion New; subst. auto. }
  destruct Hk as (Hc & Hf & Hp).
  assert (HS : suits sig 2 keys <-> suits sig 2 (map fst (left_over kws))).
  { split; apply suits_ext; intros key; [rewrite Keys | symmetry; rewrite Keys];
      (rewrite left_over_keys || (symmetry; rewrite left_over_keys)); tauto. }
  rewrite HS.
  assert (Call : forall x y, kfc_call k x y = rbind (bind_call sig [x; y] (left_over kws)) (c_body f)).
  { intros x y. unfold kfc_call, call_obj. rewrite Hf, Hp, Hc, Sg. reflexivity. }
  split.
  - intros Su x y. destruct (proj2 (bind_call_iff sig [x; y] (left_over kws) S) Su) as (env & B).
    exists (left_over kws), env. split.
    + intros key a. unfold left_over. rewrite filter_In. cbn.
      destruct (String.eqb_spec key "name"); cbn; intuition congruence.
    + split; [apply bind_call_receives; auto; apply nodup_filter; auto|].
      rewrite Call, B. reflexivity.
  - intros Su x y. rewrite Call. destruct (bind_call sig [x; y] (left_over kws)) as [env|e] eqn:B.
    + exfalso. apply Su. apply (bind_call_iff sig [x; y] (left_over kws) S). eauto.
    + cbn. apply bind_call_raises in B. now subst.
Qed.

(** C80, part that holds for ordinary kernels: a callable whose first two parameters are
    positional, where no keyword names these two, every other required parameter is given by
    keyword, and every keyword names a parameter, is accepted; every call reaches it, with x in the
    first parameter and y in the second. Missing from the full statement: acceptance of exactly the
    callables that can be called so (C80_accepted_refuted, C80_rejected_refuted). *)
Lemma pf_C80_ordinary_partial :
  forall {A V} (str_of : A -> string) is_none (f : callable_obj A V) kws p q rest,
    c_callable f = true -> c_sig f = Some (p :: q :: rest) -> signature (p :: q :: rest) ->
    is_positional p -> is_positional q -> NoDup (map fst kws) ->
    ~ In (p_name p) (map fst kws) -> ~ In (p_name q) (map fst kws) ->
    (forall r, In r rest -> required r -> named r /\ In (p_name r) (map fst kws)) ->
    (forall key, In key (map fst kws) ->
       key <> "name" /\ key <> "self" /\ key <> "input_func" /\
       exists r, In r rest /\ named r /\ p_name r = key) ->
    exists k, kfc_new str_of is_none f kws = Ok k /\
      forall x y, exists env, receives (p :: q :: rest) [x; y] kws env /\
        In (p_name p, BArg x) env /\ In (p_name q, BArg y) env /\
        kfc_call k x y = c_body f env.
Proof.
  intros A V str_of is_none f kws p q rest Hc Sg S Pp Pq D Np Nq Rq Kw.
  destruct (pf_C80_constructor str_of is_none f kws) as (_ & _ & _ & _ & Acc).
  destruct (proj2 Acc) as (k & New).
  { repeat split; auto.
    - exists (p :: q :: rest). split; auto. cbn. lia.
    - intros H. apply Kw in H. tauto.
    - intros H. apply Kw in H. tauto. }
  exists k. split; auto.
  assert (E : positionals (p :: q :: rest) = p :: q :: positionals rest).
  { unfold positionals, is_positional in *. cbn.
    destruct (p_kind p), (p_kind q); intuition congruence. }
  assert (LO : left_over kws = kws).
  { unfold left_over.
    assert (G : forall l, (forall key, In key (map fst l) -> key <> "name") ->
              filter (fun x : string * A => negb (String.eqb (fst x) "name")) l = l).
    { induction l as [|[n a] l IH]; cbn; auto. intros H.
      destruct (String.eqb_spec n "name") as [X|X]; cbn; [exfalso; apply (H n); auto|].
      f_equal. apply IH. intros; apply H; auto. }
    apply G. intros key H. apply Kw in H. tauto. }
  intros x y.
  assert (Su : suits (p :: q :: rest) 2 (map fst kws)).
  { unfold suits. rewrite E. cbn [length firstn]. repeat split.
    - left. lia.
    - intros r [Hr|[Hr|[]]] _; subst; auto.
    - intros r [Hr|[Hr|Hr]] R; [subst; left; cbn; auto | subst; left; cbn; auto | right; auto].
    - intros key H. apply Kw in H. destruct H as (_ & _ & _ & r & Hr & Nr & Er).
      left. exists r. cbn. auto. }
  destruct (proj2 (bind_call_iff _ [x; y] kws S) Su) as (env & B).
  exists env.
  assert (Rc := bind_call_receives _ _ _ _ S D B). split; [exact Rc|].
  destruct Rc as (_ & R2 & _). rewrite E in R2. repeat split.
  - apply (R2 0 p x); reflexivity.
  - apply (R2 1 q y); reflexivity.
  - unfold kfc_new, check_callable_obj, check_callable in New. rewrite Sg, Hc in New.
    destruct (_ || _); [discriminate|]. cbn in New. inversion New; subst. clear New.
    unfold kfc_call, call_obj. cbn [kc_func kc_params]. rewrite Hc, Sg. cbn [negb].
    change (filter _ kws) with (left_over kws). rewrite LO, B. reflexivity.
Qed.

(** C80: such a kernel never raises inside a KernelMatrix when the function itself returns,
    so the theorems on KernelMatrix (C01 to C16) apply to it. [row] embeds rows of the sample into
    the values of Python. *)
Lemma pf_C80_kernel_matrix :
  forall {A V E} (row : list E -> A) (str_of : A -> string) is_none (f : callable_obj A V) kws k sig keys fmt,
    kfc_new str_of is_none f kws = Ok k -> c_sig f = Some sig -> signature sig ->
    NoDup (map fst kws) -> (forall key, In key keys <-> passed_on kws key) ->
    suits sig 2 keys -> (forall env, exists v, c_body f env = Ok v) ->
    exists kfun, (forall u v, kfc_call k (row u) (row v) = Ok (kfun u v)) /\
      forall x y n m d,
        never_raises (mkKernel (fun _ u v => kfc_call k (row u) (row v)) fmt) kfun x y n m d.
Proof.
  intros A V E row str_of is_none f kws k sig keys fmt New Sg S D Keys Su Body.
  destruct (pf_C80_call str_of is_none f kws k sig keys New Sg S D Keys) as [Call _].
  specialize (Call Su).
  assert (T : forall x y, exists v, kfc_call k x y = Ok v).
  { intros x y. destruct (Call x y) as (g & env & _ & _ & H). rewrite H. apply Body. }
  assert (Dflt : A -> V).
  { intros a. destruct (kfc_call k a a) eqn:H; [exact a0|]. exfalso. destruct (T a a) as (v & H'). congruence. }
  exists (fun u v => match kfc_call k (row u) (row v) with Ok r => r | Raise _ => Dflt (row u) end).
  assert (G : forall u v, kfc_call k (row u) (row v) =
     Ok (match kfc_call k (row u) (row v) with Ok r => r | Raise _ => Dflt (row u) end)).
  { intros u v. destruct (T (row u) (row v)) as (w & H). now rewrite H. }
  split; [exact G|]. intros x y n m d t u v _ _. cbn. apply G.
Qed.

(** C80 is false (1): a function of one positional and one required keyword-only parameter is
    accepted, though every call of the kernel raises TypeError. *)
Lemma pf_C80_accepted_refuted :
  exists (f : callable_obj nat nat) sig k,
    c_sig f = Some sig /\ signature sig /\ ~ suits sig 2 [] /\
    kfc_new (fun _ => "") (fun _ => false) f [] = Ok k /\
    forall x y, kfc_call k x y = Raise TypeError.
Proof.
  set (sig := [mkParam "x" PosOrKw false; mkParam "y" KwOnly false]).
  exists (mkCallable true (Some sig) (Some "f") (fun _ => Ok 0)), sig.
  eexists. split; [reflexivity|]. split.
  { split.
    - repeat constructor.
    - cbn. repeat constructor; cbn; intuition discriminate. }
  split.
  { intros ([H|(p & [H|[H|[]]] & K)] & _); [cbn in H; lia | subst; discriminate | subst; discriminate]. }
  split; [reflexivity|]. intros x y. reflexivity.
Qed.

(** C80 is false (2): a callable that takes any number of positional arguments (a single star
    parameter) could be called with two, but is rejected. *)
Lemma pf_C80_rejected_refuted :
  exists (f : callable_obj nat nat) sig,
    c_callable f = true /\ c_sig f = Some sig /\ signature sig /\ suits sig 2 [] /\
    (forall x y, call_obj f [x; y] [] = Ok (x + y)) /\
    kfc_new (fun _ => "") (fun _ => false) f [] = Raise TypeError.
Proof.
  set (sig := [mkParam "args" VarPos false]).
  exists (mkCallable true (Some sig) (Some "f")
           (fun env => match env with
                       | [(_, BTuple l)] => Ok (list_sum l)
                       | _ => Raise TypeError
                       end)), sig.
  split; [reflexivity|]. split; [reflexivity|]. split.
  { split; repeat constructor. intros []. }
  split.
  { repeat split.
    - right. exists (mkParam "args" VarPos false). cbn. auto.
    - intros p [].
    - intros p [H|[]] (_ & R & _). subst. cbn in R. congruence.
    - intros key []. }
  split; [|reflexivity]. intros x y. cbn. f_equal. lia.
Qed.

(** C80 is false (3): a parameter of the function called name cannot be given: the keyword is
    taken by the constructor, which accepts the function, and every call raises TypeError though
    the call with that keyword suits the function. *)
Lemma pf_C80_name_refuted :
  exists (f : callable_obj nat nat) sig kws k,
    c_sig f = Some sig /\ signature sig /\ suits sig 2 (map fst kws) /\
    (forall x y, exists v, call_obj f [x; y] kws = Ok v) /\
    kfc_new (fun _ => "") (fun _ => false) f kws = Ok k /\
    forall x y, kfc_call k x y = Raise TypeError.
Proof.
  set (sig := [mkParam "x" PosOrKw false; mkParam "y" PosOrKw false; mkParam "name" PosOrKw false]).
  exists (mkCallable true (Some sig) (Some "f") (fun _ => Ok 0)), sig, [("name", 7)].
  eexists. split; [reflexivity|].
  assert (S : signature sig).
  { split.
    - repeat first [apply SSorted_cons | apply SSorted_nil | apply Forall_cons | apply Forall_nil];
        right; cbn; repeat split; discriminate.
    - cbn. repeat constructor; cbn; intuition discriminate. }
  split; [exact S|]. split.
  { apply (bind_call_iff sig [1; 2] [("name", 7)] S). eexists. reflexivity. }
  split; [intros x y; eexists; reflexivity|].
  split; [reflexivity|]. intros x y. reflexivity.
Qed.

(*BEGIN PROP*)
(** A function f(x, y, degree=2, *, gamma) with the keyword gamma: the hypotheses of
    C80_ordinary_partial hold and the call passes 3, 4, the default and 5. *)
Example C80_example :
  let sig := [mkParam "x" PosOrKw false; mkParam "y" PosOrKw false; mkParam "degree" PosOrKw true;
              mkParam "gamma" KwOnly false] in
  signature sig /\ suits sig 2 ["gamma"] /\
  exists k, kfc_new (fun _ => "") (fun _ => false)
              (mkCallable true (Some sig) (Some "f") (fun env => Ok env)) [("gamma", 5)] = Ok k /\
    kc_name k = "f" /\
    kfc_call k 3 4 = Ok [("x", BArg 3); ("y", BArg 4); ("degree", BDefault); ("gamma", BArg 5)].
Proof.
  cbv zeta.
  assert (S : signature [mkParam "x" PosOrKw false; mkParam "y" PosOrKw false;
                         mkParam "degree" PosOrKw true; mkParam "gamma" KwOnly false]).
  { split.
    - repeat first [apply SSorted_cons | apply SSorted_nil | apply Forall_cons | apply Forall_nil];
        first [solve [right; cbn; repeat split; discriminate] | left; cbn; repeat constructor].
    - cbn. repeat constructor; cbn; intuition discriminate. }
  split; [exact S|]. split.
  - unfold suits, positionals, variadic, required, named. cbn. repeat split.
    + left. repeat constructor.
    + intros p [H|[H|[]]] _ [K|[]]; subst; discriminate.
    + intros p [H|[H|[H|[H|[]]]]] (R & _); subst; cbn in *; auto; discriminate.
    + intros key [H|[]]. left. exists (mkParam "gamma" KwOnly false). cbn. auto 10.
  - eexists. split; [reflexivity|]. split; reflexivity.
Qed.
(*END PROP*)
