(** The attached KernelMatrix simulates its reference object. *)
From Coq Require Import String List Arith ZArith Bool Lia.
Import ListNotations.
From Verif Require Import Prelude MatModel MatFacts UtilsModel IndexModel KMModel SpecKM SpecRef MFacts
  KMFacts KMInv KMOps KMIndex KMTotal KMGet.

Section Ref.
  Context {E V U : Type}.
  Variable N : numops V.
  Variable K : kernel E V.
  Variable k : list E -> list E -> V.
  Variable nrm : bool.
  Variables (X Y : ndarray E) (two : bool) (n m d : nat).
  Variable base : list (call E).
  Hypothesis Hnr : never_raises K k X (Some Y) n m d.
  Hypothesis HX : nd_shape X = [n; d].
  Hypothesis HY : nd_shape Y = [m; d].
  Hypothesis Hone : two = false -> Y = X /\ m = n.
  Variable F : nat -> nat -> V.
  Hypothesis HF : forall i j, truev k X Y two d i j = F i j.
  Notation KM := (km E V U).
  Notation REF := (ref V U).
  Notation tv := (truev k X Y two d).
  Notation saneA := (@sane E V U N K k nrm X Y two n m d base).
  Notation tot_okA := (@tot_ok E V U N nrm n m).
  Notation dx := (dX k X n d).
  Notation dy := (dY k Y m d).
  Notation st := (stored_as N n m F).
  Notation req := (@request V U N n m F (kfmt K)).
  Notation cur := (@current V U N n m F (kfmt K)).
  Notation rep := (@reported V U N (kfmt K)).

  Definition flag {A} (b : bool) (v : option A) : option A := if b then v else None.

  Record abs (s : KM) (r : REF) : Prop := mkAbs {
    ab_sane : saneA s;
    ab_tot : tot_okA s;
    ab_mat : match r_mat r with
             | None => k_full s = None /\ k_populated s = false
             | Some (f, l) => k_full s = Some (st (f, l)) /\ k_populated s = true /\ k_lower s = l
             end;
    ab_norm : flag (k_is_normed s) (k_normed s) = r_norm r;
    ab_norm1 : k_is_normed s = true -> k_normed s <> None;
    ab_cent : flag (k_is_centered s) (k_centered s) = r_cent r;
    ab_cent1 : k_is_centered s = true -> k_centered s <> None;
    ab_frob : k_frob s = r_frob r;
    ab_attr : k_attr s = r_attr r
  }.

  (** [a] does what [b] does on the reference object. *)
  Definition sim {A} (a : M KM A) (b : M REF A) (s : KM) (r : REF) : Prop :=
    holds a s (fun s' q => abs s' (fst (b r)) /\ q = snd (b r)).

  Lemma sim_bind : forall {A B} (a : M KM A) (b : M REF A) (f : A -> M KM B) (g : A -> M REF B) s r,
    sim a b s r ->
    (forall v s' r', a s = (s', Ok v) -> b r = (r', Ok v) -> abs s' r' -> sim (f v) (g v) s' r') ->
    sim (bind a f) (bind b g) s r.
  Proof.
    intros A B a b f g s r Ha Hf. unfold sim, holds, bind in *.
    destruct (a s) as [s1 q1] eqn:E1, (b r) as [r1 q2] eqn:E2. cbn [fst snd] in *.
    destruct Ha as [H1 ->]. destruct q2 as [v|e].
    - exact (Hf v s1 r1 eq_refl eq_refl H1).
    - auto.
  Qed.
  Lemma sim_ret : forall {A} (v : A) s r, abs s r -> sim (ret v) (ret v) s r.
  Proof. intros A v s r H. unfold sim, holds. cbn. auto. Qed.
  Lemma sim_lift : forall {A} (v : res A) s r, abs s r -> sim (lift v) (lift v) s r.
  Proof. intros A v s r H. unfold sim, holds. cbn. auto. Qed.
  Lemma sim_raise : forall {A} e s r, abs s r -> sim (@raise KM A e) (raise e) s r.
  Proof. intros A v s r H. unfold sim, holds. cbn. auto. Qed.

  Lemma sim_get : forall {A} (f : KM -> M KM A) b s r, sim (f s) b s r -> sim (bind get f) b s r.
  Proof. intros A f b s r H. exact H. Qed.
  Lemma sim_ref_get : forall {A} (a : M KM A) (g : REF -> M REF A) s r, sim a (g r) s r -> sim a (bind get g) s r.
  Proof. intros A a g s r H. exact H. Qed.
  Lemma sim_attr : forall {A B} (p : KM -> option A) v (f : A -> M KM B) b s r, p s = Some v ->
    sim (f v) b s r -> sim (bind (attr_or p) f) b s r.
  Proof.
    intros A B p v f b s r Hp H. unfold sim, holds, bind, attr_or, bind, get, ret in *. rewrite Hp. exact H.
  Qed.
  Lemma sim_attr_end : forall {A} (p : KM -> option A) v s r, p s = Some v -> abs s r ->
    sim (attr_or p) (ret v) s r.
  Proof.
    intros A p v s r Hp H. unfold sim, holds, attr_or, bind, get, ret. rewrite Hp. auto.
  Qed.
  Lemma sim_ref_let : forall {A B} (a : M KM B) (b : M REF A) (g : A -> M REF B) v s r r',
    b r = (r', Ok v) -> holds a s (fun s' q => abs s' (fst (g v r')) /\ q = snd (g v r')) ->
    sim a (bind b g) s r.
  Proof.
    intros A B a b g v s r r' Hb H. unfold sim. unfold bind. rewrite Hb. exact H.
  Qed.

  Lemma ab_facts : forall s r, abs s r ->
    k_kernel s = K /\ k_keep_normed s = nrm /\ k_sample s = Some X /\ k_sample_two s = Some Y /\
    k_two s = Some two /\ k_shape s = Some (n, m) /\
    k_num_samples s = (if two then NSTwo n m else NSOne n).
  Proof.
    intros s r H.
    destruct (sane_fixed N K k nrm X Y two n m d base s (ab_sane s r H)) as (A1 & A2 & A3 & A4 & A5 & A6 & A7 & _).
    auto 10.
  Qed.

  Lemma ab_populated : forall s r, abs s r -> k_populated s = is_some (r_mat r).
  Proof.
    intros s r H. assert (Hm := ab_mat s r H). destruct (r_mat r) as [[f l]|]; [apply Hm|].
    destruct Hm as [_ ->]. reflexivity.
  Qed.

  Lemma ab_full : forall s r, abs s r -> k_full s = option_map st (r_mat r).
  Proof.
    intros s r H. assert (Hm := ab_mat s r H). destruct (r_mat r) as [[f l]|]; apply Hm.
  Qed.

  Lemma warn_rep : forall a (s : KM), k_kernel s = K ->
    warn_if_nan_inf N a s =
    (s, if negb (kfmt K) && negb (mall (v_finite N) (amat a)) then Raise TypeError else Ok tt).
  Proof.
    intros a s HK. unfold warn_if_nan_inf, contains_nan_inf, bind, get, raise, ret. rewrite HK.
    destruct (negb (mall (v_finite N) (amat a))), (kfmt K); reflexivity.
  Qed.

  (** The end of [populate_fully]. *)
  Lemma populate_reported : forall dense low (s s' : KM) q, saneA s -> populate_fully N dense low s = (s', q) ->
    forall a, k_full s' = Some a -> saneA s' ->
    (q = Raise TypeError -> negb (kfmt K) && negb (mall (v_finite N) (amat a)) = true) ->
    (exists v, q = Ok v) \/ q = Raise TypeError ->
    q = if negb (kfmt K) && negb (mall (v_finite N) (amat a)) then Raise TypeError else Ok a.
  Proof.
    intros dense low s s' q Hs H a Ha Hs' Hbad Hq. unfold populate_fully in H.
    unfold bind at 1 in H. destruct (populate_upper N dense s) as [s1 [u1|e1]].
    2:{ injection H as <- <-. destruct Hq as [(v & Hv)|Hv]; [discriminate|].
        rewrite (Hbad Hv). exact Hv. }
    unfold bind at 1 in H. destruct (populate_lower N low s1) as [s2 [u2|e2]].
    2:{ injection H as <- <-. destruct Hq as [(v & Hv)|Hv]; [discriminate|].
        rewrite (Hbad Hv). exact Hv. }
    unfold bind at 1 in H. destruct (densify dense s2) as [s3 [u3|e3]].
    2:{ injection H as <- <-. destruct Hq as [(v & Hv)|Hv]; [discriminate|].
        rewrite (Hbad Hv). exact Hv. }
    unfold bind at 1 in H. unfold attr_or at 1, bind at 1, get at 1 in H.
    destruct (k_full s3) as [a3|] eqn:Ha3; cbn [ret raise] in H; unfold ret, raise in H.
    2:{ injection H as <- <-. congruence. }
    unfold bind in H. unfold warn_if_nan_inf, contains_nan_inf, bind, get, raise, ret in H.
    destruct (negb (mall (v_finite N) (amat a3)) && negb (kfmt (k_kernel s3))) eqn:W;
      injection H as <- <-.
    - rewrite (Hbad eq_refl). reflexivity.
    - rewrite Ha in Ha3. injection Ha3 as <-.
      destruct (sane_fixed N K k nrm X Y two n m d base _ Hs') as (HK & _). rewrite HK in W.
      rewrite andb_comm, W. reflexivity.
  Qed.

  Lemma st_full : forall f, st (f, true) = mkArr f (KMat k X Y two n m d).
  Proof.
    intros f. unfold stored_as, KMat. cbn [fst snd orb]. f_equal. apply tabulate_ext.
    intros i j _ _. symmetry. apply HF.
  Qed.
  Lemma st_upper : forall f, st (f, false) = mkArr f (upperM N k X Y two n m d).
  Proof.
    intros f. unfold stored_as, upperM. cbn [fst snd orb]. f_equal. apply tabulate_ext.
    intros i j _ _. rewrite HF. reflexivity.
  Qed.

  Definition cell (f : fmt) (low : bool) (r : REF) : fmt * bool :=
    match r_mat r with None => (f, low) | Some (f', low') => (f', low' || low) end.

  Lemma request_eq : forall f low r, req f low r =
    (keep_mat (cell f low r) r,
     if negb (kfmt K) && negb (mall (v_finite N) (amat (st (cell f low r)))) then Raise TypeError
     else Ok (st (cell f low r))).
  Proof.
    intros f low r. unfold request, reported, bind, get, modify, ret, raise. fold (cell f low r).
    destruct (_ && _); reflexivity.
  Qed.

  Lemma pop_sim : forall dense low s r, abs s r ->
    (dense = true -> r_mat r = None) -> (low = false -> dense = false /\ nrm = false) ->
    sim (populate_fully N dense low) (req (if dense then Dense else Lil) low) s r.
  Proof.
    intros dense low s r Hab Hd Hl. unfold sim.
    assert (P := populate_holds N K k nrm X Y two n m d base (Hret' K k X Y n m d Hnr) HX HY Hone
                   dense low s (ab_sane s r Hab)).
    assert (Hd' : dense = true -> k_full s = None).
    { intros H. rewrite (ab_full s r Hab), (Hd H). reflexivity. }
    unfold holds in *. destruct (populate_fully N dense low s) as [s' q] eqn:HP. cbn [fst snd] in *.
    destruct P as (Hs' & Hc & _ & Hr & Htot).
    destruct (Htot Hnr (ab_tot s r Hab) Hd' Hl) as (Ht & Hp & Hlow & Hlow' & B & HB & Hr').
    destruct (stored_contents N K k nrm X Y two n m d base s' _ Hs' Ht HB) as [HKM HU]. cbn [amat afmt] in *.
    rewrite request_eq. set (c := cell (if dense then Dense else Lil) low r).
    assert (Hm := ab_mat s r Hab).
    assert (Hc1 : fmt_of s dense = fst c).
    { unfold fmt_of, c, cell. rewrite (ab_full s r Hab). destruct (r_mat r) as [[f l]|]; cbn; [reflexivity|].
      destruct dense; reflexivity. }
    assert (Hc2 : k_lower s' = snd c).
    { unfold c, cell. destruct low.
      - rewrite (Hlow eq_refl). destruct (r_mat r) as [[f l]|]; cbn; [rewrite orb_true_r|]; reflexivity.
      - rewrite (Hlow' eq_refl). destruct (r_mat r) as [[f l]|] eqn:Em; cbn.
        + rewrite orb_false_r. apply Hm.
        + destruct (ab_sane s r Hab) as [_ Hfo]. unfold full_ok in Hfo. destruct Hm as [Hm _]. rewrite Hm in Hfo.
          apply Hfo. }
    assert (HS : mkArr (fmt_of s dense) B = st c).
    { rewrite Hc1. destruct c as [f l]. cbn [fst snd] in *. destruct l.
      - rewrite st_full, (HKM Hc2). reflexivity.
      - rewrite st_upper. destruct (HU Hc2) as (_ & _ & ->). reflexivity. }
    rewrite HS in HB.
    assert (Hq : q = if negb (kfmt K) && negb (mall (v_finite N) (amat (st c))) then Raise TypeError
                     else Ok (st c)).
    { apply (populate_reported dense low s s' q (ab_sane s r Hab) HP (st c) HB Hs').
      - intros ->. destruct Hr' as (_ & Hk & Hn). rewrite Hk. rewrite HS in Hn. exact Hn.
      - destruct q as [v|e]; [left; eauto|]. right. destruct Hr' as (-> & _). reflexivity. }
    assert (HA : abs s' (keep_mat c r)).
    { destruct (core2_fields s s' Hc) as (F1 & F2 & F3 & F4 & F5 & F6).
      destruct Hab as [A1 A2 A3 A4 A4' A5 A5' A6 A7].
      constructor; cbn [keep_mat r_mat r_norm r_cent r_frob r_attr];
        rewrite ?F1, ?F2, ?F3, ?F4, ?F5, ?F6; try assumption.
      destruct c as [f l]. cbn [snd] in Hc2. auto. }
    cbn [fst snd]. auto.
  Qed.

  (** [not self._populated_fully]. *)
  Lemma ensure_sim : forall s r, abs s r ->
    sim (when (negb (k_populated s)) (populate_fully N true true ;;; ret tt)) (cur ;;; ret tt) s r.
  Proof.
    intros s r Hab. rewrite (ab_populated s r Hab). unfold current.
    destruct (r_mat r) as [c|] eqn:Em; cbn [is_some negb when].
    - unfold sim, holds, bind, get, ret. cbn [fst snd]. rewrite Em. cbn. auto.
    - assert (S : sim (populate_fully N true true ;;; ret tt) (req Dense true ;;; ret tt) s r).
      { apply sim_bind; [apply (pop_sim true true s r Hab); [auto|discriminate]|].
        intros v s' r' _ _ H. apply sim_ret, H. }
      unfold sim in *. eapply holds_conseq; [exact S|]. intros s' q [A1 A2].
      unfold bind at 2 4, get at 1 2. cbn [fst snd]. unfold bind in *. rewrite Em. auto.
  Qed.

  Lemma cur_facts : forall r, exists c, r_mat (fst (cur r)) = Some c /\ (forall a, snd (cur r) = Ok a -> a = st c).
  Proof.
    intros r. unfold current, bind, get. destruct (r_mat r) as [c|] eqn:Em.
    - exists c. cbn. split; [exact Em|]. intros a H. congruence.
    - rewrite request_eq. eexists. split; [reflexivity|]. intros a. cbn [snd].
      destruct (_ && _); [discriminate|congruence].
  Qed.

  (** After a successful [current]. *)
  Lemma cur_again : forall r c, r_mat r = Some c -> cur r = (r, Ok (st c)).
  Proof. intros r c H. unfold current, bind, get. rewrite H. reflexivity. Qed.

  Lemma ensure_then : forall {B} (f : M KM B) (g : arr V -> M REF B) s r, abs s r ->
    (forall s' r' c, abs s' r' -> r_mat r' = Some c -> r_norm r' = r_norm r -> r_cent r' = r_cent r ->
       r_frob r' = r_frob r -> sim f (g (st c)) s' r') ->
    sim (when (negb (k_populated s)) (populate_fully N true true ;;; ret tt) ;;; f)
        (a <- cur ;; g a) s r.
  Proof.
    intros B f g s r Hab Hf. unfold sim. apply holds_bind.
    eapply holds_conseq; [apply (ensure_sim s r Hab)|]. intros s' q [A1 A2].
    destruct (cur_facts r) as (c & Hc & Hv).
    assert (Hrest : r_norm (fst (cur r)) = r_norm r /\ r_cent (fst (cur r)) = r_cent r /\ r_frob (fst (cur r)) = r_frob r).
    { unfold current, bind, get. destruct (r_mat r) as [c'|]; [auto|]. rewrite request_eq. auto. }
    unfold bind in *. destruct (cur r) as [r' [a|e]]; cbn [fst snd] in *.
    - unfold ret in *. cbn [fst snd] in *. subst q. rewrite (Hv a eq_refl).
      apply Hf; tauto.
    - subst q. auto.
  Qed.

  Lemma read_full : forall s r c, abs s r -> r_mat r = Some c -> k_full s = Some (st c).
  Proof. intros s r c H Hc. rewrite (ab_full s r H), Hc. reflexivity. Qed.

  (** Storing the normalised matrix. *)
  Lemma abs_norm : forall s r nk added, abs s r -> Forall (fun c => c_tag c <> 0) added ->
    abs (set_is_normed true (set_normed (Some nk) (log_calls (added ++ g_calls s) s)))
        (mkRef (r_mat r) (Some nk) (r_cent r) (r_frob r) (r_attr r)).
  Proof.
    intros s r nk added [A1 A2 A3 A4 A4' A5 A5' A6 A7] Hadd. constructor; cbn; try assumption.
    - apply sane_set_is_normed, sane_set_normed, sane_log_other; assumption.
    - reflexivity.
    - discriminate.
  Qed.
  Lemma abs_log : forall s r added, abs s r -> Forall (fun c => c_tag c <> 0) added ->
    abs (log_calls (added ++ g_calls s) s) r.
  Proof.
    intros s r added [A1 A2 A3 A4 A4' A5 A5' A6 A7] Hadd. constructor; cbn; try assumption.
    apply sane_log_other; assumption.
  Qed.

  Notation rnorm := (ref_normalize N n m F dx dy two (kfmt K)).

  Lemma normalize_sim : forall meth s r, abs s r -> sim (normalize N meth) (rnorm meth) s r.
  Proof.
    intros meth s r Hab. unfold normalize, ref_normalize.
    apply sim_get. apply ensure_then; [exact Hab|]. intros s1 r1 c H1 Hc _ _ _.
    apply sim_get, sim_ref_get.
    assert (Hn := ab_norm s1 r1 H1). assert (Hn1 := ab_norm1 s1 r1 H1). unfold flag in Hn.
    destruct (k_is_normed s1) eqn:Hin; cbn [negb when].
    { rewrite <- Hn. destruct (k_normed s1); [|destruct (Hn1 eq_refl eq_refl)].
      apply sim_ret, H1. }
    rewrite <- Hn.
    destruct (ab_facts s1 r1 H1) as (FK & Fn & FX & FY & F2 & Fs & _).
    assert (Ha := read_full s1 r1 c H1 Hc).
    apply (sim_attr _ two); [exact F2|]. unfold sim.
    apply holds_bind.
    set (NF := if two then op_normalize2 N (st c) dx dy else op_normalize N meth (st c)).
    eapply holds_conseq with (Q := fun (s2 : KM) q =>
      exists added, Forall (fun c => c_tag c <> 0) added /\
        match q with
        | Ok _ => exists nk, NF = Ok nk /\ s2 = set_normed (Some nk) (log_calls (added ++ g_calls s1) s1)
        | Raise e => s2 = log_calls (added ++ g_calls s1) s1 /\ NF = Raise e
        end).
    { subst NF. destruct (Bool.bool_dec two true) as [Htwo|Htwo]; [|apply not_true_is_false in Htwo].
      - rewrite Htwo at 1. cbn [negb].
        eapply holds_conseq;
          [apply (norm2_spec N K k nrm X Y two n m d base (Hret' K k X Y n m d Hnr) HX HY Hone s1 (ab_sane s1 r1 H1))|].
        intros s2 r2 (_ & H). rewrite Ha in H. destruct H as (added & Hadd & H).
        exists added. split; [exact Hadd|]. rewrite Htwo. destruct r2 as [u|e]; [exact H|].
        destruct H as [G1 [G2|G2]]; [destruct (not_raised K k X Y n m d Hnr e G2)|]. auto.
      - rewrite Htwo. cbn [negb]. apply holds_bind. eapply holds_attr_or; [exact Ha|].
        apply holds_bind, holds_lift.
        assert (Hlog : log_calls ([] ++ g_calls s1) s1 = s1) by (clear; destruct s1; reflexivity).
        destruct (op_normalize N meth (st c)) as [nk|e] eqn:Hop.
        + apply holds_modify. exists []. split; [constructor|]. exists nk. rewrite Hlog. auto.
        + exists []. split; [constructor|]. rewrite Hlog. auto. }
    intros s2 q2 (added & Hadd & H2). destruct q2 as [u2|e2].
    2:{ destruct H2 as [-> He]. fold NF. rewrite He. cbn. split; [|reflexivity].
        apply abs_log; assumption. }
    destruct H2 as (nk & Hnk & ->). fold NF. rewrite Hnk.
    apply holds_bind, holds_modify. apply holds_bind. eapply holds_attr_or; [reflexivity|].
    unfold holds. rewrite warn_rep by exact FK.
    unfold bind, lift, modify, reported, ret, raise. cbn [fst snd].
    destruct (_ && _); cbn [fst snd]; (split; [apply abs_norm; assumption|reflexivity]).
  Qed.

  Notation rnk := (ref_normed_km N n m F dx dy two (kfmt K)).

  Lemma normed_sim : forall s r, abs s r ->
    sim (when (negb (k_is_normed s)) (normalize N default_method) ;;; attr_or k_normed) rnk s r.
  Proof.
    intros s r Hab. unfold ref_normed_km.
    assert (Hn := ab_norm s r Hab). assert (Hn1 := ab_norm1 s r Hab). unfold flag in Hn.
    apply sim_ref_get.
    destruct (k_is_normed s) eqn:Hin; cbn [negb when].
    - rewrite <- Hn. destruct (k_normed s) as [nk|] eqn:Hnk; [|destruct (Hn1 eq_refl eq_refl)].
      unfold sim, holds, bind, ret, attr_or, bind, get, ret. rewrite Hnk. cbn. auto.
    - rewrite <- Hn. apply sim_bind; [apply normalize_sim, Hab|].
      intros [] s' r' _ HR H'. apply sim_ref_get.
      assert (G := ab_norm s' r' H'). unfold flag in G.
      assert (G1 : r_norm r' <> None).
      { unfold ref_normalize in HR. unfold bind in HR. destruct (cur r) as [r1 [a|]] ; [|discriminate].
        unfold get in HR. destruct (r_norm r1) eqn:E1; [injection HR as <-; congruence|].
        unfold lift in HR. destruct (if two then _ else _) as [nk|]; [|discriminate].
        unfold modify, reported, ret, raise in HR.
        destruct (_ && _); [discriminate|]. injection HR as <-. discriminate. }
      destruct (k_is_normed s') eqn:Hi'; [|congruence]. rewrite <- G.
      destruct (k_normed s') as [nk|] eqn:Hk'; [|congruence]. apply sim_attr_end; assumption.
  Qed.

  Notation rfull := (ref_full N n m F dx dy two nrm (kfmt K)).

  Lemma full_sim : forall s r, abs s r -> sim (full N) rfull s r.
  Proof.
    intros s r Hab. unfold full, ref_full. destruct (ab_facts s r Hab) as (FK & Fn & FX & _).
    apply sim_get. rewrite FX, Fn. apply ensure_then; [exact Hab|]. intros s1 r1 c H1 Hc _ _ _.
    destruct (Bool.bool_dec nrm true) as [Hnrm|Hnrm]; [|apply not_true_is_false in Hnrm]; rewrite Hnrm.
    - apply sim_get, normed_sim, H1.
    - apply sim_attr_end; [exact (read_full s1 r1 c H1 Hc)|exact H1].
  Qed.

  Lemma full_sparse_sim : forall s r, abs s r ->
    sim (full_sparse N) (ref_full_sparse N n m F dx dy two nrm (kfmt K)) s r.
  Proof.
    intros s r Hab. unfold full_sparse, ref_full_sparse. destruct (ab_facts s r Hab) as (FK & Fn & FX & _).
    apply sim_get. rewrite Fn.
    destruct (Bool.bool_dec nrm true) as [Hnrm|Hnrm]; [|apply not_true_is_false in Hnrm]; rewrite Hnrm.
    - apply normed_sim, Hab.
    - apply (pop_sim false false s r Hab); [discriminate|auto].
  Qed.

  Lemma normed_km_sim : forall s r, abs s r -> sim (normed_km N) rnk s r.
  Proof.
    intros s r Hab. unfold normed_km. apply sim_get, normed_sim, Hab.
  Qed.

  Lemma abs_cent : forall s r c, abs s r ->
    abs (set_is_centered true (set_centered (Some c) s))
        (mkRef (r_mat r) (r_norm r) (Some c) (r_frob r) (r_attr r)).
  Proof.
    intros s r c [A1 A2 A3 A4 A4' A5 A5' A6 A7]. constructor; cbn; try assumption.
    - apply sane_set_is_centered, sane_set_centered; assumption.
    - reflexivity.
    - discriminate.
  Qed.

  Notation rcenter := (@ref_center V U N n m F (kfmt K)).

  (** [center] stores what it computes; [centered] reads it back. *)
  Lemma center_sim : forall s r, abs s r -> two = false ->
    holds (center N) s (fun s' q =>
      abs s' (fst (rcenter r)) /\ q = res_map (fun _ => tt) (snd (rcenter r)) /\
      (forall c, snd (rcenter r) = Ok c -> k_centered s' = Some c)).
  Proof.
    intros s r Hab Htwo. unfold center, ref_center. destruct (ab_facts s r Hab) as (FK & Fn & FX & FY & F2 & _).
    apply holds_bind. eapply holds_attr_or; [exact F2|]. rewrite Htwo.
    apply holds_bind, holds_get. apply holds_bind.
    assert (P : holds (when (negb (k_populated s)) (a <- populate_fully N true true ;; modify (set_full (Some a)))) s
                  (fun s' q => abs s' (fst (cur r)) /\ q = res_map (fun _ => tt) (snd (cur r)))).
    { assert (H := ensure_sim s r Hab). unfold sim in H.
      assert (H' : holds (when (negb (k_populated s)) (populate_fully N true true ;;; ret tt)) s
                  (fun s' q => abs s' (fst (cur r)) /\ q = res_map (fun _ => tt) (snd (cur r)))).
      { eapply holds_conseq; [exact H|]. intros s' q. unfold bind. destruct (cur r) as [r' [a|e]]; cbn; auto. }
      destruct (k_populated s) eqn:Hp; cbn [negb when] in *; [exact H'|].
      unfold holds, bind, ret, modify in *.
      destruct (populate_fully N true true s) as [s1 [a1|e1]] eqn:Hpop; [|exact H'].
      cbn [fst snd] in *. replace (set_full (Some a1) s1) with s1; [exact H'|].
      assert (Hk : k_full s1 = Some a1).
      { assert (G := populate_holds N K k nrm X Y two n m d base (Hret' K k X Y n m d Hnr) HX HY Hone true true s
                       (ab_sane s r Hab)).
        unfold holds in G. rewrite Hpop in G. cbn in G. tauto. }
      destruct s1; cbn in *; subst; reflexivity. }
    eapply holds_conseq; [exact P|]. intros s1 q1 [H1 ->].
    destruct (cur_facts r) as (c & Hc & Hv).
    assert (Hrc : rcenter r =
      match cur r with
      | (r1, Ok a) => match op_center N a with
                      | Ok v => (mkRef (r_mat r1) (r_norm r1) (Some v) (r_frob r1) (r_attr r1), Ok v)
                      | Raise e => (r1, Raise e)
                      end
      | (r1, Raise e) => (r1, Raise e)
      end).
    { unfold ref_center, bind, lift, modify, ret. destruct (cur r) as [r1 [a|e]]; [|reflexivity].
      destruct (op_center N a); reflexivity. }
    fold rcenter. rewrite Hrc.
    destruct (cur r) as [r1 [a|e]] eqn:Ecur; cbn [fst snd res_map] in *.
    2:{ split; [exact H1|]. split; [reflexivity|discriminate]. }
    rewrite (Hv a eq_refl) in *.
    apply holds_bind. eapply holds_attr_or; [exact (read_full s1 r1 c H1 Hc)|].
    apply holds_bind, holds_lift.
    destruct (op_center N (st c)) as [v|e] eqn:Hop.
    - apply holds_bind, holds_modify, holds_modify. cbn [fst snd res_map].
      split; [apply abs_cent, H1|]. split; [reflexivity|]. intros v' E'. injection E' as <-. reflexivity.
    - cbn. split; [exact H1|]. split; [reflexivity|discriminate].
  Qed.

  Lemma centered_sim : forall s r, abs s r -> two = false ->
    sim (centered N) (@ref_centered V U N n m F (kfmt K)) s r.
  Proof.
    intros s r Hab Htwo. unfold centered, ref_centered. destruct (ab_facts s r Hab) as (FK & Fn & FX & FY & F2 & _).
    apply (sim_attr _ two); [exact F2|]. rewrite Htwo. apply sim_get, sim_ref_get.
    assert (Hn := ab_cent s r Hab). assert (Hn1 := ab_cent1 s r Hab). unfold flag in Hn.
    destruct (k_is_centered s) eqn:Hin; cbn [negb when].
    - rewrite <- Hn. destruct (k_centered s) as [c|] eqn:Hc; [|destruct (Hn1 eq_refl eq_refl)].
      unfold sim, holds, bind, ret, attr_or, bind, get, ret. rewrite Hc. cbn. auto.
    - rewrite <- Hn. unfold sim. apply holds_bind.
      eapply holds_conseq; [apply (center_sim s r Hab Htwo)|]. intros s' q (A1 & A2 & A3).
      destruct (rcenter r) as [r' [c|e]]; cbn [fst snd res_map] in *; subst q; [|auto].
      eapply holds_attr_or; [apply A3; reflexivity|]. auto.
  Qed.

  Lemma frob_sim : forall s r, abs s r -> sim (frob_norm N) (@ref_frob_norm V U N n m F (kfmt K)) s r.
  Proof.
    intros s r Hab. unfold frob_norm, ref_frob_norm. apply sim_get. apply ensure_then; [exact Hab|].
    intros s1 r1 c H1 Hc _ _ _. apply sim_get, sim_ref_get.
    assert (Hf := ab_frob s1 r1 H1). rewrite Hf.
    destruct (r_frob r1) as [v|] eqn:Ef; cbn [is_some negb when].
    - unfold sim, holds, bind, ret, attr_or, bind, get, ret. rewrite Hf. cbn. auto.
    - unfold sim. apply holds_bind, holds_bind. eapply holds_attr_or; [exact (read_full s1 r1 c H1 Hc)|].
      apply holds_bind, holds_lift. unfold bind, lift, modify.
      destruct (op_frob N (st c)) as [v|e]; [|cbn; auto].
      apply holds_modify. eapply holds_attr_or; [reflexivity|]. cbn. split; [|reflexivity].
      destruct H1 as [A1 A2 A3 A4 A4' A5 A5' A6 A7]. constructor; cbn; try assumption; [|reflexivity].
      apply sane_set_frob, A1.
  Qed.

  Lemma abs_same : forall s s' r, saneA s' -> core s' = core s -> k_full s' = k_full s -> abs s r -> abs s' r.
  Proof.
    intros s s' r Hs Hc Hf [A1 A2 A3 A4 A4' A5 A5' A6 A7].
    unfold core in Hc. injection Hc as C1 C2 C3 C4 C5 C6 C7 C8 C9 C10 C11 C12 C13 C14 C15 C16.
    constructor; rewrite ?Hf, ?C8, ?C9, ?C10, ?C11, ?C12, ?C13, ?C14, ?C15; try assumption.
    unfold tot_ok in *. rewrite Hf, C11, C12. exact A2.
  Qed.

  Notation does := (ref_does N n m F dx dy two nrm (kfmt K)).

  Lemma sub_F : forall rows cols, submatrix tv rows cols = submatrix F rows cols.
  Proof.
    intros rows cols. unfold submatrix. f_equal. apply map_ext. intros i. apply map_ext. intros j. apply HF.
  Qed.

  Lemma sim_fmap : forall {A B} (f : A -> B) (a : M KM A) (b : M REF A) s r,
    sim a b s r -> sim (fmap f a) (giving f b) s r.
  Proof.
    intros A B f a b s r H. unfold fmap, giving. apply sim_bind; [exact H|]. intros v s' r' _ _ H'.
    apply sim_ret, H'.
  Qed.

  Lemma does_sim : forall o s r, (forall x y, o <> OpAttach x y) -> (forall ix, o <> OpGetItem ix) ->
    sim (step N o) (ref_op N n m F dx dy two nrm (kfmt K) o) s r ->
    exists r', does o r r' (snd (step N o s)) /\ abs (fst (step N o s)) r'.
  Proof.
    intros o s r Ha Hg H. unfold sim, holds in H. destruct H as [H1 H2].
    exists (fst (ref_op N n m F dx dy two nrm (kfmt K) o r)). split; [|exact H1]. rewrite H2.
    destruct o as [x y| | | | | | | | |ix| | | | | |]; try (symmetry; apply surjective_pairing);
      [destruct (Ha x y eq_refl)|destruct (Hg ix eq_refl)].
  Qed.

  Theorem step_sim : forall o s r, is_attach o = false -> abs s r ->
    exists r', does o r r' (snd (step N o s)) /\ abs (fst (step N o s)) r'.
  Proof.
    intros o s r Ho Hab. destruct (ab_facts s r Hab) as (FK & Fn & FX & FY & F2 & Fs & Fns).
    destruct o; [discriminate|..]; try (apply does_sim; [discriminate|discriminate|]); unfold step; cbn [ref_op].
    - apply sim_fmap, full_sim, Hab.
    - apply sim_fmap, full_sparse_sim, Hab.
    - destruct (Bool.bool_dec two true) as [Htwo|Htwo]; [|apply not_true_is_false in Htwo].
      + unfold sim, holds, fmap, center, bind, attr_or, bind, get, ret, raise. rewrite F2, Htwo. auto.
      + replace (if two then raise NotImplementedErr else giving (fun _ : arr V => @OUnit V U) rcenter)
          with (giving (fun _ : arr V => @OUnit V U) rcenter) by (rewrite Htwo; reflexivity).
        unfold sim, fmap. apply holds_bind.
        eapply holds_conseq; [apply (center_sim s r Hab Htwo)|]. intros s' q (A1 & A2 & _).
        unfold giving, bind. destruct (rcenter r) as [r' [c|e]]; cbn [fst snd res_map] in *; subst q;
          [apply holds_ret; auto|auto].
    - destruct (Bool.bool_dec two true) as [Htwo|Htwo]; [|apply not_true_is_false in Htwo].
      + unfold sim, holds, fmap, centered, bind, attr_or, bind, get, ret, raise. rewrite F2, Htwo. auto.
      + replace (if two then raise KMAccessError else giving (@OArr V U) (@ref_centered V U N n m F (kfmt K)))
          with (giving (@OArr V U) (@ref_centered V U N n m F (kfmt K))) by (rewrite Htwo; reflexivity).
        apply sim_fmap, centered_sim; assumption.
    - apply sim_fmap, normalize_sim, Hab.
    - apply sim_fmap, normed_km_sim, Hab.
    - apply sim_fmap, frob_sim, Hab.
    - unfold sim. assert (D := diagonal_holds N K k nrm X Y two n m d base (Hret' K k X Y n m d Hnr) HX HY Hone s (ab_sane s r Hab)).
      unfold fmap. apply holds_bind. eapply holds_conseq; [exact D|]. intros s' q [D1 D2].
      destruct (Bool.bool_dec two true) as [Htwo|Htwo]; [|apply not_true_is_false in Htwo].
      + destruct (D1 Htwo) as [-> ->]. rewrite Htwo. cbn. auto.
      + destruct (D2 Htwo) as (G1 & G2 & G3 & _ & G5). rewrite Htwo.
        destruct q as [vs|e]; [|destruct (not_raised K k X Y n m d Hnr e G5)]. apply holds_ret.
        split; [exact (abs_same s s' r G1 G2 G3 Hab)|]. cbn. rewrite G5. do 2 f_equal.
        apply map_ext. intros i. apply HF.
    - destruct (valid_or_not n m ix) as [Hv|Hv].
      + destruct (resolve_valid n m ix Hv) as (rows & cols & _ & Hsel & _).
        assert (Hdec : whole n m rows cols \/ ~ whole n m rows cols).
        { unfold whole. destruct (list_eq_dec Nat.eq_dec rows (seq 0 n)),
            (list_eq_dec Nat.eq_dec cols (seq 0 m)); tauto. }
        destruct Hdec as [Hw|Hw].
        * destruct Hw as [-> ->].
          assert (S : sim (fmap (@OArr V U) (getitem N ix)) (giving (@OArr V U) (req Lil true)) s r).
          { apply sim_fmap. unfold sim, holds.
            rewrite (getitem_whole N K k nrm X Y two n m d base Hone s ix (ab_sane s r Hab) Hv Hsel).
            apply (pop_sim false true s r Hab); [discriminate|discriminate]. }
          destruct S as [S1 S2]. exists (fst (giving (@OArr V U) (req Lil true) r)). split; [|exact S1].
          left. split; [exact Hv|]. split; [exact Hsel|]. rewrite S2. symmetry. apply surjective_pairing.
        * assert (G := getitem_proper N K k nrm X Y two n m d base HX HY Hone (Hret' K k X Y n m d Hnr) s ix rows cols
                         (ab_sane s r Hab) Hv Hsel Hw).
          unfold holds in G. unfold fmap, bind, ret. destruct (getitem N ix s) as [s' [a|e]]; cbn [fst snd] in *;
            destruct G as (G1 & G2 & G3 & _ & G5); [|destruct (not_raised K k X Y n m d Hnr e G5)].
          exists r. split; [|exact (abs_same s s' r G1 G2 G3 Hab)]. right; left. exists rows, cols.
          rewrite G5, sub_F. auto 10.
      + destruct (getitem_invalid N K k nrm X Y two n m d base s ix (ab_sane s r Hab) Hv) as (e & He & Hk).
        unfold fmap, bind. rewrite He. exists r. split; [|exact Hab]. right; right. cbn.
        split; [exact Hv|]. split; [reflexivity|]. eauto.
    - unfold sim, holds, fmap, set_attr, bind, modify, ret. cbn. split; [|reflexivity].
      destruct Hab as [A1 A2 A3 A4 A4' A5 A5' A6 A7]. constructor; cbn; try assumption.
      + apply sane_set_attrs, A1.
      + rewrite A7. reflexivity.
    - unfold sim, holds, fmap, get_attr, bind, get, ret. cbn. rewrite (ab_attr s r Hab). auto.
    - unfold sim, holds, fmap, bind, get, ret. cbn. rewrite (ab_attr s r Hab). auto.
    - unfold sim, holds, fmap, size, bind, attr_or, bind, get, ret, raise. rewrite F2, Fns.
      destruct (Bool.bool_dec two true) as [Htwo|Htwo]; [|apply not_true_is_false in Htwo]; rewrite Htwo.
      + cbn. auto.
      + destruct (Hone Htwo) as [_ ->]. cbn. auto.
    - unfold sim, holds, fmap, bind, attr_or, bind, get, ret, raise. rewrite Fs. cbn. auto.
    - unfold sim, holds, fmap, bind, get, ret. cbn. rewrite Fns. auto.
  Qed.

  Theorem trace_sim : forall ops s r, no_attach ops -> abs s r ->
    ref_behaves N n m F dx dy two nrm (kfmt K) ops r (trace N ops s).
  Proof.
    induction ops as [|o ops IH]; intros s r Hno Hab; [constructor|]. cbn [trace].
    unfold no_attach in Hno. cbn [forallb] in Hno. apply andb_true_iff in Hno. destruct Hno as [Ho Hno].
    apply negb_true_iff in Ho. destruct (step_sim o s r Ho Hab) as (r' & H1 & H2).
    econstructor; [exact H1|]. apply IH; [exact Hno|exact H2].
  Qed.

  Theorem run_sim : forall ops s r, no_attach ops -> abs s r -> exists r', abs (run N ops s) r'.
  Proof.
    induction ops as [|o ops IH]; intros s r Hno Hab; [exists r; exact Hab|]. cbn [run].
    unfold no_attach in Hno. cbn [forallb] in Hno. apply andb_true_iff in Hno. destruct Hno as [Ho Hno].
    apply negb_true_iff in Ho. destruct (step_sim o s r Ho Hab) as (r' & H1 & H2).
    exact (IH _ r' Hno H2).
  Qed.
End Ref.
