(** Exact behaviour of an attached KernelMatrix whose kernel never raises. *)
From Coq Require Import String List Arith ZArith Bool Lia.
Import ListNotations.
From Verif Require Import Prelude MatModel MatFacts UtilsModel IndexModel KMModel SpecKM MFacts
  KMFacts KMInv KMOps KMIndex.

Section Total.
  Context {E V U : Type}.
  Variable N : numops V.
  Variable K : kernel E V.
  Variable k : list E -> list E -> V.
  Variable nrm : bool.
  Variables (X Y : ndarray E) (two : bool) (n m d : nat).
  Variable base : list (call E).
  Hypothesis Hnr : never_raises K k X (Some Y) n m d.
  Hypothesis HX : nd_shape X = [n; d].
  Hypothesis HY : nd_shape Y = [m; d].
  Hypothesis Hone : two = false -> Y = X /\ m = n.
  (** Which accesses the history may contain: [spi], index expressions that select the
      whole matrix; [sps], full_sparse. *)
  Variables (spi sps : bool).

  Notation KM := (km E V U).
  Notation tv := (truev k X Y two d).
  Notation saneA := (@sane E V U N K k nrm X Y two n m d base).
  Notation tot_okA := (@tot_ok E V U N nrm n m).

  Lemma Hret' : returns_only K k X (Some Y) n m d.
  Proof. intros t x y Hx Hy. left. apply Hnr; assumption. Qed.

  Lemma not_raised : forall e, ~ raised K X Y n m d e.
  Proof. intros e (t & x & y & Hx & Hy & H). rewrite Hnr in H by assumption. discriminate. Qed.

  Definition KMat : mat V := tabulate n m tv.
  Definition upperM : mat V := tabulate n m (fun i j => if i <=? j then tv i j else v_zero N).

  (** The possible stored matrices. *)
  Definition cand (a : arr V) : Prop :=
    (afmt a = Dense /\ amat a = KMat) \/
    (spi || sps = true /\ afmt a = Lil /\ amat a = KMat) \/
    (sps = true /\ nrm = false /\ afmt a = Lil /\ amat a = upperM).

  Definition normF (meth : string) (a : arr V) : res (arr V) :=
    if two then op_normalize2 N a (dX k X n d) (dY k Y m d) else op_normalize N meth a.

  Definition full_c (s : KM) : Prop := forall a, k_full s = Some a ->
    cand a /\ (k_lower s = true -> amat a = KMat).
  Definition norm_ok (s : KM) : Prop := k_is_normed s = true ->
    exists nk a meth, k_normed s = Some nk /\ cand a /\ normF meth a = Ok nk.
  Definition cent_ok (s : KM) : Prop := k_is_centered s = true ->
    exists c a, k_centered s = Some c /\ cand a /\ op_center N a = Ok c.
  Definition frob_ok (s : KM) : Prop := forall v, k_frob s = Some v ->
    exists a, cand a /\ op_frob N a = Ok v.

  Record good (s : KM) : Prop := mkGood {
    gd_sane : saneA s;
    gd_tot : tot_okA s;
    gd_full : full_c s;
    gd_norm : norm_ok s;
    gd_cent : cent_ok s;
    gd_frob : frob_ok s
  }.

  Lemma good_populated : forall s a, good s -> k_full s = Some a -> k_populated s = true.
  Proof.
    intros s a Hg Ha. destruct Hg as [_ Ht _ _ _ _]. unfold tot_ok in Ht. rewrite Ha in Ht.
    apply Ht.
  Qed.

  Lemma good_unpopulated : forall s, good s -> k_populated s = false -> k_full s = None.
  Proof.
    intros s Hg Hp. destruct (k_full s) as [a|] eqn:Ha; [|reflexivity].
    assert (H := good_populated s a Hg Ha). congruence.
  Qed.

  Lemma good_has_full : forall s, good s -> k_populated s = true -> exists a, k_full s = Some a.
  Proof.
    intros s [[_ Hf] _ _ _ _ _] Hp. unfold full_ok in Hf.
    destruct (k_full s) as [a|]; [eauto|]. destruct Hf; congruence.
  Qed.

  Lemma mwf_tab : forall (A : mat V) f, mwf n m A ->
    (forall i j, i < n -> j < m -> mget (v_nan N) A i j = f i j) -> A = tabulate n m f.
  Proof. intros A f Hwf Hg. apply (mat_ext (v_nan N)); assumption. Qed.

  (** Contents of the stored matrix. *)
  Lemma stored_contents : forall s a, saneA s -> tot_okA s -> k_full s = Some a ->
    (k_lower s = true -> amat a = KMat) /\
    (k_lower s = false -> afmt a = Lil /\ nrm = false /\ amat a = upperM).
  Proof.
    intros s a [Hi Hf] Ht Ha. unfold full_ok in Hf. unfold tot_ok in Ht. rewrite Ha in Hf, Ht.
    destruct Hf as (Hwf & _ & Hval & _). destruct Ht as (Hp & _ & Hl). split.
    - intros Hlow. apply mwf_tab; [exact Hwf|]. intros i j Hi' Hj.
      apply (Hval Hp i j Hi' Hj). right; exact Hlow.
    - intros Hlow. destruct Hl as [Hl|(Hl & Hn & Hz)]; [congruence|].
      split; [exact Hl|]. split; [exact Hn|]. apply mwf_tab; [exact Hwf|].
      intros i j Hi' Hj. destruct (i <=? j) eqn:Hij.
      + apply Nat.leb_le in Hij. apply (Hval Hp i j Hi' Hj). left; exact Hij.
      + apply Nat.leb_gt in Hij. apply Hz; assumption.
  Qed.

  Lemma core2_fields : forall s s' : KM, core2 s' = core2 s ->
    k_normed s' = k_normed s /\ k_frob s' = k_frob s /\ k_centered s' = k_centered s /\
    k_is_centered s' = k_is_centered s /\ k_is_normed s' = k_is_normed s /\
    k_attr s' = k_attr s.
  Proof.
    intros s s' H. unfold core2 in H. inversion H. auto 10.
  Qed.

  Lemma pop_total : forall dense low s, good s ->
    (dense = true -> k_full s = None) ->
    (low = false -> dense = false /\ nrm = false /\ sps = true) ->
    (dense = false -> spi || sps = true) ->
    holds (populate_fully N dense low) s (fun s' r =>
      good s' /\ core2 s' = core2 s /\ k_populated s' = true /\
      exists a, k_full s' = Some a /\ cand a /\ (low = true -> amat a = KMat) /\
        (dense = true -> afmt a = Dense) /\
        (r = Ok a \/ (r = Raise TypeError /\ kfmt K = false /\ contains_nan_inf N a = true))).
  Proof.
    intros dense low s Hg Hd Hl Hsp.
    eapply holds_conseq;
      [apply (populate_holds N K k nrm X Y two n m d base Hret' HX HY Hone dense low s
                (gd_sane s Hg))|].
    intros s' r (Hs' & Hc & _ & Hr & Htot).
    destruct (Htot Hnr (gd_tot s Hg) Hd
                ltac:(intros H; destruct (Hl H) as (A & B & _); auto))
      as (Ht & Hp & Hlow & Hlow' & B & HB & Hr').
    destruct (stored_contents s' _ Hs' Ht HB) as [HK HU]. cbn [amat afmt] in HK, HU.
    destruct (core2_fields s s' Hc) as (F1 & F2 & F3 & F4 & F5 & F6).
    set (a := mkArr (fmt_of s dense) B) in *.
    assert (Hcand : cand a).
    { unfold cand. cbn [afmt amat a]. unfold fmt_of. destruct (k_full s) as [a0|] eqn:Ha0.
      - destruct (gd_full s Hg a0 Ha0) as [Hc0 _].
        destruct (k_lower s') eqn:Hl'.
        + rewrite (HK eq_refl). destruct Hc0 as [[-> _]|[(H & -> & _)|(H & _ & -> & _)]].
          * left; auto.
          * right; left; auto.
          * right; left. rewrite H, orb_true_r. auto.
        + destruct (HU eq_refl) as (Hf & Hn & Hm). unfold fmt_of in Hf. rewrite Ha0 in Hf.
          right; right. rewrite Hf. repeat split; auto.
          destruct low; [specialize (Hlow eq_refl); congruence|].
          apply (Hl eq_refl).
      - destruct dense.
        + destruct low; [|destruct (Hl eq_refl) as [Hx _]; discriminate Hx].
          left. cbn. split; [reflexivity|]. apply HK, Hlow. reflexivity.
        + cbn. destruct low.
          * right; left. rewrite (HK (Hlow eq_refl)). auto.
          * destruct (Hl eq_refl) as (_ & Hn & Hs). destruct (k_lower s') eqn:Hl'.
            -- right; left. rewrite (HK eq_refl). auto.
            -- right; right. destruct (HU eq_refl) as (_ & _ & Hm). auto. }
    split; [|split; [exact Hc|split; [exact Hp|]]].
    - constructor; [exact Hs'|exact Ht| | | |].
      + intros a' Ha'. rewrite HB in Ha'. inversion Ha'; subst a'. split; [exact Hcand|exact HK].
      + intros H. rewrite F5 in H. rewrite F1. apply (gd_norm s Hg H).
      + intros H. rewrite F4 in H. rewrite F3. apply (gd_cent s Hg H).
      + intros v H. rewrite F2 in H. apply (gd_frob s Hg v H).
    - exists a. split; [exact HB|]. split; [exact Hcand|]. split; [|split].
      + intros H. apply HK, Hlow, H.
      + intros H. cbn. unfold fmt_of. rewrite (Hd H), H. reflexivity.
      + destruct r as [a'|e].
        * left. destruct Hr as [Hr _]. rewrite HB in Hr. inversion Hr. reflexivity.
        * right. destruct Hr' as (-> & Hk & Hn). auto.
  Qed.

  (** [populate_fully true true] guarded by [not self._populated_fully]. *)
  Lemma ensure_total : forall s, good s ->
    holds (when (negb (k_populated s)) (populate_fully N true true ;;; ret tt)) s (fun s' r =>
      good s' /\ core2 s' = core2 s /\ k_populated s' = true /\
      exists a, k_full s' = Some a /\ cand a /\
        (k_populated s = true -> k_full s = Some a) /\
        (k_populated s = false -> a = mkArr Dense KMat) /\
        (r = Ok tt \/ (r = Raise TypeError /\ kfmt K = false /\ contains_nan_inf N a = true))).
  Proof.
    intros s Hg. destruct (k_populated s) eqn:Hp; cbn [negb when].
    - apply holds_ret. split; [exact Hg|]. split; [reflexivity|]. split; [exact Hp|].
      destruct (good_has_full s Hg Hp) as [a Ha]. exists a. split; [exact Ha|].
      split; [apply (gd_full s Hg a Ha)|]. split; [auto|]. split; [discriminate|auto].
    - apply holds_bind.
      eapply holds_conseq; [apply (pop_total true true s Hg)|];
        [intros _; apply good_unpopulated; assumption|discriminate|discriminate|].
      intros s' r (Hg' & Hc & Hp' & a & Ha & Hca & HM & HD & Hr).
      assert (Hd : a = mkArr Dense KMat).
      { specialize (HM eq_refl). specialize (HD eq_refl). destruct a; cbn in *; subst.
        reflexivity. }
      destruct Hr as [->|(-> & Hk & Hn)].
      + apply holds_ret. split; [exact Hg'|]. split; [exact Hc|]. split; [exact Hp'|].
        exists a. split; [exact Ha|]. split; [exact Hca|]. split; [discriminate|]. auto.
      + split; [exact Hg'|]. split; [exact Hc|]. split; [exact Hp'|].
        exists a. split; [exact Ha|]. split; [exact Hca|]. split; [discriminate|]. auto.
  Qed.

  (** Field updates. *)
  Lemma good_log_other : forall added (s : KM), Forall (fun c => c_tag c <> 0) added ->
    good s -> good (log_calls (added ++ g_calls s) s).
  Proof.
    intros added s Ha [H1 H2 H3 H4 H5 H6]. constructor; try assumption.
    apply sane_log_other; assumption.
  Qed.
  Lemma good_set_normed : forall nk a meth (s : KM), good s -> cand a -> normF meth a = Ok nk ->
    good (set_is_normed true (set_normed (Some nk) s)).
  Proof.
    intros nk a meth s [H1 H2 H3 H4 H5 H6] Hc Hn. constructor; try assumption.
    - apply sane_set_is_normed, sane_set_normed, H1.
    - intros _. exists nk, a, meth. auto.
  Qed.
  Lemma good_set_centered : forall c a (s : KM), good s -> cand a -> op_center N a = Ok c ->
    good (set_is_centered true (set_centered (Some c) s)).
  Proof.
    intros c a s [H1 H2 H3 H4 H5 H6] Hc Hn. constructor; try assumption.
    - apply sane_set_is_centered, sane_set_centered, H1.
    - intros _. exists c, a. auto.
  Qed.
  Lemma good_set_frob : forall v a (s : KM), good s -> cand a -> op_frob N a = Ok v ->
    good (set_frob (Some v) s).
  Proof.
    intros v a s [H1 H2 H3 H4 H5 H6] Hc Hn. constructor; try assumption.
    - apply sane_set_frob, H1.
    - intros v' Hv. cbn in Hv. inversion Hv. subst v'. eauto.
  Qed.
  Lemma good_set_attrs : forall l (s : KM), good s -> good (set_attrs l s).
  Proof.
    intros l s [H1 H2 H3 H4 H5 H6]. constructor; try assumption.
    apply sane_set_attrs, H1.
  Qed.
  Lemma good_same : forall s s' : KM, saneA s' -> core s' = core s -> k_full s' = k_full s ->
    good s -> good s'.
  Proof.
    intros s s' Hs Hc Hf [H1 H2 H3 H4 H5 H6].
    unfold core in Hc. inversion Hc as [[C1 C2 C3 C4 C5 C6 C7 C8 C9 C10 C11 C12 C13 C14 C15 C16]].
    constructor; [exact Hs| | | | |].
    - unfold tot_ok in *. rewrite Hf, C11, C12. exact H2.
    - unfold full_c in *. rewrite Hf, C12. exact H3.
    - unfold norm_ok in *. rewrite C14, C8. exact H4.
    - unfold cent_ok in *. rewrite C13, C10. exact H5.
    - unfold frob_ok in *. rewrite C9. exact H6.
  Qed.

  (** normalize *)
  Lemma normalize_total : forall meth s, good s ->
    holds (normalize N meth) s (fun s' r =>
      good s' /\
      exists a, k_full s' = Some a /\ cand a /\
      ((r = Ok tt /\ k_is_normed s' = true /\
        (k_is_normed s = false -> exists nk, k_normed s' = Some nk /\ normF meth a = Ok nk)) \/
       (r = Raise TypeError /\ kfmt K = false) \/
       (exists e, r = Raise e /\ k_is_normed s = false /\ normF meth a = Raise e))).
  Proof.
    intros meth s Hg. unfold normalize. apply holds_bind, holds_get.
    apply holds_bind. eapply holds_conseq; [apply (ensure_total s Hg)|].
    intros s1 r1 (Hg1 & Hc1 & Hp1 & a & Ha & Hca & _ & _ & Hr1).
    destruct (core2_fields s s1 Hc1) as (F1 & F2 & F3 & F4 & F5 & F6).
    destruct Hr1 as [->|(-> & Hk & _)].
    2:{ split; [exact Hg1|]. exists a. auto 10. }
    apply holds_bind, holds_get. rewrite F5.
    destruct (k_is_normed s) eqn:Hin; cbn [negb when].
    { apply holds_ret. split; [exact Hg1|]. exists a. split; [exact Ha|]. split; [exact Hca|].
      left. split; [reflexivity|]. split; [congruence|discriminate]. }
    destruct (sane_fixed N K k nrm X Y two n m d base s1 (gd_sane s1 Hg1))
      as (FK & Fn & FX & FY & F2' & Fs & _ & _).
    apply holds_bind. eapply holds_attr_or; [exact F2'|].
    apply holds_bind.
    (* the computation of the normalised matrix *)
    eapply holds_conseq with (Q := fun (s2 : KM) r =>
      exists added, Forall (fun c => c_tag c <> 0) added /\
        match r with
        | Ok _ => exists nk, normF meth a = Ok nk /\
            s2 = set_normed (Some nk) (log_calls (added ++ g_calls s1) s1)
        | Raise e => s2 = log_calls (added ++ g_calls s1) s1 /\ normF meth a = Raise e
        end).
    { destruct (Bool.bool_dec two true) as [Htwo|Htwo];
        [|apply not_true_is_false in Htwo].
      - replace (normF meth a) with (op_normalize2 N a (dX k X n d) (dY k Y m d))
          by (unfold normF; rewrite Htwo; reflexivity).
        rewrite Htwo. cbn [negb].
        eapply holds_conseq;
          [apply (norm2_spec N K k nrm X Y two n m d base Hret' HX HY Hone s1 (gd_sane s1 Hg1))|].
        intros s2 r2 (_ & H). rewrite Ha in H. destruct H as (added & Hadd & H).
        exists added. split; [exact Hadd|]. destruct r2 as [u|e]; [exact H|].
        destruct H as [H1 [H2|H2]]; [destruct (not_raised e H2)|]. auto.
      - replace (normF meth a) with (op_normalize N meth a)
          by (unfold normF; rewrite Htwo; reflexivity).
        rewrite Htwo. cbn [negb]. apply holds_bind. eapply holds_attr_or; [exact Ha|].
        apply holds_bind, holds_lift.
        assert (Hlog : log_calls ([] ++ g_calls s1) s1 = s1) by (clear; destruct s1; reflexivity).
        destruct (op_normalize N meth a) as [nk|e] eqn:Hop.
        + apply holds_modify. exists []. split; [constructor|]. exists nk.
          rewrite Hlog. auto.
        + exists []. split; [constructor|]. rewrite Hlog. auto. }
    intros s2 r2 (added & Hadd & H2).
    assert (Hgl : good (log_calls (added ++ g_calls s1) s1))
      by (apply good_log_other; assumption).
    destruct r2 as [u2|e2].
    2:{ destruct H2 as [-> He]. split; [exact Hgl|]. exists a. split; [exact Ha|].
        split; [exact Hca|]. right; right. exists e2. auto. }
    destruct H2 as (nk & Hnk & ->).
    apply holds_bind, holds_modify.
    assert (Hg3 := good_set_normed nk a meth _ Hgl Hca Hnk).
    apply holds_bind. eapply holds_attr_or; [reflexivity|].
    eapply holds_conseq;
      [apply (warn_holds N K k nrm X Y two n m d base nk _ (gd_sane _ Hg3))|].
    intros s4 r4 [-> Hr4]. split; [exact Hg3|]. exists a. split; [exact Ha|].
    split; [exact Hca|]. destruct r4 as [[]|e4].
    - left. split; [reflexivity|]. split; [reflexivity|]. intros _. exists nk. auto.
    - right; left. destruct Hr4 as (-> & Hk & _). auto.
  Qed.

  (** The expected normalised matrix, when every stored candidate normalises alike. *)
  Lemma guarded_normalize : forall s, good s ->
    holds (when (negb (k_is_normed s)) (normalize N default_method) ;;; attr_or k_normed) s
      (fun s' r => good s' /\ (k_populated s = true -> k_populated s' = true) /\
        exists a meth, cand a /\
          ((exists nk, r = Ok nk /\ normF meth a = Ok nk) \/
           (r = Raise TypeError /\ kfmt K = false) \/
           (exists e, r = Raise e /\ normF default_method a = Raise e))).
  Proof.
    intros s Hg. apply holds_bind. destruct (k_is_normed s) eqn:Hin; cbn [negb when].
    - apply holds_ret. destruct (gd_norm s Hg Hin) as (nk & a & meth & Hn & Hc & Ho).
      eapply holds_attr_or; [exact Hn|]. split; [exact Hg|]. split; [auto|]. exists a, meth.
      split; [exact Hc|]. left. exists nk. auto.
    - eapply holds_conseq; [apply (normalize_total default_method s Hg)|].
      intros s1 r1 (Hg1 & a & Ha & Hca & [(-> & Hn & H)|[(-> & Hk)|(e & -> & _ & He)]]).
      + destruct (H Hin) as (nk & Hnk & Ho). eapply holds_attr_or; [exact Hnk|].
        split; [exact Hg1|]. split; [intros _; exact (good_populated s1 a Hg1 Ha)|]. exists a, default_method. split; [exact Hca|]. left. eauto.
      + split; [exact Hg1|]. split; [intros _; exact (good_populated s1 a Hg1 Ha)|].
        exists a, default_method. split; [exact Hca|]. auto.
      + split; [exact Hg1|]. split; [intros _; exact (good_populated s1 a Hg1 Ha)|].
        exists a, default_method. split; [exact Hca|]. right; right. eauto.
  Qed.

  Definition normed_result (r : res (arr V)) : Prop :=
    exists a meth, cand a /\
          ((exists nk, r = Ok nk /\ normF meth a = Ok nk) \/
           (r = Raise TypeError /\ kfmt K = false) \/
           (exists e, r = Raise e /\ normF default_method a = Raise e)).

  Lemma full_total : forall s, good s ->
    holds (full N) s (fun s' r => good s' /\
      (nrm = false -> exists a, k_full s' = Some a /\ cand a /\
         (k_populated s = true -> k_full s = Some a) /\
         (r = Ok a \/ (r = Raise TypeError /\ kfmt K = false /\ contains_nan_inf N a = true))) /\
      (nrm = true -> normed_result r) /\
      (is_ok r = true -> k_populated s' = true)).
  Proof.
    intros s Hg.
    destruct (sane_fixed N K k nrm X Y two n m d base s (gd_sane s Hg))
      as (FK & Fn & FX & FY & F2' & Fs & _ & _).
    unfold full. apply holds_bind, holds_get. rewrite FX, Fn.
    apply holds_bind. eapply holds_conseq; [apply (ensure_total s Hg)|].
    intros s1 r1 (Hg1 & Hc1 & Hp1 & a & Ha & Hca & Hsame & _ & Hr1).
    destruct Hr1 as [->|(-> & Hk & Hn)].
    2:{ split; [exact Hg1|]. split; [|split].
        - intros _. exists a. split; [exact Ha|]. split; [exact Hca|]. auto.
        - intros _. exists a, default_method. split; [exact Hca|]. auto.
        - discriminate. }
    destruct (Bool.bool_dec nrm true) as [Hnrm|Hnrm];
      [|apply not_true_is_false in Hnrm].
    - replace (if nrm then _ else _) with
        (s2 <- get ;; when (negb (k_is_normed s2)) (normalize N default_method) ;;;
         attr_or k_normed : M KM (arr V)) by (rewrite Hnrm; reflexivity).
      apply holds_bind, holds_get.
      eapply holds_conseq; [apply (guarded_normalize s1 Hg1)|].
      intros s2 r2 (Hg2 & Hp2 & Hr2). split; [exact Hg2|]. split; [congruence|].
      split; [intros _; exact Hr2|]. intros _. apply Hp2, Hp1.
    - replace (if nrm then _ else _) with (attr_or k_full : M KM (arr V))
        by (rewrite Hnrm; reflexivity).
      eapply holds_attr_or; [exact Ha|]. split; [exact Hg1|]. split; [|split].
      + intros _. exists a. split; [exact Ha|]. split; [exact Hca|]. auto.
      + congruence.
      + intros _. exact Hp1.
  Qed.

  Lemma full_sparse_total : forall s, good s -> (nrm = false -> sps = true) ->
    holds (full_sparse N) s (fun s' r => good s' /\
      (nrm = false -> exists a, k_full s' = Some a /\ cand a /\
         (r = Ok a \/ (r = Raise TypeError /\ kfmt K = false /\ contains_nan_inf N a = true))) /\
      (nrm = true -> normed_result r)).
  Proof.
    intros s Hg Hsp.
    destruct (sane_fixed N K k nrm X Y two n m d base s (gd_sane s Hg))
      as (FK & Fn & FX & FY & F2' & Fs & _ & _).
    unfold full_sparse. apply holds_bind, holds_get. rewrite Fn.
    destruct (Bool.bool_dec nrm true) as [Hnrm|Hnrm];
      [|apply not_true_is_false in Hnrm].
    - replace (if nrm then _ else _) with
        (when (negb (k_is_normed s)) (normalize N default_method) ;;;
         attr_or k_normed : M KM (arr V)) by (rewrite Hnrm; reflexivity).
      eapply holds_conseq; [apply (guarded_normalize s Hg)|].
      intros s2 r2 (Hg2 & Hp2 & Hr2). split; [exact Hg2|]. split; [congruence|].
      intros _; exact Hr2.
    - replace (if nrm then _ else _) with (populate_fully N false false : M KM (arr V))
        by (rewrite Hnrm; reflexivity).
      assert (Hs := Hsp Hnrm).
      eapply holds_conseq; [apply (pop_total false false s Hg)|].
      + discriminate.
      + auto.
      + intros _. rewrite Hs. apply orb_true_r.
      + intros s' r (Hg' & _ & _ & a & Ha & Hca & _ & _ & Hr).
        split; [exact Hg'|]. split; [|congruence]. intros _. exists a. auto.
  Qed.

  Lemma normed_km_total : forall s, good s ->
    holds (normed_km N) s (fun s' r => good s' /\ normed_result r).
  Proof.
    intros s Hg. unfold normed_km. apply holds_bind, holds_get.
    eapply holds_conseq; [apply (guarded_normalize s Hg)|].
    intros s2 r2 (Hg2 & _ & Hr2). split; [exact Hg2|exact Hr2].
  Qed.

  (** center *)
  Lemma ensure_total_set : forall s, good s ->
    holds (when (negb (k_populated s))
             (a <- populate_fully N true true ;; modify (set_full (Some a)))) s (fun s' r =>
      good s' /\ core2 s' = core2 s /\ k_populated s' = true /\
      exists a, k_full s' = Some a /\ cand a /\
        (k_populated s = true -> k_full s = Some a) /\
        (k_populated s = false -> a = mkArr Dense KMat) /\
        (r = Ok tt \/ (r = Raise TypeError /\ kfmt K = false /\ contains_nan_inf N a = true))).
  Proof.
    intros s Hg. assert (H := ensure_total s Hg).
    destruct (k_populated s) eqn:Hp; cbn [negb when] in *; [exact H|].
    unfold holds, bind, ret, modify in *.
    destruct (populate_fully N true true s) as [s1 [a1|e1]] eqn:Hpop; [|exact H].
    cbn [fst snd] in *.
    replace (set_full (Some a1) s1) with s1; [exact H|].
    assert (Hk : k_full s1 = Some a1).
    { assert (H' := populate_holds N K k nrm X Y two n m d base Hret' HX HY Hone true true s
                      (gd_sane s Hg)).
      unfold holds in H'. rewrite Hpop in H'. cbn in H'. tauto. }
    destruct s1; cbn in *; subst; reflexivity.
  Qed.

  Lemma center_total : forall s, good s -> two = false ->
    holds (center N) s (fun s' r => good s' /\
      exists a, cand a /\ (k_populated s = true -> k_full s = Some a) /\
        (k_populated s = false -> a = mkArr Dense KMat) /\
        ((exists c, r = Ok tt /\ op_center N a = Ok c /\ k_centered s' = Some c /\
                    k_is_centered s' = true) \/
         (r = Raise TypeError /\ kfmt K = false) \/
         (exists e, r = Raise e /\ op_center N a = Raise e))).
  Proof.
    intros s Hg Htwo.
    destruct (sane_fixed N K k nrm X Y two n m d base s (gd_sane s Hg))
      as (FK & Fn & FX & FY & F2' & Fs & _ & _).
    unfold center. apply holds_bind. eapply holds_attr_or; [exact F2'|]. rewrite Htwo.
    apply holds_bind, holds_get.
    apply holds_bind. eapply holds_conseq; [apply (ensure_total_set s Hg)|].
    intros s1 r1 (Hg1 & Hc1 & Hp1 & a & Ha & Hca & Hsame & Hfresh & Hr1).
    destruct Hr1 as [->|(-> & Hk & Hn)].
    2:{ split; [exact Hg1|]. exists a. auto 10. }
    apply holds_bind. eapply holds_attr_or; [exact Ha|].
    apply holds_bind, holds_lift. destruct (op_center N a) as [c|e] eqn:Hop.
    - apply holds_bind, holds_modify, holds_modify.
      split; [apply (good_set_centered c a); assumption|]. exists a.
      split; [exact Hca|]. split; [exact Hsame|]. split; [exact Hfresh|].
      left. exists c. auto.
    - split; [exact Hg1|]. exists a. split; [exact Hca|]. split; [exact Hsame|].
      split; [exact Hfresh|]. right; right. eauto.
  Qed.

  Lemma centered_total : forall s, good s -> two = false ->
    holds (centered N) s (fun s' r => good s' /\
      exists a, cand a /\
        ((exists c, r = Ok c /\ op_center N a = Ok c) \/
         (r = Raise TypeError /\ kfmt K = false) \/
         (exists e, r = Raise e /\ op_center N a = Raise e))).
  Proof.
    intros s Hg Htwo.
    destruct (sane_fixed N K k nrm X Y two n m d base s (gd_sane s Hg))
      as (FK & Fn & FX & FY & F2' & Fs & _ & _).
    unfold centered. apply holds_bind. eapply holds_attr_or; [exact F2'|]. rewrite Htwo.
    apply holds_bind, holds_get. apply holds_bind.
    destruct (k_is_centered s) eqn:Hic; cbn [negb when].
    - apply holds_ret. destruct (gd_cent s Hg Hic) as (c & a & Hc & Hca & Ho).
      eapply holds_attr_or; [exact Hc|]. split; [exact Hg|]. exists a. split; [exact Hca|].
      left. eauto.
    - eapply holds_conseq; [apply (center_total s Hg Htwo)|].
      intros s1 r1 (Hg1 & a & Hca & _ & _ & [(c & -> & Ho & Hc & _)|[(-> & Hk)|(e & -> & He)]]).
      + eapply holds_attr_or; [exact Hc|]. split; [exact Hg1|]. exists a.
        split; [exact Hca|]. left. eauto.
      + split; [exact Hg1|]. exists a. auto.
      + split; [exact Hg1|]. exists a. split; [exact Hca|]. right; right; eauto.
  Qed.

  Lemma center_two : forall s, good s -> two = true ->
    center N s = (s, Raise NotImplementedErr) /\ centered N s = (s, Raise KMAccessError).
  Proof.
    intros s Hg Htwo.
    destruct (sane_fixed N K k nrm X Y two n m d base s (gd_sane s Hg))
      as (FK & Fn & FX & FY & F2' & Fs & _ & _).
    unfold center, centered, bind, attr_or, bind, get, ret, raise. rewrite F2', Htwo. auto.
  Qed.

  Lemma frob_total : forall s, good s ->
    holds (frob_norm N) s (fun s' r => good s' /\
      exists a, cand a /\
        (r = op_frob N a \/ (r = Raise TypeError /\ kfmt K = false))).
  Proof.
    intros s Hg. unfold frob_norm. apply holds_bind, holds_get.
    apply holds_bind. eapply holds_conseq; [apply (ensure_total s Hg)|].
    intros s1 r1 (Hg1 & Hc1 & Hp1 & a & Ha & Hca & Hsame & Hfresh & Hr1).
    destruct Hr1 as [->|(-> & Hk & Hn)].
    2:{ split; [exact Hg1|]. exists a. auto. }
    apply holds_bind, holds_get. apply holds_bind.
    destruct (k_frob s1) as [v|] eqn:Hf; cbn [is_some negb when].
    - apply holds_ret. eapply holds_attr_or; [exact Hf|]. split; [exact Hg1|].
      destruct (gd_frob s1 Hg1 v Hf) as (a' & Hca' & Hv). exists a'. auto.
    - apply holds_bind. eapply holds_attr_or; [exact Ha|]. apply holds_bind.
      destruct (op_frob N a) as [v|e] eqn:Hv.
      + apply holds_lift. apply holds_modify. eapply holds_attr_or; [reflexivity|].
        split; [apply (good_set_frob _ a); auto|]. exists a. auto.
      + unfold holds, lift. cbn. split; [exact Hg1|]. exists a. auto.
  Qed.

  (** Listed entries *)
  Lemma eval_list_total : forall (l : list (nat * nat)) s,
    good s -> (forall p, In p l -> fst p < n /\ snd p < m) ->
    holds (map_each l (fun p => eval_kernel (fst p) (snd p))) s (fun s' r =>
      good s' /\ core s' = core s /\ k_full s' = k_full s /\
      r = Ok (map (fun p => tv (fst p) (snd p)) l)).
  Proof.
    intros l s Hg Hl.
    eapply holds_conseq;
      [apply (eval_list_holds N K k nrm X Y two n m d base Hret' HX HY Hone l s
                (gd_sane s Hg) Hl)|].
    intros s' r (H1 & H2 & H3 & _ & H5).
    split; [apply (good_same s); assumption|]. split; [exact H2|]. split; [exact H3|].
    destruct r as [vs|e]; [destruct H5 as [-> _]; reflexivity|destruct (not_raised e H5)].
  Qed.

  Lemma diagonal_total : forall s, good s ->
    holds diagonal s (fun s' r => good s' /\
      (two = true -> r = Raise KMAccessError) /\
      (two = false -> r = Ok (map (fun i => tv i i) (seq 0 n)))).
  Proof.
    intros s Hg.
    eapply holds_conseq;
      [apply (diagonal_holds N K k nrm X Y two n m d base Hret' HX HY Hone s (gd_sane s Hg))|].
    intros s' r [H1 H2]. destruct (Bool.bool_dec two true) as [Htwo|Htwo].
    - destruct (H1 Htwo) as [-> ->]. split; [exact Hg|]. split; [auto|congruence].
    - apply not_true_is_false in Htwo. destruct (H2 Htwo) as (A1 & A2 & A3 & _ & A5).
      split; [apply (good_same s); assumption|]. split; [congruence|]. intros _.
      destruct r as [vs|e]; [congruence|destruct (not_raised e A5)].
  Qed.
End Total.
