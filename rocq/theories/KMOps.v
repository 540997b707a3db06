(** Effect of the public operations on an attached KernelMatrix: preservation of the
    invariants under kernels that may raise, and exact results for kernels that do not. *)
From Coq Require Import String List Arith ZArith Bool Lia.
Import ListNotations.
From Verif Require Import Prelude MatModel MatFacts UtilsModel IndexModel KMModel SpecKM MFacts
  KMFacts KMInv.

Lemma successful_other : forall {E V} (K : kernel E V) tag base added new,
  Forall (fun c => c_tag c <> tag) added ->
  successful K tag base (added ++ new) = successful K tag base new.
Proof.
  intros E V K tag base added new H. induction H as [|c l Hc Hl IH]; [reflexivity|].
  cbn [app successful]. apply Nat.eqb_neq in Hc. rewrite Hc. exact IH.
Qed.

Section Ops.
  Context {E V U : Type}.
  Variable N : numops V.
  Variable K : kernel E V.
  Variable k : list E -> list E -> V.
  Variable nrm : bool.
  Variables (X Y : ndarray E) (two : bool) (n m d : nat).
  Variable base : list (call E).
  Hypothesis Hret : returns_only K k X (Some Y) n m d.
  Hypothesis HX : nd_shape X = [n; d].
  Hypothesis HY : nd_shape Y = [m; d].
  Hypothesis Hone : two = false -> Y = X /\ m = n.

  Notation KM := (km E V U).
  Notation invA := (@inv E V U K k nrm X Y two n m d 0 base).
  Notation full_okA := (@full_ok E V U N k X Y two n m d).
  Notation tot_okA := (@tot_ok E V U N nrm n m).
  Notation tv := (truev k X Y two d).

  Definition sane (s : KM) : Prop := invA s /\ full_okA s.

  Lemma inv_log_other : forall added (s : KM), Forall (fun c => c_tag c <> 0) added ->
    invA s -> invA (log_calls (added ++ g_calls s) s).
  Proof.
    intros added s Hadd [Hf Hm Hg]. constructor.
    - destruct Hf; constructor; assumption.
    - destruct Hm; constructor; assumption.
    - destruct Hg as (new & Hnew & Hsucc & Hcalls). exists (added ++ new). cbn.
      split; [rewrite Hnew, app_assoc; reflexivity|]. split.
      + rewrite successful_other by exact Hadd. exact Hsucc.
      + apply Forall_app. split; [|exact Hcalls]. eapply Forall_impl; [|exact Hadd].
        intros c Hc H0. congruence.
  Qed.

  (** Writing fields the invariants do not mention. *)
  Ltac inv_field := intros x s [Hi Hf]; split;
    [destruct Hi as [H1 H2 H3]; constructor;
      [destruct H1; constructor; assumption|destruct H2; constructor; assumption|exact H3]
    |exact Hf].
  Lemma sane_set_normed : forall x s, sane s -> sane (set_normed x s).
  Proof. inv_field. Qed.
  Lemma sane_set_frob : forall x s, sane s -> sane (set_frob x s).
  Proof. inv_field. Qed.
  Lemma sane_set_centered : forall x s, sane s -> sane (set_centered x s).
  Proof. inv_field. Qed.
  Lemma sane_set_is_centered : forall x s, sane s -> sane (set_is_centered x s).
  Proof. inv_field. Qed.
  Lemma sane_set_is_normed : forall x s, sane s -> sane (set_is_normed x s).
  Proof. inv_field. Qed.
  Lemma sane_set_attrs : forall x s, sane s -> sane (set_attrs x s).
  Proof. inv_field. Qed.
  Lemma sane_log_other : forall added (s : KM), Forall (fun c => c_tag c <> 0) added ->
    sane s -> sane (log_calls (added ++ g_calls s) s).
  Proof. intros added s Ha [Hi Hf]. split; [apply inv_log_other; assumption|exact Hf]. Qed.

  (** [post P m]: from a sane state, [m] ends in a sane state, whatever happens. *)
  Definition keeps {A} (m : M KM A) : Prop :=
    forall s, sane s -> holds m s (fun s' _ => sane s').

  Lemma keeps_bind : forall {A B} (mm : M KM A) (f : A -> M KM B),
    keeps mm -> (forall a, keeps (f a)) -> keeps (bind mm f).
  Proof.
    intros A B mm f Hm Hf s Hs. apply holds_bind. eapply holds_conseq; [apply Hm, Hs|].
    intros s' [a|e] Hs'; [apply Hf; exact Hs'|exact Hs'].
  Qed.
  Lemma keeps_ret : forall {A} (a : A), keeps (ret a).
  Proof. intros A a s Hs. exact Hs. Qed.
  Lemma keeps_raise : forall {A} e, keeps (@raise KM A e).
  Proof. intros A e s Hs. exact Hs. Qed.
  Lemma keeps_lift : forall {A} (r : res A), keeps (lift r).
  Proof. intros A r s Hs. exact Hs. Qed.
  Lemma keeps_get : keeps get.
  Proof. intros s Hs. exact Hs. Qed.
  Lemma keeps_modify : forall f, (forall s, sane s -> sane (f s)) -> keeps (modify f).
  Proof. intros f H s Hs. apply H, Hs. Qed.
  Lemma keeps_attr_or : forall {A} (f : KM -> option A), keeps (attr_or f).
  Proof.
    intros A f s Hs. unfold attr_or. apply holds_bind, holds_get.
    destruct (f s); exact Hs.
  Qed.
  Lemma keeps_when : forall b mm, keeps mm -> keeps (when b mm).
  Proof. intros [] mm H; [exact H|apply keeps_ret]. Qed.

  Lemma populate_holds : forall dense low s, sane s ->
    holds (populate_fully N dense low) s (fun s' r =>
      sane s' /\ core2 s' = core2 s /\ ext 0 anything s s' /\
      match r with
      | Ok a => k_full s' = Some a /\ (low = true -> k_lower s' = true)
      | Raise e => e = TypeError \/ e = RuntimeError
      end /\
      (never_raises K k X (Some Y) n m d -> tot_okA s -> (dense = true -> k_full s = None) ->
       (low = false -> dense = false /\ nrm = false) ->
       tot_okA s' /\ k_populated s' = true /\
       (low = true -> k_lower s' = true) /\ (low = false -> k_lower s' = k_lower s) /\
       exists B, k_full s' = Some (mkArr (fmt_of s dense) B) /\
         match r with
         | Ok _ => True
         | Raise e => e = TypeError /\ kfmt K = false /\
                      contains_nan_inf N (mkArr (fmt_of s dense) B) = true
         end)).
  Proof.
    intros dense low s [Hi Hf].
    eapply holds_conseq;
      [apply (populate_spec N K k nrm X Y two n m d 0 base Hret HX HY Hone dense low s Hi Hf)|].
    intros s' r (H1 & H2 & H3 & H4 & H5 & H6). unfold sane. auto 10.
  Qed.

  Lemma keeps_populate : forall dense low, keeps (populate_fully N dense low).
  Proof.
    intros dense low s Hs. eapply holds_conseq; [apply populate_holds, Hs|].
    intros s' r H. apply H.
  Qed.

  Lemma warn_holds : forall a (s : KM), sane s ->
    holds (warn_if_nan_inf N a) s (fun s' r =>
      s' = s /\
      match r with
      | Ok _ => True
      | Raise e => e = TypeError /\ kfmt K = false /\ contains_nan_inf N a = true
      end).
  Proof.
    intros a s [Hi _]. apply (warn_spec N K a s). apply (fx_kernel _ _ _ _ _ _ _ _ _ (iv_fixed _ _ _ _ _ _ _ _ _ _ _ s Hi)).
  Qed.

  Lemma keeps_warn : forall a, keeps (warn_if_nan_inf N a).
  Proof.
    intros a s Hs. eapply holds_conseq; [apply warn_holds, Hs|]. intros s' r [-> _]. exact Hs.
  Qed.

  Definition dX : list V := map (fun i => k (row_of d X i) (row_of d X i)) (seq 0 n).
  Definition dY : list V := map (fun i => k (row_of d Y i) (row_of d Y i)) (seq 0 m).

  (** The two-sample branch of normalize, up to storing the result. *)
  Definition norm2 : M KM unit :=
    x <- attr_or k_sample ;;
    y <- attr_or k_sample_two ;;
    a <- attr_or k_full ;;
    dx <- temp_diagonal 1 x ;;
    dy <- temp_diagonal 2 y ;;
    nk <- lift (op_normalize2 N a dx dy) ;;
    modify (set_normed (Some nk)).

  Lemma sane_fixed : forall s, sane s ->
    k_kernel s = K /\ k_keep_normed s = nrm /\ k_sample s = Some X /\
    k_sample_two s = Some Y /\ k_two s = Some two /\ k_shape s = Some (n, m) /\
    k_num_samples s = (if two then NSTwo n m else NSOne n) /\ g_tag s = 0.
  Proof. intros s [[[] _ _] _]. auto 10. Qed.

  Lemma norm2_spec : forall s, sane s ->
    holds norm2 s (fun s' r =>
      sane s' /\
      match k_full s with
      | None => r = Raise AttributeError /\ s' = s
      | Some a =>
          exists added, Forall (fun c => c_tag c <> 0) added /\
            match r with
            | Ok _ => exists nk, op_normalize2 N a dX dY = Ok nk /\
                s' = set_normed (Some nk) (log_calls (added ++ g_calls s) s)
            | Raise e => s' = log_calls (added ++ g_calls s) s /\
                (raised K X Y n m d e \/ op_normalize2 N a dX dY = Raise e)
            end
      end).
  Proof.
    intros s Hs. destruct (sane_fixed s Hs) as (FK & Fn & FX & FY & F2 & Fs & _ & _).
    unfold norm2. apply holds_bind. eapply holds_attr_or; [exact FX|].
    apply holds_bind. eapply holds_attr_or; [exact FY|].
    apply holds_bind. destruct (k_full s) as [a|] eqn:Hf.
    2:{ unfold attr_or. apply holds_bind, holds_get. rewrite Hf. apply holds_raise. auto. }
    eapply holds_attr_or; [exact Hf|].
    apply holds_bind.
    eapply holds_conseq; [apply (temp_diagonal_spec K k 1 X n d s (ret_first K k X Y n m d Hret) FK HX)|].
    intros s1 r1 (a1 & -> & Ht1 & Hr1).
    assert (Ht1' : Forall (fun c : call E => c_tag c <> 0) a1)
      by (eapply Forall_impl; [|exact Ht1]; cbv beta; lia).
    assert (Hs1 : sane (log_calls (a1 ++ g_calls s) s)) by (apply sane_log_other; assumption).
    destruct r1 as [l1|e1].
    2:{ split; [exact Hs1|]. exists a1. eauto using raised_first. }
    subst l1. fold dX.
    apply holds_bind.
    eapply holds_conseq;
      [apply (temp_diagonal_spec K k 2 Y m d (log_calls (a1 ++ g_calls s) s) (ret_second K k X Y n m d Hret) FK HY)|].
    intros s2 r2 (a2 & -> & Ht2 & Hr2). cbn [g_calls log_calls].
    assert (Ht2' : Forall (fun c : call E => c_tag c <> 0) a2)
      by (eapply Forall_impl; [|exact Ht2]; cbv beta; lia).
    assert (Ht : Forall (fun c : call E => c_tag c <> 0) (a2 ++ a1))
      by (apply Forall_app; auto).
    assert (Heq : log_calls (a2 ++ a1 ++ g_calls s) (log_calls (a1 ++ g_calls s) s)
                  = log_calls ((a2 ++ a1) ++ g_calls s) s)
      by (rewrite <- app_assoc; reflexivity).
    rewrite Heq.
    assert (Hs2 : sane (log_calls ((a2 ++ a1) ++ g_calls s) s)) by (apply sane_log_other; assumption).
    destruct r2 as [l2|e2].
    2:{ split; [exact Hs2|]. exists (a2 ++ a1). eauto using raised_second. }
    subst l2. fold dY.
    apply holds_bind, holds_lift.
    destruct (op_normalize2 N a dX dY) as [nk|e] eqn:Hop.
    - apply holds_modify. split; [apply sane_set_normed; exact Hs2|].
      exists (a2 ++ a1). split; [exact Ht|]. exists nk. auto.
    - split; [exact Hs2|]. exists (a2 ++ a1). auto.
  Qed.

  Lemma keeps_norm2 : keeps norm2.
  Proof. intros s Hs. eapply holds_conseq; [apply norm2_spec, Hs|]. intros s' r H. apply H. Qed.

  Lemma keeps_normalize : forall meth, keeps (normalize N meth).
  Proof.
    intros meth. unfold normalize. apply keeps_bind; [apply keeps_get|]. intros s0.
    apply keeps_bind.
    { apply keeps_when, keeps_bind; [apply keeps_populate|intros; apply keeps_ret]. }
    intros _. apply keeps_bind; [apply keeps_get|]. intros s1.
    apply keeps_when, keeps_bind; [apply keeps_attr_or|]. intros tw.
    apply keeps_bind.
    { destruct (negb tw).
      - apply keeps_bind; [apply keeps_attr_or|]. intros a.
        apply keeps_bind; [apply keeps_lift|]. intros nk.
        apply keeps_modify. apply sane_set_normed.
      - apply keeps_norm2. }
    intros _. apply keeps_bind; [apply keeps_modify, sane_set_is_normed|]. intros _.
    apply keeps_bind; [apply keeps_attr_or|]. intros nk. apply keeps_warn.
  Qed.

  Lemma keeps_full : keeps (full N).
  Proof.
    unfold full. apply keeps_bind; [apply keeps_get|]. intros s0.
    destruct (k_sample s0); [|apply keeps_raise].
    apply keeps_bind.
    { apply keeps_when, keeps_bind; [apply keeps_populate|intros; apply keeps_ret]. }
    intros _. destruct (k_keep_normed s0); [|apply keeps_attr_or].
    apply keeps_bind; [apply keeps_get|]. intros s1.
    apply keeps_bind; [apply keeps_when, keeps_normalize|]. intros _. apply keeps_attr_or.
  Qed.

  Lemma keeps_full_sparse : keeps (full_sparse N).
  Proof.
    unfold full_sparse. apply keeps_bind; [apply keeps_get|]. intros s0.
    destruct (k_keep_normed s0); [|apply keeps_populate].
    apply keeps_bind; [apply keeps_when, keeps_normalize|]. intros _. apply keeps_attr_or.
  Qed.

  Lemma keeps_set_full_populate :
    keeps (a <- populate_fully N true true ;; modify (set_full (Some a))).
  Proof.
    intros s Hs. apply holds_bind. eapply holds_conseq; [apply populate_holds, Hs|].
    intros s' [a|e] (Hs' & _ & _ & H & _); [|exact Hs'].
    apply holds_modify. destruct H as [H _].
    replace (set_full (Some a) s') with s'; [exact Hs'|].
    destruct s'; cbn in *; subst; reflexivity.
  Qed.

  Lemma keeps_center : keeps (center N).
  Proof.
    unfold center. apply keeps_bind; [apply keeps_attr_or|]. intros [].
    { apply keeps_raise. }
    apply keeps_bind; [apply keeps_get|]. intros s0.
    apply keeps_bind; [apply keeps_when, keeps_set_full_populate|]. intros _.
    apply keeps_bind; [apply keeps_attr_or|]. intros a.
    apply keeps_bind; [apply keeps_lift|]. intros c.
    apply keeps_bind; [apply keeps_modify, sane_set_centered|]. intros _.
    apply keeps_modify, sane_set_is_centered.
  Qed.

  Lemma keeps_centered : keeps (centered N).
  Proof.
    unfold centered. apply keeps_bind; [apply keeps_attr_or|]. intros [].
    { apply keeps_raise. }
    apply keeps_bind; [apply keeps_get|]. intros s0.
    apply keeps_bind; [apply keeps_when, keeps_center|]. intros _. apply keeps_attr_or.
  Qed.

  Lemma keeps_frob : keeps (frob_norm N).
  Proof.
    unfold frob_norm. apply keeps_bind; [apply keeps_get|]. intros s0.
    apply keeps_bind.
    { apply keeps_when, keeps_bind; [apply keeps_populate|intros; apply keeps_ret]. }
    intros _. apply keeps_bind; [apply keeps_get|]. intros s1.
    apply keeps_bind; [|intros; apply keeps_attr_or].
    apply keeps_when, keeps_bind; [apply keeps_attr_or|]. intros a.
    apply keeps_bind; [apply keeps_lift|]. intros v.
    apply keeps_modify, sane_set_frob.
  Qed.

  Lemma keeps_normed_km : keeps (normed_km N).
  Proof.
    unfold normed_km. apply keeps_bind; [apply keeps_get|]. intros s0.
    apply keeps_bind; [apply keeps_when, keeps_normalize|]. intros _. apply keeps_attr_or.
  Qed.

  (** Evaluating listed entries. *)
  Lemma eval_list_holds : forall (l : list (nat * nat)) s,
    sane s -> (forall p, In p l -> fst p < n /\ snd p < m) ->
    holds (map_each l (fun p => eval_kernel (fst p) (snd p))) s (fun s' r =>
      sane s' /\ core s' = core s /\ k_full s' = k_full s /\
      ext 0 (fun p => exists q, In q l /\ p = norm two q) s s' /\
      match r with
      | Ok vs => vs = map (fun p => tv (fst p) (snd p)) l /\
                 forall p, In p l -> In (norm two p) (keys s')
      | Raise e => raised K X Y n m d e
      end).
  Proof.
    intros l s [Hi Hf] Hl.
    eapply holds_conseq;
      [apply (eval_list_spec K k nrm X Y two n m d 0 base Hret HX HY Hone l s Hi Hl)|].
    intros s' r (H1 & H2 & H3 & H4 & H5). split; [|auto].
    split; [exact H1|]. unfold full_ok in *. rewrite H3.
    assert (Hp : k_populated s' = k_populated s) by (unfold core in H2; congruence).
    assert (Hl' : k_lower s' = k_lower s) by (unfold core in H2; congruence).
    rewrite Hp, Hl'. destruct (k_full s) as [a|]; [|exact Hf].
    destruct Hf as (F1 & F2 & F3 & F4). split; [exact F1|]. split; [exact F2|].
    split; [|exact F4]. intros Hpp i j Hi' Hj Hij.
    destruct (F3 Hpp i j Hi' Hj Hij) as [G1 G2]. split; [exact G1|].
    apply (proj1 H4), G2.
  Qed.

  Lemma diagonal_holds : forall s, sane s ->
    holds diagonal s (fun s' r =>
      (two = true -> r = Raise KMAccessError /\ s' = s) /\
      (two = false ->
           sane s' /\ core s' = core s /\ k_full s' = k_full s /\
           ext 0 (fun p => fst p = snd p /\ fst p < n) s s' /\
           match r with
           | Ok vs => vs = map (fun i => tv i i) (seq 0 n)
           | Raise e => raised K X Y n m d e
           end)).
  Proof.
    intros s Hs. destruct (sane_fixed s Hs) as (FK & Fn & FX & FY & F2 & Fs & _ & _).
    destruct (Bool.bool_dec two true) as [Htwo|Htwo];
      [|apply not_true_is_false in Htwo].
    - unfold diagonal. apply holds_bind. eapply holds_attr_or; [exact F2|].
      rewrite Htwo. apply holds_raise. split; [auto|discriminate].
    - apply holds_conseq with (Q := fun s' r =>
           sane s' /\ core s' = core s /\ k_full s' = k_full s /\
           ext 0 (fun p => fst p = snd p /\ fst p < n) s s' /\
           match r with
           | Ok vs => vs = map (fun i => tv i i) (seq 0 n)
           | Raise e => raised K X Y n m d e
           end);
        [|intros s' r H; split; [congruence|intros _; exact H]].
      unfold diagonal. apply holds_bind. eapply holds_attr_or; [exact F2|].
      replace (if two then raise KMAccessError else sh <- attr_or k_shape ;;
               map_each (seq 0 (fst sh)) (fun i => eval_kernel i i) : M KM (list V))
        with (sh <- attr_or k_shape ;; map_each (seq 0 (fst sh)) (fun i => eval_kernel i i)
              : M KM (list V))
        by (rewrite Htwo; reflexivity).
      apply holds_bind. eapply holds_attr_or; [exact Fs|]. cbn [fst].
      destruct (Hone Htwo) as [_ Hmn].
      assert (Hsame : forall l (st : km E V U),
                map_each (map (fun i => (i, i)) l) (fun p => eval_kernel (fst p) (snd p)) st
                = map_each l (fun i => eval_kernel i i) st).
      { intros l. induction l as [|a l IH]; intros st; [reflexivity|].
        cbn [map map_each fst snd]. unfold bind.
        destruct (eval_kernel a a st) as [st' [v|e]]; [|reflexivity].
        rewrite IH. reflexivity. }
      assert (Hrg : forall p, In p (map (fun i => (i, i)) (seq 0 n)) -> fst p < n /\ snd p < m).
      { intros p Hp. apply in_map_iff in Hp. destruct Hp as (i & <- & Hi).
        apply in_seq in Hi. simpl. lia. }
      assert (H := eval_list_holds (map (fun i => (i, i)) (seq 0 n)) s Hs Hrg).
      unfold holds in H |- *. rewrite Hsame in H.
      destruct H as (H1 & H2 & H3 & H4 & H5).
      split; [exact H1|]. split; [exact H2|]. split; [exact H3|]. split.
      + eapply ext_weaken; [|exact H4]. cbv beta. intros p (q & Hq & ->).
        apply in_map_iff in Hq. destruct Hq as (i & <- & Hi). apply in_seq in Hi.
        unfold norm. rewrite Htwo. cbn [fst snd]. rewrite Nat.min_id, Nat.max_id.
        simpl. lia.
      + destruct (snd (map_each (seq 0 n) (fun i => eval_kernel i i) s)) as [l|e];
          [|exact H5].
        destruct H5 as [-> _]. rewrite map_map. reflexivity.
  Qed.

  Lemma keeps_diagonal : keeps diagonal.
  Proof.
    intros s Hs. eapply holds_conseq; [apply diagonal_holds, Hs|].
    intros s' r [H1 H2]. destruct (Bool.bool_dec two true) as [Htwo|Htwo].
    - destruct (H1 Htwo) as [_ ->]. exact Hs.
    - apply not_true_is_false in Htwo. apply (H2 Htwo).
  Qed.

  (** Index resolution yields positions inside the matrix. *)
  Lemma sort_uniq_in : forall z l, In z (sort_uniq l) <-> In z l.
  Proof.
    intros z l. unfold sort_uniq. induction l as [|y l IH]; [tauto|]. cbn [fold_right].
    assert (Hins : forall a l', In z (insert_uniq a l') <-> z = a \/ In z l').
    { intros a l'. induction l' as [|b l' IH']; simpl; [intuition|].
      destruct (a <? b)%Z; [simpl; intuition|].
      destruct (a =? b)%Z eqn:Hab.
      - apply Z.eqb_eq in Hab. subst b. simpl. intuition.
      - simpl. rewrite IH'. intuition. }
    rewrite Hins, IH. simpl. intuition.
  Qed.

  Lemma get_indices_range : forall dim ix sel all,
    get_indices_in_sample (Some dim) ix = Ok (sel, all) ->
    (forall i, In i sel -> i < dim) /\ sel <> [].
  Proof.
    intros dim ix sel all H. unfold get_indices_in_sample, rbind in H.
    destruct (match ix with
              | IInt z => Ok [EInt z]
              | ISlice a b st => _
              | IIter l => Ok l
              | IFails e => Raise e
              | IOther => Raise KMAccessError
              end) as [elts|e]; [|discriminate].
    destruct (int_elts elts) as [zs|e]; [|discriminate].
    destruct zs as [|z zs]; [discriminate|].
    destruct (existsb (fun z0 => (Z.of_nat dim <=? z0)%Z || (z0 <? 0)%Z) (z :: zs)) eqn:Hex;
      [discriminate|].
    inversion H; subst sel all. clear H. split.
    - intros i Hi. apply in_map_iff in Hi. destruct Hi as (w & <- & Hw).
      apply (sort_uniq_in w (z :: zs)) in Hw.
      assert (Hn : ((Z.of_nat dim <=? w)%Z || (w <? 0)%Z) = false).
      { destruct ((Z.of_nat dim <=? w)%Z || (w <? 0)%Z) eqn:Hb; [|reflexivity].
        assert (Ht : existsb (fun z0 => (Z.of_nat dim <=? z0)%Z || (z0 <? 0)%Z) (z :: zs) = true)
          by (apply existsb_exists; exists w; split; [exact Hw|exact Hb]). congruence. }
      apply orb_false_iff in Hn. destruct Hn as [H1 H2].
      apply Z.leb_gt in H1. apply Z.ltb_ge in H2. lia.
    - intros Hnil. apply map_eq_nil in Hnil.
      assert (Hin : In z (sort_uniq (z :: zs))) by (apply sort_uniq_in; left; reflexivity).
      change (sort_uniq (z :: zs)) with (insert_uniq z (sort_uniq zs)) in Hin.
      rewrite Hnil in Hin. destruct Hin.
  Qed.

  Lemma keeps_getitem_pair : forall a b, keeps (getitem_pair N a b).
  Proof.
    intros a b s Hs. destruct (sane_fixed s Hs) as (FK & Fn & FX & FY & F2 & Fs & _ & _).
    unfold getitem_pair. apply holds_bind, holds_get. rewrite Fs. cbn [option_map fst snd].
    apply holds_bind, holds_lift.
    destruct (get_indices_in_sample (Some n) a) as [[sa alla]|e] eqn:Ha; [|exact Hs].
    apply holds_bind, holds_lift.
    destruct (get_indices_in_sample (Some m) b) as [[sb allb]|e] eqn:Hb; [|exact Hs].
    cbn [fst snd]. destruct (alla && allb).
    - apply keeps_populate, Hs.
    - unfold compute_for_index_combinations. apply holds_bind.
      eapply holds_conseq.
      + apply eval_list_holds; [exact Hs|]. intros [i j] Hp.
        unfold product in Hp. apply in_flat_map in Hp. destruct Hp as (i' & Hi' & Hp).
        apply in_map_iff in Hp. destruct Hp as (j' & Hj' & Hp). inversion Hj'; subst.
        cbn. split; [apply (get_indices_range _ _ _ _ Ha), Hi'
                    |apply (get_indices_range _ _ _ _ Hb), Hp].
      + intros s' [vs|e] H; [apply holds_ret; apply H|apply H].
  Qed.

  Lemma keeps_getitem : forall ix, keeps (getitem N ix).
  Proof.
    intros [a b|kk|]; unfold getitem.
    - apply keeps_getitem_pair.
    - apply keeps_bind; [apply keeps_attr_or|]. intros sh.
      apply keeps_bind; [apply keeps_lift|]. intros p. apply keeps_getitem_pair.
    - apply keeps_raise.
  Qed.

  Lemma keeps_fmap : forall {A B} (f : A -> B) (mm : M KM A), keeps mm -> keeps (fmap f mm).
  Proof. intros A B f mm H. apply keeps_bind; [exact H|]. intros a. apply keeps_ret. Qed.

  (** Every operation other than attach_to preserves sanity, whatever it raises. *)
  Theorem keeps_step : forall o, is_attach o = false -> keeps (step N o).
  Proof.
    intros o Ho. destruct o; unfold step; try (apply keeps_fmap).
    - discriminate.
    - apply keeps_full.
    - apply keeps_full_sparse.
    - apply keeps_center.
    - apply keeps_centered.
    - apply keeps_normalize.
    - apply keeps_normed_km.
    - apply keeps_frob.
    - apply keeps_diagonal.
    - apply keeps_getitem.
    - apply keeps_modify. intros s Hs. apply sane_set_attrs, Hs.
    - apply keeps_bind; [apply keeps_get|]. intros. apply keeps_ret.
    - apply keeps_get.
    - apply keeps_bind; [apply keeps_attr_or|]. intros tw.
      apply keeps_bind; [apply keeps_get|]. intros s0.
      destruct tw, (k_num_samples s0); try apply keeps_ret; apply keeps_raise.
    - apply keeps_attr_or.
    - apply keeps_get.
  Qed.

  Theorem keeps_run : forall ops s, no_attach ops -> sane s -> sane (run N ops s).
  Proof.
    induction ops as [|o ops IH]; intros s Hno Hs; [exact Hs|].
    unfold no_attach in Hno. cbn [forallb] in Hno. apply andb_true_iff in Hno.
    destruct Hno as [Ho Hno]. apply negb_true_iff in Ho.
    cbn [run]. apply IH; [exact Hno|]. apply (keeps_step o Ho s Hs).
  Qed.
End Ops.
