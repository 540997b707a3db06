(** Reading [full] twice in a row: the second read changes nothing and returns the same. *)
From Coq Require Import String List Arith ZArith Bool Lia.
Import ListNotations.
From Verif Require Import Prelude MatModel UtilsModel IndexModel KMModel SpecKM MFacts KMHist.

Section Full.
  Context {E V U : Type}.
  Notation KM := (km E V U).
  Variable N : numops V.

  (** A matrix is there, complete, and not sparse: [_populate_fully] has nothing to do. *)
  Definition settled (s : KM) (a : arr V) : Prop :=
    k_full s = Some a /\ k_lower s = true /\ is_sparse a = false /\
    contains_nan_inf N a && negb (kfmt (k_kernel s)) = false.

  Lemma settled_populate : forall s a, settled s a -> populate_fully N true true s = (s, Ok a).
  Proof.
    intros s a (Hf & Hl & Hs & Hw).
    unfold populate_fully, populate_upper, populate_lower, densify, warn_if_nan_inf, attr_or,
      bind, get, ret.
    rewrite Hf. cbn [is_some negb]. rewrite andb_false_r. cbn [when]. unfold ret.
    rewrite Hl. cbn [negb andb when]. unfold ret. rewrite Hf, Hs. cbn [andb when]. unfold ret.
    rewrite Hf, Hw. reflexivity.
  Qed.

  Lemma populate_settled : forall s s' a, populate_fully N true true s = (s', Ok a) -> settled s' a.
  Proof.
    intros s s' a H. unfold populate_fully in H. unfold bind at 1 in H.
    destruct (populate_upper N true s) as [s1 [[]|e]]; [|discriminate].
    unfold bind at 1 in H.
    destruct (populate_lower N true s1) as [s2 [[]|e]] eqn:H2; [|discriminate].
    assert (L2 : k_lower s2 = true).
    { unfold populate_lower, bind, get in H2. cbn [andb] in H2.
      destruct (k_lower s1) eqn:L1; cbn [negb when] in H2.
      - unfold ret in H2. inversion H2; subst. exact L1.
      - match type of H2 with (match ?t with _ => _ end) = _ =>
          destruct t as [s3 [[]|e3]]; [|discriminate] end.
        unfold modify in H2. inversion H2; subst. reflexivity. }
    unfold bind at 1 in H.
    destruct (densify true s2) as [s3 [[]|e]] eqn:H3; [|discriminate].
    unfold densify, attr_or, bind, get, ret, raise in H3.
    destruct (k_full s2) as [b|] eqn:F2; [|discriminate].
    unfold attr_or, bind, get, ret, raise in H.
    destruct (k_full s3) as [c|] eqn:F3; [|discriminate].
    unfold warn_if_nan_inf, bind, get, ret, raise in H.
    destruct (contains_nan_inf N c && negb (kfmt (k_kernel s3))) eqn:W; [discriminate|].
    inversion H; subst.
    split; [exact F3|]. rewrite andb_true_r in H3.
    destruct (is_sparse b) eqn:B; cbn [when] in H3; unfold modify, ret in H3; inversion H3; subst.
    - cbn in F3. inversion F3; subst. split; [exact L2|]. split; [reflexivity|exact W].
    - rewrite F2 in F3. inversion F3; subst. split; [exact L2|]. split; [exact B|exact W].
  Qed.

  (** What normalising a settled or populated matrix does not touch. *)
  Definition base (s : KM) :=
    (k_full s, k_lower s, k_populated s, (k_kernel s, k_keep_normed s, k_sample s)).

  Definition norm_rest (method : string) : M KM unit :=
    s1 <- get ;;
    when (negb (k_is_normed s1))
      (two <- attr_or k_two ;;
       (if negb two
        then
          a <- attr_or k_full ;;
          nk <- lift (op_normalize N method a) ;;
          modify (set_normed (Some nk))
        else
          x <- attr_or k_sample ;;
          y <- attr_or k_sample_two ;;
          a <- attr_or k_full ;;
          dx <- temp_diagonal 1 x ;;
          dy <- temp_diagonal 2 y ;;
          nk <- lift (op_normalize2 N a dx dy) ;;
          modify (set_normed (Some nk))) ;;;
       modify (set_is_normed true) ;;;
       nk <- attr_or k_normed ;;
       warn_if_nan_inf N nk).

  Lemma norm_rest_base : forall meth, stable base (norm_rest meth).
  Proof.
    intros meth. unfold norm_rest, warn_if_nan_inf, temp_diagonal. stab.
  Qed.

  Lemma norm_rest_normed : forall meth s s', norm_rest meth s = (s', Ok tt) ->
    k_is_normed s' = true.
  Proof.
    intros meth s s' H. unfold norm_rest, bind at 1, get in H.
    destruct (k_is_normed s) eqn:Hn; cbn [negb when] in H.
    - unfold ret in H. inversion H; subst. exact Hn.
    - unfold bind at 1 in H. destruct (attr_or k_two s) as [s1 [two|e]]; [|discriminate].
      unfold bind at 1 in H.
      match type of H with (match ?t with _ => _ end) = _ =>
        destruct t as [s2 [[]|e]]; [|discriminate] end.
      unfold bind at 1, modify in H. unfold attr_or, bind, get, ret, raise in H.
      cbn [set_is_normed k_normed] in H.
      destruct (k_normed s2); [|discriminate].
      unfold warn_if_nan_inf, bind, get, ret, raise in H. cbn [set_is_normed k_kernel] in H.
      match type of H with (if ?t then _ else _) _ = _ => destruct t; [discriminate|] end.
      inversion H; subst. reflexivity.
  Qed.

  (** Nothing to compute for [_populate_fully] before normalising. *)
  Definition idle (s : KM) : Prop := k_populated s = true \/ exists a, settled s a.

  Lemma idle_populate : forall s, idle s ->
    when (negb (k_populated s)) (populate_fully N true true ;;; ret tt) s = (s, Ok tt).
  Proof.
    intros s [H|[a H]].
    - rewrite H. reflexivity.
    - destruct (k_populated s); [reflexivity|]. cbn [negb when]. unfold bind.
      rewrite (settled_populate s a H). reflexivity.
  Qed.

  Lemma idle_base : forall s s', base s' = base s -> idle s -> idle s'.
  Proof.
    unfold base. intros s s' Hb H. injection Hb as H1 H2 H3 H4 H5 H6.
    destruct H as [H|[a (A & B & C & D)]].
    - left. congruence.
    - right. exists a. unfold settled. rewrite H1, H2, H4. auto.
  Qed.

  Lemma normalize_idle : forall meth s, idle s -> normalize N meth s = norm_rest meth s.
  Proof.
    intros meth s H. unfold normalize. unfold bind at 1, get at 1. unfold bind at 1.
    rewrite (idle_populate s H). reflexivity.
  Qed.

  Lemma full_idem : forall (s s' : KM) a, full N s = (s', Ok a) -> full N s' = (s', Ok a).
  Proof.
    intros s s' a H. unfold full, bind at 1, get at 1 in H.
    destruct (k_sample s) as [x|] eqn:Hx; [|discriminate].
    unfold bind at 1 in H.
    assert (P : exists s1, when (negb (k_populated s)) (populate_fully N true true ;;; ret tt) s = (s1, Ok tt)
              /\ idle s1 /\ frame s1 = frame s).
    { destruct (k_populated s) eqn:Hp; cbn [negb when] in *.
      - exists s. split; [reflexivity|]. split; [left; exact Hp|reflexivity].
      - unfold bind, ret in *. assert (Hfr := frame_populate (U:=U) N true true s).
        destruct (populate_fully N true true s) as [s1 [b|e]] eqn:Hpop; [|discriminate].
        exists s1. split; [reflexivity|]. split; [right; exists b; eapply populate_settled; exact Hpop|].
        exact Hfr. }
    destruct P as (s1 & P1 & P2 & P3). rewrite P1 in H.
    unfold frame in P3. injection P3 as Q1 Q2 Q3 Q4 Q5 Q6 Q7 Q8.
    destruct (k_keep_normed s) eqn:Hk.
    - unfold bind, get in H.
      destruct (k_is_normed s1) eqn:Hn; cbn [negb when] in H.
      + unfold ret in H. assert (s' = s1).
        { unfold attr_or, bind, get, ret, raise in H. destruct (k_normed s1); inversion H; reflexivity. }
        subst s'. unfold full, bind at 1, get at 1. rewrite Q4, Hx. unfold bind at 1.
        rewrite (idle_populate s1 P2), Q2. unfold bind, get. rewrite Hn. cbn [negb when].
        unfold ret. exact H.
      + rewrite (normalize_idle _ _ P2) in H.
        assert (Hb := norm_rest_base default_method s1).
        destruct (norm_rest default_method s1) as [s2 [[]|e]] eqn:Hr; [|discriminate].
        cbn [fst] in Hb.
        assert (s' = s2).
        { unfold attr_or, bind, get, ret, raise in H. destruct (k_normed s2); inversion H; reflexivity. }
        subst s'. assert (Hn2 := norm_rest_normed _ _ _ Hr).
        assert (I2 := idle_base _ _ Hb P2).
        unfold base in Hb. injection Hb as R1 R2 R3 R4 R5 R6.
        unfold full, bind at 1, get at 1. rewrite R6, Q4, Hx. unfold bind at 1.
        rewrite (idle_populate s2 I2), R5, Q2. unfold bind, get. rewrite Hn2. cbn [negb when].
        unfold ret. exact H.
    - assert (s' = s1).
      { unfold attr_or, bind, get, ret, raise in H. destruct (k_full s1); inversion H; reflexivity. }
      subst s'. unfold full, bind at 1, get at 1. rewrite Q4, Hx. unfold bind at 1.
      rewrite (idle_populate s1 P2), Q2. exact H.
  Qed.
End Full.
