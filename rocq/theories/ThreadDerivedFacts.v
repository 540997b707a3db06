(** Rely-guarantee reasoning about the derived requests of ThreadDerivedModel.v. *)
From Coq Require Import List Arith Bool Lia String.
Import ListNotations.
From Verif Require Import Prelude MatModel MatFacts KMModel KMGet ThreadModel ThreadFacts ThreadDerivedModel ThreadProps
  SpecThreadDerived.

(** ** Every schedule *)
Section Pool.
  Context {V : Type}.
  Notation D := (dsh V).
  Variable I : D -> Prop.
  Variables R G : nat -> D -> D -> Prop.
  Hypothesis Rrefl : forall t s, R t s s.
  Hypothesis Rtrans : forall t a b c, R t a b -> R t b c -> R t a c.
  Hypothesis GR : forall t u s s', t <> u -> G t s s' -> R u s s'.
  Variable Q : nat -> res unit -> D -> Prop.

  Definition d_all_safe (c : list (prog D unit) * D) : Prop :=
    I (snd c) /\ forall t p, nth_error (fst c) t = Some p -> safe I (R t) (G t) p (Q t) (snd c).

  Lemma d_step_safe : forall c t, d_all_safe c -> d_all_safe (d_step c t).
  Proof.
    intros [pl s] t [HI H]. unfold d_step. cbn [fst snd] in *.
    destruct (nth_error pl t) as [[r|u nx]|] eqn:E; try (split; assumption).
    destruct (H t _ E s (Rrefl t s) HI) as (K1 & K2 & K3).
    split; cbn [fst snd]; [exact K1|]. intros v p Hp. rewrite nth_error_list_upd in Hp.
    destruct (v =? t) eqn:Ev; cbn [andb] in Hp.
    - apply Nat.eqb_eq in Ev. subst v. destruct (t <? List.length pl) eqn:El.
      + injection Hp as <-. exact K3.
      + apply Nat.ltb_ge in El. apply nth_error_None in El. congruence.
    - apply Nat.eqb_neq in Ev. apply (safe_stable I (R v) (G v) (Rtrans v) p _ s); [|exact (H v p Hp)].
      apply (GR t v); auto.
  Qed.

  Lemma d_run_safe : forall sched c, d_all_safe c -> d_all_safe (fold_left (@d_step V) sched c).
  Proof. induction sched as [|t l IH]; intros c H; cbn; [exact H|]. apply IH, d_step_safe, H. Qed.
End Pool.

Section Request.
  Context {V : Type}.
  Variable N : numops V.
  Variable kv : nat -> nat -> res V.
  Variables kx ky : nat -> res V.
  Variables two keep : bool.
  Variables n m : nat.
  Notation Sh := (shared V).
  Notation D := (dsh V).
  Notation nan := (v_nan N).
  Notation K := (the_matrix nan kv two n m).
  Notation at_ := (array_at nan n m).
  Notation rnorm := (right_normed N kv kx ky two n m).
  Notation rcent := (right_centered N kv two n m).
  Notation rfrob := (right_frob N kv two n m).

  (** ** What holds of the derived attributes *)
  Definition nset (d : D) : Prop := exists a, d_normed d = Some a /\ rnorm = Ok a.
  Definition cset (d : D) : Prop := exists a, d_centered d = Some a /\ rcent = Ok a.
  Definition fset (d : D) : Prop := exists v, d_frob d = Some v /\ rfrob = Ok v.
  Definition dright (d : D) : Prop :=
    (d_is_normed d = true -> nset d) /\ (d_is_centered d = true -> cset d) /\ (d_frob d <> None -> fset d).
  Definition lright (d : D) : Prop :=
    forall t o r, In (t, o, r) (d_log d) -> r = right_answer N kv kx ky two n m o.
  Definition dgrow (d d' : D) : Prop :=
    (nset d -> nset d') /\ (cset d -> cset d') /\ (fset d -> fset d').

  (** The threads that run this and what they know of the attributes of ThreadModel.v. *)
  Variable B : Sh -> Prop.
  Variables RB GB : Sh -> Sh -> Prop.
  Variable K0 : Sh -> Prop.
  Variable t : nat.
  Hypothesis RBrefl : forall s, RB s s.
  Hypothesis RBtrans : forall a b c, RB a b -> RB b c -> RB a c.
  Hypothesis GBrefl : forall s, GB s s.

  Definition readyp p (s : Sh) : Prop := sh_full s = Some p /\ at_ s p = amat K /\ sh_populated s = true.
  Definition ready (s : Sh) : Prop := exists p, readyp p s.
  Hypothesis K0stable : forall s s', B s -> RB s s' -> B s' -> K0 s -> K0 s'.
  Hypothesis Rstable : forall p s s', B s -> RB s s' -> B s' -> readyp p s -> readyp p s'.
  Hypothesis Hpop : forall s, B s -> K0 s -> sh_populated s = false ->
    safe B RB GB (t_populate nan kv two n m t) (fun r s' => r = Ok tt /\ K0 s' /\ ready s') s.
  Hypothesis Hpop' : forall s, B s -> K0 s -> sh_populated s = true -> ready s.

  Definition ID (d : D) : Prop := B (d_base d) /\ dright d /\ lright d.
  Definition RD (d d' : D) : Prop := RB (d_base d) (d_base d') /\ dgrow d d'.
  Definition GD (d d' : D) : Prop := GB (d_base d) (d_base d') /\ dgrow d d'.

  Lemma dgrow_refl : forall d, dgrow d d.
  Proof. intros d. split; [|split]; auto. Qed.
  Lemma RDrefl : forall d, RD d d.
  Proof. intros d. split; [apply RBrefl|apply dgrow_refl]. Qed.
  Lemma RDtrans : forall a b c, RD a b -> RD b c -> RD a c.
  Proof.
    intros a b c (A1 & A2 & A3 & A4) (B1 & B2 & B3 & B4). split; [eauto|]. split; [|split]; auto.
  Qed.
  Lemma GDrefl : forall d, GD d d.
  Proof. intros d. split; [apply GBrefl|apply dgrow_refl]. Qed.
  Local Hint Resolve RDrefl GDrefl : core.

  Lemma lift_safe : forall {A} (p : prog Sh A) Q d,
    safe B RB GB p Q (d_base d) -> safe ID RD GD (plift p) (fun r d' => Q r (d_base d')) d.
  Proof.
    intros A p Q. induction p as [r|u nx IH]; intros d H; cbn [plift].
    - intros d' [R1 _] [I1 _]. exact (H _ R1 I1).
    - intros d' [R1 _] (I1 & D1 & L1). destruct (H _ R1 I1) as (K1 & K2 & K3).
      split; [|split]; [split; [exact K1|split; [exact D1|exact L1]]|split; [exact K2|exact (dgrow_refl d')]|].
      apply IH. exact K3.
  Qed.

  Definition KD (d : D) : Prop := ID d /\ K0 (d_base d).
  Definition RyD p (d : D) : Prop := ID d /\ K0 (d_base d) /\ readyp p (d_base d).
  Lemma KD_stable : forall d d', KD d -> RD d d' -> ID d' -> KD d'.
  Proof. intros d d' [I1 H] [R1 _] I2. split; [exact I2|]. apply (K0stable (d_base d)); auto; [apply I1|apply I2]. Qed.
  Lemma RyD_stable : forall p d d', RyD p d -> RD d d' -> ID d' -> RyD p d'.
  Proof.
    intros p d d' (I1 & H & H') [R1 _] I2. split; [exact I2|].
    split; [apply (K0stable (d_base d))|apply (Rstable p (d_base d))]; auto; try apply I1; apply I2.
  Qed.

  Lemma populate_safe : forall d, KD d -> sh_populated (d_base d) = false ->
    safe ID RD GD (plift (t_populate nan kv two n m t)) (fun r d' => r = Ok tt /\ exists p, RyD p d') d.
  Proof.
    intros d [I1 H] E. eapply safe_weaken; [|apply (lift_safe _ _ d (Hpop (d_base d) (proj1 I1) H E))].
    intros r d' I2 (-> & H2 & p & H3). split; [reflexivity|]. exists p. split; [exact I2|]. auto.
  Qed.

  Lemma KD_ready : forall d, KD d -> sh_populated (d_base d) = true -> exists p, RyD p d.
  Proof.
    intros d [I1 H] E. destruct (Hpop' _ (proj1 I1) H E) as (p & Hp). exists p. split; [exact I1|]. auto.
  Qed.

  Lemma d_populate_safe : forall d, KD d ->
    safe ID RD GD (d_populate N kv two n m t) (fun r d' => r = Ok tt /\ exists p, RyD p d') d.
  Proof.
    intros d H. unfold d_populate. apply safe_bread; auto. intros d1 R1 I1.
    apply (KD_stable _ d1) in H; auto. destruct (sh_populated (d_base d1)) eqn:E; cbn [negb pwhen].
    - apply safe_ret. intros d2 R2 I2. split; [reflexivity|]. destruct (KD_ready _ H E) as (p & Hp). exists p.
      exact (RyD_stable _ _ _ Hp R2 I2).
    - now apply populate_safe.
  Qed.

  Lemma rebuilt : mkMat n m (reshape n m (map (fun q => mget nan (amat K) (fst q) (snd q))
                                             (product (seq 0 n) (seq 0 m)))) = amat K.
  Proof.
    pose proof (reshape_product (mget nan (amat K)) (seq 0 n) (seq 0 m)) as H. rewrite !seq_length in H. rewrite H.
    unfold the_matrix. cbn [amat]. symmetry. rewrite (mat_ext nan n m _ (fun i j => mget nan (tabulate n m
       (fun i j => match pair_value kv two i j with Ok v => v | Raise _ => nan end)) i j)) at 1;
      [reflexivity|apply tabulate_wf|auto].
  Qed.

  Lemma entries_safe : forall p d, RyD p d ->
    safe ID RD GD (d_entries N n m p) (fun r d' => r = Ok K /\ RyD p d') d.
  Proof.
    intros p d H. unfold d_entries.
    apply safe_seq with (Q1 := fun r d' => match r with
       | Ok vs => RyD p d' /\ vs = map (fun q => mget nan (amat K) (fst q) (snd q)) (product (seq 0 n) (seq 0 m))
       | Raise _ => False end); [exact RDrefl| | |].
    - eapply safe_weaken; [|apply (safe_map ID RD GD RDrefl _
        (fun pre vs d' => RyD p d' /\ vs = map (fun q => mget nan (amat K) (fst q) (snd q)) pre)
        (fun _ _ => False) (product (seq 0 n) (seq 0 m)))].
      + intros [vs|e] d' _ H'; exact H'.
      + intros pre vs d1 d2 R2 I2 [H1 E1]. split; [exact (RyD_stable _ _ _ H1 R2 I2)|exact E1].
      + intros pre q post vs d1 _ I1 [H1 ->]. apply safe_read; auto. intros d2 d3 R2 I2 R3 I3.
        apply (RyD_stable _ _ d2) in H1; auto. split; [exact (RyD_stable _ _ _ H1 R3 I3)|].
        rewrite map_app. cbn [map]. destruct H1 as (_ & _ & _ & E & _). now rewrite E.
      + split; [exact H|reflexivity].
    - intros vs d1 _ [H1 ->]. apply safe_ret. intros d2 R2 I2. split; [|exact (RyD_stable _ _ _ H1 R2 I2)].
      rewrite rebuilt. reflexivity.
    - intros e d1 _ [].
  Qed.

  Lemma load_ref_safe : forall {C} p (k : nat -> prog D C) Q d, RyD p d ->
    (forall d', RyD p d' -> safe ID RD GD (k p) Q d') ->
    safe ID RD GD (pbind (plift t_load) k) Q d.
  Proof.
    intros C p k Q d H Hk. apply safe_seq with (Q1 := fun r d' => r = Ok p /\ RyD p d'); [exact RDrefl| | |].
    - unfold t_load. cbn [plift pbind read]. intros d1 R1 I1. apply (RyD_stable _ _ d1) in H; auto.
      assert (Ef : sh_full (d_base d1) = Some p) by apply H.
      split; [|split].
      + destruct d1. exact I1.
      + destruct d1. apply GDrefl.
      + rewrite Ef. cbn [plift pret]. apply safe_ret. intros d2 R2 I2. split; [reflexivity|].
        apply (RyD_stable _ d1); auto.
    - intros q d1 _ [E H1]. injection E as ->. auto.
    - intros e d1 _ [E _]. discriminate E.
  Qed.

  Lemma array_safe : forall p d, RyD p d -> safe ID RD GD (d_array N n m) (fun r d' => r = Ok K /\ RyD p d') d.
  Proof. intros p d H. unfold d_array. apply (load_ref_safe p); [exact H|]. intros d1 H1. now apply entries_safe. Qed.

  Lemma diagonal_safe : forall which k c p d, RyD p d ->
    safe ID RD GD (d_diagonal t which k c) (fun r d' => r = rmap k (seq 0 c) /\ RyD p d') d.
  Proof.
    intros which k c p. unfold d_diagonal. generalize (seq 0 c) as l. induction l as [|i l IH]; intros d H; cbn [pmap rmap].
    - apply safe_ret. intros d1 R1 I1. split; [reflexivity|exact (RyD_stable _ _ _ H R1 I1)].
    - cbn [pbind write]. intros d1 R1 I1. apply (RyD_stable _ _ d1) in H; auto.
      set (d2 := put_self ((t, which, i) :: d_self d1) d1).
      assert (H2 : RyD p d2) by exact H.
      split; [exact (proj1 H2)|]. split; [exact (GDrefl d1)|].
      cbn [pbind pret]. destruct (k i) as [v|e]; cbn [pbind rbind].
      + eapply safe_seq; [exact RDrefl|exact (IH d2 H2)| |].
        * intros vs d3 _ [E H3]. apply safe_ret. intros d4 R4 I4. rewrite <- E. cbn [rbind].
          split; [reflexivity|exact (RyD_stable _ _ _ H3 R4 I4)].
        * intros e d3 _ [E H3]. rewrite <- E. cbn [rbind]. auto.
      + apply safe_ret. intros d3 R3 I3. split; [reflexivity|exact (RyD_stable _ _ _ H2 R3 I3)].
  Qed.

  Lemma two_cases : {two = true} + {two = false}.
  Proof. destruct two; auto. Qed.

  (** The normalised matrix, before it is assigned. *)
  Lemma compute_safe : forall p d, RyD p d ->
    safe ID RD GD (if negb two
              then pbind (d_array N n m) (fun a => Ret (op_normalize N "cosine"%string a))
              else pbind (plift t_load) (fun p =>
                   pbind (d_diagonal t true kx n) (fun dx =>
                   pbind (d_diagonal t false ky m) (fun dy =>
                   pbind (d_entries N n m p) (fun a => Ret (op_normalize2 N a dx dy))))))
      (fun r d' => r = rnorm /\ RyD p d') d.
  Proof.
    intros p d H. unfold right_normed. destruct two_cases as [E2|E2].
    - rewrite (if_true _ _ two E2). rewrite (if_false _ _ (negb two)) by now rewrite E2.
      apply (load_ref_safe p); [exact H|]. intros d1 H1.
      eapply safe_seq; [exact RDrefl|exact (diagonal_safe true kx n p d1 H1)| |].
      + intros dx d2 _ [Ex H2]. rewrite <- Ex. cbn [rbind].
        eapply safe_seq; [exact RDrefl|exact (diagonal_safe false ky m p d2 H2)| |].
        * intros dy d3 _ [Ey H3]. rewrite <- Ey. cbn [rbind].
          eapply safe_seq; [exact RDrefl|exact (entries_safe p d3 H3)| |].
          -- intros a d4 _ [Ea H4]. injection Ea as ->. apply safe_ret. intros d5 R5 I5.
             split; [reflexivity|exact (RyD_stable _ _ _ H4 R5 I5)].
          -- intros e d4 _ [E _]. discriminate E.
        * intros e d3 _ [Ey H3]. rewrite <- Ey. cbn [rbind]. auto.
      + intros e d2 _ [Ex H2]. rewrite <- Ex. cbn [rbind]. auto.
    - rewrite (if_false _ _ two E2). rewrite (if_true _ _ (negb two)) by now rewrite E2.
      eapply safe_seq; [exact RDrefl|exact (array_safe p d H)| |].
      + intros a d4 _ [Ea H4]. injection Ea as ->. apply safe_ret. intros d5 R5 I5.
        split; [reflexivity|exact (RyD_stable _ _ _ H4 R5 I5)].
      + intros e d4 _ [E _]. discriminate E.
  Qed.

  (** ** Assignments *)
  Lemma put_normed_ok : forall d a, ID d -> rnorm = Ok a ->
    ID (put_normed (Some a) d) /\ GD d (put_normed (Some a) d) /\ nset (put_normed (Some a) d).
  Proof.
    intros d a (I1 & (D1 & D2 & D3) & L1) E.
    assert (Ns : nset (put_normed (Some a) d)) by (exists a; auto).
    split; [|split; [|exact Ns]].
    - split; [exact I1|]. split; [|exact L1]. split; [auto|]. split; assumption.
    - split; [apply GBrefl|]. split; [auto|]. split; auto.
  Qed.
  Lemma put_is_normed_ok : forall d, ID d -> nset d -> ID (put_is_normed true d) /\ GD d (put_is_normed true d).
  Proof.
    intros d (I1 & (D1 & D2 & D3) & L1) E. split.
    - split; [exact I1|]. split; [|exact L1]. split; [auto|]. split; assumption.
    - split; [apply GBrefl|]. split; [auto|]. split; auto.
  Qed.
  Lemma put_centered_ok : forall d a, ID d -> rcent = Ok a ->
    ID (put_centered (Some a) d) /\ GD d (put_centered (Some a) d) /\ cset (put_centered (Some a) d).
  Proof.
    intros d a (I1 & (D1 & D2 & D3) & L1) E.
    assert (Ns : cset (put_centered (Some a) d)) by (exists a; auto).
    split; [|split; [|exact Ns]].
    - split; [exact I1|]. split; [|exact L1]. split; [auto|]. split; auto.
    - split; [apply GBrefl|]. split; [auto|]. split; auto.
  Qed.
  Lemma put_is_centered_ok : forall d, ID d -> cset d -> ID (put_is_centered true d) /\ GD d (put_is_centered true d).
  Proof.
    intros d (I1 & (D1 & D2 & D3) & L1) E. split.
    - split; [exact I1|]. split; [|exact L1]. split; [auto|]. split; auto.
    - split; [apply GBrefl|]. split; [auto|]. split; auto.
  Qed.
  Lemma put_frob_ok : forall d v, ID d -> rfrob = Ok v ->
    ID (put_frob (Some v) d) /\ GD d (put_frob (Some v) d) /\ fset (put_frob (Some v) d).
  Proof.
    intros d v (I1 & (D1 & D2 & D3) & L1) E.
    assert (Ns : fset (put_frob (Some v) d)) by (exists v; auto).
    split; [|split; [|exact Ns]].
    - split; [exact I1|]. split; [|exact L1]. split; [auto|]. split; auto.
    - split; [apply GBrefl|]. split; [auto|]. split; auto.
  Qed.

  Lemma load_safe_d : forall {A} (f : D -> option A) (X : D -> Prop) (r0 : res A) d,
    (forall d d', X d -> RD d d' -> ID d' -> X d') -> KD d -> X d ->
    (forall d, X d -> exists a, f d = Some a /\ r0 = Ok a) ->
    safe ID RD GD (load f) (fun r d' => r = r0 /\ KD d') d.
  Proof.
    intros A f X r0 d St HK HX Hf. unfold load. apply safe_bread; auto. intros d1 R1 I1.
    destruct (Hf d1 (St _ _ HX R1 I1)) as (a & -> & ->). apply safe_ret. intros d2 R2 I2.
    split; [reflexivity|]. apply (KD_stable d1); auto. exact (KD_stable _ _ HK R1 I1).
  Qed.
  Lemma RyD_KD : forall p d, RyD p d -> KD d.
  Proof. intros p d (A & C & _). split; assumption. Qed.
  Lemma nset_stable : forall d d', nset d -> RD d d' -> ID d' -> nset d'.
  Proof. intros d d' H (_ & A & _) _. auto. Qed.
  Lemma cset_stable : forall d d', cset d -> RD d d' -> ID d' -> cset d'.
  Proof. intros d d' H (_ & _ & A & _) _. auto. Qed.
  Lemma fset_stable : forall d d', fset d -> RD d d' -> ID d' -> fset d'.
  Proof. intros d d' H (_ & _ & _ & A) _. auto. Qed.

  (** ** Requests *)
  Definition upto {A} (r0 : res A) (X : D -> Prop) (r : res unit) (d : D) : Prop :=
    KD d /\ match r with Ok _ => X d | Raise e => r0 = Raise e end.

  Lemma normalize_safe : forall d, KD d ->
    safe ID RD GD (d_normalize N kv kx ky two n m t) (upto rnorm nset) d.
  Proof.
    intros d H. unfold d_normalize.
    eapply safe_seq; [exact RDrefl|exact (d_populate_safe d H)| |]; [|intros e d1 _ [E _]; discriminate E].
    intros [] d1 _ (_ & p & H1). apply safe_bread; auto. intros d2 R2 I2. apply (RyD_stable _ _ d2) in H1; auto.
    destruct (d_is_normed d2) eqn:E; cbn [negb pwhen].
    - apply safe_ret. intros d3 R3 I3. split; [exact (RyD_KD _ _ (RyD_stable _ _ _ H1 R3 I3))|].
      apply (nset_stable d2); auto. apply (proj1 (proj2 I2)), E.
    - eapply safe_seq; [exact RDrefl|exact (compute_safe p d2 H1)| |].
      + intros nk d3 _ [Ek H3]. apply safe_bwrite. intros d4 R4 I4. apply (RyD_stable _ _ d4) in H3; auto.
        destruct (put_normed_ok d4 nk I4 (eq_sym Ek)) as (I5 & G5 & N5). split; [exact I5|]. split; [exact G5|].
        apply safe_bwrite. intros d6 R6 I6. assert (N6 := nset_stable _ _ N5 R6 I6).
        assert (H5 : RyD p (put_normed (Some nk) d4)) by (split; [exact I5|apply H3]).
        apply (RyD_stable _ _ d6) in H5; auto. destruct (put_is_normed_ok d6 I6 N6) as (I7 & G7).
        split; [exact I7|]. split; [exact G7|].
        assert (N7 : nset (put_is_normed true d6)) by exact N6.
        unfold load. cbn [pbind]. apply safe_bread; auto. intros d8 R8 I8.
        destruct (nset_stable _ _ N7 R8 I8) as (a & -> & Ea). cbn [pbind pret].
        apply safe_ret. intros d9 R9 I9. assert (R79 := RDtrans _ _ _ R8 R9).
        split; [|exact (nset_stable _ _ N7 R79 I9)].
        apply (KD_stable (put_is_normed true d6)); auto. split; [exact I7|]. apply H5.
      + intros e d3 _ [Ek H3]. split; [exact (RyD_KD _ _ H3)|now symmetry].
  Qed.

  Lemma normed_km_safe : forall d, KD d ->
    safe ID RD GD (d_normed_km N kv kx ky two n m t) (fun r d' => r = rnorm /\ KD d') d.
  Proof.
    intros d H. unfold d_normed_km. apply safe_bread; auto. intros d1 R1 I1. apply (KD_stable _ d1) in H; auto.
    apply safe_seq with (Q1 := upto rnorm nset); [exact RDrefl| | |].
    - destruct (d_is_normed d1) eqn:E; cbn [negb pwhen]; [|now apply normalize_safe].
      apply safe_ret. intros d2 R2 I2. split; [exact (KD_stable _ _ H R2 I2)|].
      apply (nset_stable d1); auto. apply (proj1 (proj2 I1)), E.
    - intros [] d2 _ (H2 & N2). apply (load_safe_d _ nset); auto. exact nset_stable.
    - intros e d2 _ (H2 & N2). auto.
  Qed.

  Lemma full_safe : forall d, KD d ->
    safe ID RD GD (d_full N kv kx ky two n m t) (fun r d' => r = rnorm /\ KD d') d.
  Proof.
    intros d H. unfold d_full.
    eapply safe_seq; [exact RDrefl|exact (d_populate_safe d H)| |]; [|intros e d1 _ [E _]; discriminate E].
    intros [] d1 _ (_ & p & H1). apply normed_km_safe. exact (RyD_KD _ _ H1).
  Qed.

  Lemma frob_safe : forall d, KD d ->
    safe ID RD GD (d_frob_norm N kv two n m t) (fun r d' => r = rfrob /\ KD d') d.
  Proof.
    intros d H. unfold d_frob_norm.
    eapply safe_seq; [exact RDrefl|exact (d_populate_safe d H)| |]; [|intros e d1 _ [E _]; discriminate E].
    intros [] d1 _ (_ & p & H1). apply safe_bread; auto. intros d2 R2 I2. apply (RyD_stable _ _ d2) in H1; auto.
    apply safe_seq with (Q1 := upto rfrob fset); [exact RDrefl| | |].
    - destruct (d_frob d2) as [v|] eqn:E; cbn [is_some negb pwhen].
      + apply safe_ret. intros d3 R3 I3. split; [exact (RyD_KD _ _ (RyD_stable _ _ _ H1 R3 I3))|].
        apply (fset_stable d2); auto. apply (proj2 (proj2 (proj1 (proj2 I2)))). congruence.
      + eapply safe_seq; [exact RDrefl|exact (array_safe p d2 H1)| |]; [|intros e d3 _ [E' _]; discriminate E'].
        intros a d3 _ [Ea H3]. injection Ea as ->. fold rfrob. change (op_frob N K) with rfrob.
        destruct rfrob as [v|e] eqn:Ev; cbn [pbind].
        * apply safe_write. intros d4 R4 I4. apply (RyD_stable _ _ d4) in H3; auto.
          destruct (put_frob_ok d4 v I4 Ev) as (I5 & G5 & N5). split; [exact I5|]. split; [exact G5|].
          intros d6 R6 I6. split; [|exact (fset_stable _ _ N5 R6 I6)].
          apply (KD_stable (put_frob (Some v) d4)); auto. split; [exact I5|]. apply H3.
        * apply safe_ret. intros d4 R4 I4. split; [exact (RyD_KD _ _ (RyD_stable _ _ _ H3 R4 I4))|reflexivity].
    - intros [] d3 _ (H3 & N3). apply (load_safe_d _ fset); auto. exact fset_stable.
    - intros e d3 _ (H3 & N3). auto.
  Qed.

  Lemma set_ref_same : forall p (s : Sh), sh_full s = Some p -> set_ref p s = s.
  Proof. intros p [f h a b c e o q l] E. cbn in E. subst f. reflexivity. Qed.
  Lemma put_base_same : forall (d : D), put_base (d_base d) d = d.
  Proof. intros []. reflexivity. Qed.

  Lemma center_safe : forall d, two = false -> KD d ->
    safe ID RD GD (d_center N kv two n m t) (upto rcent cset) d.
  Proof.
    intros d E2 H. unfold d_center. rewrite (if_false _ _ two E2). apply safe_bread; auto. intros d1 R1 I1.
    apply (KD_stable _ d1) in H; auto.
    apply safe_seq with (Q1 := fun r d' => r = Ok tt /\ exists p, RyD p d'); [exact RDrefl| | |].
    - destruct (sh_populated (d_base d1)) eqn:E; cbn [negb pwhen].
      + apply safe_ret. intros d2 R2 I2. split; [reflexivity|]. destruct (KD_ready _ H E) as (p & Hp). exists p.
        exact (RyD_stable _ _ _ Hp R2 I2).
      + eapply safe_seq; [exact RDrefl|exact (populate_safe d1 H E)| |]; [|intros e d2 _ [E' _]; discriminate E'].
        intros [] d2 _ (_ & p & H2). apply (load_ref_safe p); [exact H2|]. intros d3 H3. cbn [plift write].
        intros d4 R4 I4. apply (RyD_stable _ _ d4) in H3; auto.
        assert (Ef : sh_full (d_base d4) = Some p) by apply H3. rewrite (set_ref_same p _ Ef), put_base_same.
        split; [exact I4|]. split; [apply GDrefl|]. cbn [plift pret]. apply safe_ret. intros d5 R5 I5.
        split; [reflexivity|]. exists p. exact (RyD_stable _ _ _ H3 R5 I5).
    - intros [] d2 _ (_ & p & H2).
      eapply safe_seq; [exact RDrefl|exact (array_safe p d2 H2)| |]; [|intros e d3 _ [E' _]; discriminate E'].
      intros a d3 _ [Ea H3]. injection Ea as ->.
      assert (Er : rcent = op_center N K) by (unfold right_centered; now rewrite (if_false _ _ two E2)).
      rewrite <- Er. destruct rcent as [c|e] eqn:Ev; cbn [pbind].
      + apply safe_bwrite. intros d4 R4 I4. apply (RyD_stable _ _ d4) in H3; auto.
        destruct (put_centered_ok d4 c I4 Ev) as (I5 & G5 & N5). split; [exact I5|]. split; [exact G5|].
        apply safe_write. intros d6 R6 I6. assert (N6 := cset_stable _ _ N5 R6 I6).
        assert (H5 : RyD p (put_centered (Some c) d4)) by (split; [exact I5|apply H3]).
        apply (RyD_stable _ _ d6) in H5; auto. destruct (put_is_centered_ok d6 I6 N6) as (I7 & G7).
        split; [exact I7|]. split; [exact G7|]. intros d8 R8 I8.
        split; [|exact (cset_stable (put_is_centered true d6) d8 N6 R8 I8)].
        apply (KD_stable (put_is_centered true d6)); auto. split; [exact I7|]. apply H5.
      + apply safe_ret. intros d4 R4 I4. split; [exact (RyD_KD _ _ (RyD_stable _ _ _ H3 R4 I4))|reflexivity].
    - intros e d2 _ [E _]. discriminate E.
  Qed.

  Lemma centered_safe : forall d, KD d ->
    safe ID RD GD (d_centered_km N kv two n m t) (fun r d' => r = rcent /\ KD d') d.
  Proof.
    intros d H. unfold d_centered_km. destruct two_cases as [E2|E2].
    - rewrite (if_true _ _ two E2). apply safe_ret. intros d1 R1 I1.
      split; [unfold right_centered; now rewrite (if_true _ _ two E2)|exact (KD_stable _ _ H R1 I1)].
    - rewrite (if_false _ _ two E2). apply safe_bread; auto. intros d1 R1 I1. apply (KD_stable _ d1) in H; auto.
      apply safe_seq with (Q1 := upto rcent cset); [exact RDrefl| | |].
      + destruct (d_is_centered d1) eqn:E; cbn [negb pwhen]; [|now apply center_safe].
        apply safe_ret. intros d2 R2 I2. split; [exact (KD_stable _ _ H R2 I2)|].
        apply (cset_stable d1); auto. apply (proj1 (proj2 (proj1 (proj2 I1)))), E.
      + intros [] d2 _ (H2 & N2). apply (load_safe_d _ cset); auto. exact cset_stable.
      + intros e d2 _ (H2 & N2). auto.
  Qed.

  Lemma map_safe : forall {A} (p : prog D A) (f : A -> dout V) r0 d,
    safe ID RD GD p (fun r d' => r = r0 /\ KD d') d ->
    safe ID RD GD (pbind p (fun a => pret (f a))) (fun r d' => r = rbind r0 (fun a => Ok (f a)) /\ KD d') d.
  Proof.
    intros A p f r0 d H. eapply safe_seq; [exact RDrefl|exact H| |].
    - intros a d1 _ [<- H1]. apply safe_ret. intros d2 R2 I2. split; [reflexivity|exact (KD_stable _ _ H1 R2 I2)].
    - intros e d1 _ [<- H1]. split; [reflexivity|exact H1].
  Qed.

  Lemma d_op_safe : forall o d, KD d -> as_base keep o = None ->
    safe ID RD GD (d_op N kv kx ky two n m t o) (fun r d' => r = right_answer N kv kx ky two n m o /\ KD d') d.
  Proof.
    intros o d H E. destruct o as [rows cols| | | | |]; cbn in E; try discriminate E; cbn [d_op right_answer];
      apply map_safe; auto using full_safe, normed_km_safe, centered_safe, frob_safe.
  Qed.

  (** A whole thread, given that its requests of ThreadModel.v are safe. *)
  Variable E0 : Prop.
  Lemma base_request_safe : forall b d, KD d ->
    safe B RB GB (thread nan kv two n m t [b]) (fun r s' => match r with Ok _ => K0 s' | Raise _ => E0 end) (d_base d) ->
    safe ID RD GD (plift (thread nan kv two n m t [b])) (fun r d' => match r with Ok _ => KD d' | Raise _ => E0 end) d.
  Proof.
    intros b d H Hb. eapply safe_weaken; [|apply (lift_safe _ _ d Hb)].
    intros [[]|e] d2 I2 K2; [|exact K2]. split; assumption.
  Qed.

  Lemma d_thread_safe : forall ops,
    (forall b o s, In o ops -> as_base keep o = Some b -> B s -> K0 s ->
       safe B RB GB (thread nan kv two n m t [b]) (fun r s' => match r with Ok _ => K0 s' | Raise _ => E0 end) s) ->
    forall d, KD d -> safe ID RD GD (d_thread N kv kx ky two keep n m t ops)
      (fun r d' => match r with Ok _ => KD d' | Raise _ => E0 end) d.
  Proof.
    intros ops Hb d H. unfold d_thread.
    apply (safe_for ID RD GD RDrefl _ (fun _ d' => KD d') (fun _ d' => E0) ops); auto.
    - intros _ d1 d2 R2 I2 H1. exact (KD_stable _ _ H1 R2 I2).
    - intros pre o post d1 El I1 H1. assert (Ho : In o ops) by (rewrite El; apply in_elt).
      unfold d_request. destruct (as_base keep o) as [b|] eqn:E.
      + apply base_request_safe; [exact H1|]. exact (Hb b o (d_base d1) Ho E (proj1 I1) (proj2 H1)).
      + apply safe_seq with (Q1 := fun r d' => match r with
            | Ok r' => r' = right_answer N kv kx ky two n m o /\ KD d' | Raise _ => False end); [exact RDrefl| | |].
        * apply safe_catch. cbv beta iota. now apply d_op_safe.
        * intros r d2 _ [-> H2]. apply safe_write. intros d3 R3 I3. apply (KD_stable _ d3) in H2; auto.
          set (d4 := put_log _ d3).
          assert (I4 : ID d4).
          { destruct I3 as (A1 & A2 & A3). split; [exact A1|]. split; [exact A2|].
            intros u o' r' [E'|Hin]; [injection E' as <- <- <-; reflexivity|exact (A3 u o' r' Hin)]. }
          split; [exact I4|]. split; [split; [apply GBrefl|exact (dgrow_refl d3)]|]. intros d5 R5 I5.
          apply (KD_stable d4); auto. split; [exact I4|]. apply H2.
        * intros e d2 _ [].
  Qed.

  (** A thread with requests of ThreadModel.v only. *)
  Lemma base_thread_safe : forall ops,
    (forall o, In o ops -> exists b, as_base keep o = Some b /\ forall s, B s -> K0 s ->
       safe B RB GB (thread nan kv two n m t [b]) (fun r s' => match r with Ok _ => K0 s' | Raise _ => E0 end) s) ->
    forall d, KD d -> safe ID RD GD (d_thread N kv kx ky two keep n m t ops)
      (fun r d' => match r with Ok _ => KD d' | Raise _ => E0 end) d.
  Proof.
    intros ops Hb d H. unfold d_thread.
    apply (safe_for ID RD GD RDrefl _ (fun _ d' => KD d') (fun _ d' => E0) ops); auto.
    - intros _ d1 d2 R2 I2 H1. exact (KD_stable _ _ H1 R2 I2).
    - intros pre o post d1 El I1 H1. assert (Ho : In o ops) by (rewrite El; apply in_elt).
      unfold d_request. destruct (Hb o Ho) as (b & E & K1). rewrite E.
      apply base_request_safe; [exact H1|]. exact (K1 (d_base d1) (proj1 I1) (proj2 H1)).
  Qed.
End Request.

(** Two invariants at once. *)
Lemma safe_and : forall {S A} (I I' : S -> Prop) (R R' G G' : S -> S -> Prop) (p : prog S A) Q Q' s,
  safe I R G p Q s -> safe I' R' G' p Q' s ->
  safe (fun s => I s /\ I' s) (fun a b => R a b /\ R' a b) (fun a b => G a b /\ G' a b) p
    (fun r s => Q r s /\ Q' r s) s.
Proof.
  intros S A I I' R R' G G' p Q Q'. induction p as [r|u nx IH]; intros s H H'; cbn in *.
  - intros s' [R1 R2] [I1 I2]. auto.
  - intros s' [R1 R2] [I1 I2]. destruct (H s' R1 I1) as (A1 & A2 & A3), (H' s' R2 I2) as (B1 & B2 & B3).
    repeat split; auto.
Qed.
