(** C108: the normalised and the centred matrix and the norm, read by several threads. *)
From Coq Require Import List Arith Bool Lia String.
Import ListNotations.
From Verif Require Import Prelude MatModel MatFacts UtilsModel KMModel KMFacts KMGet KMHist ThreadModel SpecThread ThreadFacts ThreadProps
  ThreadSeqProps
  ThreadDerivedModel SpecThreadDerived ThreadDerivedFacts.

Section Single.
  Context {V : Type}.
  Variable N : numops V.
  Variable kv : nat -> nat -> res V.
  Variables kx ky : nat -> res V.
  Variables two keep : bool.
  Variables n m : nat.
  Hypothesis Hshape : two = false -> n = m.
  Hypothesis Ht : total kv n m.
  Notation nan := (v_nan N).
  Notation K := (the_matrix nan kv two n m).
  Notation Sh := (shared V).
  Notation at_ := (array_at nan n m).

  Lemma complete_matrix : forall A, all_complete nan kv two n m A -> A = amat K.
  Proof.
    intros A [W H]. unfold the_matrix. cbn [amat]. apply (mat_ext nan); [exact W|].
    intros i j Hi Hj. now rewrite (H i j Hi Hj).
  Qed.

  Variable t0 : nat.
  Definition alone_writes : nat -> Prop := fun u => u = t0.
  Notation W := alone_writes.
  Notation B := (Inv nan kv two n m W).
  Notation RB := (Rely nan kv two n m W).
  Notation GB := (Guar nan kv two n m W).
  Notation K0 := (K_done nan kv two n m W).

  Lemma sole0 : sole W t0.
  Proof. intros u Hu E. exact (Hu E). Qed.

  Lemma done_ready : forall s, K0 t0 s -> sh_populated s = true ->
    exists p, readyp N kv two n m p s /\ known two (product (seq 0 n) (seq 0 m)) s.
  Proof.
    intros s (_ & _ & D) E. destruct (D sole0 Ht) as [(_ & E' & _)|(p & P1 & P2 & P3 & P4 & P5 & P6)]; [congruence|].
    exists p. split; [|exact P5]. split; [exact P1|]. split; [now apply complete_matrix|exact P2].
  Qed.

  Lemma ready_stable : forall p s s', RB t0 s s' -> readyp N kv two n m p s -> readyp N kv two n m p s'.
  Proof.
    intros p s s' R1 (A1 & A2 & A3). destruct (r_same _ _ _ _ _ _ _ _ _ R1 sole0) as (E1 & E2 & E3 & E4).
    split; [congruence|]. split; [|congruence]. unfold array_at in *. now rewrite E2.
  Qed.

  Lemma sole_populate : forall s, B s -> K0 t0 s -> sh_populated s = false ->
    safe B (RB t0) (GB t0) (t_populate nan kv two n m t0)
      (fun r s' => r = Ok tt /\ K0 t0 s' /\ ready N kv two n m s') s.
  Proof.
    intros s I1 (S1 & M1 & D1) _. unfold t_populate.
    assert (Nr : forall e, ~ (e = RuntimeError /\ raises kv two n m)).
    { intros e [_ (i & j & e' & Hi & Hj & E)]. exact (no_raise kv two n m Hshape i j e' Hi Hj E Ht). }
    eapply safe_seq; [apply R_refl| | |].
    - apply (upper_safe nan kv two n m W Hshape t0 s eq_refl I1 S1 M1 D1).
    - intros [] s2 I2 K2. eapply safe_seq; [apply R_refl| | |].
      + apply (lower_safe nan kv two n m W Hshape t0 s2 eq_refl I2 K2).
      + intros [] s3 I3 [K3 F3]. apply (load_safe nan kv two n m W t0); [exact F3|]. intros s4 p R4 I4 E4.
        apply safe_ret. intros s5 R5 I5. assert (R35 := R_trans _ _ _ _ _ _ Hshape _ _ _ _ R4 R5).
        assert (K5 := K_done_stable _ _ _ _ _ _ Hshape _ _ _ I3 R35 I5 K3).
        split; [reflexivity|]. split; [exact K5|].
        assert (E5 : sh_full s5 <> None).
        { destruct (r_same _ _ _ _ _ _ _ _ _ R35 sole0) as (E & _). now rewrite E. }
        destruct K5 as (_ & _ & D5). destruct (D5 sole0 Ht) as [(E' & _)|(p' & P1 & P2 & P3 & P4 & P5 & P6)]; [congruence|].
        exists p'. split; [exact P1|]. split; [now apply complete_matrix|exact P2].
      + intros e s3 _ H. destruct (Nr e H).
    - intros e s2 _ H. destruct (Nr e H).
  Qed.

  Lemma base_request : forall t b s, valid_rop n m b -> (b = ROFull -> W t) -> B s -> K0 t s ->
    safe B (RB t) (GB t) (thread nan kv two n m t [b])
      (fun r s' => match r with Ok _ => K0 t s' | Raise _ => False end) s.
  Proof.
    intros t b s Hv Hw I1 K1.
    eapply safe_weaken; [|apply (thread_safe nan kv two n m W Hshape t [b] s)]; auto.
    - intros r s' _ [-> H]. exact H.
    - intros o [<-|[]]. auto.
  Qed.

  Lemma d_pool_from : forall work a t p,
    nth_error (map (fun q => d_thread N kv kx ky two keep n m (fst q) (snd q)) (combine (seq a (List.length work)) work)) t = Some p ->
    exists ops, nth_error work t = Some ops /\ p = d_thread N kv kx ky two keep n m (a + t) ops.
  Proof.
    clear. induction work as [|ops work IH]; intros a t p E; [destruct t; discriminate E|].
    cbn [List.length seq combine map] in E. destruct t as [|t]; cbn [nth_error] in E.
    - injection E as <-. exists ops. split; [reflexivity|]. now rewrite Nat.add_0_r.
    - destruct (IH (S a) t p E) as (ops' & E1 & E2). exists ops'. split; [exact E1|].
      rewrite E2. f_equal. lia.
  Qed.

  Lemma valid_base : forall work ops o b, d_valid n m work -> In ops work -> In o ops -> as_base keep o = Some b ->
    valid_rop n m b.
  Proof.
    clear. intros work ops o b Hv Ho Hin E. destruct o as [rows cols| | | | |]; cbn in E; try discriminate E.
    - injection E as <-. exact (Hv ops rows cols Ho Hin).
    - injection E as <-. exact I.
    - destruct keep; [discriminate E|]. injection E as <-. exact I.
  Qed.

  Notation IDn := (ID N kv kx ky two n m).
  Notation RDn := (RD N kv kx ky two n m).
  Notation GDn := (GD N kv kx ky two n m).

  Lemma single_run : forall work d0 schedule, d_valid n m work ->
    (forall u, u <> t0 -> only_elements (nth u work [])) ->
    d_base d0 = attached -> nothing_derived d0 ->
    d_all_safe (IDn B) (fun t => RDn (RB t)) (fun t => GDn (GB t))
      (fun t r d => match r with Ok _ => KD N kv kx ky two n m B (K0 t) d | Raise _ => False end)
      (d_execute N kv kx ky two keep n m work d0 schedule).
  Proof.
    intros work d0 schedule Hv Ho Hb (F1 & F2 & F3 & F4). unfold d_execute. apply d_run_safe.
    - intros t s. apply RDrefl. apply R_refl.
    - intros t a b c H1 H2. eapply RDtrans; try eassumption. intros x y z. apply (R_trans _ _ _ _ _ _ Hshape).
    - intros t u a b Hn [H1 H2]. split; [exact (G_R _ _ _ _ _ _ _ _ _ _ Hn H1)|exact H2].
    - assert (I0 : IDn B d0).
      { split; [rewrite Hb; apply attached_inv|]. split.
        - split; [congruence|]. split; congruence.
        - intros t o r Hin. rewrite F4 in Hin. destruct Hin. }
      split; cbn [fst snd]; [exact I0|]. intros t p Hp.
      destruct (d_pool_from work 0 t p Hp) as (ops & E1 & ->). cbn [Nat.add].
      assert (Hin := nth_error_In _ _ E1).
      assert (K1 : KD N kv kx ky two n m B (K0 t) d0).
      { split; [exact I0|]. rewrite Hb. apply attached_done. }
      destruct (Nat.eq_dec t t0) as [->|Hn].
      + apply (d_thread_safe N kv kx ky two keep n m B (RB t0) (GB t0) (K0 t0) t0); auto.
        * apply R_refl.
        * intros a b c. apply (R_trans _ _ _ _ _ _ Hshape).
        * apply G_refl.
        * intros s s' A1 A2 A3. exact (K_done_stable _ _ _ _ _ _ Hshape _ _ _ A1 A2 A3).
        * intros q s s' _ A2 _. now apply ready_stable.
        * apply sole_populate.
        * intros s _ A2 A3. destruct (done_ready s A2 A3) as (q & Q1 & _). now exists q.
        * intros b o s Hi Eb. apply base_request; [exact (valid_base work ops o b Hv Hin Hi Eb)|reflexivity].
      + apply (base_thread_safe N kv kx ky two keep n m B (RB t) (GB t) (K0 t) t); auto.
        * apply R_refl.
        * intros s s' A1 A2 A3. exact (K_done_stable _ _ _ _ _ _ Hshape _ _ _ A1 A2 A3).
        * intros o Hi. specialize (Ho t Hn). rewrite (nth_error_nth _ _ _ E1) in Ho.
          destruct (Ho o Hi) as [->|(rows & cols & ->)]; cbn [as_base];
            (eexists; split; [reflexivity|]; intros s; apply base_request; [|discriminate]).
          -- exact I.
          -- exact (Hv ops rows cols Hin Hi).
  Qed.
End Single.

(** One thread may ask for anything, the others read elements and the diagonal: under every schedule the
    normalised matrix, the centred matrix and the norm it gets are those of the kernel matrix, the matrix
    itself is complete, and what the others get is right, too. The attributes may hold what an earlier
    sample left. *)
Lemma pf_C108_single : forall V (N : numops V) kv kx ky two keep n m work d0 schedule t,
  (two = false -> n = m) -> total kv n m -> d_valid n m work ->
  (forall u, u <> t -> only_elements (nth u work [])) ->
  d_base d0 = attached -> nothing_derived d0 ->
  let d := snd (d_execute N kv kx ky two keep n m work d0 schedule) in
  (forall u o r, In (u, o, r) (d_log d) -> r = right_answer N kv kx ky two n m o) /\
  (forall u o r, In (u, o, r) (sh_log (d_base d)) -> outcome_ok (v_nan N) kv two n m (d_base d) o r) /\
  (forall o p, In (t, o, Ok (RRef p)) (sh_log (d_base d)) ->
     mkArr Dense (array_at (v_nan N) n m (d_base d) p) = the_matrix (v_nan N) kv two n m).
Proof.
  intros V N kv kx ky two keep n m work d0 schedule t Hs Ht Hv Ho Hb Hn d.
  destruct (single_run N kv kx ky two keep n m Hs Ht t work d0 schedule Hv Ho Hb Hn) as [(HI & HD & HL) _].
  fold d in HI, HD, HL. split; [exact HL|]. split.
  - intros u o r. exact (i_log _ _ _ _ _ _ _ HI u o r).
  - intros o p Hin. destruct (i_sole _ _ _ _ _ _ _ HI t p (sole0 t) Ht (ex_intro _ o Hin)) as [A _].
    rewrite (complete_matrix N kv two n m _ A). reflexivity.
Qed.

Section After.
  Context {V : Type}.
  Variable N : numops V.
  Variable kv : nat -> nat -> res V.
  Variables kx ky : nat -> res V.
  Variables two keep : bool.
  Variables n m : nat.
  Hypothesis Hshape : two = false -> n = m.
  Hypothesis Ht : total kv n m.
  Notation nan := (v_nan N).
  Notation K := (the_matrix nan kv two n m).
  Notation Sh := (shared V).
  Variable s0 : Sh.
  Variable p0 : nat.
  Hypothesis Hready : readyp N kv two n m p0 s0.
  Hypothesis Hknown : known two (product (seq 0 n) (seq 0 m)) s0.
  Let W : nat -> Prop := fun _ => True.
  Hypothesis Hinv : Inv nan kv two n m W s0.

  Definition BA (s : Sh) : Prop := Inv nan kv two n m W s /\ still s0 p0 s.
  Definition RA (t : nat) (a b : Sh) : Prop := Rely nan kv two n m W t a b /\ True.
  Definition GA (t : nat) (a b : Sh) : Prop := Guar nan kv two n m W t a b /\ True.
  Notation KA := (K_done nan kv two n m W).

  Lemma still_ready : forall s, still s0 p0 s -> readyp N kv two n m p0 s.
  Proof.
    intros s (A1 & A2 & A3 & _). destruct Hready as (B1 & B2 & B3).
    split; [congruence|]. split; [|exact A3]. unfold array_at in *. now rewrite A2.
  Qed.

  Lemma start_done : forall t, KA t s0.
  Proof.
    intros t. split; [|split].
    - intros _ q Hq. destruct (i_calls _ _ _ _ _ _ _ Hinv t Ht) as [_ C].
      destruct (C q Hq) as (i & j & Hi & Hj & ->). apply (Hknown (i, j)), in_product_iff. rewrite !in_seq. lia.
    - intros _ p Ho. split; [apply Hready|]. intros Hf.
      assert (E : p = p0) by (destruct Hready; congruence). subst p.
      apply complete_upper. split.
      + apply (i_heap _ _ _ _ _ _ _ Hinv). apply (i_full _ _ _ _ _ _ _ Hinv). apply Hready.
      + intros i j Hi Hj. destruct Hready as (_ & E & _). unfold right_at. rewrite E. cbn [amat the_matrix].
        rewrite mget_tabulate by assumption. destruct (tot_pv kv two n m Hshape Ht i j Hi Hj) as (v & ->). reflexivity.
    - intros Hs. exfalso. apply (Hs (S t)); [lia|exact I].
  Qed.

  Lemma after_run : forall work d0 schedule, d_valid n m work -> d_base d0 = s0 ->
    dright N kv kx ky two n m d0 -> lright N kv kx ky two n m d0 ->
    ID N kv kx ky two n m BA (snd (d_execute N kv kx ky two keep n m work d0 schedule)).
  Proof.
    intros work d0 schedule Hv Hb HD HL. unfold d_execute.
    refine (proj1 (d_run_safe (ID N kv kx ky two n m BA) (fun t => RD N kv kx ky two n m (RA t))
       (fun t => GD N kv kx ky two n m (GA t)) _ _ _ (fun t r d => match r with
          Ok _ => KD N kv kx ky two n m BA (KA t) d | Raise _ => True end) schedule _ _)).
    - intros t s. apply RDrefl. intros x. split; [apply R_refl|exact I].
    - intros t a b c H1 H2. eapply RDtrans; try eassumption. intros x y z [A _] [C _].
      split; [exact (R_trans _ _ _ _ _ _ Hshape _ _ _ _ A C)|exact I].
    - intros t u a b Hn [[H1 _] H2]. split; [split; [exact (G_R _ _ _ _ _ _ _ _ _ _ Hn H1)|exact I]|exact H2].
    - assert (B0 : BA s0).
      { split; [exact Hinv|]. repeat split; auto. apply Hready. }
      assert (I0 : ID N kv kx ky two n m BA d0) by (split; [rewrite Hb; exact B0|split; assumption]).
      split; cbn [fst snd]; [exact I0|]. intros t p Hp.
      destruct (d_pool_from N kv kx ky two keep n m work 0 t p Hp) as (ops & E1 & ->). cbn [Nat.add].
      assert (Hin := nth_error_In _ _ E1).
      apply (d_thread_safe N kv kx ky two keep n m BA (RA t) (GA t) (KA t) t).
      + intros x. split; [apply R_refl|exact I].
      + intros x y z [A _] [C _]. split; [exact (R_trans _ _ _ _ _ _ Hshape _ _ _ _ A C)|exact I].
      + intros x. split; [apply G_refl|exact I].
      + intros s s' [A1 _] [A2 _] [A3 _]. exact (K_done_stable _ _ _ _ _ _ Hshape _ _ _ A1 A2 A3).
      + intros q s s' [_ A1] _ [_ A2] Hq. destruct (still_ready s A1) as (C1 & _). destruct Hq as (D1 & _).
        assert (q = p0) by congruence. subst q. now apply still_ready.
      + intros s [_ (_ & _ & A & _)] _ E. congruence.
      + intros s [_ A] _ _. exists p0. now apply still_ready.
      + intros b o s Ho Eb [A1 A2] A3. pose proof (valid_base keep n m work ops o b Hv Hin Ho Eb) as Hvb.
        eapply safe_weaken; [|exact (safe_and _ _ _ _ _ _ _ _ _ _
           (thread_safe nan kv two n m W Hshape t [b] s ltac:(intros o' [<-|[]]; split; [exact Hvb|intros; exact I]) A1 A3)
           (still_thread nan kv two n m s0 p0 (proj1 Hready) Hknown t [b] s Hshape ltac:(intros o' [<-|[]]; exact Hvb)))].
        intros [[]|e] s' _ [[_ H] _]; [exact H|exact I].
      + split; [exact I0|]. rewrite Hb. apply start_done.
  Qed.
End After.

Lemma Inv_all : forall {V} (nan : V) kv two n m W s, Inv nan kv two n m W s -> Inv nan kv two n m (fun _ => True) s.
Proof.
  intros V nan kv two n m W s H. constructor; try apply H.
  - intros; exact I.
  - intros t p Hs. exfalso. apply (Hs (S t)); [lia|exact I].
Qed.

(** Once such a thread is done and the matrix populated, any number of threads may ask for anything in any
    order: every answer is right, the kernel is not called on the sample(s) again, and the matrix stays. *)
Lemma pf_C108_after : forall V (N : numops V) kv kx ky two keep n m work d0 schedule t,
  (two = false -> n = m) -> total kv n m -> d_valid n m work -> t < List.length work ->
  (forall u, u <> t -> only_elements (nth u work [])) ->
  d_base d0 = attached -> nothing_derived d0 ->
  let c := d_execute N kv kx ky two keep n m work d0 schedule in
  d_finished c -> sh_populated (d_base (snd c)) = true ->
  forall work' schedule', d_valid n m work' ->
  let d := snd (d_execute N kv kx ky two keep n m work' (snd c) schedule') in
  (forall u o r, In (u, o, r) (d_log d) -> r = right_answer N kv kx ky two n m o) /\
  (forall u o r, In (u, o, r) (sh_log (d_base d)) -> outcome_ok (v_nan N) kv two n m (d_base d) o r) /\
  sh_calls (d_base d) = sh_calls (d_base (snd c)) /\ sh_evals (d_base d) = sh_evals (d_base (snd c)) /\
  (forall u p, In (u, ROFull, Ok (RRef p)) (sh_log (d_base d)) -> u = t \/ ~ In (u, ROFull, Ok (RRef p)) (sh_log (d_base (snd c))) ->
     mkArr Dense (array_at (v_nan N) n m (d_base d) p) = the_matrix (v_nan N) kv two n m).
Proof.
  intros V N kv kx ky two keep n m work d0 schedule t Hs Ht Hv Hlt Ho Hb Hn c Hf Hp work' schedule' Hv' d.
  destruct (single_run N kv kx ky two keep n m Hs Ht t work d0 schedule Hv Ho Hb Hn) as [(HI & HD & HL) HS].
  fold c in HI, HD, HL, HS.
  assert (Lc : List.length (fst c) = List.length work).
  { unfold c, d_execute. generalize d0. intros e0.
    assert (G : forall sch q, List.length (fst (fold_left (@d_step V) sch q)) = List.length (fst q)).
    { induction sch as [|u l IH]; intros q; cbn; [reflexivity|]. rewrite IH. unfold d_step.
      destruct (nth_error (fst q) u) as [[r|a nx]|]; cbn [fst]; auto. apply list_upd_length. }
    rewrite G. cbn [fst]. unfold d_pool. rewrite map_length, combine_length, seq_length. apply Nat.min_id. }
  destruct (nth_error (fst c) t) as [q|] eqn:Eq.
  2:{ apply nth_error_None in Eq. lia. }
  pose proof (HS t q Eq) as Sq. unfold d_finished in Hf. rewrite Forall_forall in Hf.
  destruct (Hf q (nth_error_In _ _ Eq)) as (r & ->). cbn in Sq.
  specialize (Sq (snd c) (RDrefl N kv kx ky two n m _ (R_refl _ _ _ _ _ _ _) _) (conj HI (conj HD HL))).
  destruct r as [[]|e]; [|destruct Sq]. destruct Sq as [_ Kc].
  destruct (done_ready N kv two n m Ht t _ Kc Hp) as (p0 & Hr & Hk).
  destruct (after_run N kv kx ky two keep n m Hs Ht (d_base (snd c)) p0 Hr Hk (Inv_all _ _ _ _ _ _ _ HI)
              work' (snd c) schedule' Hv' eq_refl HD HL) as ((AI & AS) & AD & AL).
  fold d in AI, AS, AD, AL. split; [exact AL|]. split; [intros u o r; exact (i_log _ _ _ _ _ _ _ AI u o r)|].
  assert (Hr' := still_ready N kv two n m _ _ Hr _ AS).
  destruct AS as (A1 & A2 & A3 & A4 & A5 & A6 & A7). split; [exact A6|]. split; [exact A5|].
  intros u p Hin Hu.
  assert (Ea : array_at (v_nan N) n m (d_base d) p = array_at (v_nan N) n m (d_base (snd c)) p)
    by (unfold array_at; now rewrite A2).
  destruct (A7 u _ Hin) as [Hold|E].
  - destruct Hu as [->|Hu]; [|contradiction].
    destruct (i_sole _ _ _ _ _ _ _ HI t p (sole0 t) Ht (ex_intro _ ROFull Hold)) as [A _].
    rewrite Ea, (complete_matrix N kv two n m _ A). reflexivity.
  - injection E as ->. destruct Hr' as (_ & E & _). rewrite E. reflexivity.
Qed.

(** ** A thread that is not interrupted *)
Section Solo.
  Context {E V U : Type}.
  Variable N : numops V.
  Variable kern : kernel E V.
  Variables x y : ndarray E.
  Variables kx ky : nat -> res V.
  Variable two : bool.
  Variables n m : nat.
  Hypothesis Hshape : two = false -> n = m.
  Hypothesis Hrep : forall c a b, kf kern c a b = kf kern 0 a b.
  Hypothesis Hfmt : kfmt kern = true.
  Hypothesis Hx : forall i, i < n -> exists a, nd_row x i = Ok a.
  Hypothesis Hy : forall j, j < m -> exists b, nd_row y j = Ok b.
  Notation Sh := (shared V).
  Notation D := (dsh V).
  Notation KM := (km E V U).
  Notation nan := (v_nan N).
  Notation kv := (rows_value kern x y).
  Notation same := (same_object (U := U) nan kern x y two n m).
  Notation sameD := (same_derived (U := U) nan kern x y two n m).

  Definition agreeD {A A'} (rel : A -> A' -> Prop) (p : D * res A) (q : KM * res A') : Prop :=
    sameD (fst p) (fst q) /\
    match snd p, snd q with
    | Ok a, Ok b => rel a b
    | Raise e, Raise e' => e = e'
    | _, _ => False
    end.

  Lemma solo_bind : forall {A B} (p : prog D A) (k : A -> prog D B) d,
    solo (pbind p k) d = match solo p d with
                          | (d', Ok a) => solo (k a) d'
                          | (d', Raise e) => (d', Raise e)
                          end.
  Proof. intros A B p k. induction p as [[a|e]|u nx IH]; intros d; cbn; auto. Qed.

  Lemma solo_lift : forall {A} (p : prog Sh A) d,
    solo (plift p) d = (put_base (fst (alone p (d_base d))) d, snd (alone p (d_base d))).
  Proof.
    intros A p. induction p as [r|u nx IH]; intros d; cbn.
    - now destruct d.
    - rewrite IH. destruct d. reflexivity.
  Qed.

  Lemma agreeD_bind : forall {A B A' B'} (rel : A -> B -> Prop) (rel' : A' -> B' -> Prop)
      (p : prog D A) (f : A -> prog D A') (a : M KM B) (g : B -> M KM B') d k,
    agreeD rel (solo p d) (a k) ->
    (forall d' k' u v, sameD d' k' -> rel u v -> agreeD rel' (solo (f u) d') (g v k')) ->
    agreeD rel' (solo (pbind p f) d) (bind a g k).
  Proof.
    intros A B A' B' rel rel' p f a g d k [H1 H2] K. rewrite solo_bind. unfold bind.
    destruct (solo p d) as [d1 [u|e]], (a k) as [k1 [v|e']]; cbn in H1, H2; try destruct H2.
    - apply K; assumption.
    - split; [exact H1|reflexivity].
  Qed.

  (** The arrays keep their shape. *)
  Definition wf (s : Sh) : Prop := forall p, mwf n m (array_at nan n m s p).
  Definition keeps_wf {A} (p : prog Sh A) : Prop := forall s, wf s -> wf (fst (alone p s)).
  Lemma wf_bind : forall {A C} (p : prog Sh A) (k : A -> prog Sh C),
    keeps_wf p -> (forall a, keeps_wf (k a)) -> keeps_wf (pbind p k).
  Proof.
    intros A C p k H K s W. rewrite alone_bind. specialize (H s W).
    destruct (alone p s) as [s1 [a|e]]; cbn in *; [apply K|]; exact H.
  Qed.
  Lemma wf_except : forall {A} (p : prog Sh A) e, keeps_wf p -> keeps_wf (pexcept p e).
  Proof.
    intros A p e H s W. specialize (H s W).
    assert (Ep : fst (alone (pexcept p e) s) = fst (alone p s)).
    { clear. revert s. induction p as [[v|e']|u nx IH]; intros s; cbn; auto. }
    now rewrite Ep.
  Qed.
  Lemma wf_ret : forall {A} (r : res A), keeps_wf (Ret r).
  Proof. intros A r s W. exact W. Qed.
  Lemma wf_read : forall {A} (f : Sh -> A), keeps_wf (read f).
  Proof. intros A f s W. exact W. Qed.
  Lemma wf_write : forall u, (forall s, wf s -> wf (u s)) -> keeps_wf (write u).
  Proof. intros u H s W. apply H, W. Qed.
  Lemma wf_when : forall b p, keeps_wf p -> keeps_wf (pwhen b p).
  Proof. intros [] p H; [exact H|apply wf_ret]. Qed.
  Lemma wf_for : forall {X} (f : X -> prog Sh unit) l, (forall q, keeps_wf (f q)) -> keeps_wf (pfor l f).
  Proof. intros X f l H. induction l as [|q l IH]; cbn [pfor]; [apply wf_ret|]. apply wf_bind; auto. Qed.
  Lemma wf_map : forall {X A} (f : X -> prog Sh A) l, (forall q, keeps_wf (f q)) -> keeps_wf (pmap l f).
  Proof.
    intros X A f l H. induction l as [|q l IH]; cbn [pmap]; [apply wf_ret|].
    apply wf_bind; auto. intros a. apply wf_bind; auto. intros r. apply wf_ret.
  Qed.
  Lemma wf_load : keeps_wf (@t_load V).
  Proof. apply wf_bind; [apply wf_read|]. intros [p|]; apply wf_ret. Qed.
  Lemma wf_eval : forall t i j, keeps_wf (t_eval kv two t i j).
  Proof.
    intros t i j. apply wf_bind; [apply wf_read|]. intros b. apply wf_bind.
    - apply wf_when. apply wf_bind; [apply wf_write; auto|]. intros _. apply wf_bind; [apply wf_ret|]. intros v.
      apply wf_bind; [apply wf_write; auto|]. intros _. apply wf_bind; [apply wf_read|]. intros c. apply wf_write. auto.
    - intros _. apply wf_bind; [apply wf_read|]. intros [v|]; apply wf_ret.
  Qed.
  Lemma wf_store : forall p q v, keeps_wf (t_store nan n m p q v).
  Proof.
    intros p q v. apply wf_write. intros s W p'. unfold array_at, upd_heap. cbn [sh_heap]. rewrite list_upd_nth.
    destruct ((p' =? p) && (p <? List.length (sh_heap s))); [apply mset_wf, W|apply W].
  Qed.
  Lemma wf_fill : forall t q, keeps_wf (t_fill nan kv two n m t q).
  Proof.
    intros t q. apply wf_bind; [apply wf_eval|]. intros v. apply wf_bind; [apply wf_load|]. intros p. apply wf_store.
  Qed.
  Lemma wf_populate : forall t, keeps_wf (t_populate nan kv two n m t).
  Proof.
    intros t. apply wf_bind; [|intros _; apply wf_bind; [|intros _; apply wf_bind; [apply wf_load|intros; apply wf_ret]]].
    - apply wf_bind; [apply wf_read|]. intros b. apply wf_when. apply wf_bind; [apply wf_read|]. intros h. apply wf_when.
      apply wf_bind.
      + apply wf_write. intros s W p. unfold array_at. cbn [sh_heap].
        destruct (Nat.lt_ge_cases p (List.length (sh_heap s))) as [L|L].
        * rewrite app_nth1 by exact L. apply W.
        * rewrite app_nth2 by exact L. destruct (p - List.length (sh_heap s)) as [|[|k]]; apply tabulate_wf.
      + intros _. apply wf_bind; [apply wf_except, wf_for; intros q; apply wf_fill|]. intros _. apply wf_write. auto.
    - apply wf_bind; [apply wf_read|]. intros b. apply wf_when. apply wf_bind; [|intros _; apply wf_write; auto].
      apply wf_except. destruct (negb two && (n =? m)).
      + apply wf_bind; [apply wf_load|]. intros p1. apply wf_bind; [apply wf_map; intros q; apply wf_read|]. intros vs.
        apply wf_bind; [apply wf_load|]. intros p2. apply wf_for. intros qv. apply wf_store.
      + apply wf_for. intros q. apply wf_fill.
  Qed.

  Definition rest (k : KM) := (k_normed k, k_is_normed k, k_centered k, k_is_centered k, k_frob k).
  Lemma rest_populate : forall dn lw, stable rest (populate_fully N dn lw : M KM (arr V)).
  Proof.
    assert (H : forall i j, stable rest (eval_kernel i j : M KM V)) by (intros; unfold eval_kernel; stab).
    intros. unfold populate_fully, populate_upper, populate_lower, densify, warn_if_nan_inf, set_full_entry.
    stab; try apply H.
  Qed.

  Lemma sameD_put : forall d k s' k', sameD d k -> same s' k' -> wf s' -> rest k' = rest k -> sameD (put_base s' d) k'.
  Proof.
    intros d k s' k' [H0 H00 H1 H2 H3 H4 H5] HS Hw HE. unfold rest in HE. injection HE as E1 E2 E3 E4 E5.
    constructor; cbn; congruence || assumption.
  Qed.

  Lemma bind_ok : forall {St A B} (f : M St A) (g : A -> M St B) k b,
    snd (bind f g k) = Ok b -> exists a, snd (f k) = Ok a /\ bind f g k = g a (fst (f k)).
  Proof.
    intros St A B f g k b H. unfold bind in *. destruct (f k) as [k1 [a|e]]; cbn in *; [eauto|discriminate H].
  Qed.

  (** What populating returns is the array [_full_km] points to. *)
  Lemma populate_returns : forall (k : KM) a, snd (populate_fully N true true k) = Ok a ->
    k_full (fst (populate_fully N true true k)) = Some a.
  Proof.
    intros k a H. unfold populate_fully in *.
    destruct (bind_ok _ _ _ _ H) as (? & _ & E1). rewrite E1 in *. clear E1.
    destruct (bind_ok _ _ _ _ H) as (? & _ & E1). rewrite E1 in *. clear E1.
    destruct (bind_ok _ _ _ _ H) as (? & _ & E1). rewrite E1 in *. clear E1.
    set (k1 := fst (densify true _)) in *. clearbody k1. clear -H.
    unfold attr_or, warn_if_nan_inf, bind, get in *.
    destruct (k_full k1) as [b|] eqn:Ef; cbn in *; [|discriminate H].
    destruct (contains_nan_inf N b && negb (kfmt (k_kernel k1))); cbn in *; [discriminate H|congruence].
  Qed.

  Lemma agreeD_populate_ref : forall t d k, sameD d k ->
    agreeD (fun p a => exists q, p = q /\ k_full (fst (populate_fully N true true k)) = Some a)
      (solo (plift (t_populate nan kv two n m t)) d) (populate_fully N true true k).
  Proof.
    intros t d k HS. rewrite solo_lift.
    destruct (agree_populate N kern x y two n m Hshape Hrep Hfmt Hx Hy t (d_base d) k (sd_base _ _ _ _ _ _ _ _ _ HS)) as [A1 A2].
    split; cbn [fst snd].
    - apply (sameD_put d k); auto; [|apply rest_populate]. apply wf_populate. exact (sd_wf _ _ _ _ _ _ _ _ _ HS).
    - destruct (snd (alone _ _)) as [[]|e], (snd (populate_fully N true true k)) as [a|e'] eqn:Ep; auto.
      exists tt. split; [reflexivity|now apply populate_returns].
  Qed.

  Lemma agreeD_populate : forall t d k, sameD d k ->
    agreeD (fun _ _ => True) (solo (d_populate N kv two n m t) d)
      (bind get (fun s => when (negb (k_populated s)) (bind (populate_fully N true true) (fun _ => ret tt))) k).
  Proof.
    intros t d k HS. unfold d_populate. cbn [pbind read solo pret]. unfold bind at 1, get.
    rewrite (so_populated _ _ _ _ _ _ _ _ _ (sd_base _ _ _ _ _ _ _ _ _ HS)).
    destruct (sh_populated (d_base d)); cbn [negb pwhen when].
    - split; [exact HS|exact I].
    - destruct (agreeD_populate_ref t d k HS) as [A1 A2]. unfold bind.
      destruct (solo (plift (t_populate nan kv two n m t)) d) as [d1 [u|e]],
        (populate_fully N true true k) as [k1 [v|e']]; cbn in A1, A2 |- *; try destruct A2; split; cbn; auto.
  Qed.

  Lemma solo_reads : forall {X A} (f : X -> D -> A) l d, solo (pmap l (fun q => read (f q))) d = (d, Ok (map (fun q => f q d) l)).
  Proof.
    intros X A f l d. induction l as [|q l IH]; cbn; [reflexivity|]. rewrite solo_bind, IH. reflexivity.
  Qed.

  Lemma agreeD_array : forall d k, sameD d k ->
    agreeD eq (solo (d_array N n m) d) (attr_or k_full k).
  Proof.
    intros d k HS. unfold d_array. rewrite solo_bind, solo_lift. unfold t_load, attr_or, bind, get.
    pose proof (so_full _ _ _ _ _ _ _ _ _ (sd_base _ _ _ _ _ _ _ _ _ HS)) as Ef. rewrite Ef.
    cbn [pbind read alone pret fst snd].
    destruct (sh_full (d_base d)) as [p|] eqn:Er; cbn [alone pret praise option_map fst snd].
    - unfold d_entries. rewrite solo_bind, put_base_same, solo_reads. cbn [solo pret ret fst snd].
      split; [exact HS|]. cbn [snd].
      pose proof (reshape_product (mget nan (array_at nan n m (d_base d) p)) (seq 0 n) (seq 0 m)) as H.
      rewrite !seq_length in H. rewrite H. clear H.
      unfold ret. cbn [snd]. apply f_equal.
      exact (eq_sym (mat_ext nan n m _ _ (sd_wf _ _ _ _ _ _ _ _ _ HS p) (fun i j _ _ => eq_refl))).
    - rewrite put_base_same. split; [exact HS|reflexivity].
  Qed.
  Lemma agreeD_lift : forall {A} (r : res A) d k, sameD d k -> agreeD eq (solo (Ret r) d) (lift r k).
  Proof. intros A [a|e] d k HS; split; cbn; auto. Qed.

  Lemma agreeD_load : forall {A} (f : D -> option A) (g : KM -> option A) d k, sameD d k -> g k = f d ->
    agreeD eq (solo (load f) d) (attr_or g k).
  Proof.
    intros A f g d k HS Hg. unfold load, attr_or, bind, get. rewrite Hg. cbn [pbind read solo pret].
    destruct (f d); split; cbn; auto.
  Qed.

  Lemma agreeD_write : forall (u : D -> D) (g : KM -> KM) d k, sameD (u d) (g k) ->
    agreeD (fun _ _ => True) (solo (write u) d) (modify g k).
  Proof. intros u g d k HS. split; cbn; auto. Qed.

  Lemma agreeD_read : forall {A B A' : Type} (rel : A' -> B -> Prop) (f : D -> A) (h : A -> prog D A') (g : KM -> M KM B) d k,
    agreeD rel (solo (h (f d)) d) (g k k) -> agreeD rel (solo (pbind (read f) h) d) (bind get g k).
  Proof. intros A B A' rel f h g d k H. exact H. Qed.

  Lemma put_same : forall d k d' k', sameD d k -> d_base d' = d_base d ->
    (k_kernel k', k_keep_normed k', k_sample k', k_sample_two k', k_two k', k_shape k') =
    (k_kernel k, k_keep_normed k, k_sample k, k_sample_two k, k_two k, k_shape k) ->
    (k_full k', k_populated k', k_lower k', k_memo k', k_evals k') =
    (k_full k, k_populated k, k_lower k, k_memo k, k_evals k) ->
    rest k' = (d_normed d', d_is_normed d', d_centered d', d_is_centered d', d_frob d') -> sameD d' k'.
  Proof.
    intros d k d' k' [[] Hw ? ? ? ? ?] Eb E1 E2 E3. unfold rest in E3.
    injection E1 as ? ? ? ? ? ?. injection E2 as ? ? ? ? ?. injection E3 as ? ? ? ? ?.
    constructor; try congruence; [|intros p; rewrite Eb; apply Hw].
    rewrite Eb. constructor; congruence || assumption.
  Qed.

  Lemma rest_same : forall d k, sameD d k ->
    rest k = (d_normed d, d_is_normed d, d_centered d, d_is_centered d, d_frob d).
  Proof. intros d k []. unfold rest. congruence. Qed.

  Ltac putsame HS := apply (put_same _ _ _ _ HS); try reflexivity;
    let H := fresh in pose proof (rest_same _ _ HS) as H; unfold rest in *; cbn; injection H as ? ? ? ? ?; congruence.

  Lemma agreeD_when : forall (b : bool) (p : prog D unit) (a : M KM unit) d k, sameD d k ->
    agreeD (fun _ _ => True) (solo p d) (a k) -> agreeD (fun _ _ => True) (solo (pwhen b p) d) (when b a k).
  Proof. intros [] p a d k HS H; [exact H|]. split; [exact HS|exact I]. Qed.

  Lemma bind_assoc : forall {St A B C} (a : M St A) (f : A -> M St B) (g : B -> M St C) k,
    bind (bind a f) g k = bind a (fun v => bind (f v) g) k.
  Proof. intros St A B C a f g k. unfold bind. destruct (a k) as [k1 [v|e]]; reflexivity. Qed.

  Lemma agreeD_frob : forall t d k, sameD d k -> agreeD eq (solo (d_frob_norm N kv two n m t) d) (frob_norm N k).
  Proof.
    intros t d k HS. unfold d_frob_norm.
    assert (Er : frob_norm N k = bind (bind get (fun s => when (negb (k_populated s))
       (bind (populate_fully N true true) (fun _ => ret tt)))) (fun _ => bind get (fun s1 =>
       bind (when (negb (is_some (k_frob s1)))
        (bind (attr_or k_full) (fun a => bind (lift (op_frob N a)) (fun v => modify (set_frob (Some v))))))
        (fun _ => attr_or k_frob))) k) by (rewrite bind_assoc; reflexivity).
    rewrite Er. clear Er. apply (agreeD_bind (fun _ _ => True)); [apply agreeD_populate, HS|].
    clear d k HS. intros d k _ _ HS _. apply agreeD_read. rewrite (sd_frob _ _ _ _ _ _ _ _ _ HS).
    apply (agreeD_bind (fun _ _ => True)).
    - apply agreeD_when; [exact HS|]. apply (agreeD_bind eq); [apply agreeD_array, HS|].
      clear d k HS. intros d k a _ HS <-. apply (agreeD_bind eq); [apply agreeD_lift, HS|].
      clear d k HS. intros d k v _ HS <-. apply agreeD_write. putsame HS.
    - clear d k HS. intros d k _ _ HS _. apply agreeD_load; [exact HS|apply HS].
  Qed.

  Lemma agreeD_normalize : forall t d k, two = false -> sameD d k ->
    agreeD (fun _ _ => True) (solo (d_normalize N kv kx ky two n m t) d) (normalize N default_method k).
  Proof.
    intros t d k E2 HS. unfold d_normalize, normalize.
    match goal with |- agreeD ?rel ?L (bind get (fun s => bind (@?w s) (fun _ => ?g)) k) =>
      change (agreeD rel L (bind (bind get w) (fun _ => g) k)) end.
    apply (agreeD_bind (fun _ _ => True)); [apply agreeD_populate, HS|].
    clear d k HS. intros d k _ _ HS _. apply agreeD_read. rewrite (sd_is_normed _ _ _ _ _ _ _ _ _ HS).
    apply agreeD_when; [exact HS|]. rewrite (if_true _ _ (negb two)) by now rewrite E2.
    unfold bind at 1, attr_or at 1, bind at 1, get at 1.
    rewrite (so_two _ _ _ _ _ _ _ _ _ (sd_base _ _ _ _ _ _ _ _ _ HS)). unfold ret at 1. cbv beta iota.
    rewrite (if_true _ _ (negb two)) by now rewrite E2.
    assert (Er : forall (A : Type) (f : unit -> M KM A), bind (bind (attr_or k_full) (fun a =>
       bind (lift (op_normalize N default_method a)) (fun nk => modify (set_normed (Some nk))))) f k
       = bind (bind (attr_or k_full) (fun a => lift (op_normalize N default_method a)))
              (fun nk => bind (modify (set_normed (Some nk))) f) k).
    { intros A f. rewrite !bind_assoc. unfold bind. destruct (attr_or k_full k) as [k1 [a|e]]; [|reflexivity].
      destruct (lift (op_normalize N default_method a) k1) as [k2 [b|e]]; reflexivity. }
    rewrite Er. clear Er. apply (agreeD_bind eq).
    - apply (agreeD_bind eq); [apply agreeD_array, HS|]. clear d k HS. intros d k a _ HS <-. apply agreeD_lift, HS.
    - clear d k HS. intros d k nk _ HS <-. apply (agreeD_bind (fun _ _ => True)).
      + apply agreeD_write. putsame HS.
      + clear d k HS. intros d k _ _ HS _. apply (agreeD_bind (fun _ _ => True)).
        * apply agreeD_write. putsame HS.
        * clear d k HS. intros d k _ _ HS _. apply (agreeD_bind eq); [apply agreeD_load; [exact HS|apply HS]|].
          clear d k HS. intros d k a a2 HS _. unfold warn_if_nan_inf, bind, get.
          rewrite (so_kernel _ _ _ _ _ _ _ _ _ (sd_base _ _ _ _ _ _ _ _ _ HS)), Hfmt, andb_false_r.
          split; cbn; auto.
  Qed.

  Lemma agreeD_normed : forall t d k, two = false -> sameD d k ->
    agreeD eq (solo (d_normed_km N kv kx ky two n m t) d) (normed_km N k).
  Proof.
    intros t d k E2 HS. unfold d_normed_km, normed_km. apply agreeD_read.
    rewrite (sd_is_normed _ _ _ _ _ _ _ _ _ HS). apply (agreeD_bind (fun _ _ => True)).
    - apply agreeD_when; [exact HS|]. now apply agreeD_normalize.
    - clear d k HS. intros d k _ _ HS _. apply agreeD_load; [exact HS|apply HS].
  Qed.

  Lemma agreeD_center : forall t d k, two = false -> sameD d k ->
    agreeD (fun _ _ => True) (solo (d_center N kv two n m t) d) (center N k).
  Proof.
    intros t d k E2 HS. unfold d_center, center. rewrite (if_false _ _ two E2).
    unfold bind at 1, attr_or at 1, bind at 1, get at 1.
    rewrite (so_two _ _ _ _ _ _ _ _ _ (sd_base _ _ _ _ _ _ _ _ _ HS)). unfold ret at 1. cbv beta iota.
    rewrite (if_false _ _ two E2). apply agreeD_read.
    rewrite (so_populated _ _ _ _ _ _ _ _ _ (sd_base _ _ _ _ _ _ _ _ _ HS)).
    apply (agreeD_bind (fun _ _ => True)).
    - apply agreeD_when; [exact HS|]. pose proof (agreeD_populate_ref t d k HS) as [A1 A2].
      unfold bind. rewrite solo_bind.
      destruct (solo (plift (t_populate nan kv two n m t)) d) as [d1 [u|e]],
        (populate_fully N true true k) as [k1 [v|e']]; cbn in A1, A2; try destruct A2.
      + clear d k HS. destruct H as [_ Ef]. rewrite solo_bind, solo_lift. unfold t_load. cbn [pbind read alone pret fst snd].
        pose proof (so_full _ _ _ _ _ _ _ _ _ (sd_base _ _ _ _ _ _ _ _ _ A1)) as Es. rewrite Ef in Es.
        destruct (sh_full (d_base d1)) as [p|] eqn:Er; [|discriminate Es]. cbn [alone pret fst snd].
        rewrite put_base_same, solo_lift. cbn [alone write pret fst snd]. rewrite (set_ref_same p _ Er), put_base_same.
        split; [|exact I]. unfold modify. cbn [fst]. apply (put_same _ _ _ _ A1); try reflexivity.
        * cbn. now rewrite Ef.
        * apply (rest_same _ _ A1).
      + split; cbn; auto.
    - clear d k HS. intros d k _ _ HS _. apply (agreeD_bind eq); [apply agreeD_array, HS|].
      clear d k HS. intros d k a _ HS <-. apply (agreeD_bind eq); [apply agreeD_lift, HS|].
      clear d k HS. intros d k c _ HS <-. apply (agreeD_bind (fun _ _ => True)).
      + apply agreeD_write. putsame HS.
      + clear d k HS. intros d k _ _ HS _. apply agreeD_write. putsame HS.
  Qed.

  Lemma agreeD_centered : forall t d k, sameD d k ->
    agreeD eq (solo (d_centered_km N kv two n m t) d) (centered N k).
  Proof.
    intros t d k HS. unfold d_centered_km, centered.
    unfold bind at 1, attr_or at 1, bind at 1, get at 1.
    rewrite (so_two _ _ _ _ _ _ _ _ _ (sd_base _ _ _ _ _ _ _ _ _ HS)). unfold ret at 1. cbv beta iota.
    destruct (Sumbool.sumbool_of_bool two) as [E2|E2]; [rewrite !(if_true _ _ two E2)|rewrite !(if_false _ _ two E2)].
    - split; [exact HS|reflexivity].
    - apply agreeD_read. rewrite (sd_is_centered _ _ _ _ _ _ _ _ _ HS). apply (agreeD_bind (fun _ _ => True)).
      + apply agreeD_when; [exact HS|]. now apply agreeD_center.
      + clear d k HS. intros d k _ _ HS _. apply agreeD_load; [exact HS|apply HS].
  Qed.
End Solo.

(** Left alone, a thread does what the sequential object of KMModel.v does, derived attributes included. *)
Lemma pf_C108_alone : forall E V U (N : numops V) (kern : kernel E V) (x y : ndarray E) kx ky two n m,
  (two = false -> n = m) -> (forall c a b, kf kern c a b = kf kern 0 a b) -> kfmt kern = true ->
  (forall i, i < n -> exists a, nd_row x i = Ok a) -> (forall j, j < m -> exists b, nd_row y j = Ok b) ->
  forall t o (d : dsh V) (k : km E V U), o = DCentered \/ o = DFrob \/ (o = DNormed /\ two = false) ->
  same_derived (v_nan N) kern x y two n m d k ->
  let r := solo (d_op N (rows_value kern x y) kx ky two n m t o) d in
  let r' := as_derived_call N o k in
  same_derived (v_nan N) kern x y two n m (fst r) (fst r') /\ snd r = snd r'.
Proof.
  intros E V U N kern x y kx ky two n m H1 H2 H3 H4 H5 t o d k Ho HS.
  assert (G : forall A (p : prog (dsh V) A) (a : M (km E V U) A) (f : A -> dout V),
    agreeD N kern x y two n m eq (solo p d) (a k) ->
    same_derived (v_nan N) kern x y two n m (fst (solo (pbind p (fun v => pret (f v))) d)) (fst (a k)) /\
    snd (solo (pbind p (fun v => pret (f v))) d) = rbind (snd (a k)) (fun v => Ok (f v))).
  { intros A p a f [A1 A2]. rewrite solo_bind.
    destruct (solo p d) as [d1 [v|e]], (a k) as [k1 [v'|e']]; cbn in A1, A2 |- *; try destruct A2; auto. }
  destruct Ho as [->|[->|[-> E2]]]; cbn [d_op as_derived_call fst snd]; apply G.
  - now apply agreeD_centered.
  - now apply agreeD_frob.
  - now apply agreeD_normed.
Qed.

(** ** Two threads that derive while the matrix is being made *)

(*BEGIN PROP*)
(** The matrix of NaN that base.py:717-718 starts from, for two points, and any functions of operations.py
    that return. *)
Definition nan_matrix {V} (nan : V) : arr V := mkArr Dense (mkMat 2 2 [[nan; nan]; [nan; nan]]).
Definition numerics {V} (nan zero : V) fin nrm nrm2 cen fro : numops V :=
  mkNumops nan zero fin (fun _ a => Ok (nrm a)) nrm2 (fun a => Ok (cen a)) (fun a => Ok (fro a)).
(*END PROP*)

(** For every kernel and whatever the functions compute: one thread reads [full], another asks for the rest
    a moment later. There is a schedule under which the other gets what the functions make of a matrix of
    nothing but NaN, with no exception; the object keeps it, and hands it to every later request, after
    all threads have finished. *)
Lemma pf_C108_stale : forall V (nan zero : V) fin nrm nrm2 cen fro (k : nat -> nat -> V) kx ky,
  exists schedule,
  let N := numerics nan zero fin nrm nrm2 cen fro in
  let run := d_execute N (fun i j => Ok (k i j)) kx ky false false 2 2 in
  let c := run [[DFull]; [DNormed; DCentered; DFrob]] (underived attached) schedule in
  let req := d_op N (fun i j => Ok (k i j)) kx ky false 2 2 in
  let bad := nan_matrix nan in
  d_finished c /\
  In (1, DNormed, Ok (DArr (nrm bad))) (d_log (snd c)) /\
  In (1, DCentered, Ok (DArr (cen bad))) (d_log (snd c)) /\
  In (1, DFrob, Ok (DVal (fro bad))) (d_log (snd c)) /\
  (forall i j, i <= j -> j < 2 -> exists p, sh_full (d_base (snd c)) = Some p /\
     mget nan (array_at nan 2 2 (d_base (snd c)) p) i j = k i j) /\
  forall u, solo (req u DNormed) (snd c) = (snd c, Ok (DArr (nrm bad))) /\
    solo (req u DCentered) (snd c) = (snd c, Ok (DArr (cen bad))) /\
    solo (req u DFrob) (snd c) = (snd c, Ok (DVal (fro bad))).
Proof.
  intros V nan zero fin nrm nrm2 cen fro k kx ky.
  exists (repeat 0 4 ++ repeat 1 150 ++ repeat 0 80). cbv zeta.
  split; [|split; [|split; [|split; [|split]]]].
  - vm_compute. repeat constructor; eauto.
  - vm_compute. tauto.
  - vm_compute. tauto.
  - vm_compute. tauto.
  - intros i j Hi Hj. exists 0. split; [vm_compute; reflexivity|].
    destruct i as [|[|i]], j as [|[|j]]; try lia; vm_compute; reflexivity.
  - intros u. split; [|split]; vm_compute; reflexivity.
Qed.

(*BEGIN PROP*)
(** A Frobenius norm (squared) of numbers and NaN, and a kernel. *)
Definition sq_norm (a : arr (option nat)) : option nat :=
  fold_right (fun o acc => match o, acc with Some x, Some y => Some (x * x + y) | _, _ => None end) (Some 0)
    (List.concat (md (amat a))).
Definition sq_ops : numops (option nat) :=
  numerics None (Some 0) (fun o => match o with Some _ => true | None => false end)
    (fun a => a) (fun a _ _ => Ok a) (fun a => a) sq_norm.
Definition sq_kernel (i j : nat) : res (option nat) := Ok (Some ((i + 1) * (j + 1))).
(*END PROP*)

(** So "the norm a thread gets is the norm of the kernel matrix" is false when another thread is making the
    matrix: here the right answer is a number and the answer is NaN, and stays NaN. *)
Lemma pf_C108_cold_refuted : exists schedule,
  let run := d_execute sq_ops sq_kernel (fun _ => Ok None) (fun _ => Ok None) false false 2 2 in
  let c := run [[DFull]; [DFrob]] (underived attached) schedule in
  d_finished c /\ total sq_kernel 2 2 /\
  right_answer sq_ops sq_kernel (fun _ => Ok None) (fun _ => Ok None) false 2 2 DFrob = Ok (DVal (Some 25)) /\
  In (1, DFrob, Ok (DVal None)) (d_log (snd c)) /\
  forall u, solo (d_op sq_ops sq_kernel (fun _ => Ok None) (fun _ => Ok None) false 2 2 u DFrob) (snd c)
            = (snd c, Ok (DVal None)).
Proof.
  exists (repeat 0 4 ++ repeat 1 150 ++ repeat 0 80). cbv zeta.
  split; [vm_compute; repeat constructor; eauto|]. split; [intros i j _ _; unfold sq_kernel; eauto|].
  split; [vm_compute; reflexivity|]. split; [vm_compute; tauto|]. intros u. vm_compute. reflexivity.
Qed.

(** The hypotheses are met: one thread derives, another reads the diagonal at the same time; afterwards
    three threads ask for everything in turns. *)
Lemma pf_C108_example :
  let run := d_execute sq_ops sq_kernel (fun _ => Ok None) (fun _ => Ok None) false true 2 2 in
  let work := [[DDiagonal]; [DFrob; DFull; DCentered]] in
  let c := run work (underived attached) (List.concat (repeat [1; 0; 1] 60)) in
  let work' := [[DFrob]; [DNormed; DIndex [1] [0; 1]]; [DCentered; DFull]] in
  let d := snd (run work' (snd c) (List.concat (repeat [2; 0; 1] 60))) in
  d_valid 2 2 work /\ (forall u, u <> 1 -> only_elements (nth u work [])) /\ nothing_derived (underived (@attached (option nat))) /\
  d_finished c /\ sh_populated (d_base (snd c)) = true /\ d_valid 2 2 work' /\
  List.length (d_log (snd c)) = 3 /\ List.length (d_log d) = 7 /\
  In (0, DFrob, Ok (DVal (Some 25))) (d_log d) /\
  In (2, DFull, Ok (DArr (mkArr Dense (mkMat 2 2 [[Some 1; Some 2]; [Some 2; Some 4]])))) (d_log d) /\
  List.length (sh_calls (d_base d)) = List.length (sh_calls (d_base (snd c))).
Proof.
  cbv zeta. split; [|split; [|split; [|split; [|split; [|split; [|split; [|split; [|split; [|split]]]]]]]]].
  - intros ops rows cols [<-|[<-|[]]] H; cbn in H; repeat (destruct H as [H|H]; try discriminate H); destruct H.
  - intros [|[|u]] Hu; try lia; intros o Ho; cbn in Ho.
    + destruct Ho as [<-|[]]. auto.
    + destruct u; destruct Ho.
  - repeat split.
  - vm_compute. repeat constructor; eauto.
  - vm_compute. reflexivity.
  - intros ops rows cols [<-|[<-|[<-|[]]]] H; cbn in H.
    + destruct H as [H|[]]. discriminate H.
    + destruct H as [H|[H|[]]]; [discriminate H|]. injection H as <- <-. split; intros i Hi; cbn in Hi; lia.
    + destruct H as [H|[H|[]]]; discriminate H.
  - vm_compute. reflexivity.
  - vm_compute. reflexivity.
  - vm_compute. tauto.
  - vm_compute. tauto.
  - vm_compute. reflexivity.
Qed.
