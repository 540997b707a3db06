(** Rely-guarantee reasoning about the threads of ThreadModel.v. *)
From Coq Require Import List Arith Bool Lia.
Import ListNotations.
From Verif Require Import Prelude MatModel MatFacts KMModel ThreadModel.

Section Safe.
  Context {S : Type}.
  Variable I : S -> Prop.
  Variables R G : S -> S -> Prop.
  Hypothesis Rrefl : forall s, R s s.
  Hypothesis Rtrans : forall a b c, R a b -> R b c -> R a c.
  Hypothesis Grefl : forall s, G s s.

  (** From [s], whatever the others do within [R], every step keeps [I] and is within [G], and [Q] holds
      at the end. *)
  Fixpoint safe {A} (p : prog S A) (Q : res A -> S -> Prop) (s : S) : Prop :=
    match p with
    | Ret r => forall s', R s s' -> I s' -> Q r s'
    | Act u nx => forall s', R s s' -> I s' -> I (u s') /\ G s' (u s') /\ safe (nx s') Q (u s')
    end.

  Lemma safe_stable : forall {A} (p : prog S A) Q s s', R s s' -> safe p Q s -> safe p Q s'.
  Proof. intros A [r|u nx] Q s s' H K s'' H'; apply K; eauto. Qed.

  Lemma safe_intro : forall {A} (p : prog S A) Q s,
    (forall s', R s s' -> I s' -> safe p Q s') -> safe p Q s.
  Proof. intros A [r|u nx] Q s H s' HR HI; apply (H s' HR HI s' (Rrefl s') HI). Qed.

  Lemma safe_weaken : forall {A} (p : prog S A) (Q Q' : res A -> S -> Prop),
    (forall r s, I s -> Q r s -> Q' r s) -> forall s, safe p Q s -> safe p Q' s.
  Proof.
    intros A p Q Q' H. induction p as [r|u nx IH]; intros s K s' HR HI.
    - apply H; auto.
    - destruct (K s' HR HI) as (K1 & K2 & K3). repeat split; auto.
  Qed.

  Lemma safe_ret : forall {A} (r : res A) (Q : res A -> S -> Prop) s,
    (forall s', R s s' -> I s' -> Q r s') -> safe (Ret r) Q s.
  Proof. intros A r Q s H. exact H. Qed.

  Definition bindpost {A B} (k : A -> prog S B) (Q : res B -> S -> Prop) (r : res A) (s : S) : Prop :=
    match r with Ok a => safe (k a) Q s | Raise e => Q (Raise e) s end.

  Lemma safe_bind : forall {A B} (p : prog S A) (k : A -> prog S B) Q s,
    safe p (bindpost k Q) s -> safe (pbind p k) Q s.
  Proof.
    intros A B p k Q. induction p as [[a|e]|u nx IH]; intros s H; cbn.
    - apply safe_intro. intros s' HR HI. exact (H s' HR HI).
    - exact H.
    - intros s' HR HI. destruct (H s' HR HI) as (K1 & K2 & K3). repeat split; auto.
  Qed.

  (** Sequencing with an intermediate assertion. *)
  Lemma safe_seq : forall {A B} (p : prog S A) (k : A -> prog S B) (Q : res B -> S -> Prop) Q1 s,
    safe p Q1 s ->
    (forall a s', I s' -> Q1 (Ok a) s' -> safe (k a) Q s') ->
    (forall e s', I s' -> Q1 (Raise e) s' -> Q (Raise e) s') ->
    safe (pbind p k) Q s.
  Proof.
    intros A B p k Q Q1 s H HO HE. apply safe_bind. revert H. apply safe_weaken.
    intros [a|e] s' HI K; cbn; auto.
  Qed.

  Lemma safe_bread : forall {A B} (f : S -> A) (k : A -> prog S B) Q s,
    (forall s', R s s' -> I s' -> safe (k (f s')) Q s') -> safe (pbind (read f) k) Q s.
  Proof. intros A B f k Q s H s' HR HI. split; [exact HI|split; [apply Grefl|exact (H s' HR HI)]]. Qed.

  Lemma safe_bwrite : forall {B} (u : S -> S) (k : unit -> prog S B) Q s,
    (forall s', R s s' -> I s' -> I (u s') /\ G s' (u s') /\ safe (k tt) Q (u s')) ->
    safe (pbind (write u) k) Q s.
  Proof. intros B u k Q s H s' HR HI. exact (H s' HR HI). Qed.

  Lemma safe_write : forall (u : S -> S) (Q : res unit -> S -> Prop) s,
    (forall s', R s s' -> I s' -> I (u s') /\ G s' (u s') /\
       forall s'', R (u s') s'' -> I s'' -> Q (Ok tt) s'') ->
    safe (write u) Q s.
  Proof. intros u Q s H s' HR HI. exact (H s' HR HI). Qed.

  Lemma safe_read : forall {A} (f : S -> A) (Q : res A -> S -> Prop) s,
    (forall s' s'', R s s' -> I s' -> R s' s'' -> I s'' -> Q (Ok (f s')) s'') -> safe (read f) Q s.
  Proof. intros A f Q s H s' HR HI. split; [exact HI|split; [apply Grefl|]].
    intros s'' HR' HI'. exact (H s' s'' HR HI HR' HI'). Qed.

  Lemma safe_except : forall {A} (p : prog S A) e (Q : res A -> S -> Prop) s,
    safe p (fun r s => match r with Ok a => Q (Ok a) s | Raise _ => Q (Raise e) s end) s ->
    safe (pexcept p e) Q s.
  Proof.
    intros A p e Q. induction p as [[a|e']|u nx IH]; intros s H; cbn; auto.
    intros s' HR HI. destruct (H s' HR HI) as (K1 & K2 & K3). auto.
  Qed.

  Lemma safe_catch : forall {A} (p : prog S A) (Q : res (res A) -> S -> Prop) s,
    safe p (fun r s => Q (Ok r) s) s -> safe (pcatch p) Q s.
  Proof.
    intros A p Q. induction p as [r|u nx IH]; intros s H; cbn; auto.
    intros s' HR HI. destruct (H s' HR HI) as (K1 & K2 & K3). auto.
  Qed.

  Lemma safe_for_from : forall {X} (f : X -> prog S unit) (Inv : list X -> S -> Prop) (E : exn -> S -> Prop) l l0,
    (forall pre s s', R s s' -> I s' -> Inv pre s -> Inv pre s') ->
    (forall pre x post s, l0 ++ l = pre ++ x :: post -> I s -> Inv pre s ->
       safe (f x) (fun r s' => match r with Ok _ => Inv (pre ++ [x]) s' | Raise e => E e s' end) s) ->
    forall s, Inv l0 s ->
    safe (pfor l f) (fun r s' => match r with Ok _ => Inv (l0 ++ l) s' | Raise e => E e s' end) s.
  Proof.
    intros X f Inv E l. induction l as [|x l IH]; intros l0 Hst Hbody s H0; cbn [pfor].
    - apply safe_ret. rewrite app_nil_r. intros s' HR HI. exact (Hst l0 s s' HR HI H0).
    - apply safe_intro. intros s1 HR1 HI1. apply (Hst _ _ _ HR1 HI1) in H0.
      eapply safe_seq.
      + apply (Hbody l0 x l s1 eq_refl HI1 H0).
      + intros a s' HI' H1. cbn in H1. replace (l0 ++ x :: l) with ((l0 ++ [x]) ++ l) by (rewrite <- app_assoc; reflexivity).
        apply IH; [exact Hst| |exact H1].
        intros pre y post s2 E2. apply (Hbody pre y post s2).
        rewrite <- E2, <- app_assoc. reflexivity.
      + intros e s' _ H1. exact H1.
  Qed.

  Lemma safe_for : forall {X} (f : X -> prog S unit) (Inv : list X -> S -> Prop) (E : exn -> S -> Prop) l,
    (forall pre s s', R s s' -> I s' -> Inv pre s -> Inv pre s') ->
    (forall pre x post s, l = pre ++ x :: post -> I s -> Inv pre s ->
       safe (f x) (fun r s' => match r with Ok _ => Inv (pre ++ [x]) s' | Raise e => E e s' end) s) ->
    forall s, Inv [] s ->
    safe (pfor l f) (fun r s' => match r with Ok _ => Inv l s' | Raise e => E e s' end) s.
  Proof. intros X f Inv E l Hst Hb s H0. exact (safe_for_from f Inv E l [] Hst Hb s H0). Qed.

  Lemma safe_map_from : forall {X A} (f : X -> prog S A) (Inv : list X -> list A -> S -> Prop)
      (E : exn -> S -> Prop) l l0 a0,
    (forall pre a s s', R s s' -> I s' -> Inv pre a s -> Inv pre a s') ->
    (forall pre x post a s, l0 ++ l = pre ++ x :: post -> I s -> Inv pre a s ->
       safe (f x) (fun r s' => match r with Ok v => Inv (pre ++ [x]) (a ++ [v]) s' | Raise e => E e s' end) s) ->
    forall s, Inv l0 a0 s ->
    safe (pmap l f) (fun r s' => match r with Ok vs => Inv (l0 ++ l) (a0 ++ vs) s' | Raise e => E e s' end) s.
  Proof.
    intros X A f Inv E l. induction l as [|x l IH]; intros l0 a0 Hst Hbody s H0; cbn [pmap].
    - apply safe_ret. rewrite !app_nil_r. intros s' HR HI. exact (Hst l0 a0 s s' HR HI H0).
    - apply safe_intro. intros s1 HR1 HI1. apply (Hst _ _ _ _ HR1 HI1) in H0.
      eapply safe_seq.
      + apply (Hbody l0 x l a0 s1 eq_refl HI1 H0).
      + intros v s' HI' H1. cbn in H1. eapply safe_seq.
        * apply (IH (l0 ++ [x]) (a0 ++ [v]) Hst); [|exact H1].
          intros pre y post a s2 E2. apply (Hbody pre y post a s2). rewrite <- E2, <- app_assoc. reflexivity.
        * intros vs s2 HI2 H2. apply safe_ret. intros s3 HR3 HI3. cbn in H2.
          rewrite <- !app_assoc in H2. cbn in H2. exact (Hst _ _ _ _ HR3 HI3 H2).
        * intros e s2 _ H2. exact H2.
      + intros e s' _ H1. exact H1.
  Qed.

  Lemma safe_map : forall {X A} (f : X -> prog S A) (Inv : list X -> list A -> S -> Prop)
      (E : exn -> S -> Prop) l,
    (forall pre a s s', R s s' -> I s' -> Inv pre a s -> Inv pre a s') ->
    (forall pre x post a s, l = pre ++ x :: post -> I s -> Inv pre a s ->
       safe (f x) (fun r s' => match r with Ok v => Inv (pre ++ [x]) (a ++ [v]) s' | Raise e => E e s' end) s) ->
    forall s, Inv [] [] s ->
    safe (pmap l f) (fun r s' => match r with Ok vs => Inv l vs s' | Raise e => E e s' end) s.
  Proof. intros X A f Inv E l Hst Hb s H0. exact (safe_map_from f Inv E l [] [] Hst Hb s H0). Qed.
End Safe.

(** Threads whose steps the others can rely on stay safe under every schedule. *)
Section Pool.
  Context {V : Type}.
  Notation S := (shared V).
  Variable I : S -> Prop.
  Variables R G : nat -> S -> S -> Prop.
  Hypothesis Rrefl : forall t s, R t s s.
  Hypothesis Rtrans : forall t a b c, R t a b -> R t b c -> R t a c.
  Hypothesis GR : forall t u s s', t <> u -> G t s s' -> R u s s'.
  Variable Q : nat -> res unit -> S -> Prop.

  Definition all_safe (c : list (prog S unit) * S) : Prop :=
    I (snd c) /\ forall t p, nth_error (fst c) t = Some p -> safe I (R t) (G t) p (Q t) (snd c).

  Lemma nth_error_list_upd : forall {A} (l : list A) i a j,
    nth_error (list_upd l i a) j = if (j =? i) && (i <? length l) then Some a else nth_error l j.
  Proof.
    intros A l. induction l as [|x l IH]; intros i a j.
    - destruct i, j; cbn; rewrite ?andb_false_r; reflexivity.
    - destruct i as [|i], j as [|j]; cbn; try reflexivity. rewrite IH. reflexivity.
  Qed.

  Lemma step_safe : forall c t, all_safe c -> all_safe (sched_step c t).
  Proof.
    intros [pl s] t [HI H]. unfold sched_step. cbn [fst snd] in *.
    destruct (nth_error pl t) as [[r|u nx]|] eqn:E; try (split; assumption).
    destruct (H t _ E s (Rrefl t s) HI) as (K1 & K2 & K3).
    split; cbn [fst snd]; [exact K1|]. intros v p Hp. rewrite nth_error_list_upd in Hp.
    destruct (v =? t) eqn:Ev; cbn [andb] in Hp.
    - apply Nat.eqb_eq in Ev. subst v. destruct (t <? length pl) eqn:El.
      + injection Hp as <-. exact K3.
      + apply Nat.ltb_ge in El. apply nth_error_None in El. congruence.
    - apply Nat.eqb_neq in Ev. apply (safe_stable I (R v) (G v) (Rtrans v) p _ s); [|exact (H v p Hp)].
      apply (GR t v); auto.
  Qed.

  Lemma run_safe : forall sched c, all_safe c -> all_safe (fold_left sched_step sched c).
  Proof. induction sched as [|t l IH]; intros c H; cbn; [exact H|]. apply IH, step_safe, H. Qed.
End Pool.
