(** Reasoning rules for the state-and-exception monad. *)
From Coq Require Import List Bool.
Import ListNotations.
From Verif Require Import Prelude.

Section Rules.
  Context {St : Type}.

  (** [holds m s Q]: running [m] from [s] ends in a state and outcome satisfying [Q]. *)
  Definition holds {A} (m : M St A) (s : St) (Q : St -> res A -> Prop) : Prop :=
    Q (fst (m s)) (snd (m s)).

  Lemma holds_conseq : forall {A} (m : M St A) s (Q Q' : St -> res A -> Prop),
    holds m s Q -> (forall s' r, Q s' r -> Q' s' r) -> holds m s Q'.
  Proof. unfold holds. auto. Qed.

  Lemma holds_bind : forall {A B} (m : M St A) (f : A -> M St B) s Q,
    holds m s (fun s' r => match r with
                           | Ok a => holds (f a) s' Q
                           | Raise e => Q s' (Raise e)
                           end) ->
    holds (bind m f) s Q.
  Proof.
    unfold holds, bind. intros A B m f s Q H. destruct (m s) as [s' [a|e]]; simpl in *;
      exact H.
  Qed.

  Lemma holds_ret : forall {A} (a : A) s (Q : St -> res A -> Prop),
    Q s (Ok a) -> holds (ret a) s Q.
  Proof. unfold holds, ret. auto. Qed.

  Lemma holds_raise : forall {A} e s (Q : St -> res A -> Prop),
    Q s (Raise e) -> holds (raise e) s Q.
  Proof. unfold holds, raise. auto. Qed.

  Lemma holds_get : forall s (Q : St -> res St -> Prop), Q s (Ok s) -> holds get s Q.
  Proof. unfold holds, get. auto. Qed.

  Lemma holds_modify : forall f s (Q : St -> res unit -> Prop),
    Q (f s) (Ok tt) -> holds (modify f) s Q.
  Proof. unfold holds, modify. auto. Qed.

  Lemma holds_lift : forall {A} (r : res A) s (Q : St -> res A -> Prop),
    Q s r -> holds (lift r) s Q.
  Proof. unfold holds, lift. auto. Qed.

  Lemma holds_try : forall {A} (m : M St A) e s Q,
    holds m s (fun s' r => match r with Ok a => Q s' (Ok a) | Raise _ => Q s' (Raise e) end) ->
    holds (try_except m e) s Q.
  Proof.
    unfold holds, try_except. intros A m e s Q H. destruct (m s) as [s' [a|e']]; exact H.
  Qed.

  Lemma holds_for_each : forall {A} (body : A -> M St unit) (I : list A -> St -> Prop)
      (R : St -> exn -> Prop) (l done : list A) s,
    I done s ->
    (forall done' a s', I done' s' -> In a l ->
       holds (body a) s' (fun s'' r => match r with
                                       | Ok _ => I (done' ++ [a]) s''
                                       | Raise e => R s'' e
                                       end)) ->
    holds (for_each l body) s (fun s' r => match r with
                                           | Ok _ => I (done ++ l) s'
                                           | Raise e => R s' e
                                           end).
  Proof.
    intros A body I R l. induction l as [|a l IH]; intros done s H0 Hstep; simpl.
    - apply holds_ret. rewrite app_nil_r. exact H0.
    - apply holds_bind. eapply holds_conseq.
      + apply Hstep; [exact H0|left; reflexivity].
      + intros s' [[]|e] H; [|exact H].
        replace (done ++ a :: l) with ((done ++ [a]) ++ l)
          by (rewrite <- app_assoc; reflexivity).
        apply IH; [exact H|]. intros; apply Hstep; [assumption|right; assumption].
  Qed.

  Lemma holds_map_each : forall {A B} (body : A -> M St B) (I : list A -> St -> Prop)
      (g : A -> B) (R : St -> exn -> Prop) (l done : list A) s,
    I done s ->
    (forall done' a s', I done' s' -> In a l ->
       holds (body a) s' (fun s'' r => match r with
                                       | Ok b => b = g a /\ I (done' ++ [a]) s''
                                       | Raise e => R s'' e
                                       end)) ->
    holds (map_each l body) s (fun s' r => match r with
                                           | Ok bs => bs = map g l /\ I (done ++ l) s'
                                           | Raise e => R s' e
                                           end).
  Proof.
    intros A B body I g R l. induction l as [|a l IH]; intros done s H0 Hstep; simpl.
    - apply holds_ret. split; [reflexivity|]. rewrite app_nil_r. exact H0.
    - apply holds_bind. eapply holds_conseq.
      + apply Hstep; [exact H0|left; reflexivity].
      + intros s' [b|e] H; [|exact H]. destruct H as [-> H].
        apply holds_bind. eapply holds_conseq.
        * apply (IH (done ++ [a]) s' H). intros; apply Hstep; [assumption|right; assumption].
        * intros s'' [bs|e] H'; [|exact H'].
          destruct H' as [-> H']. apply holds_ret. split; [reflexivity|].
          rewrite <- app_assoc in H'. exact H'.
  Qed.

  (** Nested loops are one loop over the pairs. *)
  Lemma for_each_app : forall {A} (body : A -> M St unit) l1 l2 s,
    for_each (l1 ++ l2) body s = (for_each l1 body ;;; for_each l2 body) s.
  Proof.
    intros A body l1 l2. induction l1 as [|a l1 IH]; intros s; simpl; [reflexivity|].
    unfold bind at 1 2 3. destruct (body a s) as [s' [[]|e]] eqn:E; [|reflexivity].
    rewrite IH. unfold bind. reflexivity.
  Qed.

  Lemma for_each_ext : forall {A} (b1 b2 : A -> M St unit) l s,
    (forall a s', In a l -> b1 a s' = b2 a s') -> for_each l b1 s = for_each l b2 s.
  Proof.
    intros A b1 b2 l. induction l as [|a l IH]; intros s H; simpl; [reflexivity|].
    unfold bind. rewrite (H a s (or_introl eq_refl)).
    destruct (b2 a s) as [s' [[]|e]]; [|reflexivity].
    apply IH. intros; apply H; right; assumption.
  Qed.

  Lemma for_each_map : forall {A B} (g : A -> B) (body : B -> M St unit) l s,
    for_each (map g l) body s = for_each l (fun a => body (g a)) s.
  Proof.
    intros A B g body l. induction l as [|a l IH]; intros s; simpl; [reflexivity|].
    unfold bind. destruct (body (g a) s) as [s' [[]|e]]; [|reflexivity]. apply IH.
  Qed.

  Lemma for_each_flat_map : forall {A B C} (g : A -> list B) (body : A -> B -> M St unit)
      (pairing : A -> B -> C) (b' : C -> M St unit) l s,
    (forall a b, b' (pairing a b) = body a b) ->
    for_each l (fun a => for_each (g a) (body a)) s =
    for_each (flat_map (fun a => map (pairing a) (g a)) l) b' s.
  Proof.
    intros A B C g body pairing b' l s H. revert s.
    induction l as [|a l IH]; intros s; simpl; [reflexivity|].
    rewrite for_each_app. unfold bind. rewrite for_each_map.
    rewrite (for_each_ext (body a) (fun b => b' (pairing a b)) (g a) s)
      by (intros; rewrite H; reflexivity).
    destruct (for_each (g a) (fun b => b' (pairing a b)) s) as [s' [[]|e]]; [|reflexivity].
    apply IH.
  Qed.
End Rules.

(** [preserves I m]: [I] survives [m], whether or not it raises. *)
Definition preserves {St A} (I : St -> Prop) (m : M St A) : Prop :=
  forall s, I s -> I (fst (m s)).
