(** Proofs about KernelSets on the heap. *)
From Coq Require Import String List Arith ZArith Bool Lia.
Import ListNotations.
From Verif Require Import Prelude MatModel MatFacts UtilsModel IndexModel KMModel SpecKM MFacts
  KMFacts KMInv KMHist SetModel SpecSet.

Lemma numsamp_eqb_eq : forall a b, numsamp_eqb a b = true <-> a = b.
Proof.
  intros a b. split.
  - destruct a, b; simpl; try discriminate; try reflexivity; intros H.
    + apply Nat.eqb_eq in H. congruence.
    + apply andb_true_iff in H. destruct H as [H1 H2].
      apply Nat.eqb_eq in H1. apply Nat.eqb_eq in H2. congruence.
  - intros <-. destruct a; simpl; rewrite ?Nat.eqb_refl; reflexivity.
Qed.

Lemma numsamp_eqb_neq : forall a b, numsamp_eqb a b = false <-> a <> b.
Proof.
  intros a b. rewrite <- numsamp_eqb_eq. destruct (numsamp_eqb a b); split; congruence.
Qed.

Lemma numsamp_dec : forall a b : numsamp, {a = b} + {a <> b}.
Proof. decide equality; apply Nat.eq_dec. Qed.

Lemma nth_error_upd : forall {A} (l : list A) i a j,
  nth_error (list_upd l i a) j = if (j =? i) && (i <? length l) then Some a else nth_error l j.
Proof.
  intros A l. induction l as [|x l IH]; intros i a j.
  - simpl. rewrite andb_false_r. reflexivity.
  - destruct i, j; simpl; try reflexivity. rewrite IH. reflexivity.
Qed.

Lemma nth_error_upd_same : forall {A} (l : list A) i a x, nth_error l i = Some x ->
  nth_error (list_upd l i a) i = Some a.
Proof.
  intros A l i a x H. rewrite nth_error_upd, Nat.eqb_refl. simpl.
  assert (i < length l) by (apply nth_error_Some; congruence).
  destruct (i <? length l) eqn:Hl; [reflexivity|]. apply Nat.ltb_ge in Hl. lia.
Qed.

Lemma nth_error_upd_other : forall {A} (l : list A) i a j, j <> i ->
  nth_error (list_upd l i a) j = nth_error l j.
Proof.
  intros A l i a j H. rewrite nth_error_upd. apply Nat.eqb_neq in H. rewrite H. reflexivity.
Qed.

Lemma list_upd_upd : forall {A} (l : list A) i a b, list_upd (list_upd l i a) i b = list_upd l i b.
Proof.
  intros A l. induction l as [|x l IH]; intros [|i] a b; simpl; try reflexivity.
  rewrite IH. reflexivity.
Qed.

Lemma list_upd_same : forall {A} (l : list A) i a, nth_error l i = Some a -> list_upd l i a = l.
Proof.
  intros A l. induction l as [|x l IH]; intros [|i] a H; simpl in *; try discriminate.
  - congruence.
  - rewrite IH; auto.
Qed.

Lemma nth_error_snoc : forall {A} (l : list A) a j,
  nth_error (l ++ [a]) j = if j =? length l then Some a else nth_error l j.
Proof.
  intros A l a j. destruct (j =? length l) eqn:Hj.
  - apply Nat.eqb_eq in Hj. subst j. rewrite nth_error_app2, Nat.sub_diag; [reflexivity|lia].
  - apply Nat.eqb_neq in Hj. destruct (lt_dec j (length l)).
    + apply nth_error_app1. assumption.
    + rewrite nth_error_app2 by lia.
      replace (nth_error l j) with (@None A) by (symmetry; apply nth_error_None; lia).
      destruct (j - length l) as [|q] eqn:Hq; [lia|]. destruct q; reflexivity.
Qed.

Section Facts.
  Context {E V U : Type}.
  Variable N : numops V.
  Variable C : cmpops V.
  Variable numeric : list E -> bool.
  Notation World := (world E V U).
  Notation APP := (append (E:=E) (U:=U) N C).
  Notation WSTEP := (wstep (E:=E) (V:=V) (U:=U) N C numeric).

  (** ** append *)
  Definition joins (s : kset E) (o : kobj E V U) : bool :=
    (negb (s_init s) && numsamp_eqb (s_num s) NSNone) || numsamp_eqb (s_num s) (obj_num o).

  Definition joined (s : kset E) (o : kobj E V U) (l : nat) : kset E :=
    mkSet (obj_num o) (s_init s || numsamp_eqb (s_num s) NSNone) (s_members s ++ [l]) (s_sample s).

  Lemma append_ref : forall k l (w : World),
    APP k (ARef l) w =
    match nth_error (w_objs w) l, nth_error (w_sets w) k with
    | Some o, Some s =>
        if joins s o
        then (set_sets (list_upd (w_sets w) k (joined s o l)) w, Ok tt)
        else (w, Raise KMSetAdditionError)
    | _, _ => (w, Raise NameError)
    end.
  Proof.
    intros k l w. unfold append, bind, ret, get_obj, get_set, put_set, modify, raise.
    destruct (nth_error (w_objs w) l) as [o|] eqn:Ho; [|reflexivity].
    destruct (nth_error (w_sets w) k) as [s|] eqn:Hs; [|reflexivity].
    unfold joins, joined.
    destruct (s_init s) eqn:Hi; cbn [negb andb orb].
    - rewrite Hs. destruct (numsamp_eqb (s_num s) (obj_num o)) eqn:Hn; cbn [negb].
      + apply numsamp_eqb_eq in Hn. rewrite Hn, Hi. reflexivity.
      + reflexivity.
    - destruct (numsamp_eqb (s_num s) NSNone) eqn:Hn; cbn [negb andb orb].
      + cbn [set_sets w_sets]. rewrite (nth_error_upd_same _ _ _ _ Hs). cbn [s_num s_init s_members s_sample].
        assert (He : numsamp_eqb (obj_num o) (obj_num o) = true) by (apply numsamp_eqb_eq; reflexivity).
        rewrite He. cbn [negb]. unfold set_sets. cbn [w_objs w_sets].
        rewrite list_upd_upd. reflexivity.
      + rewrite Hs. destruct (numsamp_eqb (s_num s) (obj_num o)) eqn:Hm; cbn [negb].
        * apply numsamp_eqb_eq in Hm. rewrite Hm, Hi. reflexivity.
        * reflexivity.
  Qed.

  Lemma append_array : forall k r (w : World),
    APP k (AArray r) w =
    match rbind r (precomputed_new C (v_nan N)) with
    | Raise e => (w, Raise e)
    | Ok A => APP k (ARef (length (w_objs w))) (set_objs (w_objs w ++ [OPre A]) w)
    end.
  Proof.
    intros k r w. unfold append, bind, ret, lift, new_obj.
    destruct r as [x|e]; cbn [rbind]; [|reflexivity].
    destruct (precomputed_new C (v_nan N) x); reflexivity.
  Qed.

  Lemma append_func : forall k (w : World), APP k AFunc w = (w, Raise AttributeError).
  Proof. reflexivity. Qed.

  (** ** The invariant of sets *)
  Definition good_set (w : World) (s : kset E) : Prop :=
    (forall l, In l (s_members s) -> has_num w l (s_num s)) /\
    (s_init s = false -> s_num s = NSNone -> s_members s = []).
  Definition good (w : World) : Prop :=
    forall k s, nth_error (w_sets w) k = Some s -> good_set w s.

  Lemma good_consistent : forall w, good w -> consistent w.
  Proof.
    intros w H k n ms (b & x & Hk) l Hl. destruct (H _ _ Hk) as [H1 _]. apply H1. exact Hl.
  Qed.

  Definition nums_kept (w w' : World) : Prop := forall l n, has_num w l n -> has_num w' l n.

  Lemma nums_kept_refl : forall w, nums_kept w w.
  Proof. intros w l n H. exact H. Qed.
  Lemma nums_kept_trans : forall w1 w2 w3, nums_kept w1 w2 -> nums_kept w2 w3 -> nums_kept w1 w3.
  Proof. intros w1 w2 w3 H1 H2 l n H. apply H2, H1, H. Qed.
  Lemma objs_nums_kept : forall w w' : World, w_objs w' = w_objs w -> nums_kept w w'.
  Proof. intros w w' H l n. unfold has_num. rewrite H. auto. Qed.

  Lemma good_set_kept : forall w w' s, nums_kept w w' -> good_set w s -> good_set w' s.
  Proof. intros w w' s H [H1 H2]. split; [|exact H2]. intros l Hl. apply H, H1, Hl. Qed.

  (** Changing one set. *)
  Lemma good_upd : forall w w' k s, good w -> nums_kept w w' ->
    w_sets w' = list_upd (w_sets w) k s -> good_set w' s -> good w'.
  Proof.
    intros w w' k s Hg Hn Hs Hgs j t Hj. rewrite Hs, nth_error_upd in Hj.
    destruct ((j =? k) && (k <? length (w_sets w))).
    - inversion Hj; subst. exact Hgs.
    - apply (good_set_kept w w' t Hn). apply (Hg j). exact Hj.
  Qed.

  Lemma good_same : forall w w', good w -> nums_kept w w' -> w_sets w' = w_sets w -> good w'.
  Proof.
    intros w w' Hg Hn Hs j t Hj. rewrite Hs in Hj. apply (good_set_kept w w' t Hn).
    apply (Hg j). exact Hj.
  Qed.

  Lemma nums_kept_new_obj : forall (w : World) o, nums_kept w (set_objs (w_objs w ++ [o]) w).
  Proof.
    intros w o l n (o' & Ho & Hn). exists o'. split; [|exact Hn]. cbn [set_objs w_objs].
    rewrite nth_error_app1; [exact Ho|]. apply nth_error_Some. congruence.
  Qed.

  Lemma nums_kept_append : forall k a (w : World), nums_kept w (fst (APP k a w)).
  Proof.
    assert (Hr : forall k l (w : World), nums_kept w (fst (APP k (ARef l) w))).
    { intros k l w. rewrite append_ref.
      destruct (nth_error (w_objs w) l); [|apply nums_kept_refl].
      destruct (nth_error (w_sets w) k); [|apply nums_kept_refl].
      destruct (joins k1 k0); [apply objs_nums_kept; reflexivity|apply nums_kept_refl]. }
    intros k [l| |r] w; [apply Hr|apply nums_kept_refl|].
    rewrite append_array. destruct (rbind r (precomputed_new C (v_nan N))) as [A|e];
      [|apply nums_kept_refl].
    eapply nums_kept_trans; [apply nums_kept_new_obj|apply Hr].
  Qed.

  Lemma good_append : forall k a (w : World), good w -> good (fst (APP k a w)).
  Proof.
    assert (Hr : forall k l (w : World), good w -> good (fst (APP k (ARef l) w))).
    { intros k l w Hg. rewrite append_ref.
      destruct (nth_error (w_objs w) l) as [o|] eqn:Ho; [|exact Hg].
      destruct (nth_error (w_sets w) k) as [s|] eqn:Hs; [|exact Hg].
      destruct (joins s o) eqn:Hj; [|exact Hg]. cbn [fst].
      apply (good_upd w _ k (joined s o l) Hg); [apply objs_nums_kept; reflexivity|reflexivity|].
      destruct (Hg k s Hs) as [H1 H2]. split.
      - intros l' Hl'. cbn [joined s_members s_num] in *. apply in_app_or in Hl'.
        destruct Hl' as [Hl'|[<-|[]]].
        + unfold joins in Hj. apply orb_true_iff in Hj. destruct Hj as [Hj|Hj].
          * apply andb_true_iff in Hj. destruct Hj as [Hj1 Hj2]. apply negb_true_iff in Hj1.
            apply numsamp_eqb_eq in Hj2. rewrite (H2 Hj1 Hj2) in Hl'. destruct Hl'.
          * apply numsamp_eqb_eq in Hj. rewrite <- Hj. apply H1. exact Hl'.
        + exists o. split; [exact Ho|reflexivity].
      - cbn [joined s_init s_num s_members]. intros Hi Hn. exfalso.
        apply orb_false_iff in Hi. destruct Hi as [Hi Hi2]. unfold joins in Hj.
        rewrite Hi, Hi2 in Hj. cbn in Hj. apply numsamp_eqb_eq in Hj. rewrite Hj, Hn in Hi2.
        discriminate. }
    intros k [l| |r] w Hg; [apply Hr, Hg|exact Hg|].
    rewrite append_array. destruct (rbind r (precomputed_new C (v_nan N))) as [A|e]; [|exact Hg].
    apply Hr. apply (good_same w); [exact Hg|apply nums_kept_new_obj|reflexivity].
  Qed.

  (** A loop preserves what its body preserves. *)
  Lemma for_each_pres : forall {A} (I : World -> Prop) (body : A -> M World unit) l w,
    (forall a w', I w' -> I (fst (body a w'))) -> I w -> I (fst (for_each l body w)).
  Proof.
    intros A I body l. induction l as [|a l IH]; intros w Hb Hw; [exact Hw|].
    cbn [for_each]. unfold bind. specialize (Hb a w Hw) as Ha.
    destruct (body a w) as [w' [u|e]]; [apply IH; assumption|exact Ha].
  Qed.

  Lemma map_each_pres : forall {A B} (I : World -> Prop) (body : A -> M World B) l w,
    (forall a w', I w' -> I (fst (body a w'))) -> I w -> I (fst (map_each l body w)).
  Proof.
    intros A B I body l. induction l as [|a l IH]; intros w Hb Hw; [exact Hw|].
    cbn [map_each]. unfold bind. specialize (Hb a w Hw) as Ha.
    destruct (body a w) as [w' [u|e]]; [|exact Ha].
    specialize (IH w' Hb Ha). destruct (map_each l body w') as [w'' [u'|e']]; exact IH.
  Qed.

  Lemma good_set_new : forall kl num (w : World), good w -> good (fst (set_new N C kl num w)).
  Proof.
    intros kl num w Hg. unfold set_new, bind, new_set.
    set (s0 := match num with Some n => _ | None => _ end).
    assert (H0 : good (set_sets (w_sets w ++ [s0]) w)).
    { intros j t Hj. cbn [set_sets w_sets] in Hj. rewrite nth_error_snoc in Hj.
      destruct (j =? length (w_sets w)).
      - inversion Hj; subst t. unfold s0. destruct num; split; cbn; try easy.
      - destruct (Hg j t Hj) as [H1 H2]. split; [exact H1|exact H2]. }
    destruct kl; cbn beta iota.
    - exact H0.
    - match goal with |- good (fst (let (_, _) := ?t in _)) =>
        assert (H1 : good (fst t)) by (apply for_each_pres; [|exact H0]; intros; apply good_append; assumption);
        destruct t as [w' [u|e]]; exact H1 end.
    - unfold lift. destruct (subarrays a) as [l|e]; [|exact H0].
      match goal with |- good (fst (let (_, _) := ?t in _)) =>
        assert (H1 : good (fst t)) by (apply for_each_pres; [|exact H0]; intros; apply good_append; assumption);
        destruct t as [w' [u|e]]; exact H1 end.
    - match goal with |- good (fst (let (_, _) := ?t in _)) =>
        assert (H1 : good (fst t)) by (apply good_append; assumption);
        destruct t as [w' [u|e]]; exact H1 end.
    - exact H0.
  Qed.

  Lemma good_take : forall k ix (w : World), good w -> good (fst (take N C k ix w)).
  Proof.
    intros k ix w Hg. unfold take, bind, get_set.
    destruct (nth_error (w_sets w) k) as [s|]; [|exact Hg]. unfold lift.
    destruct (check_indices s ix) as [ns|e]; [|exact Hg].
    assert (H0 := good_set_new KLNone None w Hg).
    destruct (set_new N C KLNone None w) as [w' [k'|e]]; [|exact H0].
    match goal with |- good (fst (let (_, _) := ?t in _)) =>
      assert (H1 : good (fst t)) end.
    { apply for_each_pres; [|exact H0]. intros i w'' Hw. destruct (nth_error (s_members s) i);
        [apply good_append; exact Hw|exact Hw]. }
    destruct (for_each _ _ w') as [w'' [u|e]]; exact H1.
  Qed.

  Lemma good_extend : forall k other (w : World), good w -> good (fst (extend N C k other w)).
  Proof.
    intros k [k'|] w Hg; [|exact Hg]. unfold extend, bind, get_set.
    destruct (nth_error (w_sets w) k) as [s|]; [|exact Hg].
    destruct (nth_error (w_sets w) k') as [s'|]; [|exact Hg].
    destruct (negb (numsamp_eqb (s_num s') (s_num s))); [exact Hg|].
    apply for_each_pres; [|exact Hg]. intros; apply good_append; assumption.
  Qed.

  (** ** Methods of single objects *)
  Lemma on_km_sets : forall {A} l (m : M (km E V U) A) (w : World),
    w_sets (fst (on_km l m w)) = w_sets w.
  Proof.
    intros A l m w. unfold on_km. destruct (nth_error (w_objs w) l) as [[s|]|]; try reflexivity.
    destruct (m s); reflexivity.
  Qed.

  Lemma on_km_other : forall {A} l (m : M (km E V U) A) (w : World) l', l' <> l ->
    nth_error (w_objs (fst (on_km l m w))) l' = nth_error (w_objs w) l'.
  Proof.
    intros A l m w l' Hl. unfold on_km. destruct (nth_error (w_objs w) l) as [[s|]|]; try reflexivity.
    destruct (m s). cbn [fst set_objs w_objs]. apply nth_error_upd_other, Hl.
  Qed.

  Lemma nums_kept_on_km : forall {A} l (m : M (km E V U) A) (w : World),
    (forall s, k_num_samples (fst (m s)) = k_num_samples s) -> nums_kept w (fst (on_km l m w)).
  Proof.
    intros A l m w Hm l' n (o & Ho & Hn). unfold on_km.
    destruct (nth_error (w_objs w) l) as [[s|]|] eqn:Hl; try (exists o; split; assumption).
    specialize (Hm s). destruct (m s) as [s' r]. cbn [fst] in Hm. unfold has_num.
    cbn [fst set_objs w_objs]. rewrite nth_error_upd. destruct ((l' =? l) && (l <? length (w_objs w))) eqn:Hc.
    - apply andb_true_iff in Hc. destruct Hc as [Hc _]. apply Nat.eqb_eq in Hc. subst l'.
      rewrite Hl in Ho. inversion Ho; subst o. exists (OKM s'). split; [reflexivity|].
      cbn [obj_num] in *. congruence.
    - exists o. split; assumption.
  Qed.

  Lemma num_step : forall o (s : km E V U), is_attach o = false ->
    k_num_samples (fst (step N o s)) = k_num_samples s.
  Proof.
    intros o s Ho. assert (H := frame_step N o Ho s). unfold frame in H. congruence.
  Qed.

  Lemma sets_for_each_on_km : forall {A B} (f : A -> nat) (m : A -> M (km E V U) B) l (w : World),
    w_sets (fst (for_each l (fun a => on_km (f a) (m a) ;;; ret tt) w)) = w_sets w.
  Proof.
    intros A B f m l w. apply (for_each_pres (fun w' => w_sets w' = w_sets w)); [|reflexivity].
    intros a w' Hw. unfold bind. assert (H := on_km_sets (f a) (m a) w').
    destruct (on_km (f a) (m a) w') as [w'' [u|e]]; cbn [fst ret] in *; congruence.
  Qed.

  Lemma fst_wfmap : forall {A B} (f : A -> B) (m : M World A) w, fst (wfmap f m w) = fst (m w).
  Proof. intros A B f m w. unfold wfmap, bind. destruct (m w) as [w' [a|e]]; reflexivity. Qed.
End Facts.
