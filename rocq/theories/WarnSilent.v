(** Silence means finite. *)
From Coq Require Import String List Arith ZArith Bool Lia.
Import ListNotations.
From Verif Require Import Prelude MatModel MatFacts UtilsModel IndexModel KMModel SpecKM SpecRef WarnModel
  SpecWarn MFacts KMFacts KMIndex RefProps WarnFacts.
Local Open Scope list_scope.

(** km[:, :] is recognised as a request for everything. *)
Lemma colon_true : forall d r, get_indices_in_sample d (ISlice None None None) = Ok r -> snd r = true.
Proof.
  intros [n|] r H; [|discriminate H]. destruct n as [|n]; [discriminate H|].
  destruct (get_indices_valid (S n) _ (colon_valid (S n) ltac:(lia))) as (sel & Hs & S1 & _).
  rewrite Hs in H. injection H as <-. cbn [snd].
  rewrite (selection_unique _ _ _ _ S1 (colon_all (S n))), seq_length. apply Nat.eqb_refl.
Qed.

Section Silent.
  Context {E V U : Type}.
  Variable N : numops V.
  Notation KM := (km E V U).
  Notation wact := (M (KM * list warning)).

  (** ** What the loops leave alone *)
  Record kept (s s' : KM) : Prop := mkKept {
    kt_kernel : k_kernel s' = k_kernel s;
    kt_keep : k_keep_normed s' = k_keep_normed s;
    kt_normed : k_normed s' = k_normed s;
    kt_is_normed : k_is_normed s' = k_is_normed s;
    kt_populated : k_populated s' = k_populated s;
    kt_full : k_full s <> None -> k_full s' <> None;
    kt_shape : k_shape s' = k_shape s
  }.
  Definition keep {A} (m : M KM A) : Prop := forall s, kept s (fst (m s)).
  Lemma kept_refl : forall s, kept s s.
  Proof. intros s. constructor; auto. Qed.
  Lemma kept_trans : forall s1 s2 s3, kept s1 s2 -> kept s2 s3 -> kept s1 s3.
  Proof.
    intros s1 s2 s3 [A1 A2 A3 A4 A5 A6 A7] [B1 B2 B3 B4 B5 B6 B7]. constructor; try congruence. auto.
  Qed.
  Lemma keep_bind : forall {A B} (m : M KM A) (f : A -> M KM B), keep m -> (forall a, keep (f a)) -> keep (bind m f).
  Proof.
    intros A B m f Hm Hf s. unfold bind. specialize (Hm s). destruct (m s) as [s' [a|e]]; [|exact Hm].
    eapply kept_trans; [exact Hm|apply Hf].
  Qed.
  Lemma keep_ret : forall {A} (a : A), keep (ret a).
  Proof. intros A a s. apply kept_refl. Qed.
  Lemma keep_raise : forall {A} e, keep (@raise KM A e).
  Proof. intros A e s. apply kept_refl. Qed.
  Lemma keep_lift : forall {A} (r : res A), keep (lift r).
  Proof. intros A r s. apply kept_refl. Qed.
  Lemma keep_get : keep get.
  Proof. intros s. apply kept_refl. Qed.
  Lemma keep_attr : forall {A} (f : KM -> option A), keep (attr_or f).
  Proof. intros A f. unfold attr_or. apply keep_bind; [apply keep_get|]. intros s. destruct (f s); [apply keep_ret|apply keep_raise]. Qed.
  Lemma keep_modify : forall f, (forall s, kept s (f s)) -> keep (modify f).
  Proof. intros f H s. apply H. Qed.
  Lemma keep_for : forall {A} (body : A -> M KM unit), (forall a, keep (body a)) -> forall l, keep (for_each l body).
  Proof.
    intros A body Hb l. induction l as [|a l IH]; cbn [for_each]; [apply keep_ret|]. apply keep_bind; auto.
  Qed.
  Lemma keep_try : forall {A} (m : M KM A) e, keep m -> keep (try_except m e).
  Proof. intros A m e H s. unfold try_except. specialize (H s). destruct (m s) as [s' [a|e']]; exact H. Qed.
  Lemma keep_when : forall b m, keep m -> keep (when b m).
  Proof. intros [] m H; [exact H|apply keep_ret]. Qed.

  Ltac kp :=
    first
      [ apply keep_ret | apply keep_raise | apply keep_lift | apply keep_get | apply keep_attr
      | apply keep_bind; [|intro] | apply keep_when | apply keep_try | apply keep_for; intro
      | apply keep_modify; let s := fresh "s" in intro s; destruct s; constructor; cbn; congruence ].

  Lemma keep_eval : forall i j, keep (eval_kernel i j : M KM V).
  Proof.
    intros i j. unfold eval_kernel. repeat (kp || match goal with
      | |- keep (if ?b then _ else _) => destruct b
      | |- keep (match ?b with _ => _ end) => destruct b
      | |- keep (let (_, _) := ?b in _) => destruct b end).
  Qed.
  Lemma keep_set_entry : forall i j v, keep (set_full_entry i j v : M KM unit).
  Proof. intros i j v. unfold set_full_entry. repeat kp. Qed.

  (** The parts of the object that a request for the matrix does not touch. *)
  Definition outside (s : KM) := (k_kernel s, k_keep_normed s, k_normed s, k_is_normed s, k_shape s).
  Lemma kept_outside : forall s s', kept s s' -> outside s' = outside s.
  Proof. intros s s' [A1 A2 A3 A4 A5 A6 A7]. unfold outside. congruence. Qed.

  Lemma upper_case : forall d s s' q, (k_full s = None -> k_populated s = false) ->
    (k_full s <> None -> k_populated s = true) ->
    populate_upper N d s = (s', q) ->
    q = Raise RuntimeError \/ (s' = s /\ exists e, q = Raise e) \/
    (q = Ok tt /\ k_full s' <> None /\ k_populated s' = true /\ outside s' = outside s).
  Proof.
    intros d s s' q H0 H1 H. unfold populate_upper in H. unfold bind at 1, get at 1 in H.
    destruct (k_full s) as [a|] eqn:Hf.
    - rewrite (H1 ltac:(discriminate)) in H. cbn in H. injection H as <- <-.
      right. right. rewrite Hf. repeat split; [discriminate|]. apply H1. discriminate.
    - rewrite (H0 eq_refl) in H. cbn [negb andb is_some when] in H.
      unfold attr_or at 1, bind at 1 2, get at 1 in H. destruct (k_shape s) as [sh|] eqn:Hs.
      2:{ unfold raise in H. injection H as <- <-. right. left. eauto. }
      unfold ret at 1 in H. unfold bind at 1, modify at 1 in H. cbv beta iota in H.
      set (s1 := set_full _ s) in H.
      set (loop := for_each (seq 0 (fst sh)) (fun i => for_each (seq i (snd sh - i)) (fun j =>
              v <- eval_kernel i j ;; set_full_entry i j v))) in H.
      assert (L : keep loop).
      { unfold loop. repeat (apply keep_eval || apply keep_set_entry || kp). }
      unfold bind at 1, try_except in H. specialize (L s1).
      destruct (loop s1) as [s2 [[]|e]]; cbn [fst] in L.
      2:{ injection H as <- <-. left. reflexivity. }
      unfold modify in H. injection H as <- <-. right. right.
      split; [reflexivity|]. split; [|split; [reflexivity|]].
      + destruct L as [_ _ _ _ _ L _]. cbn. apply L. unfold s1. cbn. discriminate.
      + assert (O := kept_outside _ _ L). unfold s1, outside in *. cbn in *. exact O.
  Qed.

  Lemma lower_case : forall l s s' q, populate_lower N l s = (s', q) ->
    q = Raise RuntimeError \/
    (q = Ok tt /\ (k_full s <> None -> k_full s' <> None) /\ k_populated s' = k_populated s /\ outside s' = outside s).
  Proof.
    intros l s s' q H. unfold populate_lower in H. unfold bind at 1, get at 1 in H.
    destruct (l && negb (k_lower s)); cbn [when] in H.
    2:{ unfold ret in H. injection H as <- <-. right. auto. }
    match type of H with bind (try_except ?m _) _ _ = _ => set (loop := m) in H; assert (L : keep loop) end.
    { unfold loop. repeat (apply keep_eval || apply keep_set_entry || kp || match goal with
        | |- keep (if ?b then _ else _) => destruct b end). }
    unfold bind at 1, try_except in H. specialize (L s).
    destruct (loop s) as [s2 [[]|e]]; cbn [fst] in L.
    2:{ injection H as <- <-. left. reflexivity. }
    unfold modify in H. injection H as <- <-. right.
    assert (O := kept_outside _ _ L). destruct L as [_ _ _ _ L1 L2 _].
    split; [reflexivity|]. split; [exact L2|]. split; [exact L1|]. unfold outside in *. cbn. exact O.
  Qed.

  Lemma pop_case : forall d l s s' q, (k_full s = None -> k_populated s = false) ->
    (k_full s <> None -> k_populated s = true) ->
    populate_fully N d l s = (s', q) ->
    q = Raise RuntimeError \/ (s' = s /\ exists e, q = Raise e) \/
    (exists a, k_full s' = Some a /\ k_populated s' = true /\ outside s' = outside s /\
       (kfmt (k_kernel s) = true -> q = Ok a)).
  Proof.
    intros d l s s' q H0 H1 H. unfold populate_fully in H. unfold bind at 1 in H.
    destruct (populate_upper N d s) as [s1 q1] eqn:E1.
    destruct (upper_case d s s1 q1 H0 H1 E1) as [->|[[-> [e ->]]|(-> & F1 & P1 & O1)]].
    { injection H as <- <-. left. reflexivity. }
    { injection H as <- <-. right. left. eauto. }
    unfold bind at 1 in H. destruct (populate_lower N l s1) as [s2 q2] eqn:E2.
    destruct (lower_case l s1 s2 q2 E2) as [->|(-> & F2 & P2 & O2)].
    { injection H as <- <-. left. reflexivity. }
    specialize (F2 F1). unfold bind at 1 in H. destruct (densify d s2) as [s3 q3] eqn:E3.
    assert (E4 : q3 = Ok tt /\ k_full s3 <> None /\ k_populated s3 = k_populated s2 /\ outside s3 = outside s2).
    { unfold densify, bind, attr_or, bind, get in E3. destruct (k_full s2) as [b|] eqn:Hb; [|destruct (F2 eq_refl)].
      cbn in E3. destruct (is_sparse b && d); unfold modify, ret in E3; cbn in E3; injection E3 as <- <-;
        unfold outside; cbn; rewrite ?Hb; (repeat split; discriminate). }
    destruct E4 as (-> & F3 & P3 & O3). unfold bind at 1, attr_or, bind at 1, get at 1 in H.
    destruct (k_full s3) as [a|] eqn:Ha; [|destruct (F3 eq_refl)]. cbn [ret] in H. unfold ret at 1 in H.
    right. right. exists a.
    assert (Hk : k_kernel s3 = k_kernel s).
    { unfold outside in O1, O2, O3. congruence. }
    unfold warn_if_nan_inf, bind, get, ret, raise in H. rewrite Hk in H.
    destruct (contains_nan_inf N a && negb (kfmt (k_kernel s))) eqn:B; injection H as <- <-.
    - split; [exact Ha|]. split; [congruence|]. split; [congruence|]. intros Hf. rewrite Hf, andb_false_r in B. discriminate.
    - split; [exact Ha|]. split; [congruence|]. split; [congruence|]. reflexivity.
  Qed.

  (** ** The invariant *)
  Record good (s : KM) : Prop := mkGood {
    gd_fmt : kfmt (k_kernel s) = true;
    gd_none : k_full s = None -> k_populated s = false;
    gd_some : k_full s <> None -> k_populated s = true;
    gd_full : forall a, k_full s = Some a -> all_finite N a;
    gd_normed : k_is_normed s = true -> k_normed s <> None;
    gd_finite : k_is_normed s = true -> forall a, k_normed s = Some a -> all_finite N a
  }.

  (** If there is no warning and no RuntimeError, the state stays good and the outcome satisfies [Q]. *)
  Definition safe {A} (P : KM -> Prop) (mw : wact A) (m : M KM A) (Q : KM -> A -> Prop) : Prop :=
    logs mw m /\ forall s, good s -> P s -> em mw s = [] -> snd (m s) <> Raise RuntimeError ->
      good (fst (m s)) /\ forall a, snd (m s) = Ok a -> Q (fst (m s)) a.

  Lemma safe_bind : forall {A B} (P : KM -> Prop) (mw : wact A) m (fw : A -> wact B) f Q (Q' : KM -> B -> Prop),
    safe P mw m Q -> (forall a, safe (fun s => Q s a) (fw a) (f a) Q') ->
    safe P (bind mw fw) (bind m f) Q'.
  Proof.
    intros A B P mw m fw f Q Q' [Lm Hm] Hf. assert (Lf : forall a, logs (fw a) (f a)) by (intro; apply Hf).
    split; [apply logs_bind; assumption|].
    intros s G HP W R. rewrite (em_bind mw m fw f Lm Lf) in W. apply app_eq_nil in W. destruct W as [W1 W2].
    rewrite bind_run in *. specialize (Hm s G HP W1). destruct (m s) as [s' [a|e]]; cbn [fst snd] in *.
    - destruct Hm as [G' HQ]; [discriminate|]. apply Hf; auto.
    - destruct Hm as [G' HQ]; [congruence|]. split; [exact G'|]. discriminate.
  Qed.
  Lemma safe_weaken : forall {A} (P P' : KM -> Prop) (mw : wact A) m (Q Q' : KM -> A -> Prop), safe P mw m Q ->
    (forall s, P' s -> P s) -> (forall s a, Q s a -> Q' s a) -> safe P' mw m Q'.
  Proof.
    intros A P P' mw m Q Q' [L H] HP HQ. split; [exact L|]. intros s G H' W R.
    destruct (H s G (HP s H') W R) as [G' HR]. split; [exact G'|]. auto.
  Qed.
  Lemma safe_silent : forall {A} (P : KM -> Prop) (m : M KM A) (Q : KM -> A -> Prop),
    (forall s, good s -> P s -> good (fst (m s)) /\ forall a, snd (m s) = Ok a -> Q (fst (m s)) a) ->
    safe P (silent m) m Q.
  Proof. intros A P m Q H. split; [apply logs_silent|]. intros s G HP _ R. apply H; assumption. Qed.
  Lemma safe_get : forall P : KM -> Prop, safe P (silent get) get (fun s a => a = s /\ P s).
  Proof. intros P. apply safe_silent. intros s G HP. split; [exact G|]. intros a Ha. injection Ha as <-. auto. Qed.
  Lemma safe_attr : forall {A} (P : KM -> Prop) (f : KM -> option A), safe P (silent (attr_or f)) (attr_or f) (fun s a => f s = Some a /\ P s).
  Proof.
    intros A P f. apply safe_silent. intros s G HP. unfold attr_or, bind, get. destruct (f s) eqn:Hf; cbn.
    - split; [exact G|]. intros a0 Ha. injection Ha as <-. auto.
    - split; [exact G|discriminate].
  Qed.
  Lemma safe_lift : forall {A} (P : KM -> Prop) (r : res A), safe P (lift r) (lift r) (fun s a => r = Ok a /\ P s).
  Proof. intros A P r. split; [apply logs_lift|]. intros s G HP _ _. split; [exact G|]. auto. Qed.
  Lemma safe_ret : forall {A} (P : KM -> Prop) (a : A), safe P (ret a) (ret a) (fun s b => b = a /\ P s).
  Proof. intros A P a. split; [apply logs_ret|]. intros s G HP _ _. split; [exact G|]. intros b Hb. injection Hb as <-. auto. Qed.
  Lemma safe_raise : forall {A} (P : KM -> Prop) e (Q : KM -> A -> Prop), safe P (raise e) (raise e) Q.
  Proof. intros A P e Q. split; [apply logs_raise|]. intros s G HP _ _. split; [exact G|]. discriminate. Qed.
  Lemma safe_mod : forall (P : KM -> Prop) f (Q : KM -> unit -> Prop), (forall s, good s -> P s -> good (f s) /\ Q (f s) tt) ->
    safe P (silent (modify f)) (modify f) Q.
  Proof.
    intros P f Q H. apply safe_silent. intros s G HP. destruct (H s G HP). cbn. split; [assumption|].
    intros [] _. assumption.
  Qed.
  Lemma safe_when : forall (P : KM -> Prop) (b : bool) mw m (Q : KM -> unit -> Prop), (b = true -> safe P mw m Q) ->
    (b = false -> forall s, P s -> Q s tt) -> (b = false -> logs mw m) ->
    safe P (when b mw) (when b m) Q.
  Proof.
    intros P b mw m Q H1 H2 H3. destruct b; cbn [when]; [auto|].
    apply (safe_weaken P P _ _ _ _ (safe_ret P tt)); [auto|]. intros s a [-> HP]. apply H2; auto.
  Qed.
  Lemma safe_tell : forall {A} (P : KM -> Prop) l (fw : wact A) f Q, safe P fw f Q -> safe P (tell l ;;; fw) f Q.
  Proof.
    intros A P l fw f Q [L H]. split; [apply logs_tell; exact L|]. intros s G HP W R.
    rewrite (em_tell l fw f L) in W. apply app_eq_nil in W. destruct W as [_ W]. auto.
  Qed.

  Lemma safe_pop : forall (P : KM -> Prop) d l, safe P (populate_fully_w N d l) (populate_fully N d l)
    (fun s a => k_full s = Some a /\ all_finite N a).
  Proof.
    intros P d l. split; [apply logs_pop|]. intros s G _ W R. rewrite pop_warns in W.
    destruct (populate_fully N d l s) as [s' q] eqn:Hp. cbn [fst snd] in *.
    destruct (pop_case d l s s' q (gd_none s G) (gd_some s G) Hp) as [->|[[-> [e ->]]|(a & Ha & Pa & Oa & Q)]].
    - destruct (R eq_refl).
    - split; [exact G|discriminate].
    - specialize (Q (gd_fmt s G)). subst q. unfold all_finite.
      destruct (mall (v_finite N) (amat a)) eqn:Fa; [|discriminate W].
      unfold outside in Oa. destruct G as [G1 G2 G3 G4 G5 G6].
      assert (OK : k_kernel s' = k_kernel s /\ k_normed s' = k_normed s /\ k_is_normed s' = k_is_normed s)
        by (repeat split; congruence).
      destruct OK as (K1 & K2 & K3). split.
      + constructor; rewrite ?K1, ?K2, ?K3; auto; try congruence.
      + intros b Hb. injection Hb as <-. auto.
  Qed.

  Lemma safe_ensure : forall (P : KM -> Prop) (s0 : KM),
    safe P (when (negb (k_populated s0)) (populate_fully_w N true true ;;; ret tt))
         (when (negb (k_populated s0)) (populate_fully N true true ;;; ret tt)) (fun _ _ => True).
  Proof.
    intros P s0. apply safe_when; [|auto|].
    - intros _. eapply safe_bind; [apply safe_pop|]. intros a.
      apply (safe_weaken (fun _ => True) _ _ _ _ _ (safe_ret _ tt)); intros; exact I.
    - intros _. apply logs_bind; [apply logs_pop|intro; apply logs_ret].
  Qed.

  (** *** normalize *)
  Lemma safe_warn : forall a, safe (fun s => k_normed s = Some a) (warn_nan_inf_w N a) (warn_if_nan_inf N a)
    (fun s _ => k_normed s = Some a /\ all_finite N a).
  Proof.
    intros a. split; [apply logs_warn|]. intros s G Ha W R. rewrite em_warn in W.
    rewrite (gd_fmt s G) in W. unfold announced in W. cbn [andb] in W.
    unfold warn_if_nan_inf, bind, get, ret, raise, contains_nan_inf, all_finite in *. rewrite (gd_fmt s G) in *.
    cbn [negb andb] in *. destruct (mall (v_finite N) (amat a)); [|discriminate W]. cbn. auto.
  Qed.

  (** Same matrices, same kernel. *)
  Definition alike (s s' : KM) : Prop := k_kernel s' = k_kernel s /\ k_full s' = k_full s /\ k_populated s' = k_populated s
    /\ k_normed s' = k_normed s /\ k_is_normed s' = k_is_normed s.
  Lemma alike_good : forall s s', alike s s' -> good s -> good s'.
  Proof.
    intros s s' (A1 & A2 & A3 & A4 & A5) [B1 B2 B3 B4 B5 B6].
    constructor; rewrite ?A1, ?A2, ?A3, ?A4, ?A5; assumption.
  Qed.
  Definition still {A} (m : M KM A) : Prop := forall s, alike s (fst (m s)).
  Lemma alike_refl : forall s, alike s s.
  Proof. intros s. repeat split. Qed.
  Lemma alike_trans : forall s1 s2 s3, alike s1 s2 -> alike s2 s3 -> alike s1 s3.
  Proof. unfold alike. intuition congruence. Qed.
  Lemma still_bind : forall {A B} (m : M KM A) (f : A -> M KM B), still m -> (forall a, still (f a)) -> still (bind m f).
  Proof.
    intros A B m f Hm Hf s. unfold bind. specialize (Hm s). destruct (m s) as [s' [a|e]]; [|exact Hm].
    eapply alike_trans; [exact Hm|apply Hf].
  Qed.
  Lemma still_same : forall {A} (m : M KM A), (forall s, fst (m s) = s) -> still m.
  Proof. intros A m H s. rewrite H. apply alike_refl. Qed.
  Lemma still_attr : forall {A} (f : KM -> option A), still (attr_or f).
  Proof. intros A f. apply still_same. intros s. unfold attr_or, bind, get. destruct (f s); reflexivity. Qed.
  Lemma still_modify : forall f, (forall s, alike s (f s)) -> still (modify f).
  Proof. intros f H s. apply H. Qed.
  Lemma still_map : forall {A B} (body : A -> M KM B), (forall a, still (body a)) -> forall l, still (map_each l body).
  Proof.
    intros A B body Hb l. induction l as [|a l IH]; cbn [map_each]; [apply still_same; reflexivity|].
    apply still_bind; [apply Hb|]. intro. apply still_bind; [apply IH|]. intro. apply still_same. reflexivity.
  Qed.
  Ltac st := first [ apply still_attr | apply still_same; reflexivity | apply still_map; intro
    | match goal with
      | |- still (modify _) => apply still_modify; intro; repeat split
      | |- still (bind _ _) => apply still_bind; [|intro]
      | |- still (if ?b then _ else _) => destruct b
      | |- still (match ?b with _ => _ end) => destruct b
      | |- still (let (_, _) := ?b in _) => destruct b end ].
  Lemma still_eval : forall i j, still (eval_kernel i j : M KM V).
  Proof. intros i j. unfold eval_kernel. repeat st. Qed.
  Lemma still_combinations : forall r c, still (compute_for_index_combinations r c : M KM (arr V)).
  Proof. intros r c. unfold compute_for_index_combinations. repeat (apply still_eval || st). Qed.
  Lemma still_diagonal : still (diagonal : M KM (list V)).
  Proof. unfold diagonal. repeat (apply still_eval || st). Qed.
  Lemma still_temp : forall t x, still (temp_diagonal t x : M KM (list V)).
  Proof. intros t x. unfold temp_diagonal. repeat st. Qed.
  Lemma safe_still : forall {A} (P : KM -> Prop) (m : M KM A), still m -> (forall s s', alike s s' -> P s -> P s') ->
    safe P (silent m) m (fun s _ => P s).
  Proof.
    intros A P m H HP. apply safe_silent. intros s G Hs. specialize (H s). split; [eapply alike_good; eauto|]. eauto.
  Qed.

  Lemma safe_finish : safe (fun s => k_normed s <> None)
    (silent (modify (set_is_normed true)) ;;; nk <- silent (attr_or k_normed) ;; warn_nan_inf_w N nk)
    (modify (set_is_normed true) ;;; nk <- attr_or k_normed ;; warn_if_nan_inf N nk)
    (fun s _ => k_is_normed s = true).
  Proof.
    split; [repeat (apply logs_warn || apply logs_silent || apply logs_bind || intro)|].
    intros s G Hn W R.
    rewrite (em_bind _ (modify (set_is_normed true)) _ (fun _ => nk <- attr_or k_normed ;; warn_if_nan_inf N nk)) in W;
      [|apply logs_silent|intro; apply logs_bind; [apply logs_silent|intro; apply logs_warn]].
    rewrite em_silent in W. unfold modify at 1 in W. cbn [app] in W.
    rewrite (em_bind _ (attr_or k_normed) _ (fun nk => warn_if_nan_inf N nk)) in W;
      [|apply logs_silent|intro; apply logs_warn].
    rewrite em_silent in W. cbn [app] in W. unfold bind, modify, attr_or, bind, get, ret in *.
    destruct (k_normed s) as [nk|] eqn:Hk; [|destruct (Hn eq_refl)].
    cbn [k_normed set_is_normed] in *. rewrite Hk in *. rewrite em_warn in W. cbn [k_kernel set_is_normed] in W.
    unfold announced, warn_if_nan_inf, bind, get, ret, raise, contains_nan_inf in *. cbn [k_kernel set_is_normed] in *.
    rewrite (gd_fmt s G) in *. cbn [andb negb] in *. rewrite andb_false_r in *.
    destruct (mall (v_finite N) (amat nk)) eqn:F; [|discriminate W]. cbn [fst snd].
    destruct G as [G1 G2 G3 G4 G5 G6]. split; [|reflexivity].
    constructor; cbn; auto.
    - intros _. congruence.
    - intros _ a Ha. rewrite Hk in Ha. injection Ha as <-. exact F.
  Qed.

  Lemma normed_set : forall nk s, good s -> k_is_normed s = false ->
    good (set_normed (Some nk) s) /\ k_normed (set_normed (Some nk) s) <> None.
  Proof.
    intros nk s [G1 G2 G3 G4 G5 G6] H. split; [|cbn; discriminate]. constructor; cbn; auto; congruence.
  Qed.

  Lemma alike_normed : forall b s s', alike s s' -> k_is_normed s = b -> k_is_normed s' = b.
  Proof. intros b s s' (_ & _ & _ & _ & H) <-. exact H. Qed.

  Lemma safe_normalize : forall (P : KM -> Prop) meth,
    safe P (normalize_w N meth) (normalize N meth) (fun s _ => k_is_normed s = true).
  Proof.
    intros P meth. unfold normalize_w, normalize.
    eapply safe_bind; [apply safe_get|]. intros s0. cbv beta.
    eapply safe_bind; [apply safe_ensure|]. intros []. cbv beta.
    eapply safe_bind; [apply safe_get|]. intros s1. cbv beta.
    destruct (k_is_normed s1) eqn:Hn; cbn [negb when].
    { eapply safe_weaken; [apply safe_ret|intros s H; exact H|]. cbv beta. intros s a [-> [<- _]]. exact Hn. }
    apply safe_weaken with (P := fun s => k_is_normed s = false) (Q := fun s _ => k_is_normed s = true);
      [|intros s [<- _]; exact Hn|auto].
    eapply safe_bind; [apply safe_still; [apply still_attr|apply alike_normed]|]. intros two. cbv beta.
    apply safe_bind with (Q := fun s _ => k_normed s <> None); [|intros []; apply safe_finish].
    destruct two; cbn [negb].
    - eapply safe_bind; [apply safe_still; [apply still_attr|apply alike_normed]|]. intros x. cbv beta.
      eapply safe_bind; [apply safe_still; [apply still_attr|apply alike_normed]|]. intros y. cbv beta.
      eapply safe_bind; [apply safe_still; [apply still_attr|apply alike_normed]|]. intros a. cbv beta.
      eapply safe_bind; [apply safe_still; [apply still_temp|apply alike_normed]|]. intros dx. cbv beta.
      eapply safe_bind; [apply safe_still; [apply still_temp|apply alike_normed]|]. intros dy. cbv beta.
      eapply safe_bind; [apply safe_lift|]. intros nk. cbv beta.
      apply safe_mod. intros s G [_ H]. apply normed_set; assumption.
    - eapply safe_bind; [apply safe_still; [apply still_attr|apply alike_normed]|]. intros a. cbv beta.
      apply safe_tell. eapply safe_bind; [apply safe_lift|]. intros nk. cbv beta.
      apply safe_mod. intros s G [_ H]. apply normed_set; assumption.
  Qed.

  Definition finite_out (s : KM) (a : arr V) : Prop := all_finite N a.
  Lemma safe_read_normed :
    safe (fun s => k_is_normed s = true) (silent (attr_or k_normed)) (attr_or k_normed) finite_out.
  Proof.
    apply safe_silent. intros s G H. unfold attr_or, bind, get.
    destruct (k_normed s) as [a|] eqn:Ha; cbn; (split; [exact G|]); [|discriminate].
    intros b Hb. injection Hb as <-. exact (gd_finite s G H a Ha).
  Qed.
  Lemma safe_read_full : forall P : KM -> Prop, safe P (silent (attr_or k_full)) (attr_or k_full) finite_out.
  Proof.
    intros P. apply safe_silent. intros s G H. unfold attr_or, bind, get.
    destruct (k_full s) as [a|] eqn:Ha; cbn; (split; [exact G|]); [|discriminate].
    intros b Hb. injection Hb as <-. exact (gd_full s G a Ha).
  Qed.
  Lemma safe_when_normed : forall (P : KM -> Prop) s1, (forall s, P s -> s1 = s) ->
    safe P (when (negb (k_is_normed s1)) (normalize_w N default_method))
           (when (negb (k_is_normed s1)) (normalize N default_method)) (fun s _ => k_is_normed s = true).
  Proof.
    intros P s1 H. apply safe_when.
    - intros _. apply safe_normalize.
    - intros B s Hs. rewrite <- (H s Hs). apply negb_false_iff. exact B.
    - intros _. apply logs_normalize.
  Qed.

  Lemma safe_full : forall P : KM -> Prop, safe P (full_w N) (full N) finite_out.
  Proof.
    intros P. unfold full_w, full. eapply safe_bind; [apply safe_get|]. intros s0. cbv beta.
    destruct (k_sample s0); [|apply safe_raise].
    eapply safe_bind; [apply safe_ensure|]. intros []. cbv beta.
    destruct (k_keep_normed s0); [|apply safe_read_full].
    eapply safe_bind; [apply safe_get|]. intros s1. cbv beta.
    eapply safe_bind; [apply safe_when_normed; intros s [-> _]; reflexivity|]. intros []. apply safe_read_normed.
  Qed.
  Lemma safe_full_sparse : forall P : KM -> Prop, safe P (full_sparse_w N) (full_sparse N) finite_out.
  Proof.
    intros P. unfold full_sparse_w, full_sparse. eapply safe_bind; [apply safe_get|]. intros s0. cbv beta.
    destruct (k_keep_normed s0).
    - eapply safe_bind; [apply safe_when_normed; intros s [-> _]; reflexivity|]. intros []. apply safe_read_normed.
    - eapply safe_weaken; [apply safe_pop|intros s H; exact H|]. intros s a [_ H]. exact H.
  Qed.
  Lemma safe_normed_km : forall P : KM -> Prop, safe P (normed_km_w N) (normed_km N) finite_out.
  Proof.
    intros P. unfold normed_km_w, normed_km. eapply safe_bind; [apply safe_get|]. intros s0. cbv beta.
    eapply safe_bind; [apply safe_when_normed; intros s [-> _]; reflexivity|]. intros []. apply safe_read_normed.
  Qed.
  Lemma alike_true : forall s s' : KM, alike s s' -> True -> True.
  Proof. auto. Qed.
  Lemma safe_attr_true : forall {A} (P : KM -> Prop) (f : KM -> option A), safe P (silent (attr_or f)) (attr_or f) (fun _ _ => True).
  Proof.
    intros A P f. apply (safe_weaken (fun _ => True) P _ _ (fun _ _ => True)); [|auto|auto].
    apply safe_still; [apply still_attr|apply alike_true].
  Qed.
  Lemma safe_lift_true : forall {A} (P : KM -> Prop) (r : res A), safe P (lift r) (lift r) (fun _ _ => True).
  Proof. intros A P f. eapply safe_weaken; [apply safe_lift|intros s H; exact H|auto]. Qed.

  Lemma safe_center : forall P : KM -> Prop, safe P (center_w N) (center N) (fun _ _ => True).
  Proof.
    intros P. unfold center_w, center. eapply safe_bind; [apply safe_attr_true|]. intros [].
    { apply safe_raise. }
    eapply safe_bind; [apply safe_get|]. intros s0. cbv beta.
    apply safe_bind with (Q := fun _ _ => True).
    - apply safe_when; [|auto|].
      + intros _. eapply safe_bind; [apply safe_pop|]. intros a. cbv beta.
        apply safe_mod. intros s [G1 G2 G3 G4 G5 G6] [Ha Fa]. split; [|exact I].
        constructor; cbn; auto; try discriminate.
        * intros _. apply G3. congruence.
        * intros b Hb. injection Hb as <-. exact Fa.
      + intros _. apply logs_bind; [apply logs_pop|intro; apply logs_silent].
    - intros []. eapply safe_bind; [apply safe_attr_true|]. intros a.
      eapply safe_bind; [apply safe_lift_true|]. intros c.
      apply safe_bind with (Q := fun _ _ => True); [|intros []]; apply safe_mod; intros s [G1 G2 G3 G4 G5 G6] _;
        (split; [constructor; cbn; auto|exact I]).
  Qed.
  Lemma safe_centered : forall P : KM -> Prop, safe P (centered_w N) (centered N) (fun _ _ => True).
  Proof.
    intros P. unfold centered_w, centered. eapply safe_bind; [apply safe_attr_true|]. intros [].
    { apply safe_raise. }
    eapply safe_bind; [apply safe_get|]. intros s0. cbv beta.
    apply safe_bind with (Q := fun _ _ => True).
    - apply safe_when; [intros _; apply safe_center|auto|intros _; apply logs_center].
    - intros []. apply safe_attr_true.
  Qed.
  Lemma safe_frob : forall P : KM -> Prop, safe P (frob_norm_w N) (frob_norm N) (fun _ _ => True).
  Proof.
    intros P. unfold frob_norm_w, frob_norm. eapply safe_bind; [apply safe_get|]. intros s0. cbv beta.
    eapply safe_bind; [apply safe_ensure|]. intros []. cbv beta.
    eapply safe_bind; [apply safe_get|]. intros s1. cbv beta.
    apply safe_bind with (Q := fun _ _ => True).
    - apply safe_when; [|auto|].
      + intros _. eapply safe_bind; [apply safe_attr_true|]. intros a.
        eapply safe_bind; [apply safe_lift_true|]. intros v.
        apply safe_mod. intros s [G1 G2 G3 G4 G5 G6] _. split; [constructor; cbn; auto|exact I].
      + intros _. repeat (apply logs_silent || apply logs_lift || apply logs_bind || intro).
    - intros []. apply safe_attr_true.
  Qed.

  Lemma safe_pair : forall (P : KM -> Prop) a b, safe P (getitem_pair_w N a b) (getitem_pair N a b)
    (fun _ m => (a = ISlice None None None /\ b = ISlice None None None) -> all_finite N m).
  Proof.
    intros P a b. unfold getitem_pair_w, getitem_pair. eapply safe_bind; [apply safe_get|]. intros s0. cbv beta.
    eapply safe_bind; [apply safe_lift|]. intros r. cbv beta.
    eapply safe_bind; [apply safe_lift|]. intros c. cbv beta.
    destruct (snd r && snd c) eqn:B.
    - eapply safe_weaken; [apply safe_pop|intros s H; exact H|]. intros s m [_ H] _. exact H.
    - split; [apply logs_silent|]. intros s G [Hc [Hr _]] _ _. split.
      + exact (alike_good _ _ (still_combinations (fst r) (fst c) s) G).
      + intros m _ [-> ->]. apply colon_true in Hc. apply colon_true in Hr. rewrite Hc, Hr in B. discriminate B.
  Qed.
  Lemma safe_getitem : forall (P : KM -> Prop) ix, safe P (getitem_w N ix) (getitem N ix)
    (fun _ m => ix = colons -> all_finite N m).
  Proof.
    intros P [a b|k|]; cbn [getitem_w getitem].
    - eapply safe_weaken; [apply safe_pair|intros s H; exact H|]. cbv beta. intros s m H Hc. injection Hc as -> ->. auto.
    - eapply safe_bind; [apply safe_attr_true|]. intros sh.
      eapply safe_bind; [apply safe_lift_true|]. intros p.
      eapply safe_weaken; [apply safe_pair|intros s H; exact H|]. cbv beta. intros s m H Hc. discriminate Hc.
    - apply safe_raise.
  Qed.

  Lemma good_attach : forall x y s, good s -> good (fst (attach_to x y s)).
  Proof.
    intros x y s [G1 G2 G3 G4 G5 G6]. unfold attach_to, bind, modify, lift, raise.
    destruct (ensure_2D_own x) as [a|e]; [|constructor; assumption].
    destruct y as [y|]; [destruct (ensure_2D_own y) as [b|e]|]; cbn [fst];
      [destruct (negb _); cbn [fst]| |]; constructor; cbn; (assumption || discriminate || congruence || auto).
  Qed.
  Lemma fmap_fst : forall {A B} (f : A -> B) (m : M KM A) s, fst (fmap f m s) = fst (m s).
  Proof. intros A B f m s. unfold fmap, bind. destruct (m s) as [s' [a|e]]; reflexivity. Qed.
  Lemma safe_fmap : forall {A B} (f : A -> B) (P : KM -> Prop) mw m Q (Q' : KM -> B -> Prop), safe P mw m Q ->
    (forall s a, Q s a -> Q' s (f a)) -> safe P (wfmap f mw) (fmap f m) Q'.
  Proof.
    intros A B f P mw m Q Q' H HQ. unfold wfmap, fmap. eapply safe_bind; [exact H|]. intros a. cbv beta.
    eapply safe_weaken; [apply safe_ret|intros s Hs; exact Hs|]. cbv beta. intros s b [-> Hs]. auto.
  Qed.
  Definition finite_answer (o : op E U) (r : out V U) : Prop := forall a, gives_matrix o -> r = OArr a -> all_finite N a.
  Lemma other : forall {A} (f : A -> out V U) (m : M KM A) o, still m -> ~ gives_matrix o ->
    safe (fun _ => True) (silent (fmap f m)) (fmap f m) (fun _ r => finite_answer o r).
  Proof.
    intros A f m o H Hn. apply safe_silent. intros s G _. split.
    - rewrite fmap_fst. exact (alike_good _ _ (H s) G).
    - intros r _ a Hg. destruct (Hn Hg).
  Qed.
  Lemma safe_step : forall o, safe (fun _ => True) (step_w N o) (step N o) (fun _ r => finite_answer o r).
  Proof.
    intros o. destruct o; cbn [step_w step].
    - apply safe_silent. intros s G _. split.
      + rewrite fmap_fst. apply good_attach. exact G.
      + intros r _ b [H|[H|[H|H]]]; discriminate H.
    - eapply safe_fmap; [apply safe_full|]. intros s a H b _ Hb. injection Hb as <-. exact H.
    - eapply safe_fmap; [apply safe_full_sparse|]. intros s a H b _ Hb. injection Hb as <-. exact H.
    - eapply safe_fmap; [apply safe_center|]. intros s a H b _ Hb. discriminate Hb.
    - eapply safe_fmap; [apply safe_centered|]. intros s a H b [G|[G|[G|G]]]; discriminate G.
    - eapply safe_fmap; [apply safe_normalize|]. intros s a H b _ Hb. discriminate Hb.
    - eapply safe_fmap; [apply safe_normed_km|]. intros s a H b _ Hb. injection Hb as <-. exact H.
    - eapply safe_fmap; [apply safe_frob|]. intros s a H b _ Hb. discriminate Hb.
    - apply other; [apply still_diagonal|]. intros [H|[H|[H|H]]]; discriminate H.
    - eapply safe_fmap; [apply safe_getitem|]. intros s a H b [G|[G|[G|G]]] Hb; try discriminate G.
      injection Hb as <-. injection G as ->. auto.
    - apply other; [|intros [H|[H|[H|H]]]; discriminate H]. apply still_modify. intros s. repeat split.
    - apply other; [|intros [H|[H|[H|H]]]; discriminate H]. apply still_same. reflexivity.
    - apply other; [|intros [H|[H|[H|H]]]; discriminate H]. apply still_same. reflexivity.
    - apply other; [|intros [H|[H|[H|H]]]; discriminate H]. unfold size. repeat st.
    - apply other; [|intros [H|[H|[H|H]]]; discriminate H]. apply still_attr.
    - apply other; [|intros [H|[H|[H|H]]]; discriminate H]. apply still_same. reflexivity.
  Qed.

  Lemma run_good : forall (ops : list (op E U)) s, good s -> all_warns N ops s = [] ->
    ~ In (Raise RuntimeError) (trace N ops s) -> good (run N ops s).
  Proof.
    intros ops. induction ops as [|o ops IH]; intros s G W R; [exact G|].
    rewrite all_warns_cons in W. apply app_eq_nil in W. destruct W as [W1 W2]. cbn [trace In] in R. cbn [run].
    apply IH; [|exact W2|tauto]. destruct (safe_step o) as [_ H].
    apply (H s G I W1). intros Hr. apply R. left. exact Hr.
  Qed.

  Lemma silent_finite : forall (ops : list (op E U)) o s a, good s -> all_warns N (ops ++ [o]) s = [] ->
    ~ In (Raise RuntimeError) (trace N (ops ++ [o]) s) -> gives_matrix o ->
    outcome N o (run N ops s) = Ok (OArr a) -> all_finite N a.
  Proof.
    intros ops. induction ops as [|o' ops IH]; intros o s a G W R Hg Ho; cbn [app] in *;
      rewrite all_warns_cons in W; apply app_eq_nil in W; destruct W as [W1 W2]; cbn [trace In] in R.
    - destruct (safe_step o) as [_ H]. cbn [run] in Ho. unfold outcome in Ho.
      destruct (H s G I W1) as [_ H']; [rewrite Ho; discriminate|]. exact (H' _ Ho a Hg eq_refl).
    - cbn [run] in Ho. apply (IH o (fst (step N o' s)) a); auto. destruct (safe_step o') as [_ H].
      apply (H s G I W1). intros Hr. apply R. left. exact Hr.
  Qed.

  Lemma good_new : forall K nrm, kfmt K = true -> good (km_new K nrm []).
  Proof. intros K nrm H. constructor; cbn; auto; discriminate. Qed.
End Silent.
