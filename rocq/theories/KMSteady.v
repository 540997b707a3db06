(** C06: kernels whose outcome does not depend on earlier calls. *)
From Coq Require Import String List Arith Bool.
Import ListNotations.
From Verif Require Import Prelude MatModel UtilsModel KMModel SpecKM.
From Verif Require Import MatFacts MFacts KMFacts KMInv KMTotal KMHist KMHist2 KMProps.

Local Open Scope list_scope.
Local Open Scope nat_scope.

Section Steady.
  Context {E V U : Type}.
  Notation KM := (km E V U).
  Variable N : numops V.

  (** Two states that differ at most in the log of kernel calls. *)
  Definition lsim (s t : KM) : Prop := steady (k_kernel s) /\ exists l, t = log_calls l s.

  Definition rel {A} (m m' : M KM A) : Prop :=
    forall s t, lsim s t -> snd (m s) = snd (m' t) /\ lsim (fst (m s)) (fst (m' t)).

  Lemma rel_bind : forall {A B} (m m' : M KM A) (g g' : A -> M KM B),
    rel m m' -> (forall a, rel (g a) (g' a)) -> rel (bind m g) (bind m' g').
  Proof.
    intros A B m m' g g' Hm Hg s t H. unfold bind. destruct (Hm s t H) as [H1 H2].
    destruct (m s) as [s1 [a|e]], (m' t) as [t1 [b|e']]; cbn [fst snd] in *; try discriminate; injection H1 as <-.
    - apply Hg. exact H2.
    - split; [reflexivity|exact H2].
  Qed.
  Lemma rel_ret : forall {A} (a : A), rel (ret a) (ret a).
  Proof. intros A a s t H. split; [reflexivity|exact H]. Qed.
  Lemma rel_raise : forall {A} e, rel (@raise KM A e) (raise e).
  Proof. intros A e s t H. split; [reflexivity|exact H]. Qed.
  Lemma rel_lift : forall {A} (r : res A), rel (lift r) (lift r).
  Proof. intros A r s t H. split; [reflexivity|exact H]. Qed.
  Lemma rel_modify : forall g, (forall s, k_kernel (g s) = k_kernel s) ->
    (forall l s, g (log_calls l s) = log_calls l (g s)) -> rel (modify g) (modify g).
  Proof.
    intros g H1 H2 s t [Hs [l ->]]. split; [reflexivity|]. cbn [modify fst]. split; [rewrite H1; exact Hs|].
    exists l. apply H2.
  Qed.
  Lemma rel_get : forall {A} (g : KM -> M KM A),
    (forall s l, steady (k_kernel s) -> rel (g s) (g (log_calls l s))) -> rel (bind get g) (bind get g).
  Proof. intros A g H s t [Hs [l ->]]. unfold bind, get. apply H; [exact Hs|]. split; [exact Hs|]. exists l. reflexivity. Qed.
  Lemma rel_when : forall b m m', rel m m' -> rel (when b m) (when b m').
  Proof. intros [] m m' H; [exact H|apply rel_ret]. Qed.
  Lemma rel_try : forall {A} (m m' : M KM A) e, rel m m' -> rel (try_except m e) (try_except m' e).
  Proof.
    intros A m m' e H s t Hs. unfold try_except. destruct (H s t Hs) as [H1 H2].
    destruct (m s) as [s1 [a|e1]], (m' t) as [t1 [b|e']]; cbn [fst snd] in *; try discriminate;
      (split; [congruence|exact H2]).
  Qed.
  Lemma rel_for_each : forall {A} (l : list A) b b', (forall a, rel (b a) (b' a)) -> rel (for_each l b) (for_each l b').
  Proof.
    intros A l b b' H. induction l as [|a l IH]; cbn [for_each]; [apply rel_ret|].
    apply rel_bind; [apply H|intros; exact IH].
  Qed.
  Lemma rel_map_each : forall {A B} (l : list A) (b b' : A -> M KM B), (forall a, rel (b a) (b' a)) ->
    rel (map_each l b) (map_each l b').
  Proof.
    intros A B l b b' H. induction l as [|a l IH]; cbn [map_each]; [apply rel_ret|].
    apply rel_bind; [apply H|]. intros c. apply rel_bind; [exact IH|]. intros; apply rel_ret.
  Qed.
  Lemma rel_attr_or : forall {A} (g : KM -> option A), (forall l s, g (log_calls l s) = g s) -> rel (attr_or g) (attr_or g).
  Proof.
    intros A g H. unfold attr_or. apply rel_get. intros s l _. rewrite H. destruct (g s); [apply rel_ret|apply rel_raise].
  Qed.
  Lemma rel_fmap : forall {A B} (g : A -> B) (m m' : M KM A), rel m m' -> rel (fmap g m) (fmap g m').
  Proof. intros A B g m m' H. apply rel_bind; [exact H|]. intros; apply rel_ret. Qed.

  Ltac rl :=
    repeat (cbv beta; cbn [log_calls k_kernel k_keep_normed k_num_samples k_sample k_sample_two k_two k_shape k_full
                           k_normed k_frob k_centered k_populated k_lower k_is_centered k_is_normed k_memo k_attr k_evals g_tag];
      lazymatch goal with
      | |- rel (ret _) _ => apply rel_ret
      | |- rel (raise _) _ => apply rel_raise
      | |- rel (lift _) _ => apply rel_lift
      | |- rel (attr_or _) _ => apply rel_attr_or; reflexivity
      | |- rel (modify _) _ => apply rel_modify; intros; reflexivity
      | |- rel (when _ _) _ => apply rel_when
      | |- rel (try_except _ _) _ => apply rel_try
      | |- rel (for_each _ _) _ => apply rel_for_each; intros
      | |- rel (map_each _ _) _ => apply rel_map_each; intros
      | |- rel (fmap _ _) _ => apply rel_fmap
      | |- rel (bind get _) _ => apply rel_get; intros ? ? ?
      | |- rel (bind _ _) _ => apply rel_bind; [|intros]
      | |- rel (match ?x with _ => _ end) _ => destruct x
      | |- rel (if ?x then _ else _) _ => destruct x
      end).

  Lemma rel_eval : forall i j, rel (eval_kernel i j) (eval_kernel i j).
  Proof.
    intros i j. unfold eval_kernel. apply rel_bind; [rl|]. intros p. apply rel_get. intros s l Hs.
    cbn [log_calls k_memo k_sample g_tag k_kernel]. destruct (memo_find (k_memo s) p); [apply rel_ret|].
    apply rel_bind; [rl|]. intros x. apply rel_bind; [rl|]. intros y. apply rel_bind.
    - intros s1 t1 [H1 [l1 ->]]. split; [reflexivity|]. split; [exact H1|]. eexists. reflexivity.
    - intros []. rewrite (Hs (length (g_calls _))), (Hs (length (g_calls (log_calls _ _)))). rl.
  Qed.
  Lemma rel_populate : forall dn lw, rel (populate_fully N dn lw) (populate_fully N dn lw).
  Proof.
    intros. unfold populate_fully, populate_upper, populate_lower, densify, warn_if_nan_inf, set_full_entry.
    rl; apply rel_eval.
  Qed.
  Lemma rel_attach : forall x y, rel (attach_to x y) (attach_to x y).
  Proof. intros. unfold attach_to. rl. Qed.
  Lemma rel_diagonal : rel diagonal diagonal.
  Proof. unfold diagonal. rl. apply rel_eval. Qed.
  Lemma rel_temp : forall tg x, rel (temp_diagonal tg x) (temp_diagonal tg x).
  Proof.
    intros tg x s t [Hs [l ->]]. unfold temp_diagonal, bind at 1 4. cbn [get]. cbv zeta. unfold bind at 1 3, modify, lift.
    cbn [fst snd]. cbn [log_calls k_kernel g_calls].
    assert (H : rel (attach_to x None ;;; diagonal) (attach_to x None ;;; diagonal)) by (apply rel_bind; [apply rel_attach|intros; apply rel_diagonal]).
    destruct (H (km_new_tagged (k_kernel s) false (g_calls s) tg) (km_new_tagged (k_kernel s) false l tg)) as [H1 H2].
    { split; [exact Hs|]. exists l. reflexivity. }
    split; [exact H1|]. split; [exact Hs|]. eexists. reflexivity.
  Qed.
  Lemma rel_normalize : forall meth, rel (normalize N meth) (normalize N meth).
  Proof. intros. unfold normalize, warn_if_nan_inf. rl; try apply rel_populate; try apply rel_temp. Qed.
  Lemma rel_center : rel (center N) (center N).
  Proof. unfold center. rl. apply rel_populate. Qed.

  Lemma rel_step : forall o, rel (step N o) (step N o).
  Proof.
    intros o. destruct o; unfold step; try (lazymatch goal with |- rel (fmap _ get) _ => fail | _ => apply rel_fmap end).
    - apply rel_attach.
    - unfold full. rl; try apply rel_populate; apply rel_normalize.
    - unfold full_sparse. rl; try apply rel_populate; apply rel_normalize.
    - apply rel_center.
    - unfold centered. rl. apply rel_center.
    - apply rel_normalize.
    - unfold normed_km. rl. apply rel_normalize.
    - unfold frob_norm. rl. apply rel_populate.
    - apply rel_diagonal.
    - unfold getitem, getitem_pair, compute_for_index_combinations. rl; try apply rel_populate; apply rel_eval.
    - unfold set_attr. rl.
    - unfold get_attr. rl.
    - intros s t [Hs [l ->]]. split; [reflexivity|]. split; [exact Hs|]. exists l. reflexivity.
    - unfold size. rl.
    - rl.
    - intros s t [Hs [l ->]]. split; [reflexivity|]. split; [exact Hs|]. exists l. reflexivity.
  Qed.

  Lemma lsim_trace : forall ops s t, lsim s t -> trace N ops s = trace N ops t /\ lsim (run N ops s) (run N ops t).
  Proof.
    induction ops as [|o ops IH]; intros s t H; [split; [reflexivity|exact H]|]. cbn [trace run].
    destruct (rel_step o s t H) as [H1 H2]. destruct (IH _ _ H2) as [H3 H4]. rewrite H1, H3. split; [reflexivity|exact H4].
  Qed.
End Steady.

(** C06, kernels whose outcome does not depend on earlier calls: after an accepted attach_to, the
    results of all later operations (values or exceptions) are those of an object made anew,
    whatever came before. *)
Lemma pf_C06_steady :
  forall {E V U} (N : numops V) (K : kernel E V) nrm (pre post : list (op E U)) x y n m d,
    steady K -> admissible x y n m d ->
    trace N post (after N K nrm pre x y []) = trace N post (after N K nrm [] x y []).
Proof.
  intros E V U N K nrm pre post x y n m d HK Ha.
  destruct (pf_C06_fresh_slate N K nrm pre post x y n m d Ha) as [H _]. cbv zeta in H. rewrite H. clear H.
  apply lsim_trace. apply lsim_trace. split; [exact HK|]. exists []. reflexivity.
Qed.
