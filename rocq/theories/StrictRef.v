(** Histories in which every operation has its own filter, on the reference object. *)
From Coq Require Import String List Arith ZArith Bool Lia.
Import ListNotations.
From Verif Require Import Prelude MatModel MatFacts UtilsModel IndexModel KMModel SpecKM SpecRef WarnModel
  SpecWarn StrictModel SpecStrict MFacts KMFacts KMIndex KMInv KMOps KMTotal KMGet KMProps KMHist KMHist2 RefFacts RefProps
  WarnFacts WarnExact StrictFacts.
Local Open Scope list_scope.

Section Mixed.
  Context {E V U : Type}.
  Variable N : numops V.
  Variable wexn : warning -> exn.
  Variable K : kernel E V.
  Variables (n m : nat) (F : nat -> nat -> V) (dx dy : list V) (two nrm : bool).
  Hypothesis Hone : two = false -> m = n.
  Notation REF := (ref V U).
  Notation N' f := (strict_ops N wexn f).
  Notation fm f := (kfmt K && negb (f WKernelMatrix)).
  Notation does f := (@ref_does E V U (N' f) n m F dx dy two nrm (fm f)).
  Notation st := (stored_as N n m F).
  Notation invr := (RefProps.inv N n m F dx dy two nrm).

  Inductive mrun : list (filter * op E U) -> REF -> REF -> Prop :=
  | mr_nil : forall r, mrun [] r r
  | mr_cons : forall f o ops r r' r'' q, does f o r r' q -> mrun ops r' r'' -> mrun ((f, o) :: ops) r r''.

  Lemma mdoes_inv : forall f o r r' q, does f o r r' q -> invr r -> invr r'.
  Proof. intros f o r r' q Hd Hi. exact (does_inv (N' f) n m F dx dy two nrm (fm f) Hone o r r' q Hd Hi). Qed.
  Lemma m_classify : forall f o r r' q, does f o r r' q ->
    asks_dense two nrm o \/ asks_sparse nrm o \/ asks_whole n m o \/ asks_nothing two nrm n m o.
  Proof. intros f o r r' q H. exact (classify (N' f) n m F dx dy two nrm (fm f) Hone o r r' q H). Qed.

  Lemma m_mat : forall f o r r' q, does f o r r' q -> invr r ->
    (asks_dense two nrm o /\ r_mat r' = match r_mat r with Some c => Some c | None => Some (Dense, true) end) \/
    (asks_sparse nrm o /\ r_mat r' = match r_mat r with Some c => Some c | None => Some (Lil, false) end) \/
    (asks_whole n m o /\ r_mat r' = match r_mat r with Some c => Some (fst c, true) | None => Some (Lil, true) end) \/
    (asks_nothing two nrm n m o /\ r_mat r' = r_mat r).
  Proof.
    intros f o r r' q Hd Hi. destruct (m_classify _ _ _ _ _ Hd) as [A|[A|[A|A]]].
    - left. split; [exact A|].
      rewrite (dense_mat (N' f) n m F dx dy two nrm (fm f) o r r' q (inv_ok _ _ _ _ _ _ _ _ _ Hi) A Hd).
      destruct (r_mat r); reflexivity.
    - right. left. split; [exact A|]. rewrite (sparse_mat (N' f) n m F dx dy two nrm (fm f) o r r' q A Hd).
      destruct (r_mat r) as [[? ?]|]; cbn; rewrite ?orb_false_r; reflexivity.
    - right. right. left. split; [exact A|]. rewrite (whole_mat (N' f) n m F dx dy two nrm (fm f) Hone o r r' q A Hd).
      destruct (r_mat r) as [[? ?]|]; cbn; rewrite ?orb_true_r; reflexivity.
    - right. right. right. split; [exact A|]. exact (nothing_mat (N' f) n m F dx dy two nrm (fm f) Hone o r r' q A Hd).
  Qed.

  Lemma mrun_inv : forall ops r r', mrun ops r r' -> invr r -> invr r'.
  Proof. intros ops r r' H. induction H; [auto|]. intros Hr. eapply IHmrun, mdoes_inv; eassumption. Qed.
  Lemma m_full : forall f o r r' q, does f o r r' q -> invr r -> forall b, r_mat r = Some (b, true) -> r_mat r' = Some (b, true).
  Proof.
    intros f o r r' q Hd Hi b Hb. destruct (m_mat _ _ _ _ _ Hd Hi) as [[_ A]|[[_ A]|[[_ A]|[_ A]]]]; rewrite Hb in A; exact A.
  Qed.
  Lemma mrun_full : forall ops r r', mrun ops r r' -> invr r -> forall b, r_mat r = Some (b, true) -> r_mat r' = Some (b, true).
  Proof.
    intros ops r r' H. induction H as [|f o ops r r' r'' q Hd Hrun IH]; [auto|]. intros Hr b Hf.
    apply IH; [eapply mdoes_inv; eassumption|eapply m_full; eassumption].
  Qed.
  Lemma mrun_upper : forall ops r r', mrun ops r r' -> invr r -> r_mat r = Some (Lil, false) ->
    (Exists (asks_whole n m) (map snd ops) /\ r_mat r' = Some (Lil, true)) \/
    (Forall (fun o => ~ asks_whole n m o) (map snd ops) /\ r_mat r' = Some (Lil, false)).
  Proof.
    intros ops r r' H. induction H as [|f o ops r r' r'' q Hd Hrun IH]; [right; split; [constructor|assumption]|]. intros Hr Hf.
    assert (Hr' := mdoes_inv _ _ _ _ _ Hd Hr). cbn [map snd].
    destruct (m_mat _ _ _ _ _ Hd Hr) as [[A H1]|[[A H1]|[[A H1]|[A H1]]]]; rewrite Hf in H1.
    - destruct (IH Hr' H1) as [[? ?]|[? ?]]; [left|right]; split; auto. constructor; [|assumption].
      destruct o; cbn in A |- *; tauto.
    - destruct (IH Hr' H1) as [[? ?]|[? ?]]; [left|right]; split; auto. constructor; [|assumption].
      destruct A as [-> _]. cbn. tauto.
    - left. split; [constructor; exact A|]. eapply mrun_full; eassumption.
    - destruct (IH Hr' H1) as [[? ?]|[? ?]]; [left|right]; split; auto. constructor; [|assumption].
      apply A.
  Qed.
  Lemma mrun_leaves : forall ops r r', mrun ops r r' -> invr r -> r_mat r = None ->
    exists c, leaves two nrm n m (map snd ops) c /\ r_mat r' = as_mat c.
  Proof.
    intros ops r r' H. induction H as [|f o ops r r' r'' q Hd Hrun IH].
    { intros _ Hf. exists LNothing. split; [constructor|exact Hf]. }
    intros Hr Hf. cbn [map snd].
    assert (Hr' := mdoes_inv _ _ _ _ _ Hd Hr).
    assert (FH : first_request two nrm n m (o :: map snd ops) o (map snd ops)).
    { exists []. split; [reflexivity|constructor]. }
    destruct (m_mat _ _ _ _ _ Hd Hr) as [[A H1]|[[A H1]|[[A H1]|[A H1]]]]; rewrite Hf in H1.
    - exists LDense. split; [exists o, (map snd ops); split; [exact FH|exact A]|]. eapply mrun_full; eassumption.
    - destruct (mrun_upper _ _ _ Hrun Hr' H1) as [[H2 H3]|[H2 H3]].
      + exists LWhole. split; [|exact H3]. exists o, (map snd ops). split; [exact FH|auto].
      + exists LUpper. split; [|exact H3]. exists o, (map snd ops). split; [exact FH|auto].
    - exists LWhole. split; [exists o, (map snd ops); split; [exact FH|auto]|]. eapply mrun_full; eassumption.
    - destruct (IH Hr' H1) as (c & Hc & Hm). exists c. split; [|exact Hm].
      assert (FC : forall o1 rest, first_request two nrm n m (map snd ops) o1 rest -> first_request two nrm n m (o :: map snd ops) o1 rest).
      { intros o1 rest (idle & -> & Q). exists (o :: idle). split; [reflexivity|constructor; assumption]. }
      destruct c; cbn in *.
      + constructor; assumption.
      + destruct Hc as (o1 & rest & Hq & Hx). exists o1, rest. split; [apply FC; assumption|exact Hx].
      + destruct Hc as (o1 & rest & Hq & Hx). exists o1, rest. split; [apply FC; assumption|exact Hx].
      + destruct Hc as (o1 & rest & Hq & Hx). exists o1, rest. split; [apply FC; assumption|exact Hx].
  Qed.
End Mixed.

(** ** Where the normalised matrix comes from *)
Section Source.
  Context {E V U : Type}.
  Variable N : numops V.
  Variables (n m : nat) (F : nat -> nat -> V) (dx dy : list V) (nrm fm : bool).
  Notation REF := (ref V U).
  Notation st := (stored_as N n m F).

  Definition sets {A} (meth : string) (a : M REF A) : Prop := forall r r' q, a r = (r', q) ->
    r_norm r' = r_norm r \/
    exists v c, r_norm r' = Some v /\ r_mat r' = Some c /\ op_normalize N meth (st c) = Ok v.

  Lemma sets_normalize : forall meth, sets meth (ref_normalize N n m F dx dy false fm meth).
  Proof.
    intros meth r r' q H. unfold ref_normalize in H. unfold bind at 1 in H. assert (C := WarnExact.calm_current N n m F fm r).
    assert (D : forall a, snd (current N n m F fm r) = Ok a -> exists c, r_mat (fst (current N n m F fm r)) = Some c /\ a = st c).
    { unfold current, bind, get. destruct (r_mat r) as [c|] eqn:Em.
      - cbn. intros a Ha. injection Ha as <-. exists c. auto.
      - unfold request, reported, bind, get, modify, raise, ret. rewrite Em. destruct (_ && _); cbn; intros a Ha; [discriminate|].
        injection Ha as <-. eauto. }
    destruct (current N n m F fm r) as [r1 [a|e]]; cbn [fst snd] in *; [|left; congruence].
    destruct (D a eq_refl) as (c & Hc & ->).
    unfold bind at 1, get in H. destruct (r_norm r1) eqn:En; [left; unfold ret in H; congruence|].
    unfold bind at 1, lift in H. destruct (op_normalize N meth (st c)) as [nk|e] eqn:Eo; [|left; congruence].
    right. exists nk, c. unfold bind, modify, reported, raise, ret in H.
    destruct (negb fm && negb (mall (v_finite N) (amat nk))); injection H as <- _; cbn; (split; [reflexivity|]); (split; [exact Hc|exact Eo]).
  Qed.
  Lemma sets_normed : sets default_method (ref_normed_km N n m F dx dy false fm).
  Proof.
    intros r r' q H. unfold ref_normed_km in H. unfold bind at 1, get at 1 in H. destruct (r_norm r) as [nk|] eqn:En.
    - left. unfold ret in H. congruence.
    - unfold bind at 1 in H. destruct (ref_normalize N n m F dx dy false fm "cosine" r) as [r1 q1] eqn:Er.
      assert (G := sets_normalize default_method r r1 q1 Er).
      destruct q1 as [[]|e].
      + rewrite En in G. unfold bind, get in H. destruct (r_norm r1) eqn:E1; cbn in H; injection H as <- _; rewrite E1; exact G.
      + rewrite En in G. injection H as <- _. exact G.
  Qed.
  Lemma sets_giving : forall {A B} meth (g : A -> B) a, sets meth a -> sets meth (giving g a).
  Proof.
    intros A B meth g a H r r' q G. unfold giving, bind, ret in G. destruct (a r) as [r1 q1] eqn:Ea.
    destruct q1; injection G as <- _; eapply H; eassumption.
  Qed.
  Lemma sets_after : forall {A B} meth (a : M REF A) (g : A -> M REF B), WarnExact.calm a -> (forall v, sets meth (g v)) -> sets meth (bind a g).
  Proof.
    intros A B meth a g Ha Hg r r' q G. unfold bind in G. assert (C := Ha r). destruct (a r) as [r1 [v|e]]; cbn [fst] in *.
    - rewrite <- C. eapply Hg, G.
    - left. congruence.
  Qed.
  Lemma does_sets : forall (o : op E U) r r' q, ref_does N n m F dx dy false nrm fm o r r' q ->
    r_norm r' = r_norm r \/
    exists meth v c, normalising nrm o meth /\ r_norm r' = Some v /\ r_mat r' = Some c /\ op_normalize N meth (st c) = Ok v.
  Proof.
    intros o r r' q H.
    destruct (does_norm N n m F dx dy false nrm fm o r r' q H) as [(meth & Hn & _)|[_ Hn]]; [|left; exact Hn].
    assert (HO : (r', q) = ref_op N n m F dx dy false nrm fm o r).
    { apply does_op; [|exact H]. intros ix ->. destruct Hn. }
    assert (S : sets meth (@ref_op E V U N n m F dx dy false nrm fm o)).
    { destruct o; cbn [normalising] in Hn; try contradiction; cbn [ref_op].
      - destruct Hn as [-> ->]. apply sets_giving. apply sets_after; [apply WarnExact.calm_current|]. intros a. apply sets_normed.
      - destruct Hn as [-> ->]. apply sets_giving, sets_normed.
      - subst. apply sets_giving, sets_normalize.
      - subst. apply sets_giving, sets_normed. }
    destruct (S r r' q (eq_sym HO)) as [S'|(v & c & S')]; [left; exact S'|right]. exists meth, v, c. split; [exact Hn|exact S'].
  Qed.
End Source.

(** ** The attached object simulates the reference object *)
Section Sim.
  Context {E V U : Type}.
  Variable N : numops V.
  Variable wexn : warning -> exn.
  Variable K : kernel E V.
  Variable k : list E -> list E -> V.
  Variable nrm : bool.
  Variables (X Y : ndarray E) (two : bool) (n m d : nat).
  Variable base : list (call E).
  Variable F : nat -> nat -> V.
  Notation absA := (@abs E V U N K k nrm X Y two n m d base F).
  Notation absT f := (@abs E V U (strict_ops N wexn f) (tame f K) k nrm X Y two n m d base F).

  Lemma tame_successful : forall f tag b l, successful (tame f K) tag b l = successful K tag b l.
  Proof. intros f tag b l. induction l as [|c l IH]; cbn [successful]; [reflexivity|]. rewrite IH. reflexivity. Qed.
  Lemma abs_tame : forall f s r, absA s r -> absT f (tamed f s) r.
  Proof.
    intros f s r [[[Hf Hm Hg] Hs] Ht A1 A2 A3 A4 A5 A6 A7]. constructor; try assumption.
    split; [|exact Hs]. constructor.
    - destruct Hf. constructor; try assumption. cbn. congruence.
    - destruct Hm. constructor; assumption.
    - destruct Hg as (new & G1 & G2 & G3). exists new. rewrite tame_successful. auto.
  Qed.
  Lemma abs_untame : forall f s r, k_kernel s = K -> absT f (tamed f s) r -> absA s r.
  Proof.
    intros f s r HK [[[Hf Hm Hg] Hs] Ht A1 A2 A3 A4 A5 A6 A7]. constructor; try assumption.
    split; [|exact Hs]. constructor.
    - destruct Hf. constructor; try assumption.
    - destruct Hm. constructor; assumption.
    - destruct Hg as (new & G1 & G2 & G3). exists new. rewrite tame_successful in G2. auto.
  Qed.

  Hypothesis Hnr : never_raises K k X (Some Y) n m d.
  Hypothesis HX : nd_shape X = [n; d].
  Hypothesis HY : nd_shape Y = [m; d].
  Hypothesis Hone : two = false -> Y = X /\ m = n.
  Hypothesis HF : forall i j, truev k X Y two d i j = F i j.

  Lemma estep_sim : forall f o s r, is_attach o = false -> absA s r ->
    exists r' q', ref_does (strict_ops N wexn f) n m F (dX k X n d) (dY k Y m d) two nrm (kfmt K && negb (f WKernelMatrix)) o r r' q' /\
      same_out wexn f (kfmt K) (outcome_e N wexn f o s) q' /\ absA (fst (step_e N wexn f o s)) r'.
  Proof.
    intros f o s r Ho HA. assert (HK : k_kernel s = K) by (destruct HA as [[[[]]]]; assumption).
    destruct (step_sim (strict_ops N wexn f) (tame f K) k nrm X Y two n m d base Hnr HX HY Hone F HF o (tamed f s) r Ho
                (abs_tame f s r HA)) as (r' & Hd & HA').
    destruct (ta_step N wexn f o s) as (T1 & T2 & T3).
    exists r', (snd (step (strict_ops N wexn f) o (tamed f s))). split; [exact Hd|]. rewrite HK in T3. split; [exact T3|].
    rewrite T2 in HA'. apply (abs_untame f); [congruence|exact HA'].
  Qed.

  Lemma erun_sim : forall ops s r, forallb (fun fo => negb (is_attach (snd fo))) ops = true -> absA s r ->
    exists r', absA (run_e N wexn ops s) r' /\ mrun N wexn K n m F (dX k X n d) (dY k Y m d) two nrm ops r r'.
  Proof.
    intros ops. induction ops as [|[f o] ops IH]; intros s r Ho HA.
    - exists r. split; [exact HA|constructor].
    - cbn [forallb snd] in Ho. apply andb_true_iff in Ho. destruct Ho as [H1 H2]. apply negb_true_iff in H1.
      destruct (estep_sim f o s r H1 HA) as (r1 & q1 & Hd & _ & HA1).
      destruct (IH _ _ H2 HA1) as (r' & HA' & Hrun). exists r'. split; [exact HA'|]. econstructor; eassumption.
  Qed.
End Sim.

Lemma ident_run_e : forall {E V U} (N : numops V) wexn (ops : list (filter * op E U)) (s : km E V U),
  ident (run_e N wexn ops s) = ident s.
Proof.
  intros E V U N wexn ops. induction ops as [|[f o] ops IH]; intros s; [reflexivity|]. cbn [run_e fst snd]. rewrite IH.
  destruct (ta_step N wexn f o s) as (T1 & T2 & _).
  assert (H := ident_step (strict_ops N wexn f) o (tamed f s)). rewrite T2 in H. unfold ident in *. cbn in H.
  inversion H. rewrite T1. congruence.
Qed.
Lemma run_e_app : forall {E V U} (N : numops V) wexn (ops ops' : list (filter * op E U)) (s : km E V U),
  run_e N wexn (ops ++ ops') s = run_e N wexn ops' (run_e N wexn ops s).
Proof. intros E V U N wexn ops. induction ops as [|fo ops IH]; intros ops' s; [reflexivity|]. apply IH. Qed.

(** The state after any history under filters. *)
Lemma attached_e : forall {E V U} (N : numops V) wexn (K : kernel E V) k nrm (pre post : list (filter * op E U)) x y n m d,
  never_raises K k x y n m d -> admissible x y n m d -> no_attach (map snd post) ->
  let X := stored n d x in let Y := stored2 n m d x y in
  exists base r, abs N K k nrm X Y (is_some y) n m d base (entry k d x y) (after_e N wexn K nrm pre x y post) r /\
    mrun N wexn K n m (entry k d x y) (dX k X n d) (dY k Y m d) (is_some y) nrm post ref_new r.
Proof.
  intros E V U N wexn K k nrm pre post x y n m d Hnr Hadm Hno X Y. unfold after_e. rewrite run_e_app. cbn [run_e fst snd].
  assert (HI := ident_run_e N wexn pre (km_new K nrm [])).
  set (s0 := run_e N wexn pre (km_new K nrm [])) in *. unfold ident in HI. cbn in HI. injection HI as HK Hn Ht.
  assert (HS : fst (step_e N wexn lenient (OpAttach x y) s0) = attached s0 x y n m d).
  { cbn [step_e step]. unfold fmap, bind. rewrite (attach_to_ok s0 x y n m d Hadm). reflexivity. }
  rewrite HS.
  exists (g_calls s0). apply (erun_sim N wexn K k nrm X Y (is_some y) n m d (g_calls s0) (entry k d x y)
     (nr_stored K k x y n m d Hadm Hnr) eq_refl (stored2_shape x y n m d Hadm) (stored2_one x y n m d Hadm) (truev_entry k x y n m d)).
  - unfold no_attach in Hno. clear - Hno. induction post as [|[f o] post IH]; [reflexivity|]. cbn in *.
    apply andb_true_iff in Hno. destruct Hno as [-> H]. apply IH, H.
  - assert (H := attached_inv K k s0 x y n m d HK Hadm). rewrite Hn, Ht in H.
    constructor; cbn; try reflexivity; try discriminate; auto.
    split; [exact H|]. unfold full_ok. cbn. auto.
Qed.
