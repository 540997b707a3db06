(** An operation under a filter is the ordinary operation up to the first warning that is turned into an
    exception. *)
From Coq Require Import String List Arith ZArith Bool Lia.
Import ListNotations.
From Verif Require Import Prelude MatModel MatFacts UtilsModel IndexModel KMModel SpecKM SpecRef WarnModel
  SpecWarn StrictModel SpecStrict MFacts KMFacts KMHist WarnFacts.
Local Open Scope list_scope.

Section Obeys.
  Context {E V U : Type}.
  Variable N : numops V.
  Variable wexn : warning -> exn.
  Variable f : filter.
  Notation KM := (km E V U).
  Notation wact := (M (KM * list warning)).

  Definition stops {A} (me : M KM A) (m : M KM A) (l : list warning) (s : KM) : Prop :=
    match find f l with None => me s = m s | Some w => snd (me s) = Raise (wexn w) end.
  Definition obeys {A} (me : M KM A) (mw : wact A) (m : M KM A) : Prop :=
    logs mw m /\ forall s, stops me m (em mw s) s.

  Lemma find_app : forall l l', find f (l ++ l') = match find f l with Some w => Some w | None => find f l' end.
  Proof. induction l as [|w l IH]; intros l'; [reflexivity|]. cbn. destruct (f w); [reflexivity|apply IH]. Qed.

  Lemma ob_silent : forall {A} (m : M KM A), obeys m (silent m) m.
  Proof. intros A m. split; [apply logs_silent|]. intros s. unfold stops. rewrite em_silent. reflexivity. Qed.
  Lemma ob_ret : forall {A} (a : A), obeys (ret a) (ret a) (ret a).
  Proof. intros A a. split; [apply logs_ret|]. intros s. reflexivity. Qed.
  Lemma ob_lift : forall {A} (a : res A), obeys (lift a) (lift a) (lift a).
  Proof. intros A a. split; [apply logs_lift|]. intros s. reflexivity. Qed.
  Lemma ob_raise : forall {A} e, obeys (@raise _ A e) (raise e) (raise e).
  Proof. intros A e. split; [apply logs_raise|]. intros s. reflexivity. Qed.
  Lemma ob_bind : forall {A B} (me : M KM A) mw m (ge : A -> M KM B) gw g,
    obeys me mw m -> (forall a, obeys (ge a) (gw a) (g a)) -> obeys (bind me ge) (bind mw gw) (bind m g).
  Proof.
    intros A B me mw m ge gw g [L H] HG. split; [apply logs_bind; [exact L|intros a; apply HG]|].
    intros s. unfold stops. rewrite (em_bind mw m gw g L (fun a => proj1 (HG a))), find_app.
    specialize (H s). unfold stops in H. destruct (find f (em mw s)) as [w|].
    - unfold bind. destruct (me s) as [s' [a|e]]; cbn in *; [discriminate|]. congruence.
    - unfold bind. rewrite H. destruct (m s) as [s' [a|e]]; [|reflexivity].
      apply (proj2 (HG a) s').
  Qed.
  Lemma ob_when : forall b me mw m, obeys me mw m -> obeys (when b me) (when b mw) (when b m).
  Proof. intros [] me mw m H; [exact H|apply ob_ret]. Qed.
  Lemma ob_if : forall {A} (b : bool) (me me' : M KM A) mw mw' m m', obeys me mw m -> obeys me' mw' m' ->
    obeys (if b then me else me') (if b then mw else mw') (if b then m else m').
  Proof. intros A [] me me' mw mw' m m' H H'; assumption. Qed.

  Lemma ob_warn : forall a, obeys (warn_nan_inf_e N wexn f a) (warn_nan_inf_w N a) (warn_if_nan_inf N a).
  Proof.
    intros a. split; [apply logs_warn|]. intros s. unfold stops. rewrite em_warn.
    unfold announced, warn_nan_inf_e, warn_if_nan_inf, warn_e, contains_nan_inf, bind, get.
    destruct (mall (v_finite N) (amat a)), (kfmt (k_kernel s)); cbn; try reflexivity.
    destruct (f WKernelMatrix); reflexivity.
  Qed.
  Lemma ob_normalize_km : forall {B} method a (ge : arr V -> M KM B) gw g,
    (forall nk, obeys (ge nk) (gw nk) (g nk)) ->
    obeys (nk <- lift (op_normalize_e N wexn f method a) ;; ge nk)
          (tell (normalize_km_warns N method a) ;;; nk <- lift (op_normalize N method a) ;; gw nk)
          (nk <- lift (op_normalize N method a) ;; g nk).
  Proof.
    intros B method a ge gw g HG.
    assert (L : logs (nk <- lift (op_normalize N method a) ;; gw nk) (nk <- lift (op_normalize N method a) ;; g nk)).
    { apply logs_bind; [apply logs_lift|intros nk; apply HG]. }
    split; [apply logs_tell, L|].
    intros s. unfold stops. rewrite (em_tell _ _ _ L), find_app.
    assert (H0 : obeys (nk <- lift (op_normalize N method a) ;; ge nk) (nk <- lift (op_normalize N method a) ;; gw nk)
                       (nk <- lift (op_normalize N method a) ;; g nk)).
    { apply ob_bind; [apply ob_lift|exact HG]. }
    destruct H0 as [_ H0]. specialize (H0 s). unfold stops in H0.
    unfold normalize_km_warns, op_normalize_e, contains_nan_inf in *.
    destruct (negb (mr (amat a) =? mc (amat a))); [exact H0|].
    destruct (op_normalize N method a) as [nk|e].
    - destruct (mall (v_finite N) (amat nk)); cbn [negb andb find]; [exact H0|].
      destruct (f WNormalization); [reflexivity|exact H0].
    - destruct e; cbn [find]; try exact H0; destruct (f WUnableToNormalize); try reflexivity; exact H0.
  Qed.

  Ltac ob :=
    first
      [ apply ob_normalize_km; intro
      | apply ob_bind; [|intro]
      | apply ob_when
      | apply ob_ret | apply ob_raise | apply ob_lift | apply ob_silent | apply ob_warn
      | apply ob_if ].

  Lemma ob_pop : forall d l, obeys (populate_fully_e N wexn f d l) (populate_fully_w N d l) (populate_fully N d l).
  Proof. intros d l. unfold populate_fully_e, populate_fully_w, populate_fully. repeat ob. Qed.
  Lemma ob_normalize : forall meth, obeys (normalize_e N wexn f meth) (normalize_w N meth) (normalize N meth).
  Proof. intros meth. unfold normalize_e, normalize_w, normalize. repeat (apply ob_pop || ob). Qed.
  Lemma ob_full : obeys (full_e N wexn f) (full_w N) (full N).
  Proof.
    unfold full_e, full_w, full. ob; [ob|]. destruct (k_sample a); [|ob].
    repeat (apply ob_pop || apply ob_normalize || ob).
  Qed.
  Lemma ob_full_sparse : obeys (full_sparse_e N wexn f) (full_sparse_w N) (full_sparse N).
  Proof. unfold full_sparse_e, full_sparse_w, full_sparse. repeat (apply ob_pop || apply ob_normalize || ob). Qed.
  Lemma ob_center : obeys (center_e N wexn f) (center_w N) (center N).
  Proof. unfold center_e, center_w, center. repeat (apply ob_pop || apply ob_normalize || ob). Qed.
  Lemma ob_centered : obeys (centered_e N wexn f) (centered_w N) (centered N).
  Proof. unfold centered_e, centered_w, centered. repeat (apply ob_center || ob). Qed.
  Lemma ob_frob : obeys (frob_norm_e N wexn f) (frob_norm_w N) (frob_norm N).
  Proof. unfold frob_norm_e, frob_norm_w, frob_norm. repeat (apply ob_pop || ob). Qed.
  Lemma ob_normed : obeys (normed_km_e N wexn f) (normed_km_w N) (normed_km N).
  Proof. unfold normed_km_e, normed_km_w, normed_km. repeat (apply ob_normalize || ob). Qed.
  Lemma ob_pair : forall a b, obeys (getitem_pair_e N wexn f a b) (getitem_pair_w N a b) (getitem_pair N a b).
  Proof. intros a b. unfold getitem_pair_e, getitem_pair_w, getitem_pair. repeat (apply ob_pop || ob). Qed.
  Lemma ob_getitem : forall ix, obeys (getitem_e N wexn f ix) (getitem_w N ix) (getitem N ix).
  Proof. intros [a b|k|]; unfold getitem_e, getitem_w, getitem; repeat (apply ob_pair || ob). Qed.
  Lemma ob_fmap : forall {A B} (g : A -> B) me mw m, obeys me mw m -> obeys (fmap g me) (wfmap g mw) (fmap g m).
  Proof. intros A B g me mw m H. unfold wfmap, fmap. ob; [exact H|ob]. Qed.
  Lemma ob_step : forall o, obeys (step_e N wexn f o) (step_w N o) (step N o).
  Proof.
    intros o. destruct o; cbn [step_w step_e]; try apply ob_silent; cbn [step]; apply ob_fmap;
      [apply ob_full|apply ob_full_sparse|apply ob_center|apply ob_centered|apply ob_normalize|
       apply ob_normed|apply ob_frob|apply ob_getitem].
  Qed.

  Lemma step_stops : forall o s, stops (step_e N wexn f o) (step N o) (warns N o s) s.
  Proof. intros o s. apply ob_step. Qed.
End Obeys.

(** ** The same operation on an object whose kernel does not support format() *)
Section Tame.
  Context {E V U : Type}.
  Variable N : numops V.
  Variable wexn : warning -> exn.
  Variable f : filter.
  Notation KM := (km E V U).

  (** What normalize_km does under the filter. *)
  Definition strict_ops : numops V :=
    mkNumops (v_nan N) (v_zero N) (v_finite N) (op_normalize_e N wexn f) (op_normalize2 N) (op_center N) (op_frob N).
  Definition tame (K : kernel E V) : kernel E V := mkKernel (kf K) (kfmt K && negb (f WKernelMatrix)).
  Definition tamed (s : KM) : KM :=
    mkKM (tame (k_kernel s)) (k_keep_normed s) (k_num_samples s) (k_sample s) (k_sample_two s) (k_two s) (k_shape s)
       (k_full s) (k_normed s) (k_frob s) (k_centered s) (k_populated s) (k_lower s) (k_is_centered s)
       (k_is_normed s) (k_memo s) (k_attr s) (k_evals s) (g_calls s) (g_tag s).

  Definition same_out {A} (formats : bool) (q q' : res A) : Prop :=
    q = q' \/ (formats = true /\ f WKernelMatrix = true /\ q = Raise (wexn WKernelMatrix) /\ q' = Raise TypeError).
  (** [me] does on [s] what [m] does on [tamed s]. *)
  Definition tames {A} (me m : M KM A) : Prop := forall s,
    k_kernel (fst (me s)) = k_kernel s /\ fst (m (tamed s)) = tamed (fst (me s)) /\ same_out (kfmt (k_kernel s)) (snd (me s)) (snd (m (tamed s))).

  Lemma ta_ret : forall {A} (a : A), tames (ret a) (ret a).
  Proof. intros A a s. repeat split. left. reflexivity. Qed.
  Lemma ta_lift : forall {A} (a : res A), tames (lift a) (lift a).
  Proof. intros A a s. repeat split. left. reflexivity. Qed.
  Lemma ta_raise : forall {A} e, tames (@raise KM A e) (raise e).
  Proof. intros A e s. repeat split. left. reflexivity. Qed.
  Lemma ta_modify : forall g, (forall s, k_kernel (g s) = k_kernel s /\ g (tamed s) = tamed (g s)) ->
    tames (modify g) (modify g).
  Proof. intros g H s. destruct (H s) as [H1 H2]. repeat split; [exact H1|exact H2|left; reflexivity]. Qed.
  Lemma ta_bind : forall {A B} (me m : M KM A) (ge g : A -> M KM B), tames me m -> (forall a, tames (ge a) (g a)) ->
    tames (bind me ge) (bind m g).
  Proof.
    intros A B me m ge g H HG s. destruct (H s) as (H1 & H2 & H3). unfold bind.
    destruct (me s) as [s1 q1], (m (tamed s)) as [t1 q2]. cbn [fst snd] in *. subst t1.
    destruct H3 as [<- |(Hk & Hf & -> & ->)].
    - destruct q1 as [a|e]; cbn [fst snd].
      + destruct (HG a s1) as (G1 & G2 & G3). rewrite H1 in G3. rewrite G1. auto.
      + repeat split; [exact H1|]. left. reflexivity.
    - cbn [fst snd]. repeat split; [exact H1|]. right. auto.
  Qed.
  (** Reading the state: what is read must not depend on format(). *)
  Lemma ta_get : forall {B} (ge g : KM -> M KM B), (forall s, let t := tamed s in
      k_kernel (fst (ge s s)) = k_kernel s /\ fst (g t t) = tamed (fst (ge s s)) /\ same_out (kfmt (k_kernel s)) (snd (ge s s)) (snd (g t t))) ->
    tames (bind get ge) (bind get g).
  Proof. intros B ge g H s. exact (H s). Qed.
  Lemma ta_get' : forall {B} (ge g : KM -> M KM B), (forall s, tames (ge s) (g (tamed s))) -> tames (bind get ge) (bind get g).
  Proof. intros B ge g H s. exact (H s s). Qed.
  Lemma ta_attr : forall {A} (p : KM -> option A), (forall s, p (tamed s) = p s) -> tames (attr_or p) (attr_or p).
  Proof.
    intros A p H. unfold attr_or. apply ta_get'. intros s. rewrite H. destruct (p s); [apply ta_ret|apply ta_raise].
  Qed.
  Lemma ta_when : forall b me m, tames me m -> tames (when b me) (when b m).
  Proof. intros [] me m H; [exact H|apply ta_ret]. Qed.
  Lemma ta_if : forall {A} (b : bool) (me me' m m' : M KM A), tames me m -> tames me' m' ->
    tames (if b then me else me') (if b then m else m').
  Proof. intros A [] me me' m m' H H'; assumption. Qed.
  Lemma ta_for_each : forall {A} (l : list A) (be b : A -> M KM unit), (forall a, tames (be a) (b a)) ->
    tames (for_each l be) (for_each l b).
  Proof.
    intros A l be b H. induction l as [|a l IH]; cbn [for_each]; [apply ta_ret|]. apply ta_bind; [apply H|intros; exact IH].
  Qed.
  Lemma ta_map_each : forall {A B} (l : list A) (be b : A -> M KM B), (forall a, tames (be a) (b a)) ->
    tames (map_each l be) (map_each l b).
  Proof.
    intros A B l be b H. induction l as [|a l IH]; cbn [map_each]; [apply ta_ret|].
    apply ta_bind; [apply H|]. intros c. apply ta_bind; [exact IH|]. intros. apply ta_ret.
  Qed.
  (** Under a bare except nothing may come from the filter. *)
  Definition quiet {A} (m : M KM A) : Prop := forall s,
    k_kernel (fst (m s)) = k_kernel s /\ m (tamed s) = (tamed (fst (m s)), snd (m s)).
  Lemma quiet_ta : forall {A} (m : M KM A), quiet m -> tames m m.
  Proof. intros A m H s. destruct (H s) as [H1 H2]. rewrite H2. repeat split; [exact H1|left; reflexivity]. Qed.
  Lemma qu_ret : forall {A} (a : A), quiet (ret a).
  Proof. intros A a s. split; reflexivity. Qed.
  Lemma qu_lift : forall {A} (a : res A), quiet (lift a).
  Proof. intros A a s. split; reflexivity. Qed.
  Lemma qu_raise : forall {A} e, quiet (@raise KM A e).
  Proof. intros A e s. split; reflexivity. Qed.
  Lemma qu_modify : forall g, (forall s, k_kernel (g s) = k_kernel s /\ g (tamed s) = tamed (g s)) -> quiet (modify g).
  Proof. intros g H s. destruct (H s) as [H1 H2]. unfold modify. cbn. rewrite H2. split; [exact H1|reflexivity]. Qed.
  Lemma qu_bind : forall {A B} (m : M KM A) (g : A -> M KM B), quiet m -> (forall a, quiet (g a)) -> quiet (bind m g).
  Proof.
    intros A B m g H HG s. destruct (H s) as (H1 & H2). unfold bind. rewrite H2.
    destruct (m s) as [s1 [a|e]]; cbn [fst snd] in *; [|auto]. destruct (HG a s1) as [G1 G2].
    rewrite G1. auto.
  Qed.
  Lemma qu_get : forall {B} (g : KM -> M KM B), (forall s, quiet (g s)) -> (forall s, g (tamed s) = g s) -> quiet (bind get g).
  Proof. intros B g H HE s. unfold bind, get. rewrite HE. apply (H s s). Qed.
  Lemma qu_attr : forall {A} (p : KM -> option A), (forall s, p (tamed s) = p s) -> quiet (attr_or p).
  Proof.
    intros A p H. unfold attr_or. apply qu_get; intros s; [|rewrite H; reflexivity].
    destruct (p s); [apply qu_ret|apply qu_raise].
  Qed.
  Lemma qu_when : forall b m, quiet m -> quiet (when b m).
  Proof. intros [] m H; [exact H|apply qu_ret]. Qed.
  Lemma qu_try : forall {A} (m : M KM A) e, quiet m -> quiet (try_except m e).
  Proof.
    intros A m e H s. destruct (H s) as (H1 & H2). unfold try_except. rewrite H2.
    destruct (m s) as [s1 [a|e']]; auto.
  Qed.
  Lemma qu_for_each : forall {A} (l : list A) (b : A -> M KM unit), (forall a, quiet (b a)) -> quiet (for_each l b).
  Proof.
    intros A l b H. induction l as [|a l IH]; cbn [for_each]; [apply qu_ret|]. apply qu_bind; [apply H|intros; exact IH].
  Qed.
  Lemma qu_map_each : forall {A B} (l : list A) (b : A -> M KM B), (forall a, quiet (b a)) -> quiet (map_each l b).
  Proof.
    intros A B l b H. induction l as [|a l IH]; cbn [map_each]; [apply qu_ret|].
    apply qu_bind; [apply H|]. intros c. apply qu_bind; [exact IH|]. intros. apply qu_ret.
  Qed.

  Ltac qu := repeat (cbv beta; lazymatch goal with
    | |- quiet (ret _) => apply qu_ret
    | |- quiet (raise _) => apply qu_raise
    | |- quiet (lift _) => apply qu_lift
    | |- quiet (attr_or _) => apply qu_attr; intros; reflexivity
    | |- quiet (modify _) => apply qu_modify; intros; split; reflexivity
    | |- quiet (when _ _) => apply qu_when
    | |- quiet (try_except _ _) => apply qu_try
    | |- quiet (for_each _ _) => apply qu_for_each; intros
    | |- quiet (map_each _ _) => apply qu_map_each; intros
    | |- quiet (fmap _ _) => unfold fmap
    | |- quiet (bind get _) => apply qu_get; [intros|reflexivity]
    | |- quiet (bind _ _) => apply qu_bind; [|intros]
    | |- quiet (match ?x with _ => _ end) => destruct x
    | |- quiet (if ?x then _ else _) => destruct x
    end).

  Lemma qu_eval : forall i j, quiet (eval_kernel i j : M KM V).
  Proof. intros i j. unfold eval_kernel. qu. Qed.
  Lemma qu_upper : forall b, quiet (populate_upper N b : M KM unit).
  Proof. intros b. unfold populate_upper, set_full_entry. qu; apply qu_eval. Qed.
  Lemma qu_lower : forall b, quiet (populate_lower N b : M KM unit).
  Proof. intros b. unfold populate_lower, set_full_entry. qu; apply qu_eval. Qed.
  Lemma qu_densify : forall b, quiet (densify b : M KM unit).
  Proof. intros b. unfold densify. qu. Qed.
  Lemma qu_attach : forall x y, quiet (attach_to x y : M KM unit).
  Proof. intros x y. unfold attach_to. qu. Qed.
  Lemma qu_diag : quiet (diagonal : M KM (list V)).
  Proof. unfold diagonal. qu. apply qu_eval. Qed.
  Lemma qu_temp : forall tag x, quiet (temp_diagonal tag x : M KM (list V)).
  Proof.
    intros tag x s.
    assert (HT : forall t : KM, temp_diagonal tag x t =
      let r := (attach_to x None ;;; diagonal) (km_new_tagged (k_kernel t) false (g_calls t) tag : KM) in
      (log_calls (g_calls (fst r)) t, snd r)) by reflexivity.
    rewrite !HT.
    assert (H : quiet (attach_to x None ;;; diagonal : M KM (list V))).
    { apply qu_bind; [apply qu_attach|intros _; apply qu_diag]. }
    change (km_new_tagged (k_kernel (tamed s)) false (g_calls (tamed s)) tag : KM)
      with (tamed (km_new_tagged (k_kernel s) false (g_calls s) tag)).
    destruct (H (km_new_tagged (k_kernel s) false (g_calls s) tag)) as [_ H2].
    cbv zeta. rewrite H2. split; reflexivity.
  Qed.
  Lemma qu_combo : forall rows cols, quiet (compute_for_index_combinations rows cols : M KM (arr V)).
  Proof. intros rows cols. unfold compute_for_index_combinations. qu. apply qu_eval. Qed.

  Lemma ta_warn : forall a, tames (warn_nan_inf_e N wexn f a) (warn_if_nan_inf strict_ops a).
  Proof.
    intros a. unfold warn_nan_inf_e, warn_if_nan_inf. apply ta_get. intros s. cbv zeta.
    unfold contains_nan_inf. cbn [v_finite strict_ops k_kernel tamed tame kfmt].
    unfold warn_e, same_out, raise, ret.
    destruct (mall (v_finite N) (amat a)), (kfmt (k_kernel s)), (f WKernelMatrix); cbn; (split; [reflexivity|]); (split; [reflexivity|]); first [left; reflexivity|right; repeat split; reflexivity].
  Qed.

  Ltac ta := repeat (cbv beta; lazymatch goal with
    | |- tames (ret _) (ret _) => apply ta_ret
    | |- tames (raise _) (raise _) => apply ta_raise
    | |- tames (lift _) (lift _) => apply ta_lift
    | |- tames (attr_or _) (attr_or _) => apply ta_attr; intros; reflexivity
    | |- tames (modify _) (modify _) => apply ta_modify; intros; split; reflexivity
    | |- tames (when _ _) (when _ _) => apply ta_when
    | |- tames (fmap _ _) (fmap _ _) => unfold fmap
    | |- tames (bind get _) (bind get _) => apply ta_get'; intros
    | |- tames (bind _ _) (bind _ _) => apply ta_bind; [|intros]
    | |- tames (warn_nan_inf_e _ _ _ _) _ => apply ta_warn
    | |- tames (temp_diagonal _ _) _ => apply quiet_ta, qu_temp
    | |- tames (compute_for_index_combinations _ _) _ => apply quiet_ta, qu_combo
    | |- tames (match ?x with _ => _ end) (match ?x with _ => _ end) => destruct x
    | |- tames (match ?x with _ => _ end) (match ?y with _ => _ end) => change y with x; destruct x
    end).
  Lemma ta_pop : forall d l, tames (populate_fully_e N wexn f d l) (populate_fully strict_ops d l).
  Proof.
    intros d l. unfold populate_fully_e, populate_fully.
    apply ta_bind; [apply quiet_ta; exact (qu_upper d)|intros _].
    apply ta_bind; [apply quiet_ta; exact (qu_lower l)|intros _].
    apply ta_bind; [apply quiet_ta; exact (qu_densify d)|intros _]. ta.
  Qed.
  Lemma ta_normalize : forall meth, tames (normalize_e N wexn f meth) (normalize strict_ops meth).
  Proof. intros meth. unfold normalize_e, normalize. ta; try apply ta_pop. Qed.
  Lemma ta_full : tames (full_e N wexn f) (full strict_ops).
  Proof. unfold full_e, full. ta; try apply ta_pop; apply ta_normalize. Qed.
  Lemma ta_full_sparse : tames (full_sparse_e N wexn f) (full_sparse strict_ops).
  Proof. unfold full_sparse_e, full_sparse. ta; try apply ta_pop; apply ta_normalize. Qed.
  Lemma ta_center : tames (center_e N wexn f) (center strict_ops).
  Proof. unfold center_e, center. ta; try apply ta_pop. Qed.
  Lemma ta_centered : tames (centered_e N wexn f) (centered strict_ops).
  Proof. unfold centered_e, centered. ta; try apply ta_center. Qed.
  Lemma ta_frob : tames (frob_norm_e N wexn f) (frob_norm strict_ops).
  Proof. unfold frob_norm_e, frob_norm. ta; try apply ta_pop. Qed.
  Lemma ta_normed : tames (normed_km_e N wexn f) (normed_km strict_ops).
  Proof. unfold normed_km_e, normed_km. ta; try apply ta_normalize. Qed.
  Lemma ta_pair : forall a b, tames (getitem_pair_e N wexn f a b) (getitem_pair strict_ops a b).
  Proof. intros a b. unfold getitem_pair_e, getitem_pair. ta; try apply ta_pop. Qed.
  Lemma ta_getitem : forall ix, tames (getitem_e N wexn f ix) (getitem strict_ops ix).
  Proof. intros [a b|k|]; unfold getitem_e, getitem; ta; apply ta_pair. Qed.
  Lemma ta_step : forall o, tames (step_e N wexn f o) (step strict_ops o).
  Proof.
    intros o. destruct o; cbn [step_e step]; unfold fmap.
    - apply quiet_ta. qu. apply qu_attach.
    - ta. apply ta_full.
    - ta. apply ta_full_sparse.
    - ta. apply ta_center.
    - ta. apply ta_centered.
    - ta. apply ta_normalize.
    - ta. apply ta_normed.
    - ta. apply ta_frob.
    - apply quiet_ta. qu. apply qu_diag.
    - ta. apply ta_getitem.
    - apply quiet_ta. unfold set_attr. qu.
    - apply quiet_ta. unfold get_attr. qu.
    - apply quiet_ta. qu.
    - apply quiet_ta. unfold size. qu.
    - apply quiet_ta. qu.
    - apply quiet_ta. qu.
  Qed.
End Tame.
