(** Recording warnings changes nothing else; what each part of the code warns about. *)
From Coq Require Import String List Arith ZArith Bool Lia.
Import ListNotations.
From Verif Require Import Prelude MatModel MatFacts UtilsModel IndexModel KMModel SpecKM SpecRef WarnModel
  SpecWarn MFacts KMFacts.
Local Open Scope list_scope.

Section Facts.
  Context {E V U : Type}.
  Variable N : numops V.
  Notation KM := (km E V U).
  Notation wact := (M (KM * list warning)).

  (** The warnings of [mw] in the state [s]. *)
  Definition em {A} (mw : wact A) (s : KM) : list warning := snd (fst (mw (s, []))).
  (** [mw] is [m] with warnings recorded. *)
  Definition logs {A} (mw : wact A) (m : M KM A) : Prop :=
    forall s w, mw (s, w) = ((fst (m s), w ++ em mw s), snd (m s)).

  Lemma logs_silent : forall {A} (m : M KM A), logs (silent m) m.
  Proof.
    intros A m s w. unfold em, silent. cbn [fst snd]. destruct (m s) as [s' q]. cbn.
    rewrite app_nil_r. reflexivity.
  Qed.
  Lemma em_silent : forall {A} (m : M KM A) s, em (silent m) s = [].
  Proof. intros A m s. unfold em, silent. cbn. destruct (m s). reflexivity. Qed.
  Lemma logs_ret : forall {A} (a : A), logs (ret a) (ret a).
  Proof. intros A a s w. unfold em, ret. cbn. rewrite app_nil_r. reflexivity. Qed.
  Lemma logs_lift : forall {A} (a : res A), logs (lift a) (lift a).
  Proof. intros A a s w. unfold em, lift. cbn. rewrite app_nil_r. reflexivity. Qed.
  Lemma logs_raise : forall {A} e, logs (@raise _ A e) (raise e).
  Proof. intros A e s w. unfold em, raise. cbn. rewrite app_nil_r. reflexivity. Qed.
  Lemma logs_bind : forall {A B} (mw : wact A) m (fw : A -> wact B) f,
    logs mw m -> (forall a, logs (fw a) (f a)) -> logs (bind mw fw) (bind m f).
  Proof.
    intros A B mw m fw f Hm Hf s w. unfold em, bind. rewrite (Hm s w), (Hm s []).
    destruct (m s) as [s' [a|e]]; cbn [fst snd]; [|reflexivity].
    rewrite (Hf a s' (w ++ em mw s)), (Hf a s' ([] ++ em mw s)). cbn [fst snd app].
    rewrite app_assoc. reflexivity.
  Qed.
  Lemma em_bind : forall {A B} (mw : wact A) m (fw : A -> wact B) f,
    logs mw m -> (forall a, logs (fw a) (f a)) -> forall s,
    em (bind mw fw) s = em mw s ++ match m s with (s', Ok a) => em (fw a) s' | _ => [] end.
  Proof.
    intros A B mw m fw f Hm Hf s. unfold em at 1, bind. rewrite (Hm s []).
    destruct (m s) as [s' [a|e]]; cbn [fst snd]; [|rewrite app_nil_r; reflexivity].
    rewrite (Hf a s' ([] ++ em mw s)). reflexivity.
  Qed.
  Lemma logs_when : forall b mw m, logs mw m -> logs (when b mw) (when b m).
  Proof. intros [] mw m H; [exact H|apply logs_ret]. Qed.
  Lemma logs_if : forall {A} (b : bool) (mw mw' : wact A) m m', logs mw m -> logs mw' m' ->
    logs (if b then mw else mw') (if b then m else m').
  Proof. intros A [] mw mw' m m' H H'; assumption. Qed.
  Lemma logs_tell : forall {A} l (fw : wact A) f, logs fw f -> logs (tell l ;;; fw) f.
  Proof.
    intros A l fw f Hf s w. unfold em, bind, tell, modify. cbn [fst snd app].
    rewrite (Hf s (w ++ l)), (Hf s l). cbn [fst snd]. rewrite app_assoc. reflexivity.
  Qed.
  Lemma em_tell : forall {A} l (fw : wact A) f, logs fw f -> forall s, em (tell l ;;; fw) s = l ++ em fw s.
  Proof.
    intros A l fw f Hf s. unfold em at 1, bind, tell, modify. cbn [fst snd app]. rewrite (Hf s l). reflexivity.
  Qed.
  Lemma logs_warn : forall a, logs (warn_nan_inf_w N a) (warn_if_nan_inf N a).
  Proof.
    intros a s w. unfold em, warn_nan_inf_w, warn_if_nan_inf, bind, get, tell, modify, ret, raise. cbn [fst snd].
    destruct (contains_nan_inf N a), (kfmt (k_kernel s)); cbn; rewrite ?app_nil_r; reflexivity.
  Qed.
  Lemma em_warn : forall a s, em (warn_nan_inf_w N a) s = announced N (kfmt (k_kernel s)) (amat a).
  Proof.
    intros a s. unfold em, warn_nan_inf_w, announced, contains_nan_inf, bind, get, tell, modify, ret, raise.
    cbn [fst snd]. destruct (mall (v_finite N) (amat a)), (kfmt (k_kernel s)); reflexivity.
  Qed.

  Ltac lg :=
    first
      [ apply logs_bind; [|intro]
      | apply logs_when
      | apply logs_ret | apply logs_raise | apply logs_lift | apply logs_silent | apply logs_warn
      | apply logs_if ].

  Lemma logs_pop : forall d l, logs (populate_fully_w N d l) (populate_fully N d l).
  Proof. intros d l. unfold populate_fully_w, populate_fully. repeat lg. Qed.
  Lemma logs_normalize : forall meth, logs (normalize_w N meth) (normalize N meth).
  Proof.
    intros meth. unfold normalize_w, normalize. repeat (apply logs_pop || apply logs_tell || lg).
  Qed.
  Lemma logs_full : logs (full_w N) (full N).
  Proof.
    unfold full_w, full. lg; [lg|]. destruct (k_sample a); [|lg].
    repeat (apply logs_pop || apply logs_normalize || lg).
  Qed.
  Lemma logs_full_sparse : logs (full_sparse_w N) (full_sparse N).
  Proof. unfold full_sparse_w, full_sparse. repeat (apply logs_pop || apply logs_normalize || lg). Qed.
  Lemma logs_center : logs (center_w N) (center N).
  Proof. unfold center_w, center. repeat (apply logs_pop || apply logs_normalize || lg). Qed.
  Lemma logs_centered : logs (centered_w N) (centered N).
  Proof. unfold centered_w, centered. repeat (apply logs_center || lg). Qed.
  Lemma logs_frob : logs (frob_norm_w N) (frob_norm N).
  Proof. unfold frob_norm_w, frob_norm. repeat (apply logs_pop || lg). Qed.
  Lemma logs_normed : logs (normed_km_w N) (normed_km N).
  Proof. unfold normed_km_w, normed_km. repeat (apply logs_normalize || lg). Qed.
  Lemma logs_pair : forall a b, logs (getitem_pair_w N a b) (getitem_pair N a b).
  Proof. intros a b. unfold getitem_pair_w, getitem_pair. repeat (apply logs_pop || lg). Qed.
  Lemma logs_getitem : forall ix, logs (getitem_w N ix) (getitem N ix).
  Proof. intros [a b|k|]; unfold getitem_w, getitem; repeat (apply logs_pair || lg). Qed.
  Lemma logs_fmap : forall {A B} (f : A -> B) mw m, logs mw m -> logs (wfmap f mw) (fmap f m).
  Proof. intros A B f mw m H. unfold wfmap, fmap. lg; [exact H|lg]. Qed.
  Lemma logs_step : forall o, logs (step_w N o) (step N o).
  Proof.
    intros o. destruct o; cbn [step_w]; try apply logs_silent; cbn [step]; apply logs_fmap;
      [apply logs_full|apply logs_full_sparse|apply logs_center|apply logs_centered|apply logs_normalize|
       apply logs_normed|apply logs_frob|apply logs_getitem].
  Qed.

  Lemma step_w_eq : forall (o : op E U) (s : KM) w, step_w N o (s, w) = ((fst (step N o s), w ++ warns N o s), snd (step N o s)).
  Proof. intros o s w. apply logs_step. Qed.

  Lemma run_w_eq : forall (ops : list (op E U)) (s : KM) w, run_w N ops (s, w) = (run N ops s, w ++ all_warns N ops s).
  Proof.
    intros ops. induction ops as [|o ops IH]; intros s w; unfold all_warns; cbn [run_w run].
    - cbn. rewrite app_nil_r. reflexivity.
    - rewrite !step_w_eq. cbn [fst app]. rewrite (IH _ (w ++ warns N o s)), (IH _ (warns N o s)).
      cbn [snd]. rewrite app_assoc. reflexivity.
  Qed.

  Lemma all_warns_cons : forall (o : op E U) ops (s : KM),
    all_warns N (o :: ops) s = warns N o s ++ all_warns N ops (fst (step N o s)).
  Proof.
    intros o ops s. unfold all_warns at 1. cbn [run_w]. rewrite step_w_eq. cbn [fst app].
    rewrite run_w_eq. reflexivity.
  Qed.

  Lemma em_fmap : forall {A B} (f : A -> B) mw m, logs mw m -> forall s, em (wfmap f mw) s = em mw s.
  Proof.
    intros A B f mw m H s. unfold wfmap. rewrite (em_bind mw m _ (fun a => ret (f a))); [|exact H|intro; lg].
    destruct (m s) as [s' [a|e]]; cbn; rewrite ?app_nil_r; reflexivity.
  Qed.

  Lemma bind_run : forall {A B} (m : M KM A) (f : A -> M KM B) s,
    bind m f s = match m s with (s', Ok a) => f a s' | (s', Raise e) => (s', Raise e) end.
  Proof. reflexivity. Qed.

  (** ** What each part warns about *)
  Lemma pop_warns : forall d l (s : KM), em (populate_fully_w N d l) s =
    match snd (populate_fully N d l s) with
    | Ok a => if mall (v_finite N) (amat a) then [] else [WKernelMatrix]
    | Raise _ => []
    end.
  Proof.
    intros d l s. unfold populate_fully_w.
    rewrite (em_bind _ (populate_upper N d) _ (fun _ => populate_lower N l ;;; densify d ;;;
      a <- attr_or k_full ;; warn_if_nan_inf N a ;;; ret a)) by (intros; repeat lg).
    rewrite em_silent. cbn [app]. unfold populate_fully. rewrite (bind_run (populate_upper N d)).
    destruct (populate_upper N d s) as [s1 [[]|e]]; [|reflexivity].
    rewrite (em_bind _ (populate_lower N l) _ (fun _ => densify d ;;;
      a <- attr_or k_full ;; warn_if_nan_inf N a ;;; ret a)) by (intros; repeat lg).
    rewrite em_silent. cbn [app]. rewrite (bind_run (populate_lower N l)).
    destruct (populate_lower N l s1) as [s2 [[]|e]]; [|reflexivity].
    rewrite (em_bind _ (densify d) _ (fun _ =>
      a <- attr_or k_full ;; warn_if_nan_inf N a ;;; ret a)) by (intros; repeat lg).
    rewrite em_silent. cbn [app]. rewrite (bind_run (densify d)).
    destruct (densify d s2) as [s3 [[]|e]]; [|reflexivity].
    rewrite (em_bind _ (attr_or k_full) _ (fun a => warn_if_nan_inf N a ;;; ret a)) by (intros; repeat lg).
    rewrite em_silent. cbn [app]. rewrite (bind_run (attr_or k_full)).
    destruct (attr_or k_full s3) as [s4 [a|e]]; [|reflexivity].
    rewrite (em_bind _ (warn_if_nan_inf N a) _ (fun _ => ret a)) by (intros; repeat lg).
    rewrite em_warn. unfold announced, warn_if_nan_inf, contains_nan_inf, bind, get, ret, raise.
    destruct (mall (v_finite N) (amat a)) eqn:Hf, (kfmt (k_kernel s4)); cbn; rewrite ?Hf; reflexivity.
  Qed.

  (** [if not self._populated_fully: ...], and what follows. *)


  Lemma logs_ensure : forall s : KM, logs (when (negb (k_populated s)) (populate_fully_w N true true ;;; ret tt))
                                     (when (negb (k_populated s)) (populate_fully N true true ;;; ret tt)).
  Proof. intros s. repeat (apply logs_pop || lg). Qed.
  Lemma em_ensure : forall s s0 : KM,
    em (when (negb (k_populated s)) (populate_fully_w N true true ;;; ret tt)) s0 =
    if k_populated s then [] else em (populate_fully_w N true true) s0.
  Proof.
    intros s s0. destruct (k_populated s); [reflexivity|]. cbn [negb when].
    rewrite (em_bind _ (populate_fully N true true) _ (fun _ => ret tt)); [|apply logs_pop|intro; lg].
    destruct (populate_fully N true true s0) as [s1 [a|e]]; cbn; rewrite ?app_nil_r; reflexivity.
  Qed.
End Facts.
