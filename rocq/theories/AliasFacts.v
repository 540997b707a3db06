(** The memo invariant survives writes of the caller into returned matrices, and a completely
    evaluated one-sample object never reads its sample again. *)
From Coq Require Import String List Arith ZArith Bool Lia.
Import ListNotations.
From Verif Require Import Prelude MatModel MatFacts UtilsModel IndexModel KMModel SpecKM MFacts
  KMFacts KMInv KMOps KMIndex KMHist KMTotal KMGet KMTrack KMLog KMHist2 AliasModel.

Section Memo.
  Context {E V U : Type}.
  Variable N : numops V.
  Variable K : kernel E V.
  Variable k : list E -> list E -> V.
  Variable nrm : bool.
  Variables (X Y : ndarray E) (two : bool) (n m d : nat).
  Variable base : list (call E).
  Hypothesis Hret : returns_only K k X (Some Y) n m d.
  Hypothesis HX : nd_shape X = [n; d].
  Hypothesis HY : nd_shape Y = [m; d].
  Hypothesis Hone : two = false -> Y = X /\ m = n.
  Notation KM := (km E V U).
  Notation invA := (@inv E V U K k nrm X Y two n m d 0 base).
  Notation tv := (truev k X Y two d).

  (** Writing fields the memo invariant does not mention. *)
  Ltac other_field := intros x s [H1 H2 H3]; constructor;
      [destruct H1; constructor; assumption|destruct H2; constructor; assumption|exact H3].
  Lemma ki_full : forall x s, invA s -> invA (set_full x s).
  Proof. other_field. Qed.
  Lemma ki_normed : forall x s, invA s -> invA (set_normed x s).
  Proof. other_field. Qed.
  Lemma ki_frob : forall x s, invA s -> invA (set_frob x s).
  Proof. other_field. Qed.
  Lemma ki_centered : forall x s, invA s -> invA (set_centered x s).
  Proof. other_field. Qed.
  Lemma ki_is_centered : forall x s, invA s -> invA (set_is_centered x s).
  Proof. other_field. Qed.
  Lemma ki_is_normed : forall x s, invA s -> invA (set_is_normed x s).
  Proof. other_field. Qed.
  Lemma ki_populated : forall x s, invA s -> invA (set_populated x s).
  Proof. other_field. Qed.
  Lemma ki_lower : forall x s, invA s -> invA (set_lower x s).
  Proof. other_field. Qed.
  Lemma ki_attrs : forall x s, invA s -> invA (set_attrs x s).
  Proof. other_field. Qed.

  Definition ki {A} (mm : M KM A) : Prop :=
    forall s, invA s -> holds mm s (fun s' _ => invA s').

  Lemma ki_bind : forall {A B} (mm : M KM A) (f : A -> M KM B),
    ki mm -> (forall a, ki (f a)) -> ki (bind mm f).
  Proof.
    intros A B mm f Hm Hf s Hs. apply holds_bind. eapply holds_conseq; [apply Hm, Hs|].
    intros s' [a|e] Hs'; [apply Hf; exact Hs'|exact Hs'].
  Qed.
  Lemma ki_ret : forall {A} (a : A), ki (ret a).
  Proof. intros A a s Hs. exact Hs. Qed.
  Lemma ki_raise : forall {A} e, ki (@raise KM A e).
  Proof. intros A e s Hs. exact Hs. Qed.
  Lemma ki_lift : forall {A} (r : res A), ki (lift r).
  Proof. intros A r s Hs. exact Hs. Qed.
  Lemma ki_get : ki get.
  Proof. intros s Hs. exact Hs. Qed.
  Lemma ki_modify : forall f, (forall s, invA s -> invA (f s)) -> ki (modify f).
  Proof. intros f H s Hs. apply H, Hs. Qed.
  Lemma ki_attr_or : forall {A} (f : KM -> option A), ki (attr_or f).
  Proof.
    intros A f s Hs. unfold attr_or. apply holds_bind, holds_get. destruct (f s); exact Hs.
  Qed.
  Lemma ki_when : forall b mm, ki mm -> ki (when b mm).
  Proof. intros [] mm H; [exact H|apply ki_ret]. Qed.
  Lemma ki_try : forall {A} (mm : M KM A) e, ki mm -> ki (try_except mm e).
  Proof.
    intros A mm e H s Hs. apply holds_try. eapply holds_conseq; [apply H, Hs|].
    intros s' [a|e'] H'; exact H'.
  Qed.
  Lemma ki_for_each : forall {A} (body : A -> M KM unit) l,
    (forall a, In a l -> ki (body a)) -> ki (for_each l body).
  Proof.
    intros A body l. induction l as [|a l IH]; intros H; cbn [for_each]; [apply ki_ret|].
    apply ki_bind; [apply H; left; reflexivity|]. intros _. apply IH. intros b Hb.
    apply H. right. exact Hb.
  Qed.

  Lemma inv_shape : forall s : KM, invA s -> k_shape s = Some (n, m).
  Proof. intros s H. apply (fx_shape _ _ _ _ _ _ _ _ _ (iv_fixed _ _ _ _ _ _ _ _ _ _ _ s H)). Qed.
  Lemma inv_two : forall s : KM, invA s -> k_two s = Some two.
  Proof. intros s H. apply (fx_two _ _ _ _ _ _ _ _ _ (iv_fixed _ _ _ _ _ _ _ _ _ _ _ s H)). Qed.

  Lemma ki_shape_bind : forall {B} (f : nat * nat -> M KM B),
    ki (f (n, m)) -> ki (bind (attr_or k_shape) f).
  Proof.
    intros B f H s Hs. apply holds_bind. eapply holds_attr_or; [apply inv_shape, Hs|].
    apply H, Hs.
  Qed.
  Lemma ki_two_bind : forall {B} (f : bool -> M KM B),
    ki (f two) -> ki (bind (attr_or k_two) f).
  Proof.
    intros B f H s Hs. apply holds_bind. eapply holds_attr_or; [apply inv_two, Hs|].
    apply H, Hs.
  Qed.

  Lemma ki_eval : forall i j, i < n -> j < m -> ki (eval_kernel i j).
  Proof.
    intros i j Hi Hj s Hs.
    eapply holds_conseq; [apply (eval_kernel_spec K k nrm X Y two n m d 0 base Hret HX HY Hone s i j Hs Hi Hj)|].
    intros s' r H. apply H.
  Qed.
  Lemma ki_entry : forall i j v, ki (set_full_entry i j v).
  Proof.
    intros i j v. apply ki_bind; [apply ki_attr_or|]. intros a. apply ki_modify, ki_full.
  Qed.

  Lemma tril_range : forall p, In p (tril_indices n m) -> fst p < n /\ snd p < m.
  Proof.
    intros p Hp. unfold tril_indices in Hp. apply in_flat_map in Hp.
    destruct Hp as (i & Hi & Hp). apply in_map_iff in Hp. destruct Hp as (j & <- & Hj).
    apply in_seq in Hi, Hj. cbn. lia.
  Qed.

  Lemma ki_populate : forall dense low, ki (populate_fully N dense low).
  Proof.
    intros dense low. unfold populate_fully.
    apply ki_bind.
    { unfold populate_upper. apply ki_bind; [apply ki_get|]. intros s0.
      apply ki_when, ki_shape_bind. apply ki_bind; [apply ki_modify, ki_full|]. intros _.
      apply ki_bind; [|intros _; apply ki_modify, ki_populated].
      apply ki_try, ki_for_each. intros i Hi. apply ki_for_each. intros j Hj.
      apply in_seq in Hi, Hj. cbn [fst snd] in Hi, Hj.
      apply ki_bind; [apply ki_eval; lia|intros v; apply ki_entry]. }
    intros _. apply ki_bind.
    { unfold populate_lower. apply ki_bind; [apply ki_get|]. intros s0. apply ki_when.
      apply ki_bind; [|intros _; apply ki_modify, ki_lower]. apply ki_try, ki_shape_bind.
      apply ki_two_bind. destruct (negb two && (fst (n, m) =? snd (n, m))).
      - apply ki_bind; [apply ki_attr_or|]. intros a. apply ki_for_each. intros p _. apply ki_entry.
      - apply ki_for_each. intros p Hp. apply tril_range in Hp.
        apply ki_bind; [apply ki_eval; lia|intros v; apply ki_entry]. }
    intros _. apply ki_bind.
    { unfold densify. apply ki_bind; [apply ki_attr_or|]. intros a.
      apply ki_when, ki_modify, ki_full. }
    intros _. apply ki_bind; [apply ki_attr_or|]. intros a.
    apply ki_bind; [|intros _; apply ki_ret]. unfold warn_if_nan_inf.
    apply ki_bind; [apply ki_get|]. intros s0.
    destruct (contains_nan_inf N a && negb (kfmt (k_kernel s0))); [apply ki_raise|apply ki_ret].
  Qed.

  Lemma ki_warn : forall a, ki (warn_if_nan_inf N a).
  Proof.
    intros a. unfold warn_if_nan_inf. apply ki_bind; [apply ki_get|]. intros s0.
    destruct (contains_nan_inf N a && negb (kfmt (k_kernel s0))); [apply ki_raise|apply ki_ret].
  Qed.

  Lemma ki_temp : forall tg (x : ndarray E) r, tg <> 0 -> returns_only K k x None r r d ->
    nd_shape x = [r; d] -> ki (temp_diagonal tg x).
  Proof.
    intros tg x r Htg Hr Hx s Hs.
    assert (FK : k_kernel s = K)
      by (apply (fx_kernel _ _ _ _ _ _ _ _ _ (iv_fixed _ _ _ _ _ _ _ _ _ _ _ s Hs))).
    eapply holds_conseq; [apply (temp_diagonal_spec K k tg x r d s Hr FK Hx)|].
    intros s' r' (added & -> & Ht & _). apply inv_log_other; [|exact Hs].
    eapply Forall_impl; [|exact Ht]. cbv beta. congruence.
  Qed.

  Lemma ki_normalize : forall meth, ki (normalize N meth).
  Proof.
    intros meth. unfold normalize. apply ki_bind; [apply ki_get|]. intros s0.
    apply ki_bind.
    { apply ki_when, ki_bind; [apply ki_populate|intros; apply ki_ret]. }
    intros _. apply ki_bind; [apply ki_get|]. intros s1. apply ki_when, ki_two_bind.
    apply ki_bind.
    { destruct (negb two).
      - apply ki_bind; [apply ki_attr_or|]. intros a.
        apply ki_bind; [apply ki_lift|]. intros nk. apply ki_modify, ki_normed.
      - intros s Hs. apply holds_bind.
        eapply holds_attr_or;
          [apply (fx_sample _ _ _ _ _ _ _ _ _ (iv_fixed _ _ _ _ _ _ _ _ _ _ _ s Hs))|].
        apply holds_bind.
        eapply holds_attr_or;
          [apply (fx_sample2 _ _ _ _ _ _ _ _ _ (iv_fixed _ _ _ _ _ _ _ _ _ _ _ s Hs))|].
        revert s Hs. change (ki (a <- attr_or k_full ;; dx <- temp_diagonal 1 X ;;
          dy <- temp_diagonal 2 Y ;; nk <- lift (op_normalize2 N a dx dy) ;;
          modify (set_normed (Some nk)))).
        apply ki_bind; [apply ki_attr_or|]. intros a.
        apply ki_bind; [apply (ki_temp 1 X n); [lia|apply (ret_first K k X Y n m d Hret)|exact HX]|].
        intros dx.
        apply ki_bind; [apply (ki_temp 2 Y m); [lia|apply (ret_second K k X Y n m d Hret)|exact HY]|].
        intros dy. apply ki_bind; [apply ki_lift|]. intros nk. apply ki_modify, ki_normed. }
    intros _. apply ki_bind; [apply ki_modify, ki_is_normed|]. intros _.
    apply ki_bind; [apply ki_attr_or|]. intros nk. apply ki_warn.
  Qed.

  Lemma ki_full_op : ki (full N).
  Proof.
    unfold full. apply ki_bind; [apply ki_get|]. intros s0.
    destruct (k_sample s0); [|apply ki_raise].
    apply ki_bind.
    { apply ki_when, ki_bind; [apply ki_populate|intros; apply ki_ret]. }
    intros _. destruct (k_keep_normed s0); [|apply ki_attr_or].
    apply ki_bind; [apply ki_get|]. intros s1.
    apply ki_bind; [apply ki_when, ki_normalize|]. intros _. apply ki_attr_or.
  Qed.

  Lemma ki_center : ki (center N).
  Proof.
    unfold center. apply ki_bind; [apply ki_attr_or|]. intros [].
    { apply ki_raise. }
    apply ki_bind; [apply ki_get|]. intros s0.
    apply ki_bind.
    { apply ki_when, ki_bind; [apply ki_populate|]. intros a. apply ki_modify, ki_full. }
    intros _. apply ki_bind; [apply ki_attr_or|]. intros a.
    apply ki_bind; [apply ki_lift|]. intros c.
    apply ki_bind; [apply ki_modify, ki_centered|]. intros _. apply ki_modify, ki_is_centered.
  Qed.

  Lemma eval_listI : forall (l : list (nat * nat)) s,
    invA s -> (forall p, In p l -> fst p < n /\ snd p < m) ->
    holds (map_each l (fun p => eval_kernel (fst p) (snd p))) s (fun s' r =>
      invA s' /\
      match r with
      | Ok vs => vs = map (fun p => tv (fst p) (snd p)) l
      | Raise e => raised K X Y n m d e
      end).
  Proof.
    intros l s Hs Hl.
    eapply holds_conseq;
      [apply (eval_list_spec K k nrm X Y two n m d 0 base Hret HX HY Hone l s Hs Hl)|].
    intros s' r (H1 & _ & _ & _ & H5). split; [exact H1|]. destruct r; [apply H5|exact H5].
  Qed.

  Lemma diagonalI : forall s, invA s ->
    holds diagonal s (fun s' r => invA s' /\
      match r with
      | Ok vs => two = false /\ vs = map (fun i => tv i i) (seq 0 n)
      | Raise e => two = true /\ e = KMAccessError \/ two = false /\ raised K X Y n m d e
      end).
  Proof.
    intros s Hs. unfold diagonal. apply holds_bind.
    eapply holds_attr_or; [apply inv_two, Hs|].
    destruct (Bool.bool_dec two true) as [Htwo|Htwo].
    { replace (if two then raise KMAccessError else sh <- attr_or k_shape ;;
               map_each (seq 0 (fst sh)) (fun i => eval_kernel i i) : M KM (list V))
        with (raise KMAccessError : M KM (list V)) by (rewrite Htwo; reflexivity).
      apply holds_raise. auto. }
    apply not_true_is_false in Htwo.
    replace (if two then raise KMAccessError else sh <- attr_or k_shape ;;
               map_each (seq 0 (fst sh)) (fun i => eval_kernel i i) : M KM (list V))
        with (sh <- attr_or k_shape ;; map_each (seq 0 (fst sh)) (fun i => eval_kernel i i)
              : M KM (list V))
        by (rewrite Htwo; reflexivity).
    apply holds_bind. eapply holds_attr_or; [apply inv_shape, Hs|]. cbn [fst].
    destruct (Hone Htwo) as [_ Hmn].
    assert (Hsame : forall l (st : km E V U),
              map_each (map (fun i => (i, i)) l) (fun p => eval_kernel (fst p) (snd p)) st
              = map_each l (fun i => eval_kernel i i) st).
    { intros l. induction l as [|a l IH]; intros st; [reflexivity|].
      cbn [map map_each fst snd]. unfold bind.
      destruct (eval_kernel a a st) as [st' [v|e]]; [|reflexivity].
      rewrite IH. reflexivity. }
    assert (Hrg : forall p, In p (map (fun i => (i, i)) (seq 0 n)) -> fst p < n /\ snd p < m).
    { intros p Hp. apply in_map_iff in Hp. destruct Hp as (i & <- & Hi).
      apply in_seq in Hi. simpl. lia. }
    assert (H := eval_listI (map (fun i => (i, i)) (seq 0 n)) s Hs Hrg).
    unfold holds in H |- *. rewrite Hsame in H. destruct H as [H1 H2]. split; [exact H1|].
    destruct (snd (map_each (seq 0 n) (fun i => eval_kernel i i) s)) as [l|e]; [|auto].
    split; [exact Htwo|]. rewrite H2, map_map. reflexivity.
  Qed.

  (** Access to a proper part. *)
  Lemma getitemI : forall s ix rows cols, invA s ->
    valid n m ix -> selection2 n m ix rows cols -> ~ whole n m rows cols ->
    holds (getitem N ix) s (fun s' r => invA s' /\
      match r with
      | Ok a => a = mkArr Dense (submatrix tv rows cols)
      | Raise e => raised K X Y n m d e
      end).
  Proof.
    intros s ix rows cols Hs Hv Hsel Hproper.
    destruct (resolve_valid n m ix Hv) as (r & c & Hr & Hsel' & HR & HC & _).
    destruct (selection2_unique X Y two n m Hone ix _ _ _ _ Hsel Hsel') as [<- <-].
    unfold holds. rewrite (getitem_resolve N s n m ix (inv_shape s Hs)), Hr.
    assert (Hnot : (length rows =? n) && (length cols =? m) = false).
    { apply not_true_is_false. intros Ht. apply andb_true_iff in Ht. destruct Ht as [T1 T2].
      apply Hproper. destruct ix as [a b|kk|]; cbn in Hsel, Hv.
      - destruct Hsel, Hv. split; eapply selection_whole; eassumption.
      - destruct Hsel as (i & j & Hi & Hj & _ & -> & ->).
        apply Nat.eqb_eq in T1, T2. cbn [length] in T1, T2.
        split; [rewrite <- T1|rewrite <- T2]; cbn; f_equal; lia.
      - destruct Hsel. }
    rewrite Hnot.
    assert (Hrange : forall p, In p (product rows cols) -> fst p < n /\ snd p < m).
    { intros [i j] Hp. apply in_product in Hp. destruct Hp. cbn. auto. }
    assert (H := eval_listI (product rows cols) s Hs Hrange).
    change (holds (compute_for_index_combinations rows cols) s (fun s' r => invA s' /\
      match r with
      | Ok a => a = mkArr Dense (submatrix tv rows cols)
      | Raise e => raised K X Y n m d e
      end)).
    unfold compute_for_index_combinations. apply holds_bind.
    eapply holds_conseq; [exact H|]. intros s' [vs|e] [H1 H2]; [|auto].
    apply holds_ret. split; [exact H1|]. subst vs.
    unfold submatrix. rewrite (reshape_product tv). reflexivity.
  Qed.

  Lemma ki_getitem : forall ix, ki (getitem N ix).
  Proof.
    intros ix s Hs. unfold holds. rewrite (getitem_resolve N s n m ix (inv_shape s Hs)).
    destruct (valid_or_not n m ix) as [Hv|Hv].
    - destruct (resolve_valid n m ix Hv) as (r & c & Hr & Hsel' & HR & HC & _). rewrite Hr.
      destruct ((length r =? n) && (length c =? m)); [apply ki_populate, Hs|].
      change (holds (compute_for_index_combinations r c) s (fun s' _ => invA s')).
      unfold compute_for_index_combinations. apply holds_bind.
      eapply holds_conseq; [apply eval_listI; [exact Hs|]|].
      + intros [i j] Hp. apply in_product in Hp. destruct Hp. cbn. auto.
      + intros s' [vs|e] [H1 H2]; exact H1.
    - destruct (resolve_invalid n m ix Hv) as (e & -> & He). exact Hs.
  Qed.

  Lemma ki_step : forall o : op E U, is_attach o = false -> ki (step N o).
  Proof.
    intros o Ho. destruct o; cbn [step]; try discriminate;
      (apply ki_bind; [|intros; apply ki_ret]).
    - apply ki_full_op.
    - unfold full_sparse. apply ki_bind; [apply ki_get|]. intros s0.
      destruct (k_keep_normed s0); [|apply ki_populate].
      apply ki_bind; [apply ki_when, ki_normalize|]. intros _. apply ki_attr_or.
    - apply ki_center.
    - unfold centered. apply ki_bind; [apply ki_attr_or|]. intros [].
      { apply ki_raise. }
      apply ki_bind; [apply ki_get|]. intros s0.
      apply ki_bind; [apply ki_when, ki_center|]. intros _. apply ki_attr_or.
    - apply ki_normalize.
    - unfold normed_km. apply ki_bind; [apply ki_get|]. intros s0.
      apply ki_bind; [apply ki_when, ki_normalize|]. intros _. apply ki_attr_or.
    - unfold frob_norm. apply ki_bind; [apply ki_get|]. intros s0.
      apply ki_bind.
      { apply ki_when, ki_bind; [apply ki_populate|intros; apply ki_ret]. }
      intros _. apply ki_bind; [apply ki_get|]. intros s1.
      apply ki_bind; [|intros; apply ki_attr_or].
      apply ki_when, ki_bind; [apply ki_attr_or|]. intros a.
      apply ki_bind; [apply ki_lift|]. intros v. apply ki_modify, ki_frob.
    - intros s Hs. eapply holds_conseq; [apply diagonalI, Hs|]. intros s' r H. apply H.
    - apply ki_getitem.
    - unfold set_attr. apply ki_modify. intros s. apply ki_attrs.
    - unfold get_attr. apply ki_bind; [apply ki_get|]. intros s0. apply ki_ret.
    - apply ki_get.
    - unfold size. apply ki_bind; [apply ki_attr_or|]. intros tw.
      apply ki_bind; [apply ki_get|]. intros s0. destruct tw, (k_num_samples s0);
        first [apply ki_ret|apply ki_raise].
    - apply ki_attr_or.
    - apply ki_get.
  Qed.
End Memo.

(** ** A completely evaluated one-sample object does not read its sample *)
Section Blind.
  Context {E V U : Type}.
  Variable N : numops V.
  Variable n : nat.
  Notation KM := (km E V U).

  Definition swap (A B : ndarray E) (s : KM) : KM := set_sample_two B (set_sample A s).

  Record complete (s : KM) : Prop := mkComplete {
    cp_two : k_two s = Some false;
    cp_shape : k_shape s = Some (n, n);
    cp_one : is_some (k_sample s) = true;
    cp_second : is_some (k_sample_two s) = true;
    cp_memo : forall i j, i <= j -> j < n -> exists v, memo_find (k_memo s) (i, j) = Some v
  }.

  Definition blind {A} (mm : M KM A) : Prop := forall s P Q, complete s ->
    mm (swap P Q s) = (swap P Q (fst (mm s)), snd (mm s)) /\ complete (fst (mm s)).

  Lemma blind_ret : forall {A} (a : A), blind (ret a).
  Proof. intros A a s P Q Hs. split; [reflexivity|exact Hs]. Qed.
  Lemma blind_raise : forall {A} e, blind (@raise KM A e).
  Proof. intros A e s P Q Hs. split; [reflexivity|exact Hs]. Qed.
  Lemma blind_lift : forall {A} (r : res A), blind (lift r).
  Proof. intros A r s P Q Hs. split; [reflexivity|exact Hs]. Qed.
  Lemma blind_bind : forall {A B} (mm : M KM A) (f : A -> M KM B),
    blind mm -> (forall a, blind (f a)) -> blind (bind mm f).
  Proof.
    intros A B mm f Hm Hf s P Q Hs. unfold bind. destruct (Hm s P Q Hs) as [H1 H2]. rewrite H1.
    destruct (mm s) as [s' [a|e]]; cbn [fst snd] in *; [|split; [reflexivity|exact H2]].
    apply Hf, H2.
  Qed.
  Lemma blind_get_bind : forall {B} (f : KM -> M KM B),
    (forall s P Q st, complete s -> f (swap P Q s) st = f s st) -> (forall s, complete s -> blind (f s)) ->
    blind (bind get f).
  Proof.
    intros B f H1 H2 s P Q Hs. unfold bind, get. rewrite (H1 s P Q _ Hs). apply (H2 s Hs s P Q Hs).
  Qed.
  Lemma blind_attr : forall {A} (f : KM -> option A), (forall P Q s, f (swap P Q s) = f s) ->
    blind (attr_or f).
  Proof.
    intros A f Hf. unfold attr_or. apply blind_get_bind.
    - intros s P Q st _. rewrite Hf. reflexivity.
    - intros s _. destruct (f s); [apply blind_ret|apply blind_raise].
  Qed.
  Lemma blind_two_bind : forall {B} (f : bool -> M KM B),
    blind (f false) -> blind (bind (attr_or k_two) f).
  Proof.
    intros B f H s P Q Hs. unfold bind, attr_or, get, ret. unfold bind.
    change (k_two (swap P Q s)) with (k_two s). rewrite (cp_two s Hs). apply H, Hs.
  Qed.
  Lemma blind_shape_bind : forall {B} (f : nat * nat -> M KM B),
    blind (f (n, n)) -> blind (bind (attr_or k_shape) f).
  Proof.
    intros B f H s P Q Hs. unfold bind, attr_or, get, ret. unfold bind.
    change (k_shape (swap P Q s)) with (k_shape s). rewrite (cp_shape s Hs). apply H, Hs.
  Qed.
  Lemma blind_modify : forall f : KM -> KM,
    (forall P Q s, f (swap P Q s) = swap P Q (f s)) -> (forall s, complete s -> complete (f s)) ->
    blind (modify f).
  Proof.
    intros f H1 H2 s P Q Hs. unfold modify. cbn [fst snd]. rewrite H1. auto.
  Qed.
  Lemma blind_when : forall b mm, blind mm -> blind (when b mm).
  Proof. intros [] mm H; [exact H|apply blind_ret]. Qed.
  Lemma blind_try : forall {A} (mm : M KM A) e, blind mm -> blind (try_except mm e).
  Proof.
    intros A mm e H s P Q Hs. unfold try_except. destruct (H s P Q Hs) as [H1 H2]. rewrite H1.
    destruct (mm s) as [s' [a|e']]; cbn [fst snd] in *; auto.
  Qed.
  Lemma blind_for_each : forall {A} (body : A -> M KM unit) l,
    (forall a, In a l -> blind (body a)) -> blind (for_each l body).
  Proof.
    intros A body l. induction l as [|a l IH]; intros H; cbn [for_each]; [apply blind_ret|].
    apply blind_bind; [apply H; left; reflexivity|]. intros _. apply IH. intros b Hb.
    apply H. right. exact Hb.
  Qed.
  Lemma blind_map_each : forall {A B} (body : A -> M KM B) l,
    (forall a, In a l -> blind (body a)) -> blind (map_each l body).
  Proof.
    intros A B body l. induction l as [|a l IH]; intros H; cbn [map_each]; [apply blind_ret|].
    apply blind_bind; [apply H; left; reflexivity|]. intros b.
    apply blind_bind; [apply IH; intros c Hc; apply H; right; exact Hc|].
    intros bs. apply blind_ret.
  Qed.

  Ltac cfield := intros; match goal with H : complete _ |- _ => destruct H; constructor; assumption end.
  Lemma cp_full : forall x s, complete s -> complete (set_full x s).
  Proof. cfield. Qed.
  Lemma cp_normed : forall x s, complete s -> complete (set_normed x s).
  Proof. cfield. Qed.
  Lemma cp_centered : forall x s, complete s -> complete (set_centered x s).
  Proof. cfield. Qed.
  Lemma cp_attrs : forall x s, complete s -> complete (set_attrs x s).
  Proof. cfield. Qed.
  Ltac bmod := apply blind_modify; [reflexivity|cfield].

  (** Nothing is evaluated any more. *)
  Lemma eval_complete : forall i j s, complete s -> i < n -> j < n ->
    exists v, forall P Q, eval_kernel i j s = (s, Ok v) /\ eval_kernel i j (swap P Q s) = (swap P Q s, Ok v).
  Proof.
    intros i j s Hs Hi Hj.
    destruct (j <? i) eqn:Hji.
    - apply Nat.ltb_lt in Hji. destruct (cp_memo s Hs j i) as [v Hv]; [lia|lia|].
      exists v. intros P Q. apply Nat.ltb_lt in Hji.
      unfold eval_kernel, bind, attr_or, get, ret. unfold bind. rewrite Hji.
      change (k_two (swap P Q s)) with (k_two s). rewrite (cp_two s Hs). cbn [negb].
      change (k_memo (swap P Q s)) with (k_memo s). rewrite Hv. auto.
    - assert (i <= j) by (apply Nat.ltb_ge in Hji; exact Hji).
      destruct (cp_memo s Hs i j) as [v Hv]; [lia|lia|].
      exists v. intros P Q.
      unfold eval_kernel, bind, attr_or, get, ret. rewrite Hji.
      change (k_memo (swap P Q s)) with (k_memo s). rewrite Hv. auto.
  Qed.
  Lemma blind_eval : forall i j, i < n -> j < n -> blind (eval_kernel i j).
  Proof.
    intros i j Hi Hj s P Q Hs. destruct (eval_complete i j s Hs Hi Hj) as [v Hv].
    destruct (Hv P Q) as [H1 H2]. rewrite H1, H2. auto.
  Qed.
  Lemma blind_entry : forall i j v, blind (set_full_entry i j v).
  Proof.
    intros i j v. apply blind_bind; [apply blind_attr; reflexivity|]. intros a. bmod.
  Qed.
  Lemma blind_warn : forall a, blind (warn_if_nan_inf N a).
  Proof.
    intros a. unfold warn_if_nan_inf. apply blind_get_bind; [reflexivity|]. intros s0 _.
    destruct (contains_nan_inf N a && negb (kfmt (k_kernel s0)));
      [apply blind_raise|apply blind_ret].
  Qed.

  Lemma blind_populate : forall dense low, blind (populate_fully N dense low).
  Proof.
    intros dense low. unfold populate_fully.
    apply blind_bind.
    { unfold populate_upper. apply blind_get_bind; [reflexivity|]. intros s0 _.
      apply blind_when, blind_shape_bind. apply blind_bind; [bmod|]. intros _.
      apply blind_bind; [|intros _; bmod].
      apply blind_try, blind_for_each. intros i Hi. apply blind_for_each. intros j Hj.
      apply in_seq in Hi, Hj. cbn [fst snd] in Hi, Hj.
      apply blind_bind; [apply blind_eval; lia|intros v; apply blind_entry]. }
    intros _. apply blind_bind.
    { unfold populate_lower. apply blind_get_bind; [reflexivity|]. intros s0 _.
      apply blind_when. apply blind_bind; [|intros _; bmod].
      apply blind_try, blind_shape_bind, blind_two_bind. cbn [fst snd negb].
      rewrite Nat.eqb_refl. cbn [andb].
      apply blind_bind; [apply blind_attr; reflexivity|]. intros a.
      apply blind_for_each. intros p _. apply blind_entry. }
    intros _. apply blind_bind.
    { unfold densify. apply blind_bind; [apply blind_attr; reflexivity|]. intros a.
      apply blind_when. bmod. }
    intros _. apply blind_bind; [apply blind_attr; reflexivity|]. intros a.
    apply blind_bind; [apply blind_warn|intros _; apply blind_ret].
  Qed.

  Lemma blind_ensure : forall b, blind (when b (populate_fully N true true ;;; ret tt)).
  Proof. intros b. apply blind_when, blind_bind; [apply blind_populate|intros; apply blind_ret]. Qed.

  Lemma blind_normalize : forall meth, blind (normalize N meth).
  Proof.
    intros meth. unfold normalize. apply blind_get_bind; [reflexivity|]. intros s0 _.
    apply blind_bind; [apply blind_ensure|]. intros _.
    apply blind_get_bind; [reflexivity|]. intros s1 _. apply blind_when, blind_two_bind.
    cbn [negb]. apply blind_bind.
    { apply blind_bind; [apply blind_attr; reflexivity|]. intros a.
      apply blind_bind; [apply blind_lift|]. intros nk. bmod. }
    intros _. apply blind_bind; [bmod|]. intros _.
    apply blind_bind; [apply blind_attr; reflexivity|]. intros nk. apply blind_warn.
  Qed.

  Lemma blind_full : blind (full N).
  Proof.
    unfold full. apply blind_get_bind.
    { intros s P Q st Hs. assert (H := cp_one s Hs).
      cbn [swap set_sample set_sample_two k_sample k_populated k_keep_normed].
      destruct (k_sample s); [reflexivity|discriminate]. }
    intros s0 _. destruct (k_sample s0); [|apply blind_raise].
    apply blind_bind; [apply blind_ensure|]. intros _.
    destruct (k_keep_normed s0); [|apply blind_attr; reflexivity].
    apply blind_get_bind; [reflexivity|]. intros s1 _.
    apply blind_bind; [apply blind_when, blind_normalize|]. intros _.
    apply blind_attr; reflexivity.
  Qed.

  Lemma blind_center : blind (center N).
  Proof.
    unfold center. apply blind_two_bind. apply blind_get_bind; [reflexivity|]. intros s0 _.
    apply blind_bind.
    { apply blind_when, blind_bind; [apply blind_populate|]. intros a. bmod. }
    intros _. apply blind_bind; [apply blind_attr; reflexivity|]. intros a.
    apply blind_bind; [apply blind_lift|]. intros c.
    apply blind_bind; [bmod|]. intros _. bmod.
  Qed.

  Lemma blind_getitem_pair : forall a b, blind (getitem_pair N a b).
  Proof.
    intros a b. unfold getitem_pair. apply blind_get_bind; [reflexivity|]. intros s0 Hs0.
    rewrite (cp_shape s0 Hs0). cbn [option_map fst snd]. clear s0 Hs0.
    intros s P Q Hs. unfold bind, lift.
    destruct (get_indices_in_sample (Some n) a) as [[sa alla]|e] eqn:Ha; [|auto].
    destruct (get_indices_in_sample (Some n) b) as [[sb allb]|e] eqn:Hb; [|auto].
    cbn [fst snd]. destruct (alla && allb); [apply blind_populate, Hs|].
    unfold compute_for_index_combinations.
    assert (Hb' : blind (l <- map_each (product sa sb) (fun p => eval_kernel (fst p) (snd p)) ;;
        ret (mkArr Dense (mkMat (length sa) (length sb)
                            (reshape (length sa) (length sb) l))) : M KM (arr V))).
    { apply blind_bind; [|intros l; apply blind_ret]. apply blind_map_each.
      intros [i j] Hp. apply in_product in Hp. destruct Hp as [Hi Hj].
      apply blind_eval; cbn;
        [apply (proj1 (get_indices_range P P true n n (fun H => match diff_true_false H with end) n _ _ _ Ha)), Hi|apply (proj1 (get_indices_range P P true n n (fun H => match diff_true_false H with end) n _ _ _ Hb)), Hj]. }
    apply Hb', Hs.
  Qed.

  Lemma blind_step : forall o : op E U, is_attach o = false -> blind (step N o).
  Proof.
    intros o Ho. destruct o; cbn [step]; try discriminate.
    - apply blind_bind; [apply blind_full|intros; apply blind_ret].
    - apply blind_bind; [|intros; apply blind_ret].
      unfold full_sparse. apply blind_get_bind; [reflexivity|]. intros s0 _.
      destruct (k_keep_normed s0); [|apply blind_populate].
      apply blind_bind; [apply blind_when, blind_normalize|]. intros _.
      apply blind_attr; reflexivity.
    - apply blind_bind; [apply blind_center|intros; apply blind_ret].
    - apply blind_bind; [|intros; apply blind_ret].
      unfold centered. apply blind_two_bind. apply blind_get_bind; [reflexivity|]. intros s0 _.
      apply blind_bind; [apply blind_when, blind_center|]. intros _. apply blind_attr; reflexivity.
    - apply blind_bind; [apply blind_normalize|intros; apply blind_ret].
    - apply blind_bind; [|intros; apply blind_ret].
      unfold normed_km. apply blind_get_bind; [reflexivity|]. intros s0 _.
      apply blind_bind; [apply blind_when, blind_normalize|]. intros _. apply blind_attr; reflexivity.
    - apply blind_bind; [|intros; apply blind_ret].
      unfold frob_norm. apply blind_get_bind; [reflexivity|]. intros s0 _.
      apply blind_bind; [apply blind_ensure|]. intros _.
      apply blind_get_bind; [reflexivity|]. intros s1 _.
      apply blind_bind; [|intros; apply blind_attr; reflexivity].
      apply blind_when, blind_bind; [apply blind_attr; reflexivity|]. intros a.
      apply blind_bind; [apply blind_lift|]. intros v. bmod.
    - apply blind_bind; [|intros; apply blind_ret].
      unfold diagonal. apply blind_two_bind, blind_shape_bind. cbn [fst].
      apply blind_map_each. intros i Hi. apply in_seq in Hi. apply blind_eval; lia.
    - apply blind_bind; [|intros; apply blind_ret].
      destruct ix as [a b|kk|]; unfold getitem.
      + apply blind_getitem_pair.
      + apply blind_shape_bind. apply blind_bind; [apply blind_lift|]. intros p.
        apply blind_getitem_pair.
      + apply blind_raise.
    - apply blind_bind; [|intros; apply blind_ret]. unfold set_attr. bmod.
    - apply blind_bind; [|intros; apply blind_ret]. unfold get_attr.
      apply blind_get_bind; [reflexivity|]. intros s0 _. apply blind_ret.
    - unfold fmap. apply blind_get_bind; [reflexivity|]. intros s0 _. apply blind_ret.
    - apply blind_bind; [|intros; apply blind_ret]. unfold size. apply blind_two_bind.
      apply blind_get_bind; [reflexivity|]. intros s0 _.
      destruct (k_num_samples s0); first [apply blind_ret|apply blind_raise].
    - apply blind_bind; [apply blind_attr; reflexivity|intros; apply blind_ret].
    - unfold fmap. apply blind_get_bind; [reflexivity|]. intros s0 _. apply blind_ret.
  Qed.
End Blind.
