(** Kernels whose results are not doubles. *)
From Coq Require Import String List Arith ZArith Bool Lia Floats.SpecFloat.
Import ListNotations.
From Verif Require Import Prelude MatModel MatFacts UtilsModel IndexModel KMModel SpecKM MFacts KMFacts KMIndex KMInv
  KMGet KMHist FloatModel FloatProps FloatRound FloatNormProps SpecFloatVal FloatAny FloatDiv ConvModel SpecConv ConvFacts ConvSim.
Local Open Scope list_scope.

(** Programs that leave [f] of the state alone. *)
Definition steadyf {St T A} (f : St -> T) (p : M St A) : Prop := forall s, f (fst (p s)) = f s.
Section Steady.
  Context {St T : Type}.
  Variable f : St -> T.
  Lemma sf_ret : forall A (a : A), steadyf f (ret a).
  Proof. intros A a s. reflexivity. Qed.
  Lemma sf_raise : forall A e, steadyf f (raise e : M St A).
  Proof. intros A e s. reflexivity. Qed.
  Lemma sf_lift : forall A (r : res A), steadyf f (lift r).
  Proof. intros A r s. reflexivity. Qed.
  Lemma sf_get : steadyf f get.
  Proof. intros s. reflexivity. Qed.
  Lemma sf_bind : forall A B (p : M St A) (g : A -> M St B), steadyf f p -> (forall a, steadyf f (g a)) -> steadyf f (bind p g).
  Proof.
    intros A B p g Hp Hg s. unfold bind. specialize (Hp s). destruct (p s) as [s' [a|e]]; cbn [fst] in *; [|exact Hp].
    rewrite Hg. exact Hp.
  Qed.
  Lemma sf_when : forall b (p : M St unit), steadyf f p -> steadyf f (when b p).
  Proof. intros [] p H; [exact H|apply sf_ret]. Qed.
  Lemma sf_try : forall A (p : M St A) e, steadyf f p -> steadyf f (try_except p e).
  Proof. intros A p e H s. unfold try_except. specialize (H s). destruct (p s) as [s' [a|e']]; exact H. Qed.
  Lemma sf_for : forall A (l : list A) b, (forall a, steadyf f (b a)) -> steadyf f (for_each l b).
  Proof.
    intros A l b H. induction l as [|a l IH]; cbn [for_each]; [apply sf_ret|]. apply sf_bind; [apply H|intros; exact IH].
  Qed.
  Lemma sf_map : forall A B (l : list A) (b : A -> M St B), (forall a, steadyf f (b a)) -> steadyf f (map_each l b).
  Proof.
    intros A B l b H. induction l as [|a l IH]; cbn [map_each]; [apply sf_ret|].
    apply sf_bind; [apply H|]. intros c. apply sf_bind; [exact IH|]. intros; apply sf_ret.
  Qed.
  Lemma sf_modify : forall g, (forall s, f (g s) = f s) -> steadyf f (modify g).
  Proof. intros g H s. apply H. Qed.
End Steady.
Ltac sfree :=
  repeat (cbv beta; lazymatch goal with
    | |- steadyf _ (ret _) => apply sf_ret
    | |- steadyf _ (raise _) => apply sf_raise
    | |- steadyf _ (lift _) => apply sf_lift
    | |- steadyf _ get => apply sf_get
    | |- steadyf _ (modify _) => apply sf_modify; intros; reflexivity
    | |- steadyf _ (when _ _) => apply sf_when
    | |- steadyf _ (try_except _ _) => apply sf_try
    | |- steadyf _ (for_each _ _) => apply sf_for; intros
    | |- steadyf _ (map_each _ _) => apply sf_map; intros
    | |- steadyf _ (bind _ _) => apply sf_bind; [|intros]
    | |- steadyf _ (match ?x with _ => _ end) => destruct x
    | |- steadyf _ (if ?x then _ else _) => destruct x
    end).

Section Frames.
  Context {E R V U : Type}.
  Variable N : numops V.
  Variable conv : R -> res V.
  Variable norm2 : arr V -> list R -> list R -> res (arr V).
  Notation KM := (km E V U).
  Notation Raw := (rawkm E R V U).

  Definition rid (s : Raw) := (q_kernel s, ident (q_base s)).
  Lemma rid_base : forall A (p : M KM A), stable ident p -> steadyf rid (base p).
  Proof.
    intros A p H s. unfold base, rid. specialize (H (q_base s)). destruct (p (q_base s)) as [b r]. cbn [fst q_kernel q_base] in *.
    congruence.
  Qed.
  Ltac sb := repeat match goal with |- steadyf rid (base _) => apply rid_base end.
  Lemma rid_eval : forall i j, steadyf rid (eval_raw i j : M Raw R).
  Proof. intros. unfold eval_raw. sfree; sb; stab. Qed.
  Lemma rid_fill : forall i j, steadyf rid (fill_raw conv i j : M Raw unit).
  Proof. intros. unfold fill_raw, set_full_entry. sfree; [apply rid_eval|]. sb. stab. Qed.
  Lemma rid_populate : forall a b, steadyf rid (populate_raw N conv a b : M Raw (arr V)).
  Proof.
    intros. unfold populate_raw, populate_upper_raw, populate_lower_raw, densify, warn_if_nan_inf, set_full_entry.
    sfree; try apply rid_fill; sb; stab.
  Qed.
  Lemma rid_temp : forall tg x, steadyf rid (temp_diagonal_raw tg x : M Raw (list R)).
  Proof. intros. unfold temp_diagonal_raw. cbv zeta. sfree; sb; stab. Qed.
  Lemma rid_normalize : forall meth, steadyf rid (normalize_raw N conv norm2 meth : M Raw unit).
  Proof. intros. unfold normalize_raw, warn_if_nan_inf. sfree; try apply rid_populate; try apply rid_temp; sb; stab. Qed.
  Lemma rid_step : forall o, steadyf rid (step_raw N conv norm2 o : M Raw (rawout R V U)).
  Proof.
    intros o. destruct o; unfold step_raw, qmap;
    unfold attach_raw, full_raw, full_sparse_raw, centered_raw, center_raw, normed_km_raw, frob_norm_raw, diagonal_raw,
           getitem_raw, getitem_pair_raw, combinations_raw;
    sfree; try apply rid_populate; try apply rid_normalize; try apply rid_eval; sb; try apply (ident_step N (OpAttach _ _));
    try apply ident_step; unfold attach_to; stab.
  Qed.
  Lemma rid_run : forall ops s, rid (run_raw N conv norm2 ops s) = rid s.
  Proof. induction ops as [|o ops IH]; intros s; [reflexivity|]. cbn [run_raw]. rewrite IH. apply rid_step. Qed.
  Lemma run_raw_app : forall l1 l2 (s : Raw), run_raw N conv norm2 (l1 ++ l2) s = run_raw N conv norm2 l2 (run_raw N conv norm2 l1 s).
  Proof. induction l1 as [|o l1 IH]; intros l2 s; [reflexivity|]. apply IH. Qed.
End Frames.

Section Raw.
  Context {E R V U : Type}.
  Variable N : numops V.
  Variable conv : R -> res V.
  Variable norm2 : arr V -> list R -> list R -> res (arr V).
  Variable kern : nat -> list E -> list E -> res R.
  Variable k : list E -> list E -> R.
  Variables formats nrm : bool.
  Variables (x : ndarray E) (y : option (ndarray E)) (n m d : nat).
  Hypothesis Hadm : admissible x y n m d.
  Hypothesis Hret : raw_returns kern k x y n m d.
  Hypothesis Hnorm : forall y', y = Some y' -> normalises_alike N conv norm2 k x y' n m d.
  Notation X := (stored n d x).
  Notation Y := (stored2 n m d x y).
  Notation two := (is_some y).
  Notation rel := (@rel E R V U conv kern k formats X Y two n m d).

  Lemma row_is : forall i, i < n -> is_row x y n m d (row_of d X i).
  Proof. intros i Hi. exists i. left. split; [exact Hi|reflexivity]. Qed.
  Lemma row_is2 : forall j, j < m -> is_row x y n m d (row_of d Y j).
  Proof. intros j Hj. exists j. right. split; [exact Hj|]. unfold stored2, stored, row_of. destruct y; reflexivity. Qed.

  Lemma raw_attached : forall pre,
    rel (run_raw N conv norm2 (pre ++ [OpAttach x y]) (new_raw kern formats nrm [] 0))
        (after N (converted conv k formats) nrm [] x y []).
  Proof.
    intros pre. rewrite run_raw_app. pose proof (rid_run N conv norm2 pre (new_raw kern formats nrm [] 0)) as Hr.
    set (s0 := run_raw N conv norm2 pre (new_raw kern formats nrm [] 0)) in *.
    destruct (hist_attached (U := U) N (converted conv k formats) nrm [] x y n m d Hadm) as [Ha _].
    unfold after. rewrite Ha. cbn [run_raw step_raw run app].
    unfold qmap, bind, attach_raw, bind, base. rewrite (attach_to_ok _ _ _ _ _ _ Hadm). cbn [modify ret fst q_base q_kernel].
    unfold rid, ident in Hr. cbn in Hr.
    assert (H1 : q_kernel s0 = kern) by congruence. assert (H3 : k_keep_normed (q_base s0) = nrm) by congruence.
    pose proof (f_equal (fun p => fst (fst (snd p))) Hr) as H2. cbn in H2.
    split; [|split].
    - split; [unfold view; cbn; rewrite H2, H3; reflexivity|]. intros H. discriminate H.
    - split; [exact H1|]. split; [repeat split|]. intros p r H. discriminate H.
    - split; [reflexivity|]. split; [repeat split|]. intros p r H. discriminate H.
  Qed.
  Lemma raw_rel : forall pre post, no_attach post ->
    rel (raw_after N conv norm2 kern formats nrm pre x y post) (after N (converted conv k formats) nrm [] x y post).
  Proof.
    intros pre post Hno. unfold raw_after, after. change (OpAttach x y :: post) with ([OpAttach x y] ++ post).
    rewrite !app_assoc, run_raw_app, run_app. apply run_sim; try assumption; try reflexivity.
    - apply (stored2_shape x y n m d Hadm).
    - apply (stored2_one x y n m d Hadm).
    - intros t i j Hi Hj. apply Hret; [apply row_is|apply row_is2]; assumption.
    - intros t i j Hi Hj. apply Hret; apply row_is; assumption.
    - intros t i j Hi Hj. apply Hret; apply row_is2; assumption.
    - intros Ht. destruct y as [y'|] eqn:Ey; [|discriminate Ht]. exact (Hnorm y' eq_refl).
    - apply raw_attached.
  Qed.

  Lemma raw_same : forall (pre post : list (op E U)) o, no_attach post -> is_attach o = false -> o <> OpDiagonal ->
    raw_outcome N conv norm2 o (raw_after N conv norm2 kern formats nrm pre x y post) =
    res_map QOut (outcome N o (after N (converted conv k formats) nrm [] x y post)).
  Proof.
    intros pre post o Hno Ha Hd. unfold raw_outcome, outcome.
    apply (step_sim N conv norm2 kern k formats X Y two n m d); try assumption; try reflexivity.
    - apply (stored2_shape x y n m d Hadm).
    - apply (stored2_one x y n m d Hadm).
    - intros t i j Hi Hj. apply Hret; [apply row_is|apply row_is2]; assumption.
    - intros t i j Hi Hj. apply Hret; apply row_is; assumption.
    - intros t i j Hi Hj. apply Hret; apply row_is2; assumption.
    - intros Ht. destruct y as [y'|] eqn:Ey; [|discriminate Ht]. exact (Hnorm y' eq_refl).
    - intros x0 y0 ->. discriminate Ha.
    - apply raw_rel. exact Hno.
  Qed.
  Lemma raw_diag_two : forall (pre post : list (op E U)) y', no_attach post -> y = Some y' ->
    raw_outcome N conv norm2 OpDiagonal (raw_after N conv norm2 kern formats nrm pre x y post) = Raise KMAccessError.
  Proof.
    intros pre post y' Hno Ey. unfold raw_outcome.
    eapply (diag_two N conv norm2 kern k formats X Y two n m d); [|apply raw_rel; exact Hno]. rewrite Ey. reflexivity.
  Qed.
  Lemma raw_diag_one : forall (pre post : list (op E U)), no_attach post -> y = None ->
    raw_outcome N conv norm2 OpDiagonal (raw_after N conv norm2 kern formats nrm pre x y post) =
    Ok (QDiag (map (fun i => k (row_of d x i) (row_of d x i)) (seq 0 n))).
  Proof.
    intros pre post Hno Ey. unfold raw_outcome.
    eapply (diag_one N conv norm2 kern k formats X Y two n m d); [..|apply raw_rel; exact Hno].
    - reflexivity.
    - apply (stored2_shape x y n m d Hadm).
    - apply (stored2_one x y n m d Hadm).
    - intros t i j Hi Hj. apply Hret; [apply row_is|apply row_is2]; assumption.
    - intros t i j Hi Hj. apply Hret; apply row_is2; assumption.
    - rewrite Ey. intros H. discriminate H.
    - rewrite Ey. reflexivity.
  Qed.

  Lemma kv_entry : forall i j, kv k X Y d (swap two i j) = entry k d x y i j.
  Proof.
    intros i j. unfold kv, swap, entry, stored2. destruct y as [y'|]; cbn [is_some negb].
    - rewrite andb_false_r. reflexivity.
    - rewrite andb_true_r. destruct (Nat.ltb_spec j i) as [H|H]; destruct (Nat.leb_spec i j) as [G|G]; try lia; reflexivity.
  Qed.

  Lemma raw_parts : forall (pre post : list (op E U)) ix rows cols, no_attach post -> valid n m ix -> selection2 n m ix rows cols ->
    ~ whole n m rows cols ->
    raw_outcome N conv norm2 (OpGetItem ix) (raw_after N conv norm2 kern formats nrm pre x y post) =
    match rmap conv (map (fun p => entry k d x y (fst p) (snd p)) (product rows cols)) with
    | Ok l => Ok (QOut (OArr (mkArr Dense (mkMat (length rows) (length cols) (reshape (length rows) (length cols) l)))))
    | Raise e => Raise e
    end.
  Proof.
    intros pre post ix rows cols Hno Hv Hsel Hproper.
    rewrite raw_same; [|exact Hno|reflexivity|discriminate]. unfold outcome.
    pose proof (raw_rel pre post Hno) as Hrel. set (t := after N _ nrm [] x y post) in *.
    cbn [step]. unfold fmap, bind.
    destruct (resolve_valid n m ix Hv) as (r & c & Hr & Hsel' & HR & HC & _).
    destruct (selection2_unique X Y two n m (stored2_one x y n m d Hadm) ix _ _ _ _ Hsel Hsel') as [<- <-].
    rewrite (getitem_resolve N t n m ix (proj2 (proj2 (proj2 (proj1 (proj2 (proj2 (proj2 Hrel)))))))), Hr.
    assert (Hnot : (length rows =? n) && (length cols =? m) = false).
    { apply not_true_is_false. intros Ht. apply andb_true_iff in Ht. destruct Ht as [T1 T2].
      apply Hproper. destruct ix as [a b|kk|]; cbn in Hsel, Hv.
      - destruct Hsel, Hv. split; eapply selection_whole; eassumption.
      - destruct Hsel as (i & j & Hi & Hj & _ & -> & ->).
        apply Nat.eqb_eq in T1, T2. cbn [length] in T1, T2.
        split; [rewrite <- T1|rewrite <- T2]; cbn; f_equal; lia.
      - destruct Hsel. }
    rewrite Hnot. unfold compute_for_index_combinations, bind.
    assert (Hl : forall p, In p (product rows cols) -> fst p < n /\ snd p < m).
    { intros [i j] Hp. apply in_product in Hp. destruct Hp. cbn. auto. }
    destruct (map_conv_ok conv kern k formats X Y two n m d eq_refl (stored2_shape x y n m d Hadm)
      (stored2_one x y n m d Hadm) _ _ _ Hl Hrel) as [_ H4].
    destruct (map_each (product rows cols) _ t) as [t' q]. cbn [fst snd] in H4. subst q.
    rewrite (map_ext _ (fun p => entry k d x y (fst p) (snd p)) (fun p => kv_entry (fst p) (snd p))).
    destruct (rmap conv _); reflexivity.
  Qed.
End Raw.

Lemma rmap_ok : forall {A B C} (conv : A -> res B) (f : C -> A) (v : C -> B) l,
  (forall p, In p l -> conv (f p) = Ok (v p)) -> rmap conv (map f l) = Ok (map v l).
Proof.
  intros A B C conv f v l H. induction l as [|p l IH]; [reflexivity|]. cbn [map rmap].
  rewrite (H p (or_introl eq_refl)), IH by (intros q Hq; apply H; right; exact Hq). reflexivity.
Qed.
Lemma rmap_first : forall {A B} (conv : A -> res B) l1 a l2 e,
  (forall b, In b l1 -> exists v, conv b = Ok v) -> conv a = Raise e -> rmap conv (l1 ++ a :: l2) = Raise e.
Proof.
  intros A B conv l1 a l2 e H1 H2. induction l1 as [|b l1 IH]; cbn [app rmap]; [rewrite H2; reflexivity|].
  destruct (H1 b (or_introl eq_refl)) as [v ->]. rewrite IH by (intros c Hc; apply H1; right; exact Hc). reflexivity.
Qed.

(** ** Kernel calls *)
Definition logv {E V U} (b : km E V U) := (g_calls b, g_tag b).
Section Calls.
  Context {E R V U : Type}.
  Variable N : numops V.
  Variable conv : R -> res V.
  Variable norm2 : arr V -> list R -> list R -> res (arr V).
  Notation KM := (km E V U).
  Notation Raw := (rawkm E R V U).

  (** Programs that preserve a property of the state. *)
  Definition pres {A} (P : Raw -> Prop) (p : M Raw A) : Prop := forall s, P s -> P (fst (p s)).
  Section Pres.
    Variable P : Raw -> Prop.
    Lemma pr_ret : forall A (a : A), pres P (ret a).
    Proof. intros A a s H. exact H. Qed.
    Lemma pr_raise : forall A e, pres P (raise e : M Raw A).
    Proof. intros A e s H. exact H. Qed.
    Lemma pr_lift : forall A (r : res A), pres P (lift r).
    Proof. intros A r s H. exact H. Qed.
    Lemma pr_bind : forall A B (p : M Raw A) (g : A -> M Raw B), pres P p -> (forall a, pres P (g a)) -> pres P (bind p g).
    Proof.
      intros A B p g Hp Hg s H. unfold bind. specialize (Hp s H). destruct (p s) as [s' [a|e]]; cbn [fst] in *; [|exact Hp].
      apply Hg. exact Hp.
    Qed.
    Lemma pr_get : pres P get.
    Proof. intros s H. exact H. Qed.
    Lemma pr_when : forall b (p : M Raw unit), pres P p -> pres P (when b p).
    Proof. intros [] p H; [exact H|apply pr_ret]. Qed.
    Lemma pr_try : forall A (p : M Raw A) e, pres P p -> pres P (try_except p e).
    Proof. intros A p e H s Hs. unfold try_except. specialize (H s Hs). destruct (p s) as [s' [a|e']]; exact H. Qed.
    Lemma pr_for : forall A (l : list A) b, (forall a, pres P (b a)) -> pres P (for_each l b).
    Proof.
      intros A l b H. induction l as [|a l IH]; cbn [for_each]; [apply pr_ret|]. apply pr_bind; [apply H|intros; exact IH].
    Qed.
    Lemma pr_map : forall A B (l : list A) (b : A -> M Raw B), (forall a, pres P (b a)) -> pres P (map_each l b).
    Proof.
      intros A B l b H. induction l as [|a l IH]; cbn [map_each]; [apply pr_ret|].
      apply pr_bind; [apply H|]. intros c. apply pr_bind; [exact IH|]. intros; apply pr_ret.
    Qed.
  End Pres.
  Ltac prs :=
    repeat (cbv beta; lazymatch goal with
      | |- pres _ (ret _) => apply pr_ret
      | |- pres _ (raise _) => apply pr_raise
      | |- pres _ (lift _) => apply pr_lift
      | |- pres _ get => apply pr_get
      | |- pres _ (when _ _) => apply pr_when
      | |- pres _ (try_except _ _) => apply pr_try
      | |- pres _ (for_each _ _) => apply pr_for; intros
      | |- pres _ (map_each _ _) => apply pr_map; intros
      | |- pres _ (bind _ _) => apply pr_bind; [|intros]
      | |- pres _ (match ?x with _ => _ end) => destruct x
      | |- pres _ (if ?x then _ else _) => destruct x
      end).

  (** Evaluating leaves a state in which the pair is kept, with one call more if it was not. *)
  Lemma eval_cases : forall i j (s : Raw), (forall t u v, exists r, q_kernel s t u v = Ok r) ->
    fst (eval_raw i j s) = s \/
    exists p u v b r, memo_find (q_memo s) p = None /\
      fst (eval_raw i j s) = mkRaw b (q_kernel s) ((p, r) :: q_memo s) /\
      g_calls b = mkCall (g_tag (q_base s)) p u v :: g_calls (q_base s) /\ g_tag b = g_tag (q_base s).
  Proof.
    intros i j s Ht. destruct s as [b q mm]. cbn [q_base q_kernel q_memo] in *.
    enough (G : exists s' r', eval_raw i j (mkRaw b q mm) = (s', r') /\ (s' = mkRaw b q mm \/
      exists p u v b' r, memo_find mm p = None /\ s' = mkRaw b' q ((p, r) :: mm) /\
        g_calls b' = mkCall (g_tag b) p u v :: g_calls b /\ g_tag b' = g_tag b)).
    { destruct G as (s' & r' & -> & G). exact G. }
    unfold eval_raw. unfold bind at 1.
    assert (E1 : exists r, base (if j <? i then two <- attr_or k_two ;; ret (if negb two then (j, i) else (i, j)) else ret (i, j)) (mkRaw b q mm)
      = (mkRaw b q mm, r)).
    { unfold base. cbn [q_base q_kernel q_memo]. destruct (j <? i); [|eexists; reflexivity].
      unfold attr_or, bind, get. destruct (k_two b); eexists; reflexivity. }
    destruct E1 as [[p|e] ->]; [|do 2 eexists; split; [reflexivity|left; reflexivity]].
    unfold bind, get, lift, modify, base, attr_or, bind, get. cbn [q_base q_kernel q_memo].
    destruct (memo_find mm p) as [w|] eqn:Ef; [do 2 eexists; split; [reflexivity|left; reflexivity]|].
    destruct (k_sample b) as [a|]; [|do 2 eexists; split; [reflexivity|left; reflexivity]].
    destruct (nd_row a (fst p)) as [u|]; [|do 2 eexists; split; [reflexivity|left; reflexivity]].
    cbn [q_base q_kernel q_memo].
    destruct (k_sample_two b) as [a2|]; [|do 2 eexists; split; [reflexivity|left; reflexivity]]. cbn [ret].
    destruct (nd_row a2 (snd p)) as [v|]; [|do 2 eexists; split; [reflexivity|left; reflexivity]].
    cbn [q_base q_kernel q_memo]. destruct (Ht (length (g_calls b)) u v) as [r Hr]. rewrite Hr.
    do 2 eexists. split; [reflexivity|]. right. exists p, u, v. eexists. exists r. split; [exact Ef|].
    split; [reflexivity|]. split; reflexivity.
  Qed.

  (** A temporary's calls carry its tag. *)
  Definition tagged (calls : list (call E)) (tag : nat) (s : Raw) : Prop :=
    (forall t u v, exists r, q_kernel s t u v = Ok r) /\ g_tag (q_base s) = tag /\
    exists more, g_calls (q_base s) = more ++ calls /\ Forall (fun c => c_tag c = tag) more.
  Lemma tagged_base : forall calls tag A (p : M KM A), stable logv p -> pres (tagged calls tag) (base p).
  Proof.
    intros calls tag A p H s (H1 & H2 & H3). unfold base, logv in *. specialize (H (q_base s)).
    destruct (p (q_base s)) as [b r]. cbn [fst] in *. injection H as G1 G2.
    split; [exact H1|]. cbn [q_base]. rewrite G1, G2. auto.
  Qed.
  Lemma tagged_eval : forall calls tag i j, pres (tagged calls tag) (eval_raw i j : M Raw R).
  Proof.
    intros calls tag i j s (H1 & H2 & more & H3 & H4).
    destruct (eval_cases i j s H1) as [->|(p & u & v & b & r & _ & -> & G1 & G2)].
    - split; [exact H1|]. split; [exact H2|]. exists more. auto.
    - split; [exact H1|]. cbn [q_base]. split; [congruence|].
      exists (mkCall (g_tag (q_base s)) p u v :: more). rewrite G1, H3. split; [reflexivity|]. constructor; [exact H2|exact H4].
  Qed.
  Lemma tagged_temp : forall tag x (s : Raw), (forall t u v, exists r, q_kernel s t u v = Ok r) ->
    exists more r, temp_diagonal_raw tag x s =
      (mkRaw (log_calls (more ++ g_calls (q_base s)) (q_base s)) (q_kernel s) (q_memo s), r) /\
      Forall (fun c => c_tag c = tag) more.
  Proof.
    intros tag x s Ht. unfold temp_diagonal_raw, bind at 1, get.
    set (s0 := new_raw (q_kernel s) (kfmt (k_kernel (q_base s))) false (g_calls (q_base s)) tag : Raw).
    assert (G : pres (tagged (g_calls (q_base s)) tag) (attach_raw x None ;;; diagonal_raw : M Raw (list R))).
    { unfold attach_raw, diagonal_raw. prs.
      - apply tagged_base. unfold attach_to. stab.
      - intros s1 H1. exact H1.
      - apply tagged_base. stab.
      - apply tagged_base. stab.
      - apply tagged_eval. }
    destruct (G s0) as (_ & _ & more & H1 & H2).
    { split; [exact Ht|]. split; [reflexivity|]. exists []. split; [reflexivity|constructor]. }
    set (r := (attach_raw x None ;;; diagonal_raw) s0) in *. exists more. cbv zeta. unfold bind, base, modify, lift.
    rewrite H1. cbn [q_base q_kernel q_memo]. eexists. split; [reflexivity|exact H2].
  Qed.

  Definition once (before : nat) (s : Raw) : Prop :=
    (forall t u v, exists r, q_kernel s t u v = Ok r) /\ g_tag (q_base s) = 0 /\
    exists new old, g_calls (q_base s) = new ++ old /\ length old = before /\
      map c_ix (filter (fun c => c_tag c =? 0) new) = map fst (q_memo s) /\ NoDup (map fst (q_memo s)).
  Lemma once_base : forall n0 A (p : M KM A), stable logv p -> pres (once n0) (base p).
  Proof.
    intros n0 A p H s (H1 & H2 & H3). unfold base, logv in *. specialize (H (q_base s)).
    destruct (p (q_base s)) as [b r]. cbn [fst] in *. injection H as G1 G2.
    split; [exact H1|]. cbn [q_base q_memo]. rewrite G1, G2. auto.
  Qed.
  Lemma once_eval : forall n0 i j, pres (once n0) (eval_raw i j : M Raw R).
  Proof.
    intros n0 i j s (H1 & H2 & new & old & H3 & H4 & H5 & H6).
    destruct (eval_cases i j s H1) as [->|(p & u & v & b & r & Hf & -> & G1 & G2)].
    - split; [exact H1|]. split; [exact H2|]. exists new, old. auto.
    - split; [exact H1|]. cbn [q_base q_memo]. split; [congruence|].
      exists (mkCall (g_tag (q_base s)) p u v :: new), old. rewrite G1, H3. split; [reflexivity|]. split; [exact H4|].
      cbn [filter c_tag]. rewrite H2. cbn [Nat.eqb map c_ix fst]. split; [rewrite H5; reflexivity|].
      constructor; [apply memo_find_none; exact Hf|exact H6].
  Qed.
  Lemma once_temp : forall n0 tag x, tag <> 0 -> pres (once n0) (temp_diagonal_raw tag x : M Raw (list R)).
  Proof.
    intros n0 tag x Htag s (H1 & H2 & new & old & H3 & H4 & H5 & H6).
    destruct (tagged_temp tag x s H1) as (more & r & -> & Hm). cbn [fst].
    split; [exact H1|]. cbn [q_base q_memo]. split; [exact H2|]. exists (more ++ new), old. cbn [log_calls g_calls].
    rewrite H3, app_assoc. split; [reflexivity|]. split; [exact H4|]. split; [|exact H6].
    rewrite <- H5. f_equal. clear -Hm Htag. induction more as [|c more IH]; [reflexivity|]. inversion Hm as [|? ? Hc Hr]; subst.
    cbn [app filter]. destruct (Nat.eqb_spec (c_tag c) 0); [congruence|]. apply IH. exact Hr.
  Qed.
  Ltac sb := repeat match goal with |- pres (once _) (base _) => apply once_base end.
  Lemma once_fill : forall n0 i j, pres (once n0) (fill_raw conv i j : M Raw unit).
  Proof. intros. unfold fill_raw, set_full_entry. prs; [apply once_eval|]. sb. stab. Qed.
  Lemma once_populate : forall n0 a b, pres (once n0) (populate_raw N conv a b : M Raw (arr V)).
  Proof.
    intros. unfold populate_raw, populate_upper_raw, populate_lower_raw, densify, warn_if_nan_inf, set_full_entry.
    prs; try apply once_fill; sb; stab.
  Qed.
  Lemma once_normalize : forall n0 meth, pres (once n0) (normalize_raw N conv norm2 meth : M Raw unit).
  Proof.
    intros. unfold normalize_raw, warn_if_nan_inf. prs; try apply once_populate; try (apply once_temp; discriminate); sb; stab.
  Qed.
  Lemma once_step : forall n0 o, is_attach o = false -> pres (once n0) (step_raw N conv norm2 o : M Raw (rawout R V U)).
  Proof.
    intros n0 o Ho. destruct o; try discriminate Ho; unfold step_raw, qmap, step;
    unfold full_raw, full_sparse_raw, centered_raw, center_raw, normed_km_raw, frob_norm_raw, diagonal_raw,
           getitem_raw, getitem_pair_raw, combinations_raw, set_attr, get_attr, size;
    prs; try apply once_populate; try apply once_normalize; try apply once_eval; sb; stab.
  Qed.
  Lemma once_run : forall n0 ops s, no_attach ops -> once n0 s -> once n0 (run_raw N conv norm2 ops s).
  Proof.
    intros n0. induction ops as [|o ops IH]; intros s Hno H; [exact H|]. cbn [run_raw].
    unfold no_attach in Hno. cbn [forallb] in Hno. apply andb_prop in Hno. destruct Hno as [Ho Hno].
    apply IH; [exact Hno|]. apply once_step; [apply negb_true_iff; exact Ho|exact H].
  Qed.
  Lemma once_calls : forall n0 s, once n0 s -> NoDup (raw_calls n0 s).
  Proof.
    intros n0 s (_ & _ & new & old & H3 & H4 & H5 & H6). unfold raw_calls. rewrite H3, app_length, H4.
    replace (length new + n0 - n0) with (length new) by lia. rewrite firstn_app, Nat.sub_diag, firstn_all. cbn [firstn].
    rewrite app_nil_r, H5. exact H6.
  Qed.
End Calls.

(** What is returned for a kernel whose results are converted when stored is what is returned for a kernel that
    converts its results itself: after any history, for every operation but [diagonal]. *)
Lemma pf_C109_same : forall {E R V U} (N : numops V) (conv : R -> res V) norm2 kern (k : list E -> list E -> R)
    formats nrm (pre post : list (op E U)) x y n m d o,
  admissible x y n m d -> raw_returns kern k x y n m d ->
  (forall y', y = Some y' -> normalises_alike N conv norm2 k x y' n m d) ->
  no_attach post -> is_attach o = false -> o <> OpDiagonal ->
  raw_outcome N conv norm2 o (raw_after N conv norm2 kern formats nrm pre x y post) =
  res_map QOut (outcome N o (after N (converted conv k formats) nrm [] x y post)).
Proof. intros. eapply raw_same; eassumption. Qed.

(** [diagonal] returns what the kernel returned, unconverted, whatever was done before and whether or not it
    can be converted; it refuses two samples. *)
Lemma pf_C109_diagonal : forall {E R V U} (N : numops V) (conv : R -> res V) norm2 kern (k : list E -> list E -> R)
    formats nrm (pre post : list (op E U)) x y n m d,
  admissible x y n m d -> raw_returns kern k x y n m d ->
  (forall y', y = Some y' -> normalises_alike N conv norm2 k x y' n m d) -> no_attach post ->
  raw_outcome N conv norm2 OpDiagonal (raw_after N conv norm2 kern formats nrm pre x y post) =
  match y with
  | None => Ok (QDiag (map (fun i => k (row_of d x i) (row_of d x i)) (seq 0 n)))
  | Some _ => Raise KMAccessError
  end.
Proof.
  intros E R V U N conv norm2 kern k formats nrm pre post x y n m d Ha Hr Hn Hno. destruct y as [y'|].
  - eapply (raw_diag_two N conv norm2 kern k formats nrm x (Some y') n m d); try eassumption. reflexivity.
  - eapply (raw_diag_one N conv norm2 kern k formats nrm x None n m d); try eassumption. reflexivity.
Qed.

(** An index that selects a proper part: the converted values if all of them can be converted; otherwise the
    exception of the first one, row by row, that cannot. *)
Lemma pf_C109_parts : forall {E R V U} (N : numops V) (conv : R -> res V) norm2 kern (k : list E -> list E -> R)
    formats nrm (pre post : list (op E U)) x y n m d ix rows cols,
  admissible x y n m d -> raw_returns kern k x y n m d ->
  (forall y', y = Some y' -> normalises_alike N conv norm2 k x y' n m d) -> no_attach post ->
  valid n m ix -> selection2 n m ix rows cols -> ~ whole n m rows cols ->
  let r := raw_outcome N conv norm2 (OpGetItem ix) (raw_after N conv norm2 kern formats nrm pre x y post) in
  (forall v, (forall i j, In i rows -> In j cols -> conv (entry k d x y i j) = Ok (v i j)) ->
     r = Ok (QOut (OArr (mkArr Dense (submatrix v rows cols))))) /\
  (forall earlier i j later e, product rows cols = earlier ++ (i, j) :: later ->
     (forall p, In p earlier -> exists v, conv (entry k d x y (fst p) (snd p)) = Ok v) ->
     conv (entry k d x y i j) = Raise e -> r = Raise e).
Proof.
  intros E R V U N conv norm2 kern k formats nrm pre post x y n m d ix rows cols Ha Hr Hn Hno Hv Hs Hw r. subst r.
  rewrite (raw_parts N conv norm2 kern k formats nrm x y n m d Ha Hr Hn pre post ix rows cols Hno Hv Hs Hw). split.
  - intros v Hc. rewrite (rmap_ok conv _ (fun p => v (fst p) (snd p))).
    + rewrite (reshape_product v). reflexivity.
    + intros [i j] Hp. apply in_product in Hp. destruct Hp. cbn. auto.
  - intros earlier i j later e Hp He Hc. rewrite Hp, map_app. cbn [map fst snd].
    rewrite (rmap_first conv _ _ _ e); [reflexivity| |exact Hc].
    intros b Hb. apply in_map_iff in Hb. destruct Hb as (q & <- & Hq). apply He. exact Hq.
Qed.

(** A failed conversion costs no calls: if the kernel itself does not raise, it is called at most once for a
    pair of samples as long as nothing is attached anew, whatever is asked for and whatever cannot be
    converted. *)
Lemma pf_C109_once : forall {E R V U} (N : numops V) (conv : R -> res V) norm2
    (kern : nat -> list E -> list E -> res R) formats nrm (pre post : list (op E U)) x y n m d,
  admissible x y n m d -> (forall t u v, exists r, kern t u v = Ok r) -> no_attach post ->
  NoDup (raw_calls (length (g_calls (q_base (run_raw N conv norm2 pre (new_raw kern formats nrm [] 0)))))
                   (raw_after N conv norm2 kern formats nrm pre x y post)).
Proof.
  intros E R V U N conv norm2 kern formats nrm pre post x y n m d Ha Ht Hno. apply once_calls.
  unfold raw_after. change (OpAttach x y :: post) with ([OpAttach x y] ++ post). rewrite app_assoc, run_raw_app.
  apply once_run; [exact Hno|]. rewrite run_raw_app. pose proof (rid_run N conv norm2 pre (new_raw kern formats nrm [] 0)) as Hr.
  set (s0 := run_raw N conv norm2 pre (new_raw kern formats nrm [] 0)) in *.
  cbn [run_raw step_raw]. unfold qmap, bind, attach_raw, bind, base. rewrite (attach_to_ok _ _ _ _ _ _ Ha).
  cbn [modify ret fst q_base q_kernel]. unfold rid, ident in Hr. cbn in Hr.
  assert (H1 : q_kernel s0 = kern) by congruence. assert (H4 : g_tag (q_base s0) = 0) by congruence.
  split; [cbn [q_kernel]; rewrite H1; exact Ht|]. split; [exact H4|].
  exists [], (g_calls (q_base s0)). repeat split. constructor.
Qed.

(** ** Python ints *)
Lemma shr1_half : forall r, (0 < shr_m r)%Z -> shr_m (shr_1 r) = (shr_m r / 2)%Z.
Proof.
  intros [m a b] H. cbn [shr_m] in H. destruct m as [|[p|p|]|p]; try lia; cbn [shr_1 shr_m]; try reflexivity.
  - change (Z.pos p~1) with (2 * Z.pos p + 1)%Z. apply (Z.div_unique (2 * Z.pos p + 1) 2 (Z.pos p) 1); lia.
  - change (Z.pos p~0) with (2 * Z.pos p)%Z. rewrite Z.mul_comm, Z.div_mul by lia. reflexivity.
Qed.
Lemma iter_big : forall k r, (2 ^ Z.pos k <= shr_m r)%Z -> (0 < shr_m (iter_pos shr_1 k r))%Z.
Proof.
  intros k. induction k as [|k IH] using Pos.peano_ind; intros r H; rewrite iter_pos_iter in *.
  - change (2 ^ 1)%Z with 2%Z in H. cbn [Pos.iter]. rewrite shr1_half by lia. apply Z.div_str_pos. lia.
  - rewrite Pos.iter_succ_r, <- iter_pos_iter. apply IH. rewrite Pos2Z.inj_succ, Z.pow_succ_r in H by lia.
    assert (Hp : (0 < 2 ^ Z.pos k)%Z) by (apply Z.pow_pos_nonneg; lia).
    rewrite shr1_half by lia. apply Z.div_le_lower_bound; lia.
Qed.
Lemma shr_big : forall m e l, (0 < m)%Z -> (0 <= e)%Z ->
  exists m' e', shr_fexp 53 1024 m e l = (m', e') /\ (0 < shr_m m')%Z /\ (e <= e')%Z /\ (Zdigits2 m + e - 53 <= e')%Z.
Proof.
  intros m e l Hm He. unfold shr_fexp, shr.
  assert (Hf : fexp 53 1024 (Zdigits2 m + e) = (Zdigits2 m + e - 53)%Z).
  { unfold fexp, emin. apply Z.max_l. destruct m; cbn [Zdigits2]; lia. }
  rewrite Hf. destruct (Zdigits2 m + e - 53 - e)%Z as [|k|k] eqn:Ek.
  - do 2 eexists. split; [reflexivity|]. rewrite rec_of_loc_m. lia.
  - do 2 eexists. split; [reflexivity|]. split; [|lia]. apply iter_big. rewrite rec_of_loc_m. rewrite <- Ek.
    destruct m as [|p|p]; try lia. cbn [Zdigits2]. destruct (digits_bounds p) as [Hb _].
    apply Z.le_trans with (2 := Hb). apply Z.pow_le_mono_r; cbn [Zdigits2] in Ek; lia.
  - do 2 eexists. split; [reflexivity|]. rewrite rec_of_loc_m. lia.
Qed.
Lemma round_big : forall s p, (2 ^ 1024 <= Z.pos p)%Z -> binary_round 53 1024 s p 0 = S754_infinity s.
Proof.
  intros s p Hp.
  assert (Hd : (1025 <= Z.pos (digits2_pos p))%Z).
  { destruct (digits_bounds p) as [_ Hb]. destruct (Z.le_gt_cases 1025 (Z.pos (digits2_pos p))) as [H|H]; [exact H|].
    exfalso. assert (2 ^ Z.pos (digits2_pos p) <= 2 ^ 1024)%Z by (apply Z.pow_le_mono_r; lia). lia. }
  unfold binary_round, shl_align.
  assert (Hf : fexp 53 1024 (Z.pos (digits2_pos p) + 0) = (Z.pos (digits2_pos p) - 53)%Z).
  { unfold fexp, emin. rewrite Z.max_l; lia. }
  rewrite Hf. destruct (Z.pos (digits2_pos p) - 53 - 0)%Z as [|k|k] eqn:Ek; try lia.
  unfold binary_round_aux. destruct (shr_big (Z.pos p) 0 loc_Exact) as (m1 & e1 & -> & H1 & H2 & H3); [lia|lia|].
  cbn [Zdigits2] in H3.
  assert (Hq : (0 < round_nearest_even (shr_m m1) (loc_of_shr_record m1))%Z).
  { unfold round_nearest_even. destruct (loc_of_shr_record m1) as [|[]]; try destruct (Z.even _); lia. }
  destruct (shr_big _ e1 loc_Exact Hq) as (m2 & e2 & -> & G1 & G2 & _); [lia|].
  destruct (shr_m m2) as [|q|q]; try lia.
  destruct (Z.leb_spec e2 (1024 - 53)); [lia|reflexivity].
Qed.

(** Python ints below 2^53 in size are converted exactly, those from 2^1024 on raise OverflowError. *)
Lemma pf_C109_int : forall z,
  ((Z.abs z < 2 ^ 53)%Z -> exists f, int_to_f64 z = Ok f /\ fval f = Rdefinitions.IZR z) /\
  ((2 ^ 1024 <= Z.abs z)%Z -> int_to_f64 z = Raise OverflowErr).
Proof.
  intros z. split; intros Hz.
  - destruct (fint_any z Hz) as [Hc Hv]. unfold int_to_f64.
    destruct (fint z) as [s|s| |s mm e] eqn:Ef; try (eexists; split; [reflexivity|exact Hv]). exfalso. destruct Hc.
  - unfold int_to_f64, fint, binary_normalize. destruct z as [|p|p]; [exfalso; cbn in Hz; lia| |];
      rewrite round_big; try reflexivity; exact Hz.
Qed.

(** Not so: that [diagonal] has the diagonal of the matrix. It has 2^53 + 1 where the entry is 2^53. *)
Lemma pf_C109_diagonal_refuted : forall (N : numops f64) norm2, exists (x : ndarray Z) k,
  admissible x None 2 2 1 /\
  raw_outcome N int_to_f64 norm2 OpDiagonal
    (raw_after (U := unit) N int_to_f64 norm2 (fun _ u v => Ok (k u v)) false false [] x None []) =
    Ok (QDiag [2 ^ 53 + 1; 1]%Z) /\
  exists f, raw_outcome N int_to_f64 norm2 (OpGetItem (IPair (IInt 0) (IInt 0)))
    (raw_after (U := unit) N int_to_f64 norm2 (fun _ u v => Ok (k u v)) false false [] x None []) =
    Ok (QOut (OArr (mkArr Dense (mkMat 1 1 [[f]])))) /\ f = fint (2 ^ 53).
Proof.
  intros N norm2. exists (mkNd [2; 1] [2 ^ 53 + 1; 1]%Z), (fun u v => Z.min (hd 0%Z u) (hd 0%Z v)).
  split; [split; [exists []; split; [reflexivity|constructor]|reflexivity]|].
  split; [vm_compute; reflexivity|]. eexists. split; [vm_compute; reflexivity|vm_compute; reflexivity].
Qed.

(** Example: rows (2^1024) and (1), the kernel the smaller of two ints, which returns ints. The matrix cannot be
    had, nor the entry that is too large; the other entries and the diagonal can; the kernel is called three times
    in all. *)
Lemma pf_C109_example : forall (N : numops f64) norm2,
  let x := mkNd [2; 1] [2 ^ 1024; 1]%Z in
  let kern := fun (_ : nat) u v => Ok (Z.min (hd 0%Z u) (hd 0%Z v)) in
  let s post := raw_after (U := unit) N int_to_f64 norm2 kern false false [] x None post in
  let at_ i j := OpGetItem (IPair (IInt i) (IInt j)) in
  let history := [OpFull; at_ 0%Z 0%Z; OpDiagonal; at_ 1%Z 0%Z; at_ 0%Z 0%Z] in
  admissible x None 2 2 1 /\ no_attach history /\
  raw_outcome N int_to_f64 norm2 OpFull (s []) = Raise RuntimeError /\
  raw_outcome N int_to_f64 norm2 (at_ 0%Z 0%Z) (s [OpFull]) = Raise OverflowErr /\
  raw_outcome N int_to_f64 norm2 (at_ 1%Z 0%Z) (s [OpFull]) = Ok (QOut (OArr (mkArr Dense (mkMat 1 1 [[fint 1]])))) /\
  raw_outcome N int_to_f64 norm2 OpDiagonal (s [OpFull]) = Ok (QDiag [2 ^ 1024; 1]%Z) /\
  raw_calls 0 (s history) = [(0, 1); (1, 1); (0, 0)].
Proof.
  intros N norm2. cbv zeta. split; [split; [exists []; split; [reflexivity|constructor]|reflexivity]|].
  split; [reflexivity|]. split; [vm_compute; reflexivity|]. split; [vm_compute; reflexivity|].
  split; [vm_compute; reflexivity|]. split; vm_compute; reflexivity.
Qed.

(** A normalisation that converts the diagonals first is one of those meant by [normalises_alike]. *)
Lemma pf_C109_normalisation : forall {E R V} (N : numops V) (conv : R -> res V) (k : list E -> list E -> R) x y n m d,
  (forall i, i < n -> exists v, conv (k (row_of d x i) (row_of d x i)) = Ok v) ->
  (forall j, j < m -> exists v, conv (k (row_of d y j) (row_of d y j)) = Ok v) ->
  normalises_alike N conv (fun a dx dy => rbind (rmap conv dx) (fun lx => rbind (rmap conv dy) (fun ly => op_normalize2 N a lx ly)))
    k x y n m d.
Proof.
  intros E R V N conv k x y n m d H1 H2. split; [|split; assumption].
  intros a dx dy lx ly Hx Hy. rewrite Hx. cbn [rbind]. rewrite Hy. reflexivity.
Qed.
