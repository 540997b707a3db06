(** What is evaluated after a successful full, for every history: property C12. *)
From Coq Require Import List Arith ZArith Bool Lia String.
Import ListNotations.
From Verif Require Import Prelude MatModel UtilsModel IndexModel KMModel SpecKM ToyModel.
From Verif Require Import MatFacts MFacts KMFacts KMInv KMIndex KMGet KMOps KMTotal KMTrack KMHist KMHist2 KMProps FullFacts.
Local Open Scope list_scope.
Local Open Scope nat_scope.

(** After a successful [full] every pair on and above the diagonal has been evaluated. *)
Lemma full_reads_upper :
  forall {E V U} (N : numops V) (K : kernel E V) k nrm (pre post : list (op E U)) x y n m d,
    never_raises K k x y n m d -> admissible x y n m d -> no_attach post ->
    is_ok (outcome N OpFull (after N K nrm pre x y post)) = true ->
    let s := fst (step N OpFull (after N K nrm pre x y post)) in
    sane N K k nrm (stored n d x) (stored2 n m d x y) (is_some y) n m d
         (g_calls (before N K nrm pre)) s /\
    (forall i j, i < n -> j < m -> i <= j -> In (norm (is_some y) (i, j)) (keys s)).
Proof.
  intros E V U N K k nrm pre post x y n m d Hnr Hadm Hno Hok s.
  set (s0 := after N K nrm pre x y post) in *.
  assert (Hg0 : good N K k nrm (stored n d x) (stored2 n m d x y) (is_some y) n m d
                  (g_calls (before N K nrm pre)) true true s0).
  { apply S1_good; [exact Hadm|exact Hno|exact Hnr|discriminate|discriminate]. }
  assert (H := full_total N K k nrm (stored n d x) (stored2 n m d x y) (is_some y) n m d _ (nr_stored K k x y n m d Hadm Hnr) eq_refl
                 (stored2_shape x y n m d Hadm)
                 (stored2_one x y n m d Hadm) true true _ Hg0).
  unfold holds in H. destruct H as (Hg & _ & Hnres & Hpop).
  unfold outcome, step in Hok. rewrite outcome_fmap in Hok.
  assert (Hok' : is_ok (snd (full N s0)) = true) by (destruct (snd (full N s0)); [reflexivity|discriminate]).
  specialize (Hpop Hok').
  assert (Hsdef : s = fst (full N s0)) by (unfold s, step; apply (state_fmap OArr (full N) s0)).
  rewrite <- Hsdef in *.
  assert (Hs := gs Hg). split; [exact Hs|].
  destruct (good_has_full N K k nrm _ _ _ n m d _ true true s Hg Hpop) as [a Ha].
  intros i j Hi Hj Hij. destruct Hs as [_ Hfull]. unfold full_ok in Hfull. rewrite Ha in Hfull.
  destruct Hfull as (_ & _ & Hv & _). specialize (Hv Hpop). apply (Hv i j Hi Hj). left. exact Hij.
Qed.

(** C12, exactly: after any history, once [full] has returned, reading it again evaluates nothing, and
    an index access evaluates the kernel at most on pairs strictly below the diagonal - and on none at
    all with one sample, with normalized=True, or if full_sparse was not read since attach_to. *)
Lemma pf_C12_exact :
  forall {E V U} (N : numops V) (K : kernel E V) k nrm (pre post : list (op E U)) x y n m d ix,
    never_raises K k x y n m d -> admissible x y n m d -> no_attach post ->
    is_ok (outcome N OpFull (after N K nrm pre x y post)) = true ->
    let s := fst (step N OpFull (after N K nrm pre x y post)) in
    fst (step N OpFull s) = s /\
    exists added,
      g_calls (fst (step N (OpGetItem ix) s)) = added ++ g_calls s /\
      (forall c, In c added -> snd (c_ix c) < fst (c_ix c)) /\
      (y = None \/ nrm = true \/ no_full_sparse post -> added = []).
Proof.
  intros E V U N K k nrm pre post x y n m d ix Hnr Hadm Hno Hok s.
  assert (Hret : returns_only K k x y n m d) by (intros t u v Hu Hv; left; apply Hnr; assumption).
  split.
  { assert (Hsdef : s = fst (full N (after N K nrm pre x y post)))
      by (unfold s, step; apply (state_fmap OArr (full N))).
    unfold outcome, step in Hok. rewrite outcome_fmap in Hok.
    unfold step at 1. rewrite (state_fmap OArr (full N) s). rewrite Hsdef.
    destruct (full N (after N K nrm pre x y post)) as [s' [A|e]] eqn:Hf; [|discriminate].
    cbn [fst]. rewrite (full_idem N _ s' A Hf). reflexivity. }
  destruct (full_reads_upper N K k nrm pre post x y n m d Hnr Hadm Hno Hok) as (Hs & Hupper).
  fold s in Hs, Hupper.
  assert (Hex : exists added, g_calls (fst (step N (OpGetItem ix) s)) = added ++ g_calls s /\
                  forall c, In c added -> snd (c_ix c) < fst (c_ix c)).
  { assert (Hquiet : forall s' : km E V U,
      sane N K k nrm (stored n d x) (stored2 n m d x y) (is_some y) n m d
           (g_calls (before N K nrm pre)) s' ->
      (exists P, ext 0 P s s') -> exists added, g_calls s' = added ++ g_calls s /\
        forall c, In c added -> snd (c_ix c) < fst (c_ix c)).
    { intros s' [Hi' _] (P & _ & added & Hadd & Hc). exists added. split; [exact Hadd|].
      intros c Hin. destruct (Hc c Hin) as (Ht & _ & Hnot).
      destruct Hs as [Hi _].
      destruct (iv_ghost _ _ _ _ _ _ _ _ _ _ _ _ Hi) as (old & Hold & _ & _).
      destruct (iv_ghost _ _ _ _ _ _ _ _ _ _ _ _ Hi') as (new & Hnew & _ & Hall).
      rewrite Hadd, Hold, app_assoc in Hnew. apply app_inv_tail in Hnew. subst new.
      rewrite Forall_forall in Hall.
      destruct (Hall c (in_or_app _ _ _ (or_introl Hin)) Ht) as (H1 & H2 & H3 & _).
      destruct (c_ix c) as [i j] eqn:Hij. cbn [fst snd] in *.
      destruct (Nat.lt_ge_cases j i) as [Hlt|Hge]; [exact Hlt|]. exfalso.
      apply Hnot. rewrite <- H3. apply Hupper; assumption. }
    unfold step. rewrite (state_fmap OArr (getitem N ix) s).
    destruct (valid_or_not n m ix) as [Hv|Hv].
    + destruct (resolve_valid n m ix Hv) as (rows & cols & _ & Hsel & _).
      destruct (list_eq_dec Nat.eq_dec rows (seq 0 n)) as [Hr|Hr];
        [destruct (list_eq_dec Nat.eq_dec cols (seq 0 m)) as [Hc|Hc]|].
      * subst. rewrite (getitem_whole N K k nrm (stored n d x) (stored2 n m d x y) (is_some y) n m d _
                  (stored2_one x y n m d Hadm) s ix Hs Hv Hsel).
        assert (H := populate_holds N K k nrm (stored n d x) (stored2 n m d x y) (is_some y) n m d _
                  (ret_stored K k x y n m d Hadm Hret) eq_refl (stored2_shape x y n m d Hadm) (stored2_one x y n m d Hadm)
                  false true s Hs).
        destruct H as (H1 & _ & H2 & _). apply Hquiet; eauto.
      * assert (H := getitem_proper N K k nrm (stored n d x) (stored2 n m d x y) (is_some y) n m d _
             eq_refl (stored2_shape x y n m d Hadm) (stored2_one x y n m d Hadm) (ret_stored K k x y n m d Hadm Hret) s ix rows cols
             Hs Hv Hsel (fun w => Hc (proj2 w))).
        destruct H as (H1 & _ & _ & H2 & _). apply Hquiet; eauto.
      * assert (H := getitem_proper N K k nrm (stored n d x) (stored2 n m d x y) (is_some y) n m d _
             eq_refl (stored2_shape x y n m d Hadm) (stored2_one x y n m d Hadm) (ret_stored K k x y n m d Hadm Hret) s ix rows cols
             Hs Hv Hsel (fun w => Hr (proj1 w))).
        destruct H as (H1 & _ & _ & H2 & _). apply Hquiet; eauto.
    + destruct (getitem_invalid N K k nrm _ _ _ n m d _ _ ix Hs Hv) as (e & -> & _).
      exists []. split; [reflexivity|]. intros c []. }
  destruct Hex as (added & H1 & H2). exists added. split; [exact H1|]. split; [exact H2|].
  intros Hcase.
  assert (H3 := pf_C12_nothing_after_full_partial N K k nrm pre post x y n m d (OpGetItem ix)
                  Hnr Hadm Hno Hcase Hok (or_intror (ex_intro _ ix eq_refl))).
  cbv zeta in H3. fold s in H3. rewrite H1 in H3. destruct added as [|c added]; [reflexivity|].
  exfalso. apply (f_equal (@List.length _)) in H3. cbn in H3. rewrite app_length in H3. lia.
Qed.

(** The other case does occur: two samples of three points each, full_sparse, full, and then one
    element below the diagonal is evaluated; reading it again is free. *)
Lemma pf_C12_exact_example :
  let s := fst (step toyN OpFull (after (U:=Z) toyN dot false [] toyX (Some toyX) [OpFullSparse])) in
  let s' := fst (step toyN (OpGetItem (IPair (IInt 2) (IInt 1))) s) in
  is_ok (outcome toyN OpFull (after (U:=Z) toyN dot false [] toyX (Some toyX) [OpFullSparse])) = true /\
  map c_ix (g_calls s') = (2, 1) :: map c_ix (g_calls s) /\
  g_calls (fst (step toyN (OpGetItem (IPair (IInt 2) (IInt 1))) s')) = g_calls s'.
Proof. vm_compute. repeat split; reflexivity. Qed.
