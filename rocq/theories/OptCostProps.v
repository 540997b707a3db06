(** C102: exactly how many kernel evaluations searching a bucket, and fitting and predicting with an
    optimal-kernel machine, cost. *)
From Coq Require Import String Reals List Arith ZArith Bool Lia Lra.
Import ListNotations.
From Verif Require Import Prelude MatModel UtilsModel KMModel SpecKM XReal OpsModel SpecLinAlg SpecKernels KernelsModel
  KMXModel SpecKMX SetModel SpecSet BucketModel SpecBucket RankModel SpecRank AlgoModel SpecAlgo SpecOpt SpecCost SpecOptCost.
From Verif Require Import MatFacts MFacts KMFacts KMInv KMTotal KMHist KMHist2 KMProps RSum OpsFacts OpsProps KernelFacts KMXProps KMSteady
  SetFacts SetFacts2 SetProps ContProps CompositeFacts BucketProps RankFacts RankProps AlgoFacts AlgoProps OptFacts SpecOptCases
  OptProps CostProps.

Local Open Scope list_scope.
Local Open Scope nat_scope.

Section Reads.
  Context {U : Type}.
  Notation World := (world xr xr U).

  Lemma only_read_trans : forall w1 w2 w3 : World, only_read w1 w2 -> only_read w2 w3 -> only_read w1 w3.
  Proof.
    intros w1 w2 w3 [A1 A2] [B1 B2]. split; [congruence|]. intros l s H. destruct (A2 l s H) as [c Hc].
    destruct (B2 l _ Hc) as [c' Hc']. exists (c + c'). rewrite repeat_app, run_app. exact Hc'.
  Qed.

  Lemma full_read : forall l (w : World) s, nth_error (w_objs w) l = Some (OKM s) ->
    nth_error (w_objs (fst (obj_full xN l w))) l = Some (OKM (run xN [OpFull] s)).
  Proof.
    intros l w s H. rewrite obj_full_eq, H. cbn [fst set_objs w_objs]. rewrite (nth_error_upd_same _ _ _ _ H).
    cbn [run step]. unfold fmap, bind. destruct (full xN s) as [s' [a|e]]; reflexivity.
  Qed.
  Lemma full_other : forall l l' (w : World), l' <> l -> nth_error (w_objs (fst (obj_full xN l w))) l' = nth_error (w_objs w) l'.
  Proof.
    intros l l' w H. rewrite obj_full_eq. destruct (nth_error (w_objs w) l) as [[s|A]|]; try reflexivity.
    cbn [fst set_objs w_objs]. apply nth_error_upd_other. exact H.
  Qed.

  (** A loop that reads each member. *)
  Lemma loop_reads : forall {B} (body : nat -> M World B),
    (forall l w, only_read w (fst (body l w))) ->
    (forall l w b s, snd (body l w) = Ok b -> nth_error (w_objs w) l = Some (OKM s) ->
       nth_error (w_objs (fst (body l w))) l = Some (OKM (run xN [OpFull] s))) ->
    (forall l w l', l' <> l -> nth_error (w_objs (fst (body l w))) l' = nth_error (w_objs w) l') ->
    forall ms w, only_read w (fst (map_each ms body w)) /\
      (forall bs, snd (map_each ms body w) = Ok bs -> forall l s, In l ms -> nth_error (w_objs w) l = Some (OKM s) ->
         exists c, nth_error (w_objs (fst (map_each ms body w))) l = Some (OKM (run xN (repeat OpFull (S c)) s))) /\
      (forall l, ~ In l ms -> nth_error (w_objs (fst (map_each ms body w))) l = nth_error (w_objs w) l).
  Proof.
    intros B body H1 H2 H3 ms. induction ms as [|a ms IH]; intros w.
    { split; [apply only_read_refl|]. split; [intros bs _ l s []|reflexivity]. }
    cbn [map_each]. unfold bind. specialize (H1 a w) as O1. specialize (H2 a w) as O2. specialize (H3 a w) as O3.
    destruct (body a w) as [w1 [b|e]]; cbn [fst snd] in *.
    2:{ split; [exact O1|]. split; [discriminate|]. intros l Hl. apply O3. intros ->. apply Hl. left. reflexivity. }
    destruct (IH w1) as (I1 & I2 & I3). clear IH.
    destruct (map_each ms body w1) as [w2 [bs|e]]; cbn [fst snd ret] in *.
    - split; [eapply only_read_trans; eassumption|]. split.
      + intros bs' _ l s Hl Hs. destruct (Nat.eq_dec l a) as [->|Hne].
        * destruct I1 as [_ I1]. destruct (I1 a _ (O2 b s eq_refl Hs)) as [c Hc]. exists c. rewrite <- run_app in Hc. exact Hc.
        * destruct Hl as [->|Hl]; [congruence|]. apply (I2 bs eq_refl l s Hl). rewrite O3 by exact Hne. exact Hs.
      + intros l Hl. rewrite I3 by (intros H; apply Hl; right; exact H). apply O3. intros ->. apply Hl. left. reflexivity.
    - split; [eapply only_read_trans; eassumption|]. split; [discriminate|].
      intros l Hl. rewrite I3 by (intros H; apply Hl; right; exact H). apply O3. intros ->. apply Hl. left. reflexivity.
  Qed.

  Lemma rank_reads : forall {T} (numbers : T -> res (list xr)) best_score k t m p (w w' : World) r s0,
    nth_error (w_sets w) k = Some s0 -> rank_kernels numbers best_score k t m p w = (w', r) ->
    (forall ss, r = Ok ss ->
       forall l s, In l (s_members s0) -> nth_error (w_objs w) l = Some (OKM s) ->
       exists c, nth_error (w_objs w') l = Some (OKM (run xN (repeat OpFull (S c)) s))) /\
    (forall l, ~ In l (s_members s0) -> nth_error (w_objs w') l = nth_error (w_objs w) l).
  Proof.
    intros T numbers best_score k t m p w w' r s0 Hk H. unfold rank_kernels in H.
    destruct (negb (valid_method m)); [injection H as <- <-; split; [discriminate|reflexivity]|].
    destruct (String.eqb (lower m) "align/corr").
    - unfold alignment_ranking in H. unfold bind at 1, lift at 1 in H.
      destruct (numbers t) as [ys|e]; [|injection H as <- <-; split; [discriminate|reflexivity]].
      unfold bind at 1, set_iter, get_set, bind at 1 in H. rewrite Hk in H. cbn [ret] in H.
      match type of H with map_each _ ?b w = _ => pose proof (loop_reads b) as L end.
      destruct (fun A B C => L A B C (s_members s0) w) as (_ & L1 & L2).
      + intros l w1. unfold bind. pose proof (only_read_full l w1 w1 (only_read_refl w1)) as H1.
        destruct (obj_full xN l w1) as [w2 [K|e]]; [|exact H1]. destruct (is_some (rp_folds p) || is_some (rp_estimator p) || rp_other p); exact H1.
      + intros l w1 b s Hb Hs. unfold bind in *. pose proof (full_read l w1 s Hs) as H1.
        destruct (obj_full xN l w1) as [w2 [K|e]]; [|discriminate]. destruct (is_some (rp_folds p) || is_some (rp_estimator p) || rp_other p); [discriminate|exact H1].
      + intros l w1 l' Hne. unfold bind. pose proof (full_other l l' w1 Hne) as H1.
        destruct (obj_full xN l w1) as [w2 [K|e]]; [|exact H1]. destruct (is_some (rp_folds p) || is_some (rp_estimator p) || rp_other p); exact H1.
      + rewrite H in L1, L2. split; assumption.
    - unfold CV_ranking in H. destruct (is_some (rp_zero p) || is_some (rp_centered p) || rp_other p);
        [injection H as <- <-; split; [discriminate|reflexivity]|].
      unfold bind at 1, set_iter, get_set, bind at 1 in H. rewrite Hk in H. cbn [ret] in H. unfold bind at 1 in H.
      match type of H with context [map_each _ ?b w] => pose proof (loop_reads b) as L; set (bd := b) in * end.
      destruct (fun A B C => L A B C (s_members s0) w) as (_ & L1 & L2).
      + intros l w1. unfold bd, bind, lift. destruct (get_estimator _) as [e|e]; [|apply only_read_refl].
        pose proof (only_read_full l w1 w1 (only_read_refl w1)) as H1. destruct (obj_full xN l w1) as [w2 [K|e']]; exact H1.
      + intros l w1 b s Hb Hs. unfold bd, bind, lift in *. destruct (get_estimator _) as [e|e]; [|discriminate].
        pose proof (full_read l w1 s Hs) as H1. destruct (obj_full xN l w1) as [w2 [K|e']]; [exact H1|discriminate].
      + intros l w1 l' Hne. unfold bd, bind, lift. destruct (get_estimator _) as [e|e]; [|reflexivity].
        pose proof (full_other l l' w1 Hne) as H1. destruct (obj_full xN l w1) as [w2 [K|e']]; exact H1.
      + destruct (map_each _ _ w) as [w2 [ss|e]]; cbn [fst snd] in *; unfold lift in H; injection H as <- <-.
        * split; [|exact L2]. intros ss' _. exact (L1 ss eq_refl).
        * split; [discriminate|exact L2].
  Qed.

  (** The members after a search that succeeded, and the other objects. *)
  Lemma find_costs : forall {T} (numbers : T -> res (list xr)) best_score numeric (w w' : World) b num ms x n d (t : T) m p l0,
    set_is w (b_set b) num ms -> is_sample x n d -> numeric (nd_data x) = true -> num = NSNone \/ num = NSOne n ->
    (forall l, In l ms -> is_km w l) ->
    find_optimal_kernel numbers best_score numeric (Some b) x t m p w = (w', Ok l0) ->
    In l0 ms /\
    (forall l, In l ms -> exists s c, nth_error (w_objs w) l = Some (OKM s) /\
      nth_error (w_objs w') l = Some (OKM (run xN (OpAttach x None :: repeat OpFull (S c)) s))) /\
    (forall l, ~ In l ms -> nth_error (w_objs w') l = nth_error (w_objs w) l) /\
    exists i sm, nth_error (w_sets w') (b_set b) = Some (mkSet (NSOne n) i ms sm).
  Proof.
    intros T numbers best_score numeric w w' b num ms x n d t m p l0 Hk Hx Hn Hnum Hkm H.
    unfold find_optimal_kernel in H. destruct (negb (valid_method m)); [discriminate|].
    destruct (set_is_eq w (b_set b) num ms Hk) as (s & Hs & Hn' & Hms). subst num ms.
    destruct (set_attach_ok numeric (b_set b) x None w s n d Hs Hx Hn Hnum Hkm) as (w1 & H1 & Hsets & Hin & Hout).
    unfold bind at 1 in H. rewrite H1 in H. unfold bind at 1 in H.
    destruct (rank_kernels numbers best_score (b_set b) t (lower m) p w1) as [w2 r] eqn:E2.
    assert (Hs1 : nth_error (w_sets w1) (b_set b) = Some (mkSet (NSOne n) (s_init s) (s_members s) (Some (stored n d x))))
      by (rewrite Hsets; eapply nth_error_upd_same; exact Hs).
    destruct (rank_reads numbers best_score _ t (lower m) p w1 w2 r _ Hs1 E2) as [R1 R2]. cbn [s_members] in R1, R2.
    destruct r as [ss|e]; [|discriminate].
    pose proof (only_read_rank numbers best_score (b_set b) t (lower m) p w1) as [R3 _]. rewrite E2 in R3. cbn [fst] in R3.
    unfold bind, lift in H. destruct (argmax ss) as [i|e]; [|discriminate].
    unfold set_getitem, bind, get_set in H. rewrite R3, Hs1 in H. cbn [s_members] in H.
    destruct (_ || _); [discriminate|].
    destruct (nth_error (s_members s) (Z.to_nat (Z.of_nat i))) as [l1|] eqn:El; [|discriminate].
    injection H as <- <-. split; [eapply nth_error_In; exact El|]. split; [|split].
    - intros l Hl. destruct (Hkm l Hl) as [t0 Ht]. destruct (R1 ss eq_refl l _ Hl (Hin l Hl t0 Ht)) as [c Hc].
      exists t0, c. split; [exact Ht|]. cbn [attrs_after] in Hc. change (run xN (OpAttach x None :: repeat OpFull (S c)) t0)
        with (run xN (repeat OpFull (S c)) (run xN [OpAttach x None] t0)). rewrite (attach_step t0 x n d Hx). exact Hc.
    - intros l Hl. rewrite (R2 l Hl). apply Hout. exact Hl.
    - rewrite R3. eauto.
  Qed.

  (** What reading costs. *)
  Lemma reads_cost : forall (K : kernel xr xr) nrm pre x n d c G, is_sample x n d -> has_gram x n d (K, nrm) G ->
    length (g_calls (run xN (OpAttach x None :: repeat OpFull (S c)) (before (U:=U) xN K nrm pre)))
    = length (g_calls (before (U:=U) xN K nrm pre)) + n * (n + 1) / 2.
  Proof.
    intros K nrm pre x n d c G Hx HG. assert (HG' := HG). destruct HG' as (v & Hv & Hf & _). cbn [fst snd] in *.
    assert (Ha : admissible x None n n d) by (split; [exact Hx|reflexivity]).
    assert (Hok : is_ok (outcome xN OpFull (after (U:=U) xN K nrm pre x None [])) = true).
    { assert (H := gram_again (U:=U) K nrm pre x n d 0 G Hx HG). cbn [repeat] in H. unfold outcome, step.
      rewrite outcome_fmap. unfold outcome, after. rewrite run_app. unfold before in H. rewrite H. reflexivity. }
    destruct (pf_C102_count (U:=U) xN K v nrm pre [] x None n n d Hv Ha eq_refl (or_introl eq_refl) Hok (or_introl eq_refl))
      as (new & Hnew & Hlen). cbn [is_some andb app row_pairs] in *.
    assert (HM := pf_C102_nothing_more (U:=U) xN K v nrm pre [] (repeat OpFull c) x None n n d Hv Ha
                    (no_attach_fulls (S c)) (or_introl eq_refl) Hok (or_introl eq_refl)).
    cbn [app] in HM. rewrite Hnew in HM. unfold after in HM. rewrite run_app in HM.
    change (run xN (pre) (km_new K nrm [])) with (before (U:=U) xN K nrm pre) in HM. cbn [repeat]. rewrite HM, app_length, Hlen. lia.
  Qed.
End Reads.

(** C102: searching a bucket. A search that returns a kernel has made n (n + 1) / 2 kernel calls for every
    kernel matrix of the bucket, whatever it was used for before and however it was scored; no other object
    is touched. *)
Lemma pf_C102_search :
  forall {U T} (numbers : T -> res (list xr)) best_score numeric (w : world xr xr U) b num ms x n d (t : T) m p Ks Gs l0,
    set_is w (b_set b) num ms -> is_sample x n d -> numeric (nd_data x) = true -> num = NSNone \/ num = NSOne n ->
    Forall2 (fun l K => matrix_of w l (fst K) (snd K)) ms Ks -> Forall2 (has_gram x n d) Ks Gs ->
    let r := find_optimal_kernel numbers best_score numeric (Some b) x t m p w in
    snd r = Ok l0 ->
    (forall l, In l ms -> calls_at (fst r) l = calls_at w l + n * (n + 1) / 2) /\
    (forall l, ~ In l ms -> nth_error (w_objs (fst r)) l = nth_error (w_objs w) l).
Proof.
  intros U T numbers best_score numeric w b num ms x n d t m p Ks Gs l0 Hk Hx Hn Hnum HM HG r Hr.
  assert (Hkm : forall l, In l ms -> is_km w l).
  { intros l Hl. destruct (In_nth_error _ _ Hl) as [i Hi]. destruct (Forall2_nth_error _ _ _ HM i l Hi) as (K & _ & pre & H).
    exists (before xN (fst K) (snd K) pre). exact H. }
  unfold r in *. destruct (find_optimal_kernel numbers best_score numeric (Some b) x t m p w) as [w' q] eqn:E. cbn [fst snd] in *.
  subst q. destruct (find_costs numbers best_score numeric w w' b num ms x n d t m p l0 Hk Hx Hn Hnum Hkm E) as (_ & H1 & H2 & _).
  split; [|exact H2]. intros l Hl. destruct (H1 l Hl) as (s & c & Hs & Hs').
  destruct (In_nth_error _ _ Hl) as [i Hi]. destruct (Forall2_nth_error _ _ _ HM i l Hi) as ([K nrm] & HK & pre & H).
  destruct (Forall2_nth_error _ _ _ HG i _ HK) as (G & _ & Hgram). cbn [fst snd] in H.
  unfold calls_at. rewrite Hs', Hs. rewrite Hs in H. injection H as ->. exact (reads_cost K nrm pre x n d c G Hx Hgram).
Qed.

(** The bucket fit works with, and its calls so far. *)
Lemma offered_calls : forall {U Q} (C : cmpops xr) (v : option (oval Q)) (w : world xr xr U) num Ks, offers v w num Ks ->
  exists w1 b ms cs, take_bucket C v w = (w1, Ok b) /\ set_is w1 (b_set b) num ms /\
    Forall2 (fun l K => matrix_of w1 l (fst K) (snd K)) ms Ks /\ calls_offered v w (length Ks) cs /\
    cs = map (calls_at w1) ms.
Proof.
  intros U Q C [[b|s|q]|] w num Ks H; cbn [offers] in H; try contradiction.
  - destruct H as (ms & (i & sm & Hs) & HF).
    destruct (deepcopy_fresh b w _ Hs) as (w' & b' & s' & E & L & (H1 & H2 & H3 & H4) & H5 & H6).
    cbn [s_num s_members] in *. exists w', b', (s_members s'), (map (calls_at w) ms). split; [exact E|].
    split; [subst num; apply eq_set_is; exact H2|]. split.
    { rewrite H5. clear - HF H6. induction HF as [|l K ms Ks (pre & Hl) HF IH]; constructor.
      - exists pre. rewrite H6. exact Hl.
      - exact IH. }
    split; [exists num, ms; split; [exists i, sm; exact Hs|reflexivity]|].
    rewrite H5, map_map. apply map_ext. intros l. unfold calls_at. rewrite H6. reflexivity.
  - destruct H as (-> & ks & Hks & ->). cbn [take_bucket]. unfold try_except.
    destruct (strategy_makes C s ks w Hks) as (b & ms & H1 & H2 & H3 & H4 & H5 & H6 & H7).
    destruct (make_kernel_bucket xN C (SName s) (Some true) (Some false) w) as [w' r]. cbn [fst snd] in *. subst r.
    destruct H5 as (H5 & _ & H8). exists w', b, ms, (repeat 0 (length (map (fun k => (builtin k, true)) ks))).
    split; [reflexivity|]. split; [exact H4|]. clear - H5. rewrite map_length.
    split; [|split; [reflexivity|]].
    + revert ms H5. induction ks as [|k ks IH]; intros ms H5; inversion H5 as [|l ? ms' ? Hl H5']; subst; constructor.
      * exists []. exact Hl.
      * apply IH. exact H5'.
    + revert ms H5. induction ks as [|k ks IH]; intros ms H5; inversion H5 as [|l ? ms' ? Hl H5']; subst; [reflexivity|].
      cbn [length repeat map]. f_equal; [unfold calls_at; rewrite Hl; reflexivity|]. apply IH. exact H5'.
Qed.

(** C102: a successful fit of an optimal-kernel machine makes n (n + 1) / 2 kernel calls for every kernel on
    offer, and no more for the training that follows: the members of its own bucket have made that many
    more than those on offer. *)
Lemma pf_C102_optimal_fit :
  forall {U XIn YIn W Y F P Q} (S : sklearn XIn YIn W Y F P) self_fit numbers best_score numeric C
         X y wt (o : optimal Y F Q) (w : world xr xr U) x ys n d num Ks Gs,
    sk_check_X_y S true X y = Ok (x, ys) -> is_sample x n d -> numeric (nd_data x) = true ->
    offers (dict_get (o_params o) "k_bucket") w num Ks -> num = NSNone \/ num = NSOne n ->
    Forall2 (has_gram x n d) Ks Gs ->
    let r := optimal_fit S self_fit numbers best_score numeric C X y wt (o, w) in
    snd r = Ok tt ->
    exists b ms cs, o_copy (fst (fst r)) = Some b /\ set_is (snd (fst r)) (b_set b) (NSOne n) ms /\
      calls_offered (dict_get (o_params o) "k_bucket") w (length Ks) cs /\
      map (calls_at (snd (fst r))) ms = map (fun c => c + n * (n + 1) / 2) cs /\
      exists l, o_opt_kernel (fst (fst r)) = Some l /\ In l ms.
Proof.
  intros U XIn YIn W Y F P Q S self_fit numbers best_score numeric C X y wt o w x ys n d num Ks Gs Hxy Hx Hn Hoff Hnum HG r Hr.
  unfold r in *. clear r. rewrite ofit_eq in *.
  destruct (offered_calls C _ w num Ks Hoff) as (w1 & b & ms & cs & E & Hset & HM & Hcs & Hc). rewrite E, Hxy in *. cbn [fst snd] in *.
  destruct (dict_get (o_params o) "method") as [[b'|m|q]|]; try discriminate.
  assert (Hkm : forall l, In l ms -> is_km w1 l).
  { intros l Hl. destruct (In_nth_error _ _ Hl) as [i Hi]. destruct (Forall2_nth_error _ _ _ HM i l Hi) as (K & _ & pre & H).
    exists (before xN (fst K) (snd K) pre). exact H. }
  destruct (find_optimal_kernel numbers best_score numeric (Some b) x ys m (search_params o) w1) as [w2 [l0|e]] eqn:Ef; [|discriminate].
  destruct (find_costs numbers best_score numeric w1 w2 b num ms x n d ys m (search_params o) l0 Hset Hx Hn Hnum Hkm Ef)
    as (Hl0 & H1 & H2 & i & sm & H3).
  pose proof (only_read_full l0 w2 w2 (only_read_refl w2)) as [R1 R2].
  destruct (obj_full xN l0 w2) as [w3 [G0|e]] eqn:Eo; [|discriminate]. cbn [fst snd] in *.
  exists b, ms, cs. split; [reflexivity|]. split; [exists i, sm; rewrite R1; exact H3|]. split; [exact Hcs|].
  split; [|exists l0; split; [reflexivity|exact Hl0]]. subst cs. rewrite map_map. apply map_ext_in. intros l Hl. destruct (H1 l Hl) as (s & c & Hs & Hs').
  destruct (R2 l _ Hs') as [c' Hc'].
  destruct (In_nth_error _ _ Hl) as [j Hj]. destruct (Forall2_nth_error _ _ _ HM j l Hj) as ([K nrm] & HK & pre & H).
  destruct (Forall2_nth_error _ _ _ HG j _ HK) as (G & _ & Hgram). cbn [fst snd] in H.
  rewrite Hs in H. injection H as ->. unfold calls_at. rewrite Hc', Hs, <- run_app.
  rewrite <- app_comm_cons, <- repeat_app. exact (reads_cost K nrm pre x n d (c + c') G Hx Hgram).
Qed.

(** C102: each prediction of an optimal-kernel machine for n' points makes n' n calls of the optimal
    kernel, n' + n more if it is normalised, and none of the other kernels. *)
Lemma pf_C102_optimal_predict :
  forall {U XIn YIn W Y F P Q} (S : sklearn XIn YIn W Y F P) self_predict
         X (o : optimal Y F Q) (w : world xr xr U) l K z x ys n' n d G,
    o_opt_kernel o = Some l -> matrix_of w l (fst K) (snd K) -> o_train o = Some (x, ys) ->
    sk_check_array S X = Ok z -> is_sample z n' d -> is_sample x n d -> has_cross z x n' n d K (Ok G) ->
    let w' := snd (fst (optimal_predict S self_predict X (o, w))) in
    calls_at w' l = calls_at w l + n' * n + (if snd K then n' + n else 0) /\
    forall l', l' <> l -> calls_at w' l' = calls_at w l'.
Proof.
  intros U XIn YIn W Y F P Q S self_predict X o w l [K nrm] z x ys n' n d G Hl (pre & Hm) Ht Hz Hz' Hx (v & Hv & Hf & HG) w'.
  cbn [fst snd] in *. assert (Ha : admissible z (Some x) n' n d) by (split; assumption). unfold w'. clear w'. split.
  - rewrite opredict_eq, Hl, Hz, Ht. cbn [fst snd]. unfold on_km. rewrite Hm, (after_attach K nrm pre z (Some x) n' n d Ha).
    cbn [fst snd]. rewrite obj_full_eq. cbn [set_objs w_objs]. rewrite (nth_error_upd_same _ _ _ _ Hm). cbn [fst snd].
    unfold calls_at. cbn [set_objs w_objs]. rewrite Hm.
    erewrite nth_error_upd_same by (eapply nth_error_upd_same; exact Hm).
    assert (Hok : is_ok (outcome xN OpFull (after (U:=U) xN K nrm pre z (Some x) [])) = true).
    { unfold outcome, step. rewrite outcome_fmap. unfold outcome. rewrite (full_fresh_two K v nrm pre z x n' n d Hv Hf Ha), HG. reflexivity. }
    destruct (pf_C102_count (U:=U) xN K v nrm pre [] z (Some x) n' n d Hv Ha eq_refl) as (new & Hnew & Hlen);
      [right; right; intros []|exact Hok|right; constructor|].
    rewrite after_snoc in Hnew. unfold step in Hnew. rewrite (state_fmap OArr (full xN)) in Hnew. rewrite Hnew, app_length, Hlen.
    destruct nrm; cbn; lia.
  - intros l' Hne. destruct (pf_C60_predict S self_predict X o w) as (_ & _ & H). unfold calls_at. rewrite H; [reflexivity|]. congruence.
Qed.

(** A prediction keeps the optimal kernel a matrix of its kernel. *)
Lemma predict_matrix : forall {U XIn YIn W Y F P Q} (S : sklearn XIn YIn W Y F P) self_predict
    X (o : optimal Y F Q) (w : world xr xr U) l K nrm, matrix_of w l K nrm ->
  matrix_of (snd (fst (optimal_predict S self_predict X (o, w)))) l K nrm.
Proof.
  intros U XIn YIn W Y F P Q S self_predict X o w l K nrm [pre Hm]. rewrite opredict_eq.
  destruct (o_opt_kernel o) as [l0|]; [|exists pre; exact Hm].
  destruct (sk_check_array S X) as [z|e]; [|exists pre; exact Hm]. destruct (o_train o) as [xy|]; [|exists pre; exact Hm].
  assert (KF : forall w' : world xr xr U, matrix_of w' l K nrm -> matrix_of (fst (obj_full xN l0 w')) l K nrm).
  { intros w' [p Hp]. destruct (only_read_full l0 w' w' (only_read_refl w')) as [_ R]. destruct (R l _ Hp) as [c Hc].
    exists (p ++ repeat OpFull c). unfold before in *. rewrite run_app. exact Hc. }
  assert (KA : forall a : option (ndarray xr), matrix_of (fst (on_km l0 (attach_to z a) w)) l K nrm).
  { intros a. unfold on_km. destruct (nth_error (w_objs w) l0) as [[t|A]|] eqn:E; try (exists pre; exact Hm).
    destruct (Nat.eq_dec l l0) as [->|Hne].
    - exists (pre ++ [OpAttach z a]). rewrite Hm in E. injection E as <-. unfold before in *. rewrite run_app. cbn [run step].
      rewrite state_fmap. destruct (attach_to z a _) as [t' [u|e]]; cbn [fst set_objs w_objs];
        rewrite (nth_error_upd_same _ _ _ _ Hm); reflexivity.
    - exists pre. destruct (attach_to z a t) as [t' [u|e]]; cbn [fst set_objs w_objs]; rewrite nth_error_upd_other by exact Hne; exact Hm. }
  specialize (KA (Some (fst xy))). destruct (on_km l0 (attach_to z (Some (fst xy))) w) as [w1 [u|e]]; cbn [fst snd] in *; [|exact KA].
  apply KF. exact KA.
Qed.

(** What a prediction for two points costs. *)
Lemma predict1_cost : forall (o : optimal unit learnt unit) (w : world xr xr unit) l,
  o_opt_kernel o = Some l -> matrix_of w l (builtin KLinear) false -> o_train o = Some (x12, tt) ->
  calls_at (snd (fst (optimal_predict sk1 predict1 x34 (o, w)))) l = calls_at w l + 4.
Proof.
  intros o w l A1 A2 A3.
  assert (Hz : has_cross x34 x12 2 2 1 (builtin KLinear, false) (Ok (mkArr Dense (kernel_matrix xdot 2 2 1 x34 (Some x12))))).
  { exists xdot. split; [apply linear_total; reflexivity|]. split; reflexivity. }
  destruct (pf_C102_optimal_predict sk1 predict1 x34 o w l (builtin KLinear, false) x34 x12 tt 2 2 1 _ A1 A2 A3 eq_refl s34 s12 Hz) as [E _].
  rewrite E. cbn [snd]. lia.
Qed.

Local Opaque optimal_fit optimal_predict.

(** C102 applies: OptimalKernelSVC with a bucket of one kernel, trained on two points, makes 3 kernel calls;
    each prediction for two points makes 4 more. *)
Lemma pf_C102_optimal_example :
  let s := fst (optimal_fit sk1 fit1 numbers1 score1 numeric1 xC x12 tt tt (estimator1 bucket1 "cv_risk", heap1 NSNone [])) in
  let s2 := fst (optimal_predict sk1 predict1 x34 s) in
  exists b l, o_copy (fst s) = Some b /\ set_is (snd s) (b_set b) (NSOne 2) [l] /\ o_opt_kernel (fst s) = Some l /\
    calls_at (snd s) l = 3 /\ calls_at (snd s2) l = 7 /\ calls_at (snd (fst (optimal_predict sk1 predict1 x34 s2))) l = 11.
Proof.
  cbv zeta. destruct (fit1_ok x12 2 1 NSNone [] s12 eq_refl (or_introl eq_refl)) as (Hok & _). unfold ofit1 in Hok.
  assert (T := pf_C102_optimal_fit sk1 fit1 numbers1 score1 numeric1 xC x12 tt tt (estimator1 bucket1 "cv_risk") (heap1 NSNone [])
              x12 tt 2 1 NSNone [(builtin KLinear, false)] [linear_gram 2 1 x12] eq_refl s12 eq_refl (offers1 NSNone [])
              (or_introl eq_refl) (gram1 x12 2 1 eq_refl)). cbv zeta in T. specialize (T Hok). clear Hok.
  assert (T2 := pf_C55_partial sk1 fit1 numbers1 score1 numeric1 xC x12 tt tt (estimator1 bucket1 "cv_risk") (heap1 NSNone []) x12 tt 2 1
    "cv_risk" NSNone [(builtin KLinear, false)] [linear_gram 2 1 x12] (mkSVM false "precomputed" 10, range_C) [0%R] 0 0
    eq_refl s12 eq_refl eq_refl eq_refl (offers1 NSNone []) (or_introl eq_refl)). cbv zeta in T2.
  specialize (T2 ltac:(discriminate) (gram1 x12 2 1 eq_refl) eq_refl (scores1 _) extremes1).
  revert T T2. generalize (optimal_fit sk1 fit1 numbers1 score1 numeric1 xC x12 tt tt (estimator1 bucket1 "cv_risk", heap1 NSNone [])).
  intros [[o w] q]. cbn [fst snd].
  intros (b & ms & cs & H1 & H2 & H3 & H4 & l & H5 & H6) (i & K & G & l' & HK & _ & _ & _ & _ & _ & Htr & Hop & Hm).
  assert (l' = l) by congruence. subst l'.
  destruct H3 as (num & ms0 & (i0 & sm0 & Hs0) & ->). injection Hs0 as _ _ <- _. cbn [map] in H4.
  change (calls_at (heap1 NSNone []) 0 + 2 * (2 + 1) / 2) with 3 in H4.
  destruct ms as [|a [|a' ms]]; cbn [map] in H4; try discriminate. destruct H6 as [->|[]]. injection H4 as H4.
  destruct i as [|[|i]]; try discriminate. injection HK as <-. cbn [fst snd] in Hm.
  exists b, l. split; [exact H1|]. split; [exact H2|]. split; [exact H5|]. split; [exact H4|].
  assert (E2 := predict1_cost o w l H5 Hm Htr). split; [rewrite E2, H4; reflexivity|].
  destruct (pf_C60_predict sk1 predict1 x34 o w) as (B1 & _).
  assert (B2 := predict_matrix sk1 predict1 x34 o w l _ _ Hm).
  revert B1 B2 E2. generalize (optimal_predict sk1 predict1 x34 (o, w)). intros [[o2 w2] q2]. cbn [fst snd]. intros -> B2 E2.
  rewrite (predict1_cost o w2 l H5 B2 Htr), E2, H4. reflexivity.
Qed.
