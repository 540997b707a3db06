(** C55, C57-C60, C70, C71, C73: the estimators OptimalKernelSVC and OptimalKernelSVR. *)
From Coq Require Import String Reals List Arith ZArith Bool Lia Lra.
Import ListNotations.
From Verif Require Import Prelude MatModel UtilsModel KMModel SpecKM XReal OpsModel SpecLinAlg SpecKernels KernelsModel
  KMXModel SpecKMX SetModel SpecSet BucketModel SpecBucket RankModel SpecRank AlgoModel SpecAlgo SpecOpt.
From Verif Require Import MatFacts MFacts KMFacts KMInv KMTotal KMHist KMHist2 KMProps RSum OpsFacts OpsProps KernelFacts KMXProps KMSteady
  SetFacts SetFacts2 SetProps ContProps CompositeFacts BucketProps RankFacts RankProps AlgoFacts AlgoProps OptFacts SpecOptCases.

Local Open Scope list_scope.
Local Open Scope nat_scope.

(** ** C60 *)

(** C60: fit, from any state, keeps everything on the heap as it was, whether it succeeds or not; the
    optimal kernel it finds is a new object. *)
Lemma pf_C60_fit :
  forall {U XIn YIn W Y F P Q} (S : sklearn XIn YIn W Y F P) self_fit numbers best_score numeric C
         X y wt (o : optimal Y F Q) (w : world xr xr U),
    let s' := fst (optimal_fit S self_fit numbers best_score numeric C X y wt (o, w)) in
    untouched w (snd s') /\
    (o_opt_kernel (fst s') = o_opt_kernel o \/
     exists l, o_opt_kernel (fst s') = Some l /\ nth_error (w_objs w) l = None).
Proof.
  intros U XIn YIn W Y F P Q S self_fit numbers best_score numeric C X y wt o w s'.
  destruct (fit_untouched S self_fit numbers best_score numeric C X y wt o w) as (H1 & _ & _ & H2).
  split; assumption.
Qed.

(** C60: predict, from any state, changes nothing but the optimal kernel. *)
Lemma pf_C60_predict :
  forall {U XIn YIn W Y F P Q} (S : sklearn XIn YIn W Y F P) self_predict X (o : optimal Y F Q) (w : world xr xr U),
    let s' := fst (optimal_predict S self_predict X (o, w)) in
    fst s' = o /\ w_sets (snd s') = w_sets w /\
    forall l, o_opt_kernel o <> Some l -> nth_error (w_objs (snd s')) l = nth_error (w_objs w) l.
Proof.
  intros U XIn YIn W Y F P Q S self_predict X o w s'. unfold s'. rewrite opredict_eq.
  destruct (o_opt_kernel o) as [l|]; [|split; [reflexivity|split; reflexivity]].
  destruct (sk_check_array S X) as [z|e]; [|split; [reflexivity|split; reflexivity]].
  destruct (o_train o) as [xy|]; [|split; [reflexivity|split; reflexivity]].
  assert (K : forall w' : world xr xr U, w_sets (fst (obj_full xN l w')) = w_sets w' /\
             forall i, Some l <> Some i -> nth_error (w_objs (fst (obj_full xN l w'))) i = nth_error (w_objs w') i).
  { intros w'. rewrite obj_full_eq. destruct (nth_error (w_objs w') l) as [[t|p]|]; try (split; reflexivity).
    split; [reflexivity|]. intros i Hi. cbn [fst set_objs w_objs]. apply nth_error_upd_other. congruence. }
  unfold on_km. destruct (nth_error (w_objs w) l) as [[t|p]|]; try (split; [reflexivity|split; reflexivity]).
  destruct (attach_to z (Some (fst xy)) t) as [t' [u|e]]; cbn [fst snd].
  - split; [reflexivity|]. match goal with |- context [obj_full xN l ?w1] => destruct (K w1) as [K1 K2] end.
    split; [exact K1|]. intros i Hi. rewrite (K2 i Hi). apply nth_error_upd_other. congruence.
  - split; [reflexivity|]. split; [reflexivity|]. intros i Hi. apply nth_error_upd_other. congruence.
Qed.

Lemma opt_run : forall {U XIn YIn W Y F P Q} (S : sklearn XIn YIn W Y F P) self_fit self_predict numbers best_score
    numeric C (os : list (oop XIn YIn W Q)) (o : optimal Y F Q) (w : world xr xr U) a b,
  (forall l, o_opt_kernel o = Some l -> a <= l) -> a <= length (w_objs w) -> b <= length (w_sets w) ->
  let s' := orun S self_fit self_predict numbers best_score numeric C os (o, w) in
  low a b w (snd s') /\ (forall l, o_opt_kernel (fst s') = Some l -> a <= l) /\ o_regressor (fst s') = o_regressor o.
Proof.
  intros U XIn YIn W Y F P Q S self_fit self_predict numbers best_score numeric C os.
  induction os as [|op os IH]; intros o w a b Ho Ha Hb; cbv zeta.
  { split; [apply low_refl|]. split; [exact Ho|reflexivity]. }
  cbn [orun]. set (s1 := fst (ostep S self_fit self_predict numbers best_score numeric C op (o, w))).
  assert (H : low a b w (snd s1) /\ (forall l, o_opt_kernel (fst s1) = Some l -> a <= l) /\
              o_regressor (fst s1) = o_regressor o /\ a <= length (w_objs (snd s1)) /\ b <= length (w_sets (snd s1))).
  { unfold s1. clear s1. destruct op as [X y wt|X|ps|]; cbn [ostep].
    - unfold ofmap, bind.
      destruct (fit_untouched S self_fit numbers best_score numeric C X y wt o w) as (H1 & H2 & _ & H3).
      destruct (untouched_lengths _ _ H1) as [G1 G2]. apply low_untouched in H1.
      apply (low_mono _ _ a b _ _ Ha Hb) in H1.
      assert (H4 : forall l, o_opt_kernel (fst (fst (optimal_fit S self_fit numbers best_score numeric C X y wt (o, w)))) = Some l -> a <= l).
      { intros l Hl. destruct H3 as [H3|(l' & H3 & H4)]; rewrite H3 in Hl; [apply Ho; exact Hl|].
        injection Hl as <-. apply nth_error_None in H4. lia. }
      destruct (optimal_fit S self_fit numbers best_score numeric C X y wt (o, w)) as [s [u|e]]; cbn [fst ret] in *;
        (split; [exact H1|]; split; [exact H4|]; split; [exact H2|]; split; lia).
    - unfold ofmap, bind. destruct (predict_low S self_predict X o w a b Ho) as [H1 H2].
      destruct (pf_C60_predict S self_predict X o w) as (_ & H3 & _).
      assert (H4 : length (w_objs (snd (fst (optimal_predict S self_predict X (o, w))))) = length (w_objs w)).
      { clear. rewrite opredict_eq. destruct (o_opt_kernel o) as [l|]; [|reflexivity].
        destruct (sk_check_array S X) as [z|e]; [|reflexivity]. destruct (o_train o) as [xy|]; [|reflexivity].
        assert (K : forall w' : world xr xr U, length (w_objs (fst (obj_full xN l w'))) = length (w_objs w')).
        { intros w'. rewrite obj_full_eq. destruct (nth_error (w_objs w') l) as [[t|p]|]; try reflexivity.
          cbn [fst set_objs w_objs]. apply list_upd_length. }
        unfold on_km. destruct (nth_error (w_objs w) l) as [[t|p]|]; try reflexivity.
        destruct (attach_to z (Some (fst xy)) t) as [t' [u|e]]; cbn [fst snd].
        - rewrite K. apply list_upd_length.
        - apply list_upd_length. }
      destruct (optimal_predict S self_predict X (o, w)) as [s [p|e]]; cbn [fst ret] in *; rewrite H1;
        (split; [exact H2|]; split; [exact Ho|]; split; [reflexivity|]; rewrite H4, H3; split; lia).
    - unfold ofmap, bind. rewrite set_params_eq. cbn [fst snd ret].
      destruct (oset_all_kept ps o) as (E1 & _ & _ & E2 & _). rewrite E1, E2.
      split; [apply low_refl|]. split; [exact Ho|]. split; [reflexivity|]. split; assumption.
    - unfold bind, oget, bind. cbn [get ret fst snd]. split; [apply low_refl|]. split; [exact Ho|].
      split; [reflexivity|]. split; assumption. }
  destruct s1 as [o1 w1]. cbn [fst snd] in H. destruct H as (H1 & H2 & H3 & H4 & H5).
  destruct (IH o1 w1 a b H2 H4 H5) as (G1 & G2 & G3).
  split; [eapply low_trans; eassumption|]. split; [exact G2|]. rewrite G3. exact H3.
Qed.

(** C60: no program using a new estimator, with any calls of fit, predict and set_params, touches
    anything that was on the heap before: neither the user's buckets nor their kernel matrices. *)
Lemma pf_C60_programs :
  forall {U XIn YIn W Y F P Q} (S : sklearn XIn YIn W Y F P) self_fit self_predict numbers best_score numeric C
         regressor unfitted (value : string -> oval Q) os (w : world xr xr U),
    untouched w (snd (orun S self_fit self_predict numbers best_score numeric C os
                        (optimal_new regressor unfitted value, w))).
Proof.
  intros U XIn YIn W Y F P Q S self_fit self_predict numbers best_score numeric C regressor unfitted value os w.
  apply low_untouched. apply opt_run; [discriminate|lia|lia].
Qed.

(** ** The search *)
Section Search.
  Context {U : Type}.
  Notation World := (world xr xr U).

  Lemma find_reads : forall {T} (numbers : T -> res (list xr)) best_score numeric (w : World) b num ms x n (t : T) m p,
    set_is w (b_set b) num ms -> numeric_sample numeric x n -> num = NSNone \/ num = NSOne n ->
    (forall l, In l ms -> is_km w l) -> valid_method m = true ->
    forall l, In l ms -> exists s c, nth_error (w_objs w) l = Some (OKM s) /\
      nth_error (w_objs (fst (find_optimal_kernel numbers best_score numeric (Some b) x t m p w))) l
      = Some (OKM (run xN (OpAttach x None :: repeat OpFull c) s)).
  Proof.
    intros T numbers best_score numeric w b num ms x n t m p Hk Hx Hnum Hkm Hm l Hl.
    destruct (attached_bucket numeric w (b_set b) num ms x n Hk Hx Hnum Hkm) as (w1 & s1 & E1 & Hs1 & Hms & Ho1).
    unfold find_optimal_kernel. rewrite Hm. cbn [negb]. unfold bind at 1. rewrite E1. unfold bind at 1.
    pose proof (only_read_rank numbers best_score (b_set b) t (lower m) p w1) as [R1 R2].
    destruct (Ho1 l Hl) as (s & Hs & Hs'). destruct (R2 l _ Hs') as [c Hc]. exists s, c. split; [exact Hs|].
    destruct (rank_kernels numbers best_score (b_set b) t (lower m) p w1) as [w2 [ss|e]]; cbn [fst] in *; [|exact Hc].
    unfold bind, lift. destruct (argmax ss) as [i|e]; [|exact Hc].
    unfold set_getitem, bind, get_set. destruct (nth_error (w_sets w2) (b_set b)); [|exact Hc].
    destruct (_ || _); [exact Hc|].
    destruct (nth_error (s_members k) (Z.to_nat (Z.of_nat i))); exact Hc.
  Qed.

  (** [full] of a KernelMatrix attached to [x] and read since. *)
  Lemma gram_again : forall (K : kernel xr xr) nrm pre x n d c G, is_sample x n d ->
    has_gram x n d (K, nrm) G ->
    snd (full xN (run xN (OpAttach x None :: repeat OpFull c) (before (U:=U) xN K nrm pre))) = Ok G.
  Proof.
    intros K nrm pre x n d c G Hx (v & Hv & Hf & HG). cbn [fst snd] in *.
    assert (Ha : admissible x None n n d) by (split; [exact Hx|reflexivity]).
    unfold before. rewrite <- run_app. apply (@res_map_OArr_inj xr U). rewrite <- outcome_fmap.
    change (fmap OArr (full xN)) with (@step xr xr U xN OpFull). cbn [res_map].
    change (outcome xN OpFull (after xN K nrm pre x None (repeat OpFull c)) = Ok (OArr G)). destruct nrm.
    - rewrite (pf_C03_one_sample K v pre (repeat OpFull c) x n d OpFull Hv Hf Ha (no_attach_fulls c)) by (left; reflexivity).
      unfold gram in HG. rewrite HG. reflexivity.
    - rewrite (pf_C04_full_partial xN K v pre (repeat OpFull c) x None n n d Hv Hf Ha (no_attach_fulls c)).
      + unfold gram in HG. injection HG as <-. reflexivity.
      + intros H. apply repeat_spec in H. discriminate.
      + intros ix H. apply repeat_spec in H. discriminate.
  Qed.

  Lemma gram_candidates : forall (w : World) x n d ms Ks Gs,
    Forall2 (fun l K => matrix_of w l (fst K) (snd K)) ms Ks -> Forall2 (has_gram x n d) Ks Gs ->
    exists cs, Forall2 (candidate w n d x) ms cs /\ Forall2 (fun c G => gram (snd c) (fst c) n d x = Ok G) cs Gs.
  Proof.
    intros w x n d ms Ks Gs HM. revert Gs. induction HM as [|l K ms Ks (pre & Hl) HM IH]; intros Gs HG;
      inversion HG as [|? G ? Gs' (v & Hv & Hf & Hg) HG']; subst.
    - exists []. split; constructor.
    - destruct (IH Gs' HG') as (cs & H1 & H2). exists ((v, snd K) :: cs). split; constructor; try assumption.
      exists (fst K), pre. split; [exact Hl|]. split; assumption.
  Qed.

  (** The bucket fit works with. *)
  Lemma offered : forall {Q} (C : cmpops xr) (v : option (oval Q)) (w : World) num Ks, offers v w num Ks ->
    exists w1 b ms, take_bucket C v w = (w1, Ok b) /\ untouched w w1 /\ set_is w1 (b_set b) num ms /\
      Forall2 (fun l K => matrix_of w1 l (fst K) (snd K)) ms Ks /\
      forall l, In l ms -> nth_error (w_objs w) l = None.
  Proof.
    intros Q C [[b|s|q]|] w num Ks H; cbn [offers] in H; try contradiction.
    - destruct H as (ms & (i & sm & Hs) & HF).
      destruct (deepcopy_fresh b w _ Hs) as (w' & b' & s' & E & L & (H1 & H2 & H3 & H4) & H5 & H6).
      exists w', b', (s_members s'). split; [exact E|]. split; [exact L|]. cbn [s_num s_members] in *. split.
      { subst num. apply eq_set_is. exact H2. }
      split; [|exact H4]. rewrite H5. clear - HF H6. induction HF as [|l K ms Ks (pre & Hl) HF IH]; constructor.
      + exists pre. rewrite H6. exact Hl.
      + exact IH.
    - destruct H as (-> & ks & Hks & ->). cbn [take_bucket]. unfold try_except.
      destruct (strategy_makes C s ks w Hks) as (b & ms & H1 & H2 & H3 & H4 & H5 & H6 & H7).
      destruct (make_kernel_bucket xN C (SName s) (Some true) (Some false) w) as [w' r]. cbn [fst snd] in *. subst r.
      exists w', b, ms. split; [reflexivity|]. split; [split; assumption|]. split; [exact H4|].
      destruct H5 as (H5 & _ & H8). split; [|exact H8]. clear - H5. revert ms H5.
      induction ks as [|k ks IH]; intros ms H5; inversion H5 as [|l ? ms' ? Hl H5']; subst; constructor.
      + exists []. exact Hl.
      + apply IH. exact H5'.
  Qed.
End Search.

(** ** C55 *)

(** C55, the method 'cv_risk': on valid data whose kernel matrices exist, for which cross-validation
    gives finite scores, fit trains the support vector machine on the matrix of the best kernel (the
    first one if all scores are nearly the same) and succeeds if the support vector machine does. The
    full statement is about both methods; 'align/corr' never works (C55_align). *)
Lemma pf_C55_partial :
  forall {U XIn YIn W Y F P Q} (S : sklearn XIn YIn W Y F P) self_fit numbers best_score numeric C
         X y wt (o : optimal Y F Q) (w : world xr xr U) x ys n d m num Ks Gs e rs mn mx,
    sk_check_X_y S true X y = Ok (x, ys) -> is_sample x n d -> numeric (nd_data x) = true ->
    dict_get (o_params o) "method" = Some (OVStr m) -> lower m = "cv_risk"%string ->
    offers (dict_get (o_params o) "k_bucket") w num Ks -> num = NSNone \/ num = NSOne n -> Ks <> [] ->
    Forall2 (has_gram x n d) Ks Gs ->
    get_estimator (if o_regressor o then "SVR" else "SVC")%string = Ok e ->
    Forall2 (fun G r => best_score e 3%Z G ys = Ok (Fin r)) Gs rs -> extremes rs mn mx ->
    let r := optimal_fit S self_fit numbers best_score numeric C X y wt (o, w) in
    exists i K G l, nth_error Ks i = Some K /\ nth_error Gs i = Some G /\
      ((mx - mn <= tiny)%R -> i = 0) /\
      ((tiny < mx - mn)%R -> nth i rs 0%R = mx /\ forall j, j < i -> (nth j rs 0 < mx)%R) /\
      snd r = snd (self_fit (opt_svm o) (o_model o) G ys wt) /\
      o_model (fst (fst r)) = fst (self_fit (opt_svm o) (o_model o) G ys wt) /\
      o_train (fst (fst r)) = Some (x, ys) /\
      o_opt_kernel (fst (fst r)) = Some l /\ matrix_of (snd (fst r)) l (fst K) (snd K).
Proof.
  intros U XIn YIn W Y F P Q S self_fit numbers best_score numeric C X y wt o w x ys n d m num Ks Gs e rs mn mx
    Hxy Hx Hn Hm Hcv Hoff Hnum Hne HG He HB Hext. cbv zeta. rewrite ofit_eq.
  destruct (offered C _ w num Ks Hoff) as (w1 & b & ms & E & L & Hset & HM & _). rewrite E, Hxy, Hm. cbn [fst snd].
  destruct (gram_candidates w1 x n d ms Ks Gs HM HG) as (cs & HC & Hg).
  assert (Hms : ms <> []). { intros ->. inversion HM. congruence. }
  assert (Hns : numeric_sample numeric x n) by (split; [exists d; exact Hx|exact Hn]).
  assert (Hv : valid_method m = true) by (unfold valid_method; rewrite Hcv; reflexivity).
  destruct (pf_C53_cv_partial numbers best_score numeric w1 b num ms x n d ys m cs Gs (search_params o) e rs mn mx
              Hset Hx Hn Hnum Hms HC Hg Hcv (conj eq_refl (conj eq_refl eq_refl)) He HB Hext)
    as (i & l & Hi & Hr & _ & B1 & B2).
  pose proof (find_reads numbers best_score numeric w1 b num ms x n ys m (search_params o) Hset Hns Hnum
                (candidates_km n d x w1 ms cs HC) Hv l (nth_error_In _ _ Hi)) as (s & c & Hs & Hs').
  destruct (Forall2_nth_error _ _ _ HM i l Hi) as (K & HK & pre & Hpre).
  destruct (Forall2_nth_error _ _ _ HG i K HK) as (G & HGi & Hgram).
  rewrite Hs in Hpre. injection Hpre as ->.
  destruct (find_optimal_kernel numbers best_score numeric (Some b) x ys m (search_params o) w1) as [w2 r].
  cbn [fst snd] in Hr, Hs'. subst r. rewrite obj_full_eq, Hs'. destruct K as [K nrm]. cbn [fst snd] in *.
  pose proof (gram_again (U:=U) K nrm pre x n d c G Hx Hgram) as HF.
  destruct (full xN (run xN (OpAttach x None :: repeat OpFull c) (before xN K nrm pre))) as [t r] eqn:Ef.
  cbn [fst snd] in *. subst r.
  exists i, (K, nrm), G, l. split; [exact HK|]. split; [exact HGi|]. split; [exact B1|]. split; [exact B2|].
  split; [reflexivity|]. split; [reflexivity|]. split; [reflexivity|]. split; [reflexivity|].
  cbn [fst snd set_objs w_objs]. exists (pre ++ (OpAttach x None :: repeat OpFull c) ++ [OpFull]).
  cbn [set_objs w_objs]. rewrite (nth_error_upd_same _ _ _ _ Hs'). do 2 f_equal. unfold before in *.
  rewrite run_app, run_app. cbn [run step]. cbn [run step] in Ef. unfold fmap at 1, bind. rewrite Ef. reflexivity.
Qed.

(** No search with method 'align/corr' succeeds if an estimator name is passed on, as fit does. *)
Lemma find_align : forall {U T} (numbers : T -> res (list xr)) best_score numeric (w : world xr xr U) b x (t : T) m p l,
  lower m = "align/corr"%string -> rp_estimator p <> None ->
  snd (find_optimal_kernel numbers best_score numeric (Some b) x t m p w) <> Ok l.
Proof.
  intros U T numbers best_score numeric w b x t m p l Hm Hp. unfold find_optimal_kernel.
  replace (valid_method m) with true by (unfold valid_method; rewrite Hm; reflexivity). cbn [negb].
  unfold bind at 1. destruct (set_attach numeric (b_set b) x None w) as [w1 [u|e]]; [|discriminate].
  unfold bind at 1. rewrite rank_lower, (rank_align _ _ _ _ _ _ _ Hm).
  assert (G : forall ss, snd (alignment_ranking numbers (b_set b) t p w1) = Ok ss -> ss = []).
  { unfold alignment_ranking, bind at 1, lift at 1. intros ss H. destruct (numbers t) as [ys|e]; [|discriminate].
    unfold bind at 1, set_iter, bind at 1, get_set in H. destruct (nth_error (w_sets w1) (b_set b)) as [s|]; [|discriminate].
    cbn [ret] in H. destruct (s_members s) as [|l' ls]; [injection H as <-; reflexivity|].
    cbn [map_each] in H. unfold bind at 1 in H. unfold bind at 1 in H.
    destruct (obj_full xN l' w1) as [w2 [K|e]]; [|discriminate].
    destruct (rp_estimator p); [|congruence]. rewrite orb_true_r in H. discriminate. }
  destruct (alignment_ranking numbers (b_set b) t p w1) as [w2 [ss|e]]; [|discriminate].
  rewrite (G ss eq_refl). discriminate.
Qed.

(** C55, the method 'align/corr': fit never succeeds, whatever the bucket, the data and the state. *)
Lemma pf_C55_align :
  forall {U XIn YIn W Y F P Q} (S : sklearn XIn YIn W Y F P) self_fit numbers best_score numeric C
         X y wt (o : optimal Y F Q) (w : world xr xr U) m,
    dict_get (o_params o) "method" = Some (OVStr m) -> lower m = "align/corr"%string ->
    snd (optimal_fit S self_fit numbers best_score numeric C X y wt (o, w)) <> Ok tt.
Proof.
  intros U XIn YIn W Y F P Q S self_fit numbers best_score numeric C X y wt o w m Hm Hl. rewrite ofit_eq.
  destruct (take_bucket C (dict_get (o_params o) "k_bucket") w) as [w1 [b|e]]; [|discriminate].
  destruct (sk_check_X_y S true X y) as [xy|e]; [|discriminate]. rewrite Hm.
  pose proof (fun l => find_align numbers best_score numeric w1 b (fst xy) (snd xy) m (search_params o) l Hl) as H.
  destruct (find_optimal_kernel numbers best_score numeric (Some b) (fst xy) (snd xy) m (search_params o) w1)
    as [w2 [l|e]]; [|discriminate]. destruct (H l); [discriminate|reflexivity].
Qed.

(** The search stops at the first kernel matrix if that cannot be computed. *)
Lemma first_raises : forall {U T} (numbers : T -> res (list xr)) best_score (w : world xr xr U) k s l ms (t : T) m p e,
  nth_error (w_sets w) k = Some s -> s_members s = l :: ms -> snd (obj_full xN l w) = Raise e ->
  valid_method m = true -> (lower m = "align/corr"%string -> exists ys, numbers t = Ok ys) ->
  (lower m = "cv_risk"%string -> cv_params p /\ exists v, get_estimator (default "SVM"%string (rp_estimator p)) = Ok v) ->
  snd (rank_kernels numbers best_score k t m p w) = Raise e.
Proof.
  intros U T numbers best_score w k s l ms t m p e Hs Hms He Hv Ha Hc. unfold rank_kernels. rewrite Hv. cbn [negb].
  unfold valid_method in Hv. destruct (String.eqb_spec (lower m) "align/corr") as [Hm|Hm].
  - destruct (Ha Hm) as [ys Hy]. unfold alignment_ranking, bind at 1, lift at 1. rewrite Hy.
    unfold bind at 1. rewrite (set_iter_eq _ _ _ Hs), Hms. cbn [map_each]. unfold bind at 1. unfold bind at 1.
    destruct (obj_full xN l w) as [w2 [K|e']]; cbn [snd] in *; congruence.
  - destruct (String.eqb_spec (lower m) "cv_risk") as [Hm'|]; [|discriminate].
    destruct (Hc Hm') as [(P1 & P2 & P3) [v Hv']]. unfold CV_ranking. rewrite P1, P2, P3. cbn [is_some orb].
    unfold bind at 1. rewrite (set_iter_eq _ _ _ Hs), Hms. cbn [map_each]. unfold bind at 1. unfold bind at 1.
    unfold bind at 1. unfold lift at 1. rewrite Hv'. unfold bind at 1.
    destruct (obj_full xN l w) as [w2 [K|e']]; cbn [snd] in *; congruence.
Qed.

(** ** Refitting *)
Lemma offers_kept : forall {U Q} (v : option (oval Q)) (w w' : world xr xr U) num Ks,
  untouched w w' -> offers v w num Ks -> offers v w' num Ks.
Proof.
  intros U Q [[b|s|q]|] w w' num Ks [H1 H2] H; cbn [offers] in *; try contradiction; [|exact H].
  destruct H as (ms & (i & sm & Hs) & HF). exists ms. split; [exists i, sm; apply H2; exact Hs|].
  clear Hs. induction HF as [|l K ms Ks (pre & Hl) HF IH]; constructor; [exists pre; apply H1; exact Hl|exact IH].
Qed.

Lemma new_param : forall {Y F Q} regressor (unfitted : F) (value : string -> oval Q) n,
  In n (param_names regressor) -> dict_get (o_params (optimal_new (Y:=Y) regressor unfitted value)) n = Some (value n).
Proof.
  intros Y F Q regressor unfitted value n H. unfold optimal_new. cbn [o_params].
  induction (param_names regressor) as [|a l IH]; [destruct H|]. cbn [map dict_get].
  destruct (String.eqb_spec n a) as [->|Hne]; [reflexivity|]. apply IH. destruct H as [->|H]; [contradiction|exact H].
Qed.

Lemma run_params : forall {U XIn YIn W Y F P Q} (S : sklearn XIn YIn W Y F P) self_fit self_predict numbers best_score
    numeric C (os : list (oop XIn YIn W Q)) (s : optimal Y F Q * world xr xr U), no_oset os ->
  let s' := orun S self_fit self_predict numbers best_score numeric C os s in
  o_params (fst s') = o_params (fst s) /\ o_regressor (fst s') = o_regressor (fst s).
Proof.
  intros U XIn YIn W Y F P Q S self_fit self_predict numbers best_score numeric C os.
  induction os as [|op os IH]; intros [o w] H; cbv zeta; [split; reflexivity|]. cbn [orun].
  set (s1 := fst (ostep S self_fit self_predict numbers best_score numeric C op (o, w))).
  destruct (IH s1) as [H1 H2]; [intros o' Ho'; apply H; right; exact Ho'|]. rewrite H1, H2. unfold s1.
  specialize (H op (or_introl eq_refl)). clear - H. destruct op as [X y wt|X|ps|]; cbn [ostep].
  - destruct (fit_untouched S self_fit numbers best_score numeric C X y wt o w) as (_ & H2 & H3 & _).
    unfold ofmap, bind. destruct (optimal_fit S self_fit numbers best_score numeric C X y wt (o, w)) as [s [u|e]];
      split; assumption.
  - destruct (pf_C60_predict S self_predict X o w) as (H1 & _).
    unfold ofmap, bind. destruct (optimal_predict S self_predict X (o, w)) as [s [u|e]]; cbn [fst ret] in *; rewrite H1;
      split; reflexivity.
  - contradiction.
  - split; reflexivity.
Qed.

(** C60: refitting. However often an estimator has been fitted and used before (on whatever data), as
    long as the user's bucket was not attached to a sample of another size when the estimator was made,
    fit works as at first: it trains on the matrix of a kernel of the bucket on the new sample. The
    full statement would allow buckets attached to other samples; then fit fails (C60_attached). *)
Lemma pf_C60_refit_partial :
  forall {U XIn YIn W Y F P Q} (S : sklearn XIn YIn W Y F P) self_fit self_predict numbers best_score numeric C
         (regressor : bool) unfitted (value : string -> oval Q) os (w : world xr xr U)
         X y wt x ys n d m num Ks Gs e rs mn mx,
    no_oset os ->
    sk_check_X_y S true X y = Ok (x, ys) -> is_sample x n d -> numeric (nd_data x) = true ->
    value "method"%string = OVStr m -> lower m = "cv_risk"%string ->
    offers (Some (value "k_bucket"%string)) w num Ks -> num = NSNone \/ num = NSOne n -> Ks <> [] ->
    Forall2 (has_gram x n d) Ks Gs ->
    get_estimator (if regressor then "SVR" else "SVC")%string = Ok e ->
    Forall2 (fun G r => best_score e 3%Z G ys = Ok (Fin r)) Gs rs -> extremes rs mn mx ->
    let s := orun S self_fit self_predict numbers best_score numeric C os (optimal_new regressor unfitted value, w) in
    exists G, In G Gs /\
      snd (optimal_fit S self_fit numbers best_score numeric C X y wt s)
      = snd (self_fit (opt_svm (fst s)) (o_model (fst s)) G ys wt).
Proof.
  intros U XIn YIn W Y F P Q S self_fit self_predict numbers best_score numeric C regressor unfitted value os w
    X y wt x ys n d m num Ks Gs e rs mn mx Hos Hxy Hx Hn Hm Hcv Hoff Hnum Hne HG He HB Hext. cbv zeta.
  pose proof (pf_C60_programs S self_fit self_predict numbers best_score numeric C regressor unfitted value os w) as HU.
  destruct (run_params S self_fit self_predict numbers best_score numeric C os (optimal_new regressor unfitted value, w) Hos)
    as [Hp Hr]. cbn [fst] in Hp, Hr.
  destruct (orun S self_fit self_predict numbers best_score numeric C os (optimal_new regressor unfitted value, w)) as [o' w'].
  cbn [fst snd] in *.
  assert (HP : forall q, In q (param_names regressor) -> dict_get (o_params o') q = Some (value q)).
  { intros q Hq. rewrite Hp. apply new_param. exact Hq. }
  assert (P1 := HP "method"%string (or_intror (or_introl eq_refl))). rewrite Hm in P1.
  assert (P2 := HP "k_bucket"%string (or_introl eq_refl)).
  destruct (pf_C55_partial S self_fit numbers best_score numeric C X y wt o' w' x ys n d m num Ks Gs e rs mn mx)
    as (i & K & G & l & _ & Hi & _ & _ & Hres & _); try assumption.
  - rewrite P2. eapply offers_kept; eassumption.
  - rewrite Hr. exact He.
  - exists G. split; [eapply nth_error_In; exact Hi|exact Hres].
Qed.

(** C60: a bucket attached to n samples cannot be used for a sample of another size: ValueError. *)
Lemma pf_C60_attached :
  forall {U XIn YIn W Y F P Q} (S : sklearn XIn YIn W Y F P) self_fit numbers best_score numeric C
         X y wt (o : optimal Y F Q) (w : world xr xr U) x ys n m num Ks,
    sk_check_X_y S true X y = Ok (x, ys) -> numeric_sample numeric x n ->
    dict_get (o_params o) "method" = Some (OVStr m) -> valid_method m = true ->
    offers (dict_get (o_params o) "k_bucket") w num Ks -> num <> NSNone -> num <> NSOne n ->
    snd (optimal_fit S self_fit numbers best_score numeric C X y wt (o, w)) = Raise ValueError.
Proof.
  intros U XIn YIn W Y F P Q S self_fit numbers best_score numeric C X y wt o w x ys n m num Ks Hxy Hx Hm Hv Hoff N1 N2.
  rewrite ofit_eq. destruct (offered C _ w num Ks Hoff) as (w1 & b & ms & E & _ & Hset & _). rewrite E, Hxy, Hm. cbn [fst snd].
  assert (H : snd (find_optimal_kernel numbers best_score numeric (Some b) x ys m (search_params o) w1) = Raise ValueError).
  { apply (pf_C53_bad_sample numbers best_score numeric w1 b num ms x ys m (search_params o) Hset Hv).
    intros n' Hn'. split; [exact N1|]. replace n' with n; [exact N2|].
    destruct Hx as [(d & ex & Hs & _) _], Hn' as [(d' & ex' & Hs' & _) _]. congruence. }
  destruct (find_optimal_kernel numbers best_score numeric (Some b) x ys m (search_params o) w1) as [w2 [l|e]]; cbn [snd] in H.
  - discriminate.
  - cbn [snd]. congruence.
Qed.

(** C55, the method 'align/corr': with a bucket whose first kernel matrix exists, and numeric targets,
    the error is a TypeError (the unexpected keyword argument estimator_name). *)
Lemma pf_C55_align_error :
  forall {U XIn YIn W Y F P Q} (S : sklearn XIn YIn W Y F P) self_fit numbers best_score numeric C
         X y wt (o : optimal Y F Q) (w : world xr xr U) x ys n d m num K Ks G v,
    sk_check_X_y S true X y = Ok (x, ys) -> is_sample x n d -> numeric (nd_data x) = true ->
    dict_get (o_params o) "method" = Some (OVStr m) -> lower m = "align/corr"%string -> numbers ys = Ok v ->
    offers (dict_get (o_params o) "k_bucket") w num (K :: Ks) -> num = NSNone \/ num = NSOne n ->
    has_gram x n d K G ->
    snd (optimal_fit S self_fit numbers best_score numeric C X y wt (o, w)) = Raise TypeError.
Proof.
  intros U XIn YIn W Y F P Q S self_fit numbers best_score numeric C X y wt o w x ys n d m num K Ks G v
    Hxy Hx Hn Hm Hl Hv Hoff Hnum HG.
  rewrite ofit_eq. destruct (offered C _ w num (K :: Ks) Hoff) as (w1 & b & ms & E & _ & Hset & HM & _).
  rewrite E, Hxy, Hm. cbn [fst snd].
  assert (Hns : numeric_sample numeric x n) by (split; [exists d; exact Hx|exact Hn]).
  assert (Hkm : forall l, In l ms -> is_km w1 l).
  { clear - HM. induction HM as [|l K' ms Ks' (pre & Hl) HM IH]; intros l' Hl'; [destruct Hl'|].
    destruct Hl' as [<-|Hl']; [eexists; exact Hl|apply IH; exact Hl']. }
  destruct (attached_bucket numeric w1 (b_set b) num ms x n Hset Hns Hnum Hkm) as (w2 & s2 & E2 & Hs2 & Hms & Ho).
  assert (H : snd (find_optimal_kernel numbers best_score numeric (Some b) x ys m (search_params o) w1) = Raise TypeError).
  { unfold find_optimal_kernel.
    replace (valid_method m) with true by (unfold valid_method; rewrite Hl; reflexivity). cbn [negb].
    unfold bind at 1. rewrite E2. unfold bind at 1. rewrite rank_lower, (rank_align _ _ _ _ _ _ _ Hl).
    inversion HM as [|l ? ms' ? (pre & Hpre) HM']; subst ms.
    destruct (Ho l) as (s & Hs & Hs'); [rewrite <- H; left; reflexivity|].
    unfold alignment_ranking, bind at 1, lift at 1. rewrite Hv. unfold bind at 1. rewrite (set_iter_eq _ _ _ Hs2), <- H.
    cbn [map_each]. unfold bind at 1. unfold bind at 1.
    rewrite Hs in Hpre. injection Hpre as ->.
    assert (Hf : snd (obj_full xN l w2) = Ok G).
    { rewrite obj_full_eq, Hs'. cbn [snd]. destruct K as [K nrm]. exact (gram_again K nrm pre x n d 0 G Hx HG). }
    destruct (obj_full xN l w2) as [w3 r]. cbn [snd] in Hf. subst r. reflexivity. }
  destruct (find_optimal_kernel numbers best_score numeric (Some b) x ys m (search_params o) w1) as [w3 [l|e]]; cbn [snd] in H.
  - discriminate.
  - cbn [snd]. congruence.
Qed.

(** ** C73 *)
(** C73: predict hands the support vector machine the matrix of values of the optimal kernel between
    the test points (rows) and the training points (columns); if its normalisation fails, that
    exception is raised. *)
Lemma pf_C73_predict :
  forall {U XIn YIn W Y F P Q} (S : sklearn XIn YIn W Y F P) self_predict
         X (o : optimal Y F Q) (w : world xr xr U) l K z x ys n' n d G,
    o_opt_kernel o = Some l -> matrix_of w l (fst K) (snd K) -> o_train o = Some (x, ys) ->
    sk_check_array S X = Ok z -> is_sample z n' d -> is_sample x n d -> has_cross z x n' n d K G ->
    snd (optimal_predict S self_predict X (o, w))
    = rbind G (fun G' => rbind (self_predict (opt_svm o) (o_model o) G') (fun p =>
        if o_regressor o then Ok p else sk_int S p)).
Proof.
  intros U XIn YIn W Y F P Q S self_predict X o w l [K nrm] z x ys n' n d G Hl (pre & Hm) Ht Hz Hz' Hx (v & Hv & Hf & HG).
  cbn [fst snd] in *. assert (Ha : admissible z (Some x) n' n d) by (split; assumption).
  rewrite opredict_eq, Hl, Hz, Ht. cbn [fst snd]. unfold on_km. rewrite Hm, (after_attach K nrm pre z (Some x) n' n d Ha).
  cbn [fst snd]. rewrite obj_full_eq. cbn [set_objs w_objs]. rewrite (nth_error_upd_same _ _ _ _ Hm). cbn [snd].
  rewrite (full_fresh_two K v nrm pre z x n' n d Hv Hf Ha), HG. reflexivity.
Qed.

(** C73: both together. After a fit as in C55_partial whose support vector machine was trained, predict
    gives the predictions of that machine for the matrix of the same kernel between the test points and
    the training points. *)
Lemma pf_C73_fit_predict :
  forall {U XIn YIn W Y F P Q} (S : sklearn XIn YIn W Y F P) self_fit self_predict numbers best_score numeric C
         X y wt (o : optimal Y F Q) (w : world xr xr U) x ys n d m num Ks Gs e rs mn mx,
    sk_check_X_y S true X y = Ok (x, ys) -> is_sample x n d -> numeric (nd_data x) = true ->
    dict_get (o_params o) "method" = Some (OVStr m) -> lower m = "cv_risk"%string ->
    offers (dict_get (o_params o) "k_bucket") w num Ks -> num = NSNone \/ num = NSOne n -> Ks <> [] ->
    Forall2 (has_gram x n d) Ks Gs ->
    get_estimator (if o_regressor o then "SVR" else "SVC")%string = Ok e ->
    Forall2 (fun G r => best_score e 3%Z G ys = Ok (Fin r)) Gs rs -> extremes rs mn mx ->
    exists i K G, nth_error Ks i = Some K /\ nth_error Gs i = Some G /\
      let fr := self_fit (opt_svm o) (o_model o) G ys wt in
      let s := fst (optimal_fit S self_fit numbers best_score numeric C X y wt (o, w)) in
      snd (optimal_fit S self_fit numbers best_score numeric C X y wt (o, w)) = snd fr /\
      forall X' z n' G', sk_check_array S X' = Ok z -> is_sample z n' d -> has_cross z x n' n d K G' ->
        snd (optimal_predict S self_predict X' s)
        = rbind G' (fun A => rbind (self_predict (opt_svm o) (fst fr) A) (fun p =>
            if o_regressor o then Ok p else sk_int S p)).
Proof.
  intros U XIn YIn W Y F P Q S self_fit self_predict numbers best_score numeric C X y wt o w x ys n d m num Ks Gs e rs mn mx
    Hxy Hx Hn Hm Hcv Hoff Hnum Hne HG He HB Hext.
  destruct (pf_C55_partial S self_fit numbers best_score numeric C X y wt o w x ys n d m num Ks Gs e rs mn mx
              Hxy Hx Hn Hm Hcv Hoff Hnum Hne HG He HB Hext)
    as (i & K & G & l & H1 & H2 & _ & _ & H3 & H4 & H5 & H6 & H7).
  exists i, K, G. split; [exact H1|]. split; [exact H2|]. cbv zeta. split; [exact H3|].
  intros X' z n' G' Hz Hz' Hc.
  destruct (fit_untouched S self_fit numbers best_score numeric C X y wt o w) as (_ & R1 & R2 & _).
  destruct (fst (optimal_fit S self_fit numbers best_score numeric C X y wt (o, w))) as [o' w']. cbn [fst snd] in *.
  rewrite (pf_C73_predict S self_predict X' o' w' l K z x ys n' n d G' H6 H7 H5 Hz Hz' Hx Hc).
  unfold opt_svm. rewrite R1, R2, H4. reflexivity.
Qed.

(** ** C57 *)
Lemma run_opt_none : forall {U XIn YIn W Y F P Q} (S : sklearn XIn YIn W Y F P) self_fit self_predict numbers best_score
    numeric C (os : list (oop XIn YIn W Q)) (s : optimal Y F Q * world xr xr U), no_ofit os ->
  o_opt_kernel (fst s) = None ->
  o_opt_kernel (fst (orun S self_fit self_predict numbers best_score numeric C os s)) = None.
Proof.
  intros U XIn YIn W Y F P Q S self_fit self_predict numbers best_score numeric C os.
  induction os as [|op os IH]; intros [o w] H H0; [exact H0|]. cbn [orun].
  apply IH; [intros o' Ho'; apply H; right; exact Ho'|].
  specialize (H op (or_introl eq_refl)). clear - H H0. cbn [fst] in H0. destruct op as [X y wt|X|ps|]; cbn [ostep].
  - contradiction.
  - destruct (pf_C60_predict S self_predict X o w) as (H1 & _).
    unfold ofmap, bind. destruct (optimal_predict S self_predict X (o, w)) as [s [u|e]]; cbn [fst ret] in *; rewrite H1; exact H0.
  - unfold ofmap, bind. rewrite set_params_eq. cbn [fst ret]. destruct (oset_all_kept ps o) as (_ & _ & _ & E & _).
    rewrite E. exact H0.
  - exact H0.
Qed.

(** C57: predict before any call of fit raises NotFittedError. *)
Lemma pf_C57_optimal_before_fit :
  forall {U XIn YIn W Y F P Q} (S : sklearn XIn YIn W Y F P) self_fit self_predict numbers best_score numeric C
         regressor unfitted (value : string -> oval Q) os (w : world xr xr U) X,
    no_ofit os ->
    oreturned S self_fit self_predict numbers best_score numeric C (OPredict X)
      (orun S self_fit self_predict numbers best_score numeric C os (optimal_new regressor unfitted value, w))
    = Raise NotFittedErr.
Proof.
  intros U XIn YIn W Y F P Q S self_fit self_predict numbers best_score numeric C regressor unfitted value os w X H.
  pose proof (run_opt_none S self_fit self_predict numbers best_score numeric C os
                (optimal_new regressor unfitted value, w) H eq_refl) as H0.
  unfold oreturned. cbn [ostep]. unfold ofmap, bind.
  destruct (orun S self_fit self_predict numbers best_score numeric C os (optimal_new regressor unfitted value, w)) as [o' w'].
  cbn [fst] in H0. rewrite opredict_eq, H0. reflexivity.
Qed.

Lemma attached_ident : forall {U} (s t : km xr xr U) x y n m d,
  k_kernel s = k_kernel t -> k_keep_normed s = k_keep_normed t -> g_tag s = g_tag t ->
  attached t x y n m d = set_centered (k_centered t) (attached (log_calls (g_calls t) s) x y n m d).
Proof.
  intros U s t x y n m d H1 H2 H3. destruct s, t. cbn in H1, H2, H3. subst. reflexivity.
Qed.

(** Attaching makes KernelMatrix objects alike that have the same kernel and flag. *)
Lemma attach_alike : forall {U} (s t : km xr xr U) x y, ident s = ident t -> steady (k_kernel s) ->
  snd (attach_to x y s) = snd (attach_to x y t) /\
  ident (fst (attach_to x y s)) = ident s /\ ident (fst (attach_to x y t)) = ident t /\
  (snd (attach_to x y s) = Ok tt ->
   snd (full xN (fst (attach_to x y s))) = snd (full xN (fst (attach_to x y t)))).
Proof.
  intros U s t x y Hi Hs.
  assert (I : forall u : km xr xr U, ident (fst (attach_to x y u)) = ident u).
  { intros u. pose proof (ident_step (U:=U) xN (OpAttach x y) u) as H. cbn [step] in H. unfold fmap, bind in H.
    destruct (attach_to x y u) as [u' [r|e]]; exact H. }
  assert (R : snd (attach_to x y s) = snd (attach_to x y t)).
  { clear. unfold attach_to, bind, lift, modify, raise. destruct (ensure_2D_own x); [|reflexivity].
    destruct y as [y|]; [|reflexivity]. destruct (ensure_2D_own y); [|reflexivity]. destruct (negb _); reflexivity. }
  split; [exact R|]. split; [apply I|]. split; [apply I|]. intros H.
  destruct (attach_to x y s) as [s' r] eqn:Es, (attach_to x y t) as [t' r'] eqn:Et. cbn [fst snd] in *. subst r r'.
  destruct (attach_to_inv _ _ _ _ Es) as (n & m & d & Ha & ->).
  rewrite (attach_to_ok t x y n m d Ha) in Et. injection Et as <-.
  apply (@res_map_OArr_inj xr U). rewrite <- !outcome_fmap. change (fmap OArr (full xN)) with (@step xr xr U xN OpFull).
  unfold ident in Hi. injection Hi as H1 H2 H3.
  transitivity (snd (step xN OpFull (attached (log_calls (g_calls t) s) x y n m d))).
  - apply rel_step. split; [exact Hs|]. exists (g_calls t). reflexivity.
  - apply sim_step. exists (k_centered t). split; [|discriminate].
    apply attached_ident; assumption.
Qed.

Definition obj_alike {U} (a b : option (kobj xr xr U)) : Prop :=
  match a, b with
  | Some (OKM s), Some (OKM t) => ident s = ident t /\ steady (k_kernel s)
  | Some (OPre A), Some (OPre B) => A = B
  | None, None => True
  | _, _ => False
  end.

Lemma predict_alike : forall {U XIn YIn W Y F P Q} (S : sklearn XIn YIn W Y F P) self_predict X (o : optimal Y F Q)
    (w w' : world xr xr U),
  (forall l, o_opt_kernel o = Some l -> obj_alike (nth_error (w_objs w) l) (nth_error (w_objs w') l)) ->
  snd (optimal_predict S self_predict X (o, w)) = snd (optimal_predict S self_predict X (o, w')) /\
  forall l, o_opt_kernel o = Some l ->
    obj_alike (nth_error (w_objs w) l) (nth_error (w_objs (snd (fst (optimal_predict S self_predict X (o, w'))))) l).
Proof.
  intros U XIn YIn W Y F P Q S self_predict X o w w' H. rewrite !opredict_eq.
  destruct (o_opt_kernel o) as [l|]; [|split; [reflexivity|discriminate]]. specialize (H l eq_refl).
  assert (G : forall l', Some l = Some l' -> obj_alike (nth_error (w_objs w) l') (nth_error (w_objs w') l')).
  { intros l' E. injection E as <-. exact H. }
  destruct (sk_check_array S X) as [z|e]; [|split; [reflexivity|exact G]].
  destruct (o_train o) as [xy|]; [|split; [reflexivity|exact G]]. unfold on_km.
  destruct (nth_error (w_objs w) l) as [[s|A]|] eqn:Es, (nth_error (w_objs w') l) as [[t|B]|] eqn:Et;
    cbn [obj_alike] in H; try contradiction.
  - destruct H as [Hi Hs]. destruct (attach_alike s t z (Some (fst xy)) Hi Hs) as (H1 & H2 & H3 & H4).
    destruct (attach_to z (Some (fst xy)) s) as [s' r], (attach_to z (Some (fst xy)) t) as [t' r']. cbn [fst snd] in *.
    subst r'. destruct r as [[]|e].
    + cbn [fst snd]. rewrite !obj_full_eq. cbn [set_objs w_objs].
      rewrite (nth_error_upd_same _ _ _ _ Es), (nth_error_upd_same _ _ _ _ Et). cbn [fst snd].
      rewrite (H4 eq_refl). split; [reflexivity|]. intros l' E. injection E as <-. rewrite Es. cbn [set_objs w_objs].
      rewrite (nth_error_upd_same _ _ _ _ (nth_error_upd_same _ _ _ _ Et)). cbn [obj_alike]. split; [|exact Hs].
      pose proof (ident_step (U:=U) xN OpFull t') as H5. cbn [step] in H5. unfold fmap, bind in H5.
      destruct (full xN t') as [t2 [a|e]]; cbn [fst ret] in *; rewrite H5, H3; exact Hi.
    + cbn [fst snd]. split; [reflexivity|]. intros l' E. injection E as <-. rewrite Es. cbn [set_objs w_objs].
      rewrite (nth_error_upd_same _ _ _ _ Et). cbn [obj_alike]. split; [congruence|exact Hs].
  - split; [reflexivity|exact G].
  - split; [reflexivity|exact G].
Qed.

(** C57: after any program, further predictions and reads do not change what predict returns, be it
    predictions or an exception, if the outcome of the optimal kernel does not depend on earlier
    calls. *)
Lemma pf_C57_optimal_repeatable :
  forall {U XIn YIn W Y F P Q} (S : sklearn XIn YIn W Y F P) self_fit self_predict numbers best_score numeric C
         (o : optimal Y F Q) (w : world xr xr U) os X,
    only_oreads os ->
    (forall l s, o_opt_kernel o = Some l -> nth_error (w_objs w) l = Some (OKM s) -> steady (k_kernel s)) ->
    oreturned S self_fit self_predict numbers best_score numeric C (OPredict X)
      (orun S self_fit self_predict numbers best_score numeric C os (o, w))
    = oreturned S self_fit self_predict numbers best_score numeric C (OPredict X) (o, w).
Proof.
  intros U XIn YIn W Y F P Q S self_fit self_predict numbers best_score numeric C o w os X Hos HK.
  assert (H : forall os w1, only_oreads os ->
            (forall l, o_opt_kernel o = Some l -> obj_alike (nth_error (w_objs w) l) (nth_error (w_objs w1) l)) ->
            exists w2, orun S self_fit self_predict numbers best_score numeric C os (o, w1) = (o, w2) /\
            forall l, o_opt_kernel o = Some l -> obj_alike (nth_error (w_objs w) l) (nth_error (w_objs w2) l)).
  { clear os Hos. intros os. induction os as [|op os IH]; intros w1 Hos H1; [exists w1; split; [reflexivity|exact H1]|].
    cbn [orun]. pose proof (Hos op (or_introl eq_refl)) as Hop.
    destruct op as [X' y wt|X'|ps|]; cbn [ostep]; try contradiction.
    - destruct (predict_alike S self_predict X' o w w1 H1) as [_ H2].
      destruct (pf_C60_predict S self_predict X' o w1) as (H3 & _).
      unfold ofmap, bind. destruct (optimal_predict S self_predict X' (o, w1)) as [[o2 w2] [p|e]]; cbn [fst snd ret] in *; subst o2;
        (apply IH; [intros o' Ho'; apply Hos; right; exact Ho'|exact H2]).
    - apply IH; [intros o' Ho'; apply Hos; right; exact Ho'|exact H1]. }
  destruct (H os w Hos) as (w2 & -> & H2).
  { intros l Hl. destruct (nth_error (w_objs w) l) as [[s|A]|] eqn:E; cbn [obj_alike]; try reflexivity.
    split; [reflexivity|]. exact (HK l s Hl E). }
  unfold oreturned. cbn [ostep]. unfold ofmap, bind. destruct (predict_alike S self_predict X o w w2 H2) as [H3 _].
  destruct (optimal_predict S self_predict X (o, w)) as [s1 r1], (optimal_predict S self_predict X (o, w2)) as [s2 r2].
  cbn [snd] in H3. subst r2. destruct r1; reflexivity.
Qed.

(** ** C58 *)
(** C58: set_params followed by get_params gives the new values of the known names and the old values
    of the others; set_params never raises, and does not touch the heap. *)
Lemma pf_C58_optimal_round_trip :
  forall {U XIn YIn W Y F P Q} (S : sklearn XIn YIn W Y F P) self_fit self_predict numbers best_score numeric C
         (o : optimal Y F Q) (w : world xr xr U) ps qs,
    NoDup (map fst ps) ->
    oreturned S self_fit self_predict numbers best_score numeric C OGet (o, w) = Ok (OOParams qs) ->
    oreturned S self_fit self_predict numbers best_score numeric C (OSet ps) (o, w) = Ok OODone /\
    oreturned S self_fit self_predict numbers best_score numeric C OGet
      (orun S self_fit self_predict numbers best_score numeric C [OSet ps] (o, w))
    = Ok (OOParams (map (fun q => (fst q, match dict_get ps (fst q) with Some v => Some v | None => snd q end)) qs)) /\
    snd (orun S self_fit self_predict numbers best_score numeric C [OSet ps] (o, w)) = w.
Proof.
  intros U XIn YIn W Y F P Q S self_fit self_predict numbers best_score numeric C o w ps qs Hd H.
  unfold oreturned in *. cbn [orun ostep] in *. unfold ofmap, bind, oget, bind in *. cbn [get ret fst snd] in *.
  rewrite set_params_eq. cbn [fst snd ret]. split; [reflexivity|]. split; [|reflexivity].
  injection H as <-. f_equal. f_equal. unfold optimal_get_params. destruct (oset_all_kept ps o) as (-> & _).
  rewrite map_map. apply map_ext_in. intros n Hn. cbn [fst snd]. rewrite (oset_all_get ps o n Hd).
  assert (Kn : known o n = true).
  { unfold known. apply existsb_exists. exists n. split; [exact Hn|apply String.eqb_refl]. }
  rewrite Kn. reflexivity.
Qed.

Lemma params_run : forall {U XIn YIn W Y F P Q} (S : sklearn XIn YIn W Y F P) self_fit self_predict numbers best_score
    numeric C (os : list (oop XIn YIn W Q)) (s : optimal Y F Q * world xr xr U),
  let s' := orun S self_fit self_predict numbers best_score numeric C os s in
  (forall n, In n (param_names (o_regressor (fst s))) -> dict_get (o_params (fst s)) n <> None) ->
  o_regressor (fst s') = o_regressor (fst s) /\
  forall n, In n (param_names (o_regressor (fst s))) -> dict_get (o_params (fst s')) n <> None.
Proof.
  intros U XIn YIn W Y F P Q S self_fit self_predict numbers best_score numeric C os.
  induction os as [|op os IH]; intros [o w]; cbv zeta; intros H; [split; [reflexivity|exact H]|]. cbn [orun].
  set (s1 := fst (ostep S self_fit self_predict numbers best_score numeric C op (o, w))).
  assert (G : o_regressor (fst s1) = o_regressor o /\
              forall n, In n (param_names (o_regressor o)) -> dict_get (o_params (fst s1)) n <> None).
  { unfold s1. cbn [fst] in H. clear - H. destruct op as [X y wt|X|ps|]; cbn [ostep].
    - destruct (fit_untouched S self_fit numbers best_score numeric C X y wt o w) as (_ & H2 & H3 & _).
      unfold ofmap, bind. destruct (optimal_fit S self_fit numbers best_score numeric C X y wt (o, w)) as [s [u|e]];
        cbn [fst ret] in *; rewrite H2, H3; (split; [reflexivity|exact H]).
    - destruct (pf_C60_predict S self_predict X o w) as (H1 & _).
      unfold ofmap, bind. destruct (optimal_predict S self_predict X (o, w)) as [s [u|e]]; cbn [fst ret] in *; rewrite H1;
        (split; [reflexivity|exact H]).
    - unfold ofmap, bind. rewrite set_params_eq. cbn [fst ret]. destruct (oset_all_kept ps o) as (E & _). split; [exact E|].
      revert o H E. induction ps as [|[a v] ps IH]; intros o H E n Hn; [apply H; exact Hn|].
      cbn [oset_all fold_left fst snd]. fold (oset_all ps (if known o a then oset_param a v o else o)).
      assert (R : o_regressor (if known o a then oset_param a v o else o) = o_regressor o) by (destruct (known o a); reflexivity).
      apply IH; rewrite ?R.
      + intros q Hq. destruct (known o a); [|apply H; exact Hq]. cbn [oset_param o_params]. rewrite dict_get_set.
        destruct (String.eqb q a); [discriminate|apply H; exact Hq].
      + destruct (oset_all_kept ps (if known o a then oset_param a v o else o)) as (E' & _). rewrite E', R. reflexivity.
      + exact Hn.
    - split; [reflexivity|exact H]. }
  destruct G as [G1 G2]. destruct (IH s1) as [H1 H2]; [rewrite G1; exact G2|].
  split; [rewrite H1; exact G1|]. rewrite G1 in H2. exact H2.
Qed.

(** C58: after any program, get_params has the parameters of the class (each with a value); giving
    them back changes no parameter, and unknown names change nothing at all. *)
Lemma pf_C58_optimal_get :
  forall {U XIn YIn W Y F P Q} (S : sklearn XIn YIn W Y F P) self_fit self_predict numbers best_score numeric C
         regressor unfitted (value : string -> oval Q) os (w : world xr xr U),
    let run os' s := orun S self_fit self_predict numbers best_score numeric C os' s in
    let s := run os (optimal_new regressor unfitted value, w) in
    exists ps, oreturned S self_fit self_predict numbers best_score numeric C OGet s
               = Ok (OOParams (map (fun p => (fst p, Some (snd p))) ps)) /\
      map fst ps = (if regressor then ["k_bucket"; "method"; "C"; "epsilon"; "shrinking"; "tol"]
                    else ["k_bucket"; "method"; "C"; "shrinking"; "tol"])%string /\
      oreturned S self_fit self_predict numbers best_score numeric C OGet (run [OSet ps] s)
      = oreturned S self_fit self_predict numbers best_score numeric C OGet s /\
      forall qs, (forall q, In q (map fst qs) -> ~ In q (map fst ps)) -> run [OSet qs] s = s.
Proof.
  intros U XIn YIn W Y F P Q S self_fit self_predict numbers best_score numeric C regressor unfitted value os w. cbv zeta.
  destruct (params_run S self_fit self_predict numbers best_score numeric C os (optimal_new regressor unfitted value, w)) as [H1 H2].
  { cbn [fst optimal_new o_regressor]. intros n Hn. rewrite (new_param regressor unfitted value n Hn). discriminate. }
  destruct (orun S self_fit self_predict numbers best_score numeric C os (optimal_new regressor unfitted value, w)) as [o' w'].
  cbn [fst optimal_new o_regressor] in *.
  set (ps := map (fun n => (n, match dict_get (o_params o') n with Some v => v | None => value n end)) (param_names regressor)).
  assert (Hn : map fst ps = param_names regressor) by (unfold ps; rewrite map_map; cbn [fst]; apply map_id).
  assert (HN : NoDup (map fst ps)).
  { rewrite Hn. destruct regressor; cbn [param_names setting_names];
      repeat (constructor; [cbn [In]; intros H; repeat destruct H as [H|H]; try discriminate; exact H|]); constructor. }
  assert (HG : optimal_get_params o' = map (fun p => (fst p, Some (snd p))) ps).
  { unfold optimal_get_params, ps. rewrite map_map, H1. apply map_ext_in. intros n Hin. cbn [fst snd].
    specialize (H2 n Hin). destruct (dict_get (o_params o') n); [reflexivity|congruence]. }
  assert (HD : forall n, In n (param_names regressor) -> dict_get ps n = dict_get (o_params o') n).
  { intros n Hin. specialize (H2 n Hin). unfold ps. clear - Hin H2. induction (param_names regressor) as [|a l IH]; [destruct Hin|].
    cbn [map dict_get]. destruct (String.eqb_spec n a) as [->|Hne].
    - destruct (dict_get (o_params o') a); [reflexivity|congruence].
    - apply IH. destruct Hin as [->|Hin]; [contradiction|exact Hin]. }
  exists ps. split.
  { unfold oreturned. cbn [ostep]. unfold bind, oget, bind. cbn [get ret fst snd]. rewrite HG. reflexivity. }
  split; [rewrite Hn; destruct regressor; reflexivity|]. split.
  - unfold oreturned. cbn [orun ostep]. unfold ofmap, bind, oget, bind. cbn [get ret fst snd]. rewrite set_params_eq. cbn [fst snd ret].
    do 2 f_equal. unfold optimal_get_params. destruct (oset_all_kept ps o') as (-> & _). rewrite H1. apply map_ext_in.
    intros n Hin. rewrite (oset_all_get ps o' n HN), (HD n Hin). destruct (known o' n); [|reflexivity].
    destruct (dict_get (o_params o') n); reflexivity.
  - intros qs Hq. cbn [orun ostep]. unfold ofmap, bind. rewrite set_params_eq. cbn [fst ret]. f_equal.
    rewrite Hn in Hq. clear - Hq H1. induction qs as [|[a v] qs IH]; [reflexivity|]. cbn [oset_all fold_left fst snd].
    assert (K : known o' a = false).
    { unfold known. rewrite H1. destruct (existsb (String.eqb a) (param_names regressor)) eqn:E; [|reflexivity]. exfalso.
      apply existsb_exists in E. destruct E as (b & Hb & E). apply String.eqb_eq in E. subst b. apply (Hq a); [left; reflexivity|exact Hb]. }
    rewrite K. apply IH. intros q Hin. apply Hq. right. exact Hin.
Qed.

(** C58: the support vector machine trained and used by the estimator has the class and the settings
    that get_params shows and set_params sets: each of C, shrinking, tol (and epsilon for SVR), and
    no others. *)
Lemma pf_C58_optimal_settings :
  forall {U Y F Q} (o : optimal Y F Q) (w : world xr xr U),
    let names := (if o_regressor o then ["C"; "epsilon"; "shrinking"; "tol"] else ["C"; "shrinking"; "tol"])%string in
    self_regression (opt_svm o) = o_regressor o /\
    map fst (self_settings (opt_svm o)) = names /\
    (forall n, In n names -> dict_get (self_settings (opt_svm o)) n = dict_get (optimal_get_params o) n) /\
    forall n v, In n names ->
      let o' := fst (fst (optimal_set_params [(n, v)] (o, w))) in
      dict_get (self_settings (opt_svm o')) n = Some (Some v) /\
      forall q, q <> n -> dict_get (self_settings (opt_svm o')) q = dict_get (self_settings (opt_svm o)) q.
Proof.
  intros U Y F Q o w. cbv zeta. unfold opt_svm. cbn [self_regression self_settings].
  split; [reflexivity|]. split.
  { rewrite map_map. cbn [fst]. rewrite map_id. destruct (o_regressor o); reflexivity. }
  split.
  { intros n Hn. unfold optimal_get_params, param_names, setting_names.
    destruct (o_regressor o); cbn [In] in Hn; repeat destruct Hn as [Hn|Hn]; try contradiction; subst n; reflexivity. }
  intros n v Hn. rewrite set_params_eq. cbn [fst oset_all fold_left snd].
  assert (K : known o n = true).
  { unfold known, param_names, setting_names.
    destruct (o_regressor o); cbn [In] in Hn; repeat destruct Hn as [Hn|Hn]; try contradiction; subst n; reflexivity. }
  rewrite K. cbn [oset_param o_regressor o_params].
  assert (D : forall l q, dict_get (map (fun a => (a, dict_get (dict_set (o_params o) n v) a)) l) q =
     if existsb (String.eqb q) l then Some (dict_get (dict_set (o_params o) n v) q) else None).
  { induction l as [|a l IH]; intros q; [reflexivity|]. cbn [map dict_get existsb].
    destruct (String.eqb_spec q a) as [->|]; [reflexivity|apply IH]. }
  assert (D0 : forall l q, dict_get (map (fun a => (a, dict_get (o_params o) a)) l) q =
     if existsb (String.eqb q) l then Some (dict_get (o_params o) q) else None).
  { induction l as [|a l IH]; intros q; [reflexivity|]. cbn [map dict_get existsb].
    destruct (String.eqb_spec q a) as [->|]; [reflexivity|apply IH]. }
  split.
  - rewrite D, dict_get_set, String.eqb_refl.
    replace (existsb (String.eqb n) (setting_names (o_regressor o))) with true; [reflexivity|].
    unfold setting_names.
    destruct (o_regressor o); cbn [In] in Hn; repeat destruct Hn as [Hn|Hn]; try contradiction; subst n; reflexivity.
  - intros q Hq. rewrite D, D0, dict_get_set.
    destruct (String.eqb_spec q n); [contradiction|reflexivity].
Qed.

(** ** C59 *)
(** C59 for these estimators: setting k_bucket or method without fitting again does not change what
    predict does. *)
Lemma pf_C59_optimal :
  forall {U XIn YIn W Y F P Q} (S : sklearn XIn YIn W Y F P) self_fit self_predict numbers best_score numeric C
         (o : optimal Y F Q) (w : world xr xr U) ps X,
    (forall n, In n (map fst ps) -> n = "k_bucket"%string \/ n = "method"%string) ->
    oreturned S self_fit self_predict numbers best_score numeric C (OPredict X)
      (orun S self_fit self_predict numbers best_score numeric C [OSet ps] (o, w))
    = oreturned S self_fit self_predict numbers best_score numeric C (OPredict X) (o, w).
Proof.
  intros U XIn YIn W Y F P Q S self_fit self_predict numbers best_score numeric C o w ps X H.
  cbn [orun ostep]. unfold ofmap at 1, bind. rewrite set_params_eq. cbn [fst ret].
  unfold oreturned. cbn [ostep]. unfold ofmap, bind.
  assert (E : snd (optimal_predict S self_predict X (oset_all ps o, w)) = snd (optimal_predict S self_predict X (o, w))).
  { destruct (oset_all_kept ps o) as (E1 & E2 & E3 & E4 & E5). rewrite !opredict_eq. rewrite E3, E4, E5.
    assert (E6 : opt_svm (oset_all ps o) = opt_svm o).
    { unfold opt_svm. rewrite E1. f_equal. apply map_ext_in. intros n Hn. f_equal.
      assert (N1 : n <> "k_bucket"%string /\ n <> "method"%string).
      { split; intros ->; clear - Hn; destruct (o_regressor o); cbn [setting_names In] in Hn;
          repeat destruct Hn as [Hn|Hn]; try discriminate; exact Hn. }
      clear - H N1. revert o. induction ps as [|[a v] ps IH]; intros o; [reflexivity|]. cbn [oset_all fold_left fst snd].
      fold (oset_all ps (if known o a then oset_param a v o else o)). rewrite IH by (intros q Hq; apply H; right; exact Hq).
      destruct (known o a); [|reflexivity]. cbn [oset_param o_params]. rewrite dict_get_set.
      destruct (String.eqb_spec n a) as [->|]; [|reflexivity]. exfalso.
      destruct (H a (or_introl eq_refl)) as [-> | ->]; destruct N1; congruence. }
    rewrite E6, E1. destruct (o_opt_kernel o) as [l|]; [|reflexivity]. destruct (sk_check_array S X) as [z|e]; [|reflexivity].
    destruct (o_train o) as [xy|]; [|reflexivity]. destruct (on_km l (attach_to z (Some (fst xy))) w) as [w1 [u|e]]; reflexivity. }
  destruct (optimal_predict S self_predict X (oset_all ps o, w)) as [s1 r1], (optimal_predict S self_predict X (o, w)) as [s2 r2].
  cbn [snd] in E. subst r1. destruct r2; reflexivity.
Qed.

(** ** C70 *)
(** C70: the support vector machine is always used with its default kernel 'rbf'. Two programs whose
    support vector machines agree for that kernel give the same results, so nothing the estimator does
    can depend on what a support vector machine does with kernel='precomputed'. *)
Lemma pf_C70_default_kernel :
  forall {U XIn YIn W Y F P Q} (S : sklearn XIn YIn W Y F P) self_fit self_predict self_fit' self_predict'
         numbers best_score numeric C
         (op : oop XIn YIn W Q) (s : optimal Y F Q * world xr xr U),
    (forall v, self_kernel v = "rbf"%string -> forall f G ys wt, self_fit v f G ys wt = self_fit' v f G ys wt) ->
    (forall v, self_kernel v = "rbf"%string -> forall f G, self_predict v f G = self_predict' v f G) ->
    ostep S self_fit self_predict numbers best_score numeric C op s
    = ostep S self_fit' self_predict' numbers best_score numeric C op s.
Proof.
  intros U XIn YIn W Y F P Q S self_fit self_predict self_fit' self_predict' numbers best_score numeric C op [o w] H1 H2.
  destruct op as [X y wt|X|ps|]; cbn [ostep]; try reflexivity; unfold ofmap, bind.
  - rewrite !ofit_eq.
    destruct (take_bucket C (dict_get (o_params o) "k_bucket") w) as [w1 [b|e]]; [|reflexivity].
    destruct (sk_check_X_y S true X y) as [xy|e]; [|reflexivity].
    destruct (dict_get (o_params o) "method") as [[?|m|?]|]; try reflexivity.
    destruct (find_optimal_kernel numbers best_score numeric (Some b) (fst xy) (snd xy) m (search_params o) w1)
      as [w2 [l|e]]; [|reflexivity].
    destruct (obj_full xN l w2) as [w3 [K|e]]; [|reflexivity].
    rewrite H1 by reflexivity. reflexivity.
  - rewrite !opredict_eq. destruct (o_opt_kernel o) as [l|]; [|reflexivity]. destruct (sk_check_array S X) as [z|e]; [|reflexivity].
    destruct (o_train o) as [xy|]; [|reflexivity]. destruct (on_km l (attach_to z (Some (fst xy))) w) as [w1 [u|e]]; [|reflexivity].
    destruct (snd (obj_full xN l w1)) as [K|e]; [|reflexivity]. cbn [rbind]. rewrite H2 by reflexivity. reflexivity.
Qed.

(** ** C71 *)
(** C71: with k_bucket a strategy (as by default), a row of the training data whose inner product with
    itself is at most 1e-8, such as a row of zeros, makes fit raise KMNormError, whatever the method and
    whatever the other rows. *)
Lemma pf_C71_zero_row :
  forall {U XIn YIn W Y F P Q} (S : sklearn XIn YIn W Y F P) self_fit numbers best_score numeric C
         X y wt (o : optimal Y F Q) (w : world xr xr U) x ys n d m s i r,
    sk_check_X_y S true X y = Ok (x, ys) -> is_sample x n d -> length (nd_data x) = n * d -> numeric (nd_data x) = true ->
    dict_get (o_params o) "method" = Some (OVStr m) ->
    lower m = "cv_risk"%string \/ lower m = "align/corr"%string /\ (exists v, numbers ys = Ok v) ->
    dict_get (o_params o) "k_bucket" = Some (OVStr s) -> strategy_kernels s <> None ->
    i < n -> xdot (row_of d x i) (row_of d x i) = Fin r -> (Rabs r <= tiny)%R ->
    snd (optimal_fit S self_fit numbers best_score numeric C X y wt (o, w)) = Raise KMNormError.
Proof.
  intros U XIn YIn W Y F P Q S self_fit numbers best_score numeric C X y wt o w x ys n d m s i r
    Hxy Hx Hlen Hn Hm Hmeth Hb Hs Hi Hr Htiny.
  assert (HK : exists ks, strategy_kernels s = Some (KLinear :: ks)).
  { unfold strategy_kernels in *. destruct (String.eqb (lower s) "exhaustive"); [eexists; reflexivity|].
    destruct (String.eqb (lower s) "light"); [eexists; reflexivity|].
    destruct (String.eqb (lower s) "linear_only"); [eexists; reflexivity|congruence]. }
  destruct HK as [ks HK].
  assert (Hoff : offers (dict_get (o_params o) "k_bucket") w NSNone (map (fun k => (builtin k, true)) (KLinear :: ks))).
  { rewrite Hb. cbn [offers]. split; [reflexivity|]. eexists. split; [exact HK|reflexivity]. }
  rewrite ofit_eq. destruct (offered C _ w NSNone _ Hoff) as (w1 & b & ms & E & _ & Hset & HM & _).
  rewrite E, Hxy, Hm. cbn [fst snd].
  assert (Hns : numeric_sample numeric x n) by (split; [exists d; exact Hx|exact Hn]).
  assert (Hkm : forall l, In l ms -> is_km w1 l).
  { clear - HM. induction HM as [|l K' ms Ks' (pre & Hl) HM IH]; intros l' Hl'; [destruct Hl'|].
    destruct Hl' as [<-|Hl']; [eexists; exact Hl|apply IH; exact Hl']. }
  destruct (attached_bucket numeric w1 (b_set b) NSNone ms x n Hset Hns (or_introl eq_refl) Hkm) as (w2 & s2 & E2 & Hs2 & Hms & Ho).
  assert (Hv : valid_method m = true) by (unfold valid_method; destruct Hmeth as [-> |[-> _]]; reflexivity).
  assert (H : snd (find_optimal_kernel numbers best_score numeric (Some b) x ys m (search_params o) w1) = Raise KMNormError).
  { unfold find_optimal_kernel. rewrite Hv. cbn [negb]. unfold bind at 1. rewrite E2. unfold bind at 1.
    cbn [map] in HM. inversion HM as [|l ? ms' ? (pre & Hpre) HM']; subst ms.
    destruct (Ho l) as (t & Ht & Ht'); [rewrite <- H; left; reflexivity|].
    assert (Hraise : snd (rank_kernels numbers best_score (b_set b) ys (lower m) (search_params o) w2) = Raise KMNormError).
    { rewrite rank_lower. apply (first_raises numbers best_score w2 (b_set b) s2 l ms' ys m (search_params o) KMNormError Hs2).
      - symmetry. exact H.
      - rewrite obj_full_eq, Ht'. cbn [snd]. rewrite Ht in Hpre. injection Hpre as ->.
        assert (Ha : admissible x None n n d) by (split; [exact Hx|reflexivity]).
        pose proof (pf_C03_error (builtin KLinear) xdot pre [] x n d OpFull i r (linear_total x None n n d Hlen eq_refl)
                      eq_refl Ha eq_refl (or_introl eq_refl) Hi Hr) as HE.
        unfold tiny in Htiny. specialize (HE Htiny). cbn [fst snd].
        unfold after in HE. rewrite run_app in HE. unfold outcome, step in HE. rewrite outcome_fmap in HE.
        fold (before (U:=U) xN (builtin KLinear) true pre) in HE.
        change (run xN [OpAttach x None] (before xN (builtin KLinear) true pre)) with
          (run xN (OpAttach x None :: repeat OpFull 0) (before xN (builtin KLinear) true pre)) in HE. cbn [repeat] in HE.
        match goal with |- ?a = _ => change a with
          (snd (full xN (run xN [OpAttach x None] (before (U:=U) xN (builtin KLinear) true pre)))) end.
        match type of HE with res_map _ ?a = _ => destruct a as [G|e] eqn:EG end; cbn [res_map] in HE; [discriminate|].
        injection HE as ->. reflexivity.
      - exact Hv.
      - intros Hm'. destruct Hmeth as [Hm2|[_ Hm2]]; [congruence|exact Hm2].
      - intros _. split; [split; [reflexivity|split; reflexivity]|]. cbn [search_params rp_estimator default].
        destruct (o_regressor o); eexists; reflexivity. }
    destruct (rank_kernels numbers best_score (b_set b) ys (lower m) (search_params o) w2) as [w3 [ss|e]]; cbn [snd] in Hraise.
    - discriminate.
    - cbn [snd]. congruence. }
  destruct (find_optimal_kernel numbers best_score numeric (Some b) x ys m (search_params o) w1) as [w3 [l|e]]; cbn [snd] in H.
  - discriminate.
  - cbn [snd]. congruence.
Qed.

Lemma tanh_large : forall t, (1 <= t)%R -> (tiny < Rabs (tanh t))%R.
Proof.
  intros t Ht. unfold tanh, sinh, cosh.
  assert (H1 : (2 <= exp t)%R).
  { apply Rle_trans with (exp 1); [|destruct (Rle_lt_or_eq_dec _ _ Ht) as [H|<-]; [left; apply exp_increasing; exact H|right; reflexivity]].
    pose proof (exp_ineq1_le 1). lra. }
  assert (H2 : (exp (- t) <= / 2)%R).
  { rewrite exp_Ropp. apply Rinv_le_contravar; lra. }
  pose proof (exp_pos (- t)) as H3.
  assert (H4 : (tiny < (exp t - exp (- t)) / 2 / ((exp t + exp (- t)) / 2))%R).
  { replace ((exp t - exp (- t)) / 2 / ((exp t + exp (- t)) / 2))%R
      with ((exp t - exp (- t)) / (exp t + exp (- t)))%R by (field; lra).
    unfold tiny. apply Rmult_lt_reg_r with (exp t + exp (- t))%R; [lra|].
    unfold Rdiv at 2. rewrite Rmult_assoc, Rinv_l by lra. lra. }
  rewrite Rabs_right; [exact H4|]. unfold tiny in H4. lra.
Qed.

(** The values of the kernels of a strategy on a vector and itself are far from 0. *)
Lemma self_value : forall s ks k d (x : nat -> R), strategy_kernels s = Some ks -> In k ks ->
  (tiny < inner d x x)%R -> (lower s = "exhaustive"%string -> tiny < Rabs (tanh (-2 + inner d x x)))%R ->
  exists r, kernel_value k (fl d x) (fl d x) = Ok (Fin r) /\ (tiny < Rabs r)%R.
Proof.
  intros s ks k d x Hs Hk Hx Ht.
  assert (T : (0 < tiny < 1)%R) by (unfold tiny; lra).
  assert (G1 : (tiny < Rabs 1)%R) by (rewrite Rabs_R1; lra).
  assert (GL : exists r, kernel_value KLinear (fl d x) (fl d x) = Ok (Fin r) /\ (tiny < Rabs r)%R).
  { exists (inner d x x). split; [cbn [kernel_value]; rewrite xdot_fin; reflexivity|]. rewrite Rabs_right; lra. }
  assert (GP : forall q, exists r, kernel_value (KPoly q 1 1) (fl d x) (fl d x) = Ok (Fin r) /\ (tiny < Rabs r)%R).
  { intros q. eexists. split; [apply poly_value|].
    assert (H : (1 <= (1 + 1 * inner d x x) ^ q)%R) by (apply pow_R1_Rle; lra). rewrite Rabs_right; lra. }
  assert (P0 : forall e, (0 < two_pow e)%R) by (intros e; unfold two_pow; apply powerRZ_lt; lra).
  assert (D2 : dist2 d x x = 0%R).
  { unfold dist2. rewrite (rsum_ext d _ (fun _ => 0%R)) by (intros; ring). rewrite rsum_const. ring. }
  assert (D1 : dist1 d x x = 0%R).
  { unfold dist1. rewrite (rsum_ext d _ (fun _ => 0%R)) by (intros; rewrite Rminus_diag_eq, Rabs_R0; reflexivity). rewrite rsum_const. ring. }
  assert (GG : forall e, exists r, kernel_value (KGaussian (Fin (two_pow e))) (fl d x) (fl d x) = Ok (Fin r) /\ (tiny < Rabs r)%R).
  { intros e. exists 1%R. split; [|exact G1].
    rewrite (gaussian_value d x x _ _ (gaussian_gamma_fin (two_pow e))), D2, Rmult_0_r, exp_0. reflexivity. }
  assert (GA : forall e, exists r, kernel_value (KLaplacian (two_pow e)) (fl d x) (fl d x) = Ok (Fin r) /\ (tiny < Rabs r)%R).
  { intros e. exists 1%R. split; [|exact G1]. rewrite laplacian_value, D1, Rmult_0_r, exp_0. reflexivity. }
  assert (GS : forall g c, (0 < g)%R -> (1 <= c)%R -> exists r, kernel_value (KSigmoid g c) (fl d x) (fl d x) = Ok (Fin r) /\ (tiny < Rabs r)%R).
  { intros g c Hg Hc. eexists. split; [cbn [kernel_value]; rewrite xdot_fin; reflexivity|]. apply tanh_large.
    assert (0 < g * inner d x x)%R by (apply Rmult_lt_0_compat; lra). lra. }
  assert (GM : forall f (l : list Z), (forall e, exists r, kernel_value (f e) (fl d x) (fl d x) = Ok (Fin r) /\ (tiny < Rabs r)%R) ->
               In k (map f l) -> exists r, kernel_value k (fl d x) (fl d x) = Ok (Fin r) /\ (tiny < Rabs r)%R).
  { intros f l Hf Hin. apply in_map_iff in Hin. destruct Hin as (e & <- & _). apply Hf. }
  unfold strategy_kernels in Hs. destruct (String.eqb_spec (lower s) "exhaustive") as [E|E].
  - injection Hs as <-. unfold exhaustive_kernels in Hk. rewrite <- !app_comm_cons in Hk || idtac.
    destruct Hk as [<-|Hk]; [exact GL|]. rewrite !in_app_iff in Hk.
    destruct Hk as [Hk|[Hk|[Hk|[Hk|Hk]]]].
    + apply in_map_iff in Hk. destruct Hk as (q & <- & _). apply GP.
    + apply (GM _ _ GG Hk).
    + apply (GM _ _ GA Hk).
    + apply (GM _ _ (fun e => GS _ 1%R (P0 e) (Rle_refl 1)) Hk).
    + cbn [map In] in Hk. destruct Hk as [<-|[<-|[<-|[]]]]; [|apply GS; lra|apply GS; lra].
      eexists. split; [cbn [kernel_value]; rewrite xdot_fin; reflexivity|]. specialize (Ht E).
      rewrite Rmult_1_l. exact Ht.
  - destruct (String.eqb (lower s) "light").
    + injection Hs as <-. unfold light_kernels in Hk.
      destruct Hk as [<-|Hk]; [exact GL|]. rewrite !in_app_iff in Hk.
      destruct Hk as [Hk|[Hk|[Hk|[Hk|Hk]]]].
      * apply in_map_iff in Hk. destruct Hk as (q & <- & _). apply GP.
      * apply (GM _ _ GG Hk).
      * apply (GM _ _ GA Hk).
      * apply (GM _ _ (fun e => GS _ 1%R (P0 e) (Rle_refl 1)) Hk).
      * cbn [map In] in Hk. destruct Hk as [<-|[]]. apply GS; lra.
    + destruct (String.eqb (lower s) "linear_only"); [|discriminate]. injection Hs as <-.
      destruct Hk as [<-|[]]. exact GL.
Qed.

Lemma max_exists : forall l : list R, l <> [] -> exists mx, In mx l /\ forall v, In v l -> (v <= mx)%R.
Proof.
  intros l. induction l as [|a l IH]; intros H; [congruence|]. destruct l as [|b l].
  - exists a. split; [left; reflexivity|]. intros v [<-|[]]. apply Rle_refl.
  - destruct IH as (mx & Hin & Hmx); [discriminate|]. destruct (Rle_dec mx a) as [Ha|Ha].
    + exists a. split; [left; reflexivity|]. intros v [<-|Hv]; [apply Rle_refl|]. specialize (Hmx v Hv). lra.
    + exists mx. split; [right; exact Hin|]. intros v [<-|Hv]; [lra|apply Hmx; exact Hv].
Qed.

Lemma extremes_exist : forall l : list R, l <> [] -> exists mn mx, extremes l mn mx.
Proof.
  intros l H. destruct (max_exists l H) as (mx & H1 & H2).
  destruct (max_exists (map Ropp l)) as (mn & H3 & H4); [destruct l; [congruence|discriminate]|].
  apply in_map_iff in H3. destruct H3 as (q & <- & Hq). exists q, mx. split; [exact Hq|]. split; [exact H1|].
  intros v Hv. split; [|apply H2; exact Hv]. specialize (H4 (- v)%R (in_map Ropp _ _ Hv)). lra.
Qed.

(** The normalised kernel matrices of a strategy exist. *)
Lemma strategy_grams : forall s ks n d X, strategy_kernels s = Some ks ->
  (forall i, (i < n)%nat -> tiny < inner d (X i) (X i))%R ->
  (lower s = "exhaustive"%string -> forall i, (i < n)%nat -> tiny < Rabs (tanh (-2 + inner d (X i) (X i))))%R ->
  exists Gs, Forall2 (has_gram (rsample n d X) n d) (map (fun k => (builtin k, true)) ks) Gs.
Proof.
  intros s ks n d X Hs Hx Ht.
  assert (H : forall k, In k ks -> exists G, has_gram (rsample n d X) n d (builtin k, true) G).
  { intros k Hk.
    assert (Hc : forall g, k <> KChi2 g).
    { intros g ->. unfold strategy_kernels in Hs.
      destruct (String.eqb (lower s) "exhaustive"); [|destruct (String.eqb (lower s) "light");
        [|destruct (String.eqb (lower s) "linear_only"); [|discriminate]]]; injection Hs as <-; clear - Hk;
        unfold exhaustive_kernels, light_kernels in Hk; cbn [map app In] in Hk;
        repeat destruct Hk as [Hk|Hk]; try discriminate; exact Hk. }
    destruct (pf_C63_total k (rsample n d X) None n n d Hc (rsample_len n d X) eq_refl) as (kr & Hnr & Hv).
    destruct (gram true kr n d (rsample n d X)) as [G|e] eqn:EG; [exists G, kr; split; [exact Hnr|split; [reflexivity|exact EG]]|].
    exfalso. unfold gram in EG. cbn match in EG.
    destruct (pf_C20_otherwise_succeeds _ _ _ EG) as [[H _]|[(_ & H & _)|(_ & _ & ->)]];
      [apply H; reflexivity|apply H; reflexivity|].
    apply pf_C20_norm_error_iff in EG; [|reflexivity]. destruct EG as (_ & i & r & Hi & Hr & Htiny).
    cbn [amat kernel_matrix mr tabulate] in Hi.
    unfold xget, kernel_matrix in Hr. cbn [amat] in Hr. rewrite mget_tabulate in Hr by assumption.
    unfold entry in Hr. rewrite Nat.leb_refl in Hr. rewrite rsample_row in Hr by assumption.
    assert (Hr' : kernel_value k (fl d (X i)) (fl d (X i)) = Ok (Fin r)).
    { rewrite (Hv (fl d (X i)) (fl d (X i)) eq_refl). f_equal. exact Hr. }
    destruct (self_value s ks k d (X i) Hs Hk (Hx i Hi) (fun E => Ht E i Hi)) as (r' & Hr2 & Hlt).
    rewrite Hr2 in Hr'. injection Hr' as ->. unfold tiny in Hlt. lra. }
  clear Hs Ht Hx. induction ks as [|k ks IH]; [exists []; constructor|].
  destruct (H k (or_introl eq_refl)) as [G HG]. destruct IH as [Gs HGs]; [intros k' Hk'; apply H; right; exact Hk'|].
  exists (G :: Gs). constructor; assumption.
Qed.

(** C71, the part that holds: with a strategy and 'cv_risk' (the defaults), finite training data, no
    row of which has an inner product with itself of at most 1e-8 (for 'exhaustive' also none for which
    |tanh(<x,x> - 2)| is at most 1e-8), and finite cross-validation scores, fit trains the support
    vector machine on one of the kernel matrices. The full statement would be about all finite data;
    it is false (C71_zero_row, C71_refuted). *)
Lemma pf_C71_partial :
  forall {U XIn YIn W Y F P Q} (S : sklearn XIn YIn W Y F P) self_fit numbers best_score numeric C
         data y wt (o : optimal Y F Q) (w : world xr xr U) n d X ys m s e,
    sk_check_X_y S true data y = Ok (rsample n d X, ys) -> numeric (nd_data (rsample n d X)) = true ->
    dict_get (o_params o) "method" = Some (OVStr m) -> lower m = "cv_risk"%string ->
    dict_get (o_params o) "k_bucket" = Some (OVStr s) -> strategy_kernels s <> None ->
    get_estimator (if o_regressor o then "SVR" else "SVC")%string = Ok e ->
    (forall G, exists r, best_score e 3%Z G ys = Ok (Fin r)) ->
    (forall i, (i < n)%nat -> tiny < inner d (X i) (X i))%R ->
    (lower s = "exhaustive"%string -> forall i, (i < n)%nat -> tiny < Rabs (tanh (-2 + inner d (X i) (X i))))%R ->
    exists G, snd (optimal_fit S self_fit numbers best_score numeric C data y wt (o, w))
              = snd (self_fit (opt_svm o) (o_model o) G ys wt).
Proof.
  intros U XIn YIn W Y F P Q S self_fit numbers best_score numeric C data y wt o w n d X ys m s e
    Hxy Hn Hm Hcv Hb Hs He HB Hx Ht.
  destruct (strategy_kernels s) as [ks|] eqn:Hks; [|congruence].
  destruct (strategy_grams s ks n d X Hks Hx Ht) as [Gs HG].
  assert (HR : exists rs, Forall2 (fun G r => best_score e 3%Z G ys = Ok (Fin r)) Gs rs).
  { clear - HB. induction Gs as [|G Gs [rs IH]]; [exists []; constructor|]. destruct (HB G) as [r Hr]. exists (r :: rs).
    constructor; assumption. }
  destruct HR as [rs HR].
  assert (Hne : map (fun k => (builtin k, true)) ks <> []).
  { unfold strategy_kernels in Hks. destruct (String.eqb (lower s) "exhaustive"); [injection Hks as <-; discriminate|].
    destruct (String.eqb (lower s) "light"); [injection Hks as <-; discriminate|].
    destruct (String.eqb (lower s) "linear_only"); [injection Hks as <-; discriminate|discriminate]. }
  assert (Hrs : rs <> []).
  { intros ->. inversion HR; subst. inversion HG. congruence. }
  destruct (extremes_exist rs Hrs) as (mn & mx & Hext).
  assert (Hoff : offers (dict_get (o_params o) "k_bucket") w NSNone (map (fun k => (builtin k, true)) ks)).
  { rewrite Hb. cbn [offers]. split; [reflexivity|]. exists ks. split; [exact Hks|reflexivity]. }
  destruct (pf_C55_partial S self_fit numbers best_score numeric C data y wt o w (rsample n d X) ys n d m NSNone _ Gs e rs mn mx
              Hxy (proj1 (rsample_adm n d X)) Hn Hm Hcv Hoff (or_introl eq_refl) Hne HG He HR Hext)
    as (i & K & G & l & _ & _ & _ & _ & H & _).
  exists G. exact H.
Qed.

(** ** Examples and counterexamples *)

Lemma params1 : forall b m, dict_get (o_params (estimator1 b m)) "k_bucket" = Some b /\
  dict_get (o_params (estimator1 b m)) "method" = Some (OVStr m).
Proof. intros b m. split; reflexivity. Qed.

Lemma offers1 : forall num pre, offers (Some bucket1) (heap1 num pre) num [(builtin KLinear, false)].
Proof.
  intros num pre. exists [0]. split; [exists true, None; reflexivity|]. constructor; [|constructor].
  exists pre. reflexivity.
Qed.

Definition linear_gram n d x : arr xr := mkArr Dense (kernel_matrix xdot n n d x None).

Lemma gram1 : forall x n d, length (nd_data x) = n * d ->
  Forall2 (has_gram x n d) [(builtin KLinear, false)] [linear_gram n d x].
Proof.
  intros x n d H. constructor; [|constructor]. exists xdot. split; [apply linear_total; [exact H|reflexivity]|].
  split; reflexivity.
Qed.

Lemma scores1 : forall G : arr xr, Forall2 (fun G r => score1 (mkSVM false "precomputed" 10, range_C) 3%Z G tt = Ok (Fin r)) [G] [0%R].
Proof. intros G. constructor; [reflexivity|constructor]. Qed.

Lemma extremes1 : extremes [0%R] 0 0.
Proof. split; [left; reflexivity|]. split; [left; reflexivity|]. intros v [<-|[]]. lra. Qed.

Lemma fit1_ok : forall x n d num pre, is_sample x n d -> length (nd_data x) = n * d -> num = NSNone \/ num = NSOne n ->
  snd (ofit1 x tt tt (estimator1 bucket1 "cv_risk", heap1 num pre)) = Ok tt /\
  o_model (fst (fst (ofit1 x tt tt (estimator1 bucket1 "cv_risk", heap1 num pre)))) = Some ("rbf"%string, linear_gram n d x) /\
  (forall z n', is_sample z n' d -> length (nd_data z) = n' * d ->
    snd (opredict1 z (fst (ofit1 x tt tt (estimator1 bucket1 "cv_risk", heap1 num pre))))
    = Ok (Some ("rbf"%string, linear_gram n d x), mkArr Dense (kernel_matrix xdot n' n d z (Some x)))) /\
  (forall l s, o_opt_kernel (fst (fst (ofit1 x tt tt (estimator1 bucket1 "cv_risk", heap1 num pre)))) = Some l ->
     nth_error (w_objs (snd (fst (ofit1 x tt tt (estimator1 bucket1 "cv_risk", heap1 num pre))))) l = Some (OKM s) ->
     steady (k_kernel s)).
Proof.
  intros x n d num pre Hx Hlen Hnum. unfold ofit1, opredict1.
  destruct (pf_C55_partial sk1 fit1 numbers1 score1 numeric1 xC x tt tt (estimator1 bucket1 "cv_risk") (heap1 num pre) x tt n d
    "cv_risk" num [(builtin KLinear, false)] [linear_gram n d x] (mkSVM false "precomputed" 10, range_C) [0%R] 0 0
    eq_refl Hx eq_refl eq_refl eq_refl (offers1 num pre) Hnum ltac:(discriminate) (gram1 x n d Hlen) eq_refl (scores1 _) extremes1)
    as (i & K & G & l & H1 & H2 & _ & _ & H3 & H4 & H5 & H6 & H7).
  assert (i = 0) as -> by (destruct i as [|[|i]]; [reflexivity|discriminate|discriminate]).
  injection H1 as <-. injection H2 as <-.
  split; [exact H3|]. split; [exact H4|]. split.
  2:{ intros l' t Hl Ht. destruct H7 as [p H7]. rewrite H6 in Hl. injection Hl as <-. rewrite H7 in Ht. injection Ht as <-.
      pose proof (ident_run xN p (km_new (U:=unit) (builtin KLinear) false [])) as Hi. unfold ident in Hi. unfold before.
      cbn [fst snd]. injection Hi as -> _ _. apply pf_C57_builtin. }
  intros z n' Hz Hlz.
  destruct (fit_untouched sk1 fit1 numbers1 score1 numeric1 xC x tt tt (estimator1 bucket1 "cv_risk") (heap1 num pre)) as (_ & R1 & R2 & _).
  destruct (fst (optimal_fit sk1 fit1 numbers1 score1 numeric1 xC x tt tt (estimator1 bucket1 "cv_risk", heap1 num pre))) as [o' w'].
  cbn [fst snd] in *.
  rewrite (pf_C73_predict sk1 predict1 z o' w' l (builtin KLinear, false) z x tt n' n d
             (Ok (mkArr Dense (kernel_matrix xdot n' n d z (Some x)))) H6 H7 H5 eq_refl Hz Hx).
  - cbn [rbind]. unfold predict1 at 1. cbn [rbind]. rewrite H4, R1. reflexivity.
  - exists xdot. split; [apply linear_total; assumption|]. split; reflexivity.
Qed.

(** C55, 'cv_risk', applies: training on [[1], [2]] works. *)
Lemma pf_C55_example : snd (ofit1 x12 tt tt (estimator1 bucket1 "cv_risk", heap1 NSNone [])) = Ok tt.
Proof. apply (fit1_ok x12 2 1 NSNone [] s12 eq_refl (or_introl eq_refl)). Qed.

(** C55 is false: with method='align/corr', one of the two methods advertised, fit raises TypeError. *)
Lemma pf_C55_refuted : exists m, valid_method m = true /\
  snd (ofit1 x12 tt tt (estimator1 bucket1 m, heap1 NSNone [])) = Raise TypeError.
Proof.
  exists "align/corr"%string. split; [reflexivity|].
  pose proof (gram1 x12 2 1 eq_refl) as HG. inversion HG as [|? ? ? ? HG' _]; subst.
  apply (pf_C55_align_error sk1 fit1 numbers1 score1 numeric1 xC x12 tt tt (estimator1 bucket1 "align/corr") (heap1 NSNone [])
           x12 tt 2 1 "align/corr" NSNone (builtin KLinear, false) [] (linear_gram 2 1 x12) [Fin 1; Fin (-1)]
           eq_refl s12 eq_refl eq_refl eq_refl eq_refl (offers1 NSNone []) (or_introl eq_refl) HG').
Qed.

(** C73, C60: training on [[1], [2]] and predicting on [[3], [4]] hands over [[1, 2], [2, 4]] and
    [[3, 6], [4, 8]]; the same when the user's bucket is attached to [[1], [2]] already. *)
Lemma pf_C73_example : forall num pre, num = NSNone \/ num = NSOne 2 ->
  snd (opredict1 x34 (fst (ofit1 x12 tt tt (estimator1 bucket1 "cv_risk", heap1 num pre)))) =
  Ok (Some ("rbf"%string, mkArr Dense (mkMat 2 2 [[Fin 1; Fin 2]; [Fin 2; Fin 4]])),
      mkArr Dense (mkMat 2 2 [[Fin 3; Fin 6]; [Fin 4; Fin 8]])).
Proof.
  intros num pre Hnum. destruct (fit1_ok x12 2 1 num pre s12 eq_refl Hnum) as (_ & _ & H & _).
  rewrite (H x34 2 s34 eq_refl). unfold linear_gram. destruct mats12 as [-> _].
  replace (kernel_matrix xdot 2 2 1 x34 (Some x12)) with (mkMat 2 2 [[Fin 3; Fin 6]; [Fin 4; Fin 8]]) by (calc; repeat f_equal; lra).
  reflexivity.
Qed.

Lemma again1 : forall (st : optimal unit learnt unit * world xr xr unit) v,
  (forall l s, o_opt_kernel (fst st) = Some l -> nth_error (w_objs (snd st)) l = Some (OKM s) -> steady (k_kernel s)) ->
  snd (opredict1 x34 st) = Ok v ->
  oreturned sk1 fit1 predict1 numbers1 score1 numeric1 xC (OPredict x34) (orun1 [OPredict x12; OGet] st) = Ok (OOPred v).
Proof.
  intros [o w] v HK H. unfold orun1. rewrite pf_C57_optimal_repeatable.
  - unfold oreturned. cbn [ostep]. unfold ofmap, bind. unfold opredict1 in H.
    destruct (optimal_predict sk1 predict1 x34 (o, w)) as [s' r]. cbn [snd] in H. subst r. reflexivity.
  - intros op [<-|[<-|[]]]; exact I.
  - exact HK.
Qed.

(** C57: an instance with another prediction in between. *)
Lemma pf_C57_optimal_example :
  oreturned sk1 fit1 predict1 numbers1 score1 numeric1 xC (OPredict x34)
    (orun1 [OPredict x12; OGet] (fst (ofit1 x12 tt tt (estimator1 bucket1 "cv_risk", heap1 NSNone [])))) =
  Ok (OOPred (Some ("rbf"%string, mkArr Dense (mkMat 2 2 [[Fin 1; Fin 2]; [Fin 2; Fin 4]])),
      mkArr Dense (mkMat 2 2 [[Fin 3; Fin 6]; [Fin 4; Fin 8]]))).
Proof.
  apply again1; [apply (fit1_ok x12 2 1 NSNone [] s12 eq_refl (or_introl eq_refl))|].
  apply pf_C73_example. left. reflexivity.
Qed.

(** C60: an instance of refitting: after training on [[1], [2]], training on three points works. *)
Lemma pf_C60_example :
  snd (ofit1 (mkNd [3; 1] [Fin 1; Fin 2; Fin 3]) tt tt
         (orun1 [OFit x12 tt tt; OPredict x34] (estimator1 bucket1 "cv_risk", heap1 NSNone []))) = Ok tt.
Proof.
  assert (Hs : is_sample (mkNd [3; 1] [Fin 1; Fin 2; Fin 3]) 3 1) by (exists []; split; [reflexivity|constructor]).
  destruct (pf_C60_refit_partial (Q:=unit) sk1 fit1 predict1 numbers1 score1 numeric1 xC false None
    (fun n => if String.eqb n "k_bucket" then bucket1 else if String.eqb n "method" then OVStr "cv_risk" else OVOther tt)
    [OFit x12 tt tt; OPredict x34] (heap1 NSNone []) (mkNd [3; 1] [Fin 1; Fin 2; Fin 3]) tt tt
    (mkNd [3; 1] [Fin 1; Fin 2; Fin 3]) tt 3 1 "cv_risk" NSNone
    [(builtin KLinear, false)] [linear_gram 3 1 (mkNd [3; 1] [Fin 1; Fin 2; Fin 3])] (mkSVM false "precomputed" 10, range_C) [0%R] 0 0) as (G & _ & H).
  - intros op [<-|[<-|[]]]; exact I.
  - reflexivity.
  - exact Hs.
  - reflexivity.
  - reflexivity.
  - reflexivity.
  - apply offers1.
  - left. reflexivity.
  - discriminate.
  - apply gram1. reflexivity.
  - reflexivity.
  - apply scores1.
  - exact extremes1.
  - unfold ofit1, orun1, estimator1. exact H.
Qed.

(** C60, "fitting on data of a different size works", is false if the user's bucket has been attached to
    a sample before it was given to the estimator: here to [[1], [2]]; training on three points fails. *)
Lemma pf_C60_refuted :
  exists w : world xr xr unit, w = heap1 (NSOne 2) [OpAttach x12 None] /\
    snd (ofit1 x12 tt tt (estimator1 bucket1 "cv_risk", w)) = Ok tt /\
    snd (ofit1 (mkNd [3; 1] [Fin 1; Fin 2; Fin 3]) tt tt (estimator1 bucket1 "cv_risk", w)) = Raise ValueError.
Proof.
  eexists. split; [reflexivity|]. split.
  - apply (fit1_ok x12 2 1 (NSOne 2) [OpAttach x12 None] s12 eq_refl (or_intror eq_refl)).
  - apply (pf_C60_attached sk1 fit1 numbers1 score1 numeric1 xC _ tt tt (estimator1 bucket1 "cv_risk") _
             (mkNd [3; 1] [Fin 1; Fin 2; Fin 3]) tt 3 "cv_risk" (NSOne 2) [(builtin KLinear, false)]); try reflexivity.
    + split; [exists 1, []; split; [reflexivity|constructor]|reflexivity].
    + apply offers1.
    + discriminate.
    + discriminate.
Qed.

(** C58: an instance. *)
Lemma pf_C58_optimal_example :
  oreturned (U:=unit) sk1 fit1 predict1 numbers1 score1 numeric1 xC OGet
    (orun1 [OSet [("method"%string, OVStr "align/corr"); ("kernel"%string, OVOther tt)]] (estimator1 bucket1 "cv_risk", heap1 NSNone []))
  = Ok (OOParams [("k_bucket"%string, Some bucket1); ("method"%string, Some (OVStr "align/corr"));
                  ("C"%string, Some (OVOther tt)); ("shrinking"%string, Some (OVOther tt)); ("tol"%string, Some (OVOther tt))]).
Proof. reflexivity. Qed.

(** C70 is false: the support vector machine is trained on the kernel matrix with kernel='rbf', that is,
    as if the rows of the kernel matrix were feature vectors. *)
Lemma pf_C70_refuted :
  snd (ofit1 x12 tt tt (estimator1 bucket1 "cv_risk", heap1 NSNone [])) = Ok tt /\
  o_model (fst (fst (ofit1 x12 tt tt (estimator1 bucket1 "cv_risk", heap1 NSNone []))))
  = Some ("rbf"%string, mkArr Dense (mkMat 2 2 [[Fin 1; Fin 2]; [Fin 2; Fin 4]])).
Proof.
  destruct (fit1_ok x12 2 1 NSNone [] s12 eq_refl (or_introl eq_refl)) as (H1 & H2 & _). split; [exact H1|].
  rewrite H2. unfold linear_gram. destruct mats12 as [-> _]. reflexivity.
Qed.

(** C71 is false: the default estimator cannot be trained on [[0], [1]]. *)
Lemma pf_C71_refuted :
  snd (ofit1 (mkNd [2; 1] [Fin 0; Fin 1]) tt tt (estimator1 (OVStr "exhaustive") "cv_risk", mkW [] [])) = Raise KMNormError.
Proof.
  apply (pf_C71_zero_row sk1 fit1 numbers1 score1 numeric1 xC _ tt tt (estimator1 (OVStr "exhaustive") "cv_risk") (mkW [] [])
           (mkNd [2; 1] [Fin 0; Fin 1]) tt 2 1 "cv_risk" "exhaustive" 0 0%R); try reflexivity.
  - exists []. split; [reflexivity|constructor].
  - left. reflexivity.
  - discriminate.
  - lia.
  - cbn. repeat f_equal. lra.
  - rewrite Rabs_R0. unfold tiny. lra.
Qed.

(** C71_partial applies: the default estimator can be trained on [[2], [3]]. *)
Lemma pf_C71_example :
  snd (ofit1 (rsample 2 1 (fun i _ => INR (2 + i))) tt tt (estimator1 (OVStr "exhaustive") "cv_risk", mkW [] [])) = Ok tt.
Proof.
  assert (HI : forall i, (4 <= inner 1 (fun _ : nat => INR (2 + i)) (fun _ : nat => INR (2 + i)))%R).
  { intros i. unfold inner. cbn [rsum]. rewrite plus_INR. pose proof (pos_INR i). change (INR 2) with (1 + 1)%R.
    assert (0 <= INR i * INR i)%R by (apply Rmult_le_pos; lra). lra. }
  destruct (pf_C71_partial (U:=unit) sk1 fit1 numbers1 score1 numeric1 xC (rsample 2 1 (fun i _ => INR (2 + i))) tt tt
    (estimator1 (OVStr "exhaustive") "cv_risk") (mkW [] []) 2 1 (fun i _ => INR (2 + i)) tt "cv_risk" "exhaustive"
    (mkSVM false "precomputed" 10, range_C)) as [G H]; try reflexivity.
  - discriminate.
  - intros G. exists 0%R. reflexivity.
  - intros i _. specialize (HI i). unfold tiny. cbv beta. lra.
  - intros _ i _. apply tanh_large. specialize (HI i). cbv beta. lra.
  - exact H.
Qed.

(** C06: so for every built-in kernel. *)
Lemma pf_C06_builtin : forall {U} k nrm (pre post : list (op xr U)) x y n m d, admissible x y n m d ->
  trace xN post (after xN (builtin k) nrm pre x y []) = trace xN post (after xN (builtin k) nrm [] x y []).
Proof. intros U k nrm pre post x y n m d H. exact (pf_C06_steady xN (builtin k) nrm pre post x y n m d (pf_C57_builtin k) H). Qed.
