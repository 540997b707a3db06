(** C102: exactly how many kernel evaluations fitting and predicting cost. *)
From Coq Require Import String Reals List Arith ZArith Bool Lia Lra.
Import ListNotations.
From Verif Require Import Prelude MatModel UtilsModel KMModel SpecKM XReal OpsModel SpecLinAlg KernelsModel
  KMXModel SetModel SpecSet BucketModel RankModel SpecRank AlgoModel SpecAlgo SpecCost.
From Verif Require Import MatFacts MFacts KMFacts KMInv KMHist KMHist2 KMProps OpsFacts OpsProps KMXProps SetFacts2
  AlgoFacts AlgoProps RejectProps CostProps.

Local Open Scope list_scope.
Local Open Scope nat_scope.

(** C102: a fit whose kernel matrix can be computed makes n (n + 1) / 2 kernel calls for n training points,
    whatever the machine did before, and also if the support vector machine then raises. *)
Lemma pf_C102_fit :
  forall {XIn YIn W Y F P} (S : sklearn XIn YIn W Y F P) m X y w x ys n d K k nrm s eg G,
    validated S (m_regressor m) X y x ys -> is_sample x n d ->
    m_k_func m = PKernel K -> m_normalized m = PBool nrm -> m_learner_id m = PStr s ->
    get_estimator s = Ok eg -> never_raises K k x None n n d -> kfmt K = true ->
    gram nrm k n d x = Ok G ->
    calls_made (fst (machine_fit S X y w m)) = calls_made m + n * (n + 1) / 2.
Proof.
  intros XIn YIn W Y F P S m X y w x ys n d K k nrm s eg G Hv Hx Hk Hn Hl Hg Hnr Hf HGr.
  assert (Ha : admissible x None n n d) by (split; [exact Hx|reflexivity]).
  rewrite (fit_eq S m X y w x ys K nrm s eg Hv Hk Hn Hl Hg). cbv zeta.
  set (K' := shift (calls_made m) K).
  change (km_new K' nrm []) with (before (U:=unit) xN K' nrm []).
  rewrite (after_attach K' nrm [] x None n n d Ha).
  pose proof (full_fresh_one (U:=unit) K' k nrm [] x n d (shift_never _ K k _ _ _ _ _ Hnr) Hf Hx) as HG.
  destruct (pf_C102_count (U:=unit) xN K' k nrm [] [] x None n n d (shift_never _ K k _ _ _ _ _ Hnr) Ha eq_refl
              (or_introl eq_refl)) as (new & Hnew & Hlen); [|left; reflexivity|].
  { unfold outcome, step, fmap, bind. destruct (full xN (after xN K' nrm [] x None [])) as [t' r]. cbn [snd] in HG. subst r.
    rewrite HGr. reflexivity. }
  rewrite after_snoc in Hnew. unfold step in Hnew. rewrite (state_fmap OArr (full xN)) in Hnew.
  destruct (full xN (after xN K' nrm [] x None [])) as [t' r]. cbn [fst snd] in HG, Hnew. subst r. rewrite HGr.
  cbn [fst]. unfold calls_made at 1. cbn [set_km m_km m_calls]. rewrite Hnew. cbn [before run km_new g_calls].
  rewrite app_nil_r, Hlen. cbn [is_some andb row_pairs]. lia.
Qed.

(** C102: a prediction for n' points makes n' n calls, and n' + n more with normalized=True. *)
Lemma pf_C102_predict :
  forall {XIn YIn W Y F P} (S : sklearn XIn YIn W Y F P) m X z x ys n n' d K k nrm e f G,
    m_km m <> None -> m_train m = Some (x, ys) -> m_estimator m = Some (e, f) ->
    m_k_func m = PKernel K -> m_normalized m = PBool nrm ->
    sk_check_array S X = Ok z -> is_sample z n' d -> is_sample x n d ->
    never_raises K k z (Some x) n' n d -> kfmt K = true ->
    cross_gram nrm k n' n d z x = Ok G ->
    calls_made (fst (machine_predict S X m)) = calls_made m + n' * n + (if nrm then n' + n else 0).
Proof.
  intros XIn YIn W Y F P S m X z x ys n n' d K k nrm e f G Hkm Ht He Hk Hn Hz Hz' Hx Hnr Hf HGr.
  assert (Ha : admissible z (Some x) n' n d) by (split; assumption).
  rewrite predict_eq, Hz, Ht, He, Hk, Hn. destruct (m_km m) eqn:Hkm'; [|congruence]. cbv zeta.
  set (K' := shift (calls_made m) K).
  change (km_new K' nrm []) with (before (U:=unit) xN K' nrm []).
  rewrite (after_attach K' nrm [] z (Some x) n' n d Ha).
  pose proof (full_fresh_two (U:=unit) K' k nrm [] z x n' n d (shift_never _ K k _ _ _ _ _ Hnr) Hf Ha) as HG.
  destruct (pf_C102_count (U:=unit) xN K' k nrm [] [] z (Some x) n' n d (shift_never _ K k _ _ _ _ _ Hnr) Ha eq_refl)
    as (new & Hnew & Hlen).
  { right. right. intros []. }
  { unfold outcome, step, fmap, bind. destruct (full xN (after xN K' nrm [] z (Some x) [])) as [t' r]. cbn [snd] in HG. subst r.
    rewrite HGr. reflexivity. }
  { right. constructor. }
  rewrite after_snoc in Hnew. unfold step in Hnew. rewrite (state_fmap OArr (full xN)) in Hnew.
  destruct (full xN (after xN K' nrm [] z (Some x) [])) as [t' r]. cbn [fst snd] in HG, Hnew. subst r.
  cbn [fst]. unfold calls_made at 1. cbn [set_km m_km m_calls]. rewrite Hnew. cbn [before run km_new g_calls].
  rewrite app_nil_r, Hlen. cbn [is_some andb row_pairs existsb app wants_normalised]. rewrite orb_false_r. lia.
Qed.

(** C102: reading and setting parameters costs nothing; neither does a prediction before any fit, or one for
    points with another number of features. *)
Lemma pf_C102_free :
  forall {XIn YIn W Y F P} (S : sklearn XIn YIn W Y F P) (m : machine Y F),
    (forall ps, calls_made (fst (mstep S (MSet ps) m)) = calls_made m) /\
    calls_made (fst (mstep S MGet m)) = calls_made m /\
    (forall X, m_km m = None -> calls_made (fst (mstep S (MPredict X) m)) = calls_made m) /\
    (forall X z x ys n n' d d', m_train m = Some (x, ys) -> sk_check_array S X = Ok z ->
       is_sample z n' d' -> is_sample x n d -> d' <> d ->
       calls_made (fst (mstep S (MPredict X) m)) = calls_made m).
Proof.
  intros XIn YIn W Y F P S m. repeat split.
  - intros ps. cbn [mstep]. unfold mfmap, bind.
    assert (H : calls_made (fst (machine_set_params ps m)) = calls_made m).
    { revert m. unfold machine_set_params. induction ps as [|[nm v] ps IH]; intros m; [reflexivity|].
      cbn [for_each fst snd]. unfold bind.
      destruct (String.eqb nm "k_func"); [cbn [modify]; rewrite IH; reflexivity|].
      destruct (String.eqb nm "learner_id"); [cbn [modify]; rewrite IH; reflexivity|].
      destruct (String.eqb nm "normalized"); [cbn [modify]; rewrite IH; reflexivity|].
      cbn [ret]. apply IH. }
    destruct (machine_set_params ps m) as [m' [u|e]]; exact H.
  - intros X Hkm. cbn [mstep]. unfold mfmap, bind. rewrite predict_eq, Hkm. reflexivity.
  - intros X z x ys n n' d d' Ht Hz Hz' Hx Hd. cbn [mstep]. unfold mfmap, bind. rewrite predict_eq, Hz, Ht.
    destruct (m_km m) as [t|] eqn:Hkm; [|reflexivity].
    destruct (m_k_func m) as [K|s0|b0| |q]; try reflexivity. destruct (m_normalized m) as [K'|s0|nrm| |q]; try reflexivity.
    cbv zeta. rewrite (reject_features _ z n' d' x n d Hz' Hx Hd). cbn [fst].
    unfold calls_made at 1. cbn [set_km m_km m_calls]. cbn. lia.
Qed.

(** C102 applies: fitting on two points with the linear kernel makes 3 calls, predicting for two points 4
    more. *)
Lemma pf_C102_machine_example :
  let m := linear_machine false "SVC" in
  let m1 := fst (machine_fit sk0 x12 tt tt m) in
  calls_made m1 = 3 /\ calls_made (fst (machine_predict sk0 x34 m1)) = 7.
Proof.
  cbv zeta. set (m := linear_machine false "SVC").
  assert (Ha : never_raises (builtin KLinear) xdot x12 None 2 2 1) by (apply linear_total; reflexivity).
  assert (Hb : never_raises (builtin KLinear) xdot x34 (Some x12) 2 2 1) by (apply linear_total; reflexivity).
  assert (Hv : validated sk0 (m_regressor m) x12 tt x12 tt) by reflexivity.
  assert (H3 : calls_made (fst (machine_fit sk0 x12 tt tt m)) = 3).
  { rewrite (pf_C102_fit sk0 m x12 tt tt x12 tt 2 1 (builtin KLinear) xdot false "SVC" _ _ Hv s12 eq_refl eq_refl eq_refl
               eq_refl Ha eq_refl eq_refl). reflexivity. }
  split; [exact H3|].
  destruct (fitted_fields sk0 m x12 tt tt x12 tt (builtin KLinear) false "SVC" _ Hv eq_refl eq_refl eq_refl eq_refl) as (F1 & F2 & F3 & _).
  destruct (pf_C56_fit sk0 m x12 tt tt x12 tt 2 1 (builtin KLinear) xdot false "SVC" _ Hv s12 eq_refl eq_refl eq_refl eq_refl
              Ha eq_refl) as (F4 & F5 & _).
  specialize (F5 _ eq_refl). cbv zeta in *.
  rewrite (pf_C102_predict sk0 _ x34 x34 x12 tt 2 2 1 (builtin KLinear) xdot false _ _ _ F1 F4 F5 F2 F3 eq_refl s34 s12 Hb eq_refl eq_refl).
  rewrite H3. reflexivity.
Qed.
