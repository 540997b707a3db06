(** C71, exactly: when the optimal-kernel machines can be trained. *)
From Coq Require Import String Reals List Arith ZArith Bool Lia Lra.
Import ListNotations.
From Verif Require Import Prelude MatModel UtilsModel KMModel SpecKM XReal OpsModel SpecLinAlg SpecKernels KernelsModel
  KMXModel SpecKMX SetModel SpecSet BucketModel SpecBucket RankModel SpecRank AlgoModel SpecAlgo SpecOpt.
From Verif Require Import MatFacts MFacts KMFacts KMInv KMTotal KMHist KMHist2 KMProps RSum OpsFacts OpsProps KernelFacts KMXProps KMSteady
  SetFacts SetFacts2 SetProps ContProps CompositeFacts BucketProps RankFacts RankProps AlgoFacts AlgoProps OptFacts SpecOptCases OptProps CompositeProps.

Local Open Scope list_scope.
Local Open Scope nat_scope.

Lemma full_other : forall {U} l (w : world xr xr U) K l', snd (obj_full xN l w) = Ok K ->
  snd (obj_full xN l' (fst (obj_full xN l w))) = snd (obj_full xN l' w).
Proof.
  intros U l w K l' H. destruct (snd (obj_full xN l' w)) as [K'|e] eqn:E.
  - exact (proj1 (pf_C67_full_undisturbed l w K l' K' H E)).
  - destruct (Nat.eq_dec l' l) as [->|Hne]; [congruence|]. rewrite <- E. rewrite (obj_full_eq l w).
    destruct (nth_error (w_objs w) l) as [[s|A]|] eqn:El; cbn [fst]; try reflexivity.
    rewrite !obj_full_eq. cbn [set_objs w_objs]. rewrite nth_error_upd_other by exact Hne.
    destruct (nth_error (w_objs w) l') as [[s'|A']|]; reflexivity.
Qed.

(** Scores of members some of which raise [e] and the others nothing. *)
Lemma scores_raise : forall {U T} (best_score : svm * list R -> Z -> arr xr -> T -> res xr) v f (t : T) e,
  (forall G, exists r, best_score v f G t = Ok (Fin r)) ->
  forall ms (w : world xr xr U), (forall l, In l ms -> (exists G, snd (obj_full xN l w) = Ok G) \/ snd (obj_full xN l w) = Raise e) ->
  (exists l, In l ms /\ snd (obj_full xN l w) = Raise e) ->
  snd (map_each ms (fun l => e0 <- lift (Ok v) ;; K <- obj_full xN l ;; lift (best_score e0 f K t)) w) = Raise e.
Proof.
  intros U T best_score v f t e HB ms. induction ms as [|l ms IH]; intros w H (l' & Hin & Hl'); [destruct Hin|].
  cbn [map_each]. unfold bind at 1. unfold bind at 1. unfold lift at 1. unfold bind at 1.
  destruct (H l (or_introl eq_refl)) as [[G HG]|He].
  - assert (Ho := fun l2 => full_other l w G l2 HG).
    assert (Hin' : In l' ms) by (destruct Hin as [<-|Hin]; [congruence|exact Hin]).
    destruct (obj_full xN l w) as [w1 q]. cbn [snd fst] in HG, Ho. subst q. unfold lift at 1. destruct (HB G) as [r Hr]. rewrite Hr.
    assert (Hi : snd (map_each ms (fun l => e0 <- lift (Ok v) ;; K <- obj_full xN l ;; lift (best_score e0 f K t)) w1) = Raise e).
    { apply IH.
      - intros l2 H2. rewrite Ho. apply H. right. exact H2.
      - exists l'. split; [exact Hin'|]. rewrite Ho. exact Hl'. }
    unfold bind at 1. destruct (map_each ms _ w1) as [w2 [ss|e2]]; cbn [snd] in *; congruence.
  - destruct (obj_full xN l w) as [w1 q]. cbn [snd] in He. subst q. reflexivity.
Qed.

Lemma rank_raises : forall {U T} numbers (best_score : svm * list R -> Z -> arr xr -> T -> res xr) (w : world xr xr U) k s (t : T) m p v e,
  nth_error (w_sets w) k = Some s -> lower m = "cv_risk"%string -> cv_params p ->
  get_estimator (default "SVM"%string (rp_estimator p)) = Ok v ->
  (forall G, exists r, best_score v (default 3%Z (rp_folds p)) G t = Ok (Fin r)) ->
  (forall l, In l (s_members s) -> (exists G, snd (obj_full xN l w) = Ok G) \/ snd (obj_full xN l w) = Raise e) ->
  (exists l, In l (s_members s) /\ snd (obj_full xN l w) = Raise e) ->
  snd (rank_kernels numbers best_score k t m p w) = Raise e.
Proof.
  intros U T numbers best_score w k s t m p v e Hs Hm (P1 & P2 & P3) Hv HB H1 H2.
  unfold rank_kernels, valid_method. rewrite Hm. cbn [String.eqb Ascii.eqb Bool.eqb orb negb].
  unfold CV_ranking. rewrite P1, P2, P3. cbn [is_some orb].
  unfold bind at 1. rewrite (set_iter_eq _ _ _ Hs). rewrite Hv.
  assert (Hi := scores_raise best_score v _ t e HB (s_members s) w H1 H2).
  unfold bind at 1. destruct (map_each (s_members s) _ w) as [w2 [ss|e2]]; cbn [snd] in *; congruence.
Qed.

(** [full] of an object of the bucket right after the attachment. *)
Lemma member_gram : forall {U} (K : kernel xr xr) nrm pre x n d v, is_sample x n d ->
  never_raises K v x None n n d -> kfmt K = true ->
  snd (full xN (run xN [OpAttach x None] (before (U:=U) xN K nrm pre))) = gram nrm v n d x.
Proof.
  intros U K nrm pre x n d v Hx Hv Hf. destruct (gram nrm v n d x) as [G|e] eqn:EG.
  - apply (gram_again K nrm pre x n d 0 G Hx). exists v. split; [exact Hv|]. split; [exact Hf|exact EG].
  - unfold gram in EG. destruct nrm; [|discriminate].
    assert (Ha : admissible x None n n d) by (split; [exact Hx|reflexivity]).
    pose proof (pf_C03_one_sample (U:=U) K v pre [] x n d OpFull Hv Hf Ha eq_refl (or_introl eq_refl)) as HE.
    rewrite EG in HE. unfold after in HE. rewrite run_app in HE. unfold outcome, step in HE. rewrite outcome_fmap in HE.
    fold (before (U:=U) xN K true pre) in HE. cbn [run app] in HE.
    match type of HE with res_map _ ?a = _ => change a with (snd (full xN (run xN [OpAttach x None] (before (U:=U) xN K true pre)))) in HE;
      destruct (snd (full xN (run xN [OpAttach x None] (before (U:=U) xN K true pre)))) as [G|e'] end; cbn [res_map] in HE; congruence.
Qed.

(** The self-similarity of some row, for some normalised kernel that is offered, is within 1e-8 of 0. *)
(*BEGIN PROP*)
(** Some kernel that is offered normalised has a self-similarity within 1e-8 of zero. *)
Definition vanishing (Ks : list (kernel xr xr * bool)) (n d : nat) (x : ndarray xr) : Prop :=
  exists K v i r, In (K, true) Ks /\ never_raises K v x None n n d /\ i < n /\
    v (row_of d x i) (row_of d x i) = Fin r /\ (Rabs r <= tiny)%R.
(*END PROP*)

Lemma gram_outcome : forall nrm v n d x e, gram nrm v n d x = Raise e -> nrm = true /\ e = KMNormError.
Proof.
  intros nrm v n d x e H. unfold gram in H. destruct nrm; [|discriminate]. split; [reflexivity|].
  destruct (pf_C20_otherwise_succeeds _ _ _ H) as [[Q _]|[(_ & Q & _)|(_ & _ & Q)]]; [destruct Q; reflexivity|destruct Q; reflexivity|exact Q].
Qed.
Lemma gram_error : forall v n d x, gram true v n d x = Raise KMNormError <->
  exists i r, i < n /\ v (row_of d x i) (row_of d x i) = Fin r /\ (Rabs r <= tiny)%R.
Proof.
  intros v n d x. unfold gram. rewrite pf_C20_norm_error_iff by reflexivity.
  assert (G : forall i, i < n -> xget (amat (mkArr Dense (kernel_matrix v n n d x None))) i i = v (row_of d x i) (row_of d x i)).
  { intros i Hi. unfold xget, kernel_matrix. cbn [amat]. rewrite mget_tabulate by assumption. unfold entry. rewrite Nat.leb_refl. reflexivity. }
  split.
  - intros (_ & i & r & Hi & Hr & Ht). exists i, r. split; [exact Hi|]. rewrite G in Hr by exact Hi. split; [exact Hr|exact Ht].
  - intros (i & r & Hi & Hr & Ht). split; [reflexivity|]. exists i, r. split; [exact Hi|]. rewrite G by exact Hi. split; [exact Hr|exact Ht].
Qed.

(** C71, for every bucket or strategy whose kernels return on the training data and with finite
    cross-validation scores ('cv_risk', the default method): fit raises KMNormError if some kernel that
    is offered normalised has a self-similarity within 1e-8 of zero, and otherwise trains the support
    vector machine on one of the kernel matrices. *)
Lemma pf_C71_bucket :
  forall {U XIn YIn W Y F P Q} (S : sklearn XIn YIn W Y F P) self_fit numbers best_score numeric C
         data y wt (o : optimal Y F Q) (w : world xr xr U) n d x ys m num Ks e,
    sk_check_X_y S true data y = Ok (x, ys) -> is_sample x n d -> numeric (nd_data x) = true ->
    dict_get (o_params o) "method" = Some (OVStr m) -> lower m = "cv_risk"%string ->
    offers (dict_get (o_params o) "k_bucket") w num Ks -> num = NSNone \/ num = NSOne n -> Ks <> [] ->
    (forall K nrm, In (K, nrm) Ks -> kfmt K = true /\ exists v, never_raises K v x None n n d) ->
    get_estimator (if o_regressor o then "SVR" else "SVC")%string = Ok e ->
    (forall G, exists r, best_score e 3%Z G ys = Ok (Fin r)) ->
    (vanishing Ks n d x ->
       snd (optimal_fit S self_fit numbers best_score numeric C data y wt (o, w)) = Raise KMNormError) /\
    (~ vanishing Ks n d x ->
       exists G, snd (optimal_fit S self_fit numbers best_score numeric C data y wt (o, w))
                 = snd (self_fit (opt_svm o) (o_model o) G ys wt)).
Proof.
  intros U XIn YIn W Y F P Q S self_fit numbers best_score numeric C data y wt o w n d x ys m num Ks e
    Hxy Hx Hn Hm Hcv Hoff Hnum Hne HK He HB. split.
  - intros (K & v & i & r & HKin & Hv & Hi & Hr & Ht).
    rewrite ofit_eq. destruct (offered C _ w num _ Hoff) as (w1 & b & ms & E & _ & Hset & HM & _).
    rewrite E, Hxy, Hm. cbn [fst snd].
    assert (Hns : numeric_sample numeric x n) by (split; [exists d; exact Hx|exact Hn]).
    assert (Hkm : forall l, In l ms -> is_km w1 l).
    { clear - HM. induction HM as [|l K' ms Ks' (pre & Hl) HM IH]; intros l' Hl'; [destruct Hl'|].
      destruct Hl' as [<-|Hl']; [eexists; exact Hl|apply IH; exact Hl']. }
    destruct (attached_bucket numeric w1 (b_set b) num ms x n Hset Hns Hnum Hkm) as (w2 & s2 & E2 & Hs2 & Hms & Ho).
    assert (Hvm : valid_method m = true) by (unfold valid_method; rewrite Hcv; reflexivity).
    assert (HF : forall l, In l ms -> exists K' nrm', In (K', nrm') Ks /\ forall v', never_raises K' v' x None n n d -> kfmt K' = true ->
                   snd (obj_full xN l w2) = gram nrm' v' n d x).
    { intros l Hl. destruct (Ho l Hl) as (t & Ht1 & Ht2).
      assert (HX : exists K' pre, In K' Ks /\ nth_error (w_objs w1) l = Some (OKM (before xN (fst K') (snd K') pre))).
      { clear - HM Hl. induction HM as [|l0 K0 ms Ks (pre & H0) HM IH]; [destruct Hl|]. destruct Hl as [->|Hl].
        - exists K0, pre. split; [left; reflexivity|exact H0].
        - destruct (IH Hl) as (K' & pre' & H1 & H2). exists K', pre'. split; [right; exact H1|exact H2]. }
      destruct HX as ([K' nrm'] & pre & HK1 & HK2). exists K', nrm'. split; [exact HK1|]. intros v' Hv' Hf'.
      rewrite obj_full_eq, Ht2. cbn [snd]. rewrite HK2 in Ht1. injection Ht1 as <-. apply member_gram; assumption. }
    assert (HL : exists l, In l ms /\ snd (obj_full xN l w2) = Raise KMNormError).
    { assert (HX : exists l pre, In l ms /\ nth_error (w_objs w1) l = Some (OKM (before xN K true pre))).
      { clear - HM HKin. induction HM as [|l0 K0 ms Ks (pre & H0) HM IH]; [destruct HKin|]. destruct HKin as [->|Hl].
        - exists l0, pre. split; [left; reflexivity|exact H0].
        - destruct (IH Hl) as (K' & pre' & H1 & H2). exists K', pre'. split; [right; exact H1|exact H2]. }
      destruct HX as (l & pre & Hl & HK2). exists l. split; [exact Hl|]. destruct (Ho l Hl) as (t & Ht1 & Ht2).
      rewrite obj_full_eq, Ht2. cbn [snd]. rewrite HK2 in Ht1. injection Ht1 as <-.
      rewrite (member_gram K true pre x n d v Hx Hv (proj1 (HK K true HKin))). apply gram_error. exists i, r. auto. }
    assert (H : snd (find_optimal_kernel numbers best_score numeric (Some b) x ys m (search_params o) w1) = Raise KMNormError).
    { unfold find_optimal_kernel. rewrite Hvm. cbn [negb]. unfold bind at 1. rewrite E2. unfold bind at 1.
      assert (Hraise : snd (rank_kernels numbers best_score (b_set b) ys (lower m) (search_params o) w2) = Raise KMNormError).
      { rewrite rank_lower. apply (rank_raises numbers best_score w2 (b_set b) s2 ys m (search_params o) e KMNormError Hs2 Hcv).
        - split; [reflexivity|split; reflexivity].
        - exact He.
        - exact HB.
        - rewrite Hms. intros l Hl. destruct (HF l Hl) as (K' & nrm' & HK1 & HK2). destruct (HK K' nrm' HK1) as [Hf' [v' Hv']].
          rewrite (HK2 v' Hv' Hf'). destruct (gram nrm' v' n d x) as [G|e'] eqn:EG; [left; eauto|right].
          destruct (gram_outcome _ _ _ _ _ _ EG) as [_ ->]. reflexivity.
        - rewrite Hms. exact HL. }
      destruct (rank_kernels numbers best_score (b_set b) ys (lower m) (search_params o) w2) as [w3 [ss|e']]; cbn [snd] in *; congruence. }
    destruct (find_optimal_kernel numbers best_score numeric (Some b) x ys m (search_params o) w1) as [w3 [l|e']]; cbn [snd] in *; congruence.
  - intros Hno.
    assert (HG : exists Gs, Forall2 (has_gram x n d) Ks Gs).
    { assert (H1 : forall K, In K Ks -> exists G, has_gram x n d K G).
      { intros [K nrm] HKin. destruct (HK K nrm HKin) as [Hf [v Hv]].
        destruct (gram nrm v n d x) as [G|e'] eqn:EG; [exists G, v; auto|]. exfalso. apply Hno.
        destruct (gram_outcome _ _ _ _ _ _ EG) as [-> ->]. apply gram_error in EG. destruct EG as (i & r & Hi & Hr & Ht).
        exists K, v, i, r. auto. }
      clear - H1. induction Ks as [|K Ks IH]; [exists []; constructor|].
      destruct (H1 K (or_introl eq_refl)) as [G HG]. destruct IH as [Gs HGs]; [intros K' HK'; apply H1; right; exact HK'|].
      exists (G :: Gs). constructor; assumption. }
    destruct HG as [Gs HG].
    assert (HR : exists rs, Forall2 (fun G r => best_score e 3%Z G ys = Ok (Fin r)) Gs rs).
    { clear - HB. induction Gs as [|G Gs [rs IH]]; [exists []; constructor|]. destruct (HB G) as [r Hr]. exists (r :: rs).
      constructor; assumption. }
    destruct HR as [rs HR].
    assert (Hrs : rs <> []).
    { intros ->. inversion HR; subst. inversion HG. congruence. }
    destruct (extremes_exist rs Hrs) as (mn & mx & Hext).
    destruct (pf_C55_partial S self_fit numbers best_score numeric C data y wt o w x ys n d m num _ Gs e rs mn mx
                Hxy Hx Hn Hm Hcv Hoff Hnum Hne HG He HR Hext) as (i & K & G & l & _ & _ & _ & _ & H & _).
    exists G. exact H.
Qed.

Lemma strategy_total : forall s ks k n d X, strategy_kernels s = Some ks -> In k ks ->
  exists v, never_raises (builtin k) v (rsample n d X) None n n d /\
            forall i, i < n -> kernel_value k (fl d (X i)) (fl d (X i)) =
                               Ok (v (row_of d (rsample n d X) i) (row_of d (rsample n d X) i)).
Proof.
  intros s ks k n d X Hs Hk.
  assert (Hc : forall g, k <> KChi2 g).
  { intros g ->. unfold strategy_kernels in Hs.
    destruct (String.eqb (lower s) "exhaustive"); [|destruct (String.eqb (lower s) "light");
      [|destruct (String.eqb (lower s) "linear_only"); [|discriminate]]]; injection Hs as <-; clear - Hk;
      unfold exhaustive_kernels, light_kernels in Hk; cbn [map app In] in Hk;
      repeat destruct Hk as [Hk|Hk]; try discriminate; exact Hk. }
  destruct (pf_C63_total k (rsample n d X) None n n d Hc (rsample_len n d X) eq_refl) as (kr & Hnr & Hv).
  exists kr. split; [exact Hnr|]. intros i Hi. rewrite rsample_row by exact Hi. apply (Hv (fl d (X i)) (fl d (X i)) eq_refl).
Qed.

Lemma never_same : forall (K : kernel xr xr) v v' x n d i, never_raises K v x None n n d -> never_raises K v' x None n n d ->
  i < n -> v (row_of d x i) (row_of d x i) = v' (row_of d x i) (row_of d x i).
Proof.
  intros K v v' x n d i H H' Hi.
  assert (E : Ok (v (row_of d x i) (row_of d x i)) = Ok (v' (row_of d x i) (row_of d x i))).
  { rewrite <- (H 0), <- (H' 0); try reflexivity; exists i; left; (split; [exact Hi|reflexivity]). }
  injection E as ->. reflexivity.
Qed.

(** Some row of the training data is so small that the linear kernel cannot be normalised, or, with the
    strategy 'exhaustive', so close to norm sqrt(2) that SigmoidKernel(1, -2) cannot. *)
(*BEGIN PROP*)
(** The rows that a strategy cannot cope with: (nearly) zero, or, for 'exhaustive', with a squared norm
    so close to 2 that tanh(<x,x> - 2) is (nearly) zero. *)
Definition bad_row (strategy : string) (d : nat) (x : nat -> R) : Prop :=
  (inner d x x <= tiny)%R \/
  (lower strategy = "exhaustive"%string /\ (Rabs (tanh (-2 + inner d x x)) <= tiny)%R).
(*END PROP*)

(** C71, exactly, for the strategies (the default k_bucket) on finite training data, with the default
    method 'cv_risk' and finite cross-validation scores: fit raises KMNormError if the data have a bad
    row, and otherwise trains the support vector machine on one of the kernel matrices. *)
Lemma pf_C71_exact :
  forall {U XIn YIn W Y F P Q} (S : sklearn XIn YIn W Y F P) self_fit numbers best_score numeric C
         data y wt (o : optimal Y F Q) (w : world xr xr U) n d X ys m s e,
    sk_check_X_y S true data y = Ok (rsample n d X, ys) -> numeric (nd_data (rsample n d X)) = true ->
    dict_get (o_params o) "method" = Some (OVStr m) -> lower m = "cv_risk"%string ->
    dict_get (o_params o) "k_bucket" = Some (OVStr s) -> strategy_kernels s <> None ->
    get_estimator (if o_regressor o then "SVR" else "SVC")%string = Ok e ->
    (forall G, exists r, best_score e 3%Z G ys = Ok (Fin r)) ->
    ((exists i, i < n /\ bad_row s d (X i)) ->
       snd (optimal_fit S self_fit numbers best_score numeric C data y wt (o, w)) = Raise KMNormError) /\
    ((forall i, i < n -> ~ bad_row s d (X i)) ->
       exists G, snd (optimal_fit S self_fit numbers best_score numeric C data y wt (o, w))
                 = snd (self_fit (opt_svm o) (o_model o) G ys wt)).
Proof.
  intros U XIn YIn W Y F P Q S self_fit numbers best_score numeric C data y wt o w n d X ys m s e
    Hxy Hn Hm Hcv Hb Hs He HB.
  destruct (strategy_kernels s) as [ks|] eqn:Hks; [|congruence].
  assert (Hoff : offers (dict_get (o_params o) "k_bucket") w NSNone (map (fun k => (builtin k, true)) ks)).
  { rewrite Hb. cbn [offers]. split; [reflexivity|]. exists ks. split; [exact Hks|reflexivity]. }
  assert (Hlin : In KLinear ks).
  { unfold strategy_kernels in Hks. destruct (String.eqb (lower s) "exhaustive"); [injection Hks as <-; left; reflexivity|].
    destruct (String.eqb (lower s) "light"); [injection Hks as <-; left; reflexivity|].
    destruct (String.eqb (lower s) "linear_only"); [injection Hks as <-; left; reflexivity|discriminate]. }
  assert (HK : forall K nrm, In (K, nrm) (map (fun k => (builtin k, true)) ks) ->
                 kfmt K = true /\ exists v, never_raises K v (rsample n d X) None n n d).
  { intros K nrm HKin. apply in_map_iff in HKin. destruct HKin as (k & Hk & Hin). injection Hk as <- <-.
    split; [reflexivity|]. destruct (strategy_total s ks k n d X Hks Hin) as (v & Hv & _). exists v. exact Hv. }
  destruct (pf_C71_bucket S self_fit numbers best_score numeric C data y wt o w n d (rsample n d X) ys m NSNone _ e
              Hxy (proj1 (rsample_adm n d X)) Hn Hm Hcv Hoff (or_introl eq_refl)) as [HA HZ].
  { intros H. apply map_eq_nil in H. subst ks. exact Hlin. }
  { exact HK. }
  { exact He. }
  { exact HB. }
  split.
  - intros (i & Hi & Hbad). apply HA.
    assert (HV : exists k r, In k ks /\ kernel_value k (fl d (X i)) (fl d (X i)) = Ok (Fin r) /\ (Rabs r <= tiny)%R).
    { destruct Hbad as [Hbad|[Hex Hbad]].
      - exists KLinear, (inner d (X i) (X i)). split; [exact Hlin|]. split; [cbn [kernel_value]; rewrite xdot_fin; reflexivity|].
        rewrite Rabs_right; [exact Hbad|]. apply Rle_ge, rsum_nonneg; intros; apply Rle_0_sqr.
      - exists (KSigmoid 1 (-2)), (tanh (-2 + 1 * inner d (X i) (X i))). split; [|split].
        + unfold strategy_kernels in Hks. rewrite Hex in Hks. cbn [String.eqb Ascii.eqb Bool.eqb] in Hks. injection Hks as <-.
          unfold exhaustive_kernels. right. rewrite !in_app_iff. right. right. right. right. left. reflexivity.
        + cbn [kernel_value]. rewrite xdot_fin. reflexivity.
        + rewrite Rmult_1_l. exact Hbad. }
    destruct HV as (k & r & Hk & Hr & Ht). destruct (strategy_total s ks k n d X Hks Hk) as (v & Hv & Hval).
    exists (builtin k), v, i, r. split; [apply in_map_iff; exists k; auto|]. split; [exact Hv|]. split; [exact Hi|]. split; [|exact Ht].
    specialize (Hval i Hi). rewrite Hr in Hval. injection Hval as ->. reflexivity.
  - intros Hgood. apply HZ. intros (K & v & i & r & HKin & Hv & Hi & Hr & Ht).
    apply in_map_iff in HKin. destruct HKin as (k & Hk & Hin). injection Hk as <-.
    destruct (strategy_total s ks k n d X Hks Hin) as (v' & Hv' & Hval).
    specialize (Hval i Hi). rewrite (never_same _ _ _ _ _ _ _ Hv' Hv Hi), Hr in Hval.
    destruct (self_value s ks k d (X i) Hks Hin) as (r' & Hr2 & Hlt).
    + destruct (Rlt_le_dec tiny (inner d (X i) (X i))) as [H|H]; [exact H|]. destruct (Hgood i Hi). left. exact H.
    + intros Hex. destruct (Rlt_le_dec tiny (Rabs (tanh (-2 + inner d (X i) (X i))))) as [H|H]; [exact H|].
      destruct (Hgood i Hi). right. split; [exact Hex|exact H].
    + rewrite Hr2 in Hval. injection Hval as ->. lra.
Qed.

(** A row of squared norm 2 is as bad as a zero row: the default estimator cannot be trained on the points
    (0, 1) and (1, 1), although both are far from zero; 'light' can. *)
Lemma pf_C71_norm_refuted :
  let X := fun i k => if (i =? 0) && (k =? 0) then 0%R else 1%R in
  snd (ofit1 (rsample 2 2 X) tt tt (estimator1 (OVStr "exhaustive") "cv_risk", mkW [] [])) = Raise KMNormError /\
  snd (ofit1 (rsample 2 2 X) tt tt (estimator1 (OVStr "light") "cv_risk", mkW [] [])) = Ok tt.
Proof.
  intros X.
  assert (I0 : inner 2 (X 0) (X 0) = 1%R) by (unfold inner, X; cbn; ring).
  assert (I1 : inner 2 (X 1) (X 1) = 2%R) by (unfold inner, X; cbn; ring).
  assert (T0 : tanh (-2 + 2) = 0%R) by (replace (-2 + 2)%R with 0%R by ring; unfold tanh; rewrite sinh_0; unfold Rdiv; ring).
  assert (T : (0 < tiny < 1)%R) by (unfold tiny; lra).
  assert (HB : forall G : arr xr, exists r, score1 (mkSVM false "precomputed" 10, range_C) 3%Z G tt = Ok (Fin r)) by (intros G; exists 0%R; reflexivity).
  split.
  - refine (proj1 (pf_C71_exact sk1 fit1 numbers1 score1 numeric1 xC (rsample 2 2 X) tt tt (estimator1 (OVStr "exhaustive") "cv_risk")
              (mkW [] []) 2 2 X tt "cv_risk" "exhaustive" _ eq_refl eq_refl eq_refl eq_refl eq_refl _ eq_refl HB) _); [discriminate|].
    exists 1. split; [lia|]. right. split; [reflexivity|]. rewrite I1, T0, Rabs_R0. lra.
  - destruct (proj2 (pf_C71_exact (U:=unit) sk1 fit1 numbers1 score1 numeric1 xC (rsample 2 2 X) tt tt (estimator1 (OVStr "light") "cv_risk")
              (mkW [] []) 2 2 X tt "cv_risk" "light" _ eq_refl eq_refl eq_refl eq_refl eq_refl ltac:(discriminate) eq_refl HB)) as [G HG].
    + intros i Hi [H|[H _]]; [|discriminate]. destruct i as [|[|i]]; [rewrite I0 in H; lra|rewrite I1 in H; lra|lia].
    + unfold ofit1. rewrite HG. reflexivity.
Qed.
