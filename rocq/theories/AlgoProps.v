(** The estimators KernelMachine and KernelMachineRegressor: properties C56 - C59, C69, C72. *)
From Coq Require Import String Reals List Arith ZArith Bool Lia Lra.
Import ListNotations.
From Verif Require Import Prelude MatModel UtilsModel KMModel SpecKM XReal OpsModel SpecLinAlg KernelsModel
  KMXModel SetModel SpecSet BucketModel RankModel SpecRank AlgoModel SpecAlgo.
From Verif Require Import MatFacts MFacts KMFacts KMInv KMHist KMHist2 KMProps OpsFacts OpsProps KMXProps SetFacts2
  AlgoFacts.

Local Open Scope list_scope.
Local Open Scope nat_scope.

Lemma fitted_fields :
  forall {XIn YIn W Y F P} (S : sklearn XIn YIn W Y F P) m X y w x ys K nrm s eg,
    validated S (m_regressor m) X y x ys ->
    m_k_func m = PKernel K -> m_normalized m = PBool nrm -> m_learner_id m = PStr s ->
    get_estimator s = Ok eg ->
    let m' := fst (machine_fit S X y w m) in
    m_km m' <> None /\ m_k_func m' = PKernel K /\ m_normalized m' = PBool nrm /\ m_regressor m' = m_regressor m.
Proof.
  intros XIn YIn W Y F P S m X y w x ys K nrm s eg Hv Hk Hn Hl Hg. cbv zeta.
  rewrite (fit_eq S m X y w x ys K nrm s eg Hv Hk Hn Hl Hg). cbv zeta.
  destruct (attach_to x None _) as [t [[]|err]].
  - destruct (full xN t) as [t' [G'|err]]; (split; [discriminate|split; [exact Hk|split; [exact Hn|reflexivity]]]).
  - split; [discriminate|split; [exact Hk|split; [exact Hn|reflexivity]]].
Qed.

(** ** C56 *)
(** C56: fit hands the support vector machine the kernel matrix of the validated training data and
    the validated targets, keeps the outcome, and passes its exceptions on. (The last line: C72.) *)
Lemma pf_C56_fit :
  forall {XIn YIn W Y F P} (S : sklearn XIn YIn W Y F P) m X y w x ys n d K k nrm s eg,
    validated S (m_regressor m) X y x ys -> is_sample x n d ->
    m_k_func m = PKernel K -> m_normalized m = PBool nrm -> m_learner_id m = PStr s ->
    get_estimator s = Ok eg -> never_raises K k x None n n d -> kfmt K = true ->
    let m' := fst (machine_fit S X y w m) in
    m_train m' = Some (x, ys) /\
    (forall G, gram nrm k n d x = Ok G ->
       m_estimator m' = Some (fst eg, fst (sk_fit S (fst eg) (sk_new S) G ys w))) /\
    snd (machine_fit S X y w m) =
      rbind (gram nrm k n d x) (fun G =>
      rbind (snd (sk_fit S (fst eg) (sk_new S) G ys w)) (fun _ =>
      if negb (m_regressor m) && svm_regression (fst eg) then Raise AttributeError else Ok tt)).
Proof.
  intros XIn YIn W Y F P S m X y w x ys n d K k nrm s eg Hv Hx Hk Hn Hl Hg Hnr Hf.
  assert (Ha : admissible x None n n d) by (split; [exact Hx|reflexivity]).
  cbv zeta. rewrite (fit_eq S m X y w x ys K nrm s eg Hv Hk Hn Hl Hg). cbv zeta.
  set (K' := shift (calls_made m) K).
  change (km_new K' nrm []) with (before (U:=unit) xN K' nrm []).
  rewrite (after_attach K' nrm [] x None n n d Ha).
  pose proof (full_fresh_one (U:=unit) K' k nrm [] x n d (shift_never _ K k _ _ _ _ _ Hnr) Hf Hx) as HG.
  destruct (full xN (after xN K' nrm [] x None [])) as [t' r]. cbn [snd] in HG. subst r.
  destruct (gram nrm k n d x) as [G|e]; cbn [fst snd rbind set_km set_train set_estimator m_train m_estimator].
  - split; [reflexivity|]. split; [|reflexivity]. intros G' E. injection E as <-. reflexivity.
  - split; [reflexivity|]. split; [|reflexivity]. discriminate.
Qed.

(** C56: predict hands it the matrix of kernel values between test points (rows) and training points
    (columns). *)
Lemma pf_C56_predict :
  forall {XIn YIn W Y F P} (S : sklearn XIn YIn W Y F P) m X z x ys n n' d K k nrm e f,
    m_km m <> None -> m_train m = Some (x, ys) -> m_estimator m = Some (e, f) ->
    m_k_func m = PKernel K -> m_normalized m = PBool nrm ->
    sk_check_array S X = Ok z -> is_sample z n' d -> is_sample x n d ->
    never_raises K k z (Some x) n' n d -> kfmt K = true ->
    snd (machine_predict S X m) =
      rbind (cross_gram nrm k n' n d z x) (fun G => rbind (sk_predict S e f G) (sk_cast S ys)).
Proof.
  intros XIn YIn W Y F P S m X z x ys n n' d K k nrm e f Hkm Ht He Hk Hn Hz Hz' Hx Hnr Hf.
  assert (Ha : admissible z (Some x) n' n d) by (split; assumption).
  rewrite predict_eq, Hz, Ht, He, Hk, Hn. destruct (m_km m); [|congruence]. cbv zeta.
  set (K' := shift (calls_made m) K).
  change (km_new K' nrm []) with (before (U:=unit) xN K' nrm []).
  rewrite (after_attach K' nrm [] z (Some x) n' n d Ha).
  pose proof (full_fresh_two (U:=unit) K' k nrm [] z x n' n d (shift_never _ K k _ _ _ _ _ Hnr) Hf Ha) as HG.
  destruct (full xN (after xN K' nrm [] z (Some x) [])) as [t' r]. cbn [snd] in *. subst r. reflexivity.
Qed.

(** C56: both together. After a fit that succeeds, the predictions for any test data are those of the
    support vector machine trained on the kernel matrix of the training data, for the matrix of kernel
    values between test and training points. *)
Lemma pf_C56_fit_predict :
  forall {XIn YIn W Y F P} (S : sklearn XIn YIn W Y F P) m X y w x ys n d K k nrm s eg G,
    validated S (m_regressor m) X y x ys -> is_sample x n d ->
    m_k_func m = PKernel K -> m_normalized m = PBool nrm -> m_learner_id m = PStr s ->
    get_estimator s = Ok eg -> never_raises K k x None n n d -> kfmt K = true ->
    gram nrm k n d x = Ok G -> snd (sk_fit S (fst eg) (sk_new S) G ys w) = Ok tt ->
    m_regressor m = true \/ svm_regression (fst eg) = false ->
    snd (machine_fit S X y w m) = Ok tt /\
    forall X' z n', sk_check_array S X' = Ok z -> is_sample z n' d -> never_raises K k z (Some x) n' n d ->
      snd (machine_predict S X' (fst (machine_fit S X y w m))) =
        rbind (cross_gram nrm k n' n d z x) (fun G' =>
        rbind (sk_predict S (fst eg) (fst (sk_fit S (fst eg) (sk_new S) G ys w)) G') (sk_cast S ys)).
Proof.
  intros XIn YIn W Y F P S m X y w x ys n d K k nrm s eg G Hv Hx Hk Hn Hl Hg Hnr Hf HG Hs Hc.
  destruct (pf_C56_fit S m X y w x ys n d K k nrm s eg Hv Hx Hk Hn Hl Hg Hnr Hf) as (H1 & H2 & H3).
  split.
  - rewrite H3, HG. cbn [rbind]. rewrite Hs. cbn [rbind].
    destruct Hc as [-> | ->]; [reflexivity|]. rewrite andb_false_r. reflexivity.
  - intros X' z n' Hz Hz' Hnr'.
    apply (pf_C56_predict S _ X' z x ys n n' d K k nrm); try assumption.
    + apply (fitted_fields S m X y w x ys K nrm s eg Hv Hk Hn Hl Hg).
    + exact (H2 G HG).
    + apply (fitted_fields S m X y w x ys K nrm s eg Hv Hk Hn Hl Hg).
    + apply (fitted_fields S m X y w x ys K nrm s eg Hv Hk Hn Hl Hg).
Qed.

(** C56: for a symmetric kernel, testing on the training data gives the training matrix. *)
Lemma pf_C56_training_data :
  forall k nrm n d x,
    (forall i j, i < n -> j < n -> k (row_of d x i) (row_of d x j) = k (row_of d x j) (row_of d x i)) ->
    cross_gram nrm k n n d x x = gram nrm k n d x.
Proof.
  intros k nrm n d x Hs. unfold cross_gram, gram.
  assert (E : kernel_matrix k n n d x (Some x) = kernel_matrix k n n d x None).
  { unfold kernel_matrix. apply tabulate_ext. intros i j Hi Hj. unfold entry.
    destruct (i <=? j); [reflexivity|]. apply Hs; assumption. }
  rewrite E. destruct nrm; [|reflexivity].
  rewrite <- pf_C21_agrees_with_one_sample by reflexivity. cbn [amat].
  assert (D : diagonal_of (kernel_matrix k n n d x None) = map (fun i => k (row_of d x i) (row_of d x i)) (seq 0 n)).
  { unfold diagonal_of, kernel_matrix. cbn [mr mc tabulate]. rewrite Nat.min_id. apply map_ext_in.
    intros i Hi. apply in_seq in Hi. unfold xget. fold (tabulate n n (entry k d x None)).
    rewrite mget_tabulate by lia. unfold entry. rewrite Nat.leb_refl. reflexivity. }
  rewrite D. reflexivity.
Qed.

(** ** C57 *)
(** C57: after any program, further predictions and reads do not change what predict returns, be it
    predictions or an exception, for kernels whose outcome does not depend on earlier calls. *)
Lemma pf_C57_repeatable :
  forall {XIn YIn W Y F P} (S : sklearn XIn YIn W Y F P) m os X,
    only_reads os -> (forall K, m_k_func m = PKernel K -> steady K) ->
    returned S (MPredict X) (mrun S os m) = returned S (MPredict X) m.
Proof.
  intros XIn YIn W Y F P S m os X Ho HK.
  assert (HA : alike m (mrun S os m)).
  { revert m HK. induction os as [|o os IH]; intros m HK; [apply alike_refl|]. cbn [mrun].
    assert (H1 : alike m (fst (mstep S o m))).
    { pose proof (Ho o (or_introl eq_refl)) as H. destruct o as [| X' | | |c]; try contradiction.
      - cbn [mstep]. unfold mfmap, bind, ret.
        pose proof (predict_keeps S m X') as H1. destruct (machine_predict S X' m) as [m1 [p|e]]; exact H1.
      - apply alike_refl.
      - cbn [mstep]. unfold bind, modify, ret. cbn [fst]. unfold alike. cbn. tauto. }
    eapply alike_trans; [exact H1|]. apply IH.
    - intros o' H'. apply Ho. right. exact H'.
    - intros K HK'. apply HK. destruct H1 as (_ & H1 & _). rewrite <- H1. exact HK'. }
  unfold returned. cbn [mstep]. unfold mfmap, bind, ret.
  pose proof (predict_alike S m _ X HA HK) as H.
  destruct (machine_predict S X (mrun S os m)) as [m1 r1], (machine_predict S X m) as [m2 r2].
  cbn [snd] in H. subst r1. destruct r2; reflexivity.
Qed.

Lemma set_params_km : forall {Y F} ps (m : machine Y F), m_km (fst (machine_set_params ps m)) = m_km m.
Proof.
  intros Y F ps. induction ps as [|[n v] ps IH]; intros m; [reflexivity|].
  unfold machine_set_params in *. cbn [for_each]. unfold bind, modify. cbn [fst snd].
  destruct (String.eqb n "k_func"); [rewrite IH; reflexivity|].
  destruct (String.eqb n "learner_id"); [rewrite IH; reflexivity|].
  destruct (String.eqb n "normalized"); [rewrite IH; reflexivity|]. unfold ret. apply IH.
Qed.

(** C57: predict before any call of fit raises NotFittedError. *)
Lemma pf_C57_before_fit :
  forall {XIn YIn W Y F P} (S : sklearn XIn YIn W Y F P) regressor a b c os X,
    no_fit os -> returned S (MPredict X) (mrun S os (machine_new regressor a b c)) = Raise NotFittedErr.
Proof.
  intros XIn YIn W Y F P S regressor a b c os X Ho.
  assert (H : m_km (mrun S os (machine_new regressor a b c)) = None).
  { assert (H0 : m_km (machine_new regressor a b c : machine Y F) = None) by reflexivity.
    revert H0. generalize (machine_new regressor a b c : machine Y F). induction os as [|o os IH]; intros m H0; [exact H0|].
    cbn [mrun]. apply IH; [intros o' H'; apply Ho; right; exact H'|].
    pose proof (Ho o (or_introl eq_refl)) as H. destruct o as [| X' |ps | |c']; try contradiction.
    - cbn [mstep]. unfold mfmap, bind, ret. rewrite predict_eq, H0. exact H0.
    - cbn [mstep]. unfold mfmap, bind, ret. pose proof (set_params_km ps m) as H1.
      destruct (machine_set_params ps m) as [m1 [[]|e]]; cbn [fst] in *; rewrite H1; exact H0.
    - exact H0.
    - exact H0. }
  unfold returned. cbn [mstep]. unfold mfmap, bind. rewrite predict_eq, H. reflexivity.
Qed.

(** ** C58 *)
Lemma set_params_eq : forall {Y F} ps (m : machine Y F), NoDup (map fst ps) ->
  machine_set_params ps m =
  (mkMach (m_regressor m) (given ps "k_func" (m_k_func m)) (given ps "learner_id" (m_learner_id m))
          (given ps "normalized" (m_normalized m)) (m_train m) (m_km m) (m_estimator m) (m_calls m), Ok tt).
Proof.
  intros Y F ps. induction ps as [|[n v] ps IH]; intros m Hd.
  { destruct m; reflexivity. }
  inversion Hd as [|? ? Hin Hd']; subst. unfold machine_set_params in *. cbn [for_each]. unfold bind at 1, modify. cbn [fst snd].
  assert (G : forall q, dict_get ps n = Some q -> False).
  { intros q H. apply Hin. clear - H. induction ps as [|[n' v'] ps IH]; [discriminate|]. cbn [dict_get] in H.
    cbn [map fst]. destruct (String.eqb n n') eqn:E; [left; symmetry; apply String.eqb_eq; exact E|right; apply IH; exact H]. }
  assert (N : dict_get ps n = None) by (destruct (dict_get ps n) eqn:E; [destruct (G _ eq_refl)|reflexivity]).
  assert (GV : forall q (o : pval), given ((n, v) :: ps) q o = if String.eqb q n then v else given ps q o).
  { intros q o. unfold given. cbn [dict_get]. destruct (String.eqb q n); reflexivity. }
  rewrite !GV.
  destruct (String.eqb n "k_func") eqn:E1.
  { apply String.eqb_eq in E1. subst n. rewrite (IH _ Hd'). unfold given at 1. rewrite N. reflexivity. }
  destruct (String.eqb n "learner_id") eqn:E2.
  { apply String.eqb_eq in E2. subst n. rewrite (IH _ Hd'). unfold given at 2. rewrite N. reflexivity. }
  destruct (String.eqb n "normalized") eqn:E3.
  { apply String.eqb_eq in E3. subst n. rewrite (IH _ Hd'). unfold given at 3. rewrite N. reflexivity. }
  unfold ret. rewrite (IH _ Hd'). rewrite String.eqb_sym in E1, E2, E3. rewrite E1, E2, E3. reflexivity.
Qed.

(** C58: set_params followed by get_params gives the new values of the known names and the old values
    of the others; set_params never raises. *)
Lemma pf_C58_round_trip :
  forall {XIn YIn W Y F P} (S : sklearn XIn YIn W Y F P) (m : machine Y F) ps a b c,
    NoDup (map fst ps) ->
    returned S MGet m = Ok (MParams [("k_func"%string, a); ("normalized"%string, b); ("learner_id"%string, c)]) ->
    returned S (MSet ps) m = Ok MUnit /\
    returned S MGet (mrun S [MSet ps] m) =
      Ok (MParams [("k_func"%string, given ps "k_func" a); ("normalized"%string, given ps "normalized" b);
                   ("learner_id"%string, given ps "learner_id" c)]).
Proof.
  intros XIn YIn W Y F P S m ps a b c Hd H. injection H as Ha Hb Hc.
  unfold returned, mrun. cbn [mstep]. unfold mfmap, bind, get, ret. rewrite (set_params_eq ps m Hd). cbn [fst snd].
  unfold machine_get_params. cbn [m_k_func m_normalized m_learner_id]. rewrite Ha, Hb, Hc. split; reflexivity.
Qed.

(** C58: the parameters of get_params are always those three; giving back what get_params returned
    changes nothing, and neither do unknown names. *)
Lemma pf_C58_no_change :
  forall {XIn YIn W Y F P} (S : sklearn XIn YIn W Y F P) (m : machine Y F) ps,
    (returned S MGet m = Ok (MParams ps) \/
     NoDup (map fst ps) /\ forall n, In n (map fst ps) -> ~ In n ["k_func"; "normalized"; "learner_id"]%string) ->
    mrun S [MSet ps] m = m.
Proof.
  intros XIn YIn W Y F P S m ps H. unfold mrun. cbn [mstep]. unfold mfmap, bind, ret.
  assert (Hd : NoDup (map fst ps)).
  { destruct H as [H|[H _]]; [|exact H]. injection H as <-. cbn.
    repeat (constructor; [cbn [In]; intros H; repeat destruct H as [H|H]; try discriminate; exact H|]). constructor. }
  rewrite (set_params_eq ps m Hd). cbn [fst].
  assert (E : given ps "k_func" (m_k_func m) = m_k_func m /\ given ps "learner_id" (m_learner_id m) = m_learner_id m /\
              given ps "normalized" (m_normalized m) = m_normalized m).
  { destruct H as [H|[_ H]].
    - injection H as <-. repeat split; reflexivity.
    - assert (G : forall q (o : pval), In q ["k_func"; "normalized"; "learner_id"]%string -> given ps q o = o).
      { intros q o Hq. unfold given. destruct (dict_get ps q) as [v|] eqn:E; [|reflexivity]. exfalso.
        apply (H q); [|exact Hq]. clear - E. induction ps as [|[n' v'] ps IH]; [discriminate|]. cbn [dict_get] in E.
        cbn [map fst]. destruct (String.eqb q n') eqn:E1; [left; symmetry; apply String.eqb_eq; exact E1|right; apply IH; exact E]. }
      rewrite !G by (cbn [In]; tauto). repeat split; reflexivity. }
  destruct E as (-> & -> & ->). destruct m; reflexivity.
Qed.

(** ** C59 *)
(** C59, the part that holds: setting anything but k_func and normalized does not change what predict
    does. The full statement would allow any [ps]; it is false (C59_refuted). *)
Lemma pf_C59_partial :
  forall {XIn YIn W Y F P} (S : sklearn XIn YIn W Y F P) (m : machine Y F) ps X,
    NoDup (map fst ps) -> ~ In "k_func"%string (map fst ps) -> ~ In "normalized"%string (map fst ps) ->
    returned S (MPredict X) (mrun S [MSet ps] m) = returned S (MPredict X) m.
Proof.
  intros XIn YIn W Y F P S m ps X Hd H1 H2.
  assert (G : forall q (o : pval), ~ In q (map fst ps) -> given ps q o = o).
  { intros q o Hq. unfold given. destruct (dict_get ps q) as [v|] eqn:E; [|reflexivity]. exfalso. apply Hq.
    clear - E. induction ps as [|[n' v'] ps IH]; [discriminate|]. cbn [dict_get] in E. cbn [map fst].
    destruct (String.eqb q n') eqn:E1; [left; symmetry; apply String.eqb_eq; exact E1|right; apply IH; exact E]. }
  unfold returned, mrun. cbn [mstep]. unfold mfmap, bind, ret at 1 2.
  rewrite (set_params_eq ps m Hd). cbn [fst]. rewrite (G _ _ H1), (G _ _ H2). rewrite !predict_eq.
  cbn [m_km m_k_func m_normalized m_train m_estimator]. unfold calls_made. cbn [m_km m_calls].
  destruct (m_km m) as [t0|]; [|reflexivity].
  destruct (sk_check_array S X) as [z|err]; [|reflexivity].
  destruct (m_k_func m) as [K|s|b| |q]; try reflexivity.
  destruct (m_normalized m) as [K'|s|nrm| |q]; try reflexivity. cbv zeta.
  destruct (m_train m) as [[x ys]|]; [|reflexivity].
  destruct (attach_to z (Some x) _) as [t [[]|err]]; [|reflexivity].
  destruct (m_estimator m) as [[e f]|]; [|reflexivity].
  destruct (full xN t) as [t' r]. cbn [snd]. destruct (rbind r _); reflexivity.
Qed.

(** C59, what happens in general: predict uses the kernel and the flag set last, with the support
    vector machine trained on the matrix of the old kernel. *)
Lemma pf_C59_uses_new_kernel :
  forall {XIn YIn W Y F P} (S : sklearn XIn YIn W Y F P) m X z x ys n n' d K k nrm e f,
    m_km m <> None -> m_train m = Some (x, ys) -> m_estimator m = Some (e, f) ->
    sk_check_array S X = Ok z -> is_sample z n' d -> is_sample x n d ->
    never_raises K k z (Some x) n' n d -> kfmt K = true ->
    returned S (MPredict X)
      (mrun S [MSet [("k_func"%string, PKernel K); ("normalized"%string, PBool nrm)]] m) =
      res_map MPred (rbind (cross_gram nrm k n' n d z x) (fun G => rbind (sk_predict S e f G) (sk_cast S ys))).
Proof.
  intros XIn YIn W Y F P S m X z x ys n n' d K k nrm e f Hkm Ht He Hz Hz' Hx Hnr Hf.
  unfold returned. cbn [mrun mstep]. unfold mfmap at 1, bind.
  set (m' := fst (mfmap (fun _ => MUnit (P:=P)) (machine_set_params [("k_func"%string, PKernel K); ("normalized"%string, PBool nrm)]) m)).
  rewrite <- (pf_C56_predict S m' X z x ys n n' d K k nrm e f); try assumption.
  - destruct (machine_predict S X m') as [m1 [p|err]]; reflexivity.
  - reflexivity.
  - reflexivity.
Qed.

(** ** C69, C72 *)
(** C69, the part that holds: a fit whose data are rejected by check_X_y changes nothing. The full
    statement would cover every exception of fit; it is false (C69_refuted). *)
Lemma pf_C69_partial :
  forall {XIn YIn W Y F P} (S : sklearn XIn YIn W Y F P) (m : machine Y F) X y w e,
    sk_check_X_y S (m_regressor m) X y = Raise e -> mstep S (MFit X y w) m = (m, Raise e).
Proof.
  intros XIn YIn W Y F P S m X y w e H. cbn [mstep]. unfold mfmap, bind at 1, machine_fit.
  unfold bind at 1. cbn [get]. unfold bind at 1. destruct (m_regressor m); unfold bind, lift; rewrite H; reflexivity.
Qed.

(** C69: whenever a fitted machine is refitted with an unknown learner_id, fit raises
    NotImplementedError, and predict then combines the new training data with the old support vector
    machine. *)
Lemma pf_C69_mixed :
  forall {XIn YIn W Y F P} (S : sklearn XIn YIn W Y F P) m X y w x ys n d K k nrm s e f,
    validated S (m_regressor m) X y x ys -> is_sample x n d ->
    m_k_func m = PKernel K -> m_normalized m = PBool nrm -> m_learner_id m = PStr s ->
    get_estimator s = Raise NotImplementedErr -> m_estimator m = Some (e, f) ->
    kfmt K = true ->
    snd (machine_fit S X y w m) = Raise NotImplementedErr /\
    forall X' z n', sk_check_array S X' = Ok z -> is_sample z n' d -> never_raises K k z (Some x) n' n d ->
      snd (machine_predict S X' (fst (machine_fit S X y w m))) =
        rbind (cross_gram nrm k n' n d z x) (fun G => rbind (sk_predict S e f G) (sk_cast S ys)).
Proof.
  intros XIn YIn W Y F P S m X y w x ys n d K k nrm s e f Hv Hx Hk Hn Hl Hg He Hf.
  assert (Ha : admissible x None n n d) by (split; [exact Hx|reflexivity]).
  assert (E : exists t c, machine_fit S X y w m = (set_km t c (set_train (x, ys) m), Raise NotImplementedErr)).
  { assert (H1 : (if m_regressor m
       then
         xy <- lift (sk_check_X_y S true X y) ;;
         modify (set_train xy) ;;;
         y' <- lift (sk_float S (snd xy)) ;;
         modify (set_train (fst xy, y'))
       else
         xy <- lift (sk_check_X_y S false X y) ;;
         modify (set_train xy)) m = (set_train (x, ys) m, Ok tt)).
    { unfold validated in Hv. destruct (m_regressor m).
      - destruct Hv as (y0 & H1 & H2). unfold bind, lift, modify. rewrite H1. cbn [fst snd]. rewrite H2. reflexivity.
      - unfold bind, lift, modify. rewrite Hv. reflexivity. }
    unfold machine_fit. unfold bind at 1. cbn [get]. unfold bind at 1. rewrite H1.
    unfold bind at 1, new_km, bind at 1. cbn [get]. cbn [set_train m_k_func m_normalized]. rewrite Hk, Hn. unfold modify at 1.
    unfold bind at 1, attribute at 1, bind at 1. cbn [get]. cbn [set_km set_train m_train]. unfold ret at 1. cbn [fst snd].
    unfold bind at 1, with_km at 1. cbn [set_km m_km].
    rewrite (attach_to_ok _ x None n n d Ha).
    unfold bind at 1, lift at 1. rewrite Hl, Hg. eexists. eexists. reflexivity. }
  destruct E as (t & c & E). rewrite E. cbn [fst snd]. split; [reflexivity|].
  intros X' z n' Hz Hz' Hnr.
  apply (pf_C56_predict S _ X' z x ys n n' d K k nrm); try assumption; [discriminate|reflexivity].
Qed.

(** C72, the part that holds: with validated data, a kernel whose matrix can be computed and a support
    vector machine that trains without exception, fit succeeds for learner_id 'SVC' and 'SVM' in any
    upper or lower case, and for 'SVR' in KernelMachineRegressor. The full statement would allow 'SVR'
    in KernelMachine too; it is false (C72_refuted). *)
Lemma pf_C72_partial :
  forall {XIn YIn W Y F P} (S : sklearn XIn YIn W Y F P) m X y w x ys n d K k nrm s G,
    validated S (m_regressor m) X y x ys -> is_sample x n d ->
    m_k_func m = PKernel K -> m_normalized m = PBool nrm -> m_learner_id m = PStr s ->
    never_raises K k x None n n d -> kfmt K = true -> gram nrm k n d x = Ok G ->
    (forall v f, snd (sk_fit S v f G ys w) = Ok tt) ->
    lower s = "svc"%string \/ lower s = "svm"%string \/ lower s = "svr"%string /\ m_regressor m = true ->
    snd (machine_fit S X y w m) = Ok tt.
Proof.
  intros XIn YIn W Y F P S m X y w x ys n d K k nrm s G Hv Hx Hk Hn Hl Hnr Hf HG Hfit Hs.
  assert (E : exists eg, get_estimator s = Ok eg /\ (svm_regression (fst eg) = false \/ m_regressor m = true)).
  { unfold get_estimator. destruct Hs as [-> |[-> |[-> Hr]]]; eexists; (split; [reflexivity|]); [left; reflexivity|left; reflexivity|right; exact Hr]. }
  destruct E as (eg & Heg & Hr).
  destruct (pf_C56_fit S m X y w x ys n d K k nrm s eg Hv Hx Hk Hn Hl Heg Hnr Hf) as (_ & _ & H3).
  rewrite H3, HG. cbn [rbind]. rewrite Hfit. cbn [rbind].
  destruct Hr as [-> | ->]; [rewrite andb_false_r|]; reflexivity.
Qed.

(** C72, KernelMachine with learner_id='SVR': fit never succeeds. *)
Lemma pf_C72_svr :
  forall {XIn YIn W Y F P} (S : sklearn XIn YIn W Y F P) m X y w x ys n d K k nrm s G,
    validated S (m_regressor m) X y x ys -> is_sample x n d ->
    m_k_func m = PKernel K -> m_normalized m = PBool nrm -> m_learner_id m = PStr s ->
    never_raises K k x None n n d -> kfmt K = true -> gram nrm k n d x = Ok G ->
    (forall v f, snd (sk_fit S v f G ys w) = Ok tt) ->
    lower s = "svr"%string -> m_regressor m = false ->
    snd (machine_fit S X y w m) = Raise AttributeError.
Proof.
  intros XIn YIn W Y F P S m X y w x ys n d K k nrm s G Hv Hx Hk Hn Hl Hnr Hf HG Hfit Hs Hr.
  assert (Heg : get_estimator s = Ok (mkSVM true "precomputed" 10, range_C)) by (unfold get_estimator; rewrite Hs; reflexivity).
  destruct (pf_C56_fit S m X y w x ys n d K k nrm s _ Hv Hx Hk Hn Hl Heg Hnr Hf) as (_ & _ & H3).
  rewrite H3, HG. cbn [rbind]. rewrite Hfit. cbn [rbind]. rewrite Hr. reflexivity.
Qed.

(** ** Examples and counterexamples: LinearKernel on the sample [[1], [2]] *)
(*BEGIN PROP*)
(** A stand-in for sklearn that accepts everything, remembers the matrix it was trained on and
    returns it together with the test matrix. *)
Definition sk0 : sklearn (ndarray xr) unit unit unit (option (arr xr)) (option (arr xr) * arr xr) :=
  mkSk (fun _ X _ => Ok (X, tt)) (fun X => Ok X) (fun y => Ok y) (fun _ p => Ok p) (fun p => Ok p)
       None (fun _ _ G _ _ => (Some G, Ok tt)) (fun _ f G => Ok (f, G)).
(** The sample [[3], [4]]. *)
Definition x34 : ndarray xr := mkNd [2; 1] [Fin 3; Fin 4].
Definition linear_machine (regressor : bool) (learner : string) : machine unit (option (arr xr)) :=
  machine_new regressor (PKernel (builtin KLinear)) (PStr learner) (PBool false).
(*END PROP*)

Lemma fit_run : forall {XIn YIn W Y F P} (S : sklearn XIn YIn W Y F P) X y w m,
  fst (mstep S (MFit X y w) m) = fst (machine_fit S X y w m).
Proof.
  intros. cbn [mstep]. unfold mfmap, bind. destruct (machine_fit S X y w m) as [m1 [[]|e]]; reflexivity.
Qed.

Lemma run_two : forall {XIn YIn W Y F P} (S : sklearn XIn YIn W Y F P) X y w v m,
  mrun S [MFit X y w; MSet [("learner_id"%string, v)]] m = set_learner_id v (fst (machine_fit S X y w m)).
Proof. intros. cbn [mrun]. rewrite fit_run. generalize (fst (machine_fit S X y w m)). reflexivity. Qed.

Lemma run_fit : forall {XIn YIn W Y F P} (S : sklearn XIn YIn W Y F P) X y w m,
  mrun S [MFit X y w] m = fst (machine_fit S X y w m).
Proof. intros. cbn [mrun]. apply fit_run. Qed.

Lemma s12 : is_sample x12 2 1.
Proof. exists []. split; [reflexivity|constructor]. Qed.
Lemma s34 : is_sample x34 2 1.
Proof. exists []. split; [reflexivity|constructor]. Qed.

Lemma linear_fit : forall regressor learner eg, get_estimator learner = Ok eg ->
  regressor = true \/ svm_regression (fst eg) = false ->
  returned sk0 (MFit x12 tt tt) (linear_machine regressor learner) = Ok MUnit /\
  forall X z n', sk_check_array sk0 X = Ok z -> is_sample z n' 1 -> length (nd_data z) = n' * 1 ->
    returned sk0 (MPredict X) (mrun sk0 [MFit x12 tt tt] (linear_machine regressor learner)) =
    Ok (MPred (Some (mkArr Dense (kernel_matrix xdot 2 2 1 x12 None)),
               mkArr Dense (kernel_matrix xdot n' 2 1 z (Some x12)))).
Proof.
  intros regressor learner eg Hg Hr.
  destruct (pf_C56_fit_predict sk0 (linear_machine regressor learner) x12 tt tt x12 tt 2 1 (builtin KLinear) xdot false
              learner eg (mkArr Dense (kernel_matrix xdot 2 2 1 x12 None))) as [H1 H2];
    try reflexivity; try assumption.
  - unfold validated. cbn [linear_machine machine_new m_regressor]. destruct regressor; [|reflexivity].
    exists tt. split; reflexivity.
  - exact s12.
  - apply linear_total; reflexivity.
  - unfold returned. cbn [mrun mstep]. unfold mfmap at 1 2 3, bind.
    destruct (machine_fit sk0 x12 tt tt (linear_machine regressor learner)) as [m1 r1]. cbn [fst snd] in *. subst r1.
    unfold ret. cbn [fst snd]. split; [reflexivity|]. intros X z n' Hz Hz' Hlen.
    specialize (H2 X z n' Hz Hz').
    assert (HP : snd (machine_predict sk0 X m1) = Ok (Some (mkArr Dense (kernel_matrix xdot 2 2 1 x12 None)),
               mkArr Dense (kernel_matrix xdot n' 2 1 z (Some x12)))).
    { rewrite H2; [reflexivity|]. apply linear_total; [exact Hlen|reflexivity]. }
    destruct (machine_predict sk0 X m1) as [m2 r2]. cbn [snd] in HP. subst r2. reflexivity.
Qed.

(** C56 applies: training on [[1], [2]] with the linear kernel and predicting on [[3], [4]] hands over
    [[1, 2], [2, 4]] and [[3, 6], [4, 8]]. *)
Lemma pf_C56_example :
  returned sk0 (MPredict x34) (mrun sk0 [MFit x12 tt tt] (linear_machine false "SVC")) =
  Ok (MPred (Some (mkArr Dense (mkMat 2 2 [[Fin 1; Fin 2]; [Fin 2; Fin 4]])),
             mkArr Dense (mkMat 2 2 [[Fin 3; Fin 6]; [Fin 4; Fin 8]]))).
Proof.
  destruct (linear_fit false "SVC" _ eq_refl (or_intror eq_refl)) as [_ H].
  rewrite (H x34 x34 2 eq_refl s34 eq_refl). calc. repeat f_equal; lra.
Qed.

(** C57 applies to the built-in kernels: they are steady. *)
Lemma pf_C57_builtin : forall k, steady (builtin k).
Proof. intros k t u v. reflexivity. Qed.

(** C57: an instance with other predictions in between, one of which raises. *)
Lemma pf_C57_example :
  returned sk0 (MPredict (mkNd [1; 2] [Fin 1; Fin 1])) (mrun sk0 [MFit x12 tt tt] (linear_machine false "SVC")) =
    Raise ValueError /\
  returned sk0 (MPredict x34) (mrun sk0 [MPredict x12; MPredict (mkNd [1; 2] [Fin 1; Fin 1]); MGet]
                                 (mrun sk0 [MFit x12 tt tt] (linear_machine false "SVC"))) =
  Ok (MPred (Some (mkArr Dense (mkMat 2 2 [[Fin 1; Fin 2]; [Fin 2; Fin 4]])),
             mkArr Dense (mkMat 2 2 [[Fin 3; Fin 6]; [Fin 4; Fin 8]]))).
Proof.
  split.
  - calc. reflexivity.
  - rewrite pf_C57_repeatable; [exact pf_C56_example| |].
    + intros o [<-|[<-|[<-|[]]]]; exact I.
    + intros K H. assert (HK : m_k_func (mrun sk0 [MFit x12 tt tt] (linear_machine false "SVC")) = PKernel (builtin KLinear)).
      { calc. reflexivity. }
      rewrite HK in H. injection H as <-. apply pf_C57_builtin.
Qed.

(** C58: an instance. *)
Lemma pf_C58_example :
  returned sk0 MGet (mrun sk0 [MSet [("normalized"%string, PBool true); ("gamma"%string, POther 0)]]
                          (linear_machine true "SVR")) =
  Ok (MParams [("k_func"%string, PKernel (builtin KLinear)); ("normalized"%string, PBool true);
               ("learner_id"%string, PStr "SVR")]).
Proof. reflexivity. Qed.

(** C59 is false: after set_params(k_func=...) without a new fit, predict uses the new kernel. *)
Lemma pf_C59_refuted :
  exists (m : machine unit (option (arr xr))) ps,
    m = mrun sk0 [MFit x12 tt tt] (linear_machine false "SVC") /\
    returned sk0 (MPredict x34) m =
      Ok (MPred (Some (mkArr Dense (mkMat 2 2 [[Fin 1; Fin 2]; [Fin 2; Fin 4]])),
                 mkArr Dense (mkMat 2 2 [[Fin 3; Fin 6]; [Fin 4; Fin 8]]))) /\
    returned sk0 (MPredict x34) (mrun sk0 [MSet ps] m) =
      Ok (MPred (Some (mkArr Dense (mkMat 2 2 [[Fin 1; Fin 2]; [Fin 2; Fin 4]])),
                 mkArr Dense (mkMat 2 2 [[Fin 9; Fin 36]; [Fin 16; Fin 64]]))).
Proof.
  eexists. exists [("k_func"%string, PKernel (builtin (KPoly 2 1 0))); ("normalized"%string, PBool false)].
  split; [reflexivity|]. split; [exact pf_C56_example|].
  pose proof (linear_total x12 None 2 2 1 eq_refl eq_refl) as Hnr.
  destruct (pf_C56_fit sk0 (linear_machine false "SVC") x12 tt tt x12 tt 2 1 (builtin KLinear) xdot false "SVC"
              (mkSVM false "precomputed" 10, range_C) eq_refl s12 eq_refl eq_refl eq_refl eq_refl Hnr eq_refl)
    as (H1 & H2 & H3).
  assert (Em : mrun sk0 [MFit x12 tt tt] (linear_machine false "SVC") = fst (machine_fit sk0 x12 tt tt (linear_machine false "SVC"))).
  { apply run_fit. }
  rewrite Em.
  rewrite (pf_C59_uses_new_kernel sk0 _ x34 x34 x12 tt 2 2 1 (builtin (KPoly 2 1 0)) (valueOf (KPoly 2 1 0)) false
             (mkSVM false "precomputed" 10) (Some (mkArr Dense (kernel_matrix xdot 2 2 1 x12 None)))).
  - calc. repeat f_equal; lra.
  - apply (fitted_fields sk0 (linear_machine false "SVC") x12 tt tt x12 tt (builtin KLinear) false "SVC"
      (mkSVM false "precomputed" 10, range_C) eq_refl eq_refl eq_refl eq_refl eq_refl).
  - exact H1.
  - exact (H2 _ eq_refl).
  - reflexivity.
  - exact s34.
  - exact s12.
  - intros t u v Hu Hv. cbn [builtin kf fst]. unfold kernel_rows.
    apply is_row_length in Hu; [|reflexivity|reflexivity]. apply is_row_length in Hv; [|reflexivity|reflexivity].
    rewrite Hu, Hv. reflexivity.
  - reflexivity.
Qed.

Lemma C69_aux : forall m1 : machine unit (option (arr xr)),
  m_km m1 <> None -> m_k_func m1 = PKernel (builtin KLinear) -> m_normalized m1 = PBool false -> m_regressor m1 = false ->
  m_train m1 = Some (x12, tt) ->
  m_estimator m1 = Some (mkSVM false "precomputed" 10, Some (mkArr Dense (kernel_matrix xdot 2 2 1 x12 None))) ->
  let m := set_learner_id (PStr "KRR") m1 in
  snd (machine_fit sk0 x34 tt tt m) = Raise NotImplementedErr /\
  snd (machine_predict sk0 x12 m) = Ok (Some (mkArr Dense (kernel_matrix xdot 2 2 1 x12 None)),
                                        mkArr Dense (kernel_matrix xdot 2 2 1 x12 (Some x12))) /\
  snd (machine_predict sk0 x12 (fst (machine_fit sk0 x34 tt tt m))) =
    Ok (Some (mkArr Dense (kernel_matrix xdot 2 2 1 x12 None)), mkArr Dense (kernel_matrix xdot 2 2 1 x12 (Some x34))).
Proof.
  intros m1 K1 K2 K3 K4 H1 H2 m.
  assert (HV : validated sk0 (m_regressor m) x34 tt x34 tt)
    by (unfold validated, m; cbn [set_learner_id m_regressor]; rewrite K4; reflexivity).
  destruct (pf_C69_mixed sk0 m x34 tt tt x34 tt 2 1 (builtin KLinear) xdot false "KRR"
       (mkSVM false "precomputed" 10) (Some (mkArr Dense (kernel_matrix xdot 2 2 1 x12 None)))
       HV s34 K2 K3 eq_refl eq_refl H2 eq_refl) as [Q1 Q2].
  split; [exact Q1|]. split.
  - rewrite (pf_C56_predict sk0 m x12 x12 x12 tt 2 2 1 (builtin KLinear) xdot false
       (mkSVM false "precomputed" 10) (Some (mkArr Dense (kernel_matrix xdot 2 2 1 x12 None)))
       K1 H1 H2 K2 K3 eq_refl s12 s12 (linear_total x12 (Some x12) 2 2 1 eq_refl eq_refl) eq_refl). reflexivity.
  - rewrite (Q2 x12 x12 2 eq_refl s12 (linear_total x12 (Some x34) 2 2 1 eq_refl eq_refl)). reflexivity.
Qed.

Lemma mats12 : kernel_matrix xdot 2 2 1 x12 None = mkMat 2 2 [[Fin 1; Fin 2]; [Fin 2; Fin 4]] /\
  kernel_matrix xdot 2 2 1 x12 (Some x12) = mkMat 2 2 [[Fin 1; Fin 2]; [Fin 2; Fin 4]] /\
  kernel_matrix xdot 2 2 1 x12 (Some x34) = mkMat 2 2 [[Fin 3; Fin 4]; [Fin 6; Fin 8]].
Proof. split; [|split]; calc; repeat f_equal; lra. Qed.

(** C69 is false: a refit that raises (here because of an unknown learner_id) makes predict use the
    new training data with the support vector machine trained on the old ones. *)
Lemma pf_C69_refuted :
  exists (m : machine unit (option (arr xr))),
    m = mrun sk0 [MFit x12 tt tt; MSet [("learner_id"%string, PStr "KRR")]] (linear_machine false "SVC") /\
    returned sk0 (MFit x34 tt tt) m = Raise NotImplementedErr /\
    returned sk0 (MPredict x12) m =
      Ok (MPred (Some (mkArr Dense (mkMat 2 2 [[Fin 1; Fin 2]; [Fin 2; Fin 4]])),
                 mkArr Dense (mkMat 2 2 [[Fin 1; Fin 2]; [Fin 2; Fin 4]]))) /\
    returned sk0 (MPredict x12) (mrun sk0 [MFit x34 tt tt] m) =
      Ok (MPred (Some (mkArr Dense (mkMat 2 2 [[Fin 1; Fin 2]; [Fin 2; Fin 4]])),
                 mkArr Dense (mkMat 2 2 [[Fin 3; Fin 4]; [Fin 6; Fin 8]]))).
Proof.
  eexists. split; [reflexivity|].
  rewrite run_two.
  destruct (pf_C56_fit sk0 (linear_machine false "SVC") x12 tt tt x12 tt 2 1 (builtin KLinear) xdot false "SVC"
              (mkSVM false "precomputed" 10, range_C) eq_refl s12 eq_refl eq_refl eq_refl eq_refl
              (linear_total x12 None 2 2 1 eq_refl eq_refl) eq_refl)
    as (H1 & H2 & _). specialize (H2 _ eq_refl).
  destruct (fitted_fields sk0 (linear_machine false "SVC") x12 tt tt x12 tt (builtin KLinear) false "SVC"
    (mkSVM false "precomputed" 10, range_C) eq_refl eq_refl eq_refl eq_refl eq_refl) as (K1 & K2 & K3 & K4).
  destruct (C69_aux _ K1 K2 K3 K4 H1 H2) as (Q1 & Q2 & Q3). destruct mats12 as (M1 & M2 & M3).
  rewrite run_fit. unfold returned. cbn [mstep]. unfold mfmap, bind.
  revert Q1 Q2 Q3. rewrite M1, M2, M3.
  destruct (machine_fit sk0 x34 tt tt _) as [m2 r2].
  destruct (machine_predict sk0 x12 (set_learner_id _ _)) as [m3 r3]. cbn [fst].
  destruct (machine_predict sk0 x12 m2) as [m4 r4]. cbn [snd]. intros -> -> ->.
  split; [reflexivity|]. split; reflexivity.
Qed.

(** C69, a new machine: if the first fit raises because of an unknown learner_id, predict then raises
    AttributeError instead of NotFittedError. *)
Lemma pf_C69_refuted_first :
  returned sk0 (MFit x12 tt tt) (linear_machine false "KRR") = Raise NotImplementedErr /\
  returned sk0 (MPredict x12) (mrun sk0 [MFit x12 tt tt] (linear_machine false "KRR")) = Raise AttributeError.
Proof. split; calc; reflexivity. Qed.

(** C72 is false: KernelMachine(learner_id='SVR') raises AttributeError in fit, while SVC works and
    KernelMachineRegressor accepts both. *)
Lemma pf_C72_refuted :
  returned sk0 (MFit x12 tt tt) (linear_machine false "SVR") = Raise AttributeError /\
  returned sk0 (MFit x12 tt tt) (linear_machine false "SVC") = Ok MUnit /\
  returned sk0 (MFit x12 tt tt) (linear_machine true "SVR") = Ok MUnit /\
  returned sk0 (MFit x12 tt tt) (linear_machine true "SVC") = Ok MUnit.
Proof.
  split; [|split; [|split]].
  - pose proof (pf_C72_svr sk0 (linear_machine false "SVR") x12 tt tt x12 tt 2 1 (builtin KLinear) xdot false "SVR"
      (mkArr Dense (kernel_matrix xdot 2 2 1 x12 None)) eq_refl s12 eq_refl eq_refl eq_refl
      (linear_total x12 None 2 2 1 eq_refl eq_refl) eq_refl eq_refl (fun _ _ => eq_refl) eq_refl eq_refl) as H.
    unfold returned. cbn [mstep]. unfold mfmap, bind.
    destruct (machine_fit sk0 x12 tt tt (linear_machine false "SVR")) as [m1 r1]. cbn [snd] in H. subst r1. reflexivity.
  - apply (linear_fit false "SVC" _ eq_refl (or_intror eq_refl)).
  - apply (linear_fit true "SVR" _ eq_refl (or_introl eq_refl)).
  - apply (linear_fit true "SVC" _ eq_refl (or_introl eq_refl)).
Qed.
