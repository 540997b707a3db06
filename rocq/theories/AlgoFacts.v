(** Lemmas about the estimators. *)
From Coq Require Import String Reals List Arith ZArith Bool Lia Lra FunctionalExtensionality.
Import ListNotations.
From Verif Require Import Prelude MatModel UtilsModel KMModel SpecKM XReal OpsModel SpecLinAlg KernelsModel
  KMXModel SetModel SpecSet BucketModel RankModel SpecRank AlgoModel SpecAlgo.
From Verif Require Import MatFacts MFacts KMFacts KMInv KMTotal KMHist KMHist2 KMProps OpsFacts OpsProps KMXProps.

Local Open Scope list_scope.
Local Open Scope nat_scope.

Lemma res_map_OArr_inj : forall {V U} (a b : res (arr V)),
  res_map (@OArr V U) a = res_map OArr b -> a = b.
Proof. intros V U [a|e] [b|e'] H; cbn in H; try discriminate; injection H as ->; reflexivity. Qed.

(** [full] of a KernelMatrix just attached to two samples. *)
Lemma normed_fresh_two : forall {U} (K : kernel xr xr) k (pre : list (op xr U)) x y n m d,
  never_raises K k x (Some y) n m d -> kfmt K = true -> admissible x (Some y) n m d ->
  outcome xN OpFull (after xN K true pre x (Some y) [])
  = res_map OArr (cross_gram true k n m d x y).
Proof.
  intros U K k pre x y n m d Hnr Hfmt Hadm.
  assert (Hg := S1_good xN K k true pre [] x (Some y) n m d Hadm eq_refl
                  false false Hnr (fun H => ltac:(discriminate)) (fun _ ix (H : In _ []) => match H with end)).
  set (s := after xN K true pre x (Some y) []) in *.
  assert (H := full_total xN K k true (stored n d x) (stored2 n m d x (Some y)) true n m d _
                 (nr_stored K k x (Some y) n m d Hadm Hnr) eq_refl (stored2_shape x (Some y) n m d Hadm)
                 (stored2_one x (Some y) n m d Hadm) false false _ Hg).
  unfold holds in H. destruct H as (_ & _ & H & _). destruct (H eq_refl) as (a & meth & Hc & Hr).
  unfold outcome, step. rewrite outcome_fmap. f_equal.
  destruct Hc as [[Hf Ha]|[(H1 & _)|(H1 & _)]]; [|discriminate|discriminate].

  change true with (is_some (Some y)) in Ha. rewrite (KMat_spec k x (Some y) n m d) in Ha. destruct a as [f A]. cbn in Hf, Ha. subst f A.
  unfold cross_gram.
  destruct Hr as [(nk & -> & Hn)|[[_ H1]|(e & -> & Hn)]]; [| congruence|]; symmetry; exact Hn.
Qed.

Lemma full_fresh_two : forall {U} (K : kernel xr xr) k nrm (pre : list (op xr U)) x y n m d,
  never_raises K k x (Some y) n m d -> kfmt K = true -> admissible x (Some y) n m d ->
  snd (full xN (after xN K nrm pre x (Some y) [])) = cross_gram nrm k n m d x y.
Proof.
  intros U K k nrm pre x y n m d Hnr Hf Ha. apply (@res_map_OArr_inj xr U). destruct nrm.
  - rewrite <- (normed_fresh_two K k pre x y n m d Hnr Hf Ha). unfold outcome, step.
    rewrite outcome_fmap. reflexivity.
  - rewrite <- outcome_fmap. change (fmap OArr (full xN)) with (@step xr xr U xN OpFull).
    apply (pf_C04_full_partial xN K k pre [] x (Some y) n m d Hnr Hf Ha eq_refl); intros H; inversion 1 || inversion H.
Qed.

Lemma full_fresh_one : forall {U} (K : kernel xr xr) k nrm (pre : list (op xr U)) x n d,
  never_raises K k x None n n d -> kfmt K = true -> is_sample x n d ->
  snd (full xN (after xN K nrm pre x None [])) = gram nrm k n d x.
Proof.
  intros U K k nrm pre x n d Hnr Hf Hx.
  assert (Ha : admissible x None n n d) by (split; [exact Hx|reflexivity]).
  apply (@res_map_OArr_inj xr U). rewrite <- outcome_fmap.
  change (fmap OArr (full xN)) with (@step xr xr U xN OpFull). destruct nrm.
  - apply (pf_C03_one_sample K k pre [] x n d OpFull Hnr Hf Ha eq_refl). left. reflexivity.
  - apply (pf_C04_full_partial xN K k pre [] x None n n d Hnr Hf Ha eq_refl); intros H; inversion 1 || inversion H.
Qed.

Lemma shift_never : forall c K k x y n m d, never_raises K k x y n m d -> never_raises (shift c K) k x y n m d.
Proof. intros c K k x y n m d H t u v. cbn [shift kf]. apply H. Qed.

Lemma shift_steady : forall c c' K, steady K -> shift c K = shift c' K.
Proof.
  intros c c' K H. unfold shift. f_equal. extensionality t. extensionality u. extensionality v.
  rewrite !(H (_ + t)). reflexivity.
Qed.

Lemma after_attach : forall {U} K nrm (pre : list (op xr U)) x y n m d, admissible x y n m d ->
  attach_to x y (before xN K nrm pre) = (after xN K nrm pre x y [], Ok tt).
Proof.
  intros U K nrm pre x y n m d Ha. rewrite (attach_to_ok _ x y n m d Ha).
  unfold after, before. rewrite run_app. cbn [run step]. unfold fmap, bind, ret.
  rewrite (attach_to_ok _ x y n m d Ha). reflexivity.
Qed.

Section MachineFacts.
  Context {XIn YIn W Y F P : Type}.
  Variable S : sklearn XIn YIn W Y F P.

  (** [predict], step by step. *)
  Lemma predict_eq : forall (m : machine Y F) X,
    machine_predict S X m =
    match m_km m with
    | None => (m, Raise NotFittedErr)
    | Some _ =>
      match sk_check_array S X with
      | Raise err => (m, Raise err)
      | Ok z =>
        match m_k_func m, m_normalized m with
        | PKernel K, PBool nrm =>
          let c := calls_made m in
          match m_train m with
          | None => (set_km (km_new (shift c K) nrm []) c m, Raise AttributeError)
          | Some (x, ys) =>
            match attach_to z (Some x) (km_new (shift c K) nrm []) with
            | (t, Raise err) => (set_km t c m, Raise err)
            | (t, Ok _) =>
              match m_estimator m with
              | None => (set_km t c m, Raise AttributeError)
              | Some (e, f) =>
                let (t', r) := full xN t in
                (set_km t' c m, rbind r (fun G => rbind (sk_predict S e f G) (sk_cast S ys)))
              end
            end
          end
        | _, _ => (m, Raise TypeError)
        end
      end
    end.
  Proof.
    intros m X. unfold machine_predict. unfold bind at 1. cbn [get].
    destruct (m_km m) as [t0|] eqn:Hkm; [|reflexivity].
    unfold bind at 1, lift at 1. destruct (sk_check_array S X) as [z|err]; [|reflexivity].
    unfold bind at 1, new_km, bind at 1. cbn [get].
    destruct (m_k_func m) as [K|s|b| |q]; try reflexivity.
    destruct (m_normalized m) as [K'|s|nrm| |q]; try reflexivity. unfold modify.
    unfold bind at 1, attribute at 1, bind at 1. cbn [get]. cbn [set_km m_train].
    destruct (m_train m) as [[x ys]|]; [|reflexivity]. unfold ret.
    cbn [fst snd]. unfold bind at 1, with_km at 1. cbn [set_km m_km]. cbv zeta.
    destruct (attach_to z (Some x) (km_new (shift (calls_made m) K) nrm [])) as [t [[]|err]]; [|reflexivity].
    unfold bind at 1, attribute at 1, bind at 1. cbn [get]. cbn [set_km m_estimator m_calls].
    destruct (m_estimator m) as [[e f]|]; [|reflexivity]. unfold ret.
    unfold bind at 1, with_km at 1. cbn [set_km m_km].
    destruct (full xN t) as [t' [G|err]]; [|reflexivity].
    unfold bind, lift. cbn [fst snd rbind].
    destruct (sk_predict S e f G) as [p|err]; reflexivity.
  Qed.

  (** Two machines alike up to the KernelMatrix object they hold. *)
  Definition alike (m m' : machine Y F) : Prop :=
    m_regressor m' = m_regressor m /\ m_k_func m' = m_k_func m /\ m_learner_id m' = m_learner_id m /\
    m_normalized m' = m_normalized m /\ m_train m' = m_train m /\ m_estimator m' = m_estimator m /\
    is_some (m_km m') = is_some (m_km m).

  Lemma alike_refl : forall m, alike m m.
  Proof. intros m. unfold alike. tauto. Qed.

  Lemma alike_trans : forall a b c, alike a b -> alike b c -> alike a c.
  Proof.
    unfold alike. intros a b c (A1 & A2 & A3 & A4 & A5 & A6 & A7) (B1 & B2 & B3 & B4 & B5 & B6 & B7).
    rewrite B1, B2, B3, B4, B5, B6, B7. tauto.
  Qed.

  Lemma alike_set_km : forall m t c, is_some (m_km m) = true -> alike m (set_km t c m).
  Proof. intros m t c H. unfold alike. cbn [set_km m_regressor m_k_func m_learner_id m_normalized m_train m_estimator m_km]. rewrite H. tauto. Qed.

  Lemma predict_keeps : forall m X, alike m (fst (machine_predict S X m)).
  Proof.
    intros m X. rewrite predict_eq. destruct (m_km m) as [t0|] eqn:Hkm; [|apply alike_refl].
    assert (H : is_some (m_km m) = true) by (rewrite Hkm; reflexivity).
    destruct (sk_check_array S X) as [z|err]; [|apply alike_refl].
    destruct (m_k_func m) as [K|s|b| |q] eqn:Hk; try apply alike_refl.
    destruct (m_normalized m) as [K'|s|nrm| |q] eqn:Hn; try apply alike_refl. cbv zeta.
    destruct (m_train m) as [[x ys]|] eqn:Ht; [|apply alike_set_km; exact H].
    destruct (attach_to z (Some x) _) as [t [[]|err]]; [|apply alike_set_km; exact H].
    destruct (m_estimator m) as [[e f]|] eqn:He; [|apply alike_set_km; exact H].
    destruct (full xN t) as [t' r]. apply alike_set_km. exact H.
  Qed.

  Lemma predict_alike : forall m m' X, alike m m' -> (forall K, m_k_func m = PKernel K -> steady K) ->
    snd (machine_predict S X m') = snd (machine_predict S X m).
  Proof.
    intros m m' X (_ & A2 & _ & A4 & A5 & A6 & A7) HK. rewrite !predict_eq. rewrite A2, A4, A5, A6.
    destruct (m_km m) as [t0|], (m_km m') as [t1|]; cbn [is_some] in A7; try discriminate; [|reflexivity].
    destruct (sk_check_array S X) as [z|err]; [|reflexivity].
    destruct (m_k_func m) as [K|s|b| |q] eqn:Hk; try reflexivity.
    destruct (m_normalized m) as [K'|s|nrm| |q] eqn:Hn; try reflexivity. cbv zeta.
    rewrite (shift_steady (calls_made m') (calls_made m) K (HK K eq_refl)).
    destruct (m_train m) as [[x ys]|] eqn:Ht; [|reflexivity].
    destruct (attach_to z (Some x) _) as [t [[]|err]]; [|reflexivity].
    destruct (m_estimator m) as [[e f]|] eqn:He; [|reflexivity].
    destruct (full xN t) as [t' r]. reflexivity.
  Qed.

  (** [fit], once the data are validated. *)
  Lemma fit_eq : forall (m : machine Y F) X y w x ys K nrm s eg,
    validated S (m_regressor m) X y x ys ->
    m_k_func m = PKernel K -> m_normalized m = PBool nrm -> m_learner_id m = PStr s ->
    get_estimator s = Ok eg ->
    machine_fit S X y w m =
    let c := calls_made m in
    let m1 := set_train (x, ys) m in
    match attach_to x None (km_new (shift c K) nrm []) with
    | (t, Raise err) => (set_km t c m1, Raise err)
    | (t, Ok _) =>
        let (t', r) := full xN t in
        match r with
        | Raise err => (set_km t' c (set_estimator (fst eg, sk_new S) m1), Raise err)
        | Ok G =>
            let fr := sk_fit S (fst eg) (sk_new S) G ys w in
            (set_km t' c (set_estimator (fst eg, fst fr) m1),
             rbind (snd fr) (fun _ => if negb (m_regressor m) && svm_regression (fst eg)
                                      then Raise AttributeError else Ok tt))
        end
    end.
  Proof.
    intros m X y w x ys K nrm s eg Hv Hk Hn Hl Hg.
    assert (H1 : (if m_regressor m
       then
         xy <- lift (sk_check_X_y S true X y) ;;
         modify (set_train xy) ;;;
         y' <- lift (sk_float S (snd xy)) ;;
         modify (set_train (fst xy, y'))
       else
         xy <- lift (sk_check_X_y S false X y) ;;
         modify (set_train xy)) m = (set_train (x, ys) m, Ok tt)).
    { unfold validated in Hv. destruct (m_regressor m).
      - destruct Hv as (y0 & H1 & H2). unfold bind, lift, modify. rewrite H1. cbn [fst snd]. rewrite H2. reflexivity.
      - unfold bind, lift, modify. rewrite Hv. reflexivity. }
    unfold machine_fit. unfold bind at 1. cbn [get]. unfold bind at 1. rewrite H1.
    unfold bind at 1, new_km, bind at 1. cbn [get]. cbn [set_train m_k_func m_normalized]. rewrite Hk, Hn. unfold modify at 1.
    unfold bind at 1, attribute at 1, bind at 1. cbn [get]. cbn [set_km set_train m_train]. unfold ret at 1. cbn [fst snd].
    unfold bind at 1, with_km at 1. cbn [set_km m_km]. cbv zeta.
    change (calls_made (set_train (x, ys) m)) with (calls_made m).
    destruct (attach_to x None (km_new (shift (calls_made m) K) nrm [])) as [t [[]|err]]; [|reflexivity].
    unfold bind at 1, lift at 1. rewrite Hl, Hg. cbn [set_km m_calls].
    unfold bind at 1, modify at 1. cbn [set_estimator].
    unfold bind at 1, with_km at 1. cbn [set_estimator set_km m_km].
    destruct (full xN t) as [t' [G|err]]; [|reflexivity].
    cbv zeta. unfold bind at 1, modify at 1.
    unfold bind at 1, lift at 1. destruct (snd (sk_fit S (fst eg) (sk_new S) G ys w)) as [[]|err]; [|reflexivity].
    cbn [rbind]. unfold when. destruct (negb (m_regressor m) && svm_regression (fst eg)); reflexivity.
  Qed.
End MachineFacts.
