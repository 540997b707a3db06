(** What a failed fit of a KernelMachine leaves behind: property C69. *)
From Coq Require Import String Reals List Arith ZArith Bool Lia Lra.
Import ListNotations.
From Verif Require Import Prelude MatModel UtilsModel KMModel SpecKM XReal OpsModel SpecLinAlg KernelsModel
  KMXModel SetModel SpecSet BucketModel RankModel SpecRank AlgoModel SpecAlgo SpecFailMach.
From Verif Require Import MatFacts MFacts KMFacts KMInv KMHist KMHist2 KMProps OpsFacts OpsProps KMXProps SetFacts2
  AlgoFacts AlgoProps.
Local Open Scope list_scope.
Local Open Scope nat_scope.

Section FailMach.
  Context {XIn YIn W Y F P : Type}.
  Variable S : sklearn XIn YIn W Y F P.

  Definition targets (r : bool) (y1 : Y) : res Y := if r then sk_float S y1 else Ok y1.
  Definition learner (v : pval) : res (svm * list R) :=
    match v with PStr s => get_estimator s | _ => Raise AttributeError end.

  Lemma fit_view : forall (m : machine Y F) X y w, checks_samples S ->
    machine_fit S X y w m =
    match sk_check_X_y S (m_regressor m) X y with
    | Raise e => (m, Raise e)
    | Ok (x, y1) =>
      match targets (m_regressor m) y1 with
      | Raise e => (set_train (x, y1) m, Raise e)
      | Ok ys =>
        match m_k_func m, m_normalized m with
        | PKernel K, PBool nrm =>
          let c := calls_made m in
          let t := after (U := unit) xN (shift c K) nrm [] x None [] in
          match learner (m_learner_id m) with
          | Raise e => (set_km t c (set_train (x, ys) m), Raise e)
          | Ok (v, g) =>
            match full xN t with
            | (t', Raise e) => (set_km t' c (set_estimator (v, sk_new S) (set_train (x, ys) m)), Raise e)
            | (t', Ok G) =>
              let fr := sk_fit S v (sk_new S) G ys w in
              (set_km t' c (set_estimator (v, fst fr) (set_train (x, ys) m)),
               match snd fr with
               | Raise e => Raise e
               | Ok _ => if negb (m_regressor m) && svm_regression v then Raise AttributeError else Ok tt
               end)
            end
          end
        | _, _ => (set_train (x, ys) m, Raise TypeError)
        end
      end
    end.
  Proof.
    intros m X y w HS.
    assert (H1 : (if m_regressor m
       then
         xy <- lift (sk_check_X_y S true X y) ;;
         modify (set_train xy) ;;;
         y' <- lift (sk_float S (snd xy)) ;;
         modify (set_train (fst xy, y'))
       else
         xy <- lift (sk_check_X_y S false X y) ;;
         modify (set_train xy)) m =
       match sk_check_X_y S (m_regressor m) X y with
       | Raise e => (m, Raise e)
       | Ok (x, y1) => match targets (m_regressor m) y1 with
                       | Raise e => (set_train (x, y1) m, Raise e)
                       | Ok ys => (set_train (x, ys) m, Ok tt)
                       end
       end).
    { unfold targets. destruct (m_regressor m).
      - unfold bind, lift, modify. destruct (sk_check_X_y S true X y) as [[x y1]|e]; [|reflexivity].
        cbn [fst snd]. destruct (sk_float S y1); reflexivity.
      - unfold bind, lift, modify. destruct (sk_check_X_y S false X y) as [[x y1]|e]; reflexivity. }
    unfold machine_fit. unfold bind at 1. cbn [get]. unfold bind at 1. rewrite H1. clear H1.
    destruct (sk_check_X_y S (m_regressor m) X y) as [[x y1]|e] eqn:Hc; [|reflexivity].
    destruct (HS _ _ _ _ _ Hc) as (n & d & Hx).
    destruct (targets (m_regressor m) y1) as [ys|e] eqn:Ht; [|reflexivity].
    unfold bind at 1, new_km, bind at 1. cbn [get]. cbn [set_train m_k_func m_normalized].
    destruct (m_k_func m) as [K|s|b| |q]; try reflexivity.
    destruct (m_normalized m) as [K'|s|nrm| |q]; try reflexivity.
    unfold modify at 1.
    unfold bind at 1, attribute at 1, bind at 1. cbn [get]. cbn [set_km set_train m_train]. unfold ret at 1. cbn [fst snd].
    unfold bind at 1, with_km at 1. cbn [set_km m_km]. cbv zeta.
    replace (calls_made (set_train (x, ys) m)) with (calls_made m) by reflexivity.
    assert (Ha : admissible x None n n d) by (split; [exact Hx|reflexivity]).
    assert (At := after_attach (U := unit) (shift (calls_made m) K) nrm [] x None n n d Ha).
    unfold before in At. cbn [run] in At. rewrite At.
    unfold bind at 1, lift at 1. fold (learner (m_learner_id m)).
    destruct (learner (m_learner_id m)) as [[v g]|e]; [|reflexivity].
    unfold bind at 1, modify at 1. unfold bind at 1, with_km at 1. cbn [set_km set_estimator m_km].
    destruct (full xN (after xN (shift (calls_made m) K) nrm [] x None [])) as [t' [G|e]]; [|reflexivity].
    unfold bind at 1, modify at 1. unfold bind, lift. cbn [fst snd].
    destruct (snd (sk_fit S v (sk_new S) G ys w)) as [[]|e]; [|reflexivity].
    unfold when. destruct (negb (m_regressor m) && svm_regression v); reflexivity.
  Qed.

  Lemma predicts_fields : forall (m : machine Y F) x ys v f,
    m_km m <> None -> m_train m = Some (x, ys) -> m_estimator m = Some (v, f) -> predicts_with S m x ys v f.
  Proof.
    intros m x ys v f Hk Ht He X z n n' d K k nrm HK Hn Hz Hz' Hx Hnr Hf.
    rewrite <- (pf_C56_predict S m X z x ys n n' d K k nrm v f); try assumption.
    unfold returned. cbn [mstep]. unfold mfmap, bind.
    destruct (machine_predict S X m) as [m' [p|e]]; reflexivity.
  Qed.

  Lemma fit_step : forall (m : machine Y F) X y w,
    snd (mstep S (MFit X y w) m) = res_map (fun _ => MUnit) (snd (machine_fit S X y w m)) /\
    fst (mstep S (MFit X y w) m) = fst (machine_fit S X y w m).
  Proof.
    intros m X y w. cbn [mstep]. unfold mfmap, bind. destruct (machine_fit S X y w m) as [m' [[]|e]]; split; reflexivity.
  Qed.
End FailMach.

(** C69, exactly: whenever fit of a fitted machine raises, [failed_fit] lists the causes, and for each
    of them the training data and the support vector machine that later predictions combine. *)
Lemma pf_C69_exact :
  forall {XIn YIn W Y F P} (S : sklearn XIn YIn W Y F P) (m : machine Y F) X y w x0 y0 v0 f0 e,
    checks_samples S ->
    m_km m <> None -> m_train m = Some (x0, y0) -> m_estimator m = Some (v0, f0) ->
    returned S (MFit X y w) m = Raise e ->
    exists x ys v f,
      failed_fit S m X y w x0 y0 v0 f0 e x ys v f /\
      predicts_with S (mrun S [MFit X y w] m) x ys v f.
Proof.
  intros XIn YIn W Y F P S m X y w x0 y0 v0 f0 e HS Hkm Ht He Hr.
  unfold returned in Hr. cbn [mrun]. destruct (fit_step S m X y w) as [H1 H2]. rewrite H1 in Hr. rewrite H2.
  clear H1 H2. rewrite (fit_view S m X y w HS) in Hr |- *.
  destruct (sk_check_X_y S (m_regressor m) X y) as [[x y1]|e1] eqn:Hc.
  2:{ inversion Hr; subst e1. exists x0, y0, v0, f0. split; [apply rejected_data; exact Hc|].
      cbn [fst]. apply predicts_fields; assumption. }
  destruct (targets S (m_regressor m) y1) as [ys|e1] eqn:Hy.
  2:{ inversion Hr; subst e1. unfold targets in Hy. destruct (m_regressor m) eqn:Hreg; [|discriminate].
      exists x, y1, v0, f0. split; [apply rejected_targets; assumption|].
      cbn [fst]. apply predicts_fields; [exact Hkm|reflexivity|exact He]. }
  assert (Hv : validated S (m_regressor m) X y x ys).
  { unfold validated, targets in *. destruct (m_regressor m); [exists y1; auto|]. inversion Hy; subst. exact Hc. }
  assert (Hwp : (forall K nrm, ~ (m_k_func m = PKernel K /\ m_normalized m = PBool nrm)) -> e = TypeError ->
    exists x1 ys1 v f, failed_fit S m X y w x0 y0 v0 f0 e x1 ys1 v f /\
      predicts_with S (set_train (x, ys) m) x1 ys1 v f).
  { intros Hno ->. exists x, ys, v0, f0. split; [apply wrong_parameters; assumption|].
    apply predicts_fields; [exact Hkm|reflexivity|exact He]. }
  destruct (m_k_func m) as [K|s|b| |q] eqn:HK.
  2-5: cbn in Hr; apply Hwp; [intros ? ? [? ?]; congruence|congruence].
  destruct (m_normalized m) as [K'|s|nrm| |q] eqn:Hn.
  1,2,4,5: cbn in Hr; apply Hwp; [intros ? ? [? ?]; congruence|congruence].
  clear Hwp. cbv zeta in *.
  destruct (learner (m_learner_id m)) as [[v g]|e1] eqn:Hl.
  2:{ inversion Hr; subst e1. exists x, ys, v0, f0. split.
      - unfold learner in Hl. destruct (m_learner_id m) as [K1|s|b| |q] eqn:Hid.
        2: eapply unknown_learner; eassumption.
        all: inversion Hl; eapply no_learner_name; try eassumption; congruence.
      - cbn [fst]. apply predicts_fields; [discriminate|reflexivity|exact He]. }
  destruct (m_learner_id m) as [K1|s|b| |q] eqn:Hid; try discriminate. cbn [learner] in Hl.
  assert (HG : matrix_of m K nrm x = snd (full xN (after (U := unit) xN (shift (calls_made m) K) nrm [] x None [])))
    by reflexivity.
  destruct (full xN (after (U := unit) xN (shift (calls_made m) K) nrm [] x None [])) as [t' [G|e1]]; cbn [fst snd] in *.
  2:{ inversion Hr; subst e1. exists x, ys, v, (sk_new S). split; [eapply no_matrix; eassumption|].
      apply predicts_fields; [discriminate|reflexivity|reflexivity]. }
  destruct (snd (sk_fit S v (sk_new S) G ys w)) as [[]|e1] eqn:Hfit.
  - destruct (negb (m_regressor m) && svm_regression v) eqn:Hb; [|discriminate].
    inversion Hr; subst e. apply andb_true_iff in Hb. destruct Hb as [Hb1 Hb2]. apply negb_true_iff in Hb1.
    exists x, ys, v, (fst (sk_fit S v (sk_new S) G ys w)). split; [eapply no_classes; eassumption|].
    apply predicts_fields; [discriminate|reflexivity|reflexivity].
  - inversion Hr; subst e1.
    exists x, ys, v, (fst (sk_fit S v (sk_new S) G ys w)). split; [eapply no_training; eassumption|].
    apply predicts_fields; [discriminate|reflexivity|reflexivity].
Qed.

(** C69, the causes are the exact ones: each of them does make fit raise its exception. *)
Lemma pf_C69_causes :
  forall {XIn YIn W Y F P} (S : sklearn XIn YIn W Y F P) (m : machine Y F) X y w x0 y0 v0 f0 e x ys v f,
    checks_samples S -> failed_fit S m X y w x0 y0 v0 f0 e x ys v f ->
    returned S (MFit X y w) m = Raise e.
Proof.
  intros XIn YIn W Y F P S m X y w x0 y0 v0 f0 e x ys v f HS H.
  unfold returned. destruct (fit_step S m X y w) as [H1 _]. rewrite H1. clear H1.
  rewrite (fit_view S m X y w HS).
  assert (V : forall x ys, validated S (m_regressor m) X y x ys ->
    exists y1, sk_check_X_y S (m_regressor m) X y = Ok (x, y1) /\ targets S (m_regressor m) y1 = Ok ys).
  { intros x' ys' Hv. unfold validated, targets in *. destruct (m_regressor m); [exact Hv|].
    exists ys'. split; [exact Hv|reflexivity]. }
  inversion H; subst;
    try match goal with Hv : validated _ _ _ _ _ _ |- _ => destruct (V _ _ Hv) as (y1' & -> & ->) end.
  - match goal with Hc : sk_check_X_y _ _ _ _ = _ |- _ => rewrite Hc end. reflexivity.
  - match goal with Hc : sk_check_X_y _ _ _ _ = _, Hr : m_regressor m = true, Hf : sk_float _ _ = _ |- _ =>
      rewrite Hr, Hc; unfold targets; rewrite Hf end. reflexivity.
  - destruct (m_k_func m) as [K|s|b| |q]; try reflexivity.
    destruct (m_normalized m) as [K'|s|nrm| |q]; try reflexivity.
    exfalso. match goal with Hno : forall K nrm, ~ _ |- _ => apply (Hno K nrm); split; reflexivity end.
  - match goal with H1 : m_k_func m = _, H2 : m_normalized m = _, H3 : forall s, m_learner_id m <> _ |- _ =>
      rewrite H1, H2; destruct (m_learner_id m) as [?|s|?| |?]; try reflexivity; exfalso; apply (H3 s); reflexivity end.
  - match goal with H1 : m_k_func m = _, H2 : m_normalized m = _, H3 : m_learner_id m = _, H4 : get_estimator _ = _ |- _ =>
      rewrite H1, H2, H3; cbn [learner]; rewrite H4 end. reflexivity.
  - match goal with H1 : m_k_func m = _, H2 : m_normalized m = _, H3 : m_learner_id m = _, H4 : get_estimator _ = _,
      H5 : matrix_of _ _ _ _ = _ |- _ =>
      rewrite H1, H2, H3; cbn [learner]; rewrite H4; unfold matrix_of in H5 end. cbv zeta.
    destruct (full xN _) as [t' r]. cbn [snd] in *. subst r. reflexivity.
  - match goal with H1 : m_k_func m = _, H2 : m_normalized m = _, H3 : m_learner_id m = _, H4 : get_estimator _ = _,
      H5 : matrix_of _ _ _ _ = _, H6 : snd (sk_fit _ _ _ _ _ _) = _ |- _ =>
      rewrite H1, H2, H3; cbn [learner]; rewrite H4; unfold matrix_of in H5; cbv zeta;
      destruct (full xN _) as [t' r]; cbn [snd] in H5; subst r; cbn [snd]; rewrite H6 end. reflexivity.
  - match goal with H1 : m_k_func m = _, H2 : m_normalized m = _, H3 : m_learner_id m = _, H4 : get_estimator _ = _,
      H5 : matrix_of _ _ _ _ = _, H6 : snd (sk_fit _ _ _ _ _ _) = _, H7 : m_regressor m = _, H8 : svm_regression _ = _ |- _ =>
      rewrite H1, H2, H3; cbn [learner]; rewrite H4; unfold matrix_of in H5; cbv zeta;
      destruct (full xN _) as [t' r]; cbn [snd] in H5; subst r; cbn [snd]; rewrite H6, H7, H8 end. reflexivity.
Qed.

(*BEGIN PROP*)
(** A stand-in for sklearn that accepts two-dimensional arrays only, remembers the matrix it is trained
    on, and refuses to be trained on three points - after having remembered them. *)
Definition sk3 : sklearn (ndarray xr) unit unit unit (option (arr xr)) (option (arr xr) * arr xr) :=
  mkSk (fun _ X _ => match nd_shape X with [_; _] => Ok (X, tt) | _ => Raise ValueError end)
       (fun X => Ok X) (fun y => Ok y) (fun _ p => Ok p) (fun p => Ok p)
       None (fun _ _ G _ _ => (Some G, if mr (amat G) =? 3 then Raise ValueError else Ok tt))
       (fun _ f G => Ok (f, G)).
(** The sample [[1], [2], [3]]. *)
Definition x123 : ndarray xr := mkNd [3; 1] [Fin 1; Fin 2; Fin 3].
(*END PROP*)

(** C69_exact applies: a machine trained on [[1], [2]] is refitted on three points; the training raises
    ValueError, and from then on predictions use the three points and what that training left. *)
Lemma pf_C69_exact_example :
  exists v0 f0 e v G, let m := mrun sk3 [MFit x12 tt tt] (linear_machine false "SVC") in
    checks_samples sk3 /\ m_km m <> None /\ m_train m = Some (x12, tt) /\ m_estimator m = Some (v0, f0) /\
    returned sk3 (MFit x123 tt tt) m = Raise e /\
    failed_fit sk3 m x123 tt tt x12 tt v0 f0 e x123 tt v (Some G) /\ f0 <> Some G.
Proof.
  eexists. eexists. exists ValueError. eexists. eexists. cbv zeta.
  split.
  { intros b X y x ys H. cbn in H. destruct (nd_shape X) as [|n [|d [|]]] eqn:Hs; try discriminate.
    inversion H; subst. exists n, d, []. split; [exact Hs|constructor]. }
  split; [calc; discriminate|]. split; [calc; reflexivity|]. split; [calc; reflexivity|].
  split; [calc; reflexivity|]. split.
  - refine (no_training sk3 _ x123 tt tt x12 tt _ _ ValueError x123 tt (builtin KLinear) false "SVC"
      (mkSVM false "precomputed" 10) range_C
      (mkArr Dense (kernel_matrix xdot 3 3 1 x123 None)) _ _ _ _ _ _ _); try (calc; reflexivity).
  - calc. intros H. discriminate H.
Qed.
