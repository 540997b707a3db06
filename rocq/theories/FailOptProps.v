(** What a failed fit of OptimalKernelSVC or OptimalKernelSVR leaves, exactly: property C96. *)
From Coq Require Import String Reals List Arith ZArith Bool Lia Lra.
Import ListNotations.
From Verif Require Import Prelude MatModel UtilsModel KMModel SpecKM XReal OpsModel SpecLinAlg SpecKernels KernelsModel
  KMXModel SpecKMX SetModel SpecSet BucketModel SpecBucket RankModel SpecRank AlgoModel SpecAlgo SpecOpt SpecFailOpt.
From Verif Require Import MatFacts MFacts KMFacts KMInv KMTotal KMHist KMHist2 KMProps FullFacts RSum OpsFacts OpsProps KernelFacts KMXProps KMSteady
  SetFacts SetFacts2 SetProps ContProps CompositeFacts BucketProps RankFacts RankProps AlgoFacts AlgoProps OptFacts SpecOptCases OptProps.
Local Open Scope list_scope.
Local Open Scope nat_scope.

Section Settled.
  Context {U : Type}.
  Notation World := (world xr xr U).

  (** The matrix of the object has been computed. *)
  Definition settled (w : World) (l : nat) : Prop := exists K, obj_full xN l w = (w, Ok K).

  Lemma settled_now : forall l (w w' : World) K, obj_full xN l w = (w', Ok K) -> settled w' l.
  Proof.
    intros l w w' K H. rewrite obj_full_eq in H. exists K. rewrite obj_full_eq.
    destruct (nth_error (w_objs w) l) as [[s|A]|] eqn:E; [| |discriminate].
    - destruct (full xN s) as [s' r] eqn:Ef. cbn [fst snd] in H. injection H as <- ->. cbn [set_objs w_objs].
      rewrite (nth_error_upd_same _ _ _ _ E). rewrite (full_idem xN s s' K Ef). cbn [fst snd].
      rewrite (list_upd_same _ _ _ (nth_error_upd_same _ _ _ _ E)). reflexivity.
    - injection H as <- <-. rewrite E. reflexivity.
  Qed.

  Lemma settled_kept : forall l l' (w : World), settled w l -> settled (fst (obj_full xN l' w)) l.
  Proof.
    intros l l' w Hs. destruct (Nat.eq_dec l l') as [<-|Hne].
    - destruct Hs as [K HK]. rewrite HK. exists K. exact HK.
    - destruct Hs as [K HK]. rewrite obj_full_eq in HK. exists K. rewrite (obj_full_eq l).
      assert (E : nth_error (w_objs (fst (obj_full xN l' w))) l = nth_error (w_objs w) l).
      { rewrite obj_full_eq. destruct (nth_error (w_objs w) l') as [[s|A]|]; try reflexivity.
        cbn [fst set_objs w_objs]. apply nth_error_upd_other. congruence. }
      rewrite E. destruct (nth_error (w_objs w) l) as [[s|A]|] eqn:El; [| |discriminate].
      + assert (Hf : OKM (fst (full xN s)) = OKM (E:=xr) (V:=xr) (U:=U) s).
        { injection HK as Hw _. apply (f_equal w_objs) in Hw. cbn [set_objs w_objs] in Hw.
          apply (f_equal (fun os => nth_error os l)) in Hw. rewrite (nth_error_upd_same _ _ _ _ El) in Hw.
          rewrite El in Hw. congruence. }
        injection HK as _ Hr. rewrite Hr, Hf. f_equal. rewrite (list_upd_same _ _ _ E).
        destruct (fst (obj_full xN l' w)). reflexivity.
      + injection HK as <-. reflexivity.
  Qed.

  Lemma ranked_settled : forall {T} (best_score : svm * list R -> Z -> arr xr -> T -> res xr) (t : T) (n : string) z ms (w w' : World) ss,
    map_each ms (fun l => e <- lift (get_estimator n) ;; K <- obj_full xN l ;; lift (best_score e z K t)) w = (w', Ok ss) ->
    (forall l, settled w l -> settled w' l) /\ forall l, In l ms -> settled w' l.
  Proof.
    intros T best_score t n z ms. induction ms as [|l ms IH]; intros w w' ss H.
    { cbn in H. injection H as <- _. split; [auto|intros l []]. }
    cbn [map_each] in H. unfold bind at 1 in H. unfold bind at 1, lift at 1 in H.
    destruct (get_estimator n) as [e|x] eqn:Ee; [|discriminate]. unfold bind at 1 in H.
    assert (Hk := settled_now l w). assert (Hk' : forall l', settled w l' -> settled (fst (obj_full xN l w)) l')
      by (intros l' Hl'; apply settled_kept; exact Hl').
    destruct (obj_full xN l w) as [w1 [K|x]] eqn:Ef; [|discriminate]. cbn [fst] in Hk'. specialize (Hk w1 K eq_refl).
    unfold lift at 1 in H. destruct (best_score e z K t) as [v|x]; [|discriminate].
    unfold bind at 1 in H.
    match type of H with (match map_each ms ?f w1 with _ => _ end) = _ => destruct (map_each ms f w1) as [w2 [vs|x]] eqn:Em end;
      [|discriminate].
    cbn [ret] in H. injection H as <- _.
    destruct (IH w1 w2 vs Em) as [H1 H2]. split; [auto|].
    intros l' [<-|Hl']; auto.
  Qed.

  (** The kernel matrix of the kernel found has been computed. *)
  Lemma found_settled : forall {T} (numbers : T -> res (list xr)) best_score numeric (w w' : World) b x (t : T) m p l,
    rp_estimator p <> None ->
    find_optimal_kernel numbers best_score numeric (Some b) x t m p w = (w', Ok l) -> settled w' l.
  Proof.
    intros T numbers best_score numeric w w' b x t m p l Hp H.
    destruct (String.eqb (lower m) "align/corr") eqn:Em.
    { apply String.eqb_eq in Em. exfalso.
      apply (find_align numbers best_score numeric w b x t m p l Em Hp). rewrite H. reflexivity. }
    unfold find_optimal_kernel in H. destruct (negb (valid_method m)) eqn:Ev; [discriminate|].
    unfold bind at 1 in H. destruct (set_attach numeric (b_set b) x None w) as [w1 [u|e]]; [|discriminate].
    unfold bind at 1 in H. unfold rank_kernels in H. rewrite valid_lower, Ev, lower_idem, Em in H.
    assert (Hsets : w_sets (fst (CV_ranking best_score (b_set b) t p w1)) = w_sets w1).
    { destruct (only_read_rank numbers best_score (b_set b) t "cv_risk" p w1) as [R _]. exact R. }
    destruct (CV_ranking best_score (b_set b) t p w1) as [w2 [ss|e]] eqn:Er; [|discriminate]. cbn [fst snd] in *.
    assert (Hs : forall s, nth_error (w_sets w1) (b_set b) = Some s -> forall l', In l' (s_members s) -> settled w2 l').
    { intros s Hs l' Hl'. unfold CV_ranking in Er. destruct (_ || _ || _); [discriminate|].
      unfold set_iter, bind at 1, bind at 1, get_set in Er. rewrite Hs in Er. cbn [ret] in Er. unfold bind at 1 in Er.
      match type of Er with (match map_each _ ?f w1 with _ => _ end) = _ =>
        destruct (map_each (s_members s) f w1) as [w3 [vs|e]] eqn:Ev3 end; [|discriminate].
      destruct (ranked_settled _ _ _ _ _ _ _ _ Ev3) as [_ H2]. unfold lift in Er. injection Er as <- _. exact (H2 l' Hl'). }
    unfold bind, lift in H. destruct (argmax ss) as [i|e]; [|discriminate].
    unfold set_getitem, bind, get_set in H. rewrite Hsets in H.
    destruct (nth_error (w_sets w1) (b_set b)) as [s|]; [|discriminate].
    destruct (_ || _) in H; [discriminate|].
    destruct (nth_error (s_members s) (Z.to_nat (Z.of_nat i))) as [l'|] eqn:El; [|discriminate].
    cbn [ret] in H. injection H as <- <-. exact (Hs s eq_refl l' (nth_error_In _ _ El)).
  Qed.
End Settled.

(** predict depends on the parameters, the training points, the learnt attributes and the object of the
    optimal kernel only. *)
Lemma predict_local : forall {U XIn YIn W Y F P Q} (S : sklearn XIn YIn W Y F P) self_predict X
    (o o' : optimal Y F Q) (w w' : world xr xr U),
  o_regressor o' = o_regressor o -> o_params o' = o_params o -> o_train o' = o_train o ->
  o_opt_kernel o' = o_opt_kernel o -> o_model o' = o_model o ->
  (forall l, o_opt_kernel o = Some l -> nth_error (w_objs w') l = nth_error (w_objs w) l) ->
  snd (optimal_predict S self_predict X (o', w')) = snd (optimal_predict S self_predict X (o, w)).
Proof.
  intros U XIn YIn W Y F P Q S self_predict X o o' w w' H1 H2 H3 H4 H5 H. rewrite !opredict_eq, H4, H3.
  unfold opt_svm. rewrite H1, H2, H5. destruct (o_opt_kernel o) as [l|]; [|reflexivity]. specialize (H l eq_refl).
  destruct (sk_check_array S X) as [z|e]; [|reflexivity]. destruct (o_train o) as [xy|]; [|reflexivity].
  unfold on_km. rewrite H. destruct (nth_error (w_objs w) l) as [[s|A]|] eqn:E; try reflexivity.
  destruct (attach_to z (Some (fst xy)) s) as [s' [u|e]]; [|reflexivity]. cbn [fst snd]. rewrite !obj_full_eq.
  cbn [set_objs w_objs]. rewrite (nth_error_upd_same _ _ _ _ E), (nth_error_upd_same _ _ _ _ H). reflexivity.
Qed.

(** ** C96 *)

(** C96: everything a failed fit can leave, from any state whose optimal kernel exists (see
    C96_programs). Either the bucket or the data were refused, and every prediction is as before; or the
    search for the optimal kernel failed, and the machine has the new training points but its old kernel
    and support vector machine; or the training raised this exception, on the matrix of a new optimal
    kernel, and the machine has the new points, the new kernel and what the training left. There is no
    other case: once found, the optimal kernel never fails to give its matrix. *)
Lemma pf_C96_exact :
  forall {U XIn YIn W Y F P Q} (S : sklearn XIn YIn W Y F P) self_fit self_predict numbers best_score numeric C
         X y wt (o : optimal Y F Q) (w : world xr xr U) e,
    (forall l, o_opt_kernel o = Some l -> nth_error (w_objs w) l <> None) ->
    snd (optimal_fit S self_fit numbers best_score numeric C X y wt (o, w)) = Raise e ->
    let s' := fst (optimal_fit S self_fit numbers best_score numeric C X y wt (o, w)) in
    let predicts_as o1 w1 := forall X', snd (optimal_predict S self_predict X' s')
                                      = snd (optimal_predict S self_predict X' (o1, w1)) in
    never_trains S numbers best_score numeric C X y wt (o, w) /\
    (no_bucket (dict_get (o_params o) "k_bucket") w \/ sk_check_X_y S true X y = Raise e) /\
    predicts_as o w
    \/
    (exists x ys, sk_check_X_y S true X y = Ok (x, ys) /\
      never_trains S numbers best_score numeric C X y wt (o, w) /\
      predicts_as (trained_on x ys o) w)
    \/
    (exists x ys l G, sk_check_X_y S true X y = Ok (x, ys) /\
      o_opt_kernel (fst s') = Some l /\ nth_error (w_objs w) l = None /\ obj_full xN l (snd s') = (snd s', Ok G) /\
      snd (self_fit (opt_svm o) (o_model o) G ys wt) = Raise e /\
      o_model (fst s') = fst (self_fit (opt_svm o) (o_model o) G ys wt) /\
      o_train (fst s') = Some (x, ys) /\ o_params (fst s') = o_params o /\ o_regressor (fst s') = o_regressor o).
Proof.
  intros U XIn YIn W Y F P Q S self_fit self_predict numbers best_score numeric C X y wt o w e Hl He s' predicts_as.
  destruct (fit_untouched S self_fit numbers best_score numeric C X y wt o w) as (HU & Hreg & Hpar & Hopt).
  fold s' in HU, Hreg, Hpar, Hopt.
  assert (Hkept : forall l, o_opt_kernel o = Some l -> nth_error (w_objs (snd s')) l = nth_error (w_objs w) l).
  { intros l E. specialize (Hl l E). destruct HU as [H1 _].
    destruct (nth_error (w_objs w) l) as [c|] eqn:Ec; [apply H1; exact Ec|contradiction]. }
  unfold s' in *. clear s'. unfold never_trains, predicts_as. clear predicts_as.
  rewrite ofit_eq in *.
  destruct (take_fresh C (dict_get (o_params o) "k_bucket") w) as [(w1 & b & num & s & E & L & Hf)|[e0 E]].
  2:{ left. split; [intros f g; rewrite !ofit_eq, E; reflexivity|]. rewrite E in *. split; [|intros X'; reflexivity].
      left. destruct (dict_get (o_params o) "k_bucket") as [[b|s|q]|]; cbn [no_bucket take_bucket] in *; try exact I.
      - unfold deepcopy, bind, get_set in E. destruct (nth_error (w_sets w) (b_set b)); [discriminate|reflexivity].
      - unfold try_except in E. destruct (strategy_kernels s) as [ks|] eqn:Eks; [|reflexivity].
        destruct (strategy_makes C s ks w Eks) as (b & ms & H1 & _).
        destruct (make_kernel_bucket xN C (SName s) (Some true) (Some false) w) as [w' r]. cbn [fst snd] in *. subst r.
        discriminate. }
  destruct (sk_check_X_y S true X y) as [[x ys]|e0] eqn:Ec.
  2:{ left. split; [intros f g; rewrite !ofit_eq, E, Ec; reflexivity|].
      rewrite E in *. cbn [fst snd] in *. split; [right; congruence|].
      intros X'. apply predict_local; try reflexivity. exact Hkept. }
  assert (Hmid : forall w2 e0, (forall f, optimal_fit S f numbers best_score numeric C X y wt (o, w)
                   = ((oset_train (x, ys) (oset_copy b o), w2), Raise e0)) ->
      (forall l, o_opt_kernel o = Some l -> nth_error (w_objs w2) l = nth_error (w_objs w) l) ->
      exists x0 ys0, Ok (x, ys) = Ok (x0, ys0) /\
      (forall f g, optimal_fit S f numbers best_score numeric C X y wt (o, w)
              = optimal_fit S g numbers best_score numeric C X y wt (o, w)) /\
      forall X', snd (optimal_predict S self_predict X' (oset_train (x, ys) (oset_copy b o), w2))
                 = snd (optimal_predict S self_predict X' (trained_on x0 ys0 o, w))).
  { intros w2 e0 H Hk. exists x, ys. split; [reflexivity|]. split; [intros f g; rewrite !H; reflexivity|].
    intros X'. apply predict_local; try reflexivity. exact Hk. }
  rewrite E in *. destruct (dict_get (o_params o) "method") as [[b'|m|q]|] eqn:Em;
    try (right; left; cbn [fst snd] in *; apply (Hmid w1 AttributeError); [|exact Hkept];
         intros f; rewrite ofit_eq, E, Ec, Em; reflexivity).
  destruct (find_optimal_kernel numbers best_score numeric (Some b) (fst (x, ys)) (snd (x, ys)) m (search_params o) w1)
    as [w2 [l|e0]] eqn:Ef.
  2:{ right. left. cbn [fst snd] in *. apply (Hmid w2 e0); [|exact Hkept].
      intros f. rewrite ofit_eq, E, Ec, Em. cbn [fst snd]. rewrite Ef. reflexivity. }
  destruct (found_settled numbers best_score numeric w1 w2 b x ys m (search_params o) l) as [G HG]; [discriminate|exact Ef|].
  rewrite HG in *. right. right. cbn [fst snd oset_model oset_opt oset_train oset_copy o_opt_kernel o_model o_train o_params o_regressor] in *.
  exists x, ys, l, G. split; [reflexivity|]. split; [reflexivity|]. split.
  { destruct Hopt as [Ho|(l' & Ho & Hn)]; [|injection Ho as <-; exact Hn].
    exfalso. destruct (low_find numbers best_score numeric (length (w_objs w)) (length (w_sets w)) b x ys m
                (search_params o) w1 s) as [_ Hin].
    - apply Hf.
    - apply nth_error_None. apply Hf.
    - intros l' Hl'. apply nth_error_None. destruct Hf as (_ & _ & _ & Hf). apply Hf, Hl'.
    - rewrite Ef in Hin. specialize (Hin l eq_refl). destruct Hf as (_ & _ & _ & Hf).
      apply (Hl l); [symmetry; exact Ho|apply Hf; exact Hin]. }
  split; [exact HG|]. split; [exact He|]. repeat split; assumption.
Qed.

Lemma settled_exists : forall {U} (w : world xr xr U) l, settled w l -> nth_error (w_objs w) l <> None.
Proof. intros U w l [K H]. rewrite obj_full_eq in H. destruct (nth_error (w_objs w) l); discriminate. Qed.

(** C96: the hypothesis of C96_exact holds after every program: the optimal kernel of an estimator that
    was made anew and used by any calls of fit, predict and set_params, failed ones included, exists. *)
Lemma pf_C96_programs :
  forall {U XIn YIn W Y F P Q} (S : sklearn XIn YIn W Y F P) self_fit self_predict numbers best_score numeric C
         regressor unfitted (value : string -> oval Q) os (w : world xr xr U) l,
    let s := orun S self_fit self_predict numbers best_score numeric C os
               (optimal_new (Y:=Y) (F:=F) regressor unfitted value, w) in
    o_opt_kernel (fst s) = Some l -> nth_error (w_objs (snd s)) l <> None.
Proof.
  intros U XIn YIn W Y F P Q S self_fit self_predict numbers best_score numeric C regressor unfitted value os w l.
  assert (H : forall os (s : optimal Y F Q * world xr xr U),
    (forall l, o_opt_kernel (fst s) = Some l -> nth_error (w_objs (snd s)) l <> None) ->
    forall l, let s' := orun S self_fit self_predict numbers best_score numeric C os s in
      o_opt_kernel (fst s') = Some l -> nth_error (w_objs (snd s')) l <> None).
  { clear. intros os. induction os as [|op os IH]; intros s Hs; [exact Hs|]. cbn [orun]. apply IH. clear IH os.
    destruct s as [o w]. cbn [fst snd] in Hs. destruct op as [X y wt|X|ps|]; cbn [ostep].
    - unfold ofmap, bind. intros l.
      assert (G : o_opt_kernel (fst (fst (optimal_fit S self_fit numbers best_score numeric C X y wt (o, w)))) = Some l ->
                  nth_error (w_objs (snd (fst (optimal_fit S self_fit numbers best_score numeric C X y wt (o, w))))) l <> None).
      { destruct (fit_untouched S self_fit numbers best_score numeric C X y wt o w) as ((HU & _) & _ & _ & _).
        assert (Hold : o_opt_kernel o = Some l ->
          nth_error (w_objs (snd (fst (optimal_fit S self_fit numbers best_score numeric C X y wt (o, w))))) l <> None).
        { intros Hl. specialize (Hs l Hl). destruct (nth_error (w_objs w) l) as [c|] eqn:Ec; [|contradiction].
          rewrite (HU l c Ec). discriminate. }
        clear HU Hs. revert Hold. rewrite ofit_eq.
        destruct (take_bucket C (dict_get (o_params o) "k_bucket") w) as [w1 [b|e]]; [|exact (fun H => H)].
        destruct (sk_check_X_y S true X y) as [xy|e]; [|exact (fun H => H)].
        destruct (dict_get (o_params o) "method") as [[b'|m|q]|]; try exact (fun H => H).
        destruct (find_optimal_kernel numbers best_score numeric (Some b) (fst xy) (snd xy) m (search_params o) w1)
          as [w2 [l'|e]] eqn:Ef; [|exact (fun H => H)].
        apply found_settled in Ef; [|discriminate]. pose proof (settled_exists _ _ Ef) as Hx. destruct Ef as [G HG].
        rewrite HG. cbn [fst snd oset_model oset_opt o_opt_kernel]. intros _ E. injection E as <-. exact Hx. }
      destruct (optimal_fit S self_fit numbers best_score numeric C X y wt (o, w)) as [s [u|e]]; cbn [fst ret] in *; exact G.
    - unfold ofmap, bind. destruct (pf_C60_predict S self_predict X o w) as (H1 & _).
      assert (H2 : length (w_objs w) <= length (w_objs (snd (fst (optimal_predict S self_predict X (o, w)))))).
      { clear. rewrite opredict_eq. destruct (o_opt_kernel o) as [l|]; [|reflexivity].
        destruct (sk_check_array S X) as [z|e]; [|reflexivity]. destruct (o_train o) as [xy|]; [|reflexivity].
        assert (K : forall w' : world xr xr U, length (w_objs (fst (obj_full xN l w'))) = length (w_objs w')).
        { intros w'. rewrite obj_full_eq. destruct (nth_error (w_objs w') l) as [[t|p]|]; try reflexivity.
          cbn [fst set_objs w_objs]. apply list_upd_length. }
        unfold on_km. destruct (nth_error (w_objs w) l) as [[t|p]|]; try reflexivity.
        destruct (attach_to z (Some (fst xy)) t) as [t' [u|e]]; cbn [fst snd].
        - rewrite K. cbn [set_objs w_objs]. rewrite list_upd_length. reflexivity.
        - cbn [set_objs w_objs]. rewrite list_upd_length. reflexivity. }
      intros l. destruct (optimal_predict S self_predict X (o, w)) as [s [p|e]]; cbn [fst ret] in *; rewrite H1;
        intros Hl; specialize (Hs l Hl); apply nth_error_Some in Hs; apply nth_error_Some; lia.
    - unfold ofmap, bind. rewrite set_params_eq. cbn [fst snd ret]. destruct (oset_all_kept ps o) as (_ & _ & _ & E & _).
      rewrite E. exact Hs.
    - exact Hs. }
  apply H. discriminate.
Qed.

(** C96, in terms of predictions. [K] is the optimal kernel that [o] has found earlier. When fit on new data (X, y) failed after they were accepted but before the training, predict
    hands the old support vector machine the matrix of values of the old kernel between the test points
    and the new points. A machine that was not trained still raises NotFittedError. *)
Lemma pf_C96_predictions :
  forall {U XIn YIn W Y F P Q} (S : sklearn XIn YIn W Y F P) self_fit self_predict numbers best_score numeric C
         X y wt (o : optimal Y F Q) (w : world xr xr U) e x ys,
    snd (optimal_fit S self_fit numbers best_score numeric C X y wt (o, w)) = Raise e ->
    never_trains S numbers best_score numeric C X y wt (o, w) ->
    ~ no_bucket (dict_get (o_params o) "k_bucket") w -> sk_check_X_y S true X y = Ok (x, ys) ->
    let s' := fst (optimal_fit S self_fit numbers best_score numeric C X y wt (o, w)) in
    (o_opt_kernel o = None -> forall X', snd (optimal_predict S self_predict X' s') = Raise NotFittedErr) /\
    (forall l K X' z n' n d G,
       o_opt_kernel o = Some l -> matrix_of w l (fst K) (snd K) ->
       sk_check_array S X' = Ok z -> is_sample z n' d -> is_sample x n d -> has_cross z x n' n d K G ->
       snd (optimal_predict S self_predict X' s')
       = rbind G (fun A => rbind (self_predict (opt_svm o) (o_model o) A) (fun p =>
           if o_regressor o then Ok p else sk_int S p))).
Proof.
  intros U XIn YIn W Y F P Q S self_fit self_predict numbers best_score numeric C X y wt o w e x ys He Hn Hb Hc s'.
  assert (Hmid : (forall l, o_opt_kernel o = Some l -> nth_error (w_objs w) l <> None) ->
    forall X', snd (optimal_predict S self_predict X' s')
             = snd (optimal_predict S self_predict X' (trained_on x ys o, w))).
  { intros Hl. unfold s'. set (f := fun (_ : svm_self Q) (m : F) (_ : arr xr) (_ : Y) (_ : W) => (m, Ok tt)).
    rewrite (Hn self_fit f) in *. clear s'.
    destruct (pf_C96_exact S f self_predict numbers best_score numeric C X y wt o w e Hl He)
      as [(_ & [H|H] & _)|[(x' & ys' & H1 & _ & H2)|(x' & ys' & l & G & _ & _ & _ & _ & H & _)]].
    - contradiction.
    - congruence.
    - rewrite Hc in H1. injection H1 as <- <-. exact H2.
    - discriminate. }
  split.
  - intros Ho X'. rewrite Hmid by (rewrite Ho; discriminate). rewrite opredict_eq. cbn [trained_on o_opt_kernel].
    rewrite Ho. reflexivity.
  - intros l K X' z n' n d G Ho HK Hz Hz' Hx HG. rewrite Hmid.
    + rewrite (pf_C73_predict S self_predict X' (trained_on x ys o) w l K z x ys n' n d G Ho HK eq_refl Hz Hz' Hx HG).
      reflexivity.
    + intros l' Hl'. rewrite Ho in Hl'. injection Hl' as <-. destruct HK as (pre & ->). discriminate.
Qed.

(** C96: causes of the second kind, all of them after the data have replaced the old ones: the method is
    not a string, the method is unknown, the bucket is attached to a sample of another size, the method
    is 'align/corr' (C55_align). *)
Lemma pf_C96_causes :
  forall {U XIn YIn W Y F P Q} (S : sklearn XIn YIn W Y F P) self_fit numbers best_score numeric C
         X y wt (o : optimal Y F Q) (w : world xr xr U) x ys,
    ~ no_bucket (dict_get (o_params o) "k_bucket") w -> sk_check_X_y S true X y = Ok (x, ys) ->
    let r := snd (optimal_fit S self_fit numbers best_score numeric C X y wt (o, w)) in
    ((forall m, dict_get (o_params o) "method" <> Some (OVStr m)) ->
       r = Raise AttributeError /\ never_trains S numbers best_score numeric C X y wt (o, w)) /\
    (forall m, dict_get (o_params o) "method" = Some (OVStr m) ->
       lower m <> "align/corr"%string -> lower m <> "cv_risk"%string ->
       r = Raise NotImplementedErr /\ never_trains S numbers best_score numeric C X y wt (o, w)) /\
    (forall m n num Ks, dict_get (o_params o) "method" = Some (OVStr m) ->
       lower m = "align/corr"%string \/ lower m = "cv_risk"%string ->
       numeric_sample numeric x n ->
       offers (dict_get (o_params o) "k_bucket") w num Ks -> num <> NSNone -> num <> NSOne n ->
       r = Raise ValueError /\ never_trains S numbers best_score numeric C X y wt (o, w)) /\
    (forall m, dict_get (o_params o) "method" = Some (OVStr m) -> lower m = "align/corr"%string ->
       (exists e, r = Raise e) /\ never_trains S numbers best_score numeric C X y wt (o, w)).
Proof.
  intros U XIn YIn W Y F P Q S self_fit numbers best_score numeric C X y wt o w x ys Hb Hc r.
  assert (Ht : exists w1 b, take_bucket C (dict_get (o_params o) "k_bucket") w = (w1, Ok b)).
  { destruct (take_fresh C (dict_get (o_params o) "k_bucket") w) as [(w1 & b & num & s & E & _)|[e0 E]]; [eauto|].
    exfalso. apply Hb. clear - E.
    destruct (dict_get (o_params o) "k_bucket") as [[b|s|q]|]; cbn [no_bucket take_bucket] in *; try exact I.
    - unfold deepcopy, bind, get_set in E. destruct (nth_error (w_sets w) (b_set b)); [discriminate|reflexivity].
    - unfold try_except in E. destruct (strategy_kernels s) as [ks|] eqn:Eks; [|reflexivity].
      destruct (strategy_makes C s ks w Eks) as (b & ms & H1 & _).
      destruct (make_kernel_bucket xN C (SName s) (Some true) (Some false) w) as [w' r]. cbn [fst snd] in *. subst r.
      discriminate. }
  destruct Ht as (w1 & b & Ht).
  assert (Hfind : forall m e w2, dict_get (o_params o) "method" = Some (OVStr m) ->
    find_optimal_kernel numbers best_score numeric (Some b) x ys m (search_params o) w1 = (w2, Raise e) ->
    r = Raise e /\ never_trains S numbers best_score numeric C X y wt (o, w)).
  { intros m e w2 Hm Hf. unfold r, never_trains. split.
    - rewrite ofit_eq, Ht, Hc, Hm. cbn [fst snd]. rewrite Hf. reflexivity.
    - intros f g. rewrite !ofit_eq, Ht, Hc, Hm. cbn [fst snd]. rewrite Hf. reflexivity. }
  split; [|split; [|split]].
  - intros Hm. unfold r, never_trains. split.
    + rewrite ofit_eq, Ht, Hc. destruct (dict_get (o_params o) "method") as [[b'|m|q]|]; try reflexivity.
      exfalso. apply (Hm m). reflexivity.
    + intros f g. rewrite !ofit_eq, Ht, Hc. destruct (dict_get (o_params o) "method") as [[b'|m|q]|]; try reflexivity.
      exfalso. apply (Hm m). reflexivity.
  - intros m Hm H1 H2. apply (Hfind m NotImplementedErr w1 Hm). unfold find_optimal_kernel.
    replace (valid_method m) with false; [reflexivity|]. unfold valid_method.
    apply String.eqb_neq in H1, H2. rewrite H1, H2. reflexivity.
  - intros m n num Ks Hm Hv Hx Hoff H1 H2.
    assert (Hv' : valid_method m = true) by (unfold valid_method; destruct Hv as [-> | ->]; reflexivity).
    pose proof (pf_C60_attached S self_fit numbers best_score numeric C X y wt o w x ys n m num Ks Hc Hx Hm Hv' Hoff H1 H2) as Hr.
    destruct (find_optimal_kernel numbers best_score numeric (Some b) x ys m (search_params o) w1) as [w2 [l|e]] eqn:Ef.
    + exfalso. pose proof (pf_C60_attached S (fun _ m _ _ _ => (m, Ok tt)) numbers best_score numeric C X y wt o w x ys n m num Ks Hc Hx Hm Hv' Hoff H1 H2) as Hr'.
      rewrite ofit_eq, Ht, Hc, Hm in Hr'. cbn [fst snd] in Hr'. rewrite Ef in Hr'.
      apply found_settled in Ef; [|discriminate]. destruct Ef as [G HG]. rewrite HG in Hr'. discriminate.
    + destruct (Hfind m e w2 Hm Ef) as [H3 H4]. split; [exact Hr|exact H4].
  - intros m Hm Ha.
    destruct (find_optimal_kernel numbers best_score numeric (Some b) x ys m (search_params o) w1) as [w2 [l|e]] eqn:Ef.
    + exfalso. apply (find_align numbers best_score numeric w1 b x ys m (search_params o) l Ha); [discriminate|].
      rewrite Ef. reflexivity.
    + destruct (Hfind m e w2 Hm Ef) as [H3 H4]. split; [exists e; exact H3|exact H4].
Qed.

Definition x123 : ndarray xr := mkNd [3; 1] [Fin 1; Fin 2; Fin 3].

Lemma mixed1 : forall (o : optimal unit learnt unit) (w : world xr xr unit) l,
  dict_get (o_params o) "k_bucket" = Some bucket1 -> dict_get (o_params o) "method" = Some (OVStr "cv_risk") ->
  o_regressor o = false -> o_opt_kernel o = Some l -> matrix_of w l (builtin KLinear) false ->
  offers (Some bucket1) w (NSOne 2) [(builtin KLinear, false)] ->
  snd (ofit1 x123 tt tt (o, w)) = Raise ValueError /\
  snd (opredict1 x34 (fst (ofit1 x123 tt tt (o, w))))
  = Ok (o_model o, mkArr Dense (mkMat 2 3 [[Fin 3; Fin 6; Fin 9]; [Fin 4; Fin 8; Fin 12]])).
Proof.
  intros o w l Hb Hm R1 H6 H7 Hoff.
  assert (Hx3 : is_sample x123 3 1) by (exists []; split; [reflexivity|constructor]).
  assert (Hnb : ~ no_bucket (dict_get (o_params o) "k_bucket") w).
  { rewrite Hb. cbn [no_bucket bucket1]. destruct Hoff as (ms & (i & sm & Hs) & _). rewrite Hs. discriminate. }
  destruct (pf_C96_causes sk1 fit1 numbers1 score1 numeric1 xC x123 tt tt o w x123 tt Hnb eq_refl) as (_ & _ & Hc & _).
  rewrite <- Hb in Hoff.
  destruct (Hc "cv_risk"%string 3 (NSOne 2) _ Hm (or_intror eq_refl)
              (conj (ex_intro _ 1 Hx3) eq_refl) Hoff) as [He Hn]; [discriminate|discriminate|].
  split; [exact He|].
  destruct (pf_C96_predictions sk1 fit1 predict1 numbers1 score1 numeric1 xC x123 tt tt o w ValueError x123 tt He Hn Hnb eq_refl) as [_ H].
  specialize (H l (builtin KLinear, false) x34 x34 2 3 1
             (Ok (mkArr Dense (kernel_matrix xdot 2 3 1 x34 (Some x123)))) H6 H7 eq_refl s34 Hx3).
  assert (Hc' : has_cross x34 x123 2 3 1 (builtin KLinear, false) (Ok (mkArr Dense (kernel_matrix xdot 2 3 1 x34 (Some x123))))).
  { exists xdot. split; [apply linear_total; reflexivity|]. split; reflexivity. }
  specialize (H Hc'). unfold ofit1, opredict1. rewrite H.
  cbn [rbind]. unfold predict1 at 1. cbn [rbind]. rewrite R1. cbn [sk1 sk_int].
  replace (kernel_matrix xdot 2 3 1 x34 (Some x123)) with (mkMat 2 3 [[Fin 3; Fin 6; Fin 9]; [Fin 4; Fin 8; Fin 12]])
    by (calc; repeat f_equal; lra).
  reflexivity.
Qed.

Lemma trained1 : forall num pre, num = NSNone \/ num = NSOne 2 -> exists o w l,
  fst (ofit1 x12 tt tt (estimator1 bucket1 "cv_risk", heap1 num pre)) = (o, w) /\
  dict_get (o_params o) "k_bucket" = Some bucket1 /\ dict_get (o_params o) "method" = Some (OVStr "cv_risk") /\
  o_regressor o = false /\ o_opt_kernel o = Some l /\ matrix_of w l (builtin KLinear) false /\
  offers (Some bucket1) w num [(builtin KLinear, false)] /\
  o_model o = Some ("rbf"%string, linear_gram 2 1 x12).
Proof.
  intros num pre Hnum. unfold ofit1.
  destruct (pf_C55_partial sk1 fit1 numbers1 score1 numeric1 xC x12 tt tt (estimator1 bucket1 "cv_risk") (heap1 num pre) x12 tt 2 1
    "cv_risk" num [(builtin KLinear, false)] [linear_gram 2 1 x12] (mkSVM false "precomputed" 10, range_C) [0%R] 0 0
    eq_refl s12 eq_refl eq_refl eq_refl (offers1 num pre) Hnum ltac:(discriminate) (gram1 x12 2 1 eq_refl) eq_refl (scores1 _) extremes1)
    as (i & K & G & l & H1 & H2 & _ & _ & _ & H4 & _ & H6 & H7).
  assert (i = 0) as -> by (destruct i as [|[|i]]; [reflexivity|discriminate|discriminate]).
  injection H1 as <-. injection H2 as <-.
  destruct (fit_untouched sk1 fit1 numbers1 score1 numeric1 xC x12 tt tt (estimator1 bucket1 "cv_risk") (heap1 num pre)) as (HU & R1 & R2 & _).
  pose proof (offers_kept (Some bucket1) (heap1 num pre) _ num _ HU (offers1 num pre)) as Hoff.
  destruct (fst (optimal_fit sk1 fit1 numbers1 score1 numeric1 xC x12 tt tt (estimator1 bucket1 "cv_risk", heap1 num pre))) as [o w].
  cbn [fst snd] in *. exists o, w, l. split; [reflexivity|]. split; [rewrite R2; reflexivity|]. split; [rewrite R2; reflexivity|].
  split; [rewrite R1; reflexivity|]. split; [exact H6|]. split; [exact H7|]. split; [exact Hoff|]. exact H4.
Qed.

(** A failed fit does not leave the predictions as they were: the bucket is attached to [[1], [2]], the
    machine is trained on [[1], [2]], then fit on [[1], [2], [3]] raises ValueError; predict on
    [[3], [4]] now hands the old support vector machine, trained on a 2 x 2 matrix, a 2 x 3 matrix. *)
Lemma pf_C96_unchanged_refuted :
  exists s, s = fst (ofit1 x12 tt tt (estimator1 bucket1 "cv_risk", heap1 (NSOne 2) [OpAttach x12 None])) /\
    let s' := fst (ofit1 (mkNd [3; 1] [Fin 1; Fin 2; Fin 3]) tt tt s) in
    let M := mkArr Dense (mkMat 2 2 [[Fin 1; Fin 2]; [Fin 2; Fin 4]]) in
    snd (ofit1 (mkNd [3; 1] [Fin 1; Fin 2; Fin 3]) tt tt s) = Raise ValueError /\
    snd (opredict1 x34 s) = Ok (Some ("rbf"%string, M), mkArr Dense (mkMat 2 2 [[Fin 3; Fin 6]; [Fin 4; Fin 8]])) /\
    snd (opredict1 x34 s') = Ok (Some ("rbf"%string, M), mkArr Dense (mkMat 2 3 [[Fin 3; Fin 6; Fin 9]; [Fin 4; Fin 8; Fin 12]])).
Proof.
  eexists. split; [reflexivity|]. cbv zeta. fold x123.
  pose proof (pf_C73_example (NSOne 2) [OpAttach x12 None] (or_intror eq_refl)) as Hp.
  destruct (trained1 (NSOne 2) [OpAttach x12 None] (or_intror eq_refl)) as (o & w & l & E & H1 & H2 & H3 & H4 & H5 & H6 & H7).
  rewrite E in *. destruct (mixed1 o w l H1 H2 H3 H4 H5 H6) as [H8 H9]. split; [exact H8|]. split; [exact Hp|].
  rewrite H9, H7. unfold linear_gram. destruct mats12 as [-> _]. reflexivity.
Qed.

(** C96, the first and the third case occur too: an unknown strategy is refused, and a training that
    raises leaves a machine that predicts with the new kernel and points. *)
Lemma pf_C96_example :
  snd (ofit1 x12 tt tt (estimator1 (OVStr "unknown") "cv_risk", heap1 NSNone [])) = Raise ValueError /\
  let failing := fun (v : svm_self unit) (f : learnt) (G : arr xr) (ys wt : unit) => (Some ("half done"%string, G), @Raise unit RuntimeError) in
  let r := optimal_fit (U:=unit) sk1 failing numbers1 score1 numeric1 xC x12 tt tt
             (estimator1 bucket1 "cv_risk", heap1 NSNone []) in
  snd r = Raise RuntimeError /\
  snd (opredict1 x34 (fst r)) = Ok (Some ("half done"%string, mkArr Dense (mkMat 2 2 [[Fin 1; Fin 2]; [Fin 2; Fin 4]])),
      mkArr Dense (mkMat 2 2 [[Fin 3; Fin 6]; [Fin 4; Fin 8]])).
Proof.
  split; [unfold ofit1; rewrite ofit_eq; cbn [estimator1 optimal_new o_params]; reflexivity|].
  intros failing r. subst r. unfold opredict1. set (o := estimator1 bucket1 "cv_risk").
  destruct (pf_C55_partial sk1 failing numbers1 score1 numeric1 xC x12 tt tt o (heap1 NSNone []) x12 tt 2 1
    "cv_risk" NSNone [(builtin KLinear, false)] [linear_gram 2 1 x12] (mkSVM false "precomputed" 10, range_C) [0%R] 0 0
    eq_refl s12 eq_refl eq_refl eq_refl (offers1 NSNone []) (or_introl eq_refl) ltac:(discriminate) (gram1 x12 2 1 eq_refl) eq_refl (scores1 _) extremes1)
    as (i & K & G & l & H1 & H2 & _ & _ & H3 & H4 & H5 & H6 & H7).
  assert (i = 0) as -> by (destruct i as [|[|i]]; [reflexivity|discriminate|discriminate]).
  injection H1 as <-. injection H2 as <-. split; [exact H3|].
  destruct (fit_untouched sk1 failing numbers1 score1 numeric1 xC x12 tt tt o (heap1 NSNone [])) as (_ & R1 & R2 & _).
  destruct (fst (optimal_fit sk1 failing numbers1 score1 numeric1 xC x12 tt tt (o, heap1 NSNone []))) as [o' w'].
  cbn [fst snd] in *.
  rewrite (pf_C73_predict sk1 predict1 x34 o' w' l (builtin KLinear, false) x34 x12 tt 2 2 1
             (Ok (mkArr Dense (kernel_matrix xdot 2 2 1 x34 (Some x12)))) H6 H7 H5 eq_refl s34 s12).
  - cbn [rbind]. unfold predict1 at 1. cbn [rbind]. rewrite H4, R1. cbn [failing fst o estimator1 optimal_new o_regressor sk1 sk_int].
    unfold linear_gram. destruct mats12 as [-> _].
    replace (kernel_matrix xdot 2 2 1 x34 (Some x12)) with (mkMat 2 2 [[Fin 3; Fin 6]; [Fin 4; Fin 8]]) by (calc; repeat f_equal; lra).
    reflexivity.
  - exists xdot. split; [apply linear_total; reflexivity|]. split; reflexivity.
Qed.
