(** Lemmas about OptimalKernelSVC and OptimalKernelSVR. *)
From Coq Require Import String Reals List Arith ZArith Bool Lia Lra.
Import ListNotations.
From Verif Require Import Prelude MatModel UtilsModel KMModel SpecKM XReal OpsModel SpecLinAlg KernelsModel
  KMXModel SpecKMX SetModel SpecSet BucketModel SpecBucket RankModel SpecRank AlgoModel SpecAlgo SpecOpt.
From Verif Require Import MatFacts MFacts KMFacts KMInv KMTotal KMHist KMHist2 KMProps OpsFacts OpsProps KMXProps
  SetFacts SetFacts2 SetProps CompositeFacts BucketProps RankFacts RankProps AlgoFacts.

Local Open Scope list_scope.
Local Open Scope nat_scope.

(** ** What is touched *)
Section Low.
  Context {U : Type}.
  Notation World := (world xr xr U).

  (** Objects below [a] and sets below [b] are the same in both. *)
  Definition low (a b : nat) (w w' : World) : Prop :=
    (forall l, l < a -> nth_error (w_objs w') l = nth_error (w_objs w) l) /\
    (forall k, k < b -> nth_error (w_sets w') k = nth_error (w_sets w) k).

  Lemma low_refl : forall a b w, low a b w w.
  Proof. split; reflexivity. Qed.
  Lemma low_trans : forall a b w1 w2 w3, low a b w1 w2 -> low a b w2 w3 -> low a b w1 w3.
  Proof.
    intros a b w1 w2 w3 [A1 A2] [B1 B2]. split.
    - intros l Hl. rewrite (B1 l Hl). exact (A1 l Hl).
    - intros k Hk. rewrite (B2 k Hk). exact (A2 k Hk).
  Qed.
  Lemma low_mono : forall a b a' b' w w', a' <= a -> b' <= b -> low a b w w' -> low a' b' w w'.
  Proof. intros a b a' b' w w' Ha Hb [H1 H2]. split; intros i Hi; [apply H1|apply H2]; lia. Qed.
  Lemma low_untouched : forall w w', low (length (w_objs w)) (length (w_sets w)) w w' <-> untouched w w'.
  Proof.
    intros w w'. split; intros [H1 H2]; split.
    - intros l o Ho. rewrite H1; [exact Ho|]. apply nth_error_Some. congruence.
    - intros k s Hs. rewrite H2; [exact Hs|]. apply nth_error_Some. congruence.
    - intros l Hl. apply nth_error_Some in Hl. destruct (nth_error (w_objs w) l) as [o|] eqn:E; [|congruence].
      apply H1. exact E.
    - intros l Hl. apply nth_error_Some in Hl. destruct (nth_error (w_sets w) l) as [o|] eqn:E; [|congruence].
      apply H2. exact E.
  Qed.
  Lemma untouched_lengths : forall w w' : World, untouched w w' ->
    length (w_objs w) <= length (w_objs w') /\ length (w_sets w) <= length (w_sets w').
  Proof.
    intros w w' H. apply low_untouched in H. destruct H as [H1 H2]. split.
    - destruct (length (w_objs w)) as [|q] eqn:E; [lia|]. specialize (H1 q ltac:(lia)).
      assert (nth_error (w_objs w) q <> None) by (apply nth_error_Some; lia).
      assert (q < length (w_objs w')) by (apply nth_error_Some; congruence). lia.
    - destruct (length (w_sets w)) as [|q] eqn:E; [lia|]. specialize (H2 q ltac:(lia)).
      assert (nth_error (w_sets w) q <> None) by (apply nth_error_Some; lia).
      assert (q < length (w_sets w')) by (apply nth_error_Some; congruence). lia.
  Qed.

  Lemma low_on_km : forall {A} a b l (m : M (km xr xr U) A) (w : World), a <= l ->
    low a b w (fst (on_km l m w)).
  Proof.
    intros A a b l m w Hl. unfold on_km. destruct (nth_error (w_objs w) l) as [[s|p]|] eqn:E; try apply low_refl.
    destruct (m s) as [s' r]. split; [|reflexivity]. intros i Hi. cbn [fst set_objs w_objs].
    apply nth_error_upd_other. lia.
  Qed.
  Lemma low_full : forall a b l (w : World), a <= l -> low a b w (fst (obj_full xN l w)).
  Proof.
    intros a b l w Hl. rewrite obj_full_eq. destruct (nth_error (w_objs w) l) as [[s|p]|]; try apply low_refl.
    split; [|reflexivity]. intros i Hi. cbn [fst set_objs w_objs]. apply nth_error_upd_other. lia.
  Qed.

  Lemma for_each_low : forall {A} a b (body : A -> M World unit) l (w : World),
    (forall x w', In x l -> low a b w' (fst (body x w'))) -> low a b w (fst (for_each l body w)).
  Proof.
    intros A a b body l. induction l as [|x l IH]; intros w H; [apply low_refl|]. cbn [for_each]. unfold bind.
    assert (H1 := H x w (or_introl eq_refl)). destruct (body x w) as [w1 [u|e]]; [|exact H1].
    eapply low_trans; [exact H1|]. apply IH. intros x' w' Hx'. apply H. right. exact Hx'.
  Qed.
  Lemma map_each_low : forall {A B} a b (body : A -> M World B) l (w : World),
    (forall x w', In x l -> low a b w' (fst (body x w'))) -> low a b w (fst (map_each l body w)).
  Proof.
    intros A B a b body l. induction l as [|x l IH]; intros w H; [apply low_refl|]. cbn [map_each]. unfold bind.
    assert (H1 := H x w (or_introl eq_refl)). destruct (body x w) as [w1 [u|e]]; [|exact H1].
    assert (H2 : low a b w1 (fst (map_each l body w1))) by (apply IH; intros x' w' Hx'; apply H; right; exact Hx').
    destruct (map_each l body w1) as [w2 [us|e]]; eapply low_trans; eassumption.
  Qed.

  Lemma low_put : forall a b k s (w : World), b <= k -> low a b w (set_sets (list_upd (w_sets w) k s) w).
  Proof.
    intros a b k s w Hk. split; [reflexivity|]. intros i Hi. cbn [set_sets w_sets]. apply nth_error_upd_other. lia.
  Qed.

  Lemma low_attach : forall numeric a b k x (w : World) s, nth_error (w_sets w) k = Some s -> b <= k ->
    (forall l, In l (s_members s) -> a <= l) ->
    low a b w (fst (set_attach numeric k x None w)) /\
    exists s', nth_error (w_sets (fst (set_attach numeric k x None w))) k = Some s' /\ s_members s' = s_members s.
  Proof.
    intros numeric a b k x w s Hs Hk Hm.
    destruct (numeric_sample_dec numeric x) as [(n & d & Hd & Hn)|Hno].
    2:{ rewrite (set_attach_bad numeric k x None w s Hs Hno). split; [apply low_refl|]. exists s. auto. }
    rewrite (set_attach_eq numeric k x None w s n d Hs Hd Hn).
    destruct (negb (numsamp_eqb (s_num s) NSNone) && negb (numsamp_eqb (s_num s) (NSOne n))).
    { cbn [fst]. split; [apply low_put; exact Hk|].
      exists (mkSet (s_num s) (s_init s) (s_members s) (Some (stored n d x))). split; [|reflexivity].
      cbn [set_sets w_sets]. eapply nth_error_upd_same. exact Hs. }
    set (w0 := set_sets _ w). set (ms := s_members s) in *. set (bd := fun l => on_km l _).
    assert (L : low a b w0 (fst (for_each ms bd w0))).
    { apply for_each_low. intros l w' Hl. apply low_on_km, Hm, Hl. }
    assert (Sw : w_sets (fst (for_each ms bd w0)) = w_sets w0).
    { apply (for_each_pres (fun w' => w_sets w' = w_sets w0)); [|reflexivity].
      intros l w' Hw'. rewrite <- Hw'. apply on_km_sets. }
    assert (L0 : low a b w w0) by (apply low_put; exact Hk).
    assert (S0 : nth_error (w_sets w0) k = Some (mkSet (NSOne n) (s_init s) ms (Some (stored n d x))))
      by (cbn [w0 set_sets w_sets]; eapply nth_error_upd_same; exact Hs).
    unfold bind. clearbody w0 bd.
    destruct (for_each ms bd w0) as [w1 [u|e]]; cbn [fst ret] in *.
    - split; [eapply low_trans; eassumption|]. eexists. rewrite Sw. split; [exact S0|reflexivity].
    - split; [eapply low_trans; eassumption|]. eexists. rewrite Sw. split; [exact S0|reflexivity].
  Qed.

  Lemma low_rank : forall {T} (numbers : T -> res (list xr)) best_score a b k t m p (w : World) s,
    nth_error (w_sets w) k = Some s -> (forall l, In l (s_members s) -> a <= l) ->
    low a b w (fst (rank_kernels numbers best_score k t m p w)).
  Proof.
    intros T numbers best_score a b k t m p w s Hs Hm. unfold rank_kernels.
    destruct (negb (valid_method m)); [apply low_refl|]. destruct (String.eqb (lower m) "align/corr").
    - unfold alignment_ranking, bind at 1, lift at 1. destruct (numbers t) as [ys|e]; [|apply low_refl].
      unfold bind at 1. rewrite (set_iter_eq _ _ _ Hs). apply map_each_low. intros l w' Hl. unfold bind.
      assert (L := low_full a b l w' (Hm l Hl)). destruct (obj_full xN l w') as [w2 [K|e]]; [|exact L].
      destruct (is_some (rp_folds p) || is_some (rp_estimator p) || rp_other p); exact L.
    - unfold CV_ranking. destruct (is_some (rp_zero p) || is_some (rp_centered p) || rp_other p); [apply low_refl|].
      unfold bind at 1. rewrite (set_iter_eq _ _ _ Hs). unfold bind at 1.
      match goal with |- context [map_each ?l ?bd ?w0] => assert (H1 : low a b w0 (fst (map_each l bd w0))) end.
      { apply map_each_low. intros l w' Hl. unfold bind, lift.
        destruct (get_estimator _) as [e|e]; [|apply low_refl].
        assert (L := low_full a b l w' (Hm l Hl)). destruct (obj_full xN l w') as [w2 [K|e']]; exact L. }
      destruct (map_each _ _ w) as [w2 [ss|e]]; exact H1.
  Qed.

  Lemma low_find : forall {T} (numbers : T -> res (list xr)) best_score numeric a b bk x t m p (w : World) s,
    nth_error (w_sets w) (b_set bk) = Some s -> b <= b_set bk -> (forall l, In l (s_members s) -> a <= l) ->
    low a b w (fst (find_optimal_kernel numbers best_score numeric (Some bk) x t m p w)) /\
    forall l, snd (find_optimal_kernel numbers best_score numeric (Some bk) x t m p w) = Ok l -> In l (s_members s).
  Proof.
    intros T numbers best_score numeric a b bk x t m p w s Hs Hb Hm. unfold find_optimal_kernel.
    destruct (negb (valid_method m)); [split; [apply low_refl|discriminate]|].
    destruct (low_attach numeric a b (b_set bk) x w s Hs Hb Hm) as (L1 & s1 & Hs1 & Hm1).
    unfold bind at 1 4. destruct (set_attach numeric (b_set bk) x None w) as [w1 [u|e]]; cbn [fst] in *.
    2:{ split; [exact L1|discriminate]. }
    rewrite <- Hm1 in Hm |- *.
    assert (L2 := low_rank numbers best_score a b (b_set bk) t (lower m) p w1 s1 Hs1 Hm).
    destruct (only_read_rank numbers best_score (b_set bk) t (lower m) p w1) as [R _].
    unfold bind at 1 3. destruct (rank_kernels numbers best_score (b_set bk) t (lower m) p w1) as [w2 [ss|e]]; cbn [fst] in *.
    2:{ split; [eapply low_trans; eassumption|discriminate]. }
    unfold bind, lift. destruct (argmax ss) as [i|e]; cbn [fst snd].
    2:{ split; [eapply low_trans; eassumption|discriminate]. }
    unfold set_getitem, bind, get_set. rewrite R, Hs1.
    destruct ((Z.of_nat i <? 0)%Z || (Z.of_nat (length (s_members s1)) <=? Z.of_nat i)%Z).
    { split; [eapply low_trans; eassumption|discriminate]. }
    destruct (nth_error (s_members s1) (Z.to_nat (Z.of_nat i))) as [l|] eqn:El; cbn [fst snd ret raise].
    - split; [eapply low_trans; eassumption|]. intros l' H. injection H as <-. eapply nth_error_In. exact El.
    - split; [eapply low_trans; eassumption|discriminate].
  Qed.
End Low.

(** ** The bucket of fit *)
Section Bucket.
  Context {U Q : Type}.
  Notation World := (world xr xr U).

  Definition take_bucket (C : cmpops xr) (v : option (oval Q)) : M World bucket :=
    match v with
    | Some (OVStr s) => try_except (make_kernel_bucket xN C (SName s) (Some true) (Some false)) ValueError
    | Some (OVBucket b) => deepcopy b
    | _ => raise ValueError
    end.

  (** A bucket not sharing anything with [w]. *)
  Definition fresh_bucket (w w' : World) (num : numsamp) (b : bucket) (s : kset xr) : Prop :=
    nth_error (w_sets w) (b_set b) = None /\ nth_error (w_sets w') (b_set b) = Some s /\ s_num s = num /\
    forall l, In l (s_members s) -> nth_error (w_objs w) l = None.

  Lemma deepcopy_eq : forall b (w : World) s, nth_error (w_sets w) (b_set b) = Some s ->
    deepcopy b w =
    (mkW (w_objs w ++ w_objs w)
         (w_sets w ++ [mkSet (s_num s) (s_init s) (map (fun l => length (w_objs w) + l) (s_members s)) (s_sample s)]),
     Ok (mkBucket (length (w_sets w)) (b_norm b))).
  Proof. intros b w s H. unfold deepcopy, bind, get_set. rewrite H. reflexivity. Qed.

  Lemma untouched_app : forall (w : World) os ss, untouched w (mkW (w_objs w ++ os) (w_sets w ++ ss)).
  Proof.
    intros w os ss. split.
    - intros l o H. cbn [w_objs]. rewrite nth_error_app1; [exact H|]. apply nth_error_Some. congruence.
    - intros l o H. cbn [w_sets]. rewrite nth_error_app1; [exact H|]. apply nth_error_Some. congruence.
  Qed.
  Lemma untouched_refl : forall w : World, untouched w w.
  Proof. intros w. split; intros l o H; exact H. Qed.

  Lemma deepcopy_fresh : forall b (w : World) s, nth_error (w_sets w) (b_set b) = Some s ->
    exists w' b' s', deepcopy b w = (w', Ok b') /\ untouched w w' /\ fresh_bucket w w' (s_num s) b' s' /\
      s_members s' = map (fun l => length (w_objs w) + l) (s_members s) /\
      (forall l, nth_error (w_objs w') (length (w_objs w) + l) = nth_error (w_objs w) l).
  Proof.
    intros b w s H. rewrite (deepcopy_eq b w s H). 
    exists (mkW (w_objs w ++ w_objs w) (w_sets w ++ [mkSet (s_num s) (s_init s)
              (map (fun l => length (w_objs w) + l) (s_members s)) (s_sample s)])),
           (mkBucket (length (w_sets w)) (b_norm b)),
           (mkSet (s_num s) (s_init s) (map (fun l => length (w_objs w) + l) (s_members s)) (s_sample s)).
    split; [reflexivity|].
    split; [apply untouched_app|]. split; [|split; [reflexivity|]].
    - split; [apply nth_error_None; cbn; lia|]. split.
      + cbn [b_set w_sets]. rewrite nth_error_app2, Nat.sub_diag by lia. reflexivity.
      + split; [reflexivity|]. cbn [s_members]. intros l Hl. apply in_map_iff in Hl. destruct Hl as (l' & <- & _).
        apply nth_error_None. lia.
    - intros l. cbn [w_objs]. rewrite nth_error_app2 by lia. f_equal. lia.
  Qed.

  Lemma strategy_makes : forall C s ks (w : World), strategy_kernels s = Some ks ->
    makes_bucket (make_kernel_bucket xN C (SName s) (Some true) (Some false)) w true (map builtin ks).
  Proof.
    intros C s ks w H. unfold strategy_kernels in H.
    destruct (String.eqb (lower s) "exhaustive") eqn:E1.
    { injection H as <-. apply String.eqb_eq in E1. apply (pf_C48_exhaustive xN C w true false s E1). }
    destruct (String.eqb (lower s) "light") eqn:E2.
    { injection H as <-. apply String.eqb_eq in E2. apply (pf_C48_light xN C w true false s E2). }
    destruct (String.eqb (lower s) "linear_only") eqn:E3; [|discriminate].
    injection H as <-. apply String.eqb_eq in E3. apply (pf_C48_linear_only xN C w true false s E3).
  Qed.

  Lemma strategy_none : forall C s (w : World), strategy_kernels s = None ->
    make_kernel_bucket xN C (SName s) (Some true) (Some false) w = (w, Raise ValueError).
  Proof.
    intros C s w H. unfold strategy_kernels in H.
    destruct (String.eqb (lower s) "exhaustive") eqn:E1; [discriminate|].
    destruct (String.eqb (lower s) "light") eqn:E2; [discriminate|].
    destruct (String.eqb (lower s) "linear_only") eqn:E3; [discriminate|].
    apply String.eqb_neq in E1, E2, E3. apply (pf_C48_other_strategies xN C w (Some true) (Some false)); assumption.
  Qed.

  Lemma take_fresh : forall C v (w : World),
    (exists w' b num s, take_bucket C v w = (w', Ok b) /\ untouched w w' /\ fresh_bucket w w' num b s) \/
    exists e, take_bucket C v w = (w, Raise e).
  Proof.
    intros C [[b|s|q]|] w; cbn [take_bucket].
    - destruct (nth_error (w_sets w) (b_set b)) as [s|] eqn:E.
      + left. destruct (deepcopy_fresh b w s E) as (w' & b' & s' & H1 & H2 & H3 & _).
        exists w', b', (s_num s), s'. auto.
      + right. exists NameError. unfold deepcopy, bind, get_set. rewrite E. reflexivity.
    - unfold try_except. destruct (strategy_kernels s) as [ks|] eqn:E.
      + left. destruct (strategy_makes C s ks w E) as (b & ms & H1 & H2 & H3 & H4 & H5 & H6 & H7).
        destruct (make_kernel_bucket xN C (SName s) (Some true) (Some false) w) as [w' r]. cbn [fst snd] in *. subst r.
        destruct H4 as (i & sm & H4). exists w', b, NSNone, (mkSet NSNone i ms sm).
        split; [reflexivity|]. split; [split; assumption|]. split; [exact H3|]. split; [exact H4|].
        split; [reflexivity|]. apply H5.
      + right. rewrite (strategy_none C s w E). exists ValueError. reflexivity.
    - right. exists ValueError. reflexivity.
    - right. exists ValueError. reflexivity.
  Qed.
End Bucket.

(** ** fit and predict, step by step *)
Section OptFacts.
  Context {U XIn YIn W Y F P Q : Type}.
  Variable S : sklearn XIn YIn W Y F P.
  Variable self_fit : svm_self Q -> F -> arr xr -> Y -> W -> F * res unit.
  Variable self_predict : svm_self Q -> F -> arr xr -> res P.
  Variable numbers : Y -> res (list xr).
  Variable best_score : svm * list R -> Z -> arr xr -> Y -> res xr.
  Variable numeric : list xr -> bool.
  Variable C : cmpops xr.
  Notation State := (optimal Y F Q * world xr xr U)%type.
  Notation fit := (optimal_fit S self_fit numbers best_score numeric C).
  Notation predict := (optimal_predict (U:=U) S self_predict).
  Definition search_params (o : optimal Y F Q) : rparams :=
    mkRP None (Some (if o_regressor o then "SVR" else "SVC")%string) None None false.

  Lemma ofit_eq : forall X y wt (o : optimal Y F Q) (w : world xr xr U),
    fit X y wt (o, w) =
    match take_bucket C (dict_get (o_params o) "k_bucket") w with
    | (w1, Raise e) => ((o, w1), Raise e)
    | (w1, Ok b) =>
      match sk_check_X_y S true X y with
      | Raise e => ((oset_copy b o, w1), Raise e)
      | Ok xy =>
        match dict_get (o_params o) "method" with
        | Some (OVStr m) =>
          match find_optimal_kernel numbers best_score numeric (Some b) (fst xy) (snd xy) m (search_params o) w1 with
          | (w2, Raise e) => ((oset_train xy (oset_copy b o), w2), Raise e)
          | (w2, Ok l) =>
            match obj_full xN l w2 with
            | (w3, Raise e) => ((oset_opt l (oset_train xy (oset_copy b o)), w3), Raise e)
            | (w3, Ok K) =>
              let fr := self_fit (opt_svm o) (o_model o) K (snd xy) wt in
              ((oset_model (fst fr) (oset_opt l (oset_train xy (oset_copy b o))), w3), snd fr)
            end
          end
        | _ => ((oset_train xy (oset_copy b o), w1), Raise AttributeError)
        end
      end
    end.
  Proof.
    intros X y wt o w. unfold optimal_fit. unfold bind at 1, oget at 1, bind at 1. cbn [get ret fst snd].
    match goal with |- bind ?m _ _ = _ =>
      assert (E : m (o, w) = on_heap (take_bucket C (dict_get (o_params o) "k_bucket")) (o, w)) end.
    { unfold take_bucket. destruct (dict_get (o_params o) "k_bucket") as [[b|s|q]|]; reflexivity. }
    unfold bind at 1. rewrite E. unfold on_heap at 1. cbn [fst snd].
    destruct (take_bucket C (dict_get (o_params o) "k_bucket") w) as [w1 [b|e]]; [|reflexivity].
    unfold bind at 1, omodify at 1, modify. cbn [fst snd]. unfold bind at 1, lift at 1.
    destruct (sk_check_X_y S true X y) as [xy|e]; [|reflexivity].
    unfold bind at 1, omodify at 1, modify. cbn [fst snd].
    unfold bind at 1, opt_search, bind at 1, oget at 1, bind at 1. cbn [get ret fst snd].
    cbn [oset_train oset_copy o_params].
    destruct (dict_get (o_params o) "method") as [[b'|m|q]|]; try reflexivity.
    unfold on_heap at 1. cbn [fst snd oset_train oset_copy o_regressor]. fold (search_params o).
    destruct (find_optimal_kernel numbers best_score numeric (Some b) (fst xy) (snd xy) m (search_params o) w1)
      as [w2 [l|e]]; [|reflexivity].
    unfold bind at 1, omodify at 1, modify. cbn [fst snd]. unfold bind at 1, on_heap at 1. cbn [fst snd].
    destruct (obj_full xN l w2) as [w3 [K|e]]; reflexivity.
  Qed.

  Lemma opredict_eq : forall X (o : optimal Y F Q) (w : world xr xr U),
    predict X (o, w) =
    match o_opt_kernel o with
    | None => ((o, w), Raise NotFittedErr)
    | Some l =>
      match sk_check_array S X with
      | Raise e => ((o, w), Raise e)
      | Ok z =>
        match o_train o with
        | None => ((o, w), Raise AttributeError)
        | Some xy =>
          match on_km l (attach_to z (Some (fst xy))) w with
          | (w1, Raise e) => ((o, w1), Raise e)
          | (w1, Ok _) =>
            ((o, fst (obj_full xN l w1)),
             rbind (snd (obj_full xN l w1)) (fun K =>
             rbind (self_predict (opt_svm o) (o_model o) K) (fun p => if o_regressor o then Ok p else sk_int S p)))
          end
        end
      end
    end.
  Proof.
    intros X o w. unfold optimal_predict. unfold bind at 1, oget at 1, bind at 1. cbn [get ret fst snd].
    destruct (o_opt_kernel o) as [l|]; [|reflexivity]. unfold bind at 1, lift at 1.
    destruct (sk_check_array S X) as [z|e]; [|reflexivity].
    unfold bind at 1, oattribute, bind at 1, oget at 1, bind at 1. cbn [get ret fst snd].
    destruct (o_train o) as [xy|]; [|reflexivity]. unfold bind at 1, on_heap at 1. cbn [ret fst snd].
    destruct (on_km l (attach_to z (Some (fst xy))) w) as [w1 [u|e]]; [|reflexivity].
    unfold bind at 1, on_heap at 1. cbn [fst snd]. destruct (obj_full xN l w1) as [w2 [K|e]]; [|reflexivity].
    unfold bind, lift. cbn [fst snd rbind]. destruct (self_predict (opt_svm o) (o_model o) K) as [p|e]; [|reflexivity].
    destruct (o_regressor o); reflexivity.
  Qed.

  (** fit touches nothing that existed, and the optimal kernel is a new object. *)
  Lemma fit_untouched : forall X y wt (o : optimal Y F Q) (w : world xr xr U),
    let s' := fst (fit X y wt (o, w)) in
    untouched w (snd s') /\ o_regressor (fst s') = o_regressor o /\ o_params (fst s') = o_params o /\
    (o_opt_kernel (fst s') = o_opt_kernel o \/
     exists l, o_opt_kernel (fst s') = Some l /\ nth_error (w_objs w) l = None).
  Proof.
    intros X y wt o w. cbv zeta. rewrite ofit_eq.
    destruct (take_fresh C (dict_get (o_params o) "k_bucket") w) as [(w1 & b & num & s & E & L & H1 & H2 & H3 & H4)|[e E]];
      rewrite E.
    2:{ split; [apply untouched_refl|]. split; [reflexivity|]. split; [reflexivity|]. left. reflexivity. }
    destruct (sk_check_X_y S true X y) as [xy|e].
    2:{ split; [exact L|]. split; [reflexivity|]. split; [reflexivity|]. left. reflexivity. }
    destruct (dict_get (o_params o) "method") as [[b'|m|q]|];
      try (split; [exact L|]; split; [reflexivity|]; split; [reflexivity|]; left; reflexivity).
    apply low_untouched in L.
    destruct (low_find numbers best_score numeric (length (w_objs w)) (length (w_sets w)) b (fst xy) (snd xy) m
                (search_params o) w1 s) as [L2 Hin]; [exact H2|apply nth_error_None; exact H1| |].
    { intros l Hl. apply nth_error_None. apply H4, Hl. }
    destruct (find_optimal_kernel numbers best_score numeric (Some b) (fst xy) (snd xy) m (search_params o) w1)
      as [w2 [l|e]]; cbn [fst snd] in *.
    2:{ split; [apply low_untouched; eapply low_trans; eassumption|]. split; [reflexivity|]. split; [reflexivity|].
        left. reflexivity. }
    specialize (Hin l eq_refl). specialize (H4 l Hin).
    assert (L3 := low_full (length (w_objs w)) (length (w_sets w)) l w2 (proj1 (nth_error_None _ _) H4)).
    destruct (obj_full xN l w2) as [w3 [K|e]]; cbn [fst snd] in *.
    - split; [apply low_untouched; eapply low_trans; [exact L|]; eapply low_trans; eassumption|].
      split; [reflexivity|]. split; [reflexivity|]. right. exists l. split; [reflexivity|exact H4].
    - split; [apply low_untouched; eapply low_trans; [exact L|]; eapply low_trans; eassumption|].
      split; [reflexivity|]. split; [reflexivity|]. right. exists l. split; [reflexivity|exact H4].
  Qed.

  (** predict changes at most the optimal kernel. *)
  Lemma predict_low : forall X (o : optimal Y F Q) (w : world xr xr U) a b,
    (forall l, o_opt_kernel o = Some l -> a <= l) ->
    fst (fst (predict X (o, w))) = o /\ low a b w (snd (fst (predict X (o, w)))).
  Proof.
    intros X o w a b H. rewrite opredict_eq. destruct (o_opt_kernel o) as [l|]; [|split; [reflexivity|apply low_refl]].
    specialize (H l eq_refl). destruct (sk_check_array S X) as [z|e]; [|split; [reflexivity|apply low_refl]].
    destruct (o_train o) as [xy|]; [|split; [reflexivity|apply low_refl]].
    assert (L := low_on_km a b l (attach_to z (Some (fst xy))) w H).
    destruct (on_km l (attach_to z (Some (fst xy))) w) as [w1 [u|e]]; cbn [fst snd] in *.
    - split; [reflexivity|]. eapply low_trans; [exact L|]. apply low_full, H.
    - split; [reflexivity|exact L].
  Qed.
End OptFacts.

(** ** set_params *)
Section SetParams.
  Context {U Y F Q : Type}.

  Definition known (o : optimal Y F Q) (n : string) : bool := existsb (String.eqb n) (param_names (o_regressor o)).
  Definition oset_all (ps : list (string * oval Q)) (o : optimal Y F Q) : optimal Y F Q :=
    fold_left (fun o p => if known o (fst p) then oset_param (fst p) (snd p) o else o) ps o.

  Lemma set_params_eq : forall ps (o : optimal Y F Q) (w : world xr xr U),
    optimal_set_params ps (o, w) = ((oset_all ps o, w), Ok tt).
  Proof.
    intros ps. unfold optimal_set_params. induction ps as [|p ps IH]; intros o w; [reflexivity|].
    cbn [for_each oset_all fold_left]. unfold bind at 1. unfold bind at 1. unfold oget at 1. unfold bind at 1.
    cbn [get ret fst]. fold (known o (fst p)). destruct (known o (fst p)).
    - unfold omodify, modify. cbn [fst snd]. apply IH.
    - cbn [ret]. apply IH.
  Qed.

  Lemma oset_all_kept : forall ps (o : optimal Y F Q), let o' := oset_all ps o in
    o_regressor o' = o_regressor o /\ o_copy o' = o_copy o /\ o_train o' = o_train o /\
    o_opt_kernel o' = o_opt_kernel o /\ o_model o' = o_model o.
  Proof.
    intros ps. induction ps as [|p ps IH]; intros o; cbv zeta; [repeat split|].
    cbn [oset_all fold_left]. fold (oset_all ps (if known o (fst p) then oset_param (fst p) (snd p) o else o)).
    destruct (IH (if known o (fst p) then oset_param (fst p) (snd p) o else o)) as (H1 & H2 & H3 & H4 & H5).
    rewrite H1, H2, H3, H4, H5. destruct (known o (fst p)); repeat split.
  Qed.

  Lemma oset_all_get : forall ps (o : optimal Y F Q) n, NoDup (map fst ps) ->
    dict_get (o_params (oset_all ps o)) n =
    if known o n then match dict_get ps n with Some v => Some v | None => dict_get (o_params o) n end
    else dict_get (o_params o) n.
  Proof.
    intros ps. induction ps as [|[a v] ps IH]; intros o n H.
    { cbn [oset_all fold_left dict_get]. destruct (known o n); reflexivity. }
    inversion H as [|? ? Ha Hn]; subst. cbn [oset_all fold_left fst snd].
    fold (oset_all ps (if known o a then oset_param a v o else o)). rewrite (IH _ n Hn). cbn [dict_get].
    assert (K : known (if known o a then oset_param a v o else o) n = known o n) by (destruct (known o a); reflexivity).
    rewrite K. assert (G : dict_get ps a = None).
    { clear - Ha. induction ps as [|[b u] ps IH]; [reflexivity|]. cbn [dict_get map fst] in *.
      destruct (String.eqb_spec a b) as [->|Hne]; [destruct Ha; left; reflexivity|]. apply IH. intros H. apply Ha. right. exact H. }
    destruct (String.eqb_spec n a) as [->|Hne].
    - rewrite G. destruct (known o a) eqn:Ka; [|reflexivity]. cbn [oset_param o_params]. rewrite dict_get_set, String.eqb_refl. reflexivity.
    - destruct (known o n) eqn:Kn; destruct (known o a); try reflexivity; cbn [oset_param o_params];
        rewrite dict_get_set; (destruct (String.eqb_spec n a); [contradiction|reflexivity]).
  Qed.
End SetParams.

Lemma Forall2_nth_error : forall {A B} (P : A -> B -> Prop) l l', Forall2 P l l' -> forall i a,
  nth_error l i = Some a -> exists b, nth_error l' i = Some b /\ P a b.
Proof.
  intros A B P l l' H. induction H as [|x y l l' Hxy H IH]; intros i a Hi; [destruct i; discriminate|].
  destruct i as [|i]; [injection Hi as <-; exists y; auto|]. exact (IH i a Hi).
Qed.
