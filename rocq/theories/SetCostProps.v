(** C102: exactly how many kernel evaluations the functions that work on a whole KernelSet cost. *)
From Coq Require Import String Reals List Arith ZArith Bool Lia Lra.
Import ListNotations.
From Verif Require Import Prelude MatModel UtilsModel KMModel SpecKM XReal OpsModel KernelsModel
  KMXModel SetModel SpecSet BucketModel RankModel SpecRank CompositeModel SpecComposite LinCombModel SpecCost
  AlgoModel SpecAlgo SpecOpt SpecOptCost SpecSetCost.
From Verif Require Import MatFacts MFacts KMFacts KMInv KMHist KMHist2 KMProps OpsFacts SetFacts SetFacts2 SetProps
  CompositeFacts RankFacts RankProps KMXProps CombExact LinCombProps AlgoProps CostProps OptCostProps.

Local Open Scope list_scope.
Local Open Scope nat_scope.

Section Reads.
  Context {U : Type}.
  Notation World := (world xr xr U).
  Variable ms : list nat.

  (** A sequence of reads of members; [ls] are those that returned. *)
  Inductive reads : World -> World -> list nat -> Prop :=
  | rd_nil : forall w, reads w w []
  | rd_ok : forall w w1 w' l K ls, In l ms -> obj_full xN l w = (w1, Ok K) -> reads w1 w' ls -> reads w w' (l :: ls)
  | rd_fail : forall w w1 w' l e ls, In l ms -> obj_full xN l w = (w1, Raise e) -> reads w1 w' ls -> reads w w' ls.

  Lemma reads_app : forall w w1 w2 l1 l2, reads w w1 l1 -> reads w1 w2 l2 -> reads w w2 (l1 ++ l2).
  Proof. intros w w1 w2 l1 l2 H. induction H; intros H'; [exact H'|eapply rd_ok; eauto|eapply rd_fail; eauto]. Qed.

  Lemma obj_full_sets : forall l (w : World), w_sets (fst (obj_full xN l w)) = w_sets w.
  Proof. intros l w. destruct (only_read_full l w w (only_read_refl w)) as [H _]. exact H. Qed.

  Lemma reads_sets : forall w w' ls, reads w w' ls -> w_sets w' = w_sets w.
  Proof.
    intros w w' ls H. induction H as [w|w w1 w' l K ls Hl H1 H2 IH|w w1 w' l e ls Hl H1 H2 IH]; [reflexivity| |];
      rewrite IH; pose proof (obj_full_sets l w) as H; rewrite H1 in H; exact H.
  Qed.

  (** What it does to the objects. *)
  Lemma reads_other : forall w w' ls l, reads w w' ls -> ~ In l ms -> nth_error (w_objs w') l = nth_error (w_objs w) l.
  Proof.
    intros w w' ls l H Hl. induction H as [w|w w1 w' l1 K ls Hl1 H1 H2 IH|w w1 w' l1 e ls Hl1 H1 H2 IH]; [reflexivity| |];
      rewrite IH; pose proof (full_other l1 l w (fun E => Hl (eq_ind_r (fun q => In q ms) Hl1 E))) as H; rewrite H1 in H; exact H.
  Qed.

  Lemma obj_full_ok : forall l (w : World) s, nth_error (w_objs w) l = Some (OKM s) ->
    is_ok (snd (obj_full xN l w)) = is_ok (outcome xN OpFull s).
  Proof.
    intros l w s H. rewrite obj_full_eq, H. cbn [snd]. unfold outcome, step, fmap, bind.
    destruct (full xN s) as [s' [a|e]]; reflexivity.
  Qed.

  Lemma reads_member : forall w w' ls, reads w w' ls -> forall l s, nth_error (w_objs w) l = Some (OKM s) ->
    exists c, nth_error (w_objs w') l = Some (OKM (run xN (repeat OpFull c) s)) /\
      (In l ls -> exists c1, c1 < c /\ is_ok (outcome xN OpFull (run xN (repeat OpFull c1) s)) = true).
  Proof.
    intros w w' ls H. induction H as [w|w w1 w' l1 K ls Hl1 H1 H2 IH|w w1 w' l1 e ls Hl1 H1 H2 IH]; intros l s Hs.
    - exists 0. split; [exact Hs|intros []].
    - destruct (Nat.eq_dec l l1) as [->|Hne].
      + pose proof (full_read l1 w s Hs) as H. rewrite H1 in H. cbn [fst] in H. destruct (IH l1 _ H) as (c & Hc & _).
        exists (S c). split; [exact Hc|]. intros _. exists 0. split; [lia|]. cbn [repeat run].
        rewrite <- (obj_full_ok l1 w s Hs), H1. reflexivity.
      + pose proof (full_other l1 l w Hne) as H. rewrite H1 in H. cbn [fst] in H. rewrite <- H in Hs.
        destruct (IH l s Hs) as (c & Hc & Hi). exists c. split; [exact Hc|]. intros [E|Hin]; [congruence|exact (Hi Hin)].
    - destruct (Nat.eq_dec l l1) as [->|Hne].
      + pose proof (full_read l1 w s Hs) as H. rewrite H1 in H. cbn [fst] in H. destruct (IH l1 _ H) as (c & Hc & Hi).
        exists (S c). split; [exact Hc|]. intros Hin. destruct (Hi Hin) as (c1 & L & Hok). exists (S c1). split; [lia|exact Hok].
      + pose proof (full_other l1 l w Hne) as H. rewrite H1 in H. cbn [fst] in H. rewrite <- H in Hs. exact (IH l s Hs).
  Qed.

  (** A computation over a state that contains the heap reads only members, and all of [req] if it returns. *)
  Definition ob {St A} (pr : St -> World) (m : M St A) (req : list nat) (s : St) : Prop :=
    exists ls, reads (pr s) (pr (fst (m s))) ls /\ (is_ok (snd (m s)) = true -> incl req ls).

  Lemma ob_bind : forall {St A B} (pr : St -> World) (m : M St A) (f : A -> M St B) r1 r2 s,
    ob pr m r1 s -> (forall a s', m s = (s', Ok a) -> ob pr (f a) r2 s') -> ob pr (bind m f) (r1 ++ r2) s.
  Proof.
    intros St A B pr m f r1 r2 s (l1 & H1 & I1) H2. unfold ob, bind. destruct (m s) as [s' [a|e]]; cbn [fst snd] in *.
    - destruct (H2 a s' eq_refl) as (l2 & H3 & I2). exists (l1 ++ l2). split; [eapply reads_app; eassumption|].
      intros Hok. apply incl_app; [apply incl_appl, I1; reflexivity|apply incl_appr, I2, Hok].
    - exists l1. split; [exact H1|discriminate].
  Qed.
  Lemma ob_none : forall {St A} (pr : St -> World) (m : M St A) s, pr (fst (m s)) = pr s -> ob pr m [] s.
  Proof. intros St A pr m s H. exists []. rewrite H. split; [constructor|intros _ q []]. Qed.
  Lemma ob_weak : forall {St A} (pr : St -> World) (m : M St A) r1 r2 s, incl r2 r1 -> ob pr m r1 s -> ob pr m r2 s.
  Proof. intros St A pr m r1 r2 s H (ls & H1 & H2). exists ls. split; [exact H1|]. intros Hok. eapply incl_tran; eauto. Qed.
  Lemma ob_raise : forall {St A} (pr : St -> World) (m : M St A) e r s, m s = (s, Raise e) -> ob pr m r s.
  Proof. intros St A pr m e r s H. exists []. rewrite H. split; [constructor|discriminate]. Qed.
  Lemma ob_full : forall l w, In l ms -> ob (fun w => w) (obj_full xN l) [l] w.
  Proof.
    intros l w H. unfold ob. destruct (obj_full xN l w) as [w1 [K|e]] eqn:E; cbn [fst snd].
    - exists [l]. split; [eapply rd_ok; [exact H|exact E|constructor]|intros _; apply incl_refl].
    - exists []. split; [eapply rd_fail; [exact H|exact E|constructor]|discriminate].
  Qed.
  Lemma ob_for_each : forall {St A} (pr : St -> World) (body : A -> M St unit) (req : A -> list nat) l s,
    (forall a s, In a l -> ob pr (body a) (req a) s) -> ob pr (for_each l body) (flat_map req l) s.
  Proof.
    intros St A pr body req l. induction l as [|a l IH]; intros s H; [apply ob_none; reflexivity|].
    cbn [for_each flat_map]. apply ob_bind; [apply H; left; reflexivity|]. intros u s' _. apply IH. intros; apply H; right; assumption.
  Qed.
  Lemma ob_map_each : forall {St A B} (pr : St -> World) (body : A -> M St B) (req : A -> list nat) l s,
    (forall a s, In a l -> ob pr (body a) (req a) s) -> ob pr (map_each l body) (flat_map req l) s.
  Proof.
    intros St A B pr body req l. induction l as [|a l IH]; intros s H; [apply ob_none; reflexivity|].
    cbn [map_each flat_map]. apply ob_bind; [apply H; left; reflexivity|]. intros u s' _.
    rewrite <- (app_nil_r (flat_map req l)). apply ob_bind; [apply IH; intros; apply H; right; assumption|].
    intros b s2 _. apply ob_none. reflexivity.
  Qed.
  Lemma flat_single : forall {A} (g : A -> nat) l, flat_map (fun a => [g a]) l = map g l.
  Proof. intros A g l. induction l as [|a l IH]; [reflexivity|]. cbn. rewrite IH. reflexivity. Qed.

  Lemma ob_map_each_id : forall {St B} (pr : St -> World) (body : nat -> M St B) l s,
    (forall a s, In a l -> ob pr (body a) [a] s) -> ob pr (map_each l body) l s.
  Proof.
    intros St B pr body l s H. eapply ob_weak; [|apply (ob_map_each pr body (fun a => [a])); exact H].
    rewrite (flat_single (fun a => a)), map_id. apply incl_refl.
  Qed.
  Lemma ob_for_each_id : forall {St} (pr : St -> World) (body : nat -> M St unit) l s,
    (forall a s, In a l -> ob pr (body a) [a] s) -> ob pr (for_each l body) l s.
  Proof.
    intros St pr body l s H. eapply ob_weak; [|apply (ob_for_each pr body (fun a => [a])); exact H].
    rewrite (flat_single (fun a => a)), map_id. apply incl_refl.
  Qed.
  Lemma ob_bind_l : forall {St A B} (pr : St -> World) (m : M St A) (f : A -> M St B) r s,
    ob pr m r s -> (forall a s', m s = (s', Ok a) -> ob pr (f a) [] s') -> ob pr (bind m f) r s.
  Proof. intros. eapply ob_weak; [|eapply ob_bind; eassumption]. apply incl_appl, incl_refl. Qed.
  Lemma ob_bind_r : forall {St A B} (pr : St -> World) (m : M St A) (f : A -> M St B) r s,
    ob pr m [] s -> (forall a s', m s = (s', Ok a) -> ob pr (f a) r s') -> ob pr (bind m f) r s.
  Proof. intros. eapply ob_weak; [|eapply ob_bind; eassumption]. apply incl_refl. Qed.

  (** ** The four functions *)
  Variable k : nat.
  Notation idw := (fun w : World => w).

  Lemma lc_loop_ob : forall l acc w, (forall p, In p l -> In (snd p) ms) -> ob idw (lc_loop l acc) (map snd l) w.
  Proof.
    intros l. induction l as [|[wt m] l IH]; intros acc w H; [apply ob_none; reflexivity|].
    cbn [lc_loop map snd]. change (m :: map snd l) with ([m] ++ map snd l).
    apply ob_bind; [apply ob_full; exact (H (wt, m) (or_introl eq_refl))|]. intros K w1 _.
    apply ob_bind_r; [apply ob_none; reflexivity|]. intros acc' w2 _. apply IH. intros p Hp. apply H. right. exact Hp.
  Qed.

  Lemma combination_ob : forall a ws norm (w : World) num, set_is w k num ms -> is_vector a ws -> length ws = length ms ->
    ob idw (linear_combination_set k a norm) ms w.
  Proof.
    intros a ws norm w num Hs Ha Hl. unfold ob. rewrite (lc_start k w num ms a ws norm Hs Ha Hl).
    destruct (normed_weights norm (map Fin ws)) as [ws'|e] eqn:En.
    - apply normed_len in En. rewrite map_length in En.
      assert (E : map snd (combine ws' ms) = ms).
      { assert (L : length ws' = length ms) by lia. clear - L. revert ms L. induction ws' as [|a ws' IH]; intros [|b ms] L; try discriminate; [reflexivity|].
        cbn. rewrite IH by (cbn in L; lia). reflexivity. }
      destruct (lc_loop_ob (combine ws' ms) (lc_zeros num) w) as (ls & H1 & H2).
      { intros [p q] Hp. exact (in_combine_r _ _ _ _ Hp). }
      rewrite E in H2. exists ls. split; assumption.
    - exists []. split; [constructor|discriminate].
  Qed.

  Lemma ranking_ob : forall {T} (numbers : T -> res (list xr)) best_score t m p (w : World) num, set_is w k num ms ->
    ob idw (rank_kernels numbers best_score k t m p) ms w.
  Proof.
    intros T numbers best_score t m p w num (b & x & Hs). unfold rank_kernels. destruct (negb (valid_method m)); [eapply ob_raise; reflexivity|].
    assert (It : set_iter k w = (w, Ok ms)) by (unfold set_iter, bind, get_set; rewrite Hs; reflexivity).
    destruct (String.eqb (lower m) "align/corr").
    - unfold alignment_ranking. 
      apply ob_bind_r; [apply ob_none; reflexivity|]. intros ys w1 E1. unfold lift in E1. injection E1 as <- E1.
      apply ob_bind_r; [apply ob_none; rewrite It; reflexivity|]. intros ms' w2 E2. rewrite It in E2. injection E2 as <- <-.
      apply ob_map_each_id. intros l w2 Hl.
      apply ob_bind_l; [apply ob_full; exact Hl|]. intros K w3 _. apply ob_none.
      destruct (is_some (rp_folds p) || is_some (rp_estimator p) || rp_other p); reflexivity.
    - unfold CV_ranking. destruct (is_some (rp_zero p) || is_some (rp_centered p) || rp_other p); [eapply ob_raise; reflexivity|].
      
      apply ob_bind_r; [apply ob_none; rewrite It; reflexivity|]. intros ms' w2 E2. rewrite It in E2. injection E2 as <- <-.
      apply ob_bind_l.
      + apply ob_map_each_id. intros l w2 Hl.
         apply ob_bind_r; [apply ob_none; reflexivity|]. intros q w3 _.
        apply ob_bind_l; [apply ob_full; exact Hl|]. intros K w4 _. apply ob_none. reflexivity.
      + intros ss w3 _. apply ob_none. reflexivity.
  Qed.

  Lemma getitem_ob : forall i (w : World) num l, set_is w k num ms -> nth_error ms i = Some l -> set_getitem k (Some (Z.of_nat i)) w = (w, Ok l).
  Proof.
    intros i w num l (b & x & Hs) Hi. unfold set_getitem, bind, get_set. rewrite Hs. cbn [s_members].
    assert (i < length ms) by (apply nth_error_Some; congruence).
    assert (E : (Z.of_nat i <? 0)%Z || (Z.of_nat (length ms) <=? Z.of_nat i)%Z = false)
      by (apply orb_false_iff; split; [apply Z.ltb_ge|apply Z.leb_gt]; lia).
    rewrite Nat2Z.id. rewrite Hi. destruct (_ || _) eqn:E'; [exfalso|reflexivity].
    revert E'. repeat rewrite orb_true_iff. rewrite ?Z.ltb_lt, ?Z.leb_le, ?Z.gtb_lt, ?Z.geb_le. intros. lia.
  Qed.

  Lemma pairs_ob : forall est ps P (w : World) num, set_is w k num ms -> (forall p, In p ps -> fst p < length ms /\ snd p < length ms) ->
    ob idw (fill_pairs est k ps P) (flat_map (fun p => [nth (fst p) ms 0; nth (snd p) ms 0]) ps) w.
  Proof.
    intros est ps. induction ps as [|[i j] ps IH]; intros P w num Hs H; [apply ob_none; reflexivity|].
    destruct (H (i, j) (or_introl eq_refl)) as [Hi Hj]. cbn [fst snd] in Hi, Hj.
    assert (Ni := nth_error_nth' ms 0 Hi). assert (Nj := nth_error_nth' ms 0 Hj).
    assert (Li : In (nth i ms 0) ms) by (apply nth_In; exact Hi). assert (Lj : In (nth j ms 0) ms) by (apply nth_In; exact Hj).
    cbn [fill_pairs flat_map fst snd].
    match goal with |- ob _ _ ([?a; ?b] ++ ?r) _ => change (ob idw (fill_pairs est k ((i,j) :: ps) P) ([a] ++ [b] ++ r) w) end.
    cbn [fill_pairs].
    apply ob_bind_r; [apply ob_none; rewrite (getitem_ob i w num _ Hs Ni); reflexivity|].
    intros li w1 E1. rewrite (getitem_ob i w num _ Hs Ni) in E1. injection E1 as <- <-.
    apply ob_bind; [apply ob_full; exact Li|]. intros Ki w2 E2.
    assert (Hs2 : set_is w2 k num ms).
    { destruct Hs as (b & x & Hs). exists b, x. pose proof (obj_full_sets (nth i ms 0) w) as H2. rewrite E2 in H2. cbn [fst] in H2. rewrite H2. exact Hs. }
    apply ob_bind_r; [apply ob_none; rewrite (getitem_ob j w2 num _ Hs2 Nj); reflexivity|].
    intros lj w3 E3. rewrite (getitem_ob j w2 num _ Hs2 Nj) in E3. injection E3 as <- <-.
    apply ob_bind; [apply ob_full; exact Lj|]. intros Kj w4 E4.
    assert (Hs4 : set_is w4 k num ms).
    { destruct Hs2 as (b & x & Hs2). exists b, x. pose proof (obj_full_sets (nth j ms 0) w2) as H4. rewrite E4 in H4. cbn [fst] in H4. rewrite H4. exact Hs2. }
    apply ob_bind_r; [apply ob_none; reflexivity|]. intros v w5 E5. unfold lift in E5. injection E5 as <- _.
    apply (IH _ w4 num Hs4). intros p Hp. apply H. right. exact Hp.
  Qed.

  Lemma pairwise_ob : forall co metric (w : World) num, set_is w k num ms -> ob idw (pairwise_similarity co k metric) ms w.
  Proof.
    intros co metric w num Hs. unfold pairwise_similarity.
    destruct (set_is_eq w k num ms Hs) as (s & Hk & _ & Hm). 
    assert (G : get_set k w = (w, Ok s)) by (unfold get_set; rewrite Hk; reflexivity).
     apply ob_bind_r; [apply ob_none; rewrite G; reflexivity|].
    intros s' w1 E1. rewrite G in E1. injection E1 as <- <-. assert (Hm' : s_members s = ms) by congruence. rewrite Hm'.
    apply ob_bind_r; [apply ob_none; reflexivity|]. intros est w2 E2. unfold lift in E2. injection E2 as <- _.
    apply ob_bind_l; [|intros P w3 _; apply ob_none; reflexivity].
    eapply ob_weak; [|apply (pairs_ob est _ _ w num Hs)].
    - intros l Hl. destruct (In_nth_error _ _ Hl) as [i Hi]. assert (L : i < length ms) by (apply nth_error_Some; congruence).
      apply in_flat_map. exists (i, i). split.
      + apply in_flat_map. exists i. split; [apply in_seq; lia|]. apply in_map_iff. exists i. split; [reflexivity|apply in_seq; lia].
      + left. cbn [fst]. apply nth_error_nth with (d := 0) in Hi. exact Hi.
    - intros p Hp. apply in_flat_map in Hp. destruct Hp as (i & Hi & Hp). apply in_map_iff in Hp. destruct Hp as (j & <- & Hj).
      apply in_seq in Hi. apply in_seq in Hj. cbn [fst snd]. lia.
  Qed.

  Lemma step_ob : forall g l (s : cstate (E:=xr) (U:=U)), In l ms -> ob fst (combine_step g l) [l] s.
  Proof.
    intros g l s Hl. unfold combine_step. 
    apply ob_bind_r; [apply ob_none; unfold get_km, bind, get; destruct (c_km (snd s)); reflexivity|].
    intros a s1 _. apply ob_bind_l.
    - destruct (ob_full l (fst s1) Hl) as (ls & H1 & H2). exists ls. unfold on_world.
      destruct (obj_full xN l (fst s1)) as [w2 r]. split; assumption.
    - intros K s2 _. apply ob_none. unfold put_km, bind, lift. destruct (g a K); reflexivity.
  Qed.

  Lemma put_ob : forall r (s : cstate (E:=xr) (U:=U)), ob fst (put_km r) [] s.
  Proof. intros r s. apply ob_none. unfold put_km, bind, lift. destruct r; reflexivity. Qed.

  Lemma weighted_ob : forall wts (s : cstate (E:=xr) (U:=U)) num, set_is (fst s) k num ms -> c_set (snd s) = k -> length wts = length ms ->
    ob fst (fit_weighted wts) ms s.
  Proof.
    intros wts s num (b & x & Hs) Hk Hl. unfold fit_weighted. 
    apply ob_bind_r; [apply ob_none; reflexivity|]. intros s0 s1 E. injection E as <- <-.
    apply ob_bind_r; [apply put_ob|]. intros u s1 E1.
    assert (Es : fst s1 = fst s) by (unfold put_km, bind, lift in E1; destruct (square _ _); [injection E1 as <- _; reflexivity|discriminate]).
    assert (It : on_world (set_iter (c_set (snd s))) s1 = (s1, Ok ms)).
    { unfold on_world, set_iter, bind, get_set. rewrite Hk, Es, Hs. destruct s1 as [w1 c1]. cbn in *. subst w1. reflexivity. }
    apply ob_bind_r; [apply ob_none; rewrite It; reflexivity|]. intros ms' s2 E2. rewrite It in E2. injection E2 as <- <-.
    eapply ob_weak; [|apply (ob_for_each fst _ (fun p : xr * nat => [snd p]))].
    - rewrite flat_single. intros l Hin.
      assert (E : map snd (combine wts ms) = ms).
      { clear - Hl. revert ms Hl. induction wts as [|a wts IH]; intros [|m ms] L; try discriminate; [reflexivity|].
        cbn. rewrite IH by (cbn in L; lia). reflexivity. }
      rewrite E. exact Hin.
    - intros [v l] s2 Hin. apply step_ob. exact (in_combine_r _ _ _ _ Hin).
  Qed.

  Lemma fit_ob : forall kw (s : cstate (E:=xr) (U:=U)) num, set_is (fst s) k num ms -> c_set (snd s) = k ->
    (forall ws, c_kind (snd s) = CWeighted ws -> length ws = length ms) ->
    ob fst (fit kw) ms s.
  Proof.
    intros kw s num Hset Hk Hw. destruct (Hset) as (b & x & Hs). unfold fit.
    assert (It : on_world (set_iter (c_set (snd s))) s = (s, Ok ms)).
    { unfold on_world, set_iter, bind, get_set. rewrite Hk, Hs. destruct s. reflexivity. }
     apply ob_bind_r; [apply ob_none; reflexivity|]. intros s0 s1 E. injection E as <- <-.
    apply ob_bind_r; [apply ob_none; rewrite It; reflexivity|]. intros ms' s2 E2. rewrite It in E2. injection E2 as <- <-.
    apply ob_bind_l; [|intros u s3 _; apply ob_none; reflexivity].
    destruct (c_kind (snd s)) as [| | |wts] eqn:Ek.
    -  apply ob_bind_r; [apply ob_none; reflexivity|]. intros wts s3 E3. unfold lift in E3. injection E3 as <- E3.
      apply (weighted_ob wts s num Hset Hk). unfold sum_weights in E3. destruct kw as [a|].
      + destruct (weights_1D a) as [l|]; [|discriminate]. cbn [rbind] in E3. destruct (length l =? length ms) eqn:El; [|discriminate].
        injection E3 as <-. apply Nat.eqb_eq. exact El.
      + injection E3 as <-. apply repeat_length.
    -  apply ob_bind_r; [apply put_ob|]. intros u s3 _.
      apply ob_for_each_id. intros l s4 Hl. apply step_ob. exact Hl.
    -  apply ob_bind_r; [apply put_ob|]. intros u s3 _.
      apply ob_bind_l.
      + apply ob_for_each_id. intros l s4 Hl. apply step_ob. exact Hl.
      + intros u' s4 _.  apply ob_bind_r; [apply ob_none; unfold get_km, bind, get; destruct (c_km (snd s4)); reflexivity|].
        intros a s5 _. apply put_ob.
    - apply (weighted_ob wts s num Hset Hk). apply Hw. reflexivity.
  Qed.

  Lemma consumes_reads : forall (w w' : World) num ok, set_is w k num ms -> consumes k ms w w' ok ->
    exists ls, reads w w' ls /\ (ok = true -> incl ms ls).
  Proof.
    intros w w' num ok Hs [co metric H1 H2|a ws norm Ha Hl H1 H2|T numbers best t m p H1 H2|c kw Hk Hw H1 H2].
    - destruct (pairwise_ob co metric w num Hs) as (ls & R1 & R2). rewrite H1 in R1. rewrite H2 in R2. eauto.
    - destruct (combination_ob a ws norm w num Hs Ha Hl) as (ls & R1 & R2). rewrite H1 in R1. rewrite H2 in R2. eauto.
    - destruct (ranking_ob numbers best t m p w num Hs) as (ls & R1 & R2). rewrite H1 in R1. rewrite H2 in R2. eauto.
    - destruct (fit_ob kw (w, c) num Hs Hk Hw) as (ls & R1 & R2). exists ls. split; [rewrite <- H1; exact R1|]. intros Ho. apply R2. rewrite <- Ho, <- H2. reflexivity.
  Qed.
End Reads.

(** ** The property *)

Lemma fulls_want : forall {E U} c, forallb (fun o : op E U => negb (wants_normalised false o)) (repeat OpFull c) = true.
Proof. intros E U c. induction c as [|c IH]; [reflexivity|exact IH]. Qed.

Lemma wants_none : forall {E V U} (ops : list (op E U)) (tr : list (res (out V U))),
  forallb (fun o => negb (wants_normalised false o)) ops = true -> normalised_well false ops tr.
Proof.
  intros E V U ops tr H. unfold normalised_well. apply Forall_forall. intros [o r] Hin Hw.
  apply in_combine_l in Hin. rewrite forallb_forall in H. specialize (H o Hin). cbn [fst] in Hw. rewrite Hw in H. discriminate.
Qed.
Lemma wants_exists : forall {E U} (ops : list (op E U)),
  forallb (fun o => negb (wants_normalised false o)) ops = true -> existsb (wants_normalised false) ops = false.
Proof.
  intros E U ops. induction ops as [|o ops IH]; intros H; [reflexivity|]. cbn in *. apply andb_true_iff in H. destruct H as [H1 H2].
  rewrite (IH H2). destruct (wants_normalised false o); [discriminate|reflexivity].
Qed.

(** A member attached before is still attached after reads. *)
Lemma attached_reads : forall {U} (w w' : world xr xr U) ms ls K nrm x y c l, reads ms w w' ls ->
  attached_since w K nrm x y c l -> attached_since w' K nrm x y c l.
Proof.
  intros U w w' ms ls K nrm x y c l H (pre & post & Hl & Hna & Hy & Hc).
  destruct (reads_member ms w w' ls H l _ Hl) as (q & Hq & _). exists pre, (post ++ repeat OpFull q).
  split; [rewrite Hq; unfold after; rewrite <- run_app, <- app_assoc; reflexivity|]. split.
  { unfold no_attach in *. rewrite forallb_app, Hna. apply (no_attach_fulls q). }
  split; [|exact Hc]. destruct Hy as [Hy|(-> & Hs & Hw)]; [left; exact Hy|right]. split; [reflexivity|]. split.
  - intros Hin. apply in_app_or in Hin. destruct Hin as [Hin|Hin]; [exact (Hs Hin)|]. apply repeat_spec in Hin. discriminate.
  - rewrite forallb_app, Hw. apply fulls_want.
Qed.

Lemma reads_count : forall {U} (w w' : world xr xr U) ms ls K v nrm x y n m d c l, reads ms w w' ls -> In l ls ->
  attached_since w K nrm x y c l -> never_raises K v x y n m d -> admissible x y n m d ->
  calls_at w' l = c + row_pairs (is_some y) n m.
Proof.
  intros U w w' ms ls K v nrm x y n m d c l HR Hl Ha Hv Had.
  destruct Ha as (pre & post & Hobj & Hna & Hy & Hc).
    destruct (reads_member ms w w' ls HR l _ Hobj) as (q & Hq & Hin). destruct (Hin Hl) as (q1 & Lq & Hfull).
    assert (Eq : repeat (OpFull (E:=xr) (U:=U)) q = repeat OpFull q1 ++ [OpFull] ++ repeat OpFull (q - q1 - 1)).
    { change [OpFull] with (repeat (OpFull (E:=xr) (U:=U)) 1). rewrite <- !repeat_app. f_equal. lia. }
    set (p1 := post ++ repeat OpFull q1).
    assert (Hp1 : after xN K nrm pre x y p1 = run xN (repeat OpFull q1) (after xN K nrm pre x y post))
      by (unfold after, p1; rewrite <- run_app, <- app_assoc; reflexivity).
    assert (Hna1 : no_attach p1) by (unfold no_attach, p1 in *; rewrite forallb_app, Hna; apply (no_attach_fulls q1)).
    assert (Hna2 : no_attach (p1 ++ [OpFull] ++ repeat OpFull (q - q1 - 1))).
    { unfold no_attach in *. rewrite forallb_app, Hna1. apply (no_attach_fulls (S (q - q1 - 1))). }
    assert (Hsp : y = None \/ nrm = true \/ no_full_sparse p1).
    { destruct Hy as [Hy|(_ & Hs1 & _)]; [left; exact Hy|right; right]. intros H. apply in_app_or in H.
      destruct H as [H|H]; [exact (Hs1 H)|]. apply repeat_spec in H. discriminate. }
    rewrite <- Hp1 in Hfull.
    destruct (pf_C102_count (U:=U) xN K v nrm pre p1 x y n m d Hv Had Hna1 Hsp Hfull) as (new & Hnew & Hlen).
    { destruct Hy as [Hy|(-> & _ & Hw)]; [left; exact Hy|right]. apply wants_none. unfold p1. rewrite forallb_app, Hw. apply fulls_want. }
    assert (Hmore := pf_C102_nothing_more (U:=U) xN K v nrm pre p1 (repeat OpFull (q - q1 - 1)) x y n m d Hv Had Hna2 Hsp Hfull).
    unfold calls_at. rewrite Hq.
    assert (Ef : run xN (repeat OpFull q) (after xN K nrm pre x y post) = after xN K nrm pre x y (p1 ++ [OpFull] ++ repeat OpFull (q - q1 - 1))).
    { unfold after, p1. rewrite <- run_app, Eq, <- !app_assoc. reflexivity. }
    rewrite Ef, Hmore, Hnew, app_length, Hlen, Hc.
    + assert (E0 : is_some y && existsb (wants_normalised nrm) (p1 ++ [OpFull]) = false).
      { destruct Hy as [->|(-> & _ & Hw)]; [reflexivity|]. rewrite wants_exists; [apply andb_false_r|].
        unfold p1. rewrite !forallb_app, Hw. change [OpFull] with (repeat (OpFull (E:=xr) (U:=U)) 1). rewrite !fulls_want. reflexivity. }
      rewrite E0. lia.
    + destruct Hy as [Hy|(-> & _ & _)]; [left; exact Hy|right; right]. apply fulls_want.
Qed.

(** C102: the functions that work on a whole KernelSet. A call of pairwise_similarity, linear_combination,
    rank_kernels or the [fit] of a composite that returns leaves each member, whatever it had been used for
    since it was attached, with exactly one kernel call for each pair of rows since then: n (n + 1) / 2 calls for
    one sample of n rows, n m for two; objects that are not members are not touched, nor are the sets. So the
    members can be used again by the next such function. *)
Lemma pf_C102_set_functions :
  forall {U} (w w' : world xr xr U) k num ms, set_is w k num ms ->
    forall ok, consumes k ms w w' ok ->
    set_is w' k num ms /\
    (forall l, ~ In l ms -> nth_error (w_objs w') l = nth_error (w_objs w) l) /\
    forall l K v nrm x y n m d c, In l ms -> attached_since w K nrm x y c l ->
      never_raises K v x y n m d -> admissible x y n m d ->
      attached_since w' K nrm x y c l /\
      (ok = true -> calls_at w' l = c + row_pairs (is_some y) n m).
Proof.
  intros U w w' k num ms Hs ok HC. destruct (consumes_reads ms k w w' num ok Hs HC) as (ls & HR & Hincl).
  split; [|split].
  - destruct Hs as (b & x & Hs). exists b, x. rewrite (reads_sets ms w w' ls HR). exact Hs.
  - intros l Hl. exact (reads_other ms w w' ls l HR Hl).
  - intros l K v nrm x y n m d c Hl Ha Hv Had. split; [exact (attached_reads w w' ms ls K nrm x y c l HR Ha)|].
    intros Hok. exact (reads_count w w' ms ls K v nrm x y n m d c l HR (Hincl Hok l Hl) Ha Hv Had).
Qed.

(** C102: whatever is called next on the set costs nothing, whether it returns or not. *)
Lemma pf_C102_set_again :
  forall {U} (w w1 w2 : world xr xr U) k num ms ok, set_is w k num ms ->
    consumes k ms w w1 true -> consumes k ms w1 w2 ok ->
    forall l K v nrm x y n m d c, In l ms -> attached_since w K nrm x y c l ->
      never_raises K v x y n m d -> admissible x y n m d ->
      calls_at w2 l = calls_at w1 l.
Proof.
  intros U w w1 w2 k num ms ok Hs H1 H2 l K v nrm x y n m d c Hl Ha Hv Had.
  destruct (pf_C102_set_functions w w1 k num ms Hs true H1) as (Hs1 & _ & HF). destruct (HF l K v nrm x y n m d c Hl Ha Hv Had) as [_ E1].
  rewrite (E1 eq_refl). destruct (consumes_reads ms k w w1 num true Hs H1) as (ls1 & R1 & I1).
  destruct (consumes_reads ms k w1 w2 num ok Hs1 H2) as (ls2 & R2 & _).
  apply (reads_count w w2 ms (ls1 ++ ls2) K v nrm x y n m d c l (reads_app ms w w1 w2 ls1 ls2 R1 R2)); try assumption.
  apply in_or_app. left. exact (I1 eq_refl l Hl).
Qed.

(*BEGIN PROP*)
(** Two kernel matrices in a set: LinearKernel on [[1], [2]], the diagonal of the first has been read. *)
Definition two_linear : world xr xr unit :=
  mkW [OKM (after xN (builtin KLinear) false [] x12 None [OpDiagonal]);
       OKM (after xN (builtin KLinear) false [] x12 None [])]
      [mkSet (NSOne 2) true [0; 1] None].
Definition sum_of_two : comp := mkComp CSum 0 (NSOne 2) false None.
(*END PROP*)

(** C102_set_functions and C102_set_again apply: before, the first kernel has been called twice and the other
    never; the [fit] of a SumKernel brings both to 3 calls, where another one leaves them. *)
Lemma pf_C102_set_example :
  let w1 := fst (fst (fit None (two_linear, sum_of_two))) in
  let w2 := fst (fst (fit None (w1, sum_of_two))) in
  map (calls_at two_linear) [0; 1] = [2; 0] /\ map (calls_at w1) [0; 1] = [3; 3] /\ map (calls_at w2) [0; 1] = [3; 3] /\
  set_is two_linear 0 (NSOne 2) [0; 1] /\ consumes 0 [0; 1] two_linear w1 true /\ consumes 0 [0; 1] w1 w2 true /\
  Forall (attached_since two_linear (builtin KLinear) false x12 None 0) [0; 1] /\
  never_raises (builtin KLinear) xdot x12 None 2 2 1 /\ admissible x12 None 2 2 1.
Proof.
  cbv zeta. split; [vm_compute; reflexivity|]. split; [vm_compute; reflexivity|]. split; [vm_compute; reflexivity|].
  split; [exists true, None; reflexivity|]. split; [|split; [|split; [|split]]].
  - apply (by_composite 0 [0; 1] _ _ _ sum_of_two None); [reflexivity|discriminate|reflexivity|vm_compute; reflexivity].
  - apply (by_composite 0 [0; 1] _ _ _ sum_of_two None); [reflexivity|discriminate|reflexivity|vm_compute; reflexivity].
  - repeat constructor.
    + exists [], [OpDiagonal]. split; [reflexivity|]. split; [reflexivity|]. split; [left; reflexivity|reflexivity].
    + exists [], []. split; [reflexivity|]. split; [reflexivity|]. split; [left; reflexivity|reflexivity].
  - apply linear_total; reflexivity.
  - split; [exact s12|reflexivity].
Qed.
