(** Lemmas about kernel rankings. *)
From Coq Require Import String Reals List Arith ZArith Bool Lia Lra.
Import ListNotations.
From Verif Require Import Prelude MatModel UtilsModel KMModel SpecKM XReal OpsModel SpecLinAlg KernelsModel
  KMXModel SetModel SpecSet CompositeModel SpecComposite BucketModel RankModel SpecRank.
From Verif Require Import MatFacts MFacts RSum OpsFacts OpsProps SetFacts SetProps FullFacts CompositeFacts.

Local Open Scope list_scope.
Local Open Scope nat_scope.

(** ** Order on the extended numbers *)
Lemma Rltb_true : forall r s, Rltb r s = true <-> (r < s)%R.
Proof. intros. unfold Rltb. destruct (Rlt_dec r s); split; congruence || auto. Qed.
Lemma Rltb_false : forall r s, Rltb r s = false <-> (s <= r)%R.
Proof. intros. unfold Rltb. destruct (Rlt_dec r s); split; intros; try congruence; lra. Qed.
Lemma Reqb_true : forall r s, Reqb r s = true <-> r = s.
Proof. intros. unfold Reqb. destruct (Req_EM_T r s); split; congruence. Qed.

Lemma xeqb_refl : forall a, a <> NaN -> xeqb a a = true.
Proof. intros [r| | |] H; cbn; try reflexivity; [apply Reqb_true; reflexivity|congruence]. Qed.

Lemma xeqb_eq : forall a b, xeqb a b = true -> a = b.
Proof. intros [r| | |] [s| | |] H; cbn in H; try discriminate; try reflexivity. apply Reqb_true in H. congruence. Qed.

Lemma xltb_trans : forall a b c, xltb a b = true -> xltb b c = true -> xltb a c = true.
Proof.
  intros [r| | |] [s| | |] [t| | |]; cbn; intros; try discriminate; try reflexivity.
  rewrite Rltb_true in *. lra.
Qed.

Lemma xtotal : forall a b, a <> NaN -> b <> NaN -> xltb a b = true \/ xltb b a = true \/ a = b.
Proof.
  intros [r| | |] [s| | |] Ha Hb; cbn; try congruence; auto.
  rewrite !Rltb_true. destruct (Rtotal_order r s) as [H|[H|H]]; auto. right; right; congruence.
Qed.

Lemma xltb_irrefl : forall a, xltb a a = false.
Proof. intros [r| | |]; cbn; try reflexivity. apply Rltb_false. lra. Qed.

Lemma xleb_cases : forall a b, xleb a b = true <-> (xltb a b = true \/ (a = b /\ a <> NaN)).
Proof.
  intros a b. unfold xleb. rewrite orb_true_iff. split; intros [H|H]; auto.
  - right. split; [apply xeqb_eq, H|]. intros ->. discriminate.
  - destruct H as [-> H]. right. apply xeqb_refl, H.
Qed.

Lemma xleb_trans : forall a b c, xleb a b = true -> xleb b c = true -> xleb a c = true.
Proof.
  intros a b c. rewrite !xleb_cases. intros [H|[-> H]] [H'|[<- H']]; auto.
  left. eapply xltb_trans; eauto.
Qed.

Lemma xmax2_cases : forall a b, a <> NaN -> b <> NaN ->
  (xmax2 a b = a \/ xmax2 a b = b) /\ xleb a (xmax2 a b) = true /\ xleb b (xmax2 a b) = true.
Proof.
  intros a b Ha Hb. unfold xmax2.
  assert (E : x_isnan a || x_isnan b = false) by (destruct a, b; congruence || reflexivity). rewrite E.
  destruct (xltb a b) eqn:H.
  - split; [auto|]. rewrite !xleb_cases. auto.
  - split; [auto|]. rewrite !xleb_cases. split; [auto|].
    destruct (xtotal a b Ha Hb) as [H1|[H1| ->]]; [congruence|auto|auto].
Qed.

Lemma xmin2_cases : forall a b, a <> NaN -> b <> NaN ->
  (xmin2 a b = a \/ xmin2 a b = b) /\ xleb (xmin2 a b) a = true /\ xleb (xmin2 a b) b = true.
Proof.
  intros a b Ha Hb. unfold xmin2.
  assert (E : x_isnan a || x_isnan b = false) by (destruct a, b; congruence || reflexivity). rewrite E.
  destruct (xltb b a) eqn:H.
  - split; [auto|]. rewrite !xleb_cases. auto.
  - split; [auto|]. rewrite !xleb_cases. split; [auto|].
    destruct (xtotal a b Ha Hb) as [H1|[H1| ->]]; [auto|congruence|auto].
Qed.

Lemma fold_max : forall l a, a <> NaN -> ~ In NaN l ->
  In (fold_left xmax2 l a) (a :: l) /\ forall v, In v (a :: l) -> xleb v (fold_left xmax2 l a) = true.
Proof.
  induction l as [|b l IH]; intros a Ha Hl.
  - cbn. split; [auto|]. intros v [<-|[]]. apply xleb_cases. auto.
  - assert (Hb : b <> NaN) by (intros ->; apply Hl; left; reflexivity).
    destruct (xmax2_cases a b Ha Hb) as (H1 & H2 & H3).
    assert (Hm : xmax2 a b <> NaN) by (destruct H1 as [-> | ->]; assumption).
    destruct (IH (xmax2 a b) Hm) as (H4 & H5). { intros H; apply Hl; right; exact H. }
    cbn [fold_left]. split.
    + destruct H4 as [H4|H4]; [|right; right; exact H4]. rewrite <- H4.
      destruct H1 as [-> | ->]; [left|right; left]; reflexivity.
    + intros v [<-|[<-|Hv]].
      * eapply xleb_trans; [exact H2|]. apply H5. left. reflexivity.
      * eapply xleb_trans; [exact H3|]. apply H5. left. reflexivity.
      * apply H5. right. exact Hv.
Qed.

Lemma fold_min : forall l a, a <> NaN -> ~ In NaN l ->
  In (fold_left xmin2 l a) (a :: l) /\ forall v, In v (a :: l) -> xleb (fold_left xmin2 l a) v = true.
Proof.
  induction l as [|b l IH]; intros a Ha Hl.
  - cbn. split; [auto|]. intros v [<-|[]]. apply xleb_cases. auto.
  - assert (Hb : b <> NaN) by (intros ->; apply Hl; left; reflexivity).
    destruct (xmin2_cases a b Ha Hb) as (H1 & H2 & H3).
    assert (Hm : xmin2 a b <> NaN) by (destruct H1 as [-> | ->]; assumption).
    destruct (IH (xmin2 a b) Hm) as (H4 & H5). { intros H; apply Hl; right; exact H. }
    cbn [fold_left]. split.
    + destruct H4 as [H4|H4]; [|right; right; exact H4]. rewrite <- H4.
      destruct H1 as [-> | ->]; [left|right; left]; reflexivity.
    + intros v [<-|[<-|Hv]].
      * eapply xleb_trans; [|exact H2]. apply H5. left. reflexivity.
      * eapply xleb_trans; [|exact H3]. apply H5. left. reflexivity.
      * apply H5. right. exact Hv.
Qed.

Lemma fold_max_nan : forall l a, a = NaN \/ In NaN l -> fold_left xmax2 l a = NaN.
Proof.
  induction l as [|b l IH]; intros a H.
  - destruct H as [->|[]]; reflexivity.
  - cbn [fold_left]. apply IH. destruct H as [->|[->|H]]; [left; reflexivity| |right; exact H].
    left. unfold xmax2. rewrite orb_true_r. reflexivity.
Qed.

Lemma fold_min_nan : forall l a, a = NaN \/ In NaN l -> fold_left xmin2 l a = NaN.
Proof.
  induction l as [|b l IH]; intros a H.
  - destruct H as [->|[]]; reflexivity.
  - cbn [fold_left]. apply IH. destruct H as [->|[->|H]]; [left; reflexivity| |right; exact H].
    left. unfold xmin2. rewrite orb_true_r. reflexivity.
Qed.

(** ** argmax *)
Lemma find_index_some : forall p l i, find_index p l = Some i ->
  i < length l /\ (forall d, p (nth i l d) = true) /\ forall j d, j < i -> p (nth j l d) = false.
Proof.
  intros p l. induction l as [|a l IH]; intros i H; [discriminate|]. cbn [find_index] in H.
  destruct (p a) eqn:Ha.
  - inversion H; subst. cbn. split; [lia|]. split; [intros; exact Ha|]. intros j d Hj. lia.
  - destruct (find_index p l) as [q|]; [|discriminate]. inversion H; subst.
    destruct (IH q eq_refl) as (H1 & H2 & H3). cbn [length]. split; [lia|]. split; [exact H2|].
    intros [|j] d Hj; [exact Ha|]. apply H3. lia.
Qed.

Lemma find_index_none : forall p l, find_index p l = None -> forall v, In v l -> p v = false.
Proof.
  intros p l. induction l as [|a l IH]; intros H v Hv; [destruct Hv|]. cbn [find_index] in H.
  destruct (p a) eqn:Ha; [discriminate|]. destruct (find_index p l); [discriminate|].
  destruct Hv as [<-|Hv]; auto.
Qed.

Lemma argmax_best : forall ss, ss <> [] -> ~ In NaN ss -> exists i, argmax ss = Ok i /\ first_best ss i.
Proof.
  intros [|a l] Hne Hn; [congruence|].
  assert (Ha : a <> NaN) by (intros ->; apply Hn; left; reflexivity).
  assert (Hl : ~ In NaN l) by (intros H; apply Hn; right; exact H).
  destruct (fold_max l a Ha Hl) as (H1 & H2). set (mx := fold_left xmax2 l a) in *.
  assert (Hm : mx <> NaN) by (intros E; apply Hn; rewrite <- E; exact H1).
  unfold argmax. fold mx.
  destruct (find_index x_isnan (a :: l)) as [q|] eqn:Hq.
  { destruct (find_index_some _ _ _ Hq) as (B1 & B2 & _). exfalso. apply Hn.
    specialize (B2 NaN). replace NaN with (nth q (a :: l) NaN); [apply nth_In, B1|].
    destruct (nth q (a :: l) NaN); try discriminate; reflexivity. }
  destruct (find_index (fun v => xeqb v mx) (a :: l)) as [i|] eqn:Hi.
  - exists i. split; [reflexivity|]. destruct (find_index_some _ _ _ Hi) as (B1 & B2 & B3).
    assert (E : nth i (a :: l) NaN = mx) by (apply xeqb_eq, (B2 NaN)).
    split; [exact B1|]. rewrite E. split.
    + intros j Hj. apply H2, nth_In, Hj.
    + intros j Hj. assert (J : xleb (nth j (a :: l) NaN) mx = true) by (apply H2, nth_In; lia).
      apply xleb_cases in J. destruct J as [J|[J J']]; [exact J|].
      specialize (B3 j NaN Hj). rewrite J, xeqb_refl in B3 by assumption. discriminate.
  - pose proof (find_index_none _ _ Hi mx H1) as F. cbn beta in F. rewrite xeqb_refl in F by assumption. discriminate.
Qed.

Lemma argmax_nan : forall ss, In NaN ss -> exists i, argmax ss = Ok i /\ first_nan ss i.
Proof.
  intros [|a l] Hn; [destruct Hn|]. unfold argmax.
  destruct (find_index x_isnan (a :: l)) as [q|] eqn:Hq.
  - exists q. split; [reflexivity|]. destruct (find_index_some _ _ _ Hq) as (B1 & B2 & B3).
    split; [exact B1|]. split.
    + specialize (B2 (Fin 0)). destruct (nth q (a :: l) (Fin 0)); discriminate || reflexivity.
    + intros j Hj E. specialize (B3 j NaN Hj). rewrite E in B3. discriminate.
  - pose proof (find_index_none _ _ Hq NaN Hn). discriminate.
Qed.

Lemma first_best_unique : forall ss i j, first_best ss i -> first_best ss j -> i = j.
Proof.
  intros ss i j (I1 & I2 & I3) (J1 & J2 & J3).
  assert (no : forall i j, i < j -> j < length ss ->
    (forall q, q < length ss -> xleb (nth q ss NaN) (nth i ss NaN) = true) ->
    (forall q, q < j -> xltb (nth q ss NaN) (nth j ss NaN) = true) -> False).
  { clear. intros i j Hij Hj H2 H3. specialize (H2 j Hj). specialize (H3 i Hij).
    apply xleb_cases in H2. destruct H2 as [H2|[H2 _]].
    - pose proof (xltb_trans _ _ _ H2 H3) as F. rewrite xltb_irrefl in F. discriminate.
    - rewrite H2, xltb_irrefl in H3. discriminate. }
  destruct (Nat.lt_trichotomy i j) as [H|[H|H]]; [exfalso; eauto|exact H|exfalso; eauto].
Qed.

(** ** Loops over the members of a set *)
Section Loops.
  Context {U : Type}.
  Notation World := (world xr xr U).

  Lemma rbind_ok : forall {A B} (r : res A) (f : A -> res B) b, rbind r f = Ok b -> exists a, r = Ok a /\ f a = Ok b.
  Proof. intros A B [a|e] f b H; [exists a; auto|discriminate]. Qed.

  Lemma map_each_ext : forall {A B} (b1 b2 : A -> M World B) l w, (forall a w', b1 a w' = b2 a w') ->
    map_each l b1 w = map_each l b2 w.
  Proof.
    intros A B b1 b2 l. induction l as [|a l IH]; intros w H; [reflexivity|]. cbn [map_each]. unfold bind.
    rewrite H. destruct (b2 a w) as [w1 [b|e]]; [|reflexivity]. rewrite IH by exact H. reflexivity.
  Qed.

  Lemma map_fulls : forall (f : arr xr -> res xr) ms Ks (w : World), fulls w ms Ks ->
    exists w', map_each ms (fun l => K <- obj_full xN l ;; lift (f K)) w = (w', rmap f Ks) /\
      w_sets w' = w_sets w /\ same_fulls w w'.
  Proof.
    intros f ms. induction ms as [|l ms IH]; intros Ks w HF; inversion HF as [|? K ? Ks' HK HF']; subst.
    - exists w. split; [reflexivity|]. split; [reflexivity|]. intros ? ? H; exact H.
    - cbn [map_each rmap]. unfold bind at 1. unfold bind at 1.
      destruct (obj_full xN l w) as [w1 r] eqn:Hw1. cbn [snd] in HK. subst r.
      assert (K1 : same_fulls w w1).
      { pose proof (obj_full_keeps l w K) as H. rewrite Hw1 in H. cbn [fst snd] in H. apply H. reflexivity. }
      assert (S1 : w_sets w1 = w_sets w).
      { pose proof (obj_full_sets l w) as H. rewrite Hw1 in H. exact H. }
      unfold lift at 1. destruct (f K) as [v|e]; cbn [rbind].
      + destruct (IH Ks' w1 (fulls_kept _ _ _ _ K1 HF')) as (w2 & E2 & S2 & K2).
        exists w2. unfold bind at 1. rewrite E2. destruct (rmap f Ks'); cbn [rbind];
          (split; [reflexivity|]; split; [congruence|]; intros ? ? H; apply K2, K1, H).
      + exists w1. auto.
  Qed.

  Lemma rmap_all : forall {A} (f : A -> res xr) (g : A -> xr) l, (forall a, In a l -> f a = Ok (g a)) ->
    rmap f l = Ok (map g l).
  Proof.
    intros A f g l. induction l as [|a l IH]; intros H; [reflexivity|]. cbn [rmap map].
    rewrite H by (left; reflexivity). cbn [rbind]. rewrite IH by (intros; apply H; right; assumption). reflexivity.
  Qed.

  Lemma align_ok : forall {T} (numbers : T -> res (list xr)) ys k t p (w : World) s Ks,
    nth_error (w_sets w) k = Some s -> fulls w (s_members s) Ks -> numbers t = Ok ys -> align_params p ->
    exists w', alignment_ranking numbers k t p w =
      (w', rmap (fun K => alignment_centered K (mkArr Dense (outer ys)) (default (ZValue (Fin 0)) (rp_zero p))
                            (default false (rp_centered p))) Ks) /\ w_sets w' = w_sets w /\ same_fulls w w'.
  Proof.
    intros T numbers ys k t p w s Ks Hs HF Hy (P1 & P2 & P3). unfold alignment_ranking.
    unfold bind at 1, lift at 1. rewrite Hy. unfold bind at 1. rewrite (set_iter_eq _ _ _ Hs).
    rewrite P1, P2, P3. cbn [is_some orb]. apply map_fulls. exact HF.
  Qed.

  Lemma cv_ok : forall {T} best_score k (t : T) p (w : World) s Ks e,
    nth_error (w_sets w) k = Some s -> fulls w (s_members s) Ks -> cv_params p ->
    get_estimator (default "SVM"%string (rp_estimator p)) = Ok e ->
    exists w', CV_ranking best_score k t p w =
      (w', rbind (rmap (fun K => best_score e (default 3%Z (rp_folds p)) K t) Ks)
                 (fun scores => res_map (map (xmul (Fin 100))) (min_max_scale scores)))
      /\ w_sets w' = w_sets w /\ same_fulls w w'.
  Proof.
    intros T best_score k t p w s Ks e Hs HF (P1 & P2 & P3) He. unfold CV_ranking.
    rewrite P1, P2, P3. cbn [is_some orb]. unfold bind at 1. rewrite (set_iter_eq _ _ _ Hs).
    destruct (map_fulls (fun K => best_score e (default 3%Z (rp_folds p)) K t) (s_members s) Ks w HF)
      as (w' & E & H). exists w'. split; [|exact H].
    assert (L : forall ms (w0 : World), map_each ms (fun l =>
        e0 <- lift (get_estimator (default "SVM"%string (rp_estimator p))) ;;
        K <- obj_full xN l ;; lift (best_score e0 (default 3%Z (rp_folds p)) K t)) w0
      = map_each ms (fun l => K <- obj_full xN l ;; lift (best_score e (default 3%Z (rp_folds p)) K t)) w0).
    { intros ms w0. apply map_each_ext. intros l w1. rewrite He. reflexivity. }
    unfold bind at 1. rewrite L, E. destruct (rmap _ Ks); reflexivity.
  Qed.
End Loops.

Lemma outer_real : forall y, outer (map Fin y) = rmat (length y) (length y) (target_matrix y).
Proof.
  intros y. unfold outer, rmat. rewrite map_length. apply tabulate_ext. intros i j Hi Hj.
  assert (E : forall q, q < length y -> nth q (map Fin y) NaN = Fin (nth q y 0%R)).
  { intros q Hq. rewrite (nth_indep _ NaN (Fin 0)) by (rewrite map_length; exact Hq). apply map_nth. }
  rewrite !E by assumption. reflexivity.
Qed.

Lemma align_score_eq : forall z n y A K, length y = n -> afmt K <> Lil -> amat K = rmat n n A ->
  alignment_centered K (mkArr Dense (outer (map Fin y))) z false = align_score z n y A.
Proof.
  intros z n y A [f M] Hn Hf HM. cbn [afmt amat] in *. subst M. rewrite outer_real, Hn. unfold align_score, tiny.
  destruct (Rle_dec (fnorm n n (centred n A)) (1/100000000)) as [H|H].
  { apply pf_C24_vanishing; [exact Hf|discriminate|left; exact H]. }
  destruct (Rle_dec (fnorm n n (centred n (target_matrix y))) (1/100000000)) as [H'|H'].
  { apply pf_C24_vanishing; [exact Hf|discriminate|right; exact H']. }
  apply pf_C23_value; [exact Hf|discriminate|lra|lra].
Qed.

Lemma align_scores_eq : forall z n y Ks As, length y = n -> finite_matrices n Ks As ->
  rmap (fun K => alignment_centered K (mkArr Dense (outer (map Fin y))) z false) Ks
  = rmap (align_score z n y) As.
Proof.
  intros z n y Ks As Hn H. induction H as [|K A Ks As [H1 H2] H IH]; [reflexivity|]. cbn [rmap].
  rewrite (align_score_eq z n y A K Hn H1 H2), IH. reflexivity.
Qed.

Lemma lower_idem : forall s, lower (lower s) = lower s.
Proof.
  induction s as [|c s IH]; [reflexivity|]. cbn [lower]. rewrite IH. f_equal.
  destruct c as [[] [] [] [] [] [] [] []]; reflexivity.
Qed.

Lemma valid_lower : forall m, valid_method (lower m) = valid_method m.
Proof. intros m. unfold valid_method. rewrite lower_idem. reflexivity. Qed.

Lemma rank_lower : forall {U T} (numbers : T -> res (list xr)) best k t m p (w : world xr xr U),
  rank_kernels numbers best k t (lower m) p w = rank_kernels numbers best k t m p w.
Proof. intros. unfold rank_kernels. rewrite valid_lower, lower_idem. reflexivity. Qed.
