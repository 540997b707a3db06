(** Kernel rankings: properties C50 - C54 and C68. *)
From Coq Require Import String Reals List Arith ZArith Bool Lia Lra.
Import ListNotations.
From Verif Require Import Prelude MatModel UtilsModel KMModel SpecKM XReal OpsModel SpecLinAlg KernelsModel
  KMXModel SetModel SpecSet CompositeModel SpecComposite BucketModel SpecBucket RankModel SpecRank.
From Verif Require Import MatFacts MFacts KMFacts KMInv KMHist KMHist2 KMProps RSum OpsFacts OpsProps PSDFacts
  KMXProps SetFacts SetFacts2 SetProps ContProps FullFacts CompositeFacts CompositeProps RankFacts CorrFacts.

Local Open Scope list_scope.
Local Open Scope nat_scope.

(** ** C51 *)
(** C51: ideal_kernel(y)[i, j] = y_i * y_j, for arbitrary targets (infinities and NaN included). *)
Lemma pf_C51_value : forall ys,
  mr (ideal_kernel ys) = length ys /\ mc (ideal_kernel ys) = length ys /\
  forall i j, i < length ys -> j < length ys ->
    xget (ideal_kernel ys) i j = xmul (nth i ys NaN) (nth j ys NaN).
Proof.
  intros ys. split; [reflexivity|]. split; [reflexivity|]. intros i j Hi Hj.
  unfold ideal_kernel, matmul, xget. cbn [mr mc]. rewrite mget_tabulate by assumption.
  cbn [seq map]. unfold xsum. cbn [fold_right]. rewrite xadd_0_r. unfold mget. cbn [md].
  rewrite (nth_indep (map (fun t => [t]) ys) [] [NaN]) by (rewrite map_length; exact Hi).
  rewrite (map_nth (fun t => [t]) ys NaN i). cbn [nth]. reflexivity.
Qed.

(** C51: it is symmetric, and for finite targets positive semidefinite; it is the target matrix used
    by alignment_ranking. *)
Lemma pf_C51_psd : forall y,
  ideal_kernel (map Fin y) = rmat (length y) (length y) (target_matrix y) /\
  psd (length y) (target_matrix y) /\
  (forall ys, ideal_kernel ys = outer ys) /\
  (forall ys i j, i < length ys -> j < length ys -> xget (ideal_kernel ys) i j = xget (ideal_kernel ys) j i).
Proof.
  intros y.
  assert (O : forall ys, ideal_kernel ys = outer ys).
  { intros ys. unfold outer. destruct (pf_C51_value ys) as (_ & _ & H).
    unfold ideal_kernel, matmul in *. cbn [mr mc] in *. apply tabulate_ext. intros i j Hi Hj.
    specialize (H i j Hi Hj). unfold xget in H. rewrite mget_tabulate in H by assumption. exact H. }
  split; [rewrite O; apply outer_real|]. split.
  { unfold target_matrix. apply (psd_rank1 (length y) (fun i => nth i y 0%R)). }
  split; [exact O|]. intros ys i j Hi Hj. destruct (pf_C51_value ys) as (_ & _ & H).
  rewrite !H by assumption. apply xmul_comm.
Qed.

(** ** C52 *)
Lemma extremes_of : forall l, l <> [] -> exists mn mx, extremes l mn mx /\
  (forall a l', l = a :: l' -> fold_left xmin2 (map Fin l') (Fin a) = Fin mn /\
                               fold_left xmax2 (map Fin l') (Fin a) = Fin mx).
Proof.
  intros [|a l] Hne; [congruence|].
  assert (Hn : ~ In NaN (map Fin l)) by (intros H; apply in_map_iff in H; destruct H as (? & ? & _); discriminate).
  destruct (fold_max (map Fin l) (Fin a) ltac:(discriminate) Hn) as (M1 & M2).
  destruct (fold_min (map Fin l) (Fin a) ltac:(discriminate) Hn) as (N1 & N2).
  change (Fin a :: map Fin l) with (map Fin (a :: l)) in *.
  apply in_map_iff in M1, N1. destruct M1 as (mx & Hmx & Imx), N1 as (mn & Hmn & Imn).
  exists mn, mx. rewrite <- Hmx in M2. rewrite <- Hmn in N2. split.
  - split; [exact Imn|]. split; [exact Imx|]. intros v Hv.
    specialize (M2 (Fin v) (in_map Fin _ _ Hv)). specialize (N2 (Fin v) (in_map Fin _ _ Hv)).
    apply xleb_cases in M2, N2. cbn [xltb] in M2, N2. rewrite Rltb_true in M2, N2.
    split; [destruct N2 as [N2|[N2 _]]|destruct M2 as [M2|[M2 _]]]; try lra; injection N2 as -> || injection M2 as ->; lra.
  - intros b l' E. injection E as <- <-. auto.
Qed.

Lemma extremes_unique : forall l mn mx mn' mx', extremes l mn mx -> extremes l mn' mx' -> mn = mn' /\ mx = mx'.
Proof.
  intros l mn mx mn' mx' (A1 & A2 & A3) (B1 & B2 & B3).
  pose proof (A3 _ B1). pose proof (A3 _ B2). pose proof (B3 _ A1). pose proof (B3 _ A2). lra.
Qed.

(** C52: min_max_scale of a non-empty list of finite numbers: all zeros if the spread is at most 1e-8,
    otherwise v goes to (v - min) / (max - min). *)
Lemma pf_C52_value : forall l mn mx, extremes l mn mx ->
  min_max_scale (map Fin l) = Ok (map (fun v => Fin (if Rle_dec (mx - mn) tiny then 0 else (v - mn) / (mx - mn))%R) l).
Proof.
  intros l mn mx Hx. assert (Hne : l <> []) by (intros ->; destruct Hx as [[] _]).
  destruct (extremes_of l Hne) as (mn' & mx' & Hx' & Hf).
  destruct (extremes_unique _ _ _ _ _ Hx Hx') as [<- <-].
  destruct l as [|a l]; [congruence|]. destruct (Hf a l eq_refl) as [Hmn Hmx].
  change (map Fin (a :: l)) with (Fin a :: map Fin l).
  assert (E : min_max_scale (Fin a :: map Fin l) =
    let spread := Fin (mx - mn) in
    if xisclose spread (Fin 0) then Ok (map (fun _ => Fin 0) (map Fin (a :: l)))
    else Ok (map (fun v => xdiv (xsub v (Fin mn)) spread) (map Fin (a :: l)))).
  { unfold min_max_scale. rewrite Hmn, Hmx. reflexivity. }
  rewrite E. cbv zeta. generalize (a :: l) as L. clear - Hx. intros L.
  assert (Hle : (mn <= mx)%R) by (destruct Hx as (A & _ & B); destruct (B mn A); lra).
  rewrite isclose_zero. unfold tiny, Rleb. rewrite Rabs_right by lra. rewrite !map_map.
  destruct (Rle_dec (mx - mn) (1/100000000)) as [H|H]; [reflexivity|].
  f_equal. apply map_ext. intros v. unfold xsub. cbn [xopp xadd xdiv].
  destruct (Req_EM_T (mx - mn) 0) as [E|E]; [lra|]. f_equal.
Qed.

(** C52: hence the result lies in [0, 1], preserves the order, and if the spread exceeds 1e-8 sends the
    minimum to 0, the maximum to 1 and distinct values to distinct values. *)
Lemma pf_C52_range : forall l mn mx, extremes l mn mx ->
  exists f, min_max_scale (map Fin l) = Ok (map (fun v => Fin (f v)) l) /\
    (forall v, In v l -> (0 <= f v <= 1)%R) /\
    (forall u v, (u <= v)%R -> (f u <= f v)%R) /\
    ((tiny < mx - mn)%R -> f mn = 0%R /\ f mx = 1%R /\ forall u v, (u < v)%R -> (f u < f v)%R) /\
    ((mx - mn <= tiny)%R -> forall v, f v = 0%R).
Proof.
  intros l mn mx Hx. exists (fun v => if Rle_dec (mx - mn) tiny then 0%R else ((v - mn) / (mx - mn))%R).
  split; [apply pf_C52_value; exact Hx|]. destruct Hx as (A & B & D).
  destruct (Rle_dec (mx - mn) tiny) as [H|H].
  - split; [intros; lra|]. split; [intros; lra|]. split; [intros; lra|]. reflexivity.
  - assert (Hp : (0 < mx - mn)%R) by (unfold tiny in H; lra).
    assert (Hi : (0 < / (mx - mn))%R) by (apply Rinv_0_lt_compat; exact Hp).
    assert (M : forall u v, (u <= v)%R -> ((u - mn) / (mx - mn) <= (v - mn) / (mx - mn))%R).
    { intros u v Huv. apply Rmult_le_compat_r; lra. }
    assert (Hmx : ((mx - mn) / (mx - mn) = 1)%R) by (field; lra).
    assert (Hmn : ((mn - mn) / (mx - mn) = 0)%R) by (field; lra).
    split; [|split; [exact M|split; [|intros; contradiction]]].
    + intros v Hv. destruct (D v Hv) as [D1 D2]. pose proof (M mn v D1). pose proof (M v mx D2). lra.
    + intros _. split; [exact Hmn|]. split; [exact Hmx|]. intros u v Huv. apply Rmult_lt_compat_r; lra.
Qed.

(** C52: the empty list raises ValueError; one NaN makes everything NaN. *)
Lemma pf_C52_other : min_max_scale [] = Raise ValueError /\
  forall l, In NaN l -> min_max_scale l = Ok (map (fun _ => NaN) l).
Proof.
  split; [reflexivity|]. intros [|a l] H; [destruct H|]. unfold min_max_scale.
  assert (Hn : a = NaN \/ In NaN l) by (destruct H; auto).
  rewrite (fold_min_nan l a Hn), (fold_max_nan l a Hn). cbn [xsub xadd xopp xisclose xeqb].
  f_equal. apply map_ext. intros v. destruct v; reflexivity.
Qed.

Lemma rmap_Forall2 : forall {A} (f : A -> res xr) l (rs : list R), Forall2 (fun a r => f a = Ok (Fin r)) l rs ->
  rmap f l = Ok (map Fin rs).
Proof. intros A f l rs H. induction H as [|a r l rs Hr H IH]; [reflexivity|]. cbn [rmap map]. rewrite Hr. cbn. rewrite IH. reflexivity. Qed.

Lemma scaled_scores : forall rs mn mx, extremes rs mn mx ->
  res_map (map (xmul (Fin 100))) (min_max_scale (map Fin rs)) = Ok (map (fun r => Fin (scaled mn mx r)) rs).
Proof.
  intros rs mn mx Hx. rewrite (pf_C52_value rs mn mx Hx). cbn [res_map]. rewrite map_map. f_equal.
  apply map_ext. intros v. unfold scaled. destruct (Rle_dec (mx - mn) tiny); cbn [xmul]; f_equal; lra.
Qed.

(** C52: the scores of CV_ranking are the best cross-validation scores found for the
    members, scaled to [0, 100]; the best gets 100 unless the scores are (nearly) equal. *)
Lemma pf_C52_cv :
  forall {U T} numbers best_score (w : world xr xr U) k num ms Ks (t : T) p method e rs mn mx,
    set_is w k num ms -> fulls w ms Ks -> lower method = "cv_risk"%string -> cv_params p ->
    get_estimator (default "SVM"%string (rp_estimator p)) = Ok e ->
    Forall2 (fun K r => best_score e (default 3%Z (rp_folds p)) K t = Ok (Fin r)) Ks rs ->
    extremes rs mn mx ->
    snd (rank_kernels numbers best_score k t method p w) = Ok (map (fun r => Fin (scaled mn mx r)) rs) /\
    (forall r, In r rs -> (0 <= scaled mn mx r <= 100)%R) /\
    ((tiny < mx - mn)%R -> scaled mn mx mx = 100%R) /\
    ((mx - mn <= tiny)%R -> forall r, scaled mn mx r = 0%R).
Proof.
  intros U T numbers best_score w k num ms Ks t p method e rs mn mx Hk HF Hm Hp He HB Hx.
  destruct (set_is_eq w k num ms Hk) as (s & Hs & _ & Hms). subst ms. split; [|split; [|split]].
  - unfold rank_kernels, valid_method. rewrite Hm. cbn [String.eqb Ascii.eqb Bool.eqb orb negb].
    destruct (cv_ok best_score k t p w s Ks e Hs HF Hp He) as (w' & E & _). rewrite E. cbn [snd].
    rewrite (rmap_Forall2 _ _ _ HB). cbn [rbind]. apply scaled_scores. exact Hx.
  - intros r Hr. destruct Hx as (A & B & D). destruct (D r Hr). unfold scaled.
    destruct (Rle_dec (mx - mn) tiny) as [H'|H']; [lra|]. unfold tiny in H'.
    assert (Hi : (0 < / (mx - mn))%R) by (apply Rinv_0_lt_compat; lra).
    assert (H1 : (0 <= (r - mn) / (mx - mn))%R) by (apply Rmult_le_pos; lra).
    assert (H2 : ((r - mn) / (mx - mn) <= 1)%R).
    { replace 1%R with ((mx - mn) * / (mx - mn))%R by (field; lra). apply Rmult_le_compat_r; lra. }
    lra.
  - intros H. unfold scaled. destruct (Rle_dec (mx - mn) tiny); [lra|]. unfold tiny in *. field. lra.
  - intros H r. unfold scaled. destruct (Rle_dec (mx - mn) tiny); [reflexivity|contradiction].
Qed.

(** C52: an unknown estimator name raises NotImplementedError (if there is a kernel at all), keyword
    arguments of the other method TypeError, and a bucket without kernels ValueError. *)
Lemma pf_C52_cv_errors :
  forall {U T} best_score (w : world xr xr U) k num ms (t : T) p, set_is w k num ms ->
    (get_estimator (default "SVM"%string (rp_estimator p)) = Raise NotImplementedErr -> ms <> [] -> cv_params p ->
       CV_ranking best_score k t p w = (w, Raise NotImplementedErr)) /\
    (~ cv_params p -> CV_ranking best_score k t p w = (w, Raise TypeError)) /\
    (ms = [] -> cv_params p -> CV_ranking best_score k t p w = (w, Raise ValueError)).
Proof.
  intros U T best_score w k num ms t p Hk.
  destruct (set_is_eq w k num ms Hk) as (s & Hs & _ & Hms). subst ms. split; [|split].
  - intros He Hne (P1 & P2 & P3). unfold CV_ranking. rewrite P1, P2, P3. cbn [is_some orb].
    unfold bind at 1. rewrite (set_iter_eq _ _ _ Hs). rewrite He.
    destruct (s_members s) as [|l ls]; [congruence|]. reflexivity.
  - intros Hp. unfold CV_ranking. destruct p as [f e [z|] [c|] [|]]; try reflexivity.
    exfalso. apply Hp. repeat split.
  - intros Hne (P1 & P2 & P3). unfold CV_ranking. rewrite P1, P2, P3. cbn [is_some orb].
    unfold bind at 1. rewrite (set_iter_eq _ _ _ Hs), Hne. reflexivity.
Qed.

(** ** C54 *)
Lemma rank_align : forall {U T} (numbers : T -> res (list xr)) best_score k t m p (w : world xr xr U),
  lower m = "align/corr"%string ->
  rank_kernels numbers best_score k t m p w = alignment_ranking numbers k t p w.
Proof. intros. unfold rank_kernels, valid_method. rewrite H. reflexivity. Qed.

(** C54: alignment_ranking scores each kernel matrix by its centred alignment with yy' (on finite
    matrices and targets of the right length); where a centred norm vanishes, by
    value_if_zero_division (0 by default). *)
Lemma pf_C54_value :
  forall {U T} (numbers : T -> res (list xr)) best_score (w : world xr xr U) k num ms Ks (t : T) p m n y As,
    set_is w k num ms -> fulls w ms Ks -> lower m = "align/corr"%string ->
    align_params p -> rp_centered p <> Some true ->
    numbers t = Ok (map Fin y) -> length y = n -> finite_matrices n Ks As ->
    snd (rank_kernels numbers best_score k t m p w)
    = rmap (align_score (default (ZValue (Fin 0)) (rp_zero p)) n y) As.
Proof.
  intros U T numbers best_score w k num ms Ks t p m n y As Hk HF Hm Hp Hc Hy Hn HA.
  destruct (set_is_eq w k num ms Hk) as (s & Hs & _ & Hms). subst ms.
  rewrite rank_align by exact Hm.
  destruct (align_ok numbers (map Fin y) k t p w s Ks Hs HF Hy Hp) as (w' & E & _). rewrite E. cbn [snd].
  replace (default false (rp_centered p)) with false by (destruct (rp_centered p) as [[|]|]; congruence || reflexivity).
  apply align_scores_eq; assumption.
Qed.

Lemma align_value_score : forall n y A, align_score (ZValue (Fin 0)) n y A = Ok (Fin (align_value n y A)).
Proof.
  intros n y A. unfold align_score, align_value, aligned.
  destruct (Rle_dec _ _); [reflexivity|]. destruct (Rle_dec _ _); reflexivity.
Qed.

Lemma rmap_align_value : forall n y As,
  rmap (align_score (ZValue (Fin 0)) n y) As = Ok (map (fun A => Fin (align_value n y A)) As).
Proof.
  intros n y As. rewrite (rmap_all _ (fun A => Fin (align_value n y A))); [reflexivity|].
  intros A _. apply align_value_score.
Qed.

(** C54: by default these are numbers in [-1, 1], 0 for kernel matrices or targets whose centred norm
    vanishes. *)
Lemma pf_C54_partial :
  forall {U T} (numbers : T -> res (list xr)) best_score (w : world xr xr U) k num ms Ks (t : T) m n y As,
    set_is w k num ms -> fulls w ms Ks -> lower m = "align/corr"%string ->
    numbers t = Ok (map Fin y) -> length y = n -> finite_matrices n Ks As ->
    snd (rank_kernels numbers best_score k t m no_params w) = Ok (map (fun A => Fin (align_value n y A)) As) /\
    forall A, (-1 <= align_value n y A <= 1)%R /\
      ((fnorm n n (centred n A) <= tiny \/ fnorm n n (centred n (target_matrix y)) <= tiny)%R ->
       align_value n y A = 0%R).
Proof.
  intros U T numbers best_score w k num ms Ks t m n y As Hk HF Hm Hy Hn HA. split.
  - rewrite (pf_C54_value numbers best_score w k num ms Ks t no_params m n y As Hk HF Hm)
      by (assumption || discriminate || (repeat split)). apply rmap_align_value.
  - intros A. unfold align_value, aligned. split.
    + destruct (Rle_dec _ _) as [H|H]; [lra|]. destruct (Rle_dec _ _) as [H'|H']; [lra|].
      destruct (pf_C23_range Dense Dense n A (target_matrix y) ZRaise) as (v & Hv & Hr);
        try discriminate; try (unfold tiny in *; lra).
      rewrite pf_C23_value in Hv by (discriminate || (unfold tiny in *; lra)). injection Hv as ->. exact Hr.
    + intros [H|H]; destruct (Rle_dec _ _); try reflexivity; try contradiction.
      destruct (Rle_dec _ _); [reflexivity|contradiction].
Qed.

(** ** C53 *)
Section Reads.
  Context {U : Type}.
  Notation World := (world xr xr U).

  (** The sets are as before and every KernelMatrix has at most been read. *)
  Definition only_read (w w' : World) : Prop :=
    w_sets w' = w_sets w /\
    forall l s, nth_error (w_objs w) l = Some (OKM s) ->
      exists c, nth_error (w_objs w') l = Some (OKM (run xN (repeat OpFull c) s)).

  Lemma only_read_refl : forall w, only_read w w.
  Proof. intros w. split; [reflexivity|]. intros l s H. exists 0. exact H. Qed.

  Lemma only_read_full : forall l (w w' : World), only_read w w' -> only_read w (fst (obj_full xN l w')).
  Proof.
    intros l w w' [Hs Ho]. rewrite obj_full_eq.
    destruct (nth_error (w_objs w') l) as [[t|A]|] eqn:Hl; try (split; assumption).
    split; [exact Hs|]. intros l' s Hl'. destruct (Ho l' s Hl') as [c Hc]. cbn [fst set_objs w_objs].
    destruct (Nat.eq_dec l' l) as [->|Hne].
    - rewrite (nth_error_upd_same _ _ _ _ Hl). exists (c + 1).
      rewrite Hl in Hc. injection Hc as ->. rewrite repeat_app, run_app. cbn [repeat run step].
      unfold fmap, bind. destruct (full xN (run xN (repeat OpFull c) s)) as [s' [a|e]]; reflexivity.
    - rewrite nth_error_upd_other by assumption. exists c. exact Hc.
  Qed.

  Lemma only_read_bind_full : forall {B} l (f : arr xr -> res B) (w w' : World), only_read w w' ->
    only_read w (fst ((K <- obj_full xN l ;; lift (f K)) w')).
  Proof.
    intros B l f w w' H. apply (only_read_full l) in H. unfold bind.
    destruct (obj_full xN l w') as [w1 [K|e]]; exact H.
  Qed.

  Lemma only_read_align : forall {T} (numbers : T -> res (list xr)) k t p (w w' : World),
    only_read w w' -> only_read w (fst (alignment_ranking numbers k t p w')).
  Proof.
    intros T numbers k t p w w' H. unfold alignment_ranking. unfold bind at 1, lift at 1.
    destruct (numbers t) as [ys|e]; [|exact H]. unfold bind at 1, set_iter, get_set, bind at 1.
    destruct (nth_error (w_sets w') k) as [s|]; [|exact H]. cbn [ret].
    apply (map_each_pres (only_read w)); [|exact H]. intros l w1 H1. unfold bind.
    apply (only_read_full l) in H1. destruct (obj_full xN l w1) as [w2 [K|e]]; [|exact H1].
    destruct (is_some (rp_folds p) || is_some (rp_estimator p) || rp_other p); exact H1.
  Qed.

  Lemma only_read_cv : forall {T} best_score k (t : T) p (w w' : World),
    only_read w w' -> only_read w (fst (CV_ranking best_score k t p w')).
  Proof.
    intros T best_score k t p w w' H. unfold CV_ranking.
    destruct (is_some (rp_zero p) || is_some (rp_centered p) || rp_other p); [exact H|].
    unfold bind at 1, set_iter, get_set, bind at 1.
    destruct (nth_error (w_sets w') k) as [s|]; [|exact H]. cbn [ret].
    match goal with |- only_read w (fst (bind (map_each ?l ?b) _ w')) =>
      assert (H1 : only_read w (fst (map_each l b w'))) end.
    { apply (map_each_pres (only_read w)); [|exact H]. intros l w1 H1. unfold bind, lift.
      destruct (get_estimator _) as [e|e]; [|exact H1].
      apply (only_read_full l) in H1. destruct (obj_full xN l w1) as [w2 [K|e']]; exact H1. }
    unfold bind at 1. destruct (map_each _ _ w') as [w2 [ss|e]]; exact H1.
  Qed.

  Lemma only_read_rank : forall {T} (numbers : T -> res (list xr)) best_score k t m p (w : World),
    only_read w (fst (rank_kernels numbers best_score k t m p w)).
  Proof.
    intros T numbers best_score k t m p w. unfold rank_kernels.
    destruct (negb (valid_method m)); [apply only_read_refl|].
    destruct (String.eqb (lower m) "align/corr");
      [apply only_read_align|apply only_read_cv]; apply only_read_refl.
  Qed.

  Lemma map_each_length : forall {A B} (body : A -> M World B) l (w : World) bs,
    snd (map_each l body w) = Ok bs -> length bs = length l.
  Proof.
    intros A B body l. induction l as [|a l IH]; intros w bs H; [injection H as <-; reflexivity|].
    cbn [map_each] in H. unfold bind in H. destruct (body a w) as [w1 [b|e]]; [|discriminate].
    specialize (IH w1). destruct (map_each l body w1) as [w2 [bs'|e]]; [|discriminate].
    injection H as <-. cbn [length]. f_equal. apply IH. reflexivity.
  Qed.

  Lemma min_max_length : forall l l', min_max_scale l = Ok l' -> length l' = length l.
  Proof.
    intros [|a l] l' H; [discriminate|]. unfold min_max_scale in H.
    destruct (xisclose _ _); injection H as <-; cbn [length]; rewrite map_length; reflexivity.
  Qed.

  Lemma rank_length : forall {T} (numbers : T -> res (list xr)) best_score k t m p (w : World) s ss,
    nth_error (w_sets w) k = Some s -> snd (rank_kernels numbers best_score k t m p w) = Ok ss ->
    length ss = length (s_members s).
  Proof.
    intros T numbers best_score k t m p w s ss Hs H. unfold rank_kernels in H.
    destruct (negb (valid_method m)); [discriminate|].
    destruct (String.eqb (lower m) "align/corr").
    - unfold alignment_ranking in H. unfold bind at 1, lift at 1 in H.
      destruct (numbers t); [|discriminate]. unfold bind at 1 in H. rewrite (set_iter_eq _ _ _ Hs) in H.
      apply map_each_length in H. exact H.
    - unfold CV_ranking in H. destruct (is_some (rp_zero p) || is_some (rp_centered p) || rp_other p); [discriminate|].
      unfold bind at 1 in H. rewrite (set_iter_eq _ _ _ Hs) in H. unfold bind at 1 in H.
      match type of H with context [map_each ?l ?b ?w0] => pose proof (map_each_length b l w0) as L;
        destruct (map_each l b w0) as [w2 [sc|e]] end; [|discriminate].
      cbn [snd lift] in H. rewrite <- (L sc eq_refl).
      destruct (min_max_scale sc) as [sc'|e] eqn:Hm; [|discriminate]. injection H as <-.
      rewrite map_length. apply min_max_length. exact Hm.
  Qed.

  Lemma getitem_nat : forall k (w : World) s i l, nth_error (w_sets w) k = Some s ->
    nth_error (s_members s) i = Some l -> set_getitem k (Some (Z.of_nat i)) w = (w, Ok l).
  Proof.
    intros k w s i l Hs Hi. unfold set_getitem, bind, get_set. rewrite Hs.
    assert (i < length (s_members s)) by (apply nth_error_Some; congruence).
    replace (Z.of_nat i <? 0)%Z with false by (symmetry; apply Z.ltb_ge; lia).
    replace (Z.of_nat (length (s_members s)) <=? Z.of_nat i)%Z with false by (symmetry; apply Z.leb_gt; lia).
    cbn [orb]. rewrite Nat2Z.id. rewrite Hi. reflexivity.
  Qed.
End Reads.

Lemma no_attach_fulls : forall {E U} c, no_attach (repeat (@OpFull E U) c).
Proof. intros E U c. unfold no_attach. apply forallb_forall. intros o Ho. apply repeat_spec in Ho. subst o. reflexivity. Qed.

Lemma nan_dec : forall l, In NaN l \/ ~ In NaN l.
Proof.
  induction l as [|v l IH]; [right; intros []|]. destruct IH as [H|H]; [left; right; exact H|].
  destruct v; try (right; intros [H'|H']; [discriminate|contradiction]). left. left. reflexivity.
Qed.

Lemma attach_step : forall {U} (s : km xr xr U) x n d, is_sample x n d ->
  run xN [OpAttach x None] s = attached s x None n n d.
Proof.
  intros U s x n d Hx. cbn [run step]. unfold fmap, bind.
  rewrite (attach_to_ok s x None n n d (conj Hx eq_refl)). reflexivity.
Qed.

Lemma attached_bucket :
  forall {U} numeric (w : world xr xr U) k num ms x n, set_is w k num ms -> numeric_sample numeric x n ->
    num = NSNone \/ num = NSOne n -> (forall l, In l ms -> is_km w l) ->
    exists w1 s1, set_attach numeric k x None w = (w1, Ok tt) /\ nth_error (w_sets w1) k = Some s1 /\
      s_members s1 = ms /\
      forall l, In l ms -> exists s, nth_error (w_objs w) l = Some (OKM s) /\
        nth_error (w_objs w1) l = Some (OKM (run xN [OpAttach x None] s)).
Proof.
  intros U numeric w k num ms x n Hk [[d Hx] Hn] Hnum Hkm.
  destruct (set_is_eq w k num ms Hk) as (s & Hs & Hn' & Hms). subst num ms.
  destruct (set_attach_ok numeric k x None w s n d Hs Hx Hn Hnum Hkm) as (w1 & H1 & Hsets & Hin & _).
  exists w1, (mkSet (NSOne n) (s_init s) (s_members s) (Some (stored n d x))).
  split; [exact H1|]. split; [rewrite Hsets; eapply nth_error_upd_same; exact Hs|]. split; [reflexivity|].
  intros l Hl. destruct (Hkm l Hl) as [t Ht]. exists t. split; [exact Ht|].
  rewrite (attach_step t x n d Hx). exact (Hin l Hl t Ht).
Qed.

(** C53: with the scores of the members after attaching the sample, the result is the first member with
    the largest score; if a score is NaN, the first member whose score is. All members are attached to
    the sample from then on. *)
Lemma pf_C53_best :
  forall {U T} (numbers : T -> res (list xr)) best_score numeric (w : world xr xr U) b num ms x n (t : T) m p,
    set_is w (b_set b) num ms -> numeric_sample numeric x n -> num = NSNone \/ num = NSOne n ->
    (forall l, In l ms -> is_km w l) -> valid_method m = true ->
    (forall l, In l ms ->
       now_attached w (fst (find_optimal_kernel numbers best_score numeric (Some b) x t m p w)) x l) /\
    match snd (rank_kernels numbers best_score (b_set b) t m p
                 (fst (set_attach numeric (b_set b) x None w))) with
    | Raise e => snd (find_optimal_kernel numbers best_score numeric (Some b) x t m p w) = Raise e
    | Ok ss =>
        length ss = length ms /\
        (ms = [] -> snd (find_optimal_kernel numbers best_score numeric (Some b) x t m p w) = Raise ValueError) /\
        (ms <> [] -> exists i l, nth_error ms i = Some l /\
           snd (find_optimal_kernel numbers best_score numeric (Some b) x t m p w) = Ok l /\
           (~ In NaN ss -> first_best ss i) /\ (In NaN ss -> first_nan ss i))
    end.
Proof.
  intros U T numbers best_score numeric w b num ms x n t m p Hk Hx Hnum Hkm Hm.
  destruct (attached_bucket numeric w (b_set b) num ms x n Hk Hx Hnum Hkm) as (w1 & s1 & E1 & Hs1 & Hms & Ho1).
  unfold find_optimal_kernel. rewrite Hm. cbn [negb]. unfold bind at 1 4 7 10. rewrite E1. cbn [fst].
  unfold bind at 1 3 5 7. rewrite rank_lower.
  pose proof (only_read_rank numbers best_score (b_set b) t m p w1) as [R1 R2].
  pose proof (rank_length numbers best_score (b_set b) t m p w1 s1) as L.
  destruct (rank_kernels numbers best_score (b_set b) t m p w1) as [w2 [ss|e]]; cbn [fst snd] in *.
  2:{ split; [|reflexivity]. intros l Hl. destruct (Ho1 l Hl) as (s & Hs & Hs').
      destruct (R2 l _ Hs') as [c Hc]. exists s, (repeat OpFull c). split; [exact Hs|].
      split; [apply no_attach_fulls|]. exact Hc. }
  specialize (L ss Hs1 eq_refl). rewrite Hms in L.
  rewrite <- R1 in Hs1. unfold bind, lift.
  assert (A : argmax ss = Raise ValueError /\ ms = [] \/
              exists i l, argmax ss = Ok i /\ nth_error ms i = Some l /\ (~ In NaN ss -> first_best ss i) /\
                          (In NaN ss -> first_nan ss i)).
  { destruct ss as [|v ss'] eqn:Hss; [left; split; [reflexivity|]; destruct ms; [reflexivity|discriminate]|].
    rewrite <- Hss in *. right.
    destruct (nan_dec ss) as [Hin|Hin].
    - destruct (argmax_nan ss Hin) as (i & Hi & Hf). assert (i < length ms) by (rewrite <- L; apply Hf).
      destruct (nth_error ms i) as [l|] eqn:Hl; [|apply nth_error_None in Hl; lia].
      exists i, l. split; [exact Hi|]. split; [exact Hl|]. split; [contradiction|auto].
    - destruct (argmax_best ss) as (i & Hi & Hf); [subst ss; discriminate|exact Hin|].
      assert (i < length ms) by (rewrite <- L; apply Hf).
      destruct (nth_error ms i) as [l|] eqn:Hl; [|apply nth_error_None in Hl; lia].
      exists i, l. split; [exact Hi|]. split; [exact Hl|]. split; [auto|contradiction]. }
  destruct A as [(A & Hnil)|(i & l & A & Hl & B1 & B2)]; rewrite A.
  - cbn [fst snd]. split; [subst ms; intros l Hl; rewrite Hnil in Hl; destruct Hl|]. split; [exact L|].
    split; [reflexivity|]. intros H. congruence.
  - rewrite (getitem_nat (b_set b) w2 s1 i l Hs1) by (rewrite Hms; exact Hl). cbn [fst snd]. split.
    + intros l' Hl'. destruct (Ho1 l' Hl') as (s & Hs & Hs').
      destruct (R2 l' _ Hs') as [c Hc]. exists s, (repeat OpFull c). split; [exact Hs|].
      split; [apply no_attach_fulls|]. exact Hc.
    + split; [exact L|]. split; [intros H; rewrite H in Hl; destruct i; discriminate|]. intros _.
      exists i, l. auto.
Qed.

(** C53: something that is not a KernelBucket raises TypeError and an unknown method
    NotImplementedError; nothing has been attached (or read) by then. *)
Lemma pf_C53_refuses :
  forall {U T} (numbers : T -> res (list xr)) best_score numeric (w : world xr xr U) x (t : T) m p,
    find_optimal_kernel numbers best_score numeric None x t m p w = (w, Raise TypeError) /\
    (lower m <> "align/corr"%string -> lower m <> "cv_risk"%string ->
       (forall b, find_optimal_kernel numbers best_score numeric (Some b) x t m p w = (w, Raise NotImplementedErr)) /\
       forall k, rank_kernels numbers best_score k t m p w = (w, Raise NotImplementedErr)).
Proof.
  intros U T numbers best_score numeric w x t m p. split; [reflexivity|]. intros H1 H2.
  assert (V : valid_method m = false).
  { unfold valid_method. apply String.eqb_neq in H1, H2. rewrite H1, H2. reflexivity. }
  unfold find_optimal_kernel, rank_kernels. rewrite V. split; reflexivity.
Qed.

(** C53: a sample that is not numeric or of another size than the bucket's raises ValueError. *)
Lemma pf_C53_bad_sample :
  forall {U T} (numbers : T -> res (list xr)) best_score numeric (w : world xr xr U) b num ms x (t : T) m p,
    set_is w (b_set b) num ms -> valid_method m = true ->
    (forall n, numeric_sample numeric x n -> num <> NSNone /\ num <> NSOne n) ->
    snd (find_optimal_kernel numbers best_score numeric (Some b) x t m p w) = Raise ValueError.
Proof.
  intros U T numbers best_score numeric w b num ms x t m p Hk Hm Hx.
  destruct (set_is_eq w (b_set b) num ms Hk) as (s & Hs & Hn' & Hms). subst num ms.
  unfold find_optimal_kernel. rewrite Hm. cbn [negb]. unfold bind at 1.
  destruct (numeric_sample_dec numeric x) as [(n & d & Hd & Hn)|Hno].
  - rewrite (set_attach_eq numeric (b_set b) x None w s n d Hs Hd Hn).
    destruct (Hx n) as [N1 N2]; [split; [exists d; exact Hd|exact Hn]|].
    rewrite (proj2 (numsamp_eqb_neq _ _) N1), (proj2 (numsamp_eqb_neq _ _) N2). reflexivity.
  - rewrite (set_attach_bad numeric (b_set b) x None w s Hs Hno). reflexivity.
Qed.

Lemma gram_full : forall {U} n d x (w w1 : world xr xr U) l c K, is_sample x n d ->
  candidate w n d x l c ->
  (forall s, nth_error (w_objs w) l = Some (OKM s) ->
             nth_error (w_objs w1) l = Some (OKM (run xN [OpAttach x None] s))) ->
  gram (snd c) (fst c) n d x = Ok K -> snd (obj_full xN l w1) = Ok K.
Proof.
  intros U n d x w w1 l [k nrm] K Hx (Ker & pre & Hl & Hnr & Hf) H1 HK. cbn [fst snd] in *.
  specialize (H1 _ Hl). rewrite obj_full_eq, H1. cbn [snd].
  unfold before in *. rewrite <- run_app in *.
  assert (Hadm : admissible x None n n d) by (split; [exact Hx|reflexivity]).
  assert (Ho : outcome xN OpFull (after xN Ker nrm pre x None []) = Ok (OArr K)).
  { destruct nrm.
    - rewrite (pf_C03_one_sample Ker k pre [] x n d OpFull Hnr Hf Hadm eq_refl) by (left; reflexivity).
      unfold gram in HK. rewrite HK. reflexivity.
    - rewrite (pf_C04_full_partial xN Ker k pre [] x None n n d Hnr Hf Hadm eq_refl).
      + unfold gram in HK. injection HK as <-. reflexivity.
      + intros [].
      + intros ix []. }
  unfold outcome, after in Ho. cbn [step] in Ho. rewrite outcome_fmap in Ho.
  destruct (snd (full xN _)) as [b|e]; [|discriminate]. cbn [res_map] in Ho. injection Ho as ->. reflexivity.
Qed.

Lemma grams_fulls : forall {U} n d x (w w1 : world xr xr U) ms cs Ks, is_sample x n d ->
  Forall2 (candidate w n d x) ms cs ->
  (forall l, In l ms -> exists s, nth_error (w_objs w) l = Some (OKM s) /\
             nth_error (w_objs w1) l = Some (OKM (run xN [OpAttach x None] s))) ->
  Forall2 (fun c K => gram (snd c) (fst c) n d x = Ok K) cs Ks -> fulls w1 ms Ks.
Proof.
  intros U n d x w w1 ms cs Ks Hx HC. revert Ks. induction HC as [|l c ms cs Hc HC IH]; intros Ks Ho HG;
    inversion HG as [|? K ? Ks' HK HG']; subst; constructor.
  - apply (gram_full n d x w w1 l c K Hx Hc); [|exact HK]. intros s Hs.
    destruct (Ho l (or_introl eq_refl)) as (s' & Hs' & H'). congruence.
  - apply IH; [|exact HG']. intros l' Hl'. apply Ho. right. exact Hl'.
Qed.

Lemma candidates_km : forall {U} n d x (w : world xr xr U) ms cs, Forall2 (candidate w n d x) ms cs ->
  forall l, In l ms -> is_km w l.
Proof.
  intros U n d x w ms cs H. induction H as [|l c ms cs (K & pre & Hl & _) H IH]; intros l' Hl'; [destruct Hl'|].
  destruct Hl' as [<-|Hl']; [eexists; exact Hl|apply IH; exact Hl'].
Qed.

Lemma first_best_reals : forall {A} (f : A -> R) (l : list A) d i,
  first_best (map (fun a => Fin (f a)) l) i ->
  i < length l /\ (forall j, j < length l -> (f (nth j l d) <= f (nth i l d))%R) /\
  (forall j, j < i -> (f (nth j l d) < f (nth i l d))%R).
Proof.
  intros A f l d i (H1 & H2 & H3). rewrite map_length in *.
  assert (E : forall j, j < length l -> nth j (map (fun a => Fin (f a)) l) NaN = Fin (f (nth j l d))).
  { intros j Hj. rewrite (nth_indep _ NaN (Fin (f d))) by (rewrite map_length; exact Hj).
    apply (map_nth (fun a => Fin (f a))). }
  split; [exact H1|]. split.
  - intros j Hj. specialize (H2 j Hj). rewrite (E j Hj), (E i H1) in H2. apply xleb_cases in H2.
    destruct H2 as [H2|[H2 _]]; [apply Rltb_true in H2; lra|injection H2 as ->; lra].
  - intros j Hj. specialize (H3 j Hj). rewrite (E j) in H3 by lia. rewrite (E i H1) in H3.
    apply Rltb_true in H3. exact H3.
Qed.

Lemma not_nan_fin : forall {A} (f : A -> R) l, ~ In NaN (map (fun a => Fin (f a)) l).
Proof. intros A f l H. apply in_map_iff in H. destruct H as (a & H & _). discriminate. Qed.

Lemma Forall2_len : forall {A B} (P : A -> B -> Prop) l l', Forall2 P l l' -> length l = length l'.
Proof. intros A B P l l' H. induction H; cbn [length]; congruence. Qed.

(** C53 with method 'align/corr', from kernels and data to the result: the first of the kernel matrices
    on this sample (cosine-normalised where asked for) whose alignment with yy' is largest. *)
Lemma pf_C53_align_partial :
  forall {U T} (numbers : T -> res (list xr)) best_score numeric (w : world xr xr U) b num ms x n d (t : T) m cs Ks As y,
    set_is w (b_set b) num ms -> is_sample x n d -> numeric (nd_data x) = true ->
    num = NSNone \/ num = NSOne n -> ms <> [] ->
    Forall2 (candidate w n d x) ms cs ->
    Forall2 (fun c K => gram (snd c) (fst c) n d x = Ok K) cs Ks -> finite_matrices n Ks As ->
    lower m = "align/corr"%string -> numbers t = Ok (map Fin y) -> length y = n ->
    exists i l, nth_error ms i = Some l /\
      snd (find_optimal_kernel numbers best_score numeric (Some b) x t m no_params w) = Ok l /\
      now_attached w (fst (find_optimal_kernel numbers best_score numeric (Some b) x t m no_params w)) x l /\
      (forall j, j < length As -> (align_value n y (nth j As (fun _ _ => 0)) <= align_value n y (nth i As (fun _ _ => 0)))%R) /\
      (forall j, j < i -> (align_value n y (nth j As (fun _ _ => 0)) < align_value n y (nth i As (fun _ _ => 0)))%R).
Proof.
  intros U T numbers best_score numeric w b num ms x n d t m cs Ks As y Hk Hx Hn Hnum Hne HC HG HA Hm Hy Hl.
  assert (Hns : numeric_sample numeric x n) by (split; [exists d; exact Hx|exact Hn]).
  pose proof (candidates_km n d x w ms cs HC) as Hkm.
  assert (Hv : valid_method m = true) by (unfold valid_method; rewrite Hm; reflexivity).
  destruct (pf_C53_best numbers best_score numeric w b num ms x n t m no_params Hk Hns Hnum Hkm Hv) as [Hat Hres].
  destruct (attached_bucket numeric w (b_set b) num ms x n Hk Hns Hnum Hkm) as (w1 & s1 & E1 & Hs1 & Hms & Ho1).
  rewrite E1 in Hres. cbn [fst] in Hres.
  assert (HF : fulls w1 ms Ks) by (eapply grams_fulls; eassumption).
  assert (Hset : set_is w1 (b_set b) (s_num s1) ms).
  { rewrite <- Hms. apply eq_set_is. exact Hs1. }
  destruct (pf_C54_partial numbers best_score w1 (b_set b) (s_num s1) ms Ks t m n y As Hset HF Hm Hy Hl HA) as [E _].
  rewrite E in Hres. destruct Hres as (L & _ & Hres). destruct (Hres Hne) as (i & l & Hi & Hr & Hb & _).
  exists i, l. split; [exact Hi|]. split; [exact Hr|]. split; [apply Hat; eapply nth_error_In; exact Hi|].
  specialize (Hb (not_nan_fin _ As)). apply (first_best_reals _ _ (fun _ _ => 0%R)) in Hb. destruct Hb as (_ & B1 & B2).
  split; assumption.
Qed.

(** C53 with method 'cv_risk': the first of the kernels whose best cross-validation score is largest,
    or, if all scores are within 1e-8 of each other, the first kernel. *)
Lemma pf_C53_cv_partial :
  forall {U T} (numbers : T -> res (list xr)) best_score numeric (w : world xr xr U) b num ms x n d (t : T) m cs Ks p e rs mn mx,
    set_is w (b_set b) num ms -> is_sample x n d -> numeric (nd_data x) = true ->
    num = NSNone \/ num = NSOne n -> ms <> [] ->
    Forall2 (candidate w n d x) ms cs ->
    Forall2 (fun c K => gram (snd c) (fst c) n d x = Ok K) cs Ks ->
    lower m = "cv_risk"%string -> cv_params p ->
    get_estimator (default "SVM"%string (rp_estimator p)) = Ok e ->
    Forall2 (fun K r => best_score e (default 3%Z (rp_folds p)) K t = Ok (Fin r)) Ks rs -> extremes rs mn mx ->
    exists i l, nth_error ms i = Some l /\
      snd (find_optimal_kernel numbers best_score numeric (Some b) x t m p w) = Ok l /\
      now_attached w (fst (find_optimal_kernel numbers best_score numeric (Some b) x t m p w)) x l /\
      ((mx - mn <= tiny)%R -> i = 0) /\
      ((tiny < mx - mn)%R -> nth i rs 0%R = mx /\ forall j, j < i -> (nth j rs 0 < mx)%R).
Proof.
  intros U T numbers best_score numeric w b num ms x n d t m cs Ks p e rs mn mx Hk Hx Hn Hnum Hne HC HG Hm Hp He HB Hext.
  assert (Hns : numeric_sample numeric x n) by (split; [exists d; exact Hx|exact Hn]).
  pose proof (candidates_km n d x w ms cs HC) as Hkm.
  assert (Hv : valid_method m = true) by (unfold valid_method; rewrite Hm; reflexivity).
  destruct (pf_C53_best numbers best_score numeric w b num ms x n t m p Hk Hns Hnum Hkm Hv) as [Hat Hres].
  destruct (attached_bucket numeric w (b_set b) num ms x n Hk Hns Hnum Hkm) as (w1 & s1 & E1 & Hs1 & Hms & Ho1).
  rewrite E1 in Hres. cbn [fst] in Hres.
  assert (HF : fulls w1 ms Ks) by (eapply grams_fulls; eassumption).
  assert (Hset : set_is w1 (b_set b) (s_num s1) ms).
  { rewrite <- Hms. apply eq_set_is. exact Hs1. }
  destruct (pf_C52_cv numbers best_score w1 (b_set b) (s_num s1) ms Ks t p m e rs mn mx Hset HF Hm Hp He HB Hext)
    as (E & _ & _ & _).
  rewrite E in Hres. destruct Hres as (L & _ & Hres). destruct (Hres Hne) as (i & l & Hi & Hr & Hb & _).
  exists i, l. split; [exact Hi|]. split; [exact Hr|]. split; [apply Hat; eapply nth_error_In; exact Hi|].
  specialize (Hb (not_nan_fin _ rs)). apply (first_best_reals _ _ 0%R) in Hb. destruct Hb as (Hlt & B1 & B2). split.
  - intros H. destruct i as [|i]; [reflexivity|]. specialize (B2 0 ltac:(lia)). unfold scaled in B2.
    destruct (Rle_dec (mx - mn) tiny); lra.
  - intros H. destruct Hext as (X1 & X2 & X3).
    assert (Hi' : (0 < / (mx - mn))%R) by (apply Rinv_0_lt_compat; unfold tiny in H; lra).
    assert (S : forall u v, (scaled mn mx u <= scaled mn mx v -> u <= v)%R).
    { intros u v Huv. unfold scaled in Huv. destruct (Rle_dec (mx - mn) tiny); [lra|].
      apply Rnot_lt_le. intros Hvu.
      assert (((v - mn) / (mx - mn) < (u - mn) / (mx - mn))%R) by (apply Rmult_lt_compat_r; lra). lra. }
    assert (S' : forall u v, (scaled mn mx u < scaled mn mx v -> u < v)%R).
    { intros u v Huv. apply Rnot_le_lt. intros Hvu. unfold scaled in Huv.
      destruct (Rle_dec (mx - mn) tiny); [lra|].
      assert (((v - mn) / (mx - mn) <= (u - mn) / (mx - mn))%R) by (apply Rmult_le_compat_r; lra). lra. }
    assert (Hmx : nth i rs 0%R = mx).
    { destruct (In_nth rs mx 0%R X2) as (j & Hj & Hj'). specialize (B1 j Hj). apply S in B1. rewrite Hj' in B1.
      destruct (X3 (nth i rs 0%R) (nth_In _ _ Hlt)). lra. }
    split; [exact Hmx|]. intros j Hj. specialize (B2 j Hj). apply S' in B2. lra.
Qed.

(** ** C50 *)
Section Pairs.
  Context {U : Type}.
  Notation World := (world xr xr U).
  Variable f : arr xr -> arr xr -> res xr.
  Variables (k : nat) (Ks : list (arr xr)).
  Notation Kth i := (nth i Ks dflt).

  Definition put_pair (v : nat -> nat -> xr) (P : mat xr) (p : nat * nat) : mat xr :=
    mset P (fst p) (snd p) (v (fst p) (snd p)).

  Lemma fill_step : forall i j ps P (w : World) s, nth_error (w_sets w) k = Some s -> fulls w (s_members s) Ks ->
    i < length Ks -> j < length Ks ->
    exists w', w_sets w' = w_sets w /\ same_fulls w w' /\
      fill_pairs f k ((i, j) :: ps) P w
      = match f (Kth i) (Kth j) with
        | Ok v => fill_pairs f k ps (mset P i j v) w'
        | Raise e => (w', Raise e)
        end.
  Proof.
    intros i j ps P w s Hs HF Hi Hj.
    assert (L : length (s_members s) = length Ks) by (eapply Forall2_len; exact HF).
    assert (G : forall q, q < length Ks -> exists l, nth_error (s_members s) q = Some l /\
                 forall w', same_fulls w w' -> snd (obj_full xN l w') = Ok (Kth q)).
    { intros q Hq. destruct (nth_error (s_members s) q) as [l|] eqn:Hl; [|apply nth_error_None in Hl; lia].
      exists l. split; [reflexivity|]. intros w' Hw'. apply Hw'.
      clear - HF Hl. revert q Hl. induction HF as [|a K ms Ks HK HF IH]; intros q Hl; [destruct q; discriminate|].
      destruct q as [|q]; [injection Hl as ->; exact HK|]. exact (IH q Hl). }
    destruct (G i Hi) as (li & Hli & Gi), (G j Hj) as (lj & Hlj & Gj).
    assert (F1 : same_fulls w w) by (intros ? ? H; exact H). specialize (Gi w F1).
    pose proof (obj_full_keeps li w _ Gi) as F2. specialize (Gj _ F2).
    pose proof (obj_full_keeps lj _ _ Gj) as F3.
    pose proof (obj_full_sets li w) as S1. pose proof (obj_full_sets lj (fst (obj_full xN li w))) as S2.
    exists (fst (obj_full xN lj (fst (obj_full xN li w)))). split; [congruence|]. split; [intros ? ? H; apply F3, F2, H|].
    cbn [fill_pairs]. unfold bind at 1. rewrite (getitem_nat k w s i li Hs Hli). unfold bind at 1.
    destruct (obj_full xN li w) as [w1 r1]. cbn [fst snd] in *. rewrite Gi. rewrite <- S1 in Hs.
    unfold bind at 1. rewrite (getitem_nat k w1 s j lj Hs Hlj). unfold bind at 1.
    destruct (obj_full xN lj w1) as [w2 r2]. cbn [fst snd] in *. rewrite Gj.
    unfold bind, lift. destruct (f (Kth i) (Kth j)); reflexivity.
  Qed.

  Lemma fill_ok : forall v ps P (w : World) s, nth_error (w_sets w) k = Some s -> fulls w (s_members s) Ks ->
    (forall i j, In (i, j) ps -> i < length Ks /\ j < length Ks /\ f (Kth i) (Kth j) = Ok (v i j)) ->
    snd (fill_pairs f k ps P w) = Ok (fold_left (put_pair v) ps P).
  Proof.
    intros v ps. induction ps as [|[i j] ps IH]; intros P w s Hs HF Hf; [reflexivity|].
    destruct (Hf i j (or_introl eq_refl)) as (Hi & Hj & Hv).
    destruct (fill_step i j ps P w s Hs HF Hi Hj) as (w' & S' & F' & E). rewrite E, Hv.
    rewrite <- S' in Hs. rewrite (IH _ w' s Hs).
    - reflexivity.
    - eapply fulls_kept; eassumption.
    - intros a b Hab. apply Hf. right. exact Hab.
  Qed.

  Lemma fill_raises : forall ps P (w : World) s i j e, nth_error (w_sets w) k = Some s -> fulls w (s_members s) Ks ->
    (forall i j, In (i, j) ps -> i < length Ks /\ j < length Ks) ->
    In (i, j) ps -> f (Kth i) (Kth j) = Raise e ->
    exists i' j' e', In (i', j') ps /\ f (Kth i') (Kth j') = Raise e' /\ snd (fill_pairs f k ps P w) = Raise e'.
  Proof.
    intros ps. induction ps as [|[a b] ps IH]; intros P w s i j e Hs HF Hr Hin He; [destruct Hin|].
    destruct (Hr a b (or_introl eq_refl)) as (Ha & Hb).
    destruct (fill_step a b ps P w s Hs HF Ha Hb) as (w' & S' & F' & E). rewrite E.
    destruct (f (Kth a) (Kth b)) as [v|e'] eqn:Hab.
    - destruct Hin as [Hin|Hin]; [congruence|]. rewrite <- S' in Hs.
      destruct (IH (mset P a b v) w' s i j e Hs (fulls_kept _ _ _ _ F' HF)) as (i' & j' & e' & H1 & H2 & H3);
        [intros; apply Hr; right; assumption|exact Hin|exact He|].
      exists i', j', e'. split; [right; exact H1|]. auto.
    - exists a, b, e'. split; [left; reflexivity|]. auto.
  Qed.

  Lemma put_pairs : forall n v ps P i j, mwf n n P -> i < n -> j < n ->
    (forall a b, In (a, b) ps -> a < n /\ b < n) ->
    mwf n n (fold_left (put_pair v) ps P) /\
    (In (i, j) ps \/ xget P i j = v i j -> xget (fold_left (put_pair v) ps P) i j = v i j).
  Proof.
    intros n v ps. induction ps as [|[a b] ps IH]; intros P i j HP Hi Hj Hr.
    - split; [exact HP|]. intros [[]|H]. exact H.
    - cbn [fold_left]. destruct (Hr a b (or_introl eq_refl)) as [Ha Hb].
      assert (HP' : mwf n n (put_pair v P (a, b))) by (apply mset_wf; exact HP).
      destruct (IH (put_pair v P (a, b)) i j HP' Hi Hj) as [W G]; [intros; apply Hr; right; assumption|].
      split; [exact W|]. intros H. apply G. unfold put_pair, xget. cbn [fst snd].
      rewrite (mget_mset NaN n n P a b (v a b) i j HP) by assumption.
      destruct (i =? a) eqn:E1, (j =? b) eqn:E2; cbn [andb];
        repeat match goal with H : (_ =? _) = true |- _ => apply Nat.eqb_eq in H | H : (_ =? _) = false |- _ => apply Nat.eqb_neq in H end;
        try (right; subst; reflexivity);
        (destruct H as [[H|H]|H]; [congruence|left; exact H|right; exact H]).
  Qed.
End Pairs.

Lemma pairs_in : forall n i j,
  In (i, j) (flat_map (fun i => map (fun j => (i, j)) (seq i (n - i))) (seq 0 n)) <-> i <= j /\ j < n.
Proof.
  intros n i j. rewrite in_flat_map. split.
  - intros (a & Ha & H). apply in_map_iff in H. destruct H as (b & H & Hb). injection H as -> ->.
    apply in_seq in Ha, Hb. lia.
  - intros [H1 H2]. exists i. split; [apply in_seq; lia|]. apply in_map_iff. exists j.
    split; [reflexivity|]. apply in_seq. lia.
Qed.

Lemma metric_func_named : forall co m f, metric_named co m f -> metric_func co m = Ok f.
Proof. intros co m f [[-> ->]|[-> ->]]; reflexivity. Qed.

(** C50: pairwise_similarity[i, j] is the metric of the matrices min(i, j) and max(i, j), for all
    buckets whose matrices can be computed and whose metrics do not raise. *)
Lemma pf_C50_partial :
  forall {U} co (w : world xr xr U) k num ms Ks metric f v,
    set_is w k num ms -> fulls w ms Ks -> metric_named co metric f ->
    (forall i j, i <= j -> j < length Ks -> f (nth i Ks dflt) (nth j Ks dflt) = Ok (v i j)) ->
    exists P, snd (pairwise_similarity co k metric w) = Ok P /\ mirrored (length ms) v P.
Proof.
  intros U co w k num ms Ks metric f v Hk HF Hm Hv.
  destruct (set_is_eq w k num ms Hk) as (s & Hs & _ & Hms). subst ms.
  assert (L : length (s_members s) = length Ks) by (eapply Forall2_len; exact HF).
  unfold pairwise_similarity. unfold bind at 1. unfold get_set. rewrite Hs.
  unfold bind at 1, lift. rewrite (metric_func_named co metric f Hm).
  match goal with |- context [fill_pairs f k ?ps0 ?P0] =>
    pose proof (fill_ok f k Ks v ps0 P0 w s Hs HF) as E; set (ps := ps0) in *; set (P := P0) in * end.
  assert (Hr : forall a b, In (a, b) ps -> a < length (s_members s) /\ b < length (s_members s)).
  { intros a b H. unfold ps in H. apply pairs_in in H. lia. }
  rewrite <- L in E. unfold bind. destruct (fill_pairs f k ps P w) as [w' r]. cbn [snd] in E. rewrite E.
  2:{ intros i j H. unfold ps in H. apply pairs_in in H. split; [lia|]. split; [lia|]. apply Hv; lia. }
  cbn [ret snd]. eexists. split; [reflexivity|]. split; [reflexivity|]. split; [reflexivity|].
  intros i j Hi Hj. unfold xget at 1. rewrite mget_tabulate by assumption.
  assert (Q : forall a b, a <= b -> b < length (s_members s) -> xget (fold_left (put_pair v) ps P) a b = v a b).
  { intros a b H1 H2. apply (put_pairs (length (s_members s)) v ps P a b); try lia.
    - unfold P. apply tabulate_wf.
    - exact Hr.
    - left. unfold ps. apply pairs_in. lia. }
  destruct (j <=? i) eqn:Hji; [apply Nat.leb_le in Hji|apply Nat.leb_gt in Hji].
  - rewrite (Nat.min_r i j), (Nat.max_l i j) by lia. apply Q; lia.
  - rewrite (Nat.min_l i j), (Nat.max_r i j) by lia. apply Q; lia.
Qed.

(** C50: an unknown metric raises KeyError, before any kernel matrix is computed. *)
Lemma pf_C50_unknown :
  forall {U} co (w : world xr xr U) k num ms metric,
    set_is w k num ms -> metric <> "corr"%string -> metric <> "align"%string ->
    pairwise_similarity co k metric w = (w, Raise KeyError).
Proof.
  intros U co w k num ms metric Hk H1 H2.
  destruct (set_is_eq w k num ms Hk) as (s & Hs & _). unfold pairwise_similarity, bind, get_set. rewrite Hs.
  unfold lift, metric_func. apply String.eqb_neq in H1, H2. rewrite H1, H2. reflexivity.
Qed.

(** C50: if the metric raises for one of the pairs, so does pairwise_similarity: the exception is one
    that the metric raises. *)
Lemma pf_C50_raises :
  forall {U} co (w : world xr xr U) k num ms Ks metric f i j e,
    set_is w k num ms -> fulls w ms Ks -> metric_named co metric f ->
    i <= j -> j < length Ks -> f (nth i Ks dflt) (nth j Ks dflt) = Raise e ->
    exists i' j' e', i' <= j' /\ j' < length Ks /\ f (nth i' Ks dflt) (nth j' Ks dflt) = Raise e' /\
      snd (pairwise_similarity co k metric w) = Raise e'.
Proof.
  intros U co w k num ms Ks metric f i j e Hk HF Hm Hi Hj He.
  destruct (set_is_eq w k num ms Hk) as (s & Hs & _ & Hms). subst ms.
  assert (L : length (s_members s) = length Ks) by (eapply Forall2_len; exact HF).
  unfold pairwise_similarity. unfold bind at 1. unfold get_set. rewrite Hs.
  unfold bind at 1, lift. rewrite (metric_func_named co metric f Hm).
  match goal with |- context [fill_pairs f k ?ps0 ?P0] =>
    destruct (fill_raises f k Ks ps0 P0 w s i j e Hs HF) as (i' & j' & e' & H1 & H2 & H3) end.
  - intros a b H. apply pairs_in in H. lia.
  - apply pairs_in. lia.
  - exact He.
  - exists i', j', e'. apply pairs_in in H1. split; [lia|]. split; [lia|]. split; [exact H2|].
    unfold bind. destruct (fill_pairs _ _ _ _ w) as [w' r]. cbn [snd] in H3. rewrite H3. reflexivity.
Qed.

Lemma aligned_eq : forall n A B K K', afmt K <> Lil -> amat K = rmat n n A -> afmt K' <> Lil -> amat K' = rmat n n B ->
  alignment_centered K K' (ZValue (Fin 0)) false = Ok (Fin (aligned n A B)).
Proof.
  intros n A B [f M] [f' M'] Hf HM Hf' HM'. cbn [afmt amat] in *. subst M M'. unfold aligned, tiny.
  destruct (Rle_dec (fnorm n n (centred n A)) (1/100000000)) as [H|H].
  { rewrite pf_C24_vanishing by (assumption || (left; exact H)). reflexivity. }
  destruct (Rle_dec (fnorm n n (centred n B)) (1/100000000)) as [H'|H'].
  { rewrite pf_C24_vanishing by (assumption || (right; exact H')). reflexivity. }
  apply pf_C23_value; [exact Hf|exact Hf'|lra|lra].
Qed.

Lemma aligned_facts : forall n A B,
  (-1 <= aligned n A B <= 1)%R /\ aligned n A B = aligned n B A /\
  (aligned n A A = if Rle_dec (fnorm n n (centred n A)) tiny then 0%R else 1%R).
Proof.
  intros n A B.
  assert (EQ : forall A B, alignment_centered (mkArr Dense (rmat n n A)) (mkArr Dense (rmat n n B)) (ZValue (Fin 0)) false
                           = Ok (Fin (aligned n A B))) by (intros; apply aligned_eq; discriminate || reflexivity).
  split; [|split].
  - unfold aligned. destruct (Rle_dec _ _) as [H|H]; [lra|]. destruct (Rle_dec _ _) as [H'|H']; [lra|].
    destruct (pf_C23_range Dense Dense n A B ZRaise) as (v & Hv & Hr);
      try discriminate; try (unfold tiny in *; lra).
    rewrite pf_C23_value in Hv by (discriminate || (unfold tiny in *; lra)). injection Hv as ->. exact Hr.
  - pose proof (EQ A B) as E1. rewrite pf_C23_symmetric, EQ in E1. injection E1 as ->. reflexivity.
  - destruct (Rle_dec _ _) as [H|H].
    + unfold aligned. destruct (Rle_dec _ _); [reflexivity|contradiction].
    + pose proof (EQ A A) as E1. rewrite pf_C23_self in E1 by (discriminate || (unfold tiny in H; lra)).
      injection E1 as <-. reflexivity.
Qed.

(** C50 with metric 'align', on finite matrices: the table of centred alignments: symmetric, in
    [-1, 1], with 1 on the diagonal (0 where a centred norm vanishes). *)
Lemma pf_C50_align :
  forall {U} co (w : world xr xr U) k num ms Ks n As,
    set_is w k num ms -> fulls w ms Ks -> finite_matrices n Ks As ->
    exists P, snd (pairwise_similarity co k "align" w) = Ok P /\ mr P = length ms /\ mc P = length ms /\
      forall i j, i < length ms -> j < length ms ->
        xget P i j = Fin (aligned n (nth i As (fun _ _ => 0%R)) (nth j As (fun _ _ => 0%R))) /\
        xget P i j = xget P j i /\
        (-1 <= aligned n (nth i As (fun _ _ => 0%R)) (nth j As (fun _ _ => 0%R)) <= 1)%R /\
        (xget P i i = Fin (if Rle_dec (fnorm n n (centred n (nth i As (fun _ _ => 0%R)))) tiny then 0 else 1)).
Proof.
  intros U co w k num ms Ks n As Hk HF HA.
  assert (L : length ms = length Ks) by (eapply Forall2_len; exact HF).
  assert (G : forall i, i < length Ks -> afmt (nth i Ks dflt) <> Lil /\
              amat (nth i Ks dflt) = rmat n n (nth i As (fun _ _ => 0%R))).
  { clear - HA. induction HA as [|K A Ks As H HA IH]; intros i Hi; [cbn in Hi; lia|].
    destruct i as [|i]; [exact H|]. apply IH. cbn [length] in Hi. lia. }
  destruct (pf_C50_partial co w k num ms Ks "align"
              (fun a b => alignment_centered a b (ZValue (Fin 0)) false)
              (fun i j => Fin (aligned n (nth i As (fun _ _ => 0%R)) (nth j As (fun _ _ => 0%R))))
              Hk HF) as (P & HP & R & C & E).
  - right. split; reflexivity.
  - intros i j Hi Hj. destruct (G i) as [G1 G2]; [lia|]. destruct (G j) as [G3 G4]; [lia|].
    apply aligned_eq; assumption.
  - exists P. split; [exact HP|]. split; [exact R|]. split; [exact C|]. intros i j Hi Hj.
    rewrite (E i j Hi Hj), (E j i Hj Hi), (E i i Hi Hi), Nat.min_id, Nat.max_id, (Nat.min_comm j i), (Nat.max_comm j i).
    split; [|split; [reflexivity|split]].
    + f_equal. destruct (Nat.le_ge_cases i j); [rewrite Nat.min_l, Nat.max_r by assumption; reflexivity|].
      rewrite Nat.min_r, Nat.max_l by assumption.
      apply (aligned_facts n).
    + apply aligned_facts.
    + f_equal. apply (aligned_facts n _ (fun _ _ => 0%R)).
Qed.

(** ** NaN *)
Lemma matmul_nan : forall A B i j k, i < mr A -> j < mc B -> k < mc A ->
  xget A i k = NaN \/ xget B k j = NaN -> xget (matmul A B) i j = NaN.
Proof.
  intros A B i j k Hi Hj Hk H. unfold xget at 1, matmul. rewrite mget_tabulate by assumption.
  apply xsum_nan_at with k; [exact Hk|]. destruct H as [H|H]; rewrite H; [reflexivity|apply xmul_nan_r].
Qed.

Lemma center_nan : forall K n p q, is_ndarray K = true -> mr (amat K) = n -> mc (amat K) = n -> p < n -> q < n ->
  xget (amat K) p q = NaN ->
  exists K', center_km K = Ok K' /\ is_ndarray K' = true /\ mr (amat K') = n /\ mc (amat K') = n /\
    forall i j, i < n -> j < n -> xget (amat K') i j = NaN.
Proof.
  intros K n p q Hf Hr Hc Hp Hq HN. unfold center_km. rewrite Hf, Hr, Hc, Nat.eqb_refl.
  eexists. split; [reflexivity|]. split; [destruct K as [[] M]; try discriminate; reflexivity|].
  split; [reflexivity|]. split; [reflexivity|]. intros i j Hi Hj. cbn [amat].
  apply matmul_nan with q; try assumption; [cbn [matmul tabulate mc]; lia|]. left.
  apply matmul_nan with p; try assumption; [lia|]. right. exact HN.
Qed.

Lemma msum_nan : forall n m f i j, i < n -> j < m -> f i j = NaN -> msum (tabulate n m f) = NaN.
Proof.
  intros n m f i j Hi Hj H. unfold msum. cbn [tabulate mr mc].
  apply xsum_nan_at with i; [exact Hi|]. apply xsum_nan_at with j; [exact Hj|].
  change (xget (tabulate n m f) i j = NaN). unfold xget. rewrite mget_tabulate by assumption. exact H.
Qed.

Lemma frob_nan : forall K K' n i j, is_ndarray K = true -> mr (amat K) = n -> mc (amat K) = n ->
  mr (amat K') = n -> mc (amat K') = n -> i < n -> j < n -> xget (amat K) i j = NaN ->
  frobenius_product K K' = Ok NaN.
Proof.
  intros K K' n i j Hf H1 H2 H3 H4 Hi Hj HN. unfold frobenius_product, same_shape. rewrite H1, H2, H3, H4, Nat.eqb_refl.
  cbn [andb negb]. replace (is_sparse K) with false by (destruct K as [[] M]; try discriminate; reflexivity).
  cbn [andb]. f_equal. apply msum_nan with i j; [exact Hi|exact Hj|]. rewrite HN. reflexivity.
Qed.

(** C54: a NaN anywhere in a kernel matrix makes its score NaN, whatever the targets are (unless
    their centred norm vanishes). *)
Lemma pf_C54_nan : forall K n p q y z, afmt K <> Lil -> mr (amat K) = n -> mc (amat K) = n -> p < n -> q < n ->
  xget (amat K) p q = NaN -> length y = n -> (tiny < fnorm n n (centred n (target_matrix y)))%R ->
  alignment_centered K (mkArr Dense (outer (map Fin y))) z false = Ok NaN.
Proof.
  intros K n p q y z Hf Hr Hc Hp Hq HN Hy Ht. rewrite outer_real, Hy.
  assert (Hnd : is_ndarray K = true) by (destruct K as [[] M]; [reflexivity|contradiction Hf; reflexivity|reflexivity]).
  destruct (center_nan K n p q Hnd Hr Hc Hp Hq HN) as (K' & E & Hnd' & Hr' & Hc' & HN').
  unfold alignment_centered, same_shape. rewrite Hr, Hc. cbn [amat]. simpl mr. simpl mc. rewrite Nat.eqb_refl, Hnd.
  cbn [andb negb orb is_ndarray afmt]. rewrite E. cbn [rbind].
  rewrite center_finite by discriminate. cbn [rbind].
  unfold frobenius_norm at 1. rewrite (frob_nan K' K' n p q) by auto. cbn [res_map rbind xsqrt].
  rewrite norm_finite by discriminate. cbn [rbind]. rewrite not_small by exact Ht. cbn [orb].
  replace (xisclose NaN (Fin 0)) with false by reflexivity. cbn [orb].
  rewrite (frob_nan K' _ n p q) by (auto || reflexivity). reflexivity.
Qed.

(** C53 is false if a score is NaN: the bucket of an unnormalised LinearKernel and a normalised
    PolyKernel(degree=1, gamma=-1, b=0) on the sample [[1], [2]] with the targets 1, -1. The first has the
    largest possible alignment 1, the second is returned. *)
Lemma pf_C53_refuted :
  forall best_score, exists (w : world xr xr unit) b x y,
    w = fst ((b <- bucket_new xN xC (Some false) (Some false) (mkBP BNone BNone BNone BNone BNone) ;;
              l <- new_obj (OKM (km_new (builtin (KPoly 1 (-1) 0)) true [])) ;;
              append xN xC (b_set b) (ARef l)) w_empty) /\
    set_is w (b_set b) NSNone [0; 1] /\
    snd (rank_kernels (fun t => Ok (map Fin t)) best_score (b_set b) y "align/corr" no_params
           (fst (set_attach (fun _ => true) (b_set b) x None w))) = Ok [Fin 1; NaN] /\
    snd (find_optimal_kernel (fun t => Ok (map Fin t)) best_score (fun _ => true) (Some b) x y "align/corr"
           no_params w) = Ok 1 /\
    ~ first_best [Fin 1; NaN] 1.
Proof.
  intros best_score.
  set (w := mkW [OKM (km_new (builtin KLinear) false []); OKM (km_new (builtin (KPoly 1 (-1) 0)) true [])]
                [mkSet NSNone true [0; 1] None] : world xr xr unit).
  exists w, (mkBucket 0 false), x12, [1; -1]%R.
  assert (Hk : set_is w 0 NSNone [0; 1]) by (eexists; eexists; reflexivity).
  assert (Hx : is_sample x12 2 1) by (exists []; split; [reflexivity|constructor]).
  assert (Hns : numeric_sample (fun _ => true) x12 2) by (split; [exists 1; exact Hx|reflexivity]).
  assert (HC : Forall2 (candidate w 2 1 x12) [0; 1] [(xdot, false); (valueOf (KPoly 1 (-1) 0), true)]).
  { constructor; [|constructor; [|constructor]].
    - exists (builtin KLinear), []. split; [reflexivity|]. split; [|reflexivity]. apply linear_total; reflexivity.
    - exists (builtin (KPoly 1 (-1) 0)), []. split; [reflexivity|]. split; [|reflexivity].
      intros t u v Hu Hv. cbn [builtin kf fst]. unfold kernel_rows.
      apply is_row_length in Hu; [|reflexivity|reflexivity]. apply is_row_length in Hv; [|reflexivity|reflexivity].
      rewrite Hu, Hv. reflexivity. }
  pose proof (candidates_km _ _ _ _ _ _ HC) as Hkm.
  assert (G2 : exists K, gram true (valueOf (KPoly 1 (-1) 0)) 2 1 x12 = Ok K /\ afmt K = Dense /\
                 mr (amat K) = 2 /\ mc (amat K) = 2 /\ xget (amat K) 0 0 = NaN).
  { eexists. split; [calc; rdec; reflexivity|]. repeat split. }
  destruct G2 as (K2 & HK2 & Hf2 & Hr2 & Hc2 & HN2).
  set (K1 := mkArr Dense (rmat 2 2 (fun i j => (INR (1 + i) * INR (1 + j))%R))).
  assert (HG : Forall2 (fun (c : (list xr -> list xr -> xr) * bool) K => gram (snd c) (fst c) 2 1 x12 = Ok K)
                 [(xdot, false); (valueOf (KPoly 1 (-1) 0), true)] [K1; K2]).
  { constructor; [|constructor; [exact HK2|constructor]]. cbn [fst snd gram]. unfold K1. do 2 f_equal.
    apply C03_example. }
  destruct (attached_bucket (fun _ => true) w 0 NSNone [0; 1] x12 2 Hk Hns (or_introl eq_refl) Hkm)
    as (w1 & s1 & E1 & Hs1 & Hms & Ho1).
  pose proof (grams_fulls 2 1 x12 w w1 _ _ _ Hx HC Ho1 HG) as HF. rewrite <- Hms in HF.
  assert (C1 : forall i j, centred 2 (fun i j => (INR (1 + i) * INR (1 + j))%R) i j
           = (1/4 + (INR i * INR j) - (1/2) * INR i - (1/2) * INR j)%R).
  { intros i j. unfold centred, rowmean, colmean, allmean. cbn [rsum]. rewrite !plus_INR. change (INR 1) with 1%R. change (INR 0) with 0%R.
    change (INR 2) with (1 + 1)%R. field. }
  assert (C2 : forall i j, i < 2 -> j < 2 -> centred 2 (target_matrix [1; -1]%R) i j = target_matrix [1; -1]%R i j).
  { intros i j Hi Hj. unfold centred, rowmean, colmean, allmean, target_matrix. cbn [rsum]. change (INR 2) with (1 + 1)%R.
    destruct i as [|[|i]]; [| |lia]; (destruct j as [|[|j]]; [| |lia]); cbn [nth]; field. }
  assert (F1 : fnorm 2 2 (centred 2 (fun i j => (INR (1 + i) * INR (1 + j))%R)) = (1/2)%R).
  { unfold fnorm, fprod. cbn [rsum]. rewrite !C1. change (INR 1) with 1%R. change (INR 0) with 0%R.
    match goal with |- sqrt ?t = _ => replace t with (1/2 * (1/2))%R by field end. apply sqrt_square. lra. }
  assert (F2 : fnorm 2 2 (centred 2 (target_matrix [1; -1]%R)) = 2%R).
  { unfold fnorm, fprod. cbn [rsum]. rewrite !C2 by lia. unfold target_matrix. cbn [nth].
    match goal with |- sqrt ?t = _ => replace t with (2 * 2)%R by ring end. apply sqrt_square. lra. }
  assert (E : snd (rank_kernels (fun t => Ok (map Fin t)) best_score 0 [1; -1]%R "align/corr" no_params w1)
              = Ok [Fin 1; NaN]).
  { rewrite rank_align by reflexivity.
    destruct (align_ok (fun t => Ok (map Fin t)) (map Fin [1; -1]%R) 0 [1; -1]%R no_params w1 s1 [K1; K2] Hs1 HF eq_refl)
      as (w' & E & _); [repeat split|]. rewrite E. cbn [snd rmap no_params rp_zero rp_centered default].
    rewrite outer_real at 1. cbn [length].
    rewrite (aligned_eq 2 (fun i j => (INR (1 + i) * INR (1 + j))%R) (target_matrix [1; -1]%R)) by (discriminate || reflexivity).
    cbn [rbind]. rewrite (pf_C54_nan K2 2 0 0 [1; -1]%R) by
      (assumption || lia || reflexivity || (rewrite Hf2; discriminate) || (rewrite F2; unfold tiny; lra)).
    cbn [rbind]. do 3 f_equal. unfold aligned. rewrite F1, F2.
    destruct (Rle_dec _ _) as [H|H]; [unfold tiny in H; lra|]. destruct (Rle_dec _ _) as [H'|H']; [unfold tiny in H'; lra|].
    unfold fprod. cbn [rsum]. rewrite !C1, !C2 by lia. unfold target_matrix. cbn [nth].
    change (INR 1) with 1%R. change (INR 0) with 0%R. field. }
  split; [reflexivity|]. split; [exact Hk|]. cbn [b_set]. split; [rewrite E1; exact E|]. split.
  - destruct (pf_C53_best (fun t => Ok (map Fin t)) best_score (fun _ => true) w (mkBucket 0 false) NSNone [0; 1] x12 2
                [1; -1]%R "align/corr" no_params Hk Hns (or_introl eq_refl) Hkm eq_refl) as [_ H].
    cbn [b_set] in H. rewrite E1 in H. cbn [fst] in H. rewrite E in H. destruct H as (_ & _ & H).
    destruct (H ltac:(discriminate)) as (i & l & Hi & Hr & _ & Hn). rewrite Hr. f_equal.
    destruct Hn as (N1 & N2 & N3); [right; left; reflexivity|]. cbn [length] in N1.
    destruct i as [|[|i]]; [discriminate|cbn in Hi; congruence|lia].
  - intros (_ & H & _). specialize (H 0 ltac:(cbn; lia)). discriminate.
Qed.

(** ** C68 *)
(** C68: the correlation of two finite matrices, neither of them constant, is the Pearson correlation of
    their entries, which is symmetric, in [-1, 1], 1 for a matrix with itself, and does not change if a
    matrix is scaled by a positive number or shifted. *)
Lemma pf_C68_value : forall co n m A B, varies n m A -> varies n m B ->
  correlation_km co (mkArr Dense (rmat n m A)) (mkArr Dense (rmat n m B)) = Ok (Fin (pearson n m A B)) /\
  (-1 <= pearson n m A B <= 1)%R /\ pearson n m A B = pearson n m B A /\ pearson n m A A = 1%R /\
  forall a c, (0 < a)%R -> pearson n m (fun i j => a * A i j + c)%R B = pearson n m A B.
Proof.
  intros co n m A B HA HB. split; [apply correlation_value; assumption|].
  split; [apply pearson_range; assumption|]. split; [|split].
  - unfold pearson. rewrite fprod_sym, (Rmult_comm (fnorm n m (deviation n m A))). reflexivity.
  - unfold pearson. rewrite fnorm_sq. field. rewrite <- fnorm_sq. apply Rgt_not_eq.
    apply Rmult_lt_0_compat; apply deviation_norm_pos; exact HA.
  - intros a c Ha. apply pearson_affine; assumption.
Qed.

(** C68: matrices of different sizes raise ValueError, matrices of fewer than two entries as well, and a
    constant matrix has the correlation NaN. *)
Lemma pf_C68_otherwise : forall co n m A B,
  (forall n' m' B', n * m <> n' * m' ->
     correlation_km co (mkArr Dense (rmat n m A)) (mkArr Dense (rmat n' m' B')) = Raise ValueError) /\
  (n * m < 2 -> correlation_km co (mkArr Dense (rmat n m A)) (mkArr Dense (rmat n m B)) = Raise ValueError) /\
  (2 <= n * m -> ~ varies n m A \/ ~ varies n m B ->
     correlation_km co (mkArr Dense (rmat n m A)) (mkArr Dense (rmat n m B)) = Ok NaN).
Proof.
  intros co n m A B. unfold correlation_km. rewrite !plain_rmat. cbn [andb negb]. split; [|split].
  - intros n' m' B' H. rewrite plain_rmat. cbn [negb]. rewrite !ravel_rmat, !flat_length.
    replace (n * m =? n' * m') with false by (symmetry; apply Nat.eqb_neq; exact H). reflexivity.
  - intros H. rewrite !ravel_rmat, !flat_length, Nat.eqb_refl. cbn [negb].
    replace (n * m <? 2) with true by (symmetry; apply Nat.ltb_lt; exact H). reflexivity.
  - intros H1 H2. rewrite !ravel_rmat, !flat_length, Nat.eqb_refl. cbn [negb].
    replace (n * m <? 2) with false by (symmetry; apply Nat.ltb_ge; exact H1).
    destruct H2 as [H2|H2]; rewrite (constant_not_varies _ _ _ H2); [|rewrite orb_true_r]; reflexivity.
Qed.

(** C50 with metric 'corr', on ndarrays with finite, not constant entries: the table of Pearson
    correlations: symmetric, in [-1, 1], with 1 on the diagonal. *)
Lemma pf_C50_corr :
  forall {U} co (w : world xr xr U) k num ms Ks n As,
    set_is w k num ms -> fulls w ms Ks ->
    Forall2 (fun K A => K = mkArr Dense (rmat n n A) /\ varies n n A) Ks As ->
    exists P, snd (pairwise_similarity co k "corr" w) = Ok P /\ mr P = length ms /\ mc P = length ms /\
      forall i j, i < length ms -> j < length ms ->
        xget P i j = Fin (pearson n n (nth i As (fun _ _ => 0%R)) (nth j As (fun _ _ => 0%R))) /\
        xget P i j = xget P j i /\ xget P i i = Fin 1 /\
        (-1 <= pearson n n (nth i As (fun _ _ => 0%R)) (nth j As (fun _ _ => 0%R)) <= 1)%R.
Proof.
  intros U co w k num ms Ks n As Hk HF HA.
  assert (L : length ms = length Ks) by (eapply Forall2_len; exact HF).
  assert (G : forall i, i < length Ks -> nth i Ks dflt = mkArr Dense (rmat n n (nth i As (fun _ _ => 0%R))) /\
              varies n n (nth i As (fun _ _ => 0%R))).
  { clear - HA. induction HA as [|K A Ks As H HA IH]; intros i Hi; [cbn in Hi; lia|].
    destruct i as [|i]; [exact H|]. apply IH. cbn [length] in Hi. lia. }
  destruct (pf_C50_partial co w k num ms Ks "corr" (correlation_km co)
              (fun i j => Fin (pearson n n (nth i As (fun _ _ => 0%R)) (nth j As (fun _ _ => 0%R))))
              Hk HF) as (P & HP & R & C & E).
  - left. split; reflexivity.
  - intros i j Hi Hj. destruct (G i) as [G1 G2]; [lia|]. destruct (G j) as [G3 G4]; [lia|].
    rewrite G1, G3. apply correlation_value; assumption.
  - exists P. split; [exact HP|]. split; [exact R|]. split; [exact C|]. intros i j Hi Hj.
    destruct (G i) as [_ Vi]; [lia|]. destruct (G j) as [_ Vj]; [lia|].
    destruct (pf_C68_value co n n _ _ Vi Vj) as (_ & R1 & S1 & S2 & _).
    rewrite (E i j Hi Hj), (E j i Hj Hi), (E i i Hi Hi), Nat.min_id, Nat.max_id, (Nat.min_comm j i), (Nat.max_comm j i).
    split; [|split; [reflexivity|split; [rewrite S2; reflexivity|exact R1]]].
    f_equal. destruct (Nat.le_ge_cases i j); [rewrite Nat.min_l, Nat.max_r by assumption; reflexivity|].
    rewrite Nat.min_r, Nat.max_l by assumption. symmetry. exact S1.
Qed.

(** C50 with metric 'corr', exactly, on ndarrays with finite entries of any size n: the Pearson
    correlation of two matrices that are not constant, and NaN if one of them is; ValueError if n < 2
    (unless the set is empty). *)
Lemma pf_C50_corr_exact :
  forall {U} co (w : world xr xr U) k num ms Ks n As,
    set_is w k num ms -> fulls w ms Ks ->
    Forall2 (fun K A => K = mkArr Dense (rmat n n A)) Ks As ->
    (2 <= n -> exists P, snd (pairwise_similarity co k "corr" w) = Ok P /\ mr P = length ms /\ mc P = length ms /\
       forall i j, i < length ms -> j < length ms ->
         let A := nth i As (fun _ _ => 0%R) in let B := nth j As (fun _ _ => 0%R) in
         (varies n n A -> varies n n B -> xget P i j = Fin (pearson n n A B)) /\
         (~ varies n n A \/ ~ varies n n B -> xget P i j = NaN)) /\
    (n < 2 -> ms <> [] -> snd (pairwise_similarity co k "corr" w) = Raise ValueError).
Proof.
  intros U co w k num ms Ks n As Hk HF HA.
  assert (L : length ms = length Ks) by (eapply Forall2_len; exact HF).
  assert (G : forall i, i < length Ks -> nth i Ks dflt = mkArr Dense (rmat n n (nth i As (fun _ _ => 0%R)))).
  { clear - HA. induction HA as [|K A Ks As H HA IH]; intros i Hi; [cbn in Hi; lia|].
    destruct i as [|i]; [exact H|]. apply IH. cbn [length] in Hi. lia. }
  split.
  - intros Hn. assert (H2 : 2 <= n * n) by nia.
    set (A := fun i => nth i As (fun _ _ => 0%R)).
    set (f := fun i j => correlation_km co (mkArr Dense (rmat n n (A i))) (mkArr Dense (rmat n n (A j)))).
    destruct (pf_C50_partial co w k num ms Ks "corr" (correlation_km co)
                (fun i j => match f i j with Ok v => v | Raise _ => NaN end) Hk HF) as (P & HP & R & C & E).
    + left. split; reflexivity.
    + intros i j Hi Hj. rewrite (G i), (G j) by lia. fold (A i) (A j). fold (f i j).
      assert (Ho : exists v, f i j = Ok v).
      { unfold f, correlation_km. rewrite !plain_rmat. cbn [andb negb]. rewrite !ravel_rmat, !flat_length, Nat.eqb_refl.
        cbn [negb]. replace (n * n <? 2) with false by (symmetry; apply Nat.ltb_ge; exact H2).
        destruct (constant _ || constant _); eauto. }
      destruct Ho as [v ->]. reflexivity.
    + exists P. split; [exact HP|]. split; [exact R|]. split; [exact C|]. intros i j Hi Hj A1 B1.
      fold (A i) in A1. fold (A j) in B1. rewrite (E i j Hi Hj).
      assert (S : Nat.min i j = i /\ Nat.max i j = j \/ Nat.min i j = j /\ Nat.max i j = i) by lia.
      split.
      * intros Va Vb. destruct (pf_C68_value co n n (A i) (A j) Va Vb) as (Q1 & _ & Q2 & _).
        destruct (pf_C68_value co n n (A j) (A i) Vb Va) as (Q3 & _).
        destruct S as [[-> ->]|[-> ->]]; unfold f; [rewrite Q1; reflexivity|rewrite Q3]. unfold A1, B1. f_equal. symmetry. exact Q2.
      * intros Hv. destruct S as [[-> ->]|[-> ->]]; unfold f.
        -- destruct (pf_C68_otherwise co n n (A i) (A j)) as (_ & _ & Q). rewrite (Q H2 Hv). reflexivity.
        -- destruct (pf_C68_otherwise co n n (A j) (A i)) as (_ & _ & Q). rewrite (Q H2); [reflexivity|]. tauto.
  - intros Hn Hms. assert (H2 : n * n < 2) by nia.
    assert (L0 : 0 < length Ks) by (rewrite <- L; destruct ms; [congruence|cbn; lia]).
    assert (Q : forall i j, i < length Ks -> j < length Ks ->
                 correlation_km co (nth i Ks dflt) (nth j Ks dflt) = Raise ValueError).
    { intros i j Hi Hj. rewrite (G i Hi), (G j Hj).
      exact (proj1 (proj2 (pf_C68_otherwise co n n _ _)) H2). }
    destruct (pf_C50_raises co w k num ms Ks "corr" (correlation_km co) 0 0 ValueError Hk HF) as (i & j & e & Hi & Hj & He & ->).
    + left. split; reflexivity.
    + lia.
    + exact L0.
    + apply Q; exact L0.
    + rewrite Q in He by lia. congruence.
Qed.

(** C50: the claim that no entry is undefined is false: the correlation with a constant kernel matrix
    (LinearKernel on the sample [[1], [1]]) is NaN. *)
Lemma pf_C50_refuted :
  forall co, exists (w : world xr xr unit) x P,
    w = fst ((b <- bucket_new xN xC (Some false) (Some false) (mkBP BNone BNone BNone BNone BNone) ;;
              set_attach (fun _ => true) (b_set b) x None) w_empty) /\
    snd (pairwise_similarity co 0 "corr" w) = Ok P /\ mr P = 1 /\ mc P = 1 /\ xget P 0 0 = NaN.
Proof.
  intros co. set (x := mkNd [2; 1] [Fin 1; Fin 1]). eexists. exists x.
  set (w0 := mkW [OKM (km_new (builtin KLinear) false [])] [mkSet NSNone true [0] None] : world xr xr unit).
  assert (Hk : set_is w0 0 NSNone [0]) by (eexists; eexists; reflexivity).
  assert (Hx : is_sample x 2 1) by (exists []; split; [reflexivity|constructor]).
  assert (Hns : numeric_sample (fun _ => true) x 2) by (split; [exists 1; exact Hx|reflexivity]).
  assert (HC : Forall2 (candidate w0 2 1 x) [0] [(xdot, false)]).
  { constructor; [|constructor]. exists (builtin KLinear), []. split; [reflexivity|].
    split; [|reflexivity]. apply linear_total; reflexivity. }
  destruct (attached_bucket (fun _ => true) w0 0 NSNone [0] x 2 Hk Hns (or_introl eq_refl) (candidates_km _ _ _ _ _ _ HC))
    as (w1 & s1 & E1 & Hs1 & Hms & Ho1).
  set (K1 := mkArr Dense (rmat 2 2 (fun i j => 1%R))).
  assert (HG : Forall2 (fun (c : (list xr -> list xr -> xr) * bool) K => gram (snd c) (fst c) 2 1 x = Ok K)
                 [(xdot, false)] [K1]).
  { constructor; [|constructor]. cbn [fst snd gram]. unfold K1. do 2 f_equal. apply tabulate_ext. intros i j Hi Hj.
    destruct i as [|[|i]]; [| |lia]; (destruct j as [|[|j]]; [| |lia]); lazy -[Rplus Rmult IZR]; f_equal; ring. }
  pose proof (grams_fulls 2 1 x w0 w1 _ _ _ Hx HC Ho1 HG) as HF.
  assert (Hset : set_is w1 0 (s_num s1) [0]) by (rewrite <- Hms; apply eq_set_is; exact Hs1).
  destruct (pf_C50_partial co w1 0 (s_num s1) [0] [K1] "corr" (correlation_km co) (fun _ _ => NaN) Hset HF) as (P & HP & R & C & E).
  { left. split; reflexivity. }
  { intros i j Hi Hj. cbn [length] in Hj. replace j with 0 by lia. replace i with 0 by lia. cbn [nth].
    apply pf_C68_otherwise; [lia|]. left. intros (? & ? & ? & ? & _ & H). apply H. reflexivity. }
  exists P. split; [reflexivity|]. split; [|split; [exact R|split; [exact C|apply E; cbn; lia]]].
  change (fst ((b <- bucket_new xN xC (Some false) (Some false) (mkBP BNone BNone BNone BNone BNone) ;;
              set_attach (fun _ => true) (b_set b) x None) w_empty)) with (fst (set_attach (fun _ => true) 0 x None w0)).
  rewrite E1. exact HP.
Qed.

(*BEGIN PROP*)
(** The hypotheses of C50 - C54 and C68 hold for non-trivial inputs: a bucket of two kernels, on the
    sample [[1], [2]]. *)
Example C53_example :
  let w := mkW [OKM (km_new (builtin KLinear) false []); OKM (km_new (builtin (KPoly 2 1 0)) false [])]
               [mkSet NSNone true [0; 1] None] : world xr xr unit in
  let As := [(fun i j => (INR (1 + i) * INR (1 + j))%R); (fun i j => ((INR (1 + i) * INR (1 + j)) * (INR (1 + i) * INR (1 + j)))%R)] in
  set_is w 0 NSNone [0; 1] /\ is_sample x12 2 1 /\
  Forall2 (candidate w 2 1 x12) [0; 1] [(xdot, false); (valueOf (KPoly 2 1 0), false)] /\
  Forall2 (fun (c : (list xr -> list xr -> xr) * bool) K => gram (snd c) (fst c) 2 1 x12 = Ok K)
    [(xdot, false); (valueOf (KPoly 2 1 0), false)] (map (fun A => mkArr Dense (rmat 2 2 A)) As) /\
  finite_matrices 2 (map (fun A => mkArr Dense (rmat 2 2 A)) As) As /\
  Forall (varies 2 2) As /\
  extremes [1; 3; 2]%R 1 3 /\ align_params no_params /\ cv_params no_params.
Proof.
  cbv zeta. split; [eexists; eexists; reflexivity|]. split; [exists []; split; [reflexivity|constructor]|].
  split; [|split; [|split; [|split; [|split; [|split]]]]].
  - constructor; [|constructor; [|constructor]].
    + exists (builtin KLinear), []. split; [reflexivity|]. split; [|reflexivity]. apply linear_total; reflexivity.
    + exists (builtin (KPoly 2 1 0)), []. split; [reflexivity|]. split; [|reflexivity].
      intros t u v Hu Hv. cbn [builtin kf fst]. unfold kernel_rows.
      apply is_row_length in Hu; [|reflexivity|reflexivity]. apply is_row_length in Hv; [|reflexivity|reflexivity].
      rewrite Hu, Hv. reflexivity.
  - constructor; [|constructor; [|constructor]]; cbn [fst snd gram]; do 2 f_equal; apply tabulate_ext; intros i j Hi Hj;
      (destruct i as [|[|i]]; [| |lia]); (destruct j as [|[|j]]; [| |lia]); lazy -[Rplus Rmult IZR]; f_equal; ring.
  - constructor; [|constructor; [|constructor]]; (split; [discriminate|reflexivity]).
  - constructor; [|constructor; [|constructor]]; exists 0, 0, 1, 1; (split; [lia|]); cbn; lra.
  - split; [left; reflexivity|]. split; [right; left; reflexivity|]. intros v [<-|[<-|[<-|[]]]]; lra.
  - repeat split.
  - repeat split.
Qed.
(*END PROP*)
