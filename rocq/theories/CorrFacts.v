(** Proofs about the correlation of all entries of two matrices. *)
From Coq Require Import String Reals List Arith ZArith Bool Lia Lra.
Import ListNotations.
From Verif Require Import Prelude MatModel XReal OpsModel SpecLinAlg SetModel RankModel SpecRank.
From Verif Require Import RSum OpsFacts OpsProps RankFacts.

Local Open Scope list_scope.
Local Open Scope nat_scope.

(** The entries row by row. *)
Definition flat {A} (n m : nat) (f : nat -> nat -> A) : list A :=
  concat (map (fun i => map (fun j => f i j) (seq 0 m)) (seq 0 n)).

Lemma flat_snoc : forall {A} n m (f : nat -> nat -> A),
  flat (S n) m f = flat n m f ++ map (fun j => f n j) (seq 0 m).
Proof.
  intros A n m f. unfold flat. rewrite seq_S, map_app, concat_app. cbn [plus map concat]. rewrite app_nil_r. reflexivity.
Qed.

Lemma flat_length : forall {A} n m (f : nat -> nat -> A), length (flat n m f) = n * m.
Proof.
  intros A n m f. induction n as [|n IH]; [reflexivity|]. rewrite flat_snoc, app_length, IH, map_length, seq_length. lia.
Qed.

Lemma map_flat : forall {A B} (g : A -> B) n m f, map g (flat n m f) = flat n m (fun i j => g (f i j)).
Proof.
  intros A B g n m f. induction n as [|n IH]; [reflexivity|]. rewrite !flat_snoc, map_app, IH, map_map. reflexivity.
Qed.

Lemma combine_app' : forall {A B} (a a' : list A) (b b' : list B), length a = length b ->
  combine (a ++ a') (b ++ b') = combine a b ++ combine a' b'.
Proof.
  intros A B a. induction a as [|x a IH]; intros a' [|y b] b' H; try discriminate; [reflexivity|].
  cbn [app combine]. f_equal. apply IH. injection H as H. exact H.
Qed.

Lemma combine_map : forall {A B C} (f : A -> B) (g : A -> C) l, combine (map f l) (map g l) = map (fun a => (f a, g a)) l.
Proof. intros A B C f g l. induction l as [|a l IH]; [reflexivity|]. cbn [map combine]. f_equal. exact IH. Qed.

Lemma combine_flat : forall {A B} n m (f : nat -> nat -> A) (g : nat -> nat -> B),
  combine (flat n m f) (flat n m g) = flat n m (fun i j => (f i j, g i j)).
Proof.
  intros A B n m f g. induction n as [|n IH]; [reflexivity|]. rewrite !flat_snoc, combine_app' by (rewrite !flat_length; reflexivity).
  rewrite IH, combine_map. reflexivity.
Qed.

Lemma flat_in : forall {A} n m (f : nat -> nat -> A) a, In a (flat n m f) <-> exists i j, i < n /\ j < m /\ f i j = a.
Proof.
  intros A n m f a. unfold flat. rewrite in_concat. split.
  - intros (r & Hr & Ha). apply in_map_iff in Hr. destruct Hr as (i & <- & Hi). apply in_map_iff in Ha.
    destruct Ha as (j & <- & Hj). apply in_seq in Hi, Hj. exists i, j. split; [lia|]. split; [lia|reflexivity].
  - intros (i & j & Hi & Hj & <-). eexists. split; [apply in_map_iff; exists i; split; [reflexivity|apply in_seq; lia]|].
    apply in_map_iff. exists j. split; [reflexivity|apply in_seq; lia].
Qed.

Lemma xsum_app : forall a b r s, xsum a = Fin r -> xsum b = Fin s -> xsum (a ++ b) = Fin (r + s)%R.
Proof.
  unfold xsum. intros a b. induction a as [|v a IH]; intros r s Ha Hb.
  - cbn [fold_right app] in *. injection Ha as <-. rewrite Hb. f_equal. lra.
  - cbn [fold_right app] in *. destruct (fold_right xadd (Fin 0) a) as [q| | |]; destruct v; try discriminate Ha.
    rewrite (IH q s eq_refl Hb). cbn [xadd] in *. injection Ha as <-. f_equal. lra.
Qed.

Lemma xsum_flat : forall n m f, xsum (flat n m (fun i j => Fin (f i j))) = Fin (rsum n (fun i => rsum m (fun j => f i j))).
Proof.
  intros n m f. induction n as [|n IH]; [reflexivity|]. rewrite flat_snoc. cbn [rsum].
  apply xsum_app; [exact IH|]. apply xsum_fin.
Qed.

Lemma ravel_rmat : forall fm n m A, ravel (mkArr fm (rmat n m A)) = flat n m (fun i j => Fin (A i j)).
Proof. reflexivity. Qed.

Lemma plain_rmat : forall n m A, plain (mkArr Dense (rmat n m A)) = true.
Proof.
  intros n m A. unfold plain. cbn [afmt]. apply forallb_forall. intros v Hv. rewrite ravel_rmat in Hv.
  apply flat_in in Hv. destruct Hv as (i & j & _ & _ & <-). reflexivity.
Qed.

Lemma mean_flat : forall n m A, n * m <> 0 ->
  mean (flat n m (fun i j => Fin (A i j))) = Fin (entry_mean n m A).
Proof.
  intros n m A H. unfold mean, entry_mean. rewrite flat_length, xsum_flat. cbn [xdiv].
  rewrite mult_INR. destruct (Req_EM_T (INR n * INR m) 0) as [E|]; [|reflexivity].
  exfalso. apply Rmult_integral in E. destruct E as [E|E]; apply (INR_eq _ 0) in E; lia.
Qed.

Lemma deviations_flat : forall n m A, n * m <> 0 ->
  deviations (flat n m (fun i j => Fin (A i j))) = flat n m (fun i j => Fin (deviation n m A i j)).
Proof.
  intros n m A H. unfold deviations. rewrite (mean_flat n m A H), map_flat. reflexivity.
Qed.

Lemma dotp_flat : forall n m A B,
  dotp (flat n m (fun i j => Fin (A i j))) (flat n m (fun i j => Fin (B i j))) = Fin (fprod n m A B).
Proof.
  intros n m A B. unfold dotp. rewrite combine_flat, map_flat. cbn [fst snd].
  exact (xsum_flat n m (fun i j => A i j * B i j)%R).
Qed.

Lemma constant_all : forall l, constant l = true -> forall a b, In a l -> In b l -> a = b.
Proof.
  intros [|v l] H a b Ha Hb; [destruct Ha|]. cbn [constant] in H. rewrite forallb_forall in H.
  assert (E : forall c, In c (v :: l) -> c = v).
  { intros c [<-|Hc]; [reflexivity|]. apply xeqb_eq, H, Hc. }
  rewrite (E a Ha), (E b Hb). reflexivity.
Qed.

Lemma constant_varies : forall n m A, varies n m A -> constant (flat n m (fun i j => Fin (A i j))) = false.
Proof.
  intros n m A (i & j & i' & j' & (Hi & Hi' & Hj & Hj') & H).
  destruct (constant _) eqn:E; [|reflexivity]. exfalso. apply H.
  pose proof (constant_all _ E (Fin (A i j)) (Fin (A i' j'))) as C.
  assert (X : Fin (A i j) = Fin (A i' j')).
  { apply C; apply flat_in; [exists i, j|exists i', j']; auto. }
  injection X as X. exact X.
Qed.

Lemma constant_not_varies : forall n m A, ~ varies n m A -> constant (flat n m (fun i j => Fin (A i j))) = true.
Proof.
  intros n m A H.
  assert (E : forall a b, In a (flat n m (fun i j => Fin (A i j))) -> In b (flat n m (fun i j => Fin (A i j))) -> xeqb b a = true).
  { intros a b Ha Hb. apply flat_in in Ha, Hb. destruct Ha as (i & j & Hi & Hj & <-), Hb as (i' & j' & Hi' & Hj' & <-).
    apply Reqb_true. destruct (Req_EM_T (A i' j') (A i j)) as [E|E]; [exact E|].
    exfalso. apply H. exists i', j', i, j. auto. }
  destruct (flat n m _) as [|v l]; [reflexivity|]. cbn [constant]. apply forallb_forall. intros b Hb.
  apply E; [left; reflexivity|right; exact Hb].
Qed.

Lemma deviation_norm_pos : forall n m A, varies n m A -> (0 < fnorm n m (deviation n m A))%R.
Proof.
  intros n m A (i & j & i' & j' & (Hi & Hi' & Hj & Hj') & H).
  destruct (Rle_lt_or_eq_dec _ _ (fnorm_pos n m (deviation n m A))) as [G|G]; [exact G|].
  exfalso. symmetry in G. pose proof (fnorm_zero n m _ G) as Z. apply H.
  pose proof (Z i j Hi Hj) as Z1. pose proof (Z i' j' Hi' Hj') as Z2. unfold deviation in Z1, Z2. lra.
Qed.

Lemma xsqrt_fprod : forall n m A, xsqrt (Fin (fprod n m A A)) = Fin (fnorm n m A).
Proof.
  intros n m A. unfold xsqrt. destruct (Rlt_dec _ 0) as [H|]; [|reflexivity].
  exfalso. pose proof (fprod_self_nonneg n m A). lra.
Qed.

Lemma clip_id : forall r, (-1 <= r <= 1)%R -> clip (Fin r) = Fin r.
Proof.
  intros r H. unfold clip. cbn [xltb].
  replace (Rltb 1 r) with false by (symmetry; apply Rltb_false; lra). cbn [xltb].
  replace (Rltb r (-1)) with false by (symmetry; apply Rltb_false; lra). reflexivity.
Qed.

Lemma xdiv_fin : forall a b, b <> 0%R -> xdiv (Fin a) (Fin b) = Fin (a / b).
Proof. intros a b H. cbn [xdiv]. destruct (Req_EM_T b 0); [contradiction|reflexivity]. Qed.

Lemma flat_ext : forall {A} n m (f g : nat -> nat -> A), (forall i j, i < n -> j < m -> f i j = g i j) -> flat n m f = flat n m g.
Proof.
  intros A n m f g H. unfold flat. f_equal. apply map_ext_in. intros i Hi. apply map_ext_in. intros j Hj.
  apply in_seq in Hi, Hj. apply H; lia.
Qed.

Lemma fprod_div : forall n m A B a b, a <> 0%R -> b <> 0%R ->
  fprod n m (fun i j => A i j / a)%R (fun i j => B i j / b)%R = (fprod n m A B / (a * b))%R.
Proof.
  intros n m A B a b Ha Hb. unfold fprod. unfold Rdiv at 3. rewrite <- rsum_scal_r. apply rsum_ext. intros i _.
  rewrite <- rsum_scal_r. apply rsum_ext. intros j _. field. split; assumption.
Qed.

Lemma pearson_range : forall n m A B, varies n m A -> varies n m B -> (-1 <= pearson n m A B <= 1)%R.
Proof.
  intros n m A B HA HB. unfold pearson.
  assert (H := fprod_cs_norm n m (deviation n m A) (deviation n m B)).
  pose proof (deviation_norm_pos n m A HA) as PA. pose proof (deviation_norm_pos n m B HB) as PB.
  set (p := fprod n m (deviation n m A) (deviation n m B)) in *.
  set (q := (fnorm n m (deviation n m A) * fnorm n m (deviation n m B))%R) in *.
  assert (Hq : (0 < q)%R) by (unfold q; apply Rmult_lt_0_compat; assumption).
  assert (H' : (-q <= p <= q)%R) by (unfold Rabs in H; destruct (Rcase_abs p); lra). split.
  - apply Rmult_le_reg_r with q; [assumption|]. unfold Rdiv. rewrite Rmult_assoc, Rinv_l by lra. lra.
  - apply Rmult_le_reg_r with q; [assumption|]. unfold Rdiv. rewrite Rmult_assoc, Rinv_l by lra. lra.
Qed.

Lemma varies_size : forall n m A, varies n m A -> 2 <= n * m.
Proof.
  intros n m A (i & j & i' & j' & (Hi & Hi' & Hj & Hj') & H).
  destruct n as [|n]; [lia|]. destruct m as [|m]; [lia|].
  destruct n as [|n]; [|nia]. destruct m as [|m]; [|nia]. exfalso. apply H.
  replace i' with i by lia. replace j' with j by lia. reflexivity.
Qed.

Lemma correlation_value : forall co n m A B, varies n m A -> varies n m B ->
  correlation_km co (mkArr Dense (rmat n m A)) (mkArr Dense (rmat n m B)) = Ok (Fin (pearson n m A B)).
Proof.
  intros co n m A B HA HB. unfold correlation_km. rewrite !plain_rmat. cbn [andb negb].
  rewrite !ravel_rmat, !flat_length, Nat.eqb_refl. cbn [negb].
  pose proof (varies_size n m A HA) as Hsz.
  replace (n * m <? 2) with false by (symmetry; apply Nat.ltb_ge; exact Hsz).
  rewrite !constant_varies by assumption. cbn [orb].
  rewrite !deviations_flat by lia. rewrite !dotp_flat, !xsqrt_fprod.
  pose proof (deviation_norm_pos n m A HA) as PA. pose proof (deviation_norm_pos n m B HB) as PB.
  rewrite !map_flat.
  rewrite (flat_ext n m (fun i j => xdiv (Fin (deviation n m A i j)) _)
             (fun i j => Fin (deviation n m A i j / fnorm n m (deviation n m A)))) by (intros; apply xdiv_fin; lra).
  rewrite (flat_ext n m (fun i j => xdiv (Fin (deviation n m B i j)) _)
             (fun i j => Fin (deviation n m B i j / fnorm n m (deviation n m B)))) by (intros; apply xdiv_fin; lra).
  rewrite (dotp_flat n m (fun i j => deviation n m A i j / fnorm n m (deviation n m A))%R
                         (fun i j => deviation n m B i j / fnorm n m (deviation n m B))%R).
  rewrite fprod_div by lra. fold (pearson n m A B). rewrite clip_id by (apply pearson_range; assumption). reflexivity.
Qed.

Lemma deviation_affine : forall n m a c A i j, n * m <> 0 ->
  deviation n m (fun i j => a * A i j + c)%R i j = (a * deviation n m A i j)%R.
Proof.
  intros n m a c A i j H. unfold deviation, entry_mean.
  replace (rsum n (fun i0 => rsum m (fun j0 => a * A i0 j0 + c)))%R
    with (a * rsum n (fun i0 => rsum m (fun j0 => A i0 j0)) + INR n * (INR m * c))%R.
  - field. split; apply not_0_INR; lia.
  - rewrite <- rsum_scal. rewrite <- (rsum_const n (INR m * c)%R), <- rsum_plus. apply rsum_ext. intros i0 _.
    rewrite rsum_plus, rsum_const, rsum_scal. reflexivity.
Qed.

Lemma fprod_ext : forall n m A A' B B', (forall i j, i < n -> j < m -> A i j = A' i j) ->
  (forall i j, i < n -> j < m -> B i j = B' i j) -> fprod n m A B = fprod n m A' B'.
Proof.
  intros n m A A' B B' HA HB. unfold fprod. apply rsum_ext. intros i Hi. apply rsum_ext. intros j Hj.
  rewrite HA, HB by assumption. reflexivity.
Qed.

Lemma fprod_sym : forall n m A B, fprod n m A B = fprod n m B A.
Proof. intros n m A B. unfold fprod. apply rsum_ext. intros i _. apply rsum_ext. intros j _. apply Rmult_comm. Qed.

Lemma fprod_scal_l : forall n m a A B, fprod n m (fun i j => a * A i j)%R B = (a * fprod n m A B)%R.
Proof.
  intros n m a A B. unfold fprod. rewrite <- rsum_scal. apply rsum_ext. intros i _. rewrite <- rsum_scal.
  apply rsum_ext. intros j _. ring.
Qed.

Lemma fnorm_scal : forall n m a A, (0 <= a)%R -> fnorm n m (fun i j => a * A i j)%R = (a * fnorm n m A)%R.
Proof.
  intros n m a A Ha. unfold fnorm. rewrite fprod_scal_l, fprod_sym, fprod_scal_l.
  rewrite <- Rmult_assoc, sqrt_mult; [rewrite sqrt_square by exact Ha; reflexivity|nra|apply fprod_self_nonneg].
Qed.

Lemma pearson_affine : forall n m a c A B, (0 < a)%R -> varies n m A -> varies n m B ->
  pearson n m (fun i j => a * A i j + c)%R B = pearson n m A B.
Proof.
  intros n m a c A B Ha HA HB. pose proof (varies_size n m A HA) as Hsz. unfold pearson.
  pose proof (deviation_norm_pos n m A HA) as PA. pose proof (deviation_norm_pos n m B HB) as PB.
  assert (E : forall C, fprod n m (deviation n m (fun i j => a * A i j + c)%R) C
              = (a * fprod n m (deviation n m A) C)%R).
  { intros C. rewrite <- fprod_scal_l. apply fprod_ext; [|reflexivity]. intros i j _ _. apply deviation_affine. lia. }
  assert (F : fnorm n m (deviation n m (fun i j => a * A i j + c)%R) = (a * fnorm n m (deviation n m A))%R).
  { rewrite <- fnorm_scal by lra. unfold fnorm. f_equal. apply fprod_ext; intros i j _ _; apply deviation_affine; lia. }
  rewrite E, F. field. split; [lra|]. split; lra.
Qed.
