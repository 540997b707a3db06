(** Finite sums of reals. *)
From Coq Require Import Reals List Arith Lra Lia Psatz.
Import ListNotations.
From Verif Require Import MatModel XReal SpecLinAlg.
Local Open Scope R_scope.

Lemma rsum_ext : forall n f g,
  (forall i, (i < n)%nat -> f i = g i) -> rsum n f = rsum n g.
Proof.
  induction n as [|n IH]; intros f g H; simpl; [reflexivity|].
  rewrite (IH f g), (H n); auto.
Qed.

Lemma rsum_0 : forall n, rsum n (fun _ => 0) = 0.
Proof. induction n; simpl; lra. Qed.

Lemma rsum_zero : forall n f, (forall i, (i < n)%nat -> f i = 0) -> rsum n f = 0.
Proof. intros n f H. rewrite (rsum_ext n f (fun _ => 0)); auto using rsum_0. Qed.

Lemma rsum_plus : forall n f g, rsum n (fun i => f i + g i) = rsum n f + rsum n g.
Proof. induction n as [|n IH]; intros; simpl; [lra|rewrite IH; lra]. Qed.

Lemma rsum_minus : forall n f g, rsum n (fun i => f i - g i) = rsum n f - rsum n g.
Proof. induction n as [|n IH]; intros; simpl; [lra|rewrite IH; lra]. Qed.

Lemma rsum_scal : forall n a f, rsum n (fun i => a * f i) = a * rsum n f.
Proof. induction n as [|n IH]; intros; simpl; [lra|rewrite IH; lra]. Qed.

Lemma rsum_scal_r : forall n a f, rsum n (fun i => f i * a) = rsum n f * a.
Proof. induction n as [|n IH]; intros; simpl; [lra|rewrite IH; lra]. Qed.

Lemma rsum_div : forall n a f, rsum n (fun i => f i / a) = rsum n f / a.
Proof. intros. unfold Rdiv. apply rsum_scal_r. Qed.

Lemma rsum_opp : forall n f, rsum n (fun i => - f i) = - rsum n f.
Proof. induction n as [|n IH]; intros; simpl; [lra|rewrite IH; lra]. Qed.

Lemma rsum_const : forall n a, rsum n (fun _ => a) = INR n * a.
Proof. induction n as [|n IH]; intros; [simpl; lra|]. rewrite S_INR. simpl. rewrite IH. lra. Qed.

Lemma rsum_swap : forall n m f,
  rsum n (fun i => rsum m (fun j => f i j)) = rsum m (fun j => rsum n (fun i => f i j)).
Proof.
  induction n as [|n IH]; intros m f; simpl.
  - now rewrite rsum_0.
  - rewrite IH, <- rsum_plus. reflexivity.
Qed.

Lemma rsum_delta : forall n k f, (k < n)%nat ->
  rsum n (fun i => (if Nat.eqb i k then f i else 0)) = f k.
Proof.
  induction n as [|n IH]; intros k f Hk; [lia|]. simpl.
  destruct (Nat.eqb_spec n k) as [->|Hn].
  - rewrite (rsum_zero k); [lra|]. intros i Hi. destruct (Nat.eqb_spec i k); [lia|reflexivity].
  - rewrite IH by lia. lra.
Qed.

Lemma rsum_nonneg : forall n f, (forall i, (i < n)%nat -> 0 <= f i) -> 0 <= rsum n f.
Proof.
  induction n as [|n IH]; intros f H; simpl; [lra|].
  apply Rplus_le_le_0_compat; auto.
Qed.

Lemma rsum_le : forall n f g, (forall i, (i < n)%nat -> f i <= g i) -> rsum n f <= rsum n g.
Proof.
  induction n as [|n IH]; intros f g H; simpl; [lra|].
  apply Rplus_le_compat; auto.
Qed.

Lemma rsum_term_le : forall n f k, (k < n)%nat ->
  (forall i, (i < n)%nat -> 0 <= f i) -> f k <= rsum n f.
Proof.
  induction n as [|n IH]; intros f k Hk H; [lia|]. simpl.
  destruct (Nat.eq_dec k n) as [->|Hn].
  - assert (0 <= rsum n f) by (apply rsum_nonneg; auto). lra.
  - assert (f k <= rsum n f) by (apply IH; [lia|auto]). assert (0 <= f n) by auto. lra.
Qed.

Lemma rsum_nonneg_zero : forall n f, (forall i, (i < n)%nat -> 0 <= f i) ->
  rsum n f = 0 -> forall i, (i < n)%nat -> f i = 0.
Proof.
  intros n f H H0 i Hi. assert (f i <= rsum n f) by (apply rsum_term_le; auto).
  assert (0 <= f i) by auto. lra.
Qed.

Lemma rsum_mult : forall n m f g,
  rsum n f * rsum m g = rsum n (fun i => rsum m (fun j => f i * g j)).
Proof.
  intros. rewrite <- rsum_scal_r. apply rsum_ext. intros. now rewrite rsum_scal.
Qed.

Lemma rsum_sqr_nonneg : forall n f, 0 <= rsum n (fun i => f i * f i).
Proof. intros. apply rsum_nonneg. intros. exact (Rle_0_sqr _). Qed.

(** Cauchy-Schwarz. *)
Lemma rsum_cs : forall n f g,
  rsum n (fun i => f i * g i) * rsum n (fun i => f i * g i)
  <= rsum n (fun i => f i * f i) * rsum n (fun i => g i * g i).
Proof.
  intros n f g.
  set (a := rsum n (fun i => f i * f i)). set (b := rsum n (fun i => g i * g i)).
  set (c := rsum n (fun i => f i * g i)).
  assert (Hq : forall t u, 0 <= t * t * a + 2 * t * u * c + u * u * b).
  { intros t u.
    replace (t * t * a + 2 * t * u * c + u * u * b)
      with (rsum n (fun i => (t * f i + u * g i) * (t * f i + u * g i))).
    - apply rsum_nonneg. intros. exact (Rle_0_sqr _).
    - unfold a, b, c. rewrite <- !rsum_scal, <- !rsum_plus. apply rsum_ext. intros; ring. }
  assert (Ha : 0 <= a) by apply rsum_sqr_nonneg.
  destruct (Req_dec a 0) as [H0|H0].
  - assert (c = 0).
    { destruct (Req_dec c 0); [assumption|exfalso].
      assert (H1 := Hq (- (b + 1) / (2 * c)) 1). rewrite H0 in H1.
      replace (- (b + 1) / (2 * c) * (- (b + 1) / (2 * c)) * 0 +
        2 * (- (b + 1) / (2 * c)) * 1 * c + 1 * 1 * b) with (-1) in H1 by (field; auto). lra. }
    rewrite H, H0. rewrite !Rmult_0_l. apply Rle_refl.
  - assert (H1 := Hq (- c) a). apply Rmult_le_reg_l with a; [lra|]. lra.
Qed.

(** Sums over two indices as sums over one. *)
Lemma fprod_cs : forall n m A B,
  fprod n m A B * fprod n m A B <= fprod n m A A * fprod n m B B.
Proof.
  intros n m A B.
  set (a := fprod n m A A). set (b := fprod n m B B). set (c := fprod n m A B).
  assert (Hq : forall t u, 0 <= t * t * a + 2 * t * u * c + u * u * b).
  { intros t u.
    replace (t * t * a + 2 * t * u * c + u * u * b)
      with (fprod n m (fun i j => t * A i j + u * B i j) (fun i j => t * A i j + u * B i j)).
    - apply rsum_nonneg. intros. apply rsum_nonneg. intros. exact (Rle_0_sqr _).
    - unfold a, b, c, fprod. rewrite <- !rsum_scal, <- !rsum_plus. apply rsum_ext. intros.
      rewrite <- !rsum_scal, <- !rsum_plus. apply rsum_ext. intros; ring. }
  assert (Ha : 0 <= a) by (apply rsum_nonneg; intros; apply rsum_sqr_nonneg).
  destruct (Req_dec a 0) as [H0|H0].
  - assert (c = 0).
    { destruct (Req_dec c 0); [assumption|exfalso].
      assert (H1 := Hq (- (b + 1) / (2 * c)) 1). rewrite H0 in H1.
      replace (- (b + 1) / (2 * c) * (- (b + 1) / (2 * c)) * 0 +
        2 * (- (b + 1) / (2 * c)) * 1 * c + 1 * 1 * b) with (-1) in H1 by (field; auto). lra. }
    rewrite H, H0. rewrite !Rmult_0_l. apply Rle_refl.
  - assert (H1 := Hq (- c) a). apply Rmult_le_reg_l with a; [lra|]. lra.
Qed.

(** Limits of finite sums. *)
Lemma rsum_cv : forall n (u : nat -> nat -> R) l,
  (forall i, (i < n)%nat -> Un_cv (u i) (l i)) ->
  Un_cv (fun m => rsum n (fun i => u i m)) (rsum n l).
Proof.
  induction n as [|n IH]; intros u l H; simpl.
  - intros e He. exists O. intros. unfold R_dist. rewrite Rminus_diag_eq by reflexivity.
    rewrite Rabs_R0. assumption.
  - apply (CV_plus (fun m => rsum n (fun i => u i m)) (u n)); auto.
Qed.

Lemma Un_cv_const : forall a, Un_cv (fun _ => a) a.
Proof.
  intros a e He. exists O. intros. unfold R_dist. rewrite Rminus_diag_eq by reflexivity.
  rewrite Rabs_R0. assumption.
Qed.

Lemma Un_cv_nonneg : forall u l, (forall n, 0 <= u n) -> Un_cv u l -> 0 <= l.
Proof.
  intros u l H Hc. destruct (Rle_dec 0 l) as [|Hl]; [assumption|exfalso].
  destruct (Hc (- l)) as [N HN]; [lra|].
  specialize (HN N (le_n N)). unfold R_dist in HN. specialize (H N).
  rewrite Rabs_pos_eq in HN by lra. lra.
Qed.

(** The model's sums of finite numbers. *)
Lemma xsum_fin : forall n f, xsum (map (fun k => Fin (f k)) (seq 0 n)) = Fin (rsum n f).
Proof.
  assert (G : forall l, xsum (map (fun x => Fin x) l) = Fin (fold_right Rplus 0 l)).
  { induction l as [|a l IH]; [reflexivity|]. unfold xsum in *. simpl. rewrite IH. reflexivity. }
  assert (A : forall l a, fold_right Rplus a l = fold_right Rplus 0 l + a).
  { induction l as [|b l IH]; intros a; simpl; [lra|]. rewrite IH. lra. }
  induction n as [|n IH]; intros f.
  - reflexivity.
  - rewrite seq_S, map_app. simpl.
    rewrite <- (map_map f (fun x => Fin x)) in *.
    unfold xsum. rewrite fold_right_app. simpl.
    assert (H := IH f). rewrite <- (map_map f (fun x => Fin x)), G in H. injection H as H.
    rewrite Rplus_0_r.
    assert (K : forall l a, fold_right xadd (Fin a) (map (fun x => Fin x) l)
              = Fin (fold_right Rplus a l)).
    { induction l as [|b l IHl]; intros a; simpl; [reflexivity|]. rewrite IHl. reflexivity. }
    rewrite K, A, H. reflexivity.
Qed.

Lemma xsum_fin_ext : forall n g f,
  (forall k, (k < n)%nat -> g k = Fin (f k)) ->
  xsum (map g (seq 0 n)) = Fin (rsum n f).
Proof.
  intros n g f H. rewrite <- xsum_fin. f_equal. apply map_ext_in. intros k Hk.
  apply in_seq in Hk. apply H. lia.
Qed.
