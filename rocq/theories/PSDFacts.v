(** Positive semidefinite matrices: closure properties and the Schur product theorem. *)
From Coq Require Import Reals List Arith Lra Lia Psatz.
Import ListNotations.
From Verif Require Import XReal SpecLinAlg RSum.
Local Open Scope R_scope.

Lemma quad_ext : forall n A B c e,
  (forall i j, (i < n)%nat -> (j < n)%nat -> A i j = B i j) ->
  (forall i, (i < n)%nat -> c i = e i) ->
  quad n A c = quad n B e.
Proof.
  intros n A B c e H Hc. unfold quad. apply rsum_ext. intros i Hi. apply rsum_ext. intros j Hj.
  now rewrite H, !Hc.
Qed.

Lemma psd_ext : forall n A B,
  (forall i j, (i < n)%nat -> (j < n)%nat -> A i j = B i j) -> psd n A -> psd n B.
Proof.
  intros n A B H [Hs Hq]. split.
  - intros i j Hi Hj. rewrite <- !H by assumption. auto.
  - intros c. rewrite <- (quad_ext n A B c c); auto.
Qed.

Lemma psd_gram : forall n m (B : nat -> nat -> R),
  psd n (fun i j => rsum m (fun k => B k i * B k j)).
Proof.
  intros n m B. split.
  - intros i j _ _. apply rsum_ext. intros; ring.
  - intros c. unfold quad.
    replace (rsum n (fun i => rsum n (fun j => c i * rsum m (fun k => B k i * B k j) * c j)))
      with (rsum m (fun k => rsum n (fun i => c i * B k i) * rsum n (fun i => c i * B k i))).
    + apply rsum_sqr_nonneg.
    + transitivity (rsum m (fun k => rsum n (fun i => rsum n (fun j => c i * B k i * (c j * B k j))))).
      * apply rsum_ext. intros. apply rsum_mult.
      * rewrite rsum_swap. apply rsum_ext. intros i _. rewrite rsum_swap. apply rsum_ext. intros j _.
        rewrite <- rsum_scal, <- rsum_scal_r. apply rsum_ext. intros; ring.
Qed.

Lemma psd_zero : forall n, psd n (fun _ _ => 0).
Proof.
  intros n. apply (psd_ext n (fun i j => rsum 0 (fun k => (fun _ _ => 0) k i * (fun _ _ => 0) k j))); auto.
  apply psd_gram.
Qed.

Lemma psd_rank1 : forall n a, psd n (fun i j => a i * a j).
Proof.
  intros n a. apply (psd_ext n (fun i j => rsum 1 (fun k => (fun _ i => a i) k i * (fun _ i => a i) k j))).
  - intros; simpl; lra.
  - apply psd_gram.
Qed.

Lemma psd_ones : forall n, psd n (fun _ _ => 1).
Proof.
  intros n. apply (psd_ext n (fun i j => (fun _ => 1) i * (fun _ => 1) j)); [intros; lra|].
  apply psd_rank1.
Qed.

Lemma quad_plus : forall n A B c,
  quad n (fun i j => A i j + B i j) c = quad n A c + quad n B c.
Proof.
  intros. unfold quad. rewrite <- rsum_plus. apply rsum_ext. intros. rewrite <- rsum_plus.
  apply rsum_ext. intros; ring.
Qed.

Lemma quad_scal : forall n a A c, quad n (fun i j => a * A i j) c = a * quad n A c.
Proof.
  intros. unfold quad. rewrite <- rsum_scal. apply rsum_ext. intros. rewrite <- rsum_scal.
  apply rsum_ext. intros; ring.
Qed.

Lemma psd_plus : forall n A B, psd n A -> psd n B -> psd n (fun i j => A i j + B i j).
Proof.
  intros n A B [HA QA] [HB QB]. split.
  - intros i j Hi Hj. now rewrite HA, HB.
  - intros c. rewrite quad_plus. specialize (QA c). specialize (QB c). lra.
Qed.

Lemma psd_scal : forall n a A, 0 <= a -> psd n A -> psd n (fun i j => a * A i j).
Proof.
  intros n a A Ha [HA QA]. split.
  - intros i j Hi Hj. now rewrite HA.
  - intros c. rewrite quad_scal. specialize (QA c). nra.
Qed.

Lemma psd_rsum : forall n m (A : nat -> nat -> nat -> R),
  (forall k, (k < m)%nat -> psd n (A k)) -> psd n (fun i j => rsum m (fun k => A k i j)).
Proof.
  intros n m A. induction m as [|m IH]; intros H; simpl.
  - apply psd_zero.
  - apply psd_plus; [apply IH; auto|apply H; lia].
Qed.

(** D A D for a diagonal D. *)
Lemma psd_scale : forall n a A, psd n A -> psd n (fun i j => a i * A i j * a j).
Proof.
  intros n a A [HA QA]. split.
  - intros i j Hi Hj. rewrite HA by assumption. ring.
  - intros c. specialize (QA (fun i => c i * a i)).
    replace (quad n (fun i j => a i * A i j * a j) c) with (quad n A (fun i => c i * a i)); auto.
    unfold quad. apply rsum_ext; intros; apply rsum_ext; intros; ring.
Qed.

(** Congruence: B' A B. *)
Lemma psd_congr : forall n m A (B : nat -> nat -> R), psd n A ->
  psd m (fun i j => rsum n (fun k => rsum n (fun l => B k i * A k l * B l j))).
Proof.
  intros n m A B [HA QA]. split.
  - intros i j _ _. rewrite rsum_swap. apply rsum_ext. intros k Hk. apply rsum_ext. intros l Hl.
    rewrite (HA l k) by assumption. ring.
  - intros c. specialize (QA (fun k => rsum m (fun i => B k i * c i))).
    replace (quad m _ c) with (quad n A (fun k => rsum m (fun i => B k i * c i))); auto.
    unfold quad. symmetry.
    transitivity (rsum n (fun k => rsum n (fun l => rsum m (fun i => rsum m (fun j =>
       c i * (B k i * A k l * B l j) * c j))))).
    + transitivity (rsum m (fun i => rsum n (fun k => rsum n (fun l => rsum m (fun j =>
         c i * (B k i * A k l * B l j) * c j))))).
      * apply rsum_ext. intros i _.
        transitivity (rsum m (fun j => rsum n (fun k => rsum n (fun l =>
           c i * (B k i * A k l * B l j) * c j)))).
        -- apply rsum_ext. intros j _. rewrite <- rsum_scal, <- rsum_scal_r. apply rsum_ext.
           intros k _. rewrite <- rsum_scal, <- rsum_scal_r. reflexivity.
        -- rewrite rsum_swap. apply rsum_ext. intros k _. now rewrite rsum_swap.
      * rewrite rsum_swap. apply rsum_ext. intros k _. now rewrite rsum_swap.
    + apply rsum_ext. intros k _. apply rsum_ext. intros l _.
      rewrite <- rsum_scal_r, rsum_mult.
      apply rsum_ext. intros i _. apply rsum_ext. intros j _. ring.
Qed.

(** Restriction to a subsample (also with repetitions). *)
Lemma psd_sub : forall n m A (s : nat -> nat),
  (forall i, (i < m)%nat -> (s i < n)%nat) -> psd n A -> psd m (fun i j => A (s i) (s j)).
Proof.
  intros n m A s Hs HA.
  apply (psd_ext m (fun i j => rsum n (fun k => rsum n (fun l =>
     (if Nat.eqb k (s i) then 1 else 0) * A k l * (if Nat.eqb l (s j) then 1 else 0))))).
  - intros i j Hi Hj.
    transitivity (rsum n (fun k => if Nat.eqb k (s i) then A k (s j) else 0)).
    + apply rsum_ext. intros k _.
      transitivity (rsum n (fun l => if Nat.eqb l (s j)
          then (if Nat.eqb k (s i) then A k l else 0) else 0)).
      * apply rsum_ext. intros l _. destruct (Nat.eqb l (s j)), (Nat.eqb k (s i)); ring.
      * rewrite (rsum_delta n (s j) (fun l => if Nat.eqb k (s i) then A k l else 0)); auto.
    + rewrite (rsum_delta n (s i) (fun k => A k (s j))); auto.
  - apply (psd_congr n m A (fun k i => if Nat.eqb k (s i) then 1 else 0)). assumption.
Qed.

Lemma psd_diag : forall n A i, psd n A -> (i < n)%nat -> 0 <= A i i.
Proof.
  intros n A i [_ H] Hi. specialize (H (fun k => if Nat.eqb k i then 1 else 0)).
  replace (quad n A (fun k => if Nat.eqb k i then 1 else 0)) with (A i i) in H; auto.
  unfold quad. rewrite <- (rsum_delta n i (fun k => A k i)) by assumption.
  apply rsum_ext. intros k _. destruct (Nat.eqb k i).
  - rewrite <- (rsum_delta n i (fun l => A k l)) by assumption. apply rsum_ext. intros l _.
    destruct (Nat.eqb l i); ring.
  - symmetry. apply rsum_zero. intros; ring.
Qed.

(** 2x2 minors. *)
Lemma psd_minor : forall n A i j, psd n A -> (i < n)%nat -> (j < n)%nat ->
  A i j * A i j <= A i i * A j j.
Proof.
  intros n A i j HA Hi Hj.
  assert (Hd : 0 <= A i i) by (apply (psd_diag n); auto).
  assert (Hd' : 0 <= A j j) by (apply (psd_diag n); auto).
  assert (H := psd_sub n 2 A (fun k => match k with O => i | _ => j end)).
  destruct H as [Hs Hq]; [intros [|[|k]]; lia|assumption|].
  assert (Hij : A i j = A j i) by (destruct HA; auto).
  assert (Q : forall t u, 0 <= t * t * A i i + 2 * t * u * A i j + u * u * A j j).
  { intros t u. specialize (Hq (fun k => match k with O => t | _ => u end)).
    unfold quad in Hq. simpl in Hq. rewrite <- Hij in Hq. nra. }
  destruct (Req_dec (A i i) 0) as [H0|H0].
  - assert (A i j = 0).
    { destruct (Req_dec (A i j) 0) as [|Hn]; [assumption|exfalso].
      assert (H1 := Q (- (A j j + 1) / (2 * A i j)) 1). rewrite H0 in H1.
      replace (- (A j j + 1) / (2 * A i j) * (- (A j j + 1) / (2 * A i j)) * 0 +
        2 * (- (A j j + 1) / (2 * A i j)) * 1 * A i j + 1 * 1 * A j j) with (-1) in H1
        by (field; auto). lra. }
    rewrite H, H0. rewrite !Rmult_0_l. apply Rle_refl.
  - assert (H1 := Q (- A i j) (A i i)). apply Rmult_le_reg_l with (A i i); [lra|]. lra.
Qed.

(** Every PSD matrix is a Gram matrix (Cholesky). *)
Lemma psd_factor : forall n A, psd n A ->
  exists B : nat -> nat -> R,
    forall i j, (i < n)%nat -> (j < n)%nat -> A i j = rsum n (fun k => B k i * B k j).
Proof.
  induction n as [|n IH]; intros A HA.
  - exists (fun _ _ => 0). intros; lia.
  - assert (Ha : 0 <= A n n) by (apply (psd_diag (S n)); auto).
    destruct HA as [HsA HqA]. pose proof (conj HsA HqA : psd (S n) A) as HA.
    destruct (Req_dec (A n n) 0) as [H0|H0].
    + assert (Hz : forall i, (i < S n)%nat -> A i n = 0).
      { intros i Hi. assert (H := psd_minor (S n) A i n HA Hi (Nat.lt_succ_diag_r n)).
        rewrite H0, Rmult_0_r in H. nra. }
      destruct (IH A) as [B HB].
      { apply (psd_sub (S n) n A (fun i => i)); auto. }
      exists (fun k i => if Nat.eqb i n then 0 else if Nat.eqb k n then 0 else B k i).
      intros i j Hi Hj. simpl. rewrite Nat.eqb_refl.
      destruct (Nat.eqb_spec i n) as [->|Hin].
      { rewrite (HsA n j), Hz by lia. rewrite rsum_zero; [ring|]. intros; ring. }
      destruct (Nat.eqb_spec j n) as [->|Hjn].
      { rewrite Hz by lia. rewrite rsum_zero; [ring|]. intros; ring. }
      rewrite HB by lia. rewrite Rmult_0_r, Rplus_0_r. apply rsum_ext. intros k Hk.
      destruct (Nat.eqb_spec k n); [lia|reflexivity].
    + set (a := A n n) in *.
      assert (Hap : 0 < a) by lra.
      set (A' := fun i j => A i j - A i n * A j n / a).
      destruct (IH A') as [B HB].
      { split.
        - intros i j Hi Hj. unfold A'. rewrite (HsA i j) by lia. field. assumption.
        - intros c.
          set (t := rsum n (fun i => c i * A i n)).
          specialize (HqA (fun i => if Nat.eqb i n then - t / a else c i)).
          replace (quad n A' c) with (quad (S n) A (fun i => if Nat.eqb i n then - t / a else c i));
            [assumption|].
          unfold quad. simpl. rewrite Nat.eqb_refl.
          rewrite (rsum_ext n _ (fun i => rsum n (fun j => c i * A i j * c j)
                                   + c i * A i n * (- t / a))).
          2:{ intros i Hi. destruct (Nat.eqb_spec i n); [lia|]. f_equal.
              apply rsum_ext. intros j Hj. destruct (Nat.eqb_spec j n); [lia|reflexivity]. }
          rewrite rsum_plus, rsum_scal_r. fold t.
          rewrite (rsum_ext n (fun j => - t / a * A n j * (if Nat.eqb j n then - t / a else c j))
                     (fun j => - t / a * (c j * A j n))).
          2:{ intros j Hj. destruct (Nat.eqb_spec j n); [lia|]. rewrite (HsA n j) by lia. ring. }
          rewrite rsum_scal. fold t. fold a.
          rewrite (rsum_ext n (fun i => rsum n (fun j => c i * A' i j * c j))
             (fun i => rsum n (fun j => c i * A i j * c j) - (c i * A i n) * (t / a))).
          2:{ intros i Hi. unfold A'.
              rewrite (rsum_ext n _ (fun j => c i * A i j * c j - c i * A i n / a * (c j * A j n))).
              - rewrite rsum_minus, rsum_scal. fold t. field. assumption.
              - intros; field; assumption. }
          rewrite rsum_minus, rsum_scal_r. fold t. field. assumption. }
      assert (Hsq : sqrt a * sqrt a = a) by (apply sqrt_sqrt; lra).
      assert (Hsp : 0 < sqrt a) by (apply sqrt_lt_R0; assumption).
      exists (fun k i => if Nat.eqb k n then A i n / sqrt a
                         else if Nat.eqb i n then 0 else B k i).
      intros i j Hi Hj. simpl. rewrite Nat.eqb_refl.
      assert (Hd : A i n / sqrt a * (A j n / sqrt a) = A i n * A j n / a).
      { rewrite <- Hsq at 3. field. lra. }
      rewrite Hd.
      destruct (Nat.eqb_spec i n) as [->|Hin].
      { rewrite rsum_zero.
        - rewrite (HsA n j) by lia. fold a. field. assumption.
        - intros k Hk. destruct (Nat.eqb_spec k n); [lia|]. ring. }
      destruct (Nat.eqb_spec j n) as [->|Hjn].
      { rewrite rsum_zero.
        - fold a. field. assumption.
        - intros k Hk. destruct (Nat.eqb_spec k n); [lia|]. ring. }
      assert (H := HB i j). unfold A' in H.
      rewrite (rsum_ext n _ (fun k => B k i * B k j)).
      * rewrite <- H by lia. ring.
      * intros k Hk. destruct (Nat.eqb_spec k n); [lia|reflexivity].
Qed.

(** Schur product theorem. *)
Lemma psd_schur : forall n A C, psd n A -> psd n C -> psd n (fun i j => A i j * C i j).
Proof.
  intros n A C HA HC. destruct (psd_factor n A HA) as [B HB].
  apply (psd_ext n (fun i j => rsum n (fun k => B k i * C i j * B k j))).
  - intros i j Hi Hj. rewrite HB by assumption. rewrite <- rsum_scal_r.
    apply rsum_ext. intros; ring.
  - apply psd_rsum. intros k _. apply psd_scale. assumption.
Qed.

Lemma psd_pow : forall n A m, psd n A -> psd n (fun i j => A i j ^ m).
Proof.
  intros n A m HA. induction m as [|m IH]; simpl.
  - apply psd_ones.
  - apply psd_schur; assumption.
Qed.

(** Pointwise limits. *)
Lemma psd_limit : forall n (A : nat -> nat -> nat -> R) L,
  (forall m, psd n (A m)) ->
  (forall i j, (i < n)%nat -> (j < n)%nat -> Un_cv (fun m => A m i j) (L i j)) ->
  psd n L.
Proof.
  intros n A L HA HL. split.
  - intros i j Hi Hj. apply (UL_sequence (fun m => A m i j)); [auto|].
    intros e He. destruct (HL j i Hj Hi e He) as [N HN]. exists N. intros m Hm.
    destruct (HA m) as [Hs _]. rewrite Hs by assumption. auto.
  - intros c. apply (Un_cv_nonneg (fun m => quad n (A m) c)).
    + intros m. apply HA.
    + unfold quad. apply (rsum_cv n (fun i m => rsum n (fun j => c i * A m i j * c j))).
      intros i Hi. apply (rsum_cv n (fun j m => c i * A m i j * c j)).
      intros j Hj. apply (CV_mult (fun m => c i * A m i j) (fun _ => c j)).
      * apply (CV_mult (fun _ => c i) (fun m => A m i j)); auto using Un_cv_const.
      * apply Un_cv_const.
Qed.

(** Entrywise exponential. *)
Lemma exp_series_cv : forall x, Un_cv (fun m => sum_f_R0 (fun k => / INR (fact k) * x ^ k) m) (exp x).
Proof.
  intros x. unfold exp. destruct (exist_exp x) as [l Hl]. simpl. exact Hl.
Qed.

Lemma psd_exp : forall n A, psd n A -> psd n (fun i j => exp (A i j)).
Proof.
  intros n A HA.
  apply (psd_limit n (fun m i j => sum_f_R0 (fun k => / INR (fact k) * A i j ^ k) m)).
  - intros m. induction m as [|m IH]; simpl sum_f_R0.
    + apply (psd_scal n (/ INR (fact 0)) (fun i j => A i j ^ 0)).
      * left. apply Rinv_0_lt_compat. apply INR_fact_lt_0.
      * apply psd_pow; assumption.
    + apply psd_plus; [assumption|].
      apply (psd_scal n (/ INR (fact (S m))) (fun i j => A i j ^ (S m))).
      * left. apply Rinv_0_lt_compat. apply INR_fact_lt_0.
      * apply psd_pow; assumption.
  - intros i j _ _. apply exp_series_cv.
Qed.

(** Inner products. *)
Lemma psd_inner : forall n d (X : nat -> nat -> R), psd n (fun i j => inner d (X i) (X j)).
Proof.
  intros n d X. apply (psd_gram n d (fun k i => X i k)).
Qed.

(** ** Bordered matrices, the min kernel and Cauchy matrices *)
Lemma psd_border : forall n A a, 0 < a -> A n n = a ->
  (forall i, (i < n)%nat -> A i n = A n i) ->
  psd n (fun i j => A i j - A i n * A j n / a) -> psd (S n) A.
Proof.
  intros n A a Ha Hnn Hsn [Hs Hq]. split.
  - intros i j Hi Hj.
    destruct (Nat.eq_dec i n) as [->|Hin], (Nat.eq_dec j n) as [->|Hjn]; auto.
    + symmetry. apply Hsn. lia.
    + apply Hsn. lia.
    + assert (H := Hs i j ltac:(lia) ltac:(lia)). cbv beta in H.
      replace (A j n * A i n) with (A i n * A j n) in H by ring. lra.
  - intros c. specialize (Hq c).
    set (t := rsum n (fun i => c i * A i n)).
    replace (quad (S n) A c) with
      (quad n (fun i j => A i j - A i n * A j n / a) c + a * ((c n + t / a) * (c n + t / a))).
    + assert (0 <= (c n + t / a) * (c n + t / a)) by apply Rle_0_sqr. nra.
    + unfold quad. simpl. rewrite rsum_plus.
      rewrite (rsum_ext n (fun i => rsum n (fun j => c i * (A i j - A i n * A j n / a) * c j))
         (fun i => rsum n (fun j => c i * A i j * c j) - (c i * A i n) * (t / a))).
      2:{ intros i Hi.
          rewrite (rsum_ext n _ (fun j => c i * A i j * c j - c i * A i n / a * (c j * A j n))).
          - rewrite rsum_minus, rsum_scal. fold t. field. lra.
          - intros; field; lra. }
      rewrite rsum_minus, rsum_scal_r. fold t.
      rewrite rsum_scal_r. fold t.
      rewrite (rsum_ext n (fun j => c n * A n j * c j) (fun j => c n * (c j * A j n))).
      2:{ intros j Hj. rewrite <- Hsn by assumption. ring. }
      rewrite rsum_scal. fold t. rewrite Hnn. field. lra.
Qed.

Lemma psd_cauchy : forall n (x : nat -> R), (forall i, (i < n)%nat -> 0 < x i) ->
  psd n (fun i j => / (x i + x j)).
Proof.
  induction n as [|n IH]; intros x Hx.
  - split; [intros i j Hi; lia|]. intros c. unfold quad. simpl. lra.
  - assert (Hn := Hx n (Nat.lt_succ_diag_r n)).
    apply (psd_border n _ (/ (x n + x n))).
    + apply Rinv_0_lt_compat. lra.
    + reflexivity.
    + intros i Hi. now rewrite Rplus_comm.
    + apply (psd_ext n (fun i j => (x i - x n) / (x i + x n) * / (x i + x j) * ((x j - x n) / (x j + x n)))).
      * intros i j Hi Hj. assert (H1 := Hx i ltac:(lia)). assert (H2 := Hx j ltac:(lia)).
        field. repeat split; lra.
      * apply (psd_scale n (fun i => (x i - x n) / (x i + x n))). apply IH. intros; apply Hx; lia.
Qed.

(** The harmonic kernel x y / (x + y) on non-negative numbers, 0 at (0, 0). *)
Definition harm (a b : R) : R := if Req_EM_T (a + b) 0 then 0 else a * b / (a + b).

Lemma psd_harm : forall n (x : nat -> R), (forall i, (i < n)%nat -> 0 <= x i) ->
  psd n (fun i j => harm (x i) (x j)).
Proof.
  intros n x Hx.
  set (x' := fun i => if Req_EM_T (x i) 0 then 1 else x i).
  assert (Hx' : forall i, (i < n)%nat -> 0 < x' i).
  { intros i Hi. unfold x'. specialize (Hx i Hi). destruct (Req_EM_T (x i) 0); lra. }
  apply (psd_ext n (fun i j => x i * / (x' i + x' j) * x j)).
  - intros i j Hi Hj. unfold harm, x'. assert (H1 := Hx i Hi). assert (H2 := Hx j Hj).
    destruct (Req_EM_T (x i) 0) as [E|E], (Req_EM_T (x j) 0) as [E'|E'], (Req_EM_T (x i + x j) 0) as [E2|E2];
      try (exfalso; lra); try rewrite E; try rewrite E'; unfold Rdiv; ring.
  - apply psd_scale. now apply psd_cauchy.
Qed.

Lemma psd_min_border : forall n A r, 0 <= r -> A n n = r ->
  (forall i, (i < n)%nat -> A i n = r /\ A n i = r) ->
  psd n (fun i j => A i j - r) -> psd (S n) A.
Proof.
  intros n A r Hr Hnn Hn [Hs Hq]. split.
  - intros i j Hi Hj.
    destruct (Nat.eq_dec i n) as [->|Hin], (Nat.eq_dec j n) as [->|Hjn]; auto.
    + destruct (Hn j ltac:(lia)); lra.
    + destruct (Hn i ltac:(lia)); lra.
    + assert (H := Hs i j ltac:(lia) ltac:(lia)). cbv beta in H. lra.
  - intros c. specialize (Hq c). set (t := rsum n c).
    replace (quad (S n) A c) with (quad n (fun i j => A i j - r) c + r * ((c n + t) * (c n + t))).
    + assert (0 <= (c n + t) * (c n + t)) by apply Rle_0_sqr. nra.
    + unfold quad. simpl. rewrite rsum_plus.
      rewrite (rsum_ext n (fun i => rsum n (fun j => c i * (A i j - r) * c j))
         (fun i => rsum n (fun j => c i * A i j * c j) - c i * (r * t))).
      2:{ intros i Hi. rewrite (rsum_ext n _ (fun j => c i * A i j * c j - c i * r * c j)).
          - rewrite rsum_minus, rsum_scal. fold t. change (rsum n (fun i0 => c i0)) with t. ring.
          - intros; ring. }
      rewrite rsum_minus.
      rewrite (rsum_ext n (fun i => c i * A i n * c n) (fun i => c i * (r * c n))).
      2:{ intros i Hi. destruct (Hn i Hi) as [-> _]. ring. }
      rewrite (rsum_ext n (fun j => c n * A n j * c j) (fun j => c j * (r * c n))).
      2:{ intros i Hi. destruct (Hn i Hi) as [_ ->]. ring. }
      rewrite !rsum_scal_r. fold t. rewrite Hnn. ring.
Qed.

Lemma exists_argmin : forall n (u : nat -> R),
  exists m, (m < S n)%nat /\ forall i, (i < S n)%nat -> u m <= u i.
Proof.
  induction n as [|n IH]; intros u.
  - exists 0%nat. split; [lia|]. intros i Hi. replace i with 0%nat by lia. lra.
  - destruct (IH u) as (m & Hm & H). destruct (Rle_dec (u m) (u (S n))) as [Hle|Hle].
    + exists m. split; [lia|]. intros i Hi. destruct (Nat.eq_dec i (S n)) as [->|]; [assumption|apply H; lia].
    + exists (S n). split; [lia|]. intros i Hi. destruct (Nat.eq_dec i (S n)) as [->|]; [lra|].
      assert (u m <= u i) by (apply H; lia). lra.
Qed.

Lemma psd_min : forall n (u : nat -> R), (forall i, (i < n)%nat -> 0 <= u i) ->
  psd n (fun i j => Rmin (u i) (u j)).
Proof.
  induction n as [|n IH]; intros u Hu.
  - split; [intros i j Hi; lia|]. intros c. unfold quad. simpl. lra.
  - destruct (exists_argmin n u) as (m & Hm & Hmin).
    set (tau := fun i => if Nat.eqb i m then n else if Nat.eqb i n then m else i).
    assert (Ht : forall i, (i < S n)%nat -> (tau i < S n)%nat).
    { intros i Hi. unfold tau. destruct (Nat.eqb i m), (Nat.eqb i n); lia. }
    assert (Htt : forall i, tau (tau i) = i).
    { intros i. unfold tau. destruct (Nat.eqb_spec i m) as [->|E].
      - rewrite Nat.eqb_refl. destruct (Nat.eqb_spec n m); lia.
      - destruct (Nat.eqb_spec i n) as [->|E']; [now rewrite Nat.eqb_refl|].
        destruct (Nat.eqb_spec i m); [lia|]. destruct (Nat.eqb_spec i n); lia. }
    set (v := fun i => u (tau i)).
    assert (Hv : forall i, (i < S n)%nat -> v n <= v i).
    { intros i Hi. unfold v. replace (tau n) with m; [apply Hmin; auto|].
      unfold tau. rewrite Nat.eqb_refl. destruct (Nat.eqb_spec n m); auto. }
    assert (Pv : psd (S n) (fun i j => Rmin (v i) (v j))).
    { apply (psd_min_border n _ (v n)).
      - apply Hu. apply Ht. lia.
      - unfold Rmin. destruct (Rle_dec _ _); reflexivity.
      - intros i Hi. assert (H := Hv i ltac:(lia)). unfold Rmin.
        destruct (Rle_dec (v i) (v n)), (Rle_dec (v n) (v i)); split; lra.
      - apply (psd_ext n (fun i j => Rmin (v i - v n) (v j - v n))).
        + intros i j Hi Hj. unfold Rmin.
          destruct (Rle_dec (v i - v n) (v j - v n)), (Rle_dec (v i) (v j)); lra.
        + apply (IH (fun i => v i - v n)). intros i Hi. assert (H := Hv i ltac:(lia)). lra. }
    assert (P := psd_sub (S n) (S n) _ tau Ht Pv). cbv beta in P.
    apply (psd_ext (S n) _ _) with (2 := P). intros i j Hi Hj. unfold v. now rewrite !Htt.
Qed.

(** The exponential of the distance on the line (Laplacian kernel). *)
Lemma psd_laplace1 : forall n g (t : nat -> R), 0 <= g ->
  psd n (fun i j => exp (- g * Rabs (t i - t j))).
Proof.
  intros n g t Hg.
  apply (psd_ext n (fun i j => exp (- g * t i) * Rmin (exp (2 * g * t i)) (exp (2 * g * t j)) * exp (- g * t j))).
  - intros i j _ _. unfold Rmin, Rabs.
    destruct (Rle_dec (exp (2 * g * t i)) (exp (2 * g * t j))) as [H|H]; rewrite <- !exp_plus.
    + f_equal. assert (H' : 2 * g * t i <= 2 * g * t j).
      { destruct (Rle_dec (2 * g * t i) (2 * g * t j)) as [|N]; [assumption|].
        apply Rnot_le_lt in N. apply exp_increasing in N. lra. }
      destruct (Rcase_abs (t i - t j)); nra.
    + f_equal. apply Rnot_le_lt in H. apply exp_lt_inv in H.
      destruct (Rcase_abs (t i - t j)); nra.
  - apply (psd_scale n (fun i => exp (- g * t i))). apply psd_min. intros i _. left. apply exp_pos.
Qed.

Lemma psd_prod : forall n m (A : nat -> nat -> nat -> R),
  (forall k, (k < m)%nat -> psd n (A k)) ->
  psd n (fun i j => fold_right Rmult 1 (map (fun k => A k i j) (seq 0 m))).
Proof.
  intros n m A. assert (G : forall l, (forall k, In k l -> psd n (A k)) ->
     psd n (fun i j => fold_right Rmult 1 (map (fun k => A k i j) l))).
  { induction l as [|a l IH]; intros H; simpl; [apply psd_ones|].
    apply psd_schur; [apply H; simpl; auto|apply IH; intros; apply H; simpl; auto]. }
  intros H. apply G. intros k Hk. apply in_seq in Hk. apply H. lia.
Qed.

Lemma exp_rsum : forall m f, exp (rsum m f) = fold_right Rmult 1 (map (fun k => exp (f k)) (seq 0 m)).
Proof.
  assert (A : forall l a, fold_right Rmult a l = fold_right Rmult 1 l * a).
  { induction l as [|b l IH]; intros a; simpl; [ring|]. rewrite IH. ring. }
  induction m as [|m IH]; intros f; [apply exp_0|].
  rewrite seq_S, map_app, fold_right_app. simpl. rewrite A, exp_plus, IH, Rmult_1_r. reflexivity.
Qed.
