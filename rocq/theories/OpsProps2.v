(** Properties C25, C26: linear combinations and the PSD test. *)
From Coq Require Import String Reals List Bool Arith Lra Lia Psatz.
Import ListNotations.
From Verif Require Import Prelude MatModel MatFacts XReal OpsModel SpecLinAlg RSum PSDFacts OpsFacts OpsProps.

Local Open Scope R_scope.

Lemma rsum_S_left : forall p g, rsum (S p) g = g 0%nat + rsum p (fun k => g (S k)).
Proof.
  induction p as [|p IH]; intros g; [simpl; lra|].
  change (rsum (S (S p)) g) with (rsum (S p) g + g (S p)). rewrite IH. simpl. lra.
Qed.

Lemma weighted_sum_finite : forall n m p w K a acc,
  weighted_sum n m (rmat n m acc) (map (fun k => Fin (w k)) (seq a p))
     (map (fun k => Ok (rmat n m (K k))) (seq a p))
  = Ok (rmat n m (fun i j => acc i j + rsum p (fun k => w (a + k)%nat * K (a + k)%nat i j))).
Proof.
  intros n m. induction p as [|p IH]; intros w K a acc.
  - simpl. f_equal. apply rmat_ext. intros; lra.
  - simpl seq. simpl map. cbn [weighted_sum rbind]. simpl mr. simpl mc. rewrite !Nat.eqb_refl.
    cbn [andb].
    replace (tabulate n m (fun i j => xadd (xget (rmat n m acc) i j) (xmul (Fin (w a)) (xget (rmat n m (K a)) i j))))
      with (rmat n m (fun i j => acc i j + w a * K a i j)).
    + rewrite IH. f_equal. apply rmat_ext. intros i j Hi Hj.
      rewrite rsum_S_left. rewrite Nat.add_0_r.
      rewrite (rsum_ext p (fun k => w (S a + k)%nat * K (S a + k)%nat i j)
                          (fun k => w (a + S k)%nat * K (a + S k)%nat i j)).
      * lra.
      * intros k _. now rewrite Nat.add_succ_r.
    + apply tabulate_ext. intros i j Hi Hj. rewrite !xget_rmat by assumption. reflexivity.
Qed.

(** C25: without weight normalisation the result is the entrywise weighted sum of the members'
    full matrices. *)
Lemma pf_C25_weighted_sum : forall n m p w K,
  linear_combination n m (map (fun k => Ok (rmat n m (K k))) (seq 0 p))
      (map (fun k => Fin (w k)) (seq 0 p)) false
  = Ok (rmat n m (fun i j => rsum p (fun k => w k * K k i j))).
Proof.
  intros n m p w K. unfold linear_combination. rewrite !length_map_seq, Nat.eqb_refl.
  cbn [negb normed_weights rbind].
  change (tabulate n m (fun _ _ => Fin 0)) with (rmat n m (fun _ _ => 0)).
  rewrite weighted_sum_finite. f_equal. apply rmat_ext. intros. simpl. lra.
Qed.

(** C25: with norm_weights=True the weights are divided by their sum, so that they sum to 1. *)
Lemma pf_C25_normalised : forall n m p w K, 1/100000000 < Rabs (rsum p w) ->
  linear_combination n m (map (fun k => Ok (rmat n m (K k))) (seq 0 p))
      (map (fun k => Fin (w k)) (seq 0 p)) true
  = Ok (rmat n m (fun i j => rsum p (fun k => w k / rsum p w * K k i j)))
  /\ rsum p (fun k => w k / rsum p w) = 1.
Proof.
  intros n m p w K Hw.
  assert (Hn : rsum p w <> 0) by (intros E; rewrite E, Rabs_R0 in Hw; lra).
  split.
  - unfold linear_combination. rewrite !length_map_seq, Nat.eqb_refl.
    cbn [negb]. unfold normed_weights. rewrite xsum_fin, isclose_zero. unfold Rleb.
    destruct (Rle_dec (Rabs (rsum p w)) (1/100000000)); [lra|]. cbn [rbind].
    rewrite map_map.
    rewrite (map_ext (fun x => xdiv (Fin (w x)) (Fin (rsum p w))) (fun k => Fin (w k / rsum p w))).
    + change (tabulate n m (fun _ _ => Fin 0)) with (rmat n m (fun _ _ => 0)).
      rewrite (weighted_sum_finite n m p (fun k => w k / rsum p w)).
      f_equal. apply rmat_ext. intros. simpl. lra.
    + intros k. simpl. destruct (Req_EM_T (rsum p w) 0); [contradiction|reflexivity].
  - rewrite rsum_div. field. assumption.
Qed.

(** C25: normalising weights whose sum is within 1e-8 of zero raises RuntimeError; so does nothing
    else in the function itself. *)
Lemma pf_C25_zero_sum : forall n m fulls w,
  length fulls = length w -> xisclose (xsum w) (Fin 0) = true ->
  linear_combination n m fulls w true = Raise RuntimeError.
Proof.
  intros n m fulls w Hl Hz. unfold linear_combination. rewrite Hl, Nat.eqb_refl. cbn [negb].
  unfold normed_weights. rewrite Hz. reflexivity.
Qed.

(** C25: a wrong number of weights raises ValueError before any member is evaluated. *)
Lemma pf_C25_wrong_count : forall n m fulls w nw,
  length fulls <> length w -> linear_combination n m fulls w nw = Raise ValueError.
Proof.
  intros n m fulls w nw H. unfold linear_combination. apply Nat.eqb_neq in H. rewrite H. reflexivity.
Qed.

(** C25: if some member's full matrix cannot be computed, the first such member's exception is
    raised. *)
Lemma pf_C25_member_failure : forall n m p K e rest w,
  length w = (p + S (length rest))%nat ->
  linear_combination n m (map (fun k => Ok (rmat n m (K k))) (seq 0 p) ++ Raise e :: rest) w false
  = Raise e.
Proof.
  intros n m p K e rest w Hw. unfold linear_combination.
  rewrite app_length, length_map_seq, Hw. simpl length. rewrite Nat.eqb_refl.
  cbn [negb normed_weights rbind].
  generalize (tabulate n m (fun _ _ => Fin 0)). generalize 0%nat. revert w Hw.
  induction p as [|p IH]; intros w Hw a acc.
  - simpl. destruct w; [discriminate|reflexivity].
  - destruct w as [|x w]; [discriminate|]. simpl seq. simpl map. simpl app.
    cbn [weighted_sum rbind]. simpl mr. simpl mc. rewrite !Nat.eqb_refl. cbn [andb].
    apply IH. simpl in Hw. lia.
Qed.

(** C25: non-negative combinations of positive semidefinite matrices are positive semidefinite. *)
Lemma pf_C25_psd : forall n p w K,
  (forall k, (k < p)%nat -> 0 <= w k) -> (forall k, (k < p)%nat -> psd n (K k)) ->
  exists B, linear_combination n n (map (fun k => Ok (rmat n n (K k))) (seq 0 p))
      (map (fun k => Fin (w k)) (seq 0 p)) false = Ok (rmat n n B) /\ psd n B.
Proof.
  intros n p w K Hw HK. eexists. split; [apply pf_C25_weighted_sum|].
  apply (psd_rsum n p (fun k i j => w k * K k i j)). intros k Hk.
  apply psd_scal; auto.
Qed.

(*BEGIN PROP*)
(** C25 on two concrete 2x2 matrices, weights 1 and 3, normalised to 1/4 and 3/4. *)
Example C25_example :
  linear_combination 2 2 [Ok (rmat 2 2 exP); Ok (rmat 2 2 (fun _ _ => 1))] [Fin 1; Fin 3] true
  = Ok (rmat 2 2 (fun i j => match (i + j)%nat with 0%nat => 5/4 | _ => 1 end)).
Proof.
  destruct (pf_C25_normalised 2 2 2 (fun k => match k with 0%nat => 1 | _ => 3 end)
    (fun k => match k with 0%nat => exP | _ => fun _ _ => 1 end)) as [E _].
  - simpl. rewrite Rabs_pos_eq; lra.
  - simpl map in E. rewrite E. f_equal. apply rmat_ext.
    intros [|[|i]] [|[|j]] Hi Hj; try lia; simpl; field.
Qed.
(*END PROP*)

(** ** The PSD test *)
Lemma lowsym_quad : forall n A l Q x,
  (forall i j, (i < n)%nat -> (j < n)%nat -> lowsym A i j = rsum n (fun k => Q i k * l k * Q j k)) ->
  quad n (lowsym A) x
  = rsum n (fun k => l k * (rsum n (fun i => x i * Q i k) * rsum n (fun i => x i * Q i k))).
Proof.
  intros n A l Q x H. unfold quad.
  transitivity (rsum n (fun i => rsum n (fun j => rsum n (fun k => x i * (Q i k * l k * Q j k) * x j)))).
  - apply rsum_ext. intros i Hi. apply rsum_ext. intros j Hj. rewrite H by assumption.
    now rewrite <- rsum_scal, <- rsum_scal_r.
  - transitivity (rsum n (fun i => rsum n (fun k => rsum n (fun j => x i * (Q i k * l k * Q j k) * x j)))).
    { apply rsum_ext. intros i _. apply rsum_swap. }
    rewrite rsum_swap. apply rsum_ext. intros k _. rewrite rsum_mult, <- rsum_scal.
    apply rsum_ext. intros i _. rewrite <- rsum_scal. apply rsum_ext. intros; ring.
Qed.

Lemma orth_norm : forall n (Q : nat -> nat -> R) x,
  (forall i j, (i < n)%nat -> (j < n)%nat ->
     rsum n (fun k => Q i k * Q j k) = if Nat.eqb i j then 1 else 0) ->
  rsum n (fun i => x i * x i)
  = rsum n (fun k => rsum n (fun i => x i * Q i k) * rsum n (fun i => x i * Q i k)).
Proof.
  intros n Q x H. symmetry.
  transitivity (rsum n (fun k => rsum n (fun i => rsum n (fun j => x i * x j * (Q i k * Q j k))))).
  - apply rsum_ext. intros k _. rewrite rsum_mult. apply rsum_ext. intros. apply rsum_ext. intros; ring.
  - rewrite rsum_swap. apply rsum_ext. intros i Hi. rewrite rsum_swap.
    transitivity (rsum n (fun j => if Nat.eqb j i then x i * x j else 0)).
    + apply rsum_ext. intros j Hj. rewrite rsum_scal, H by assumption. rewrite (Nat.eqb_sym i j).
      destruct (Nat.eqb j i); ring.
    + rewrite (rsum_delta n i (fun j => x i * x j)) by assumption. reflexivity.
Qed.

(** C26: if the eigensolver answers correctly on A, then is_PSD(A, tol) is True exactly when A is
    symmetric within the isclose tolerance and x'Ax >= -tol x'x for all x, where A is read through
    its lower triangle; and it answers False otherwise. *)
Lemma pf_C26_decides : forall eig f n A l tol, f <> Lil ->
  eig (rmat n n A) = Ok (map (fun k => Fin (l k)) (seq 0 n)) -> eigenvalues_of n A l ->
  exists b, is_PSD eig (mkArr f (rmat n n A)) tol = Ok b /\
  (b = true <->
    (forall i j, (i < n)%nat -> (j < n)%nat ->
        Rabs (A i j - A j i) <= 1/100000000 + 1/100000 * Rabs (A j i))
    /\ (forall x, - tol * rsum n (fun i => x i * x i) <= quad n (lowsym A) x)).
Proof.
  intros eig f n A l tol Hf He (Q & Qr & Qc & QA). unfold is_PSD. cbn [amat].
  replace (is_ndarray (mkArr f (rmat n n A))) with true by (destruct f; [reflexivity|contradiction|reflexivity]).
  simpl mr. simpl mc. rewrite Nat.eqb_refl. cbn [negb].
  change (tabulate n n (fun i j => Fin (A i j))) with (rmat n n A).
  set (sym := forallb _ _).
  assert (Hs : sym = true <-> forall i j, (i < n)%nat -> (j < n)%nat ->
        Rabs (A i j - A j i) <= 1/100000000 + 1/100000 * Rabs (A j i)).
  { unfold sym. rewrite forallb_forall. split.
    - intros H i j Hi Hj. assert (H1 := H i). rewrite in_seq in H1.
      specialize (H1 ltac:(lia)). rewrite forallb_forall in H1. specialize (H1 j).
      rewrite in_seq in H1. specialize (H1 ltac:(lia)). rewrite !xget_rmat in H1 by assumption.
      simpl in H1. unfold Rleb in H1. destruct (Rle_dec _ _) in H1; [assumption|discriminate].
    - intros H i Hi. apply in_seq in Hi. rewrite forallb_forall. intros j Hj. apply in_seq in Hj.
      rewrite !xget_rmat by lia. simpl. unfold Rleb. destruct (Rle_dec _ _) as [|N]; [reflexivity|].
      exfalso. apply N. apply H; lia. }
  destruct sym; cbn [negb].
  - rewrite He. eexists. split; [reflexivity|].
    rewrite negb_true_iff.
    assert (Hl : existsb (fun e => xltb e (xopp (Fin tol))) (map (fun k => Fin (l k)) (seq 0 n)) = false
                 <-> forall k, (k < n)%nat -> - tol <= l k).
    { split.
      - intros H k Hk. destruct (Rle_dec (- tol) (l k)) as [|N]; [assumption|exfalso].
        assert (T : existsb (fun e => xltb e (xopp (Fin tol))) (map (fun k => Fin (l k)) (seq 0 n)) = true).
        { apply existsb_exists. exists (Fin (l k)). split.
          - apply in_map_iff. exists k. split; [reflexivity|apply in_seq; lia].
          - simpl. unfold Rltb. destruct (Rlt_dec _ _); [reflexivity|lra]. }
        congruence.
      - intros H. destruct (existsb _ _) eqn:E; [|reflexivity]. apply existsb_exists in E.
        destruct E as (x & Hx & Hc). apply in_map_iff in Hx. destruct Hx as (k & <- & Hk).
        apply in_seq in Hk. simpl in Hc. unfold Rltb in Hc. destruct (Rlt_dec _ _) in Hc; [|discriminate].
        assert (- tol <= l k) by (apply H; lia). lra. }
    rewrite Hl. split.
    + intros H. split; [now apply Hs|]. intros x.
      rewrite (lowsym_quad n A l Q x QA), (orth_norm n Q x Qr), <- rsum_scal.
      apply rsum_le. intros k Hk. apply Rmult_le_compat_r; [apply Rle_0_sqr|auto].
    + intros [_ H] k Hk. specialize (H (fun i => Q i k)).
      rewrite (lowsym_quad n A l Q _ QA), Qc, Nat.eqb_refl in H by assumption.
      rewrite (rsum_ext n _ (fun m => if Nat.eqb m k then l m else 0)) in H.
      * rewrite (rsum_delta n k l) in H by assumption. lra.
      * intros m Hm. rewrite Qc by assumption. rewrite (Nat.eqb_sym k m).
        destruct (Nat.eqb m k); ring.
  - exists false. split; [reflexivity|]. split; [discriminate|]. intros [H _].
    apply Hs in H. discriminate.
Qed.

(** C26: a failing eigensolver gives False. *)
Lemma pf_C26_solver_failure : forall eig a tol e, afmt a <> Lil ->
  eig (amat a) = Raise e -> is_PSD eig a tol = Ok false.
Proof.
  intros eig [f A] tol e Hf He. cbn [afmt amat] in *. unfold is_PSD. cbn [amat].
  replace (is_ndarray (mkArr f A)) with true by (destruct f; [reflexivity|contradiction|reflexivity]).
  cbn [negb]. destruct (mr A =? mc A)%nat; [|reflexivity]. cbn [negb].
  match goal with |- context [negb ?b] => destruct b end; [|reflexivity]. cbn [negb]. now rewrite He.
Qed.

(** C26: non-square matrices are not PSD; is_PSD raises (TypeError) only on non-ndarrays. *)
Lemma pf_C26_total : forall eig a tol,
  (afmt a <> Lil -> exists b, is_PSD eig a tol = Ok b)
  /\ (afmt a = Lil -> is_PSD eig a tol = Raise TypeError)
  /\ (afmt a <> Lil -> mr (amat a) <> mc (amat a) -> is_PSD eig a tol = Ok false).
Proof.
  intros eig [f A] tol. cbn [afmt amat]. unfold is_PSD. cbn [amat]. split; [|split].
  - intros Hf. replace (is_ndarray (mkArr f A)) with true by (destruct f; [reflexivity|contradiction|reflexivity]).
    cbn [negb]. destruct (mr A =? mc A)%nat; [|eexists; reflexivity]. cbn [negb].
    match goal with |- context [negb ?b] => destruct b end; [|eexists; reflexivity]. cbn [negb].
    destruct (eig A); eexists; reflexivity.
  - intros ->. reflexivity.
  - intros Hf Hn. replace (is_ndarray (mkArr f A)) with true by (destruct f; [reflexivity|contradiction|reflexivity]).
    cbn [negb]. apply Nat.eqb_neq in Hn. rewrite Hn. reflexivity.
Qed.

(** C26: on exactly symmetric matrices with tolerance 0, is_PSD decides positive
    semidefiniteness. *)
Lemma pf_C26_exact : forall eig f n A l, f <> Lil -> symmetric n A ->
  eig (rmat n n A) = Ok (map (fun k => Fin (l k)) (seq 0 n)) -> eigenvalues_of n A l ->
  (is_PSD eig (mkArr f (rmat n n A)) 0 = Ok true <-> psd n A).
Proof.
  intros eig f n A l Hf HA He Hl.
  destruct (pf_C26_decides eig f n A l 0 Hf He Hl) as (b & -> & Hb).
  assert (E : forall i j, (i < n)%nat -> (j < n)%nat -> lowsym A i j = A i j).
  { intros i j Hi Hj. unfold lowsym. destruct (Nat.le_ge_cases i j).
    - rewrite Nat.max_r, Nat.min_l by assumption. apply HA; assumption.
    - rewrite Nat.max_l, Nat.min_r by assumption. reflexivity. }
  split.
  - intros H. injection H as ->. destruct Hb as [Hb _]. destruct (Hb eq_refl) as [_ H].
    split; [assumption|]. intros c. specialize (H c).
    rewrite (quad_ext n (lowsym A) A c c) in H by auto. lra.
  - intros [_ H]. f_equal. apply Hb. split.
    + intros i j Hi Hj. rewrite (HA i j) by assumption. rewrite Rminus_diag_eq by reflexivity.
      rewrite Rabs_R0. assert (H' := Rabs_pos (A j i)). lra.
    + intros x. specialize (H x). rewrite (quad_ext n (lowsym A) A x x) by auto. lra.
Qed.

(*BEGIN PROP*)
(** C26: the hypothesis on eigenvalues is met by [[0,1],[1,0]] with eigenvalues 1 and -1. *)
Example C26_example :
  eigenvalues_of 2 (fun i j => if Nat.eqb i j then 0 else 1)
                   (fun k => match k with 0%nat => 1 | _ => -1 end).
Proof.
  exists (fun i k => match i, k with 1%nat, 1%nat => - / sqrt 2 | _, _ => / sqrt 2 end).
  assert (H : / sqrt 2 * / sqrt 2 = 1/2).
  { rewrite <- Rinv_mult, sqrt_sqrt by lra. lra. }
  split; [|split]; intros [|[|i]] [|[|j]] Hi Hj; try lia; unfold lowsym; simpl; nra.
Qed.
(** ... and [[0,1],[1,0]] is accordingly found not PSD. *)
Example C26_example_not_psd : forall eig,
  eig (rmat 2 2 (fun i j => if Nat.eqb i j then 0 else 1)) = Ok [Fin 1; Fin (-1)] ->
  is_PSD eig (mkArr Dense (rmat 2 2 (fun i j => if Nat.eqb i j then 0 else 1))) (1/1000000) = Ok false.
Proof.
  intros eig He.
  destruct (pf_C26_decides eig Dense 2 (fun i j => if Nat.eqb i j then 0 else 1)
     (fun k => match k with 0%nat => 1 | _ => -1 end) (1/1000000)) as (b & -> & Hb).
  - discriminate.
  - exact He.
  - exact C26_example.
  - f_equal. destruct b; [|reflexivity]. exfalso. destruct Hb as [Hb _].
    destruct (Hb eq_refl) as [_ H]. specialize (H (fun i => match i with 0%nat => 1 | _ => -1 end)).
    unfold quad, lowsym in H. simpl in H. lra.
Qed.
(*END PROP*)
