(** C91: KernelMatrix with normalized=True in double precision. *)
From Coq Require Import String ZArith Bool List Permutation Lia Lra Reals Floats.SpecFloat Arith.
Import ListNotations.
From Verif Require Import Prelude MatModel UtilsModel KMModel SpecKM KernelsModel FloatModel FloatOpsModel SpecFloats SpecFloatVal
  SpecLinAlg SpecFloatErr SpecFloatOps FloatKMModel SpecFloatKM.
From Verif Require Import MatFacts MFacts KMFacts RSum.
From Verif Require Import FloatProps FloatNormProps FloatRound FloatErrProps FloatAny FloatSum FloatDiv FloatDotProps FloatOpsFacts
  FloatRankProps FloatKMFacts.
Local Open Scope R_scope.

(** C91. In double precision, after every history, [full], [full_sparse] and [normed_km] of a KernelMatrix
    with normalized=True on one sample return a dense matrix of finite doubles, and entry (i, j) is
    A_ij / (sqrt(A_ii) sqrt(A_jj)) with a relative error of at most 2^-50 (and 2^-1020 in addition), [A]
    being the kernel values; numbers below the normal range included, whatever the order in which the platform
    accumulates matrix products, and whether the kernel matrix had been stored dense or sparse. *)
Lemma pf_C91_one_sample :
  forall {U} e (K : kernel f64 f64) k (pre post : list (op f64 U)) x n d o, decent e ->
    never_raises K k x None n n d -> kfmt K = true -> admissible x None n n d -> no_attach post ->
    (o = OpFull \/ o = OpFullSparse \/ o = OpNormedKM) ->
    let A := entry k d x None in
    (forall i, (i < n)%nat -> fair (A i i)) ->
    (forall i j, (i < n)%nat -> (j < n)%nat ->
       f_finite (A i j) = true /\ valid_binary 53 1024 (A i j) = true /\ Rabs (exact_norm A i j) <= bpow 400) ->
    gives (outcome (fN e) o (after (fN e) K true pre x None post)) n n
      (fun i j v => f_finite v = true /\ valid_binary 53 1024 v = true /\
         Rabs (fval v - exact_norm A i j) <= bpow (-50) * Rabs (exact_norm A i j) + bpow (-1020)).
Proof.
  intros U e K k pre post x n d o He Hnr Hf Ha Hno Ho A HD HA.
  destruct (normalised_formats (fN e) K k pre post x None n n d o (fN_method e) Hnr Hf Ha Hno Ho) as (f & Hff & HO).
  cbv zeta in HO. rewrite HO. cbn [fN op_normalize]. unfold fnormalize_km, kernel_matrix. cbn [amat]. fold A.
  cbn [tabulate mr mc]. rewrite Nat.eqb_refl. cbn [negb].
  change (String.eqb (lower default_method) "cosine") with true.
  change (mkMat n n _) with (tabulate n n A). rewrite fdiagonal_tab, (any_zero_fair n (fun i => A i i) HD).
  destruct (norm_matrix e n n f (fun i => A i i) (fun i => A i i) A He HD HD HA) as (B & HB & HE).
  rewrite HB. cbn [res_map]. exists B. split.
  - destruct Hff as [->| ->]; reflexivity.
  - intros i j Hi Hj. destruct (HE i j Hi Hj) as (C & _ & E). destruct (canon_valid _ C) as [F V]. split; [exact F|]. split; [exact V|exact E].
Qed.

(** C91. The same with two samples and the self-similarities of the rows of both. *)
Lemma pf_C91_two_samples :
  forall {U} e (K : kernel f64 f64) k (pre post : list (op f64 U)) x y n m d o, decent e ->
    never_raises K k x (Some y) n m d -> kfmt K = true -> admissible x (Some y) n m d -> no_attach post ->
    (o = OpFull \/ o = OpFullSparse \/ o = OpNormedKM) ->
    let A i j := k (row_of d x i) (row_of d y j) in
    let self z i := k (row_of d z i) (row_of d z i) in
    let t i j := fval (A i j) / (sqrt (fval (self x i)) * sqrt (fval (self y j))) in
    (forall i, (i < n)%nat -> fair (self x i)) -> (forall j, (j < m)%nat -> fair (self y j)) ->
    (forall i j, (i < n)%nat -> (j < m)%nat ->
       f_finite (A i j) = true /\ valid_binary 53 1024 (A i j) = true /\ Rabs (t i j) <= bpow 400) ->
    gives (outcome (fN e) o (after (fN e) K true pre x (Some y) post)) n m
      (fun i j v => f_finite v = true /\ valid_binary 53 1024 v = true /\ Rabs (fval v - t i j) <= bpow (-50) * Rabs (t i j) + bpow (-1020)).
Proof.
  intros U e K k pre post x y n m d o He Hnr Hf Ha Hno Ho A self t HX HY HA.
  destruct (normalised_formats (fN e) K k pre post x (Some y) n m d o (fN_method e) Hnr Hf Ha Hno Ho) as (f & Hff & HO).
  cbv zeta in HO. rewrite HO. cbn [fN op_normalize2]. unfold fnormalize_km_2sample, kernel_matrix. cbn [amat].
  cbn [tabulate mr mc]. rewrite !map_length, !seq_length, !Nat.eqb_refl. cbn [negb orb].
  change (String.eqb (lower "cosine") "cosine") with true.
  change (mkMat n m _) with (tabulate n m (entry k d x (Some y))).
  change (map (fun i => k (row_of d x i) (row_of d x i)) (seq 0 n)) with (map (self x) (seq 0 n)).
  change (map (fun j => k (row_of d y j) (row_of d y j)) (seq 0 m)) with (map (self y) (seq 0 m)).
  rewrite (any_zero_fair n (self x) HX), (any_zero_fair m (self y) HY). cbn [orb].
  destruct (norm_matrix e n m f (self x) (self y) A He HX HY HA) as (B & HB & HE).
  change (entry k d x (Some y)) with A. rewrite HB. cbn [res_map]. exists B. split.
  - destruct Hff as [->| ->]; reflexivity.
  - intros i j Hi Hj. destruct (HE i j Hi Hj) as (C & _ & E). destruct (canon_valid _ C) as [F V]. split; [exact F|]. split; [exact V|exact E].
Qed.

(** C91. A self-similarity that np.isclose finds close to zero gives KMNormError; so those of magnitude at
    most 1e-8 do, and those of magnitude above 1.01e-8 do not. *)
Lemma pf_C91_error :
  forall {U} e (K : kernel f64 f64) k (pre post : list (op f64 U)) x y n m d o,
    never_raises K k x y n m d -> kfmt K = true -> admissible x y n m d -> no_attach post ->
    (o = OpFull \/ o = OpFullSparse \/ o = OpNormedKM) ->
    (exists i, (i < n)%nat /\ fisclose (k (row_of d x i) (row_of d x i)) fzero = true) ->
    outcome (fN e) o (after (fN e) K true pre x y post) = Raise KMNormError.
Proof.
  intros U e K k pre post x y n m d o Hnr Hf Ha Hno Ho (i & Hi & Hc).
  destruct (normalised_formats (fN e) K k pre post x y n m d o (fN_method e) Hnr Hf Ha Hno Ho) as (f & Hff & HO).
  cbv zeta in HO. rewrite HO. destruct y as [y|].
  - cbn [fN op_normalize2]. unfold fnormalize_km_2sample, kernel_matrix. cbn [amat].
    cbn [tabulate mr mc]. rewrite !map_length, !seq_length, !Nat.eqb_refl. cbn [negb orb].
    change (String.eqb (lower "cosine") "cosine") with true.
    rewrite (any_zero_close n (fun i => k (row_of d x i) (row_of d x i)) i Hi Hc). reflexivity.
  - assert (Hm : m = n) by apply Ha. subst m.
    cbn [fN op_normalize]. unfold fnormalize_km, kernel_matrix. cbn [amat].
    cbn [tabulate mr mc]. rewrite Nat.eqb_refl. cbn [negb].
    change (String.eqb (lower default_method) "cosine") with true.
    change (mkMat n n _) with (tabulate n n (entry k d x None)). rewrite fdiagonal_tab.
    rewrite (any_zero_close n (fun i => entry k d x None i i) i Hi); [reflexivity|]. rewrite entry_diag. exact Hc.
Qed.

(** C91. The same for a self-similarity of the second sample. *)
Lemma pf_C91_error_second :
  forall {U} e (K : kernel f64 f64) k (pre post : list (op f64 U)) x y n m d o,
    never_raises K k x (Some y) n m d -> kfmt K = true -> admissible x (Some y) n m d -> no_attach post ->
    (o = OpFull \/ o = OpFullSparse \/ o = OpNormedKM) ->
    (exists j, (j < m)%nat /\ fisclose (k (row_of d y j) (row_of d y j)) fzero = true) ->
    outcome (fN e) o (after (fN e) K true pre x (Some y) post) = Raise KMNormError.
Proof.
  intros U e K k pre post x y n m d o Hnr Hf Ha Hno Ho (i & Hi & Hc).
  destruct (normalised_formats (fN e) K k pre post x (Some y) n m d o (fN_method e) Hnr Hf Ha Hno Ho) as (f & Hff & HO).
  cbv zeta in HO. rewrite HO.
  cbn [fN op_normalize2]. unfold fnormalize_km_2sample, kernel_matrix. cbn [amat].
  cbn [tabulate mr mc]. rewrite !map_length, !seq_length, !Nat.eqb_refl. cbn [negb orb].
  change (String.eqb (lower "cosine") "cosine") with true.
  rewrite (any_zero_close m (fun i => k (row_of d y i) (row_of d y i)) i Hi Hc). rewrite orb_true_r. reflexivity.
Qed.

(** C91: which numbers np.isclose finds close to zero. *)
Lemma pf_C91_close : forall v, f_finite v = true -> valid_binary 53 1024 v = true ->
  (Rabs (fval v) <= / 10 ^ 8 -> fisclose v fzero = true) /\
  (101 / 100 * / 10 ^ 8 < Rabs (fval v) -> fisclose v fzero = false).
Proof.
  intros v F V. assert (C := valid_canon v F V). destruct (isclose_zero v C) as [H1 H2]. destruct atol_val as [A1 A2]. split; intros H.
  - apply H2. lra.
  - destruct (fisclose v fzero) eqn:E; [|reflexivity]. specialize (H1 eq_refl). lra.
Qed.

(** ** Kernels with unit self-similarities *)
Lemma fone_fair : fair fone.
Proof.
  assert (Hc : fisclose fone fzero = false) by (vm_compute; reflexivity).
  split; [reflexivity|]. split; [vm_compute; reflexivity|]. split; [|exact Hc].
  rewrite fval_fone, <- bpow_0. split; apply bpow_le; lia.
Qed.

Lemma inv_sqrt_fone : fdiv fone (fsqrt fone) = fone.
Proof. vm_compute. reflexivity. Qed.

Lemma unit_value : forall e k x y v, decent e -> exp_doubles e ->
  distance_kernel (fun g => f_finite g = true /\ f_iszero g = false /\ f_nonneg g = true) k ->
  f_domain k x -> f_domain k y -> fkernel_value e k x y = Ok v ->
  f_finite v = true /\ valid_binary 53 1024 v = true /\ 0 <= fval v <= 1.
Proof.
  intros e k x y v He Hx Hk Hdx Hdy Hv.
  destruct (pf_C76_range e k x y He Hk Hdx Hdy) as (w & Hw & Hn & Hl). rewrite Hv in Hw. injection Hw as <-.
  assert (HV : valid_binary 53 1024 v = true).
  { destruct k; try contradiction Hk; cbn [fkernel_value] in Hv.
    - injection Hv as <-. apply Hx.
    - injection Hv as <-. apply Hx.
    - destruct (_ || _); [discriminate|]. injection Hv as <-. apply Hx. }
  assert (HF : f_finite v = true).
  { destruct v as [s|s| |s m e']; try reflexivity; [|discriminate]. cbn in Hn. destruct s; [discriminate|]. vm_compute in Hl. discriminate. }
  split; [exact HF|]. split; [exact HV|]. split; [apply fval_nonneg, Hn|].
  rewrite <- fval_fone. apply leb_any; [apply valid_canon; assumption|apply canon_normal, normal_fone|exact Hl].
Qed.

(** C91. GaussianKernel, LaplacianKernel and Chi2Kernel (gamma positive and finite, any finite samples,
    non-negative in the case of Chi2Kernel): with normalized=True exactly the kernel values are returned,
    whatever overflows or underflows on the way (zeros may differ in sign). *)
Lemma pf_C91_unit :
  forall {U} e k (pre post : list (op f64 U)) n d X o, decent e -> exp_doubles e ->
    distance_kernel (fun g => f_finite g = true /\ f_iszero g = false /\ f_nonneg g = true) k ->
    (forall i, (i < n)%nat -> f_domain k (features d (X i))) -> no_attach post ->
    (o = OpFull \/ o = OpFullSparse \/ o = OpNormedKM) ->
    gives (outcome (fN e) o (after (fN e) (fbuiltin e k) true pre (fsample n d X) None post)) n n
      (fun i j v => f_same v (fvalue e k (features d (X i)) (features d (X j)))).
Proof.
  intros U e k pre post n d X o He Hx Hk HD Hno Ho.
  assert (Hval : forall i j, (i < n)%nat -> (j < n)%nat -> exists v, fkernel_value e k (features d (X i)) (features d (X j)) = Ok v).
  { intros i j Hi Hj. destruct (pf_C76_range e k _ _ He Hk (HD i Hi) (HD j Hj)) as (v & H & _). eauto. }
  destruct (normalised_formats (fN e) (fbuiltin e k) (fvalue e k) pre post (fsample n d X) None n n d o (fN_method e)
              (fsample_total e k n d X Hval) eq_refl (fsample_adm n d X) Hno Ho) as (f & Hff & HO).
  set (A := fun i j => fvalue e k (features d (X i)) (features d (X j))).
  assert (HA : kernel_matrix (fvalue e k) n n d (fsample n d X) None = tabulate n n A).
  { apply tabulate_ext. intros i j Hi Hj. unfold entry. rewrite !fsample_row by assumption.
    destruct (i <=? j)%nat; [reflexivity|]. unfold A. rewrite !fvalue_features.
    rewrite (pf_C76_symmetric e k (features d (X j)) (features d (X i)) (d_pow_even e He)). reflexivity. }
  assert (H1 : forall i, (i < n)%nat -> A i i = fone).
  { intros i Hi. unfold A. rewrite fvalue_features. rewrite (pf_C76_unit_diagonal e k _ He); [reflexivity| |apply HD, Hi].
    destruct k; try contradiction Hk; cbn in *; tauto. }
  assert (HU : forall i j, (i < n)%nat -> (j < n)%nat -> f_finite (A i j) = true /\ valid_binary 53 1024 (A i j) = true /\ 0 <= fval (A i j) <= 1).
  { intros i j Hi Hj. destruct (Hval i j Hi Hj) as (v & Hv). unfold A. rewrite fvalue_features, Hv.
    apply (unit_value e k _ _ v He Hx Hk (HD i Hi) (HD j Hj) Hv). }
  cbv zeta in HO. rewrite HA in HO. rewrite HO. cbn [fN op_normalize]. unfold fnormalize_km. cbn [amat].
  cbn [tabulate mr mc]. rewrite Nat.eqb_refl. cbn [negb].
  change (String.eqb (lower default_method) "cosine") with true.
  change (mkMat n n _) with (tabulate n n A). rewrite fdiagonal_tab.
  assert (HM : map (fun i => A i i) (seq 0 n) = map (fun _ => fone) (seq 0 n)).
  { apply map_ext_in. intros i Hi. apply in_seq in Hi. apply H1. lia. }
  rewrite HM, (any_zero_fair n (fun _ => fone)) by (intros; apply fone_fair).
  destruct (norm_matrix e n n f (fun _ => fone) (fun _ => fone) A He (fun _ _ => fone_fair) (fun _ _ => fone_fair)) as (B & HB & HE).
  { intros i j Hi Hj. destruct (HU i j Hi Hj) as (F & V & R). split; [exact F|]. split; [exact V|].
    rewrite fval_fone, sqrt_1, Rmult_1_r. unfold Rdiv. rewrite Rinv_1, Rmult_1_r, Rabs_pos_eq by lra.
    assert (1 <= bpow 400) by (rewrite <- bpow_0; apply bpow_le; lia). lra. }
  rewrite HB. cbn [res_map]. exists B. split.
  - destruct Hff as [->| ->]; reflexivity.
  - intros i j Hi Hj. destruct (HE i j Hi Hj) as (_ & S & _). rewrite inv_sqrt_fone in S.
    destruct (HU i j Hi Hj) as (_ & V & _). rewrite fmul_one_l, fmul_one_r in S by exact V. exact S.
Qed.

(** C91. The same with two samples. *)
Lemma pf_C91_unit_two :
  forall {U} e k (pre post : list (op f64 U)) n m d X Y o, decent e -> exp_doubles e ->
    distance_kernel (fun g => f_finite g = true /\ f_iszero g = false /\ f_nonneg g = true) k ->
    (forall i, (i < n)%nat -> f_domain k (features d (X i))) ->
    (forall j, (j < m)%nat -> f_domain k (features d (Y j))) -> no_attach post ->
    (o = OpFull \/ o = OpFullSparse \/ o = OpNormedKM) ->
    gives (outcome (fN e) o (after (fN e) (fbuiltin e k) true pre (fsample n d X) (Some (fsample m d Y)) post)) n m
      (fun i j v => f_same v (fvalue e k (features d (X i)) (features d (Y j)))).
Proof.
  intros U e k pre post n m d X Y o He Hx Hk HD HE Hno Ho.
  assert (Hdom : forall x, (exists i, (i < n)%nat /\ x = X i) \/ (exists j, (j < m)%nat /\ x = Y j) -> f_domain k (features d x)).
  { intros x [(i & Hi & ->)|(j & Hj & ->)]; [apply HD, Hi|apply HE, Hj]. }
  assert (Hval : forall x y, (exists i, (i < n)%nat /\ x = X i) \/ (exists j, (j < m)%nat /\ x = Y j) ->
               (exists i, (i < n)%nat /\ y = X i) \/ (exists j, (j < m)%nat /\ y = Y j) ->
               exists v, fkernel_value e k (features d x) (features d y) = Ok v).
  { intros x y Hi Hj. destruct (pf_C76_range e k _ _ He Hk (Hdom x Hi) (Hdom y Hj)) as (v & H & _). eauto. }
  destruct (normalised_formats (fN e) (fbuiltin e k) (fvalue e k) pre post (fsample n d X) (Some (fsample m d Y)) n m d o (fN_method e)
              (fsample_total2 e k n m d X Y Hval) eq_refl (fsample_adm2 n m d X Y) Hno Ho) as (f & Hff & HO).
  set (A := fun i j => fvalue e k (features d (X i)) (features d (Y j))).
  assert (HA : kernel_matrix (fvalue e k) n m d (fsample n d X) (Some (fsample m d Y)) = tabulate n m A).
  { apply tabulate_ext. intros i j Hi Hj. unfold entry. rewrite !fsample_row by assumption. reflexivity. }
  assert (H1 : forall x, f_domain k (features d x) -> fvalue e k (features d x) (features d x) = fone).
  { intros x Hi. rewrite fvalue_features. rewrite (pf_C76_unit_diagonal e k _ He); [reflexivity| |exact Hi].
    destruct k; try contradiction Hk; cbn in *; tauto. }
  assert (HU : forall i j, (i < n)%nat -> (j < m)%nat -> f_finite (A i j) = true /\ valid_binary 53 1024 (A i j) = true /\ 0 <= fval (A i j) <= 1).
  { intros i j Hi Hj. destruct (Hval (X i) (Y j)) as (v & Hv); [left; eauto|right; eauto|]. unfold A. rewrite fvalue_features, Hv.
    apply (unit_value e k _ _ v He Hx Hk (HD i Hi) (HE j Hj) Hv). }
  cbv zeta in HO. rewrite HA in HO. rewrite HO. cbn [fN op_normalize2]. unfold fnormalize_km_2sample. cbn [amat].
  cbn [tabulate mr mc]. rewrite !map_length, !seq_length, !Nat.eqb_refl. cbn [negb orb].
  change (String.eqb (lower "cosine") "cosine") with true.
  change (mkMat n m _) with (tabulate n m A).
  replace (map (fun i => fvalue e k (row_of d (fsample n d X) i) (row_of d (fsample n d X) i)) (seq 0 n))
    with (map (fun _ : nat => fone) (seq 0 n)).
  2:{ apply map_ext_in. intros i Hi. apply in_seq in Hi. rewrite fsample_row, H1 by (try apply HD; lia). reflexivity. }
  replace (map (fun i => fvalue e k (row_of d (fsample m d Y) i) (row_of d (fsample m d Y) i)) (seq 0 m))
    with (map (fun _ : nat => fone) (seq 0 m)).
  2:{ apply map_ext_in. intros i Hi. apply in_seq in Hi. rewrite fsample_row, H1 by (try apply HE; lia). reflexivity. }
  rewrite !(any_zero_fair _ (fun _ => fone)) by (intros; apply fone_fair). cbn [orb].
  destruct (norm_matrix e n m f (fun _ => fone) (fun _ => fone) A He (fun _ _ => fone_fair) (fun _ _ => fone_fair)) as (B & HB & HBE).
  { intros i j Hi Hj. destruct (HU i j Hi Hj) as (F & V & R). split; [exact F|]. split; [exact V|].
    rewrite fval_fone, sqrt_1, Rmult_1_r. unfold Rdiv. rewrite Rinv_1, Rmult_1_r, Rabs_pos_eq by lra.
    assert (1 <= bpow 400) by (rewrite <- bpow_0; apply bpow_le; lia). lra. }
  rewrite HB. cbn [res_map]. exists B. split.
  - destruct Hff as [->| ->]; reflexivity.
  - intros i j Hi Hj. destruct (HBE i j Hi Hj) as (_ & S & _). rewrite inv_sqrt_fone in S.
    destruct (HU i j Hi Hj) as (_ & V & _). rewrite fmul_one_l, fmul_one_r in S by exact V. exact S.
Qed.

(** ** LinearKernel: cosine similarity *)
Lemma inner_self_nonneg : forall d x, 0 <= inner d x x.
Proof. intros. apply rsum_sqr_nonneg. Qed.

Lemma absinner_cs : forall d x y, absinner d x y <= sqrt (inner d x x) * sqrt (inner d y y).
Proof.
  intros d x y. rewrite <- sqrt_mult by apply inner_self_nonneg.
  assert (H0 : 0 <= absinner d x y) by (apply rsum_nonneg; intros; apply Rabs_pos).
  rewrite <- (sqrt_square (absinner d x y) H0). apply sqrt_le_1_alt.
  assert (H := rsum_cs d (fun k => Rabs (x k)) (fun k => Rabs (y k))). cbv beta in H.
  assert (E : forall z : nat -> R, rsum d (fun k => Rabs (z k) * Rabs (z k)) = inner d z z).
  { intros z. apply rsum_ext. intros k _. rewrite <- Rabs_mult. apply Rabs_pos_eq. exact (Rle_0_sqr _). }
  rewrite !E in H. unfold absinner.
  rewrite (rsum_ext d (fun k => Rabs (x k * y k)) (fun k => Rabs (x k) * Rabs (y k))) by (intros; apply Rabs_mult). exact H.
Qed.

Lemma absinner_self : forall d x, absinner d x x = inner d x x.
Proof. intros. apply rsum_ext. intros. apply Rabs_pos_eq. exact (Rle_0_sqr _). Qed.

Lemma absinner_pos : forall d x y, 0 <= absinner d x y.
Proof. intros. apply rsum_nonneg. intros. apply Rabs_pos. Qed.

Lemma inner_abs : forall d x y, Rabs (inner d x y) <= absinner d x y.
Proof. intros. unfold inner, absinner. apply rsum_abs. Qed.

Lemma cos_real : forall a b c a' b' A h, 0 < a -> 0 < b -> 0 <= h <= / 1000 ->
  Rabs c <= sqrt a * sqrt b -> Rabs (A - c) <= h * (sqrt a * sqrt b) ->
  Rabs (a' - a) <= h * a -> Rabs (b' - b) <= h * b ->
  Rabs (A / (sqrt a' * sqrt b') - c / (sqrt a * sqrt b)) <= 21 / 10 * h /\
  Rabs (A / (sqrt a' * sqrt b')) <= 101 / 100.
Proof.
  intros a b c a' b' A h Ha Hb Hh Hc HA Ea Eb.
  apply Rabs_le_inv in Ea. apply Rabs_le_inv in Eb.
  assert (Ha1 : h * a <= / 1000 * a) by (apply Rmult_le_compat_r; lra).
  assert (Hb1 : h * b <= / 1000 * b) by (apply Rmult_le_compat_r; lra).
  assert (Pa : 0 < a') by lra. assert (Pb : 0 < b') by lra.
  rewrite <- !sqrt_mult in * by lra.
  set (s := sqrt (a * b)) in *. set (s' := sqrt (a' * b')).
  assert (Hs : 0 < s) by (apply sqrt_lt_R0, Rmult_lt_0_compat; assumption).
  assert (Hss : s * s = a * b) by (apply sqrt_sqrt; assert (0 < a * b) by (apply Rmult_lt_0_compat; assumption); lra).
  assert (L : (1 - h) * s <= s').
  { rewrite <- (sqrt_square ((1 - h) * s)) by (apply Rmult_le_pos; lra). apply sqrt_le_1_alt.
    replace ((1 - h) * s * ((1 - h) * s)) with ((1 - h) * a * ((1 - h) * b)) by (transitivity ((1 - h) * (1 - h) * (s * s)); [rewrite Hss|]; ring).
    apply Rmult_le_compat; try (apply Rmult_le_pos); lra. }
  assert (U : s' <= (1 + h) * s).
  { rewrite <- (sqrt_square ((1 + h) * s)) by (apply Rmult_le_pos; lra). apply sqrt_le_1_alt.
    replace ((1 + h) * s * ((1 + h) * s)) with ((1 + h) * a * ((1 + h) * b)) by (transitivity ((1 + h) * (1 + h) * (s * s)); [rewrite Hss|]; ring).
    apply Rmult_le_compat; lra. }
  assert (Hhs : h * s <= / 1000 * s) by (apply Rmult_le_compat_r; lra).
  assert (Hs' : 999 / 1000 * s <= s') by lra.
  assert (P' : 0 < s') by lra.
  assert (E : Rabs (A / s' - c / s) <= 21 / 10 * h).
  { replace (A / s' - c / s) with (((A - c) * s + c * (s - s')) / (s * s')) by (field; lra).
    unfold Rdiv. rewrite Rabs_mult, (Rabs_pos_eq (/ (s * s'))) by (left; apply Rinv_0_lt_compat, Rmult_lt_0_compat; assumption).
    apply Rmult_le_reg_r with (s * s'); [apply Rmult_lt_0_compat; assumption|].
    rewrite Rmult_assoc, Rinv_l, Rmult_1_r by (apply Rgt_not_eq, Rmult_lt_0_compat; assumption).
    apply Rle_trans with (1 := Rabs_triang _ _). rewrite !Rabs_mult, (Rabs_pos_eq s) by lra.
    assert (X1 : Rabs (A - c) * s <= h * s * s) by (apply Rmult_le_compat_r; lra).
    assert (X2 : Rabs c * Rabs (s - s') <= s * (h * s)).
    { apply Rmult_le_compat; try apply Rabs_pos; [exact Hc|]. apply Rabs_le. lra. }
    assert (X3 : 999 / 1000 * (h * s * s) <= h * s * s').
    { replace (999 / 1000 * (h * s * s)) with (h * s * (999 / 1000 * s)) by ring. apply Rmult_le_compat_l; [apply Rmult_le_pos|]; lra. }
    assert (X4 : 0 <= h * s * s) by (repeat apply Rmult_le_pos; lra).
    replace (s * (h * s)) with (h * s * s) in X2 by ring. replace (21 / 10 * h * (s * s')) with (21 / 10 * (h * s * s')) by ring. lra. }
  split; [exact E|].
  assert (Hcs : Rabs (c / s) <= 1).
  { unfold Rdiv. rewrite Rabs_mult, (Rabs_pos_eq (/ s)) by (left; apply Rinv_0_lt_compat, Hs).
    apply Rmult_le_reg_r with s; [exact Hs|]. rewrite Rmult_assoc, Rinv_l by lra. lra. }
  replace (A / s') with (A / s' - c / s + c / s) by ring.
  apply Rle_trans with (1 := Rabs_triang _ _). lra.
Qed.

Lemma bpow27 : bpow (-27) = / 134217728.
Proof. change (-27)%Z with (- (27))%Z. rewrite bpow_neg, bpow_IZR by lia. reflexivity. Qed.
Lemma eps_val : eps = / 4503599627370496.
Proof. unfold eps. change (-52)%Z with (- (52))%Z. rewrite bpow_neg, bpow_IZR by lia. reflexivity. Qed.

Lemma linear_value : forall e d x y, decent e -> INR d <= bpow 40 -> doubles d x -> doubles d y ->
  absinner d (vals x) (vals y) <= bpow 1010 ->
  near (inner d (vals x) (vals y)) (INR d * eps * absinner d (vals x) (vals y) + INR d * least)
    (fvalue e FLinear (features d x) (features d y)) /\
  valid_binary 53 1024 (fvalue e FLinear (features d x) (features d y)) = true.
Proof.
  intros e d x y He Hd Dx Dy Hb. assert (Hd' : INR d <= bpow 50) by (apply Rle_trans with (1 := Hd), bpow_le; lia).
  rewrite fvalue_features. destruct (pf_C86_linear e d x y He Dx Dy Hd' Hb) as (v & Hv & Hn). rewrite Hv. split; [exact Hn|].
  cbn [fkernel_value] in Hv. injection Hv as <-.
  destruct (dot_any e d x y He Dx Dy Hd' Hb) as [C _]. apply (canon_valid _ C).
Qed.

Lemma linear_bounds : forall d, INR d <= bpow 40 ->
  let h := 101 / 100 * (INR d * eps) in
  0 <= h <= / 1000 /\ forall s, / 134217728 <= s -> INR d * eps * s + INR d * least <= h * s.
Proof.
  intros d Hd h. assert (H0 := pos_INR d). assert (He := eps_val).
  assert (H40 : bpow 40 = 1099511627776) by (rewrite bpow_IZR by lia; reflexivity).
  assert (Hl : least <= / 100 * (eps * / 134217728)).
  { apply Rle_trans with (bpow (-100)).
    - apply bpow_le. lia.
    - rewrite He. change (-100)%Z with (- (100))%Z. rewrite bpow_neg, bpow_IZR by lia.
      change (2 ^ 100)%Z with 1267650600228229401496703205376%Z. lra. }
  split.
  - unfold h. assert (INR d * eps <= 1099511627776 * eps) by (apply Rmult_le_compat_r; [rewrite He|]; lra).
    assert (0 <= INR d * eps) by (apply Rmult_le_pos; [|rewrite He]; lra). rewrite He in *. lra.
  - intros s Hs. unfold h.
    assert (INR d * least <= INR d * (/ 100 * (eps * s))).
    { apply Rmult_le_compat_l; [exact H0|]. apply Rle_trans with (1 := Hl). apply Rmult_le_compat_l; [lra|].
      apply Rmult_le_compat_l; [rewrite He|]; lra. }
    lra.
Qed.

Lemma linear_pair : forall e d x y, decent e -> INR d <= bpow 40 -> big_enough d x -> big_enough d y ->
  let k u v := fvalue e FLinear (features d u) (features d v) in
  let t := fval (k x y) / (sqrt (fval (k x x)) * sqrt (fval (k y y))) in
  fair (k x x) /\ f_finite (k x y) = true /\ valid_binary 53 1024 (k x y) = true /\ Rabs t <= bpow 400 /\
  bpow (-50) * Rabs t + bpow (-1020) + Rabs (t - cosine d (vals x) (vals y)) <= (3 * INR d + 5) * eps.
Proof.
  intros e d x y He Hd [Dx Rx] [Dy Ry] k t.
  destruct (linear_bounds d Hd) as [Hh Hbd]. set (h := 101 / 100 * (INR d * eps)) in *.
  set (a := inner d (vals x) (vals x)) in *. set (b := inner d (vals y) (vals y)) in *.
  assert (Hcs := absinner_cs d (vals x) (vals y)). fold a b in Hcs.
  assert (H9 : 0 < bpow 999) by apply bpow_pos.
  assert (Hs9 : sqrt a * sqrt b <= bpow 999).
  { rewrite <- sqrt_mult by lra. rewrite <- (sqrt_square (bpow 999)) by lra. apply sqrt_le_1_alt, Rmult_le_compat; lra. }
  assert (Hs0 : / 134217728 <= sqrt a * sqrt b).
  { rewrite <- sqrt_mult by lra. rewrite <- (sqrt_square (/ 134217728)) by lra. apply sqrt_le_1_alt, Rmult_le_compat; lra. }
  assert (H10 : bpow 999 <= bpow 1010) by (apply bpow_le; lia).
  assert (Sx := absinner_self d (vals x)). assert (Sy := absinner_self d (vals y)). fold a in Sx. fold b in Sy.
  destruct (linear_value e d x x He Hd Dx Dx ltac:(lra)) as [[Fxx Exx] Vxx].
  destruct (linear_value e d y y He Hd Dy Dy ltac:(lra)) as [[Fyy Eyy] Vyy].
  destruct (linear_value e d x y He Hd Dx Dy ltac:(lra)) as [[Fxy Exy] Vxy].
  fold (k x x) in *. fold (k y y) in *. fold (k x y) in *. rewrite Sx in Exx. rewrite Sy in Eyy. fold a in Exx. fold b in Eyy.
  assert (Ea : Rabs (fval (k x x) - a) <= h * a) by (assert (X := Hbd a ltac:(lra)); lra).
  assert (Eb : Rabs (fval (k y y) - b) <= h * b) by (assert (X := Hbd b ltac:(lra)); lra).
  assert (Hde : 0 <= INR d * eps) by (apply Rmult_le_pos; [apply pos_INR|rewrite eps_val; lra]).
  assert (EA : Rabs (fval (k x y) - inner d (vals x) (vals y)) <= h * (sqrt a * sqrt b)).
  { assert (X := Hbd (sqrt a * sqrt b) Hs0).
    assert (INR d * eps * absinner d (vals x) (vals y) <= INR d * eps * (sqrt a * sqrt b)) by (apply Rmult_le_compat_l; lra). lra. }
  assert (Hc : Rabs (inner d (vals x) (vals y)) <= sqrt a * sqrt b) by (apply Rle_trans with (1 := inner_abs _ _ _), Hcs).
  destruct (cos_real a b _ _ _ _ h ltac:(lra) ltac:(lra) Hh Hc EA Ea Eb) as [T1 T2].
  fold t in T1, T2. unfold cosine. fold a b.
  assert (Ha1 : h * a <= / 1000 * a) by (apply Rmult_le_compat_r; lra).
  assert (Ra := Rabs_le_inv _ _ Ea).
  split.
  { split; [exact Fxx|]. split; [exact Vxx|]. split.
    - rewrite bpow27. change 1000%Z with (1 + 999)%Z. rewrite bpow_add. replace (bpow 1) with 2 by (rewrite bpow_IZR by lia; reflexivity).
      split; lra.
    - destruct (pf_C91_close (k x x) Fxx Vxx) as [_ X]. apply X. rewrite Rabs_pos_eq; lra. }
  split; [exact Fxy|]. split; [exact Vxy|]. split.
  { apply Rle_trans with (1 := T2). assert (bpow 1 <= bpow 400) by (apply bpow_le; lia).
    replace (bpow 1) with 2 in * by (rewrite bpow_IZR by lia; reflexivity). lra. }
  assert (H50 : bpow (-50) = 4 * eps).
  { rewrite eps_val. change (-50)%Z with (- (50))%Z. rewrite bpow_neg, bpow_IZR by lia. change (2 ^ 50)%Z with 1125899906842624%Z. lra. }
  assert (Hz : bpow (-1020) <= / 100 * eps).
  { apply Rle_trans with (bpow (-60)); [apply bpow_le; lia|]. rewrite eps_val. change (-60)%Z with (- (60))%Z. rewrite bpow_neg, bpow_IZR by lia.
    change (2 ^ 60)%Z with 1152921504606846976%Z. lra. }
  assert (Hep : 0 < eps) by (rewrite eps_val; lra).
  assert (bpow (-50) * Rabs t <= 4 * eps * (101 / 100)) by (rewrite H50; apply Rmult_le_compat_l; lra).
  unfold h in T1. lra.
Qed.

Lemma cosine_sym : forall d x y, cosine d x y = cosine d y x.
Proof.
  intros. unfold cosine, inner. rewrite (Rmult_comm (sqrt _)). f_equal. apply rsum_ext. intros. ring.
Qed.

(** C91. LinearKernel with normalized=True (up to 2^40 features, self-products from 1.1e-8 to 2^999): every
    entry is the cosine of the angle between the two samples up to (3 d + 5) eps. *)
Lemma pf_C91_linear :
  forall {U} e (pre post : list (op f64 U)) n d X o, decent e -> INR d <= bpow 40 ->
    (forall i, (i < n)%nat -> big_enough d (X i)) -> no_attach post ->
    (o = OpFull \/ o = OpFullSparse \/ o = OpNormedKM) ->
    gives (outcome (fN e) o (after (fN e) (fbuiltin e FLinear) true pre (fsample n d X) None post)) n n
      (fun i j v => near (cosine d (vals (X i)) (vals (X j))) ((3 * INR d + 5) * eps) v /\ valid_binary 53 1024 v = true).
Proof.
  intros U e pre post n d X o He Hd HX Hno Ho.
  set (A := entry (fvalue e FLinear) d (fsample n d X) None).
  assert (HA : forall i j, (i < n)%nat -> (j < n)%nat ->
     fair (A i i) /\ f_finite (A i j) = true /\ valid_binary 53 1024 (A i j) = true /\ Rabs (exact_norm A i j) <= bpow 400 /\
     bpow (-50) * Rabs (exact_norm A i j) + bpow (-1020) + Rabs (exact_norm A i j - cosine d (vals (X i)) (vals (X j)))
       <= (3 * INR d + 5) * eps).
  { intros i j Hi Hj.
    assert (Hii : fair (A i i)).
    { unfold A. rewrite entry_diag, fsample_row by assumption. apply (linear_pair e d (X i) (X i) He Hd (HX i Hi) (HX i Hi)). }
    split; [exact Hii|]. unfold exact_norm, A. rewrite !entry_diag. unfold entry. rewrite !fsample_row by assumption.
    destruct (i <=? j)%nat.
    - apply (linear_pair e d (X i) (X j) He Hd (HX i Hi) (HX j Hj)).
    - rewrite (Rmult_comm (sqrt _)), (cosine_sym d (vals (X i))).
      apply (linear_pair e d (X j) (X i) He Hd (HX j Hj) (HX i Hi)). }
  destruct (@pf_C91_one_sample U e (fbuiltin e FLinear) (fvalue e FLinear) pre post (fsample n d X) n d o He) as (B & HB & HE); try assumption.
  - apply fsample_total. intros. eexists. reflexivity.
  - reflexivity.
  - apply fsample_adm.
  - intros i Hi. apply (HA i i Hi Hi).
  - intros i j Hi Hj. destruct (HA i j Hi Hj) as (_ & F & V & R & _). auto.
  - exists B. split; [exact HB|]. intros i j Hi Hj. destruct (HE i j Hi Hj) as (F & VV & E). fold A in E.
    destruct (HA i j Hi Hj) as (_ & _ & _ & _ & T). split; [split; [exact F|]|exact VV].
    replace (fval (B i j) - cosine d (vals (X i)) (vals (X j)))
      with (fval (B i j) - exact_norm A i j + (exact_norm A i j - cosine d (vals (X i)) (vals (X j)))) by ring.
    apply Rle_trans with (1 := Rabs_triang _ _). lra.
Qed.

(** C91. The same with two samples. *)
Lemma pf_C91_linear_two :
  forall {U} e (pre post : list (op f64 U)) n m d X Y o, decent e -> INR d <= bpow 40 ->
    (forall i, (i < n)%nat -> big_enough d (X i)) -> (forall j, (j < m)%nat -> big_enough d (Y j)) -> no_attach post ->
    (o = OpFull \/ o = OpFullSparse \/ o = OpNormedKM) ->
    gives (outcome (fN e) o (after (fN e) (fbuiltin e FLinear) true pre (fsample n d X) (Some (fsample m d Y)) post)) n m
      (fun i j v => near (cosine d (vals (X i)) (vals (Y j))) ((3 * INR d + 5) * eps) v /\ valid_binary 53 1024 v = true).
Proof.
  intros U e pre post n m d X Y o He Hd HX HY Hno Ho.
  destruct (@pf_C91_two_samples U e (fbuiltin e FLinear) (fvalue e FLinear) pre post (fsample n d X) (fsample m d Y) n m d o He) as (B & HB & HE);
    try assumption.
  - apply fsample_total2. intros. eexists. reflexivity.
  - reflexivity.
  - apply fsample_adm2.
  - intros i Hi. rewrite fsample_row by assumption. apply (linear_pair e d (X i) (X i) He Hd (HX i Hi) (HX i Hi)).
  - intros i Hi. rewrite fsample_row by assumption. apply (linear_pair e d (Y i) (Y i) He Hd (HY i Hi) (HY i Hi)).
  - intros i j Hi Hj. rewrite !fsample_row by assumption.
    destruct (linear_pair e d (X i) (Y j) He Hd (HX i Hi) (HY j Hj)) as (_ & F & V & R & _). auto.
  - exists B. split; [exact HB|]. intros i j Hi Hj. destruct (HE i j Hi Hj) as (F & VV & E). rewrite !fsample_row in E by assumption.
    destruct (linear_pair e d (X i) (Y j) He Hd (HX i Hi) (HY j Hj)) as (_ & _ & _ & _ & T). split; [split; [exact F|]|exact VV].
    match type of T with context [Rabs (?t - cosine _ _ _)] => set (tt := t) in * end.
    replace (fval (B i j) - cosine d (vals (X i)) (vals (Y j)))
      with (fval (B i j) - tt + (tt - cosine d (vals (X i)) (vals (Y j)))) by ring.
    apply Rle_trans with (1 := Rabs_triang _ _). lra.
Qed.

(*BEGIN PROP*)
(** C91 on concrete data: the sample (1, 1), (1, 2). *)
Definition rows2 (i k : nat) : f64 := match i, k with S O, S O => fint 2 | _, _ => fint 1 end.
(*END PROP*)

(** C91: what must not be expected is exact symmetry. The normalized kernel matrix of LinearKernel on (1, 1),
    (1, 2) is not symmetric, and its diagonal is not 1. *)
Lemma pf_C91_symmetric_refuted : exists (x : ndarray f64) a b c d,
  outcome (fN plain) (@OpFull f64 unit) (after (fN plain) (fbuiltin plain FLinear) true [] x None [])
    = Ok (OArr (mkArr Dense (mkMat 2 2 [[a; b]; [c; d]]))) /\ decent plain /\
  f_finite a = true /\ f_finite b = true /\ f_finite c = true /\ fval b <> fval c /\ fval a <> 1.
Proof.
  exists (fsample 2 2 rows2). do 4 eexists. split; [vm_compute; reflexivity|]. split; [apply pf_C76_platform_example|].
  split; [reflexivity|]. split; [reflexivity|]. split; [reflexivity|]. cbn [fval]. change (-53)%Z with (- (53))%Z.
  rewrite bpow_neg, bpow_IZR by lia. change (2 ^ 53)%Z with 9007199254740992%Z. split; lra.
Qed.

Lemma fint_small : fval (fint 1) = 1 /\ fval (fint 2) = 2.
Proof. split; [exact fval_fone|apply (fint_any 2); vm_compute; reflexivity]. Qed.

(** C91: hypotheses of the theorems above that hold together, and the result on the sample (1, 1), (1, 2):
    both entries off the diagonal are within 11 eps of 3 / sqrt 10. *)
Lemma pf_C91_example :
  (exists e, decent e /\ exp_doubles e) /\
  (forall i, (i < 2)%nat -> big_enough 2 (rows2 i)) /\
  (forall i, (i < 2)%nat -> f_domain (FChi2 fone) (features 2 (rows2 i))) /\
  cosine 2 (vals (rows2 0)) (vals (rows2 1)) = 3 / sqrt 10 /\
  near (3 / sqrt 10) (11 * eps) (S754_finite false 8544979495185813 (-53)) /\
  near (3 / sqrt 10) (11 * eps) (S754_finite false 8544979495185814 (-53)).
Proof.
  destruct fint_small as [V1 V2].
  assert (HB : forall i, (i < 2)%nat -> big_enough 2 (rows2 i)).
  { intros i Hi. split.
    - intros k Hk. destruct i as [|[|i]], k as [|[|k]]; try lia; split; reflexivity.
    - assert (bpow 3 <= bpow 999) by (apply bpow_le; lia).
      replace (bpow 3) with 8 in * by (rewrite bpow_IZR by lia; reflexivity).
      unfold inner, vals. destruct i as [|[|i]]; try lia; cbn [rsum rows2]; rewrite ?V1, ?V2; lra. }
  assert (HC : cosine 2 (vals (rows2 0)) (vals (rows2 1)) = 3 / sqrt 10).
  { unfold cosine. rewrite <- sqrt_mult by apply inner_self_nonneg.
    unfold inner, vals. cbn [rsum rows2]. rewrite V1, V2. f_equal; [ring|]. f_equal. ring. }
  assert (He := pf_C76_platform_example).
  destruct (@pf_C91_linear unit plain [] [] 2 2 rows2 OpFull He) as (B & HO & HE).
  - replace (INR 2) with (bpow 1) by (rewrite bpow_IZR by lia; cbn; ring). apply bpow_le. lia.
  - exact HB.
  - constructor.
  - auto.
  - match type of HO with ?l = _ => let v := eval vm_compute in l in assert (HV : l = v) by (vm_compute; reflexivity) end.
    rewrite HV in HO. clear HV. injection HO as _ H01 H10 _.
    split; [exists plain; split; [exact He|]|].
    { intros v. cbn [plain e_exp]. destruct (f_iszero v); [vm_compute; reflexivity|].
      repeat match goal with |- context [if ?c then _ else _] => destruct c end; vm_compute; reflexivity. }
    split; [exact HB|]. split.
    { intros i Hi. destruct i as [|[|i]]; try lia; split; reflexivity. }
    split; [exact HC|].
    assert (H0 := HE 0%nat 1%nat ltac:(lia) ltac:(lia)). assert (H1 := HE 1%nat 0%nat ltac:(lia) ltac:(lia)).
    cbv beta in H0, H1. destruct H0 as [H0 _], H1 as [H1 _]. rewrite (cosine_sym 2 (vals (rows2 1))) in H1. rewrite <- H01, HC in H0. rewrite <- H10, HC in H1.
    replace ((3 * INR 2 + 5) * eps) with (11 * eps) in * by (cbn [INR]; ring). split; assumption.
Qed.
