(** C93: [centered] and [frob_norm] of a KernelMatrix in double precision. *)
From Coq Require Import String ZArith Bool List Permutation Lia Lra Reals Floats.SpecFloat Arith.
Import ListNotations.
From Verif Require Import Prelude MatModel UtilsModel KMModel SpecKM KernelsModel FloatModel FloatOpsModel SpecFloats SpecFloatVal
  SpecLinAlg SpecFloatErr SpecFloatOps FloatKMModel SpecFloatKM.
From Verif Require Import MatFacts MFacts KMFacts RSum KMInv KMTotal KMProps KMHist KMHist2 OpsFacts.
From Verif Require Import FloatProps FloatNormProps FloatRound FloatErrProps FloatAny FloatSum FloatDiv FloatDotProps FloatOpsFacts
  FloatOpsProps FloatRankProps FloatKMFacts FloatKMProps.
Local Open Scope R_scope.

Lemma frob_generic :
  forall {E V U} (N : numops V) (K : kernel E V) k nrm (pre post : list (op E U)) x y n m d,
    never_raises K k x y n m d -> kfmt K = true -> admissible x y n m d -> no_attach post ->
    no_full_sparse post -> no_whole_index n m post ->
    outcome N OpFrobNorm (after N K nrm pre x y post)
    = res_map OVal (op_frob N (mkArr Dense (kernel_matrix k n m d x y))).
Proof.
  intros E V U N K k nrm pre post x y n m d Hnr Hfmt Hadm Hno Hfs Hwi.
  assert (Hg := S1_good N K k nrm pre post x y n m d Hadm Hno false false Hnr
                  (fun _ _ => Hfs) (fun _ => Hwi)).
  assert (H := frob_total N K k nrm (stored n d x) (stored2 n m d x y) (is_some y) n m d _
                 (nr_stored K k x y n m d Hadm Hnr) eq_refl
                 (stored2_shape x y n m d Hadm) (stored2_one x y n m d Hadm) false false _ Hg).
  unfold holds in H. destruct H as (_ & a & Hc & Hr).
  assert (Ha : a = mkArr Dense (kernel_matrix k n m d x y)).
  { destruct Hc as [[Hf Ha]|[(Hx & _)|(Hx & _)]]; [|discriminate|discriminate].
    destruct a as [f A]; cbn in *. subst. rewrite <- (KMat_spec k x y n m d). reflexivity. }
  subst a. unfold outcome, step. rewrite outcome_fmap.
  destruct Hr as [->|[_ Hk]]; [reflexivity|congruence].
Qed.

Lemma fget_tab2 : forall n m A i j, (i < n)%nat -> (j < m)%nat -> fget (tabulate n m A) i j = A i j.
Proof. intros n m A i j Hi Hj. unfold fget. now rewrite mget_tabulate. Qed.

(** C93. In double precision, after every history without full_sparse and without a whole-matrix index,
    [centered] is a dense matrix of finite doubles; entry (i, j) is off by at most 32 n eps M (and a multiple
    of the least positive number) for kernel values of magnitude at most M. *)
Lemma pf_C93_centered :
  forall {U} e (K : kernel f64 f64) k nrm (pre post : list (op f64 U)) x n d M, decent e -> INR n <= bpow 40 ->
    never_raises K k x None n n d -> kfmt K = true -> admissible x None n n d -> no_attach post ->
    no_full_sparse post -> no_whole_index n n post ->
    let A := entry k d x None in
    doubles2 n n A M -> M <= bpow 1000 ->
    gives (outcome (fN e) OpCentered (after (fN e) K nrm pre x None post)) n n
      (fun i j v => near (centred n (mvals A) i j) (32 * INR n * eps * M + 8 * INR n * least) v).
Proof.
  intros U e K k nrm pre post x n d M He Hn Hnr Hf Ha Hno Hfs Hwi A HA HM.
  rewrite (pf_C14_centered_partial (fN e) K k nrm pre post x n d Hnr Hf Ha Hno Hfs Hwi).
  cbn [fN op_center]. unfold fcenter_km, kernel_matrix. fold A. cbn [is_ndarray amat afmt].
  change (mr (tabulate n n A)) with n. change (mc (tabulate n n A)) with n. rewrite Nat.eqb_refl.
  eexists. split; [reflexivity|]. intros i j Hi Hj. cbv beta.
  rewrite (centred_ext n (mvals A) (mvals (fget (tabulate n n A)))) by
    (try assumption; intros; unfold mvals; now rewrite fget_tab2).
  apply pf_C88_center; try assumption. intros p q Hp Hq. unfold mvals. rewrite fget_tab2 by assumption. now apply HA.
Qed.

(** C93. When the kernel values are within delta of the numbers G_ij, the centred matrix is that much
    closer to the centred matrix of G. *)
Lemma pf_C93_centered_close :
  forall {U} e (K : kernel f64 f64) k nrm (pre post : list (op f64 U)) x n d M (G : nat -> nat -> R) delta,
    decent e -> INR n <= bpow 40 ->
    never_raises K k x None n n d -> kfmt K = true -> admissible x None n n d -> no_attach post ->
    no_full_sparse post -> no_whole_index n n post ->
    let A := entry k d x None in
    doubles2 n n A M -> M <= bpow 1000 -> 0 <= delta ->
    (forall i j, (i < n)%nat -> (j < n)%nat -> Rabs (fval (A i j) - G i j) <= delta) ->
    gives (outcome (fN e) OpCentered (after (fN e) K nrm pre x None post)) n n
      (fun i j v => near (centred n G i j) (32 * INR n * eps * M + 8 * INR n * least + 4 * delta) v).
Proof.
  intros U e K k nrm pre post x n d M G delta He Hn Hnr Hf Ha Hno Hfs Hwi A HA HM Hdl HG.
  destruct (pf_C93_centered e K k nrm pre post x n d M He Hn Hnr Hf Ha Hno Hfs Hwi HA HM) as (B & HB & HE).
  exists B. split; [exact HB|]. intros i j Hi Hj. destruct (HE i j Hi Hj) as [F E]. split; [exact F|].
  fold A in E. assert (HD := centred_bound n (fun p q => mvals A p q - G p q) delta Hn Hdl HG i j Hi Hj).
  assert (HX : centred n (fun p q => mvals A p q - G p q) i j = centred n (mvals A) i j - centred n G i j).
  { assert (INR n <> 0) by (apply not_0_INR; lia). unfold centred, rowmean, colmean, allmean. rewrite !rsum_minus.
    rewrite (rsum_ext n (fun i0 => rsum n (fun j0 => mvals A i0 j0 - G i0 j0))
              (fun i0 => rsum n (fun j0 => mvals A i0 j0) - rsum n (fun j0 => G i0 j0))) by (intros; apply rsum_minus).
    rewrite rsum_minus. change (rsum n (G i)) with (rsum n (fun q => G i q)). change (rsum n (mvals A i)) with (rsum n (fun q => mvals A i q)).
    field. assumption. }
  rewrite HX in HD.
  replace (fval (B i j) - centred n G i j) with ((fval (B i j) - centred n (mvals A) i j) + (centred n (mvals A) i j - centred n G i j)) by ring.
  eapply Rle_trans; [apply Rabs_triang|]. lra.
Qed.

Lemma centred_gram : forall n d (x : nat -> nat -> R) i j, (i < n)%nat -> (j < n)%nat ->
  centred n (fun i j => inner d (x i) (x j)) i j
  = inner d (fun k => x i k - rsum n (fun i => x i k) / INR n) (fun k => x j k - rsum n (fun i => x i k) / INR n).
Proof.
  intros n d x i j Hi Hj. assert (Hn : INR n <> 0) by (apply not_0_INR; lia).
  unfold centred, rowmean, colmean, allmean, inner.
  rewrite (rsum_swap n d (fun j0 k => x i k * x j0 k)).
  rewrite (rsum_swap n d (fun i0 k => x i0 k * x j k)).
  assert (H2 : rsum n (fun i0 => rsum n (fun j0 => rsum d (fun k => x i0 k * x j0 k)))
               = rsum d (fun k => rsum n (fun i0 => x i0 k) * rsum n (fun j0 => x j0 k))).
  { rewrite (rsum_ext n _ (fun i0 => rsum d (fun k => x i0 k * rsum n (fun j0 => x j0 k)))).
    - rewrite (rsum_swap n d). apply rsum_ext. intros k Hk. now rewrite rsum_scal_r.
    - intros i0 Hi0. rewrite (rsum_swap n d). apply rsum_ext. intros k Hk. now rewrite rsum_scal. }
  rewrite H2. unfold Rdiv. rewrite <- !rsum_scal_r, <- !rsum_minus, <- rsum_plus.
  apply rsum_ext. intros k Hk. rewrite rsum_scal, rsum_scal_r. field. assumption.
Qed.

(** C93. For LinearKernel, [centered] is the matrix of the inner products of the samples with the mean
    subtracted, up to (33 n + 4 d) eps M, where M bounds sum_k |x_ik x_jk|. *)
Lemma pf_C93_centered_linear :
  forall {U} e nrm (pre post : list (op f64 U)) n d X M, decent e -> INR n <= bpow 40 -> INR d <= bpow 40 ->
    (forall i, (i < n)%nat -> doubles d (X i)) ->
    (forall i j, (i < n)%nat -> (j < n)%nat -> absinner d (vals (X i)) (vals (X j)) <= M) -> M <= bpow 999 ->
    no_attach post -> no_full_sparse post -> no_whole_index n n post ->
    let mean k := rsum n (fun i => vals (X i) k) / INR n in
    gives (outcome (fN e) OpCentered (after (fN e) (fbuiltin e FLinear) nrm pre (fsample n d X) None post)) n n
      (fun i j v => near (inner d (fun k => vals (X i) k - mean k) (fun k => vals (X j) k - mean k))
                         ((33 * INR n + 4 * INR d) * eps * M + (9 * INR n + 4 * INR d) * least) v).
Proof.
  intros U e nrm pre post n d X M He Hn Hd HX HS HM Hno Hfs Hwi mean.
  destruct (Nat.eq_dec n 0) as [->|Hn0].
  { destruct (pf_C93_centered e (fbuiltin e FLinear) (fvalue e FLinear) nrm pre post (fsample 0 d X) 0 d 0 He Hn) as (B & HB & _); auto.
    - apply fsample_total. intros; lia.
    - apply fsample_adm.
    - intros i j Hi; lia.
    - left. apply bpow_pos.
    - exists B. split; [exact HB|]. intros; lia. }
  assert (HM0 : 0 <= M).
  { apply Rle_trans with (2 := HS 0%nat 0%nat ltac:(lia) ltac:(lia)). apply rsum_nonneg. intros. apply Rabs_pos. }
  assert (HL : 0 < least) by apply bpow_pos. assert (He0 : 0 < eps) by apply bpow_pos.
  assert (Hd0 := pos_INR d). assert (Hn1 := pos_INR n).
  set (delta := INR d * eps * M + INR d * least).
  assert (Hdl : 0 <= delta).
  { unfold delta. apply Rplus_le_le_0_compat; [apply Rmult_le_pos; [apply Rmult_le_pos|]; lra|apply Rmult_le_pos; lra]. }
  assert (Hde : INR d * eps <= bpow (-12)).
  { unfold eps. replace (bpow (-12)) with (bpow 40 * bpow (-52)) by (rewrite <- bpow_add; f_equal; lia).
    apply Rmult_le_compat_r; [left; apply bpow_pos|exact Hd]. }
  assert (H12 : bpow (-12) = / 4096) by (change (-12)%Z with (- (12))%Z; rewrite bpow_neg, bpow_IZR by lia; reflexivity).
  rewrite H12 in Hde.
  assert (HV : forall i j, (i < n)%nat -> (j < n)%nat ->
    near (inner d (vals (X i)) (vals (X j))) delta (fvalue e FLinear (features d (X i)) (features d (X j))) /\
    valid_binary 53 1024 (fvalue e FLinear (features d (X i)) (features d (X j))) = true).
  { intros i j Hi Hj. destruct (linear_value e d (X i) (X j) He Hd (HX i Hi) (HX j Hj)) as [[F E] V].
    - apply Rle_trans with (1 := HS i j Hi Hj), Rle_trans with (1 := HM), bpow_le. lia.
    - split; [split; [exact F|]|exact V]. apply Rle_trans with (1 := E). unfold delta.
      apply Rplus_le_compat_r, Rmult_le_compat_l; [apply Rmult_le_pos; lra|now apply HS]. }
  set (A := entry (fvalue e FLinear) d (fsample n d X) None).
  assert (HA : forall i j, (i < n)%nat -> (j < n)%nat ->
    near (inner d (vals (X i)) (vals (X j))) delta (A i j) /\ valid_binary 53 1024 (A i j) = true).
  { intros i j Hi Hj. unfold A, entry. rewrite !fsample_row by assumption. destruct (i <=? j)%nat; [now apply HV|].
    replace (inner d (vals (X i)) (vals (X j))) with (inner d (vals (X j)) (vals (X i))); [now apply HV|].
    apply rsum_ext. intros. ring. }
  assert (HI : forall i j, (i < n)%nat -> (j < n)%nat -> Rabs (inner d (vals (X i)) (vals (X j))) <= M).
  { intros i j Hi Hj. apply Rle_trans with (2 := HS i j Hi Hj). apply rsum_abs. }
  assert (HDM : delta <= / 4096 * M + INR d * least).
  { unfold delta. apply Rplus_le_compat_r, Rmult_le_compat_r; assumption. }
  assert (HB : doubles2 n n A (M + delta)).
  { intros i j Hi Hj. destruct (HA i j Hi Hj) as [[F E] V]. split; [exact F|split; [exact V|]]. unfold mvals.
    replace (fval (A i j)) with (inner d (vals (X i)) (vals (X j)) + (fval (A i j) - inner d (vals (X i)) (vals (X j)))) by ring.
    eapply Rle_trans; [apply Rabs_triang|]. specialize (HI i j Hi Hj). lra. }
  assert (Hdl2 : INR d * least <= bpow 998).
  { apply Rle_trans with (bpow 40 * least); [apply Rmult_le_compat_r; lra|]. unfold least. rewrite <- bpow_add. apply bpow_le. lia. }
  destruct (pf_C93_centered_close e (fbuiltin e FLinear) (fvalue e FLinear) nrm pre post (fsample n d X) n d (M + delta)
              (fun i j => inner d (vals (X i)) (vals (X j))) delta He Hn) as (B & HBB & HE); auto.
  - apply fsample_total. intros. eexists. reflexivity.
  - apply fsample_adm.
  - replace (bpow 1000) with (bpow 1 * bpow 999) by (rewrite <- bpow_add; f_equal; lia).
    replace (bpow 999) with (bpow 1 * bpow 998) in * by (rewrite <- bpow_add; f_equal; lia).
    replace (bpow 1) with 2 in * by (rewrite bpow_IZR by lia; reflexivity). lra.
  - intros i j Hi Hj. apply (HA i j Hi Hj).
  - exists B. split; [exact HBB|]. intros i j Hi Hj. destruct (HE i j Hi Hj) as [F E]. split; [exact F|].
    rewrite centred_gram in E by assumption. apply Rle_trans with (1 := E).
    set (ne := INR n * eps). set (nl := INR n * least). set (dl := INR d * least) in *. set (de := INR d * eps) in *.
    assert (Hne : 0 <= ne) by (apply Rmult_le_pos; lra).
    assert (Hnl : 0 <= nl) by (apply Rmult_le_pos; lra).
    assert (HneM : ne * delta <= ne * (/ 4096 * M + dl)) by (apply Rmult_le_compat_l; assumption).
    assert (HnM : 0 <= ne * M) by (apply Rmult_le_pos; assumption).
    assert (Hnd : ne * dl <= / 4096 * nl).
    { replace (ne * dl) with (de * nl) by (unfold ne, dl, de, nl; ring). apply Rmult_le_compat_r; assumption. }
    replace (32 * INR n * eps * (M + delta)) with (32 * (ne * M) + 32 * (ne * delta)) by (unfold ne; ring).
    replace (8 * INR n * least) with (8 * nl) by (unfold nl; ring).
    replace ((33 * INR n + 4 * INR d) * eps * M) with (33 * (ne * M) + 4 * (de * M)) by (unfold ne, de; ring).
    replace ((9 * INR n + 4 * INR d) * least) with (9 * nl + 4 * dl) by (unfold nl, dl; ring).
    assert (Hdd : delta = de * M + dl) by reflexivity. lra.
Qed.

(** C93. [frob_norm], after the same histories, on one or two samples and with or without normalized=True: a
    number that is not negative, and the square root of the sum of the squared kernel values with a relative
    error of at most (n m + 1) eps, apart from underflow. *)
Lemma pf_C93_frob :
  forall {U} e (K : kernel f64 f64) k nrm (pre post : list (op f64 U)) x y n m d b, decent e -> INR (n * m) <= bpow 50 ->
    never_raises K k x y n m d -> kfmt K = true -> admissible x y n m d -> no_attach post ->
    no_full_sparse post -> no_whole_index n m post ->
    let A := entry k d x y in
    doubles2 n m A b -> fprod n m (mvals A) (mvals A) <= bpow 1010 ->
    exists v, outcome (fN e) OpFrobNorm (after (fN e) K nrm pre x y post) = Ok (OVal v) /\ f_nonneg v = true /\
      near (fnorm n m (mvals A)) ((INR (n * m) + 1) * eps * fnorm n m (mvals A) + 2 * sqrt (INR (n * m) * least)) v.
Proof.
  intros U e K k nrm pre post x y n m d b He Hn Hnr Hf Ha Hno Hfs Hwi A HA HM.
  rewrite (frob_generic (fN e) K k nrm pre post x y n m d Hnr Hf Ha Hno Hfs Hwi).
  cbn [fN op_frob]. unfold ffrob_norm, kernel_matrix. fold A. cbn [is_sparse amat afmt].
  change (mr (tabulate n m A)) with n. change (mc (tabulate n m A)) with m. eexists. split; [reflexivity|].
  assert (HF : fprod n m (mvals (fget (tabulate n m A))) (mvals (fget (tabulate n m A))) = fprod n m (mvals A) (mvals A)).
  { unfold fprod. apply rsum_ext. intros i Hi. apply rsum_ext. intros j Hj. unfold mvals. now rewrite fget_tab2. }
  unfold fnorm. rewrite <- HF. apply (pf_C88_frobenius_norm e n m _ b He Hn).
  - intros p q Hp Hq. unfold mvals. rewrite fget_tab2 by assumption. now apply HA.
  - now rewrite HF.
Qed.

(** C93. One kernel value of magnitude 1 or more makes the norm at least 1/2. *)
Lemma pf_C93_frob_positive :
  forall {U} e (K : kernel f64 f64) k nrm (pre post : list (op f64 U)) x y n m d b, decent e -> INR (n * m) <= bpow 40 ->
    never_raises K k x y n m d -> kfmt K = true -> admissible x y n m d -> no_attach post ->
    no_full_sparse post -> no_whole_index n m post ->
    let A := entry k d x y in
    doubles2 n m A b -> fprod n m (mvals A) (mvals A) <= bpow 1010 ->
    (exists i j, (i < n)%nat /\ (j < m)%nat /\ 1 <= Rabs (fval (A i j))) ->
    exists v, outcome (fN e) OpFrobNorm (after (fN e) K nrm pre x y post) = Ok (OVal v) /\ f_finite v = true /\ / 2 <= fval v.
Proof.
  intros U e K k nrm pre post x y n m d b He Hn Hnr Hf Ha Hno Hfs Hwi A HA HM (i & j & Hi & Hj & H1).
  destruct (pf_C93_frob e K k nrm pre post x y n m d b He) as (v & Hv & _ & F & E); try assumption.
  { apply Rle_trans with (1 := Hn), bpow_le. lia. }
  exists v. split; [exact Hv|]. split; [exact F|]. fold A in E.
  assert (HN : 1 <= fnorm n m (mvals A)).
  { unfold fnorm. rewrite <- sqrt_1. apply sqrt_le_1_alt.
    apply Rle_trans with (mvals A i j * mvals A i j).
    - rewrite <- (Rabs_pos_eq (mvals A i j * mvals A i j)) by (apply Rle_0_sqr). rewrite Rabs_mult.
      replace 1 with (1 * 1) by ring. apply Rmult_le_compat; unfold mvals; lra.
    - apply Rle_trans with (rsum m (fun q => mvals A i q * mvals A i q)).
      + apply (rsum_term_le m (fun q => mvals A i q * mvals A i q) j Hj). intros. apply Rle_0_sqr.
      + apply (rsum_term_le n (fun p => rsum m (fun q => mvals A p q * mvals A p q)) i Hi). intros. apply rsum_sqr_nonneg. }
  set (N := fnorm n m (mvals A)) in *.
  assert (HL : sqrt (INR (n * m) * least) <= / 64).
  { rewrite <- (sqrt_square (/ 64)) by lra. apply sqrt_le_1_alt. apply Rle_trans with (bpow 40 * least).
    - apply Rmult_le_compat_r; [left; apply bpow_pos|exact Hn].
    - unfold least. rewrite <- bpow_add. apply Rle_trans with (bpow (-12)); [apply bpow_le; lia|].
      change (-12)%Z with (- (12))%Z. rewrite bpow_neg, bpow_IZR by lia. change (2 ^ 12)%Z with 4096%Z. lra. }
  assert (HE : (INR (n * m) + 1) * eps <= / 64).
  { apply Rle_trans with (bpow 41 * eps).
    - apply Rmult_le_compat_r; [left; apply bpow_pos|]. replace (bpow 41) with (bpow 1 * bpow 40) by (rewrite <- bpow_add; f_equal; lia).
      replace (bpow 1) with 2 by (rewrite bpow_IZR by lia; reflexivity).
      assert (1 <= bpow 40) by (rewrite bpow_IZR by lia; apply IZR_le; lia). lra.
    - unfold eps. rewrite <- bpow_add. apply Rle_trans with (bpow (-6)); [apply bpow_le; lia|].
      change (-6)%Z with (- (6))%Z. rewrite bpow_neg, bpow_IZR by lia. change (2 ^ 6)%Z with 64%Z. lra. }
  assert (HEN : (INR (n * m) + 1) * eps * N <= / 64 * N) by (apply Rmult_le_compat_r; lra).
  apply Rabs_le_inv in E. lra.
Qed.

(** C93 is false after full_sparse: for LinearKernel and the sample 2, -1, -2 (one feature) the norm is 9
    on a fresh KernelMatrix, but NaN once full_sparse has been read. *)
Lemma pf_C93_frob_sparse_refuted :
  exists e (post : list (op f64 unit)) X, decent e /\ no_attach post /\ no_whole_index 3 3 post /\
    (forall i, (i < 3)%nat -> doubles 1 (X i)) /\
    outcome (fN e) (@OpFrobNorm f64 unit) (after (fN e) (fbuiltin e FLinear) false [] (fsample 3 1 X) None []) = Ok (OVal (fint 9)) /\
    outcome (fN e) OpFrobNorm (after (fN e) (fbuiltin e FLinear) false [] (fsample 3 1 X) None post) = Ok (OVal S754_nan).
Proof.
  exists plain, [OpFullSparse], (fun i _ => nth i [fint 2; fint (-1); fint (-2)] fzero).
  split; [apply pf_C76_platform_example|]. split; [repeat constructor|]. split; [intros ix H; cbn in H; intuition discriminate|].
  split.
  - intros i Hi k Hk. destruct i as [|[|[|i]]]; try lia; split; vm_compute; reflexivity.
  - split; vm_compute; reflexivity.
Qed.

(*BEGIN PROP*)
(** C93 on concrete data: the sample 2, -1, -2 (one feature). *)
Definition rows3 (i k : nat) : f64 := nth i [fint 2; fint (-1); fint (-2)] fzero.
(*END PROP*)

(** C93: the sample meets the hypotheses; entry (0, 0) of [centered] is within 103 eps M of 49/9 = (2 + 1/3)^2,
    with M = 4. *)
Lemma pf_C93_example :
  (forall i, (i < 3)%nat -> doubles 1 (rows3 i)) /\
  (forall i j, (i < 3)%nat -> (j < 3)%nat -> absinner 1 (vals (rows3 i)) (vals (rows3 j)) <= 4) /\
  exists B, outcome (fN plain) (@OpCentered f64 unit) (after (fN plain) (fbuiltin plain FLinear) true [] (fsample 3 1 rows3) None [OpFull; OpDiagonal])
              = Ok (OArr (mkArr Dense (tabulate 3 3 B))) /\
            near (49 / 9) (412 * eps + 31 * least) (B 0%nat 0%nat).
Proof.
  assert (V : forall z, (Z.abs z < 2 ^ 53)%Z -> fval (fint z) = IZR z) by (intros; now apply fint_any).
  assert (HX : forall i, (i < 3)%nat -> doubles 1 (rows3 i)).
  { intros i Hi k Hk. destruct i as [|[|[|i]]]; try lia; split; vm_compute; reflexivity. }
  assert (HS : forall i j, (i < 3)%nat -> (j < 3)%nat -> absinner 1 (vals (rows3 i)) (vals (rows3 j)) <= 4).
  { intros i j Hi Hj. unfold absinner, vals. cbn [rsum]. destruct i as [|[|[|i]]]; try lia; destruct j as [|[|[|j]]]; try lia;
    cbn [rows3 nth]; rewrite !V by (cbn; lia); rewrite <- mult_IZR, <- abs_IZR, Rplus_0_l; apply IZR_le; cbn; lia. }
  split; [exact HX|]. split; [exact HS|].
  assert (B4 : 4 <= bpow 40) by (rewrite bpow_IZR by lia; apply IZR_le; lia).
  assert (B9 : bpow 40 <= bpow 999) by (apply bpow_le; lia).
  destruct (@pf_C93_centered_linear unit plain true [] [OpFull; OpDiagonal] 3 1 rows3 4 pf_C76_platform_example) as (B & HB & HE);
    try assumption.
  - cbn [INR]. lra.
  - cbn [INR]. lra.
  - lra.
  - repeat constructor.
  - intros H; cbn in H; intuition discriminate.
  - intros ix H; cbn in H; intuition discriminate.
  - exists B. split; [exact HB|]. assert (H := HE 0%nat 0%nat ltac:(lia) ltac:(lia)). cbv beta in H.
    unfold inner, vals in H. cbn [rsum rows3 nth] in H. rewrite !V in H by (cbn; lia).
    replace (49 / 9) with (0 + (IZR 2 - (0 + IZR 2 + IZR (-1) + IZR (-2)) / INR 3) * (IZR 2 - (0 + IZR 2 + IZR (-1) + IZR (-2)) / INR 3))
      by (cbn [INR]; field).
    replace (412 * eps + 31 * least) with ((33 * INR 3 + 4 * INR 1) * eps * 4 + (9 * INR 3 + 4 * INR 1) * least) by (cbn [INR]; ring).
    exact H.
Qed.
