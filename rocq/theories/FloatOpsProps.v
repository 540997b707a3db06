(** C88: operations on kernel matrices in double precision. *)
From Coq Require Import ZArith Bool List Permutation Reals Lia Lra Floats.SpecFloat.
From Verif Require Import Prelude KernelsModel XReal MatModel FloatModel SpecFloats SpecFloatVal SpecLinAlg RSum PSDFacts
  KernelFacts SpecKernels OpsFacts SpecFloatErr FloatProps FloatNormProps FloatRound FloatAny FloatSum FloatDiv FloatDotProps
  FloatOpsModel SpecFloatOps FloatOpsFacts.
Import ListNotations.
Local Open Scope R_scope.

Lemma doubles2_canon : forall n m A M, doubles2 n m A M ->
  forall i j, (i < n)%nat -> (j < m)%nat -> canon (A i j) /\ Rabs (mvals A i j) <= M.
Proof. intros n m A M H i j Hi Hj. destruct (H i j Hi Hj) as (H1 & H2 & H3). split; [apply valid_canon; assumption|exact H3]. Qed.

(** C88: center_km: every entry of the centred matrix of an n x n matrix with entries of magnitude at most M
    is off by at most 32 n eps M (and a multiple of the least positive number), whatever the order of the
    sums in the matrix products. *)
Lemma pf_C88_center : forall e n K M, decent e -> INR n <= bpow 40 -> doubles2 n n K M -> M <= bpow 1000 ->
  forall i j, (i < n)%nat -> (j < n)%nat ->
  near (centred n (mvals K) i j) (32 * INR n * eps * M + 8 * INR n * least) (fcenter e n K i j).
Proof.
  intros e n K M He Hn HK HM i j Hi Hj.
  destruct (center_any e n K M He ltac:(lia) Hn (doubles2_canon n n K M HK) HM i j Hi Hj) as [C E].
  split; [apply canon_finite, C|]. apply Rle_trans with (1 := E).
  assert (HM0 : 0 <= M) by (eapply Rle_trans; [apply Rabs_pos|apply (HK i j Hi Hj)]).
  assert (HN := pos_INR n). assert (He0 := eps_pos). assert (Hl := least_pos).
  assert (0 <= INR n * least) by (apply Rmult_le_pos; lra).
  assert (0 <= INR n * eps * M) by (repeat apply Rmult_le_pos; lra). lra.
Qed.

(** C88: so the rows of a centred matrix add up to almost zero. *)
Lemma pf_C88_center_rows : forall e n K M, decent e -> INR n <= bpow 40 -> doubles2 n n K M -> M <= bpow 1000 ->
  forall i, (i < n)%nat ->
  Rabs (rsum n (fun j => mvals (fcenter e n K) i j)) <= INR n * (32 * INR n * eps * M + 8 * INR n * least).
Proof.
  intros e n K M He Hn HK HM i Hi.
  assert (HE : rsum n (fun j => mvals (fcenter e n K) i j) =
    rsum n (fun j => mvals (fcenter e n K) i j - centred n (mvals K) i j)).
  { rewrite (rsum_minus n (fun j => mvals (fcenter e n K) i j) (fun j => centred n (mvals K) i j)), (centred_row n (mvals K) i Hi). ring. }
  rewrite HE.
  eapply Rle_trans; [apply rsum_abs|]. rewrite <- rsum_const. apply rsum_le. intros j Hj.
  apply (pf_C88_center e n K M He Hn HK HM i j Hi Hj).
Qed.

(** C88: and a centred matrix of a positive semidefinite matrix is positive semidefinite up to rounding. *)
Lemma pf_C88_center_psd : forall e n K M, decent e -> INR n <= bpow 40 -> doubles2 n n K M -> M <= bpow 1000 ->
  psd n (mvals K) ->
  almost_psd n (mvals (fcenter e n K))
    (fun c => (32 * INR n * eps * M + 8 * INR n * least) * (rsum n (fun i => Rabs (c i)) * rsum n (fun i => Rabs (c i)))).
Proof.
  intros e n K M He Hn HK HM HP. apply (almost_psd_const n _ (centred n (mvals K))); [apply centred_psd, HP|].
  intros i j Hi Hj. apply (pf_C88_center e n K M He Hn HK HM i j Hi Hj).
Qed.

(** C88 (partial). The centred matrix of a symmetric matrix passes the symmetry test of
    KernelMatrixPrecomputed and of is_PSD as long as n M <= 2^18 (about 260000). Missing: larger entries, for
    which it is false (C88_center_symmetric_refuted). *)
Lemma pf_C88_center_symmetric_partial : forall e n K M, decent e -> doubles2 n n K M -> INR n * M <= bpow 18 ->
  INR n <= bpow 40 -> (forall i j, (i < n)%nat -> (j < n)%nat -> K i j = K j i) ->
  fnot_symmetric n (fcenter e n K) = false.
Proof.
  intros e n K M He HK HnM Hn Hsym. unfold fnot_symmetric. apply negb_false_iff. apply forallb_forall. intros i Hi. apply in_seq in Hi.
  apply forallb_forall. intros j Hj. apply in_seq in Hj.
  assert (Hi' : (i < n)%nat) by lia. assert (Hj' : (j < n)%nat) by lia. clear Hi Hj.
  assert (HN1 : 1 <= INR n) by (change 1 with (INR 1); apply le_INR; lia).
  assert (HM0 : 0 <= M) by (eapply Rle_trans; [apply Rabs_pos|apply (HK i j Hi' Hj')]).
  assert (HM18 : M <= bpow 18).
  { apply Rle_trans with (2 := HnM). rewrite <- (Rmult_1_l M) at 1. apply Rmult_le_compat_r; lra. }
  assert (HM : M <= bpow 1000) by (apply Rle_trans with (1 := HM18), bpow_le; lia).
  assert (HC := center_any e n K M He ltac:(lia) Hn (doubles2_canon n n K M HK) HM).
  destruct (HC i j Hi' Hj') as [C1 E1]. destruct (HC j i Hj' Hi') as [C2 E2].
  assert (Hs : centred n (mvals K) i j = centred n (mvals K) j i).
  { apply centred_sym; [|assumption|assumption]. intros a b Ha Hb. unfold mvals. rewrite (Hsym a b Ha Hb). reflexivity. }
  rewrite Hs in E1.
  set (B := 30 * INR n * eps * M + 4 * INR n * least) in *.
  assert (He0 := eps_pos). assert (Hl := least_pos). assert (H27 := bpow_pos (-27)).
  assert (HB : B <= 5 / 16 * bpow (-27)).
  { assert (T1 : INR n * eps * M <= bpow (-34)).
    { replace (INR n * eps * M) with (INR n * M * eps) by ring. change (-34)%Z with (18 + -52)%Z. rewrite bpow_add.
      apply Rmult_le_compat_r; [apply Rlt_le, bpow_pos|exact HnM]. }
    assert (T2 : INR n * least <= bpow (-34)).
    { apply Rle_trans with (bpow 40 * least); [apply Rmult_le_compat_r; lra|]. unfold least. rewrite <- bpow_add. apply bpow_le. lia. }
    assert (T3 : bpow (-27) = 128 * bpow (-34)).
    { change (-27)%Z with (7 + -34)%Z. rewrite bpow_add. f_equal. change (bpow 7) with (2 * (2 * (2 * (2 * (2 * (2 * (2 * 1))))))). ring. }
    unfold B. rewrite T3. lra. }
  apply close_any; [exact C1|exact C2| |].
  - change (fval (fcenter e n K j i)) with (mvals (fcenter e n K) j i).
    assert (Hc : Rabs (centred n (mvals K) j i) <= 4 * M).
    { apply centred_bound; try assumption. intros a b Ha Hb. apply (HK a b Ha Hb). }
    replace (mvals (fcenter e n K) j i) with ((mvals (fcenter e n K) j i - centred n (mvals K) j i) + centred n (mvals K) j i) by ring.
    eapply Rle_trans; [apply Rabs_triang|].
    assert (Hbig : bpow (-27) + 4 * bpow 18 <= bpow 1000).
    { assert (bpow (-27) <= bpow 18) by (apply bpow_le; lia).
      apply Rle_trans with (bpow (3 + 18)); [rewrite bpow_add; change (bpow 3) with (2 * (2 * (2 * 1))); assert (Hp := bpow_pos 18); lra|apply bpow_le; lia]. }
    lra.
  - change (fval (fcenter e n K i j)) with (mvals (fcenter e n K) i j). change (fval (fcenter e n K j i)) with (mvals (fcenter e n K) j i).
    replace (mvals (fcenter e n K) i j - mvals (fcenter e n K) j i) with
      ((mvals (fcenter e n K) i j - centred n (mvals K) j i) + - (mvals (fcenter e n K) j i - centred n (mvals K) j i)) by ring.
    eapply Rle_trans; [apply Rabs_triang|]. rewrite Rabs_Ropp. lra.
Qed.

Lemma decent_left : decent plain_left.
Proof.
  destruct pf_C76_platform_example as [_ _ H3 H4 H5 H6 H7].
  assert (Hs : forall l, adds_up l (fold_left fadd l fzero)) by (intros l; apply (adds_left l [] fzero), adds_zero).
  constructor; assumption.
Qed.

Lemma valid_all : forall n m A, forallb (fun i => forallb (fun j => f_finite (A i j) && valid_binary 53 1024 (A i j)) (seq 0 m)) (seq 0 n) = true ->
  forall i j, (i < n)%nat -> (j < m)%nat -> f_finite (A i j) = true /\ valid_binary 53 1024 (A i j) = true.
Proof.
  intros n m A H i j Hi Hj. rewrite forallb_forall in H. specialize (H i ltac:(apply in_seq; lia)). rewrite forallb_forall in H.
  specialize (H j ltac:(apply in_seq; lia)). apply andb_true_iff in H. exact H.
Qed.

Lemma far3_vals : forall i j, (i < 3)%nat -> (j < 3)%nat -> mvals far3 i j = (100000 + INR i) * (100000 + INR j).
Proof.
  intros i j Hi Hj. unfold mvals, far3.
  assert (Hz : (Z.abs ((100000 + Z.of_nat i) * (100000 + Z.of_nat j)) < 2 ^ 53)%Z).
  { apply Z.le_lt_trans with (200000 * 200000)%Z; [|reflexivity]. rewrite Z.abs_eq by (apply Z.mul_nonneg_nonneg; lia).
    apply Z.mul_le_mono_nonneg; lia. }
  rewrite (proj2 (fint_any _ Hz)). rewrite mult_IZR, !plus_IZR, <- !INR_IZR_INZ. reflexivity.
Qed.

Lemma far3_doubles : doubles2 3 3 far3 (bpow 34).
Proof.
  intros i j Hi Hj. destruct (valid_all 3 3 far3 ltac:(vm_compute; reflexivity) i j Hi Hj) as [V1 V2]. split; [exact V1|]. split; [exact V2|].
  rewrite far3_vals by assumption. assert (A : forall k, (k < 3)%nat -> 0 <= INR k <= 2).
  { intros k Hk. split; [apply pos_INR|]. change 2 with (INR 2). apply le_INR. lia. }
  assert (Ai := A i Hi). assert (Aj := A j Hj). rewrite Rabs_pos_eq by (apply Rmult_le_pos; lra).
  apply Rle_trans with (100002 * 100002); [apply Rmult_le_compat; lra|]. rewrite bpow_IZR by lia. change (2 ^ 34)%Z with 17179869184%Z. lra.
Qed.

(** C88 is false for larger entries: the kernel matrix of LinearKernel on the sample 100000, 100001, 100002 is
    symmetric and positive semidefinite, but the result of center_km is rejected by KernelMatrixPrecomputed as
    not symmetric, and is_PSD returns False for it; also when sums are accumulated in the other direction. *)
Lemma pf_C88_center_symmetric_refuted : exists e e' n K M, decent e /\ decent e' /\ e_acc e [fone; ftwo] = e_acc e' [ftwo; fone] /\
  doubles2 n n K M /\ M <= bpow 34 /\ n = 3%nat /\ psd n (mvals K) /\
  (forall i j, (i < n)%nat -> (j < n)%nat -> K i j = K j i) /\
  fnot_symmetric n K = false /\ fnot_symmetric n (fcenter e n K) = true /\ fnot_symmetric n (fcenter e' n K) = true.
Proof.
  exists plain, plain_left, 3%nat, far3, (bpow 34).
  split; [apply pf_C76_platform_example|]. split; [apply decent_left|]. split; [vm_compute; reflexivity|].
  split; [exact far3_doubles|]. split; [lra|]. split; [reflexivity|]. split; [|split; [|split; [|split]]].
  - split.
    + intros i j Hi Hj. rewrite !far3_vals by assumption. ring.
    + intros c. unfold quad. rewrite (rsum_ext 3 _ (fun i => (c i * (100000 + INR i)) * rsum 3 (fun j => c j * (100000 + INR j)))).
      * rewrite rsum_scal_r. apply Rle_0_sqr.
      * intros i Hi. rewrite <- rsum_scal. apply rsum_ext. intros j Hj. rewrite far3_vals by assumption. ring.
  - intros i j Hi Hj. unfold far3. f_equal. ring.
  - vm_compute. reflexivity.
  - vm_compute. reflexivity.
  - vm_compute. reflexivity.
Qed.

(** C88: frobenius_product of two n x m matrices: off by at most n m eps sum |A_ij B_ij|. *)
Lemma pf_C88_frobenius : forall e n m A B a b, decent e -> INR (n * m) <= bpow 50 -> doubles2 n m A a -> doubles2 n m B b ->
  fprod n m (fun i j => Rabs (mvals A i j)) (fun i j => Rabs (mvals B i j)) <= bpow 1010 ->
  near (fprod n m (mvals A) (mvals B))
    (INR (n * m) * eps * fprod n m (fun i j => Rabs (mvals A i j)) (fun i j => Rabs (mvals B i j)) + INR (n * m) * least)
    (ffrobenius e n m A B).
Proof.
  intros e n m A B a b He Hn HA HB HS.
  assert (HE : absprod n m (mvals A) (mvals B) = fprod n m (fun i j => Rabs (mvals A i j)) (fun i j => Rabs (mvals B i j))).
  { unfold absprod, fprod. apply rsum_ext. intros. apply rsum_ext. intros. apply Rabs_mult. }
  destruct (frob_any e n m A B (absprod n m (mvals A) (mvals B)) He Hn) as [C E].
  - intros i j Hi Hj. split; [apply (doubles2_canon n m A a HA i j Hi Hj)|apply (doubles2_canon n m B b HB i j Hi Hj)].
  - apply Rle_refl.
  - rewrite HE. exact HS.
  - rewrite HE in E. split; [apply canon_finite, C|exact E].
Qed.

(** C88: frobenius_norm has a relative error of at most (n m + 1) eps, apart from underflow. *)
Lemma pf_C88_frobenius_norm : forall e n m A a, decent e -> INR (n * m) <= bpow 50 -> doubles2 n m A a ->
  fprod n m (mvals A) (mvals A) <= bpow 1010 ->
  f_nonneg (ffrobenius_norm e n m A) = true /\
  near (fnorm n m (mvals A)) ((INR (n * m) + 1) * eps * fnorm n m (mvals A) + 2 * sqrt (INR (n * m) * least))
    (ffrobenius_norm e n m A).
Proof.
  intros e n m A a He Hn HA HS.
  destruct (norm_any e n m A He Hn (fun i j Hi Hj => proj1 (doubles2_canon n m A a HA i j Hi Hj)) HS) as (C & P & E).
  split; [apply nonneg_of_fval; assumption|]. split; [apply canon_finite, C|exact E].
Qed.

(** C88: alignment_centered on centred matrices (centered_already=True): when it returns a value computed from
    the matrices, it is the cosine of the angle between them up to 16 n^2 eps. *)
Lemma pf_C88_alignment : forall e n A B a b v, decent e -> INR (n * n) <= bpow 40 -> doubles2 n n A a -> doubles2 n n B b ->
  fprod n n (mvals A) (mvals A) <= bpow 1000 -> fprod n n (mvals B) (mvals B) <= bpow 1000 ->
  falignment e n A B None true = Ok v ->
  near (fprod n n (mvals A) (mvals B) / (fnorm n n (mvals A) * fnorm n n (mvals B))) (16 * INR (n * n) * eps) v.
Proof.
  intros e n A B a b v He Hn HA HB SA SB Hv.
  destruct (align_any e n A B v He Hn) as (_ & _ & _ & C & E); try assumption.
  - intros i j Hi Hj. split; [apply (doubles2_canon n n A a HA i j Hi Hj)|apply (doubles2_canon n n B b HB i j Hi Hj)].
  - split; [apply canon_finite, C|exact E].
Qed.

Lemma fprod_bound : forall n m A M, 0 <= M -> (forall i j, (i < n)%nat -> (j < m)%nat -> Rabs (A i j) <= M) ->
  fprod n m A A <= INR (n * m) * (M * M).
Proof.
  intros n m A M HM H. unfold fprod. apply Rle_trans with (rsum n (fun _ => INR m * (M * M))).
  - apply rsum_le. intros i Hi. rewrite <- rsum_const. apply rsum_le. intros j Hj.
    rewrite <- (Rabs_pos_eq (A i j * A i j)) by apply Rle_0_sqr. rewrite Rabs_mult.
    apply Rmult_le_compat; try apply Rabs_pos; apply H; assumption.
  - rewrite rsum_const, mult_INR. apply Req_le. ring.
Qed.

Lemma square_n : forall n, INR (n * n) <= bpow 40 -> INR n <= bpow 40.
Proof.
  intros n H. apply Rle_trans with (2 := H). apply le_INR. nia.
Qed.

(** The matrices whose alignment is computed, with or without centering, are small enough. *)
Lemma align_args : forall e n K M (c : bool), decent e -> INR (n * n) <= bpow 40 -> doubles2 n n K M -> M <= bpow 400 ->
  let A := if c then K else fcenter e n K in
  (forall i j, (i < n)%nat -> (j < n)%nat -> canon (A i j)) /\ fprod n n (mvals A) (mvals A) <= bpow 1000.
Proof.
  intros e n K M c He Hnn HK HM A.
  assert (Hn := square_n n Hnn).
  destruct (Nat.eq_dec n 0) as [H0|H0].
  { subst n. split; [intros; lia|]. unfold fprod. cbn [rsum]. apply Rlt_le, bpow_pos. }
  assert (HM0 : 0 <= M) by (eapply Rle_trans; [apply Rabs_pos|apply (HK O O); lia]).
  assert (HA : forall i j, (i < n)%nat -> (j < n)%nat -> canon (A i j) /\ Rabs (mvals A i j) <= bpow 410).
  { intros i j Hi Hj. destruct c.
    - destruct (doubles2_canon n n K M HK i j Hi Hj) as [C B]. split; [exact C|]. apply Rle_trans with (1 := B), Rle_trans with (1 := HM), bpow_le. lia.
    - destruct (center_any e n K M He ltac:(lia) Hn (doubles2_canon n n K M HK) ltac:(apply Rle_trans with (1 := HM), bpow_le; lia) i j Hi Hj) as [C E].
      split; [exact C|]. change (mvals A i j) with (mvals (fcenter e n K) i j).
      assert (He0 := eps_pos). assert (Hl := least_pos). assert (HN := pos_INR n).
      assert (Hne : INR n * eps <= 1).
      { apply Rle_trans with (bpow 40 * eps); [apply Rmult_le_compat_r; lra|]. unfold eps. rewrite <- bpow_add, <- bpow_0. apply bpow_le. lia. }
      assert (Hnl : INR n * least <= 1).
      { apply Rle_trans with (bpow 40 * least); [apply Rmult_le_compat_r; lra|]. unfold least. rewrite <- bpow_add, <- bpow_0. apply bpow_le. lia. }
      assert (Hc : Rabs (centred n (mvals K) i j) <= 4 * M).
      { apply centred_bound; try assumption. intros a b Ha Hb. apply (HK a b Ha Hb). }
      replace (mvals (fcenter e n K) i j) with ((mvals (fcenter e n K) i j - centred n (mvals K) i j) + centred n (mvals K) i j) by ring.
      eapply Rle_trans; [apply Rabs_triang|].
      assert (T1 : INR n * eps * M <= 1 * M) by (apply Rmult_le_compat_r; assumption).
      assert (T2 : 38 * bpow 400 <= bpow 410).
      { change 410%Z with (10 + 400)%Z. rewrite bpow_add. apply Rmult_le_compat_r; [apply Rlt_le, bpow_pos|]. rewrite bpow_IZR by lia. change (2 ^ 10)%Z with 1024%Z. lra. }
      assert (T3 : 1 <= bpow 400) by (rewrite <- bpow_0; apply bpow_le; lia). lra. }
  split; [intros i j Hi Hj; apply (HA i j Hi Hj)|].
  eapply Rle_trans; [apply (fprod_bound n n (mvals A) (bpow 410)); [apply Rlt_le, bpow_pos|intros i j Hi Hj; apply (HA i j Hi Hj)]|].
  apply Rle_trans with (bpow 40 * (bpow 410 * bpow 410)).
  - apply Rmult_le_compat_r; [apply Rmult_le_pos; apply Rlt_le, bpow_pos|exact Hnn].
  - rewrite <- !bpow_add. apply bpow_le. lia.
Qed.

Lemma align_centred : forall e n A B c v, falignment e n A B None c = Ok v ->
  falignment e n (if c then A else fcenter e n A) (if c then B else fcenter e n B) None true = Ok v.
Proof. intros e n A B [|] v H; exact H. Qed.

(** C88: alignment_centered, with and without centering, returns a value computed from the matrices between
    -1 and 1 up to 16 n^2 eps; it is finite. *)
Lemma pf_C88_alignment_range : forall e n A B M c v, decent e -> INR (n * n) <= bpow 40 -> doubles2 n n A M -> doubles2 n n B M ->
  M <= bpow 400 -> falignment e n A B None c = Ok v ->
  near 0 (1 + 16 * INR (n * n) * eps) v.
Proof.
  intros e n A B M c v He Hn HA HB HM Hv. apply align_centred in Hv.
  destruct (align_args e n A M c He Hn HA HM) as [CA SA]. destruct (align_args e n B M c He Hn HB HM) as [CB SB].
  set (a := if c then A else fcenter e n A) in *. set (b := if c then B else fcenter e n B) in *.
  destruct (align_any e n a b v He Hn (fun i j Hi Hj => conj (CA i j Hi Hj) (CB i j Hi Hj)) SA SB Hv) as (_ & Na & Nb & C & E).
  split; [apply canon_finite, C|]. rewrite Rminus_0_r.
  set (x := fnorm n n (mvals a) * fnorm n n (mvals b)) in *.
  assert (Hx : 0 < x) by (apply Rmult_lt_0_compat; assumption).
  assert (Hr : Rabs (fprod n n (mvals a) (mvals b) / x) <= 1).
  { unfold Rdiv. rewrite Rabs_mult, (Rabs_pos_eq (/ x)) by (apply Rlt_le, Rinv_0_lt_compat, Hx).
    apply (Rmult_le_reg_r x); [exact Hx|]. rewrite Rmult_assoc, Rinv_l, Rmult_1_r, Rmult_1_l by lra.
    apply Rle_trans with (absprod n n (mvals a) (mvals b)); [apply fprod_absprod|apply fprod_cs_abs]. }
  replace (fval v) with ((fval v - fprod n n (mvals a) (mvals b) / x) + fprod n n (mvals a) (mvals b) / x) by ring.
  eapply Rle_trans; [apply Rabs_triang|]. lra.
Qed.

(** C88: the alignment of a matrix with itself is 1 up to 16 n^2 eps. *)
Lemma pf_C88_alignment_self : forall e n A M c v, decent e -> INR (n * n) <= bpow 40 -> doubles2 n n A M ->
  M <= bpow 400 -> falignment e n A A None c = Ok v ->
  near 1 (16 * INR (n * n) * eps) v.
Proof.
  intros e n A M c v He Hn HA HM Hv. apply align_centred in Hv.
  destruct (align_args e n A M c He Hn HA HM) as [CA SA].
  set (a := if c then A else fcenter e n A) in *.
  destruct (align_any e n a a v He Hn (fun i j Hi Hj => conj (CA i j Hi Hj) (CA i j Hi Hj)) SA SA Hv) as (_ & Na & _ & C & E).
  split; [apply canon_finite, C|].
  assert (P : 0 <= fprod n n (mvals a) (mvals a)) by (apply rsum_nonneg; intros; apply rsum_sqr_nonneg).
  assert (Q : fprod n n (mvals a) (mvals a) = fnorm n n (mvals a) * fnorm n n (mvals a)) by (unfold fnorm; rewrite sqrt_sqrt by exact P; reflexivity).
  rewrite Q in E. replace (fnorm n n (mvals a) * fnorm n n (mvals a) / (fnorm n n (mvals a) * fnorm n n (mvals a))) with 1 in E by (field; lra).
  exact E.
Qed.

Lemma slope_vals : forall i j, (i < 3)%nat -> (j < 3)%nat -> mvals slope i j = 1000000000 * (INR i + INR j + 1).
Proof.
  intros i j Hi Hj. unfold mvals, slope.
  rewrite (proj2 (fint_any (1000000000 * (Z.of_nat i + Z.of_nat j + 1)) ltac:(lia))). rewrite mult_IZR, !plus_IZR, <- !INR_IZR_INZ. reflexivity.
Qed.

Lemma slope_zero : forall i j, (i < 3)%nat -> (j < 3)%nat -> centred 3 (mvals slope) i j = 0.
Proof.
  intros i j Hi Hj. unfold centred, rowmean, colmean, allmean. cbn [rsum]. rewrite !slope_vals by (assumption || lia).
  change (INR 3) with (1 + 1 + 1). change (INR 2) with (1 + 1). change (INR 1) with 1. change (INR 0) with 0. field.
Qed.

(** C88: the test for a zero norm does not see that a centred matrix is zero: for the matrix
    10^9 (i + j + 1), whose centred matrix is zero, alignment_centered with value_if_zero_division='raise'
    raises no ValueError but returns a number, which depends on the order of summation. *)
Lemma pf_C88_zero_norm_refuted : exists e e' n A B v v', decent e /\ decent e' /\
  doubles2 n n A (bpow 34) /\ doubles2 n n B (bpow 34) /\ fnorm n n (centred n (mvals A)) = 0 /\
  falignment e n A B None false = Ok v /\ fval v < - / 32 /\
  falignment e' n A B None false = Ok v' /\ 0 < fval v'.
Proof.
  exists plain, plain_left, 3%nat, slope, far3, (S754_finite true 8633106253143557 (-57)), (S754_finite false 6605246221702205 (-76)).
  split; [apply pf_C76_platform_example|]. split; [apply decent_left|]. split; [|split; [exact far3_doubles|]].
  { intros i j Hi Hj. destruct (valid_all 3 3 slope ltac:(vm_compute; reflexivity) i j Hi Hj) as [V1 V2]. split; [exact V1|]. split; [exact V2|].
    rewrite slope_vals by assumption. assert (A : forall k, (k < 3)%nat -> 0 <= INR k <= 2).
    { intros k Hk. split; [apply pos_INR|]. change 2 with (INR 2). apply le_INR. lia. }
    assert (Ai := A i Hi). assert (Aj := A j Hj). rewrite Rabs_pos_eq by lra. rewrite bpow_IZR by lia. change (2 ^ 34)%Z with 17179869184%Z. lra. }
  split. { unfold fnorm.
    replace (fprod 3 3 (centred 3 (mvals slope)) (centred 3 (mvals slope))) with 0; [apply sqrt_0|].
    symmetry. unfold fprod. apply rsum_zero. intros i Hi. apply rsum_zero. intros j Hj. rewrite slope_zero by assumption. ring. }
  split; [vm_compute; reflexivity|]. split.
  { cbn [fval]. unfold sgn. change (-57)%Z with (- (57))%Z. rewrite bpow_neg, bpow_IZR by lia. change (2 ^ 57)%Z with 144115188075855872%Z. lra. }
  split; [vm_compute; reflexivity|].
  cbn [fval]. unfold sgn. assert (H := bpow_pos (-76)). assert (0 < IZR 6605246221702205 * bpow (-76)) by (apply Rmult_lt_0_compat; [apply IZR_lt; lia|exact H]). lra.
Qed.

(** C88: linear_combination without normalised weights: entry (i, j) is off by at most
    L eps sum_k |w_k K_k(i,j)| for L matrices. *)
Lemma pf_C88_linear_combination : forall e L n m w Ks a b C,
  INR L <= bpow 50 -> (forall k, (k < L)%nat -> f_finite (w k) = true /\ valid_binary 53 1024 (w k) = true /\ Rabs (fval (w k)) <= a) ->
  (forall k, (k < L)%nat -> doubles2 n m (Ks k) b) -> INR L * (a * b) <= bpow 1010 ->
  flinear_combination e false (map w (seq 0 L)) (map Ks (seq 0 L)) = Ok C ->
  forall i j, (i < n)%nat -> (j < m)%nat ->
  near (rsum L (fun k => fval (w k) * mvals (Ks k) i j))
       (INR L * eps * rsum L (fun k => Rabs (fval (w k)) * Rabs (mvals (Ks k) i j)) + INR L * least) (C i j).
Proof.
  intros e L n m w Ks a b C HL Hw HK Hab HC i j Hi Hj. unfold flinear_combination in HC. rewrite !map_length, Nat.eqb_refl in HC.
  cbn [fweights res_map] in HC. injection HC as HC. subst C.
  assert (HE : rsum L (fun k => Rabs (fval (w k)) * Rabs (mvals (Ks k) i j)) = rsum L (fun k => Rabs (fval (w k) * fval (Ks k i j)))).
  { apply rsum_ext. intros k Hk. rewrite Rabs_mult. reflexivity. }
  rewrite HE.
  destruct (prods_any L w (fun k => Ks k i j) _ (rsum L (fun k => Rabs (fval (w k) * fval (Ks k i j)))) (combine_adds L w Ks i j) HL) as [Cv Ev].
  - intros k Hk. split; [apply valid_canon; apply Hw, Hk|apply (doubles2_canon n m (Ks k) b (HK k Hk) i j Hi Hj)].
  - apply Rle_refl.
  - apply Rle_trans with (2 := Hab). rewrite <- rsum_const. apply rsum_le. intros k Hk. rewrite Rabs_mult.
    apply Rmult_le_compat; try apply Rabs_pos; [apply Hw, Hk|apply (HK k Hk i j Hi Hj)].
  - split; [apply canon_finite, Cv|exact Ev].
Qed.

(** C88: with norm_weights=True and weights that are not negative: when it returns, the sum of the weights is
    positive, and entry (i, j) is the weighted mean up to 8 L eps M. *)
Lemma pf_C88_weighted_mean : forall e L n m w Ks M C, decent e ->
  INR L <= bpow 40 -> (forall k, (k < L)%nat -> f_finite (w k) = true /\ valid_binary 53 1024 (w k) = true /\ 0 <= fval (w k)) ->
  rsum L (fun k => fval (w k)) <= bpow 1000 ->
  (forall k, (k < L)%nat -> doubles2 n m (Ks k) M) -> M <= bpow 1000 ->
  flinear_combination e true (map w (seq 0 L)) (map Ks (seq 0 L)) = Ok C ->
  0 < rsum L (fun k => fval (w k)) /\
  forall i j, (i < n)%nat -> (j < m)%nat ->
  near (rsum L (fun k => fval (w k) * mvals (Ks k) i j) / rsum L (fun k => fval (w k))) (8 * INR L * eps * M + INR L * least) (C i j).
Proof.
  intros e L n m w Ks M C He HL Hw HW HK HM HC. unfold flinear_combination in HC. rewrite !map_length, Nat.eqb_refl in HC.
  unfold fweights in HC. destruct (fisclose (e_sum e (map w (seq 0 L))) fzero) eqn:Hd; [discriminate HC|].
  cbn [res_map] in HC. injection HC as HC. subst C.
  assert (Hw' : forall k, (k < L)%nat -> canon (w k) /\ 0 <= fval (w k)).
  { intros k Hk. destruct (Hw k Hk) as (W1 & W2 & W3). split; [apply valid_canon; assumption|exact W3]. }
  split.
  - apply (norm_combine_any e L w (fun _ _ _ => fzero) 0 O O He HL Hw' HW); [|apply Rlt_le, bpow_pos|exact Hd].
    intros k Hk. split; [exact I|]. cbn. rewrite Rabs_R0. lra.
  - intros i j Hi Hj.
    destruct (norm_combine_any e L w Ks M i j He HL Hw' HW (fun k Hk => doubles2_canon n m (Ks k) M (HK k Hk) i j Hi Hj) HM Hd) as (_ & Cv & Ev).
    split; [apply canon_finite, Cv|exact Ev].
Qed.

(** C88: cases that meet the hypotheses: the matrices [far3] and [small3] on the plain platform; alignment and
    linear combination return, and the last alignment is not exactly 1. *)
Lemma pf_C88_example : decent plain /\ decent plain_left /\ doubles2 3 3 far3 (bpow 34) /\ doubles2 3 3 small3 4 /\
  INR 3 * 4 <= bpow 18 /\ (forall i j, small3 i j = small3 j i) /\ fnot_symmetric 3 (fcenter plain 3 small3) = false /\
  falignment plain 3 far3 far3 None false = Ok (S754_finite false 9007199254740991 (-53)) /\
  falignment plain 3 far3 small3 None true = Ok (S754_finite false 5404391609597966 (-53)) /\
  res_map (fun C => C 2%nat 1%nat) (flinear_combination plain true [fint 1; fint 3] [far3; small3]) =
    Ok (S754_finite false 5243037290594304 (-21)).
Proof.
  split; [apply pf_C76_platform_example|]. split; [apply decent_left|]. split; [exact far3_doubles|]. split; [|split; [|split]].
  - intros i j Hi Hj. destruct (valid_all 3 3 small3 ltac:(vm_compute; reflexivity) i j Hi Hj) as [V1 V2]. split; [exact V1|]. split; [exact V2|].
    unfold mvals, small3. assert (Hb : (0 <= Z.of_nat i * Z.of_nat j <= 4)%Z).
    { split; [apply Z.mul_nonneg_nonneg; lia|]. change 4%Z with (2 * 2)%Z. apply Z.mul_le_mono_nonneg; lia. }
    rewrite (proj2 (fint_any (Z.of_nat i * Z.of_nat j) ltac:(lia))), Rabs_pos_eq by (apply IZR_le; lia). apply IZR_le. lia.
  - rewrite bpow_IZR by lia. change (2 ^ 18)%Z with 262144%Z. cbn [INR]. lra.
  - intros i j. unfold small3. f_equal. ring.
  - split; [vm_compute; reflexivity|]. split; [vm_compute; reflexivity|]. split; vm_compute; reflexivity.
Qed.
