(** C93: the Frobenius norm of sparse matrices in double precision. *)
From Coq Require Import String ZArith Bool List Permutation Lia Lra Reals Floats.SpecFloat Arith.
Import ListNotations.
From Verif Require Import Prelude MatModel UtilsModel KMModel KernelsModel FloatModel FloatOpsModel SpecFloats SpecFloatVal
  SpecFloatErr SpecFloatOps SpecLinAlg FloatKMModel.
From Verif Require Import MatFacts RSum.
From Verif Require Import FloatProps FloatNormProps FloatRound FloatErrProps FloatAny FloatSum FloatDiv FloatDotProps FloatOpsFacts.
Local Open Scope R_scope.

Lemma adds_perm : forall l v, adds_up l v -> forall l', Permutation l l' -> adds_up l' v.
Proof.
  intros l v H. induction H as [s|v|l1 l2 l a b H1 IH1 H2 IH2 HP]; intros l' Hl.
  - apply Permutation_nil in Hl. subst. constructor.
  - apply Permutation_length_1_inv in Hl. subst. constructor.
  - apply (adds_plus l1 l2); [exact H1|exact H2|]. eapply Permutation_trans; [apply Permutation_sym, Hl|exact HP].
Qed.

(** Leaving out zeros changes at most the sign of a zero. *)
Lemma same_add_zero : forall z v, f_iszero z = true -> f_same (fadd z v) v.
Proof.
  intros z v Hz. destruct z; try discriminate Hz. destruct v as [t|t| |t m e]; try (left; reflexivity).
  right. split; [|reflexivity]. cbn. destruct (Bool.eqb _ _); reflexivity.
Qed.
Lemma adds_filter : forall (f : nat -> f64) (g : nat -> bool) l v, adds_up (map f (filter g l)) v ->
  (forall k, In k l -> g k = false -> f_iszero (f k) = true) ->
  exists v', f_same v' v /\ adds_up (map f l) v'.
Proof.
  intros f g l.
  assert (G : forall ll, (forall k, In k ll -> g k = false -> f_iszero (f k) = true) ->
    exists zs, forallb f_iszero zs = true /\ Permutation (map f ll) (zs ++ map f (filter g ll))).
  { induction ll as [|k l0 IH]; intros Hz; [exists []; split; [reflexivity|apply Permutation_refl]|].
    destruct IH as (zs & Hzs & HP); [intros; apply Hz; [right|]; assumption|]. cbn [map filter].
    destruct (g k) eqn:Hk.
    - exists zs. split; [exact Hzs|]. cbn [map]. apply Permutation_cons_app. exact HP.
    - exists (f k :: zs). split; [cbn; rewrite (Hz k (or_introl eq_refl) Hk); exact Hzs|]. cbn. constructor. exact HP. }
  intros v Hv Hz. destruct (G l Hz) as (zs & Hzs & HP). clear G Hz.
  assert (G : forall zs, forallb f_iszero zs = true -> exists v', f_same v' v /\ adds_up (zs ++ map f (filter g l)) v').
  { induction zs0 as [|z zs0 IH]; intros H; [exists v; split; [left; reflexivity|exact Hv]|].
    cbn in H. apply andb_true_iff in H. destruct H as [H1 H2]. destruct (IH H2) as (v' & HS & HA).
    exists (fadd z v'). split.
    - destruct (same_add_zero z v' H1) as [->|[Ha Hb]]; [exact HS|]. destruct HS as [->|[_ Hc]]; right; auto.
    - apply (adds_plus [z] (zs0 ++ map f (filter g l))); [constructor|exact HA|apply Permutation_refl]. }
  destruct (G zs Hzs) as (v' & HS & HA). exists v'. split; [exact HS|].
  apply (adds_perm _ _ HA). apply Permutation_sym, HP.
Qed.

Lemma same_canon : forall x y, f_same x y -> canon x -> canon y /\ fval y = fval x.
Proof.
  intros x y [->|[Hx Hy]] C; [auto|]. destruct x; try discriminate Hx. destruct y; try discriminate Hy. split; [exact I|reflexivity].
Qed.

Lemma rsum_near : forall n f g d, (forall i, (i < n)%nat -> Rabs (f i - g i) <= d) -> Rabs (rsum n f - rsum n g) <= INR n * d.
Proof.
  intros n f g d H. rewrite <- rsum_minus. eapply Rle_trans; [apply rsum_abs|]. rewrite <- rsum_const. apply rsum_le. exact H.
Qed.

(** A level of summation: terms off by [b] from numbers of magnitude at most [c]. *)
Lemma level : forall n (x : nat -> f64) v (r : nat -> R) b c, adds_up (map x (seq 0 n)) v -> INR n <= bpow 50 ->
  (forall k, (k < n)%nat -> canon (x k)) -> (forall k, (k < n)%nat -> Rabs (fval (x k) - r k) <= b) ->
  (forall k, (k < n)%nat -> Rabs (r k) <= c) -> INR n * (c + b) <= bpow 1010 ->
  canon v /\ Rabs (fval v - rsum n r) <= INR n * (INR n * eps * (c + b) + b) /\ Rabs (rsum n r) <= INR n * c.
Proof.
  intros n x v r b c Hv Hn Hc Hb Hr HB. assert (HN := pos_INR n). assert (He0 := eps_pos).
  assert (Hx : rsum n (fun k => Rabs (fval (x k))) <= INR n * (c + b)).
  { rewrite <- rsum_const. apply rsum_le. intros k Hk. specialize (Hb k Hk). specialize (Hr k Hk).
    replace (fval (x k)) with (r k + (fval (x k) - r k)) by ring. eapply Rle_trans; [apply Rabs_triang|]. lra. }
  destruct (plain_sum_any n x v Hv Hn Hc) as [C E]; [lra|]. split; [exact C|]. split.
  - replace (fval v - rsum n r) with ((fval v - rsum n (fun k => fval (x k))) + (rsum n (fun k => fval (x k)) - rsum n r)) by ring.
    eapply Rle_trans; [apply Rabs_triang|].
    assert (H1 := rsum_near n (fun k => fval (x k)) r b Hb).
    assert (H2 : INR n * eps * rsum n (fun k => Rabs (fval (x k))) <= INR n * eps * (INR n * (c + b))).
    { apply Rmult_le_compat_l; [apply Rmult_le_pos; lra|exact Hx]. }
    replace (INR n * (INR n * eps * (c + b) + b)) with (INR n * eps * (INR n * (c + b)) + INR n * b) by ring. lra.
  - eapply Rle_trans; [apply rsum_abs|]. rewrite <- rsum_const. apply rsum_le. exact Hr.
Qed.

(** C93. The Frobenius norm of a sparse matrix is computed as the square root of the sum of the entries of the matrix
    product A A: for an n x n matrix of finite doubles of magnitude at most M the radicand is off by at most
    4 n^4 eps M^2 and a multiple of the least positive number. *)
Lemma pf_C93_sparse_norm :
  forall e a n M, decent e -> INR n <= bpow 40 -> is_sparse a = true -> mr (amat a) = n -> mc (amat a) = n ->
    doubles2 n n (fget (amat a)) M -> INR n * (INR n * (INR n * (M * M))) <= bpow 1000 ->
    let A := mvals (fget (amat a)) in
    exists s, ffrob_norm e a = Ok (fsqrt s) /\
      near (rsum n (fun i => rsum n (fun j => rsum n (fun k => A i k * A k j))))
           (4 * INR n ^ 4 * eps * (M * M) + 2 * INR n ^ 3 * least) s.
Proof.
  intros e a n M He Hn Hs Hr Hc HA HM A. unfold ffrob_norm. rewrite Hs, Hr, Hc, Nat.eqb_refl.
  set (F := fget (amat a)) in *. set (P := fun i j => e_acc e (map (fun k => fmul (F i k) (F k j))
     (filter (fun k => fnonzero (F i k) && fnonzero (F k j)) (seq 0 n)))).
  eexists. split; [reflexivity|].
  assert (HN : 0 <= INR n) by apply pos_INR. assert (He0 := eps_pos). assert (Hl0 := least_pos).
  set (t := INR n * eps). set (L := INR n * least). set (T := INR n * (M * M)).
  assert (Ht : 0 <= t <= / 4096).
  { split; [apply Rmult_le_pos; lra|]. unfold t, eps. apply Rle_trans with (bpow 40 * bpow (-52)).
    - apply Rmult_le_compat_r; [apply Rlt_le, bpow_pos|exact Hn].
    - rewrite <- bpow_add. replace (/ 4096) with (bpow (-12)) by (change (-12)%Z with (- (12))%Z; rewrite bpow_neg, bpow_IZR by lia; reflexivity). apply bpow_le. lia. }
  assert (HL : 0 <= L <= 1).
  { split; [apply Rmult_le_pos; lra|]. unfold L, least. apply Rle_trans with (bpow 40 * bpow (-1074)).
    - apply Rmult_le_compat_r; [apply Rlt_le, bpow_pos|exact Hn].
    - rewrite <- bpow_add. change 1 with (bpow 0). apply bpow_le. lia. }
  assert (HT : 0 <= T) by (apply Rmult_le_pos; [exact HN|apply Rle_0_sqr]).
  assert (Hn50 : INR n <= bpow 50) by (apply Rle_trans with (1 := Hn), bpow_le; lia).
  assert (Hcan : forall i j, (i < n)%nat -> (j < n)%nat -> canon (F i j)).
  { intros i j Hi Hj. destruct (HA i j Hi Hj) as (H1 & H2 & _). apply valid_canon; assumption. }
  assert (Hcase : n = 0%nat \/ 1 <= INR n).
  { destruct n as [|n0]; [left; reflexivity|right]. rewrite S_INR. assert (H := pos_INR n0). lra. }
  assert (Hb3 : INR n * (INR n * T) <= bpow 1000) by exact HM.
  assert (HNN : INR n <= INR n * INR n).
  { destruct Hcase as [->|H1]; [cbn; lra|]. replace (INR n) with (INR n * 1) at 1 by ring. apply Rmult_le_compat_l; lra. }
  assert (Hb2 : INR n * T <= bpow 1000).
  { apply Rle_trans with (2 := Hb3). rewrite <- Rmult_assoc. apply Rmult_le_compat_r; assumption. }
  assert (Hb1 : T <= bpow 1000).
  { destruct Hcase as [H0|H1]; [unfold T; rewrite H0; change (INR 0) with 0; rewrite Rmult_0_l; apply Rlt_le, bpow_pos|].
    apply Rle_trans with (2 := Hb2). replace T with (1 * T) at 1 by ring. apply Rmult_le_compat_r; assumption. }
  assert (Hbig : 4 * bpow 1000 <= bpow 1002) by (replace (bpow 1002) with (bpow 2 * bpow 1000) by (rewrite <- bpow_add; f_equal; lia);
    apply Req_le; f_equal; rewrite bpow_IZR by lia; reflexivity).
  assert (Hbig2 : bpow 1002 <= bpow 1010) by (apply bpow_le; lia).
  assert (H80 : INR n * INR n <= bpow 80).
  { replace (bpow 80) with (bpow 40 * bpow 40) by (rewrite <- bpow_add; f_equal; lia). apply Rmult_le_compat; assumption. }
  assert (H801 : bpow 80 <= bpow 1000) by (apply bpow_le; lia).
  (* the entries of the product *)
  assert (HP : forall i j, (i < n)%nat -> (j < n)%nat -> canon (P i j) /\
     Rabs (fval (P i j) - rsum n (fun k => A i k * A k j)) <= t * T + L /\ Rabs (rsum n (fun k => A i k * A k j)) <= T).
  { intros i j Hi Hj.
    assert (HTij : rsum n (fun k => Rabs (A i k * A k j)) <= T).
    { unfold T. rewrite <- rsum_const. apply rsum_le. intros k Hk. rewrite Rabs_mult.
      destruct (HA i k Hi Hk) as (_ & _ & H1). destruct (HA k j Hk Hj) as (_ & _ & H2).
      apply Rmult_le_compat; try apply Rabs_pos; assumption. }
    destruct (adds_filter (fun k => fmul (F i k) (F k j)) (fun k => fnonzero (F i k) && fnonzero (F k j)) (seq 0 n) _ (d_acc e He _)) as (v & HS & HV).
    { intros k Hk Hz. apply in_seq in Hk. apply andb_false_iff in Hz.
      destruct (HA i k Hi ltac:(lia)) as (H1 & _). destruct (HA k j ltac:(lia) Hj) as (H2 & _).
      destruct Hz as [Hz|Hz].
      - destruct (F i k); try discriminate Hz. destruct (F k j); try discriminate H2; reflexivity.
      - apply fmul_zero; [exact H1|]. destruct (F k j); try discriminate Hz; reflexivity. }
    destruct (prods_any n (F i) (fun k => F k j) v T HV Hn50) as [C E].
    { intros k Hk. split; apply Hcan; assumption. }
    { exact HTij. }
    { lra. }
    fold (P i j) in HS. destruct (same_canon _ _ HS C) as [C' E']. split; [exact C'|]. split.
    - rewrite E'. exact E.
    - eapply Rle_trans; [apply rsum_abs|exact HTij]. }
  (* rows *)
  set (b1 := t * T + L) in *.
  assert (Htt : t * t <= / 4096 * t) by (apply Rmult_le_compat_r; lra).
  assert (HtT : t * T <= / 4096 * T) by (apply Rmult_le_compat_r; lra).
  assert (Hb1' : 0 <= b1 <= / 4096 * T + 1) by (unfold b1; assert (0 <= t * T) by (apply Rmult_le_pos; lra); lra).
  assert (HR : forall i, (i < n)%nat -> canon (e_acc e (map (P i) (seq 0 n))) /\
     Rabs (fval (e_acc e (map (P i) (seq 0 n))) - rsum n (fun j => rsum n (fun k => A i k * A k j))) <= INR n * (t * (T + b1) + b1) /\
     Rabs (rsum n (fun j => rsum n (fun k => A i k * A k j))) <= INR n * T).
  { intros i Hi. apply (level n (P i)); try assumption; try (intros; apply HP; assumption); [apply d_acc; exact He|].
    assert (INR n * (T + b1) <= INR n * (2 * T + 1)) by (apply Rmult_le_compat_l; lra). lra. }
  set (b2 := INR n * (t * (T + b1) + b1)) in *.
  assert (Hb2' : b2 <= INR n * ((2 * t + t * t) * T + (1 + t) * L)) by (apply Req_le; unfold b2, b1; ring).
  assert (Hsmall : b2 <= INR n * (T + 2)).
  { apply Rle_trans with (1 := Hb2'). apply Rmult_le_compat_l; [exact HN|].
    assert ((2 * t + t * t) * T <= 1 * T) by (apply Rmult_le_compat_r; lra).
    assert ((1 + t) * L <= 2 * 1) by (apply Rmult_le_compat; lra). lra. }
  destruct (level n (fun i => e_acc e (map (P i) (seq 0 n))) (e_sum e (map (fun i => e_acc e (map (P i) (seq 0 n))) (seq 0 n)))
     (fun i => rsum n (fun j => rsum n (fun k => A i k * A k j))) b2 (INR n * T)) as (C & E & _).
  all: try assumption; try (intros; apply HR; assumption); try (apply d_sum; exact He).
  { assert (INR n * (INR n * T + b2) <= INR n * (INR n * T + INR n * (T + 2))) by (apply Rmult_le_compat_l; lra). lra. }
  destruct (canon_valid _ C) as [Fin _]. split; [exact Fin|]. apply Rle_trans with (1 := E).
  fold t. replace (4 * INR n ^ 4 * eps * (M * M) + 2 * INR n ^ 3 * least) with (INR n * (INR n * (4 * (t * T) + 2 * L))) by (unfold t, T, L; ring).
  apply Rmult_le_compat_l; [exact HN|].
  apply Rle_trans with (t * (INR n * T + INR n * ((2 * t + t * t) * T + (1 + t) * L)) + INR n * ((2 * t + t * t) * T + (1 + t) * L)).
  - apply Rplus_le_compat; [apply Rmult_le_compat_l; lra|exact Hb2'].
  - replace (t * (INR n * T + INR n * ((2 * t + t * t) * T + (1 + t) * L)) + INR n * ((2 * t + t * t) * T + (1 + t) * L))
      with (INR n * ((3 * t + 3 * (t * t) + t * (t * t)) * T + (1 + 2 * t + t * t) * L)) by ring.
    apply Rmult_le_compat_l; [exact HN|]. replace (4 * (t * T)) with (4 * t * T) by ring.
    assert (Httt : t * (t * t) <= / 4096 * t) by (apply Rle_trans with (t * / 4096); [apply Rmult_le_compat_l; [lra|]|]; lra).
    apply Rplus_le_compat; apply Rmult_le_compat_r; lra.
Qed.

(*BEGIN PROP*)
(** The matrix with rows (1, 2) and (2, 3), sparse: the norm is sqrt(9 + 25) on the plain platform. *)
Example C93_sparse_example :
  let a := mkArr Lil (mkMat 2 2 [[fint 1; fint 2]; [fint 2; fint 3]]) in
  ffrob_norm plain a = Ok (fsqrt (fint 34)) /\ doubles2 2 2 (fget (amat a)) 4.
Proof.
  cbv zeta. split; [vm_compute; reflexivity|]. intros i j Hi Hj.
  assert (G : forall z, (0 <= z <= 3)%Z -> f_finite (fint z) = true /\ valid_binary 53 1024 (fint z) = true /\ Rabs (fval (fint z)) <= 4).
  { intros z Hz. destruct (fint_any z ltac:(lia)) as [C E]. destruct (canon_valid _ C) as [F V]. split; [exact F|]. split; [exact V|].
    rewrite E, <- abs_IZR. apply IZR_le. lia. }
  destruct i as [|[|i]]; [| |lia]; (destruct j as [|[|j]]; [| |lia]); apply (G _); lia.
Qed.
(*END PROP*)
