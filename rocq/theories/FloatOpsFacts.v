(** Rounding errors of matrix products, sums of entries and centering. *)
From Coq Require Import ZArith Bool List Permutation Reals Lia Lra Floats.SpecFloat.
From Verif Require Import Prelude KernelsModel XReal MatModel FloatModel SpecFloats SpecFloatVal SpecLinAlg RSum PSDFacts
  KernelFacts SpecKernels OpsFacts SpecFloatErr FloatProps FloatNormProps FloatRound FloatAny FloatSum FloatDiv FloatDotProps
  FloatOpsModel SpecFloatOps.
Import ListNotations.
Local Open Scope R_scope.

Lemma eps_pos : 0 < eps.
Proof. apply bpow_pos. Qed.
Lemma least_pos : 0 < least.
Proof. apply bpow_pos. Qed.

Lemma mm_any : forall e n A B i j T, decent e -> INR n <= bpow 50 ->
  (forall k, (k < n)%nat -> canon (A i k)) -> (forall k, (k < n)%nat -> canon (B k j)) ->
  rsum n (fun k => Rabs (mvals A i k * mvals B k j)) <= T -> T <= bpow 1010 ->
  canon (fmatmul e n A B i j) /\
  Rabs (fval (fmatmul e n A B i j) - rsum n (fun k => mvals A i k * mvals B k j)) <= INR n * eps * T + INR n * least.
Proof.
  intros e n A B i j T He Hn CA CB HT HB.
  assert (Hq : fmatmul e n A B i j = fdot e (features n (A i)) (features n (fun k => B k j))).
  { unfold fmatmul, fdot. rewrite zip_features. reflexivity. }
  rewrite Hq. assert (DA : doubles n (A i)) by (intros k Hk; apply canon_valid, CA, Hk).
  assert (DB : doubles n (fun k => B k j)) by (intros k Hk; apply canon_valid, CB, Hk).
  destruct (dot_any e n _ _ He DA DB Hn) as [C E].
  { apply Rle_trans with T; [exact HT|exact HB]. }
  split; [exact C|]. apply Rle_trans with (1 := E). apply Rplus_le_compat_r.
  destruct (grow_le n Hn) as [G _]. assert (G1 := grow_ge1 n).
  assert (Hz : 0 <= absinner n (vals (A i)) (vals (fun k => B k j))) by (apply rsum_nonneg; intros; apply Rabs_pos).
  apply Rmult_le_compat; [lra|exact Hz|lra|exact HT].
Qed.

(** Products with an entry off by a little. *)
Lemma rsum_bilin : forall n a b M, (forall k, (k < n)%nat -> Rabs (b k) <= M) ->
  Rabs (rsum n (fun k => a k * b k)) <= rsum n (fun k => Rabs (a k)) * M /\
  rsum n (fun k => Rabs (a k * b k)) <= rsum n (fun k => Rabs (a k)) * M.
Proof.
  intros n a b M H.
  assert (H2 : rsum n (fun k => Rabs (a k * b k)) <= rsum n (fun k => Rabs (a k)) * M).
  { rewrite <- rsum_scal_r. apply rsum_le. intros k Hk. rewrite Rabs_mult.
    apply Rmult_le_compat_l; [apply Rabs_pos|apply H, Hk]. }
  split; [|exact H2]. eapply Rle_trans; [apply rsum_abs|exact H2].
Qed.

Lemma rsum_bilin_r : forall n a b M, (forall k, (k < n)%nat -> Rabs (a k) <= M) ->
  Rabs (rsum n (fun k => a k * b k)) <= rsum n (fun k => Rabs (b k)) * M /\
  rsum n (fun k => Rabs (a k * b k)) <= rsum n (fun k => Rabs (b k)) * M.
Proof.
  intros n a b M H. destruct (rsum_bilin n b a M H) as [H1 H2].
  rewrite (rsum_ext n (fun k => a k * b k) (fun k => b k * a k)) by (intros; ring).
  rewrite (rsum_ext n (fun k => Rabs (a k * b k)) (fun k => Rabs (b k * a k))) by (intros; f_equal; ring).
  split; assumption.
Qed.

(** ** The centering matrix *)
Lemma centering_any : forall n i j, (1 <= n)%nat -> INR n <= bpow 40 ->
  canon (fcentering n i j) /\
  Rabs (mvals (fcentering n) i j - cI n i j) <= (if (j =? i)%nat then 2 * eps else 0) + eps / INR n.
Proof.
  intros n i j H1 Hn.
  assert (HN1 : 1 <= INR n) by (change 1 with (INR 1); apply le_INR; exact H1).
  assert (HI : / INR n <= 1) by (rewrite <- Rinv_1; apply Rinv_le_contravar; lra).
  assert (HI0 : 0 < / INR n) by (apply Rinv_0_lt_compat; lra).
  assert (Hu := u_pos). assert (He := u_eps). assert (Hu1 : u <= 1 / 64).
  { apply Rle_trans with (bpow (-6)); [apply bpow_le; lia|]. change (-6)%Z with (- (6))%Z. rewrite bpow_neg, bpow_IZR by lia. apply Req_le. cbn. lra. }
  assert (Hnz : (Z.of_nat n < 2 ^ 53)%Z).
  { apply lt_IZR. rewrite <- INR_IZR_INZ, <- (bpow_IZR 53) by lia. apply Rle_lt_trans with (1 := Hn). apply big. lia. }
  destruct (fint_any (Z.of_nat n) ltac:(lia)) as [Cn Vn]. rewrite <- INR_IZR_INZ in Vn.
  destruct (fint_any 1 ltac:(lia)) as [C1 V1]. fold fone in C1, V1.
  destruct (fint_any 0 ltac:(lia)) as [C0 V0]. fold fzero in C0, V0.
  set (q := fdiv fone (fint (Z.of_nat n))).
  assert (Hq : canon q /\ Rabs (fval q - / INR n) <= eps * / INR n).
  { destruct (fdiv_any fone (fint (Z.of_nat n)) C1 Cn) as [R1 R2]; [rewrite Vn; lra| |].
    - rewrite V1, Vn. unfold Rdiv. rewrite Rmult_1_l, Rabs_pos_eq by lra. apply Rle_lt_trans with (1 := HI). rewrite <- bpow_0. apply big. lia.
    - fold q in R1, R2. rewrite V1, Vn in R2. unfold Rdiv in R2. rewrite Rmult_1_l, (Rabs_pos_eq (/ INR n)) in R2 by lra.
      split; [exact R1|]. apply Rle_trans with (1 := R2). rewrite <- He.
      assert (tiny <= u * / INR n); [|lra].
      apply Rle_trans with (u * / bpow 40).
      + rewrite <- bpow_neg. unfold unit_roundoff, tiny. rewrite <- bpow_add. apply bpow_le. lia.
      + apply Rmult_le_compat_l; [lra|]. apply Rinv_le_contravar; lra. }
  destruct Hq as [Cq Eq]. assert (Eq' := Rabs_le_inv _ _ Eq).
  assert (HeI : 0 <= eps * / INR n <= eps).
  { split; [apply Rmult_le_pos; lra|]. rewrite <- (Rmult_1_r eps) at 2. apply Rmult_le_compat_l; lra. }
  set (b := (if Nat.eqb i j then fone else fzero)).
  assert (Cb : canon b) by (unfold b; destruct (Nat.eqb i j); assumption).
  assert (Vb : fval b = if Nat.eqb i j then 1 else 0) by (unfold b; destruct (Nat.eqb i j); [exact V1|exact V0]).
  assert (Hb : 0 <= fval b <= 1) by (rewrite Vb; destruct (Nat.eqb i j); lra).
  destruct (fsub_any b q Cb Cq) as (R1 & R2 & _).
  { apply Rle_lt_trans with 2; [apply Rabs_le; lra|]. change 2 with (bpow 1) at 1 || (replace 2 with (bpow 1) by (change (bpow 1) with (2 * 1); ring)). apply big. lia. }
  unfold mvals, fcentering. fold q. fold b. split; [exact R1|].
  unfold cI. rewrite (Nat.eqb_sym j i). unfold Rdiv. rewrite Rmult_1_l.
  destruct (Nat.eqb i j) eqn:Eij.
  - rewrite Vb in R2.
    replace (fval (fsub b q) - (1 - / INR n)) with ((fval (fsub b q) - (1 - fval q)) + (/ INR n - fval q)) by ring.
    eapply Rle_trans; [apply Rabs_triang|]. rewrite (Rabs_minus_sym (/ INR n)).
    assert (Ha : Rabs (1 - fval q) <= 2) by (apply Rabs_le; lra).
    assert (u * Rabs (1 - fval q) <= u * 2) by (apply Rmult_le_compat_l; lra). lra.
  - assert (Hx : fval (fsub b q) = - fval q).
    { unfold b. rewrite fsub_fadd. destruct (fadd_zero_l fzero (fopp q) eq_refl) as [-> _]. apply fval_opp. }
    rewrite Hx. replace (- fval q - (0 - / INR n)) with (- (fval q - / INR n)) by ring. rewrite Rabs_Ropp. lra.
Qed.

Lemma centering_sums : forall n i, (1 <= n)%nat -> INR n <= bpow 40 -> (i < n)%nat ->
  rsum n (fun k => Rabs (mvals (fcentering n) i k - cI n i k)) <= 3 * eps /\
  rsum n (fun k => Rabs (mvals (fcentering n) k i - cI n k i)) <= 3 * eps /\
  rsum n (fun k => Rabs (cI n i k)) <= 2 /\
  rsum n (fun k => Rabs (mvals (fcentering n) i k)) <= 3 /\
  rsum n (fun k => Rabs (mvals (fcentering n) k i)) <= 3.
Proof.
  intros n i H1 Hn Hi.
  assert (HN1 : 1 <= INR n) by (change 1 with (INR 1); apply le_INR; exact H1).
  assert (HI0 : 0 < / INR n) by (apply Rinv_0_lt_compat; lra).
  assert (HI1 : / INR n <= 1) by (rewrite <- Rinv_1; apply Rinv_le_contravar; lra).
  assert (He := eps_pos). assert (He1 : 3 * eps <= 1).
  { apply Rle_trans with (bpow 2 * eps); [change (bpow 2) with (2 * (2 * 1)); lra|]. unfold eps. rewrite <- bpow_add, <- bpow_0. apply bpow_le. lia. }
  assert (HE : forall w, w <> 0 -> INR n * (w / INR n) = w) by (intros; field; lra).
  assert (S1 : rsum n (fun k => (if (k =? i)%nat then 2 * eps else 0) + eps / INR n) = 3 * eps).
  { rewrite rsum_plus, rsum_const, (rsum_delta n i (fun _ => 2 * eps)) by exact Hi. field. lra. }
  assert (E1 : rsum n (fun k => Rabs (mvals (fcentering n) i k - cI n i k)) <= 3 * eps).
  { rewrite <- S1. apply rsum_le. intros k Hk. apply centering_any; assumption. }
  assert (E2 : rsum n (fun k => Rabs (mvals (fcentering n) k i - cI n k i)) <= 3 * eps).
  { rewrite <- S1. apply rsum_le. intros k Hk. rewrite (Nat.eqb_sym k i). apply centering_any; assumption. }
  assert (E3 : rsum n (fun k => Rabs (cI n i k)) <= 2).
  { apply Rle_trans with (rsum n (fun k => (if (k =? i)%nat then 1 else 0) + 1 / INR n)).
    - apply rsum_le. intros k Hk. unfold cI. rewrite (Nat.eqb_sym i k). destruct (k =? i)%nat; apply Rabs_le; unfold Rdiv; lra.
    - rewrite rsum_plus, rsum_const, (rsum_delta n i (fun _ => 1)) by exact Hi. apply Req_le. field. lra. }
  assert (E3' : rsum n (fun k => Rabs (cI n k i)) <= 2).
  { apply Rle_trans with (2 := E3). apply Req_le, rsum_ext. intros. now rewrite cI_sym. }
  split; [exact E1|]. split; [exact E2|]. split; [exact E3|]. split.
  - apply Rle_trans with (rsum n (fun k => Rabs (mvals (fcentering n) i k - cI n i k) + Rabs (cI n i k))).
    + apply rsum_le. intros k _. eapply Rle_trans; [|apply Rabs_triang]. apply Req_le. f_equal. ring.
    + rewrite rsum_plus. lra.
  - apply Rle_trans with (rsum n (fun k => Rabs (mvals (fcentering n) k i - cI n k i) + Rabs (cI n k i))).
    + apply rsum_le. intros k _. eapply Rle_trans; [|apply Rabs_triang]. apply Req_le. f_equal. ring.
    + rewrite rsum_plus. lra.
Qed.

(** ** center_km *)
Lemma center_any : forall e n K M, decent e -> (1 <= n)%nat -> INR n <= bpow 40 ->
  (forall i j, (i < n)%nat -> (j < n)%nat -> canon (K i j) /\ Rabs (mvals K i j) <= M) -> M <= bpow 1000 ->
  forall i j, (i < n)%nat -> (j < n)%nat ->
  canon (fcenter e n K i j) /\
  Rabs (mvals (fcenter e n K) i j - centred n (mvals K) i j) <= 30 * INR n * eps * M + 4 * INR n * least.
Proof.
  intros e n K M He H1 Hn HK HM i j Hi Hj.
  assert (HN1 : 1 <= INR n) by (change 1 with (INR 1); apply le_INR; exact H1).
  assert (Hep := eps_pos). assert (Hle := least_pos).
  assert (HM0 : 0 <= M) by (eapply Rle_trans; [apply Rabs_pos|apply (HK i j Hi Hj)]).
  assert (H50 : INR n <= bpow 50) by (apply Rle_trans with (1 := Hn); apply bpow_le; lia).
  set (g := (3 * INR n + 3) * eps).
  assert (Hg0 : 0 <= g) by (apply Rmult_le_pos; lra).
  assert (Hg1 : g <= 1).
  { unfold g. apply Rle_trans with (bpow 43 * eps).
    - apply Rmult_le_compat_r; [lra|]. apply Rle_trans with (8 * bpow 40); [lra|]. change 43%Z with (3 + 40)%Z. rewrite bpow_add.
      change (bpow 3) with (2 * (2 * (2 * 1))). lra.
    - unfold eps. rewrite <- bpow_add, <- bpow_0. apply bpow_le. lia. }
  set (nl := INR n * least). assert (Hnl : 0 <= nl) by (apply Rmult_le_pos; lra).
  assert (Hnl1 : nl <= 1).
  { unfold nl. apply Rle_trans with (bpow 40 * least); [apply Rmult_le_compat_r; lra|]. unfold least. rewrite <- bpow_add, <- bpow_0. apply bpow_le. lia. }
  assert (B0 : 16 <= bpow 1000) by (replace 16 with (bpow 4) by (change (bpow 4) with (2 * (2 * (2 * (2 * 1)))); ring); apply bpow_le; lia).
  assert (B1 : 16 * bpow 1000 <= bpow 1010).
  { apply Rle_trans with (bpow (4 + 1000)); [rewrite bpow_add; change (bpow 4) with (2 * (2 * (2 * (2 * 1)))); lra|apply bpow_le; lia]. }
  set (C := fcentering n) in *.
  assert (CC : forall a b, canon (C a b)) by (intros a b; apply (centering_any n a b H1 Hn)).
  set (P := fmatmul e n C K).
  set (Q := fun a b => rsum n (fun k => cI n a k * mvals K k b)).
  set (E1 := g * M + nl).
  assert (HgM : 0 <= g * M <= M).
  { split; [apply Rmult_le_pos; lra|]. rewrite <- (Rmult_1_l M) at 2. apply Rmult_le_compat_r; lra. }
  (* the first product *)
  assert (HP : forall b, (b < n)%nat -> canon (P i b) /\ Rabs (mvals P i b - Q i b) <= E1 /\ Rabs (Q i b) <= 2 * M).
  { intros b Hb. destruct (centering_sums n i H1 Hn Hi) as (S1 & _ & S3 & S4 & _). fold C in S1, S4.
    assert (HKb : forall k, (k < n)%nat -> Rabs (mvals K k b) <= M) by (intros k Hk; apply HK; assumption).
    destruct (rsum_bilin n (fun k => mvals C i k) (fun k => mvals K k b) M HKb) as [_ T].
    assert (T' : rsum n (fun k => Rabs (mvals C i k * mvals K k b)) <= 3 * M).
    { apply Rle_trans with (1 := T). apply Rmult_le_compat_r; assumption. }
    destruct (mm_any e n C K i b (3 * M) He H50 (fun k _ => CC i k) (fun k Hk => proj1 (HK k b Hk Hb)) T') as [Cp Ep]; [lra|].
    fold P in Cp, Ep. split; [exact Cp|]. split.
    - unfold mvals at 1.
      replace (fval (P i b) - Q i b) with ((fval (P i b) - rsum n (fun k => mvals C i k * mvals K k b)) +
        rsum n (fun k => (mvals C i k - cI n i k) * mvals K k b)).
      2:{ unfold Q. rewrite (rsum_ext n (fun k => (mvals C i k - cI n i k) * mvals K k b)
             (fun k => mvals C i k * mvals K k b - cI n i k * mvals K k b)) by (intros; ring). rewrite rsum_minus. ring. }
      eapply Rle_trans; [apply Rabs_triang|].
      destruct (rsum_bilin n (fun k => mvals C i k - cI n i k) (fun k => mvals K k b) M HKb) as [T2 _].
      assert (rsum n (fun k => Rabs (mvals C i k - cI n i k)) * M <= 3 * eps * M) by (apply Rmult_le_compat_r; assumption).
      unfold E1, g, nl. lra.
    - destruct (rsum_bilin n (fun k => cI n i k) (fun k => mvals K k b) M HKb) as [T2 _]. unfold Q.
      apply Rle_trans with (1 := T2). apply Rmult_le_compat_r; assumption. }
  set (M2 := 3 * M + nl).
  assert (HPM : forall k, (k < n)%nat -> Rabs (mvals P i k) <= M2).
  { intros k Hk. destruct (HP k Hk) as (_ & A1 & A2). replace (mvals P i k) with ((mvals P i k - Q i k) + Q i k) by ring.
    eapply Rle_trans; [apply Rabs_triang|]. unfold M2, E1 in *. lra. }
  (* the second product *)
  destruct (centering_sums n j H1 Hn Hj) as (_ & S2 & S3 & _ & S5). fold C in S2, S5.
  assert (S3' : rsum n (fun k => Rabs (cI n k j)) <= 2).
  { apply Rle_trans with (2 := S3). apply Req_le, rsum_ext. intros. now rewrite cI_sym. }
  destruct (rsum_bilin_r n (fun k => mvals P i k) (fun k => mvals C k j) M2 HPM) as [_ T].
  assert (T' : rsum n (fun k => Rabs (mvals P i k * mvals C k j)) <= 3 * M2).
  { apply Rle_trans with (1 := T). apply Rmult_le_compat_r; [unfold M2; lra|assumption]. }
  destruct (mm_any e n P C i j (3 * M2) He H50 (fun k Hk => proj1 (HP k Hk)) (fun k _ => CC k j) T') as [Ca Ea].
  { unfold M2. lra. }
  change (fmatmul e n P C i j) with (fcenter e n K i j) in Ca, Ea.
  split; [exact Ca|]. rewrite <- (center_product n (mvals K) i j Hi Hj). fold (Q i).
  unfold mvals at 1.
  change (fun l => rsum n (fun k => cI n i k * mvals K k l) * cI n l j) with (fun l => Q i l * cI n l j).
  replace (fval (fcenter e n K i j) - rsum n (fun l => Q i l * cI n l j)) with
    ((fval (fcenter e n K i j) - rsum n (fun k => mvals P i k * mvals C k j)) +
     (rsum n (fun k => mvals P i k * (mvals C k j - cI n k j)) + rsum n (fun k => (mvals P i k - Q i k) * cI n k j))).
  2:{ rewrite <- rsum_plus.
      rewrite (rsum_ext n (fun i0 => mvals P i i0 * (mvals C i0 j - cI n i0 j) + (mvals P i i0 - Q i i0) * cI n i0 j)
         (fun k => mvals P i k * mvals C k j - Q i k * cI n k j)) by (intros; ring). rewrite rsum_minus. ring. }
  eapply Rle_trans; [apply Rabs_triang|]. eapply Rle_trans; [apply Rplus_le_compat_l, Rabs_triang|].
  destruct (rsum_bilin_r n (fun k => mvals P i k) (fun k => mvals C k j - cI n k j) M2 HPM) as [U1 _].
  assert (U1' : rsum n (fun k => Rabs (mvals C k j - cI n k j)) * M2 <= 3 * eps * M2) by (apply Rmult_le_compat_r; [unfold M2; lra|assumption]).
  destruct (rsum_bilin_r n (fun k => mvals P i k - Q i k) (fun k => cI n k j) E1 (fun k Hk => proj1 (proj2 (HP k Hk)))) as [U2 _].
  assert (U2' : rsum n (fun k => Rabs (cI n k j)) * E1 <= 2 * E1) by (apply Rmult_le_compat_r; [unfold E1; lra|assumption]).
  assert (F1 : INR n * eps * (3 * M2) + 3 * eps * M2 = g * M2) by (unfold g; ring).
  assert (F2 : g * M2 <= 3 * (g * M) + nl).
  { unfold M2. assert (g * nl <= 1 * nl) by (apply Rmult_le_compat_r; lra). lra. }
  assert (F3 : g * M <= 6 * INR n * eps * M).
  { apply Rmult_le_compat_r; [exact HM0|]. unfold g. assert (eps <= INR n * eps) by (rewrite <- (Rmult_1_l eps) at 1; apply Rmult_le_compat_r; lra). lra. }
  replace (4 * INR n * least) with (4 * nl) by (unfold nl; ring).
  unfold E1 in *. fold nl in Ea. lra.
Qed.

(** ** np.isclose *)
Lemma atol_canon : canon f_atol /\ bpow (-27) <= fval f_atol <= 3 / 2 * bpow (-27).
Proof.
  split; [cbn; repeat split; try lia; left; reflexivity|].
  unfold f_atol. cbn [fval]. rewrite Rmult_1_l.
  assert (Hp := bpow_pos (-79)).
  replace (bpow (-27)) with (IZR (2 ^ 52) * bpow (-79)) by (rewrite <- (bpow_IZR 52), <- bpow_add by lia; reflexivity).
  split; [apply Rmult_le_compat_r; [lra|apply IZR_le; lia]|].
  rewrite <- Rmult_assoc. apply Rmult_le_compat_r; [lra|]. change (2 ^ 52)%Z with 4503599627370496%Z. lra.
Qed.

Lemma rtol_canon : canon f_rtol /\ 0 <= fval f_rtol <= 1.
Proof.
  split; [cbn; repeat split; try lia; left; reflexivity|].
  unfold f_rtol. cbn [fval]. rewrite Rmult_1_l.
  assert (Hp := bpow_pos (-69)). split; [apply Rmult_le_pos; [apply IZR_le; lia|lra]|].
  apply Rle_trans with (IZR (2 ^ 53) * bpow (-69)); [apply Rmult_le_compat_r; [lra|apply IZR_le; lia]|].
  rewrite <- (bpow_IZR 53), <- bpow_add, <- bpow_0 by lia. apply bpow_le. lia.
Qed.

Lemma isfinite_canon : forall x, canon x -> f_isfinite x = true.
Proof. intros [s|s| |s m e] H; try contradiction; reflexivity. Qed.

Lemma close_any : forall a b, canon a -> canon b -> Rabs (fval b) <= bpow 1000 ->
  Rabs (fval a - fval b) <= 3 / 4 * bpow (-27) -> fisclose a b = true.
Proof.
  intros a b Ca Cb Hb H. unfold fisclose. rewrite (isfinite_canon a Ca), (isfinite_canon b Cb). cbn [andb].
  assert (Hu := u_pos). assert (Hu1 : u <= 1 / 64).
  { apply Rle_trans with (bpow (-6)); [apply bpow_le; lia|]. change (-6)%Z with (- (6))%Z. rewrite bpow_neg, bpow_IZR by lia. apply Req_le. cbn. lra. }
  assert (H27 := bpow_pos (-27)). assert (Hs : bpow (-27) < bpow 1000) by (apply big; lia).
  assert (Ht : 0 < tiny <= 1 / 64 * bpow (-27)).
  { split; [apply bpow_pos|]. apply Rle_trans with (bpow (-6) * bpow (-27)).
    - rewrite <- bpow_add. apply bpow_le. lia.
    - apply Rmult_le_compat_r; [lra|]. change (-6)%Z with (- (6))%Z. rewrite bpow_neg, bpow_IZR by lia. apply Req_le. cbn. lra. }
  assert (B1 : 8 * bpow 1000 <= bpow 1022).
  { apply Rle_trans with (bpow (3 + 1000)); [rewrite bpow_add; change (bpow 3) with (2 * (2 * (2 * 1))); lra|apply bpow_le; lia]. }
  assert (B2 := big 1022 1023 ltac:(lia)).
  destruct atol_canon as [Cat Vat]. destruct rtol_canon as [Crt Vrt].
  destruct (fsub_any a b Ca Cb) as (C1 & E1 & _); [lra|].
  assert (V1 : Rabs (fval (fsub a b)) <= (1 + u) * (3 / 4 * bpow (-27))).
  { replace (fval (fsub a b)) with ((fval (fsub a b) - (fval a - fval b)) + (fval a - fval b)) by ring.
    eapply Rle_trans; [apply Rabs_triang|].
    assert (u * Rabs (fval a - fval b) <= u * (3 / 4 * bpow (-27))) by (apply Rmult_le_compat_l; lra). lra. }
  assert (V1' : (1 + u) * (3 / 4 * bpow (-27)) <= (1 + 1 / 64) * (3 / 4 * bpow (-27))) by (apply Rmult_le_compat_r; lra).
  set (rb := fval f_rtol * Rabs (fval b)).
  assert (Hrb : 0 <= rb <= bpow 1000).
  { assert (Hp := Rabs_pos (fval b)). unfold rb. split; [apply Rmult_le_pos; lra|].
    apply Rle_trans with (1 * bpow 1000); [apply Rmult_le_compat; lra|lra]. }
  destruct (fmul_any f_rtol (fabs b) Crt (canon_abs _ Cb)) as (C2 & E2 & _).
  { rewrite fval_abs. fold rb. rewrite Rabs_pos_eq by lra. lra. }
  rewrite fval_abs in E2. fold rb in E2. rewrite (Rabs_pos_eq rb) in E2 by lra. apply Rabs_le_inv in E2.
  set (w := fmul f_rtol (fabs b)) in *.
  assert (Hurb : 0 <= u * rb <= 1 / 64 * rb) by (split; [apply Rmult_le_pos; lra|apply Rmult_le_compat_r; lra]).
  set (z := fval f_atol + fval w) in *.
  assert (Hz : (1 - 1 / 64) * bpow (-27) <= z <= 4 * bpow 1000) by (unfold z; lra).
  destruct (fadd_any f_atol w Cat C2) as (C3 & E3 & _); [fold z; rewrite Rabs_pos_eq; lra|].
  fold z in E3. rewrite (Rabs_pos_eq z) in E3 by lra. apply Rabs_le_inv in E3.
  assert (Huz : u * z <= 1 / 64 * z) by (apply Rmult_le_compat_r; lra).
  apply leb_any; [apply canon_abs, C1|exact C3|]. rewrite fval_abs. lra.
Qed.

Lemma notclose_zero : forall v, canon v -> 0 <= fval v -> fisclose v fzero = false -> bpow (-27) < fval v.
Proof.
  intros v Cv Hv. unfold fisclose. rewrite (isfinite_canon v Cv). cbn [f_isfinite fzero fint binary_normalize andb].
  change (fadd f_atol (fmul f_rtol (fabs (S754_zero false)))) with f_atol.
  destruct atol_canon as [Cat Vat]. intros H.
  destruct (fadd_zero_l (fopp (S754_zero false)) v eq_refl) as [V C]. rewrite fadd_comm in V, C. rewrite <- fsub_fadd in V, C.
  specialize (C Cv). destruct (Rle_lt_dec (fval v) (fval f_atol)) as [Hl|Hl]; [|lra].
  assert (T : SFleb (fabs (fsub v (S754_zero false))) f_atol = true).
  { apply leb_any; [apply canon_abs, C|exact Cat|]. rewrite fval_abs, V, Rabs_pos_eq; lra. }
  congruence.
Qed.

(** ** Sums of products of entries *)
Lemma rsum_app : forall a b f, rsum (a + b) f = rsum a f + rsum b (fun k => f (a + k)%nat).
Proof.
  induction b as [|b IH]; intros f; [rewrite Nat.add_0_r; cbn; ring|]. rewrite Nat.add_succ_r. cbn [rsum]. rewrite IH. ring.
Qed.

Lemma rsum_grid : forall n m (f : nat -> nat -> R), rsum (n * m) (fun k => f (k / m)%nat (k mod m)%nat) = rsum n (fun i => rsum m (f i)).
Proof.
  induction n as [|n IH]; intros m f; [reflexivity|]. replace (S n * m)%nat with (n * m + m)%nat by lia.
  rewrite rsum_app, IH. cbn [rsum]. f_equal. apply rsum_ext. intros k Hk. f_equal.
  - rewrite Nat.add_comm, Nat.div_add, Nat.div_small by lia. reflexivity.
  - rewrite Nat.add_comm, Nat.mod_add, Nat.mod_small by lia. reflexivity.
Qed.

Lemma grid_index : forall n m k, (k < n * m)%nat -> (k / m < n)%nat /\ (k mod m < m)%nat.
Proof.
  intros n m k H. assert (m <> 0)%nat by (intros ->; lia). split; [apply Nat.div_lt_upper_bound; lia|apply Nat.mod_upper_bound; lia].
Qed.

Definition absprod (n m : nat) (A B : nat -> nat -> R) : R := rsum n (fun i => rsum m (fun j => Rabs (A i j * B i j))).

Lemma prods_any : forall d (x y : nat -> f64) v T, adds_up (map (fun k => fmul (x k) (y k)) (seq 0 d)) v ->
  INR d <= bpow 50 -> (forall k, (k < d)%nat -> canon (x k) /\ canon (y k)) ->
  rsum d (fun k => Rabs (fval (x k) * fval (y k))) <= T -> T <= bpow 1010 ->
  canon v /\ Rabs (fval v - rsum d (fun k => fval (x k) * fval (y k))) <= INR d * eps * T + INR d * least.
Proof.
  intros d x y v T Hv Hd Hc HT HB.
  assert (Hu := u_pos). assert (Hn := pos_INR d). assert (Hu1 : u <= 1) by (rewrite <- bpow_0; apply bpow_le; lia).
  assert (Ht : 0 < tiny <= 1).
  { split; [apply bpow_pos|]. rewrite <- bpow_0. apply bpow_le. lia. }
  set (S := rsum d (fun k => Rabs (fval (x k) * fval (y k)))) in *.
  assert (HS : 0 <= S) by (apply rsum_nonneg; intros; apply Rabs_pos).
  assert (B11 : 2 * bpow 1010 <= bpow 1021).
  { apply Rle_trans with (bpow (1 + 1010)); [rewrite bpow_add; change (bpow 1) with (2 * 1); lra|apply bpow_le; lia]. }
  destruct (sum_terms v d (fun k => fmul (x k) (y k)) (fun k => fval (x k) * fval (y k)) u tiny Hv Hd) as [C E]; [lra|lra| | |].
  - intros k Hk. destruct (Hc k Hk) as [Cx Cy]. destruct (fmul_any (x k) (y k) Cx Cy) as (R1 & R2 & _); [|split; assumption].
    apply Rle_lt_trans with (bpow 1010); [|apply big; lia]. apply Rle_trans with T; [|exact HB]. apply Rle_trans with (2 := HT).
    apply (rsum_term_le d (fun k => Rabs (fval (x k) * fval (y k))) k Hk). intros; apply Rabs_pos.
  - fold S. assert (u * S <= 1 * S) by (apply Rmult_le_compat_r; lra). lra.
  - split; [exact C|]. fold S in E. apply Rle_trans with (1 := E).
    assert (HTl := tiny_least). apply Rplus_le_compat.
    + destruct d as [|d']; [cbn; assert (Z : S = 0) by reflexivity; rewrite Z in *; lra|].
      apply Rle_trans with (((1 + u) ^ Datatypes.S d' - 1) * S).
      * replace (Datatypes.S d' - 1)%nat with d' by lia. cbn [pow]. apply Req_le. ring.
      * destruct (grow_le (Datatypes.S d') Hd) as [G _]. assert (G1 := grow_ge1 (Datatypes.S d')). apply Rmult_le_compat; lra.
    + assert (INR d * tiny >= 0) by (apply Rle_ge, Rmult_le_pos; lra). rewrite <- HTl. lra.
Qed.

Lemma frob_any : forall e n m A B T, decent e -> INR (n * m) <= bpow 50 ->
  (forall i j, (i < n)%nat -> (j < m)%nat -> canon (A i j) /\ canon (B i j)) ->
  absprod n m (mvals A) (mvals B) <= T -> T <= bpow 1010 ->
  canon (ffrobenius e n m A B) /\
  Rabs (fval (ffrobenius e n m A B) - fprod n m (mvals A) (mvals B)) <= INR (n * m) * eps * T + INR (n * m) * least.
Proof.
  intros e n m A B T He Hn Hc HT HB.
  destruct (prods_any (n * m) (fun k => A (k / m)%nat (k mod m)%nat) (fun k => B (k / m)%nat (k mod m)%nat) (ffrobenius e n m A B) T) as [C E].
  - apply (d_sum e He).
  - exact Hn.
  - intros k Hk. destruct (grid_index n m k Hk). apply Hc; assumption.
  - rewrite (rsum_grid n m (fun i j => Rabs (fval (A i j) * fval (B i j)))). exact HT.
  - exact HB.
  - split; [exact C|]. rewrite (rsum_grid n m (fun i j => fval (A i j) * fval (B i j))) in E. exact E.
Qed.

(** ** Norms *)
Lemma sqrt_near : forall a x s t, 0 <= a -> 0 <= x -> 0 <= s <= 1 -> 0 <= t -> Rabs (a - x) <= s * x + t ->
  Rabs (sqrt a - sqrt x) <= s * sqrt x + sqrt t.
Proof.
  intros a x s t Ha Hx Hs Ht H. apply Rabs_le_inv in H.
  set (p := sqrt a). set (q := sqrt x). set (r := sqrt t).
  assert (Hp : 0 <= p) by apply sqrt_pos. assert (Hq : 0 <= q) by apply sqrt_pos. assert (Hr : 0 <= r) by apply sqrt_pos.
  assert (Ea : a = p * p) by (symmetry; apply sqrt_sqrt; assumption).
  assert (Ex : x = q * q) by (symmetry; apply sqrt_sqrt; assumption).
  assert (Et : t = r * r) by (symmetry; apply sqrt_sqrt; assumption).
  rewrite Ea, Ex, Et in H. clearbody p q r. clear Ea Ex Et Ha Hx Ht.
  assert (Hqq : 0 <= q * q) by (apply Rmult_le_pos; assumption).
  assert (Hqr : 0 <= q * r) by (apply Rmult_le_pos; assumption).
  assert (Hsq : 0 <= s * (q * q)) by (apply Rmult_le_pos; lra).
  assert (Hssq : 0 <= s * (s * (q * q))) by (apply Rmult_le_pos; lra).
  assert (Hsqr : 0 <= s * (q * r)) by (apply Rmult_le_pos; lra).
  apply Rabs_le. split.
  - destruct (Rle_lt_dec ((1 - s) * q - r) 0) as [Hn|Hn]; [lra|].
    assert (Hl : (1 - s) * q - r <= p); [|lra].
    apply Rsqr_incr_0; [|lra|exact Hp]. unfold Rsqr.
    assert (H1 : r * r <= ((1 - s) * q) * r) by (apply Rmult_le_compat_r; lra).
    assert (Hss : s * (s * (q * q)) <= s * (1 * (q * q))) by (apply Rmult_le_compat_l; [lra|apply Rmult_le_compat_r; lra]).
    lra.
  - assert (Hl : p <= (1 + s) * q + r); [|lra].
    apply Rsqr_incr_0; [|exact Hp|assert (0 <= s * q) by (apply Rmult_le_pos; lra); lra]. unfold Rsqr. lra.
Qed.

Lemma absprod_self : forall n m A, absprod n m A A = fprod n m A A.
Proof.
  intros. unfold absprod, fprod. apply rsum_ext. intros i _. apply rsum_ext. intros j _. apply Rabs_pos_eq, Rle_0_sqr.
Qed.

Lemma norm_any : forall e n m A, decent e -> INR (n * m) <= bpow 50 ->
  (forall i j, (i < n)%nat -> (j < m)%nat -> canon (A i j)) -> fprod n m (mvals A) (mvals A) <= bpow 1010 ->
  canon (ffrobenius_norm e n m A) /\ 0 <= fval (ffrobenius_norm e n m A) /\
  Rabs (fval (ffrobenius_norm e n m A) - fnorm n m (mvals A)) <=
    (INR (n * m) + 1) * eps * fnorm n m (mvals A) + 2 * sqrt (INR (n * m) * least).
Proof.
  intros e n m A He Hn Hc HB. set (x := fprod n m (mvals A) (mvals A)) in *.
  destruct (frob_any e n m A A x He Hn) as [Cs Es].
  - intros i j Hi Hj. split; apply Hc; assumption.
  - rewrite absprod_self. apply Rle_refl.
  - exact HB.
  - fold x in Es. set (s := ffrobenius e n m A A) in *. change (ffrobenius_norm e n m A) with (fsqrt s). change (fnorm n m (mvals A)) with (sqrt x).
    assert (Hx : 0 <= x) by (apply rsum_nonneg; intros; apply rsum_sqr_nonneg).
    assert (Hs0 : f_nonneg s = true).
    { unfold s, ffrobenius. apply (adds_nonneg _ _ (d_sum e He _)). apply forallb_forall.
      intros v Hv. apply in_map_iff in Hv. destruct Hv as (k & <- & Hk). apply in_seq in Hk. apply fsquare_nonneg.
      destruct (grid_index n m k ltac:(lia)) as [G1 G2]. specialize (Hc _ _ G1 G2). destruct (A (k / m)%nat (k mod m)%nat); try contradiction; discriminate. }
    assert (Hsv := fval_nonneg _ Hs0).
    assert (Hu := u_pos). assert (Hue := u_eps). assert (Hle := least_pos). assert (HN := pos_INR (n * m)).
    assert (HNu : INR (n * m) * eps <= 1).
    { rewrite <- Hue. assert (Q := small_n (n * m) Hn). rewrite bpow_m3 in Q. lra. }
    assert (HNu0 : 0 <= INR (n * m) * eps) by (apply Rmult_le_pos; lra).
    assert (Hnl : 0 <= INR (n * m) * least) by (apply Rmult_le_pos; lra).
    assert (Q := sqrt_near (fval s) x (INR (n * m) * eps) (INR (n * m) * least) Hsv Hx (conj HNu0 HNu) Hnl Es).
    set (t := sqrt (INR (n * m) * least)) in *. assert (Ht : 0 <= t) by apply sqrt_pos.
    assert (Hsx := sqrt_pos x). assert (Hss := sqrt_pos (fval s)).
    assert (Hr : canon (fsqrt s) /\ Rabs (fval (fsqrt s) - sqrt (fval s)) <= u * sqrt (fval s)).
    { destruct (Req_dec (fval s) 0) as [Hz|Hz].
      - rewrite (fsqrt_zero s Cs Hz), Hz, sqrt_0, Rminus_0_r, Rabs_R0. split; [exact Cs|lra].
      - destruct (fsqrt_any s Cs ltac:(lra)) as [N E]. split; [apply canon_normal, N|exact E]. }
    destruct Hr as [Cr Er]. split; [exact Cr|]. split; [apply fval_nonneg, fsqrt_nonneg, Hs0|].
    assert (Q' := Rabs_le_inv _ _ Q).
    replace (fval (fsqrt s) - sqrt x) with ((fval (fsqrt s) - sqrt (fval s)) + (sqrt (fval s) - sqrt x)) by ring.
    eapply Rle_trans; [apply Rabs_triang|].
    assert (Hu1 : u <= 1) by (rewrite <- bpow_0; apply bpow_le; lia).
    assert (K1 : INR (n * m) * eps * sqrt x <= 1 * sqrt x) by (apply Rmult_le_compat_r; lra).
    assert (K2 : u * sqrt (fval s) <= u * (2 * sqrt x + t)) by (apply Rmult_le_compat_l; lra).
    assert (K3 : u * t <= 1 * t) by (apply Rmult_le_compat_r; lra).
    rewrite <- Hue in *. lra.
Qed.

(** ** Alignment *)
Lemma fprod_cs_abs : forall n m A B, absprod n m A B <= fnorm n m A * fnorm n m B.
Proof.
  intros n m A B.
  assert (Q := fprod_cs n m (fun i j => Rabs (A i j)) (fun i j => Rabs (B i j))).
  assert (EA : forall C, fprod n m (fun i j => Rabs (C i j)) (fun i j => Rabs (C i j)) = fprod n m C C).
  { intros C. unfold fprod. apply rsum_ext. intros i _. apply rsum_ext. intros j _. rewrite <- Rabs_mult. apply Rabs_pos_eq, Rle_0_sqr. }
  assert (EB : fprod n m (fun i j => Rabs (A i j)) (fun i j => Rabs (B i j)) = absprod n m A B).
  { unfold fprod, absprod. apply rsum_ext. intros i _. apply rsum_ext. intros j _. rewrite <- Rabs_mult. reflexivity. }
  rewrite !EA, EB in Q.
  assert (P : forall C, 0 <= fprod n m C C) by (intros C; apply rsum_nonneg; intros; apply rsum_sqr_nonneg).
  assert (P0 : 0 <= absprod n m A B) by (apply rsum_nonneg; intros; apply rsum_nonneg; intros; apply Rabs_pos).
  unfold fnorm. rewrite <- sqrt_mult by apply P. rewrite <- (sqrt_square (absprod n m A B)) by exact P0.
  apply sqrt_le_1_alt, Q.
Qed.

Lemma fprod_absprod : forall n m A B, Rabs (fprod n m A B) <= absprod n m A B.
Proof.
  intros. unfold fprod, absprod. eapply Rle_trans; [apply rsum_abs|]. apply rsum_le. intros i _. apply rsum_abs.
Qed.

Lemma ratio_near : forall P p na nb ra rb d a b t, 0 < na -> 0 < nb -> Rabs P <= na * nb ->
  Rabs (p - P) <= a * (na * nb) -> Rabs (ra - na) <= b * na -> Rabs (rb - nb) <= b * nb ->
  Rabs (d - ra * rb) <= u * (ra * rb) + t -> 0 <= t <= u * (na * nb) -> 0 <= a <= / 100 -> 6 * u <= b <= / 1000 ->
  0 < d /\ Rabs (p / d - P / (na * nb)) <= 101 / 100 * (a + 3 * b).
Proof.
  intros P p na nb ra rb d a b t Hna Hnb HP Hp Hra Hrb Hd Ht Ha Hb.
  assert (Hu := u_pos). apply Rabs_le_inv in Hra. apply Rabs_le_inv in Hrb. apply Rabs_le_inv in Hd.
  set (D := na * nb) in *. assert (HD : 0 < D) by (apply Rmult_lt_0_compat; assumption).
  assert (Bna : b * na <= / 1000 * na) by (apply Rmult_le_compat_r; lra).
  assert (Bnb : b * nb <= / 1000 * nb) by (apply Rmult_le_compat_r; lra).
  assert (Hhi : ra * rb <= (1 + b) * (1 + b) * D).
  { apply Rle_trans with (((1 + b) * na) * ((1 + b) * nb)); [apply Rmult_le_compat; lra|unfold D; apply Req_le; ring]. }
  assert (Hlo : (1 - b) * (1 - b) * D <= ra * rb).
  { apply Rle_trans with (((1 - b) * na) * ((1 - b) * nb)); [unfold D; apply Req_le; ring|apply Rmult_le_compat; lra]. }
  assert (Hbb : 0 <= b * b <= / 1000 * b) by (split; [apply Rmult_le_pos; lra|apply Rmult_le_compat_r; lra]).
  assert (HbD : 0 <= b * D) by (apply Rmult_le_pos; lra).
  assert (HuD : 6 * (u * D) <= b * D) by (rewrite <- Rmult_assoc; apply Rmult_le_compat_r; lra).
  assert (HbbD : 0 <= b * b * D <= / 1000 * (b * D)).
  { split; [apply Rmult_le_pos; lra|]. rewrite <- Rmult_assoc. apply Rmult_le_compat_r; lra. }
  assert (Hb1 : (1 + b) * (1 + b) <= 101 / 100) by lra.
  assert (Hur : u * (ra * rb) <= u * (101 / 100 * D)).
  { apply Rmult_le_compat_l; [lra|]. apply Rle_trans with (1 := Hhi). apply Rmult_le_compat_r; lra. }
  assert (HdD : Rabs (d - D) <= 3 * b * D) by (apply Rabs_le; lra).
  assert (HdD' := Rabs_le_inv _ _ HdD).
  assert (B3 : 3 * b * D <= 3 * / 1000 * D) by (apply Rmult_le_compat_r; lra).
  assert (Hd0 : 99 / 100 * D <= d) by lra. assert (Hd1 : 0 < d) by lra. split; [exact Hd1|].
  replace (p / d - P / D) with (((p - P) * D + P * (D - d)) / (d * D)) by (field; lra).
  unfold Rdiv at 1. rewrite Rabs_mult. rewrite (Rabs_pos_eq (/ (d * D))).
  2:{ apply Rlt_le, Rinv_0_lt_compat, Rmult_lt_0_compat; lra. }
  assert (Hdd : 0 < d * D) by (apply Rmult_lt_0_compat; lra).
  apply (Rmult_le_reg_r (d * D)); [exact Hdd|]. rewrite Rmult_assoc, Rinv_l, Rmult_1_r by lra.
  apply Rle_trans with ((a + 3 * b) * (D * D)).
  - eapply Rle_trans; [apply Rabs_triang|]. rewrite !Rabs_mult, (Rabs_pos_eq D) by lra. rewrite (Rabs_minus_sym D d).
    assert (K1 : Rabs (p - P) * D <= a * D * D) by (apply Rmult_le_compat_r; lra).
    assert (K2 : Rabs P * Rabs (d - D) <= D * (3 * b * D)) by (apply Rmult_le_compat; try apply Rabs_pos; assumption). lra.
  - rewrite (Rmult_comm (101 / 100)), Rmult_assoc. apply Rmult_le_compat_l; [lra|].
    rewrite <- Rmult_assoc. apply Rmult_le_compat_r; lra.
Qed.

Lemma align_any : forall e n A B v, decent e -> INR (n * n) <= bpow 40 ->
  (forall i j, (i < n)%nat -> (j < n)%nat -> canon (A i j) /\ canon (B i j)) ->
  fprod n n (mvals A) (mvals A) <= bpow 1000 -> fprod n n (mvals B) (mvals B) <= bpow 1000 ->
  falignment e n A B None true = Ok v ->
  (1 <= n)%nat /\ 0 < fnorm n n (mvals A) /\ 0 < fnorm n n (mvals B) /\ canon v /\
  Rabs (fval v - fprod n n (mvals A) (mvals B) / (fnorm n n (mvals A) * fnorm n n (mvals B))) <= 16 * INR (n * n) * eps.
Proof.
  intros e n A B v He Hn Hc HA HB. unfold falignment.
  set (N := INR (n * n)) in *.
  assert (H50 : N <= bpow 50) by (apply Rle_trans with (1 := Hn); apply bpow_le; lia).
  assert (HA' : fprod n n (mvals A) (mvals A) <= bpow 1010) by (apply Rle_trans with (1 := HA), bpow_le; lia).
  assert (HB' : fprod n n (mvals B) (mvals B) <= bpow 1010) by (apply Rle_trans with (1 := HB), bpow_le; lia).
  destruct (norm_any e n n A He H50 (fun i j Hi Hj => proj1 (Hc i j Hi Hj)) HA') as (Ca & Pa & Ea).
  destruct (norm_any e n n B He H50 (fun i j Hi Hj => proj2 (Hc i j Hi Hj)) HB') as (Cb & Pb & Eb).
  fold N in Ea, Eb.
  set (ra := ffrobenius_norm e n n A) in *. set (rb := ffrobenius_norm e n n B) in *.
  destruct (fisclose ra fzero) eqn:Ka; [discriminate|]. destruct (fisclose rb fzero) eqn:Kb; [discriminate|]. cbn [orb].
  intros Hv. injection Hv as <-.
  apply (notclose_zero ra Ca Pa) in Ka. apply (notclose_zero rb Cb Pb) in Kb.
  assert (Hu := u_pos). assert (Hue := u_eps). assert (Hep := eps_pos). assert (Hle := least_pos).
  assert (HN : 0 <= N) by apply pos_INR.
  assert (HNe : N * eps <= / 4096).
  { apply Rle_trans with (bpow 40 * eps); [apply Rmult_le_compat_r; lra|]. unfold eps. rewrite <- bpow_add.
    change (40 + -52)%Z with (- (12))%Z. rewrite bpow_neg, bpow_IZR by lia. apply Req_le. reflexivity. }
  assert (Heps : eps <= / 4096).
  { change (/ 4096) with (/ IZR (2 ^ 12)). rewrite <- (bpow_IZR 12), <- bpow_neg by lia. apply bpow_le. lia. }
  set (t := sqrt (N * least)) in *.
  assert (Ht : 0 <= t <= bpow (-517)).
  { split; [apply sqrt_pos|]. rewrite <- (sqrt_square (bpow (-517))) by (apply Rlt_le, bpow_pos). apply sqrt_le_1_alt.
    rewrite <- bpow_add. apply Rle_trans with (bpow 40 * least); [apply Rmult_le_compat_r; lra|]. unfold least. rewrite <- bpow_add. apply bpow_le. lia. }
  assert (H27 := bpow_pos (-27)).
  assert (Ht2 : 2 * t <= eps * (/ 2 * bpow (-27)) /\ 2 * t <= / 4 * bpow (-27)).
  { assert (T1 : 2 * t <= bpow (-516)) by (change (-516)%Z with (1 + -517)%Z; rewrite bpow_add; change (bpow 1) with (2 * 1); lra).
    split; apply Rle_trans with (1 := T1).
    - replace (/ 2) with (bpow (-1)) by (change (bpow (-1)) with (/ (2 * 1)); field). unfold eps. rewrite <- !bpow_add. apply bpow_le. lia.
    - replace (/ 4) with (bpow (-2)) by (change (bpow (-2)) with (/ (2 * (2 * 1))); field). rewrite <- bpow_add. apply bpow_le. lia. }
  destruct Ht2 as [Ht2 Ht3].
  assert (NORM : forall r nr, bpow (-27) < r -> 0 <= nr -> Rabs (r - nr) <= (N + 1) * eps * nr + 2 * t ->
            / 2 * bpow (-27) <= nr /\ Rabs (r - nr) <= (N + 2) * eps * nr).
  { intros r nr Hr Hnr HE. assert (HE' := Rabs_le_inv _ _ HE).
    assert (K1 : (N + 1) * eps * nr <= / 4 * nr) by (apply Rmult_le_compat_r; lra).
    assert (Hl : / 2 * bpow (-27) <= nr) by lra. split; [exact Hl|].
    assert (K2 : eps * (/ 2 * bpow (-27)) <= eps * nr) by (apply Rmult_le_compat_l; lra). lra. }
  destruct (NORM (fval ra) (fnorm n n (mvals A)) Ka (sqrt_pos _) Ea) as [La Ea']. destruct (NORM (fval rb) (fnorm n n (mvals B)) Kb (sqrt_pos _) Eb) as [Lb Eb'].
  set (na := fnorm n n (mvals A)) in *. set (nb := fnorm n n (mvals B)) in *.
  assert (Una : na <= bpow 500).
  { unfold na, fnorm. rewrite <- (sqrt_square (bpow 500)) by (apply Rlt_le, bpow_pos). apply sqrt_le_1_alt. rewrite <- bpow_add. exact HA. }
  assert (Unb : nb <= bpow 500).
  { unfold nb, fnorm. rewrite <- (sqrt_square (bpow 500)) by (apply Rlt_le, bpow_pos). apply sqrt_le_1_alt. rewrite <- bpow_add. exact HB. }
  assert (Hn1 : (1 <= n)%nat).
  { destruct n as [|n']; [|lia]. exfalso. unfold na, fnorm, fprod in La. cbn [rsum] in La. rewrite sqrt_0 in La. lra. }
  assert (HN1 : 1 <= N) by (change 1 with (INR 1); apply le_INR; nia).
  split; [exact Hn1|]. split; [lra|]. split; [lra|].
  set (D := na * nb). 
  assert (HD : bpow (-56) <= D).
  { apply Rle_trans with ((/ 2 * bpow (-27)) * (/ 2 * bpow (-27))); [|apply Rmult_le_compat; lra].
    replace (/ 2) with (bpow (-1)) by (change (bpow (-1)) with (/ (2 * 1)); field). rewrite <- !bpow_add. apply bpow_le. lia. }
  assert (HDu : D <= bpow 1000).
  { apply Rle_trans with (bpow 500 * bpow 500); [apply Rmult_le_compat; lra|rewrite <- bpow_add; apply bpow_le; lia]. }
  assert (B1 : 4 * bpow 1000 <= bpow 1022).
  { apply Rle_trans with (bpow (2 + 1000)); [rewrite bpow_add; change (bpow 2) with (2 * (2 * 1)); lra|apply bpow_le; lia]. }
  assert (B2 := big 1022 1023 ltac:(lia)). assert (H56 := bpow_pos (-56)).
  assert (HS := fprod_cs_abs n n (mvals A) (mvals B)). fold na nb in HS. fold D in HS.
  assert (HDu' : D <= bpow 1010) by (apply Rle_trans with (1 := HDu), bpow_le; lia).
  destruct (frob_any e n n A B D He H50 Hc HS HDu') as [Cp Ep]. fold N in Ep.
  set (p := ffrobenius e n n A B) in *. set (P := fprod n n (mvals A) (mvals B)) in *.
  assert (HP : Rabs P <= D) by (apply Rle_trans with (2 := HS), fprod_absprod).
  assert (Ep' : Rabs (fval p - P) <= (N + 1) * eps * D).
  { apply Rle_trans with (1 := Ep). assert (N * least <= eps * D); [|lra].
    apply Rle_trans with (bpow 40 * least); [apply Rmult_le_compat_r; lra|].
    apply Rle_trans with (eps * bpow (-56)); [|apply Rmult_le_compat_l; lra]. unfold least, eps. rewrite <- !bpow_add. apply bpow_le. lia. }
  (* the product of the norms *)
  assert (HNe0 : 0 <= N * eps) by (apply Rmult_le_pos; lra).
  assert (HNe1 : eps <= N * eps) by (rewrite <- (Rmult_1_l eps) at 1; apply Rmult_le_compat_r; lra).
  assert (Ea2 := Rabs_le_inv _ _ Ea'). assert (Eb2 := Rabs_le_inv _ _ Eb').
  assert (K1 : (N + 2) * eps * na <= / 4 * na) by (apply Rmult_le_compat_r; lra).
  assert (K2 : (N + 2) * eps * nb <= / 4 * nb) by (apply Rmult_le_compat_r; lra).
  assert (Hrr : 0 <= fval ra * fval rb <= 4 * D).
  { split; [apply Rmult_le_pos; lra|]. apply Rle_trans with ((2 * na) * (2 * nb)); [apply Rmult_le_compat; lra|unfold D; apply Req_le; ring]. }
  destruct (fmul_any ra rb Ca Cb) as (Cd & Ed & _); [rewrite Rabs_pos_eq; lra|].
  rewrite (Rabs_pos_eq (fval ra * fval rb)) in Ed by lra. set (d := fmul ra rb) in *.
  assert (Htt : 0 <= tiny <= u * D).
  { split; [apply Rlt_le, bpow_pos|]. apply Rle_trans with (u * bpow (-56)); [|apply Rmult_le_compat_l; lra].
    unfold unit_roundoff, tiny. rewrite <- bpow_add. apply bpow_le. lia. }
  destruct (ratio_near P (fval p) na nb (fval ra) (fval rb) (fval d) ((N + 1) * eps) ((N + 2) * eps) tiny) as [Hd0 Hr]; try assumption; try lra.
  fold D in Hr.
  assert (HPD : Rabs (P / D) <= 1).
  { unfold Rdiv. rewrite Rabs_mult, (Rabs_pos_eq (/ D)) by (apply Rlt_le, Rinv_0_lt_compat; lra).
    apply (Rmult_le_reg_r D); [lra|]. rewrite Rmult_assoc, Rinv_l by lra. lra. }
  assert (Hq : Rabs (fval p / fval d) <= 2).
  { replace (fval p / fval d) with ((fval p / fval d - P / D) + P / D) by ring. eapply Rle_trans; [apply Rabs_triang|]. lra. }
  destruct (fdiv_any p d Cp Cd) as [Cv Ev]; [lra| |].
  { apply Rle_lt_trans with (1 := Hq). replace 2 with (bpow 1) by (change (bpow 1) with (2 * 1); ring). apply big. lia. }
  split; [exact Cv|].
  replace (fval (fdiv p d) - P / D) with ((fval (fdiv p d) - fval p / fval d) + (fval p / fval d - P / D)) by ring.
  eapply Rle_trans; [apply Rabs_triang|].
  assert (K3 : u * Rabs (fval p / fval d) <= u * 2) by (apply Rmult_le_compat_l; lra).
  assert (K4 : tiny <= eps) by (apply bpow_le; lia).
  assert (K5 : eps <= N * eps) by (rewrite <- (Rmult_1_l eps) at 1; apply Rmult_le_compat_r; lra).
  lra.
Qed.

(** ** Linear combinations *)
Lemma adds_left : forall l l0 acc, adds_up l0 acc -> adds_up (l0 ++ l) (fold_left fadd l acc).
Proof.
  induction l as [|v l IH]; intros l0 acc H; [rewrite app_nil_r; exact H|]. cbn [fold_left].
  replace (l0 ++ v :: l) with ((l0 ++ [v]) ++ l) by (rewrite <- app_assoc; reflexivity).
  apply IH. apply (adds_plus l0 [v] (l0 ++ [v]) acc v H (adds_one v)). apply Permutation_refl.
Qed.

Lemma combine_map : forall {A B C} (f : A -> B) (g : A -> C) l, combine (map f l) (map g l) = map (fun k => (f k, g k)) l.
Proof. intros A B C f g l. induction l as [|a l IH]; cbn; [reflexivity|]. rewrite IH. reflexivity. Qed.

Lemma fold_left_map : forall {A B C} (f : C -> B -> C) (g : A -> B) l c, fold_left (fun acc a => f acc (g a)) l c = fold_left f (map g l) c.
Proof. intros A B C f g l. induction l as [|a l IH]; intros c; cbn; [reflexivity|]. apply IH. Qed.

Lemma combine_adds : forall L w K i j,
  adds_up (map (fun k => fmul (w k) (K k i j)) (seq 0 L)) (fcombine (map w (seq 0 L)) (map K (seq 0 L)) i j).
Proof.
  intros L w K i j. unfold fcombine. rewrite combine_map.
  rewrite (fold_left_map (fun acc v => fadd acc v) (fun p => fmul (fst p) (snd p i j))), map_map. cbn [fst snd].
  apply (adds_left _ [] fzero). apply adds_zero.
Qed.

Lemma quotient_near : forall w W s a q t, 0 <= w -> 0 < W -> Rabs (s - W) <= a * W -> 0 <= a <= / 4096 ->
  Rabs (q - w / s) <= u * (w / s) + t ->
  0 < s /\ Rabs (q - w / W) <= (2 * a + 2 * u) * (w / W) + t.
Proof.
  intros w W s a q t Hw HW Hs Ha Hq. assert (Hu := u_pos). apply Rabs_le_inv in Hs.
  assert (HaW : a * W <= / 4096 * W) by (apply Rmult_le_compat_r; lra).
  assert (Hs0 : 4095 / 4096 * W <= s) by lra. assert (Hsp : 0 < s) by lra. split; [exact Hsp|].
  set (x := w / W). assert (Hx : 0 <= x) by (apply Rmult_le_pos; [exact Hw|apply Rlt_le, Rinv_0_lt_compat, HW]).
  assert (Ew : w = x * W) by (unfold x; field; lra).
  assert (H1 : Rabs (w / s - x) <= 2 * a * x).
  { rewrite Ew. replace (x * W / s - x) with (x * (W - s) / s) by (field; lra). unfold Rdiv.
    rewrite !Rabs_mult, (Rabs_pos_eq x), (Rabs_pos_eq (/ s)) by (try apply Rlt_le, Rinv_0_lt_compat; lra).
    apply (Rmult_le_reg_r s); [exact Hsp|]. rewrite (Rmult_assoc _ (/ s) s), Rinv_l, Rmult_1_r by lra.
    replace (2 * a * x * s) with (x * (2 * a * s)) by ring. apply Rmult_le_compat_l; [exact Hx|].
    apply Rle_trans with (a * W); [apply Rabs_le; lra|]. 
    replace (2 * a * s) with (a * (2 * s)) by ring. apply Rmult_le_compat_l; lra. }
  assert (H1' := Rabs_le_inv _ _ H1).
  assert (Hax : 2 * a * x <= 1 * x) by (apply Rmult_le_compat_r; lra).
  assert (Hus : u * (w / s) <= u * (2 * x)) by (apply Rmult_le_compat_l; lra).
  replace (q - x) with ((q - w / s) + (w / s - x)) by ring. eapply Rle_trans; [apply Rabs_triang|]. lra.
Qed.

Lemma centred_bound : forall n A M, INR n <= bpow 40 -> 0 <= M -> (forall i j, (i < n)%nat -> (j < n)%nat -> Rabs (A i j) <= M) ->
  forall i j, (i < n)%nat -> (j < n)%nat -> Rabs (centred n A i j) <= 4 * M.
Proof.
  intros n A M Hn HM0 HA j i Hj Hi. rewrite <- (center_product n A j i Hj Hi).
  destruct (centering_sums n j ltac:(lia) Hn Hj) as (_ & _ & S3 & _). destruct (centering_sums n i ltac:(lia) Hn Hi) as (_ & _ & S3' & _).
  assert (Hin : forall l, (l < n)%nat -> Rabs (rsum n (fun k => cI n j k * A k l)) <= 2 * M).
  { intros l Hl. destruct (rsum_bilin n (fun k => cI n j k) (fun k => A k l) M) as [T _].
    - intros k Hk. apply (HA k l Hk Hl).
    - apply Rle_trans with (1 := T). apply Rmult_le_compat_r; assumption. }
  destruct (rsum_bilin_r n (fun l => rsum n (fun k => cI n j k * A k l)) (fun l => cI n l i) (2 * M) Hin) as [T _].
  apply Rle_trans with (1 := T). rewrite (rsum_ext n (fun k => Rabs (cI n k i)) (fun k => Rabs (cI n i k))) by (intros; now rewrite cI_sym).
  apply Rle_trans with (2 * (2 * M)); [apply Rmult_le_compat_r; lra|lra].
Qed.

Lemma plain_sum_any : forall d (x : nat -> f64) v, adds_up (map x (seq 0 d)) v -> INR d <= bpow 50 ->
  (forall k, (k < d)%nat -> canon (x k)) -> rsum d (fun k => Rabs (fval (x k))) <= bpow 1010 ->
  canon v /\ Rabs (fval v - rsum d (fun k => fval (x k))) <= INR d * eps * rsum d (fun k => Rabs (fval (x k))).
Proof.
  intros d x v Hv Hd Hc HB. set (S := rsum d (fun k => Rabs (fval (x k)))) in *.
  assert (HS : 0 <= S) by (apply rsum_nonneg; intros; apply Rabs_pos).
  destruct (sum_terms v d x (fun k => fval (x k)) 0 0 Hv Hd) as [C E]; [lra|lra| | |].
  - intros k Hk. split; [apply Hc, Hk|]. rewrite Rminus_diag_eq, Rabs_R0 by reflexivity. lra.
  - fold S. rewrite Rplus_0_r, Rmult_1_l. apply Rle_trans with (1 := HB), bpow_le. lia.
  - split; [exact C|]. fold S in E. apply Rle_trans with (1 := E). rewrite Rmult_0_r, !Rplus_0_r, Rmult_1_r.
    apply Rmult_le_compat_r; [exact HS|]. destruct (grow_le d Hd) as [G _]. assert (G1 := grow_mono (d - 1) d ltac:(lia)). lra.
Qed.

(** The entries of a combination with normalised weights. *)
Lemma norm_combine_any : forall e L w (K : nat -> nat -> nat -> f64) M i j, decent e -> INR L <= bpow 40 ->
  (forall k, (k < L)%nat -> canon (w k) /\ 0 <= fval (w k)) -> rsum L (fun k => fval (w k)) <= bpow 1000 ->
  (forall k, (k < L)%nat -> canon (K k i j) /\ Rabs (fval (K k i j)) <= M) -> M <= bpow 1000 ->
  fisclose (e_sum e (map w (seq 0 L))) fzero = false ->
  0 < rsum L (fun k => fval (w k)) /\
  let v := fcombine (map (fun x => fdiv x (e_sum e (map w (seq 0 L)))) (map w (seq 0 L))) (map K (seq 0 L)) i j in
  canon v /\
  Rabs (fval v - rsum L (fun k => fval (w k) * fval (K k i j)) / rsum L (fun k => fval (w k))) <= 8 * INR L * eps * M + INR L * least.
Proof.
  intros e L w K M i j He HL Hw HW HK HM Hd.
  set (W := rsum L (fun k => fval (w k))) in *. set (s := e_sum e (map w (seq 0 L))) in *.
  assert (He0 := eps_pos). assert (Hl := least_pos). assert (HN := pos_INR L). assert (Hu := u_pos).
  assert (H50 : INR L <= bpow 50) by (apply Rle_trans with (1 := HL), bpow_le; lia).
  assert (HaW : rsum L (fun k => Rabs (fval (w k))) = W).
  { apply rsum_ext. intros k Hk. apply Rabs_pos_eq, Hw, Hk. }
  assert (HW0 : 0 <= W) by (apply rsum_nonneg; intros k Hk; apply Hw, Hk).
  assert (HLe : INR L * eps <= / 4096).
  { apply Rle_trans with (bpow 40 * eps); [apply Rmult_le_compat_r; lra|]. unfold eps. rewrite <- bpow_add. change (40 + -52)%Z with (-12)%Z.
    change (-12)%Z with (- (12))%Z. rewrite bpow_neg, bpow_IZR by lia. change (2 ^ 12)%Z with 4096%Z. lra. }
  destruct (plain_sum_any L w s (d_sum e He _) H50) as [Cs Es].
  { intros k Hk. apply Hw, Hk. }
  { rewrite HaW. apply Rle_trans with (1 := HW), bpow_le. lia. }
  rewrite HaW in Es. fold W in Es.
  assert (HLW : INR L * eps * W <= / 4096 * W) by (apply Rmult_le_compat_r; lra).
  assert (Es' := Rabs_le_inv _ _ Es).
  assert (Hs0 : bpow (-27) < fval s) by (apply notclose_zero; [exact Cs|lra|exact Hd]).
  assert (H27 := bpow_pos (-27)). assert (HWp : 0 < W) by lra.
  split; [exact HWp|].
  assert (L1 : 1 <= INR L).
  { destruct L as [|L']; [cbn in W; unfold W in HWp; lra|]. change 1 with (INR 1). apply le_INR. lia. }
  assert (HM0 : 0 <= M).
  { eapply Rle_trans; [apply Rabs_pos|]. apply (HK O). apply INR_lt. change (INR 0) with 0. lra. }
  assert (Hut : eps = 2 * u).
  { unfold eps, unit_roundoff. change (-52)%Z with (1 + -53)%Z. rewrite bpow_add. change (bpow 1) with (2 * 1). ring. }
  set (q := fun k => fdiv (w k) s).
  assert (Hq : forall k, (k < L)%nat -> canon (q k) /\
     Rabs (fval (q k) - fval (w k) / W) <= (3 * INR L * eps) * (fval (w k) / W) + tiny).
  { intros k Hk. destruct (Hw k Hk) as [Cw Pw].
    assert (Hkw : fval (w k) <= W) by (apply (rsum_term_le L (fun k => fval (w k)) k Hk); intros k' Hk'; apply Hw, Hk').
    assert (Hr : 0 <= fval (w k) / fval s <= 2).
    { split; [apply Rmult_le_pos; [exact Pw|apply Rlt_le, Rinv_0_lt_compat; lra]|].
      apply (Rmult_le_reg_r (fval s)); [lra|]. unfold Rdiv. rewrite Rmult_assoc, Rinv_l, Rmult_1_r by lra. lra. }
    destruct (fdiv_any (w k) s Cw Cs) as [Cq Eq]; [lra| |].
    { rewrite Rabs_pos_eq by lra. apply Rle_lt_trans with (1 := proj2 Hr). apply Rlt_le_trans with (bpow 2); [rewrite bpow_IZR by lia; change (2^2)%Z with 4%Z; lra|apply bpow_le; lia]. }
    split; [exact Cq|]. rewrite (Rabs_pos_eq (fval (w k) / fval s)) in Eq by lra.
    destruct (quotient_near (fval (w k)) W (fval s) (INR L * eps) (fval (q k)) tiny Pw HWp Es) as [_ E2]; [split; [apply Rmult_le_pos; lra|exact HLe]|exact Eq|].
    apply Rle_trans with (1 := E2). apply Rplus_le_compat_r. apply Rmult_le_compat_r.
    - apply Rmult_le_pos; [exact Pw|apply Rlt_le, Rinv_0_lt_compat, HWp].
    - assert (1 * eps <= INR L * eps) by (apply Rmult_le_compat_r; lra). lra. }
  intros v.
  assert (Hv : adds_up (map (fun k => fmul (q k) (K k i j)) (seq 0 L)) v).
  { unfold v. rewrite map_map. apply (combine_adds L q K i j). }
  assert (Hww : rsum L (fun k => fval (w k) / W) = 1) by (rewrite rsum_div; fold W; field; lra).
  assert (Hx0 : forall k, (k < L)%nat -> 0 <= fval (w k) / W).
  { intros k Hk. apply Rmult_le_pos; [apply Hw, Hk|apply Rlt_le, Rinv_0_lt_compat, HWp]. }
  assert (Ht : 0 < tiny) by apply bpow_pos.
  assert (HLt : INR L * tiny <= eps).
  { apply Rle_trans with (bpow 40 * tiny); [apply Rmult_le_compat_r; lra|]. unfold tiny, eps. rewrite <- bpow_add. apply bpow_le. lia. }
  assert (HQ : rsum L (fun k => Rabs (fval (q k) - fval (w k) / W)) <= 3 * INR L * eps + eps).
  { apply Rle_trans with (rsum L (fun k => (3 * INR L * eps) * (fval (w k) / W) + tiny)).
    - apply rsum_le. intros k Hk. apply Hq, Hk.
    - rewrite rsum_plus, rsum_scal, Hww, rsum_const. lra. }
  assert (HT : rsum L (fun k => Rabs (fval (q k) * fval (K k i j))) <= 2 * M).
  { apply Rle_trans with (rsum L (fun k => (Rabs (fval (q k) - fval (w k) / W) + fval (w k) / W) * M)).
    - apply rsum_le. intros k Hk. rewrite Rabs_mult. apply Rmult_le_compat; try apply Rabs_pos; [|apply HK, Hk].
      replace (fval (q k)) with ((fval (q k) - fval (w k) / W) + fval (w k) / W) at 1 by ring.
      eapply Rle_trans; [apply Rabs_triang|]. rewrite (Rabs_pos_eq (fval (w k) / W)) by apply Hx0, Hk. lra.
    - rewrite rsum_scal_r, rsum_plus, Hww. apply Rmult_le_compat_r; [exact HM0|].
      assert (1 * eps <= INR L * eps) by (apply Rmult_le_compat_r; lra). lra. }
  destruct (prods_any L q (fun k => K k i j) v (2 * M) Hv H50) as [Cv Ev].
  { intros k Hk. split; [apply Hq, Hk|apply HK, Hk]. }
  { exact HT. }
  { apply Rle_trans with (2 * bpow 1000); [lra|]. apply Rle_trans with (bpow (1 + 1000)); [rewrite bpow_add; change (bpow 1) with (2 * 1); lra|apply bpow_le; lia]. }
  split; [exact Cv|].
  assert (Ed : Rabs (rsum L (fun k => fval (q k) * fval (K k i j)) - rsum L (fun k => fval (w k) * fval (K k i j)) / W) <= (3 * INR L * eps + eps) * M).
  { rewrite <- rsum_div, <- rsum_minus. eapply Rle_trans; [apply rsum_abs|].
    apply Rle_trans with (rsum L (fun k => Rabs (fval (q k) - fval (w k) / W) * M)).
    - apply rsum_le. intros k Hk.
      replace (fval (q k) * fval (K k i j) - fval (w k) * fval (K k i j) / W) with ((fval (q k) - fval (w k) / W) * fval (K k i j)) by (field; lra).
      rewrite Rabs_mult. apply Rmult_le_compat_l; [apply Rabs_pos|apply HK, Hk].
    - rewrite rsum_scal_r. apply Rmult_le_compat_r; assumption. }
  set (X := rsum L (fun k => fval (q k) * fval (K k i j))) in *.
  replace (fval v - rsum L (fun k => fval (w k) * fval (K k i j)) / W) with
    ((fval v - X) + (X - rsum L (fun k => fval (w k) * fval (K k i j)) / W)) by ring.
  eapply Rle_trans; [apply Rabs_triang|].
  assert (T1 : eps * M <= INR L * eps * M).
  { apply Rmult_le_compat_r; [exact HM0|]. rewrite <- (Rmult_1_l eps) at 1. apply Rmult_le_compat_r; lra. }
  assert (0 <= INR L * eps * M) by (repeat apply Rmult_le_pos; lra).
  lra.
Qed.
