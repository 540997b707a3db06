(** C77: normalize_km in double precision: the rounding error. *)
From Coq Require Import ZArith Bool List Lia Lra Reals Floats.SpecFloat.
Import ListNotations.
From Verif Require Import Prelude KernelsModel FloatModel SpecFloats SpecFloatVal FloatProps FloatNormProps FloatRound.
Local Open Scope R_scope.

Definition ulp : R := bpow (-53).
Lemma ulp_small : 0 < ulp < / 1000.
Proof.
  split; [apply bpow_pos |]. unfold ulp. apply Rle_lt_trans with (bpow (-10)); [apply bpow_le; lia |].
  replace (bpow (-10)) with (/ 1024); [lra |]. change (-10)%Z with (- (10))%Z. rewrite bpow_neg, bpow_IZR by lia. reflexivity.
Qed.

Lemma rel_ex : forall a x t, t <> 0 -> Rabs (x - t) <= a * Rabs t -> exists d, Rabs d <= a /\ x = t * (1 + d).
Proof.
  intros a x t Ht H. exists ((x - t) / t). assert (Hp : 0 < Rabs t) by (apply Rabs_pos_lt; exact Ht). split.
  - unfold Rdiv. rewrite Rabs_mult, Rabs_inv. apply (Rmult_le_reg_r (Rabs t)); [exact Hp |].
    rewrite Rmult_assoc, Rinv_l, Rmult_1_r by lra. exact H.
  - field. exact Ht.
Qed.

Lemma abs_bound : forall d a, Rabs d <= a <-> - a <= d <= a.
Proof. intros d a. unfold Rabs. destruct (Rcase_abs d); lra. Qed.

Lemma rel_bounds : forall t d, Rabs d <= / 2 -> Rabs t / 2 <= Rabs (t * (1 + d)) <= 2 * Rabs t.
Proof.
  intros t d H. apply abs_bound in H. rewrite Rabs_mult. rewrite (Rabs_pos_eq (1 + d)) by lra. assert (Hp := Rabs_pos t). split; nra.
Qed.

Lemma fval_fone : fval fone = 1.
Proof.
  rewrite fone_eq. cbn [fval]. change (-52)%Z with (- (52))%Z. rewrite bpow_neg, bpow_IZR by lia. change (2 ^ 52)%Z with 4503599627370496%Z. lra.
Qed.

Lemma normal_fone : normal fone.
Proof. rewrite fone_eq. cbn. split; [reflexivity | lia]. Qed.

Lemma two_bpow : forall e, 2 * bpow e = bpow (1 + e).
Proof. intros e. rewrite bpow_add. change (bpow 1) with (2 * 1). ring. Qed.
Lemma half_bpow : forall e, bpow e / 2 = bpow (e - 1).
Proof. intros e. assert (H := two_bpow (e - 1)). replace (1 + (e - 1))%Z with e in H by lia. lra. Qed.

Lemma sqrt_bpow : forall e, sqrt (bpow (2 * e)) = bpow e.
Proof.
  intros e. replace (2 * e)%Z with (e + e)%Z by lia. rewrite bpow_add. apply sqrt_square. assert (H := bpow_pos e). lra.
Qed.

Lemma sqrt_range : forall x, bpow (-100) <= x <= bpow 1000 -> bpow (-50) <= sqrt x <= bpow 500.
Proof.
  intros x [H1 H2]. rewrite <- (sqrt_bpow (-50)), <- (sqrt_bpow 500). split; apply sqrt_le_1_alt; assumption.
Qed.

(** 1 / sqrt(x) *)
Lemma inv_sqrt_error : forall x, normal x -> bpow (-100) <= fval x <= bpow 1000 ->
  normal (fdiv fone (fsqrt x)) /\
  exists d, Rabs d <= 22 / 10 * ulp /\ fval (fdiv fone (fsqrt x)) = / sqrt (fval x) * (1 + d).
Proof.
  intros x Nx Hx. assert (Hs := sqrt_range _ Hx). set (S := sqrt (fval x)) in *.
  assert (H50 := bpow_pos (-50)). assert (H100 := bpow_pos (-100)). assert (Hu := ulp_small).
  destruct (fsqrt_error x Nx) as [Nq Eq]; [lra |]. fold S in Eq. fold ulp in Eq.
  destruct (rel_ex ulp (fval (fsqrt x)) S) as (a & Ha & Ea); [lra | rewrite (Rabs_pos_eq S) by lra; exact Eq |].
  assert (Ha' := proj1 (abs_bound _ _) Ha).
  assert (Hq : S / 2 <= fval (fsqrt x) <= 2 * S) by (rewrite Ea; split; nra).
  assert (Hq0 : 0 < fval (fsqrt x)) by lra.
  assert (Hi : Rabs (fval fone / fval (fsqrt x)) = / fval (fsqrt x)).
  { rewrite fval_fone. unfold Rdiv. rewrite Rmult_1_l. apply Rabs_pos_eq. left. apply Rinv_0_lt_compat. exact Hq0. }
  destruct (fdiv_error fone (fsqrt x) normal_fone Nq) as [Nd Ed].
  - rewrite Hi. apply Rle_trans with (/ bpow 501).
    + rewrite <- bpow_neg. apply bpow_le. lia.
    + apply Rinv_le_contravar; [exact Hq0 |]. assert (H501 : 2 * bpow 500 = bpow 501) by exact (two_bpow 500). lra.
  - rewrite Hi. apply Rle_lt_trans with (/ bpow (-51)).
    + apply Rinv_le_contravar; [apply bpow_pos |]. assert (H51 : bpow (-50) / 2 = bpow (-51)) by exact (half_bpow (-50)). lra.
    + rewrite <- bpow_neg. apply Rle_lt_trans with (bpow 1021); [apply bpow_le; lia |]. assert (H1022 : 2 * bpow 1021 = bpow 1022) by exact (two_bpow 1021).
      assert (H := bpow_pos 1021). lra.
  - split; [exact Nd |]. assert (N0 : fval fone / fval (fsqrt x) <> 0) by (rewrite fval_fone; unfold Rdiv; rewrite Rmult_1_l; apply Rinv_neq_0_compat; lra).
    destruct (rel_ex ulp _ _ N0 Ed) as (b & Hb & Eb).
    assert (Hb' := proj1 (abs_bound _ _) Hb).
    exists ((1 + b) / (1 + a) - 1). split.
    + apply abs_bound. assert (Hpa : 0 < 1 + a) by lra.
      assert (Hx1 : (1 + b) / (1 + a) * (1 + a) = 1 + b) by (field; lra).
      set (g := (1 + b) / (1 + a)) in *. split; nra.
    + rewrite Eb, Ea, fval_fone. field. repeat split; lra.
Qed.

Lemma prod_rel : forall a b u v, 0 <= u -> 0 <= v -> Rabs a <= u -> Rabs b <= v -> Rabs ((1 + a) * (1 + b) - 1) <= u + v + u * v.
Proof.
  intros a b u v Hu Hv Ha Hb. replace ((1 + a) * (1 + b) - 1) with (a + b + a * b) by ring.
  apply Rle_trans with (Rabs a + Rabs b + Rabs (a * b)).
  - eapply Rle_trans; [apply Rabs_triang |]. apply Rplus_le_compat_r, Rabs_triang.
  - rewrite Rabs_mult. assert (H1 := Rabs_pos a). assert (H2 := Rabs_pos b).
    apply Rplus_le_compat; [lra |]. apply Rmult_le_compat; lra.
Qed.

(** One entry: (d_i K_ij) d_j *)
Lemma entry_error : forall wi wj w, normal wi -> bpow (-100) <= fval wi <= bpow 1000 ->
  normal wj -> bpow (-100) <= fval wj <= bpow 1000 -> normal w ->
  let t := fval w / (sqrt (fval wi) * sqrt (fval wj)) in
  bpow (-900) <= Rabs t <= bpow 400 ->
  let p := fmul (fdiv fone (fsqrt wi)) w in
  let r := fmul p (fdiv fone (fsqrt wj)) in
  normal p /\ normal r /\ Rabs (fval r - t) <= 8 * ulp * Rabs t.
Proof.
  intros wi wj w Ni Hi Nj Hj Nw t Ht p r.
  destruct (inv_sqrt_error wi Ni Hi) as [Ndi (di & Hdi & Edi)].
  destruct (inv_sqrt_error wj Nj Hj) as [Ndj (dj & Hdj & Edj)].
  assert (Hsi := sqrt_range _ Hi). assert (Hsj := sqrt_range _ Hj).
  set (Si := sqrt (fval wi)) in *. set (Sj := sqrt (fval wj)) in *.
  assert (H50 := bpow_pos (-50)). assert (Hu := ulp_small).
  assert (Hsq : ulp * ulp <= ulp / 1000) by (clear - Hu; nra).
  assert (Ht0 : 0 < Rabs t) by (assert (H := bpow_pos (-900)); lra).
  assert (Htn : t <> 0) by (intros ->; rewrite Rabs_R0 in Ht0; lra).
  assert (Ew : fval w = t * Si * Sj) by (unfold t; field; split; lra).
  (* first product *)
  assert (E1 : fval (fdiv fone (fsqrt wi)) * fval w = (t * Sj) * (1 + di)) by (rewrite Edi, Ew; field; lra).
  assert (Hdi2 : Rabs di <= / 2) by lra. assert (Hdj2 : Rabs dj <= / 2) by lra.
  assert (B1 := rel_bounds (t * Sj) di Hdi2). rewrite <- E1 in B1.
  assert (BtS : bpow (-950) <= Rabs (t * Sj) <= bpow 900).
  { rewrite Rabs_mult, (Rabs_pos_eq Sj) by lra. change (-950)%Z with (-900 + -50)%Z. change 900%Z with (400 + 500)%Z. rewrite !bpow_add.
    assert (H900 := bpow_pos (-900)). split; apply Rmult_le_compat; lra. }
  assert (Hb951 := half_bpow (-950)). assert (Hb901 := two_bpow 900). change (-950 - 1)%Z with (-951)%Z in Hb951. change (1 + 900)%Z with 901%Z in Hb901.
  destruct (fmul_error (fdiv fone (fsqrt wi)) w Ndi Nw) as [Np Ep].
  { apply Rle_trans with (bpow (-951)); [apply bpow_le; lia | lra]. }
  { apply Rle_lt_trans with (bpow 901); [lra |]. apply Rle_lt_trans with (bpow 1021); [apply bpow_le; lia |].
    assert (H1022 : 2 * bpow 1021 = bpow 1022) by exact (two_bpow 1021). assert (H := bpow_pos 1021). lra. }
  fold p in Np, Ep. fold ulp in Ep.
  assert (N1 : fval (fdiv fone (fsqrt wi)) * fval w <> 0) by (intros H0; rewrite H0, Rabs_R0 in B1; assert (H := bpow_pos (-950)); lra).
  destruct (rel_ex ulp _ _ N1 Ep) as (a & Ha & Ea).
  rewrite E1 in Ea.
  assert (Q1 := prod_rel di a (22/10 * ulp) ulp ltac:(lra) ltac:(lra) Hdi Ha).
  set (g1 := (1 + di) * (1 + a) - 1) in *.
  assert (Ea1 : fval p = t * Sj * (1 + g1)) by (rewrite Ea; unfold g1; ring).
  assert (G1 : Rabs g1 <= 33/10 * ulp) by lra.
  (* second product *)
  assert (E2 : fval p * fval (fdiv fone (fsqrt wj)) = t * ((1 + g1) * (1 + dj))) by (rewrite Ea1, Edj; field; lra).
  assert (Q2 := prod_rel g1 dj (33/10 * ulp) (22/10 * ulp) ltac:(lra) ltac:(lra) G1 Hdj).
  set (g2 := (1 + g1) * (1 + dj) - 1) in *.
  assert (E2' : fval p * fval (fdiv fone (fsqrt wj)) = t * (1 + g2)) by (rewrite E2; unfold g2; ring).
  assert (G2 : Rabs g2 <= 56/10 * ulp) by lra.
  assert (B2 := rel_bounds t g2 ltac:(lra)). rewrite <- E2' in B2.
  assert (Hb901' := half_bpow (-900)). assert (Hb401 := two_bpow 400). change (-900 - 1)%Z with (-901)%Z in Hb901'. change (1 + 400)%Z with 401%Z in Hb401.
  destruct (fmul_error p (fdiv fone (fsqrt wj)) Np Ndj) as [Nr Er].
  { apply Rle_trans with (bpow (-901)); [apply bpow_le; lia | lra]. }
  { apply Rle_lt_trans with (bpow 401); [lra |]. apply Rle_lt_trans with (bpow 1021); [apply bpow_le; lia |].
    assert (H1022 : 2 * bpow 1021 = bpow 1022) by exact (two_bpow 1021). assert (H := bpow_pos 1021). lra. }
  fold r in Nr, Er. fold ulp in Er.
  assert (N2 : fval p * fval (fdiv fone (fsqrt wj)) <> 0) by (intros H0; rewrite H0, Rabs_R0 in B2; lra).
  destruct (rel_ex ulp _ _ N2 Er) as (b & Hb & Eb).
  rewrite E2' in Eb.
  assert (Q3 := prod_rel g2 b (56/10 * ulp) ulp ltac:(lra) ltac:(lra) G2 Hb).
  split; [exact Np |]. split; [exact Nr |].
  replace (fval r - t) with (((1 + g2) * (1 + b) - 1) * t) by (rewrite Eb; ring).
  rewrite Rabs_mult. apply Rmult_le_compat_r; [lra |]. lra.
Qed.

Lemma normal_finite : forall x, normal x -> f_finite x = true.
Proof. intros [ | | | ]; cbn; intros; try contradiction; reflexivity. Qed.

Lemma fval_same : forall x y, f_same x y -> fval x = fval y.
Proof. intros x y [-> | [Hx Hy]]; [reflexivity |]. destruct x, y; try discriminate; reflexivity. Qed.

Lemma fval_zero : forall x, f_iszero x = true -> fval x = 0.
Proof. intros [ | | | ] H; try discriminate; reflexivity. Qed.

Lemma f_same_trans : forall x y z, f_same x y -> f_same y z -> f_same x z.
Proof.
  intros x y z [-> | [Hx Hy]] [<- | [Hy' Hz]]; [left; reflexivity | right; auto | right; auto | right; auto].
Qed.

Lemma f_same_finite : forall x y, f_same x y -> f_finite y = true -> f_finite x = true.
Proof. intros x y [-> | [Hx Hy]] H; [exact H |]. destruct x; try discriminate; reflexivity. Qed.

(** The matrix products have one non-zero term each. *)
Lemma fnormalize_entry : forall e n K, decent e ->
  (forall i, (i < n)%nat -> f_finite (fdiv fone (fsqrt (K i i))) = true) ->
  (forall i j, (i < n)%nat -> (j < n)%nat -> f_finite (K i j) = true) ->
  (forall i j, (i < n)%nat -> (j < n)%nat -> f_finite (fmul (fdiv fone (fsqrt (K i i))) (K i j)) = true) ->
  (forall i j, (i < n)%nat -> (j < n)%nat ->
     f_finite (fmul (fmul (fdiv fone (fsqrt (K i i))) (K i j)) (fdiv fone (fsqrt (K j j)))) = true) ->
  forall i j, (i < n)%nat -> (j < n)%nat ->
  f_same (fnormalize e n K i j) (fmul (fmul (fdiv fone (fsqrt (K i i))) (K i j)) (fdiv fone (fsqrt (K j j)))).
Proof.
  intros e n K He Fd FK Fp Fr i j Hi Hj. set (D := fdiagflat (fun i => K i i)).
  assert (HD : forall a b, D a b = if (a =? b)%nat then fdiv fone (fsqrt (K a a)) else fzero) by reflexivity.
  assert (Hin : forall k, (k < n)%nat -> f_same (fmatmul e n D K i k) (fmul (fdiv fone (fsqrt (K i i))) (K i k))).
  { intros k Hk. unfold fmatmul.
    assert (Hg := acc_one_term e n (fun l => fmul (D i l) (K l k)) i He Hi). cbv beta in Hg.
    rewrite (HD i i), Nat.eqb_refl in Hg. apply Hg; [apply Fp; assumption |].
    intros l Hl Hli. rewrite HD. destruct (Nat.eqb_spec i l) as [-> | _]; [destruct Hli; reflexivity |].
    rewrite fmul_comm. apply fmul_zero; [apply FK; assumption | reflexivity]. }
  assert (Hfin : forall k, (k < n)%nat -> f_finite (fmatmul e n D K i k) = true).
  { intros k Hk. apply (f_same_finite _ _ (Hin k Hk)), Fp; assumption. }
  assert (Hmul : f_same (fmul (fmatmul e n D K i j) (D j j))
                   (fmul (fmul (fdiv fone (fsqrt (K i i))) (K i j)) (fdiv fone (fsqrt (K j j))))).
  { rewrite HD, Nat.eqb_refl. destruct (Hin j Hj) as [-> | [Hz1 Hz2]]; [left; reflexivity |]. right.
    split; rewrite fmul_comm; apply fmul_zero; auto. }
  apply (f_same_trans _ (fmul (fmatmul e n D K i j) (D j j)) _); [| exact Hmul].
  unfold fnormalize. cbv zeta. fold D. unfold fmatmul at 1.
  apply (acc_one_term e n (fun l => fmul (fmatmul e n D K i l) (D l j)) j He Hj).
  - apply (f_same_finite _ _ Hmul). apply Fr; assumption.
  - intros l Hl Hlj. rewrite HD. destruct (Nat.eqb_spec l j) as [-> | _]; [destruct Hlj; reflexivity |].
    apply fmul_zero; [apply Hfin; exact Hl | reflexivity].
Qed.

(** C77. In double precision, normalize_km computes every entry K_ij / (sqrt(K_ii) sqrt(K_jj)) with a
    relative error of at most 2^-50, whatever the order in which the platform accumulates the matrix
    products. *)
Lemma pf_C77_error : forall e n K, decent e -> moderate n K ->
  forall i j, (i < n)%nat -> (j < n)%nat ->
  f_finite (fnormalize e n K i j) = true /\
  Rabs (fval (fnormalize e n K i j) - exact_norm K i j) <= bpow (-50) * Rabs (exact_norm K i j).
Proof.
  intros e n K He [HD HK].
  assert (Fd : forall i, (i < n)%nat -> f_finite (fdiv fone (fsqrt (K i i))) = true).
  { intros i Hi. destruct (HD i Hi) as [N R]. apply normal_finite, (inv_sqrt_error _ N R). }
  assert (FK : forall i j, (i < n)%nat -> (j < n)%nat -> f_finite (K i j) = true).
  { intros i j Hi Hj. destruct (HK i j Hi Hj) as [Z | [N _]]; [| apply normal_finite; exact N].
    destruct (K i j); try discriminate; reflexivity. }
  assert (Hall : forall i j, (i < n)%nat -> (j < n)%nat ->
     let p := fmul (fdiv fone (fsqrt (K i i))) (K i j) in
     let r := fmul p (fdiv fone (fsqrt (K j j))) in
     f_finite p = true /\ f_finite r = true /\ Rabs (fval r - exact_norm K i j) <= bpow (-50) * Rabs (exact_norm K i j)).
  { intros i j Hi Hj p r. destruct (HD i Hi) as [Ni Ri]. destruct (HD j Hj) as [Nj Rj].
    destruct (HK i j Hi Hj) as [Z | [N T]].
    - assert (Zp : f_iszero p = true) by (apply fmul_zero; [apply Fd; exact Hi | exact Z]).
      assert (Zr : f_iszero r = true) by (unfold r; rewrite fmul_comm; apply fmul_zero; [apply Fd; exact Hj | exact Zp]).
      assert (Hf : forall x, f_iszero x = true -> f_finite x = true) by (intros []; cbn; intros; try discriminate; reflexivity).
      split; [apply Hf; exact Zp |]. split; [apply Hf; exact Zr |].
      unfold exact_norm. rewrite (fval_zero _ Zr), (fval_zero _ Z). unfold Rdiv. rewrite Rmult_0_l, Rminus_0_r, Rabs_R0. lra.
    - destruct (entry_error (K i i) (K j j) (K i j) Ni Ri Nj Rj N T) as (Np & Nr & Hr).
      split; [apply normal_finite; exact Np |]. split; [apply normal_finite; exact Nr |].
      apply Rle_trans with (1 := Hr). apply Req_le. unfold exact_norm. f_equal. unfold ulp.
      change (-50)%Z with (3 + -53)%Z. rewrite bpow_add. f_equal. rewrite bpow_IZR by lia. reflexivity. }
  intros i j Hi Hj.
  assert (Hs : f_same (fnormalize e n K i j) (fmul (fmul (fdiv fone (fsqrt (K i i))) (K i j)) (fdiv fone (fsqrt (K j j))))).
  { apply fnormalize_entry; try assumption; intros a b Ha Hb; apply Hall; assumption. }
  destruct (Hall i j Hi Hj) as (_ & Hr & Hb). split; [exact (f_same_finite _ _ Hs Hr) |].
  rewrite (fval_same _ _ Hs). exact Hb.
Qed.

Lemma exact_norm_diag : forall n K i, moderate n K -> (i < n)%nat -> exact_norm K i i = 1.
Proof.
  intros n K i [HD _] Hi. destruct (HD i Hi) as [_ R]. unfold exact_norm. assert (H := bpow_pos (-100)).
  rewrite sqrt_sqrt by lra. field. lra.
Qed.

(** C77. So the diagonal of the normalized matrix is 1 up to 2^-50. *)
Lemma pf_C77_diagonal : forall e n K, decent e -> moderate n K ->
  forall i, (i < n)%nat -> Rabs (fval (fnormalize e n K i i) - 1) <= bpow (-50).
Proof.
  intros e n K He HK i Hi. destruct (pf_C77_error e n K He HK i i Hi Hi) as [_ H].
  rewrite (exact_norm_diag n K i HK Hi), Rabs_R1, Rmult_1_r in H. exact H.
Qed.

(** C77. And normalizing a symmetric matrix gives a matrix that is symmetric up to a relative 2^-49. *)
Lemma pf_C77_symmetric : forall e n K, decent e -> moderate n K ->
  (forall i j, (i < n)%nat -> (j < n)%nat -> K i j = K j i) ->
  forall i j, (i < n)%nat -> (j < n)%nat ->
  Rabs (fval (fnormalize e n K i j) - fval (fnormalize e n K j i)) <= bpow (-49) * Rabs (exact_norm K i j).
Proof.
  intros e n K He HK Hsym i j Hi Hj. destruct (pf_C77_error e n K He HK i j Hi Hj) as [_ H1].
  destruct (pf_C77_error e n K He HK j i Hj Hi) as [_ H2].
  assert (Hs : exact_norm K j i = exact_norm K i j).
  { unfold exact_norm. rewrite (Hsym j i Hj Hi). f_equal. ring. }
  rewrite Hs in H2. change (-49)%Z with (1 + -50)%Z. rewrite bpow_add. change (bpow 1) with (2 * 1).
  apply abs_bound in H1. apply abs_bound in H2. apply abs_bound. split; lra.
Qed.

Lemma fval_lin2 : fval (lin2 0 0) = 2 /\ fval (lin2 0 1) = 3 /\ fval (lin2 1 0) = 3 /\ fval (lin2 1 1) = 5.
Proof.
  assert (H : forall m e, fval (S754_finite false m (- Z.pos e)) = IZR (Z.pos m) / IZR (2 ^ Z.pos e)).
  { intros m e. cbn [fval]. rewrite bpow_neg, bpow_IZR by lia. rewrite Rmult_1_l. reflexivity. }
  repeat split.
  - replace (lin2 0 0) with (S754_finite false 4503599627370496 (- (51))) by (vm_compute; reflexivity).
    rewrite H. change (2 ^ 51)%Z with 2251799813685248%Z. lra.
  - replace (lin2 0 1) with (S754_finite false 6755399441055744 (- (51))) by (vm_compute; reflexivity).
    rewrite H. change (2 ^ 51)%Z with 2251799813685248%Z. lra.
  - replace (lin2 1 0) with (S754_finite false 6755399441055744 (- (51))) by (vm_compute; reflexivity).
    rewrite H. change (2 ^ 51)%Z with 2251799813685248%Z. lra.
  - replace (lin2 1 1) with (S754_finite false 5629499534213120 (- (50))) by (vm_compute; reflexivity).
    rewrite H. change (2 ^ 50)%Z with 1125899906842624%Z. lra.
Qed.

(** C77: an instance: ((2, 3), (3, 5)). *)
Lemma pf_C77_example : moderate 2 lin2 /\ exact_norm lin2 0 1 = 3 / (sqrt 2 * sqrt 5) /\
  forall e, decent e ->
  Rabs (fval (fnormalize e 2 lin2 0 1) - 3 / (sqrt 2 * sqrt 5)) <= bpow (-50).
Proof.
  destruct fval_lin2 as (F00 & F01 & F10 & F11).
  assert (Hm : bpow (-100) <= 1) by (rewrite <- bpow_0; apply bpow_le; lia).
  assert (Hm' : bpow (-900) <= / 2) by (replace (/ 2) with (bpow (-1)) by (change (-1)%Z with (- (1))%Z; rewrite bpow_neg, bpow_IZR by lia; reflexivity); apply bpow_le; lia).
  assert (HM : 8 <= bpow 400 /\ 8 <= bpow 1000).
  { assert (H8 : 8 = bpow 3) by (rewrite bpow_IZR by lia; reflexivity). rewrite H8 at 1 2. split; apply bpow_le; lia. }
  assert (S2 : sqrt 2 * sqrt 2 = 2) by (apply sqrt_sqrt; lra). assert (S5 : sqrt 5 * sqrt 5 = 5) by (apply sqrt_sqrt; lra).
  assert (P2 : 0 < sqrt 2) by (apply sqrt_lt_R0; lra). assert (P5 : 0 < sqrt 5) by (apply sqrt_lt_R0; lra).
  assert (HE : exact_norm lin2 0 1 = 3 / (sqrt 2 * sqrt 5)) by (unfold exact_norm; rewrite F00, F01, F11; reflexivity).
  assert (HP : 0 < sqrt 2 * sqrt 5) by (apply Rmult_lt_0_compat; assumption).
  assert (HQ : (sqrt 2 * sqrt 5) * (sqrt 2 * sqrt 5) = 10) by (transitivity ((sqrt 2 * sqrt 2) * (sqrt 5 * sqrt 5)); [ring | rewrite S2, S5; lra]).
  assert (HT : / 2 <= 3 / (sqrt 2 * sqrt 5) <= 1).
  { set (y := sqrt 2 * sqrt 5) in *. assert (H3 : 3 / y * y = 3) by (field; lra). set (z := 3 / y) in *. split; nra. }
  assert (Hmod : moderate 2 lin2).
  { split.
    - intros [|[|i]] Hi; [| | lia]; (split; [vm_compute; repeat split; discriminate |]); rewrite ?F00, ?F11; lra.
    - intros [|[|i]] [|[|j]] Hi Hj; try lia; right; (split; [vm_compute; repeat split; discriminate |]);
      unfold exact_norm; rewrite ?F00, ?F01, ?F10, ?F11.
      + rewrite S2. replace (2 / 2) with 1 by field. rewrite Rabs_R1. lra.
      + rewrite Rabs_pos_eq by lra. lra.
      + rewrite (Rmult_comm (sqrt 5)). rewrite Rabs_pos_eq by lra. lra.
      + rewrite S5. replace (5 / 5) with 1 by field. rewrite Rabs_R1. lra. }
  split; [exact Hmod |]. split; [exact HE |]. intros e He.
  destruct (pf_C77_error e 2 lin2 He Hmod 0 1) as [_ H]; [lia | lia |]. rewrite HE in H.
  rewrite (Rabs_pos_eq (3 / _)) in H by lra. assert (Hp := bpow_pos (-50)). nra.
Qed.
