(** Rounding errors of sums and of inner products of doubles. *)
From Coq Require Import ZArith Bool List Permutation Reals Lia Lra Floats.SpecFloat.
From Verif Require Import Prelude KernelsModel XReal MatModel FloatModel SpecFloats SpecFloatVal SpecLinAlg RSum SpecKernels SpecFloatErr FloatProps
  FloatNormProps FloatRound FloatAny.
Import ListNotations.
Local Open Scope R_scope.

Notation u := unit_roundoff.

Lemma u_pos : 0 < u.
Proof. apply bpow_pos. Qed.

Lemma u_eps : 2 * u = eps.
Proof. unfold unit_roundoff, eps. change (-52)%Z with (1 + -53)%Z. rewrite bpow_add. change (bpow 1) with (2 * 1). ring. Qed.

Lemma tiny_least : 2 * tiny = least.
Proof. unfold tiny, least. change (-1074)%Z with (1 + -1075)%Z. rewrite bpow_add. change (bpow 1) with (2 * 1). ring. Qed.

Lemma canon_valid : forall x, canon x -> f_finite x = true /\ valid_binary 53 1024 x = true.
Proof.
  intros [s|s| |s m e] H; try contradiction; [split; reflexivity|]. destruct H as (H1 & H2 & H3). split; [reflexivity|].
  cbn. unfold bounded, canonical_mantissa. apply andb_true_iff. split; [apply Zeq_is_eq_bool|apply Z.leb_le; lia].
  unfold fexp, emin. destruct H3 as [H3|H3]; [rewrite H3; lia|lia].
Qed.

Fixpoint lsum (l : list f64) : R := match l with [] => 0 | v :: t => fval v + lsum t end.
Fixpoint labs (l : list f64) : R := match l with [] => 0 | v :: t => Rabs (fval v) + labs t end.

Lemma lsum_app : forall a b, lsum (a ++ b) = lsum a + lsum b.
Proof. induction a as [|v a IH]; intros b; cbn; [ring|rewrite IH; ring]. Qed.
Lemma labs_app : forall a b, labs (a ++ b) = labs a + labs b.
Proof. induction a as [|v a IH]; intros b; cbn; [ring|rewrite IH; ring]. Qed.
Lemma lsum_perm : forall a b, Permutation a b -> lsum a = lsum b.
Proof. induction 1; cbn; lra. Qed.
Lemma labs_perm : forall a b, Permutation a b -> labs a = labs b.
Proof. induction 1; cbn; lra. Qed.
Lemma labs_nonneg : forall l, 0 <= labs l.
Proof. induction l as [|v l IH]; cbn; [lra|]. assert (H := Rabs_pos (fval v)). lra. Qed.
Lemma lsum_labs : forall l, Rabs (lsum l) <= labs l.
Proof.
  induction l as [|v l IH]; cbn; [rewrite Rabs_R0; lra|]. eapply Rle_trans; [apply Rabs_triang|]. lra.
Qed.

Lemma grow_ge1 : forall n, 1 <= (1 + u) ^ n.
Proof. intros n. apply pow_R1_Rle. assert (H := u_pos). lra. Qed.

Lemma grow_mono : forall n m, (n <= m)%nat -> (1 + u) ^ n <= (1 + u) ^ m.
Proof. intros n m H. apply Rle_pow; [assert (Hu := u_pos); lra|exact H]. Qed.

Lemma grow_bound : forall n, 2 * INR n * u <= 1 -> (1 + u) ^ n <= 1 + 2 * INR n * u.
Proof.
  assert (Hu := u_pos). induction n as [|n IH]; intros H; [cbn; lra|].
  rewrite S_INR in *. assert (Hn := pos_INR n). assert (H' : 2 * INR n * u <= 1) by nra. specialize (IH H').
  cbn [pow]. apply Rle_trans with ((1 + u) * (1 + 2 * INR n * u)); [apply Rmult_le_compat_l; lra|].
  assert (2 * INR n * u * u <= u); [|lra]. apply Rle_trans with (1 * u); [apply Rmult_le_compat_r; lra|lra].
Qed.

Lemma fadd_zero_l : forall z x, f_iszero z = true -> fval (fadd z x) = fval x /\ (canon x -> canon (fadd z x)).
Proof.
  intros [s|s| |s m e] [s'|s'| |s' m' e'] H; try discriminate; cbn; try (split; [reflexivity|auto]; fail).
  unfold fadd, SFadd. destruct (Bool.eqb s s'); split; auto.
Qed.

Lemma sum_any : forall l v, adds_up l v -> Forall canon l -> (1 + u) ^ length l * labs l < bpow 1023 ->
  canon v /\ Rabs (fval v - lsum l) <= ((1 + u) ^ (length l - 1) - 1) * labs l.
Proof.
  assert (Hu := u_pos).
  induction 1 as [s|v|l1 l2 l a b H1 IH1 H2 IH2 Hp]; intros Hc Hb.
  - split; [exact I|]. cbn. rewrite Rminus_0_r, Rabs_R0. lra.
  - inversion Hc; subst. split; [assumption|]. cbn. rewrite Rplus_0_r, Rminus_diag_eq by reflexivity. rewrite Rabs_R0. lra.
  - rewrite (lsum_perm _ _ Hp), (labs_perm _ _ Hp), (Permutation_length Hp), lsum_app, labs_app, app_length in *.
    assert (Hc' : Forall canon (l1 ++ l2)) by (eapply Permutation_Forall; eassumption).
    apply Forall_app in Hc'. destruct Hc' as [Hc1 Hc2].
    assert (P1 := labs_nonneg l1). assert (P2 := labs_nonneg l2).
    assert (G := grow_ge1 (length l1 + length l2)).
    assert (G1 := grow_mono (length l1) (length l1 + length l2) ltac:(lia)).
    assert (G2 := grow_mono (length l2) (length l1 + length l2) ltac:(lia)).
    assert (G1' := grow_ge1 (length l1)). assert (G2' := grow_ge1 (length l2)).
    destruct IH1 as [Ca Ea]; [exact Hc1| |].
    { apply Rle_lt_trans with (2 := Hb). apply Rmult_le_compat; lra. }
    destruct IH2 as [Cb Eb]; [exact Hc2| |].
    { apply Rle_lt_trans with (2 := Hb). apply Rmult_le_compat; lra. }
    destruct l1 as [|x1 l1].
    { assert (Za := adds_zeros [] a H1 eq_refl). destruct (fadd_zero_l a b Za) as [Hv Hcan].
      split; [exact (Hcan Cb)|]. cbn [lsum labs length Nat.add] in *. rewrite !Rplus_0_l, Hv. exact Eb. }
    destruct l2 as [|x2 l2].
    { assert (Zb := adds_zeros [] b H2 eq_refl). rewrite fadd_comm. destruct (fadd_zero_l b a Zb) as [Hv Hcan].
      split; [exact (Hcan Ca)|]. rewrite Nat.add_0_r. cbn [lsum labs] in *. rewrite !Rplus_0_r in *. rewrite Hv. exact Ea. }
    set (k1 := (length (x1 :: l1) - 1)%nat) in *. set (k2 := (length (x2 :: l2) - 1)%nat) in *.
    replace (length (x1 :: l1) + length (x2 :: l2))%nat with (S (S (k1 + k2))) in * by (unfold k1, k2; cbn [length]; lia).
    replace (S (S (k1 + k2)) - 1)%nat with (S (k1 + k2)) by lia.
    set (S1 := labs (x1 :: l1)) in *. set (S2 := labs (x2 :: l2)) in *.
    set (T1 := lsum (x1 :: l1)) in *. set (T2 := lsum (x2 :: l2)) in *.
    assert (L1 : Rabs T1 <= S1) by apply lsum_labs. assert (L2 : Rabs T2 <= S2) by apply lsum_labs.
    set (g := (1 + u) ^ (k1 + k2)) in *.
    assert (Hg1 : (1 + u) ^ k1 <= g) by (apply grow_mono; lia).
    assert (Hg2 : (1 + u) ^ k2 <= g) by (apply grow_mono; lia).
    assert (Hg : 1 <= g) by apply grow_ge1.
    assert (Ea' : Rabs (fval a - T1) <= (g - 1) * S1) by (eapply Rle_trans; [exact Ea|apply Rmult_le_compat_r; lra]).
    assert (Eb' : Rabs (fval b - T2) <= (g - 1) * S2) by (eapply Rle_trans; [exact Eb|apply Rmult_le_compat_r; lra]).
    assert (E : Rabs (fval a + fval b - (T1 + T2)) <= (g - 1) * (S1 + S2)).
    { replace (fval a + fval b - (T1 + T2)) with ((fval a - T1) + (fval b - T2)) by ring.
      eapply Rle_trans; [apply Rabs_triang|]. lra. }
    assert (M : Rabs (fval a + fval b) <= g * (S1 + S2)).
    { replace (fval a + fval b) with ((fval a + fval b - (T1 + T2)) + (T1 + T2)) by ring.
      eapply Rle_trans; [apply Rabs_triang|]. assert (H := Rabs_triang T1 T2). lra. }
    assert (Hgs : 0 <= g * (S1 + S2)) by (apply Rmult_le_pos; lra).
    destruct (fadd_any a b Ca Cb) as (R1 & R2 & _).
    { apply Rle_lt_trans with (1 := M). apply Rle_lt_trans with (2 := Hb). apply Rmult_le_compat_r; [lra|].
      apply grow_mono. lia. }
    split; [exact R1|].
    replace (fval (fadd a b) - (T1 + T2)) with ((fval (fadd a b) - (fval a + fval b)) + (fval a + fval b - (T1 + T2))) by ring.
    eapply Rle_trans; [apply Rabs_triang|]. cbn [pow]. fold g.
    assert (u * Rabs (fval a + fval b) <= u * (g * (S1 + S2))) by (apply Rmult_le_compat_l; lra).
    lra.
Qed.

(** Sums of integers below 2^53 are exact. *)
Lemma sum_ints : forall l v, adds_up l v -> Forall canon l ->
  forall zs, map fval l = map IZR zs -> (fold_right (fun z a => Z.abs z + a) 0 zs < 2 ^ 53)%Z ->
  canon v /\ fval v = IZR (fold_right Z.add 0%Z zs).
Proof.
  induction 1 as [s|v|l1 l2 l a b H1 IH1 H2 IH2 Hp]; intros Hc zs Hz Hb.
  - destruct zs; [|discriminate]. split; [exact I|reflexivity].
  - inversion Hc; subst. destruct zs as [|z [|z' zs]]; try discriminate. injection Hz as Hz. split; [assumption|].
    cbn. rewrite Z.add_0_r. exact Hz.
  - assert (Hq : exists zs', Permutation zs zs' /\ map fval (l1 ++ l2) = map IZR zs').
    { assert (Hq := Permutation_map fval Hp). rewrite Hz in Hq. apply Permutation_sym in Hq.
      destruct (Permutation_map_inv _ _ Hq) as (zs' & E & P). exists zs'. split; [exact P|exact E]. }
    destruct Hq as (zs' & Pz & Ez).
    assert (Es : fold_right Z.add 0%Z zs = fold_right Z.add 0%Z zs').
    { clear - Pz. induction Pz; cbn; lia. }
    assert (Ea : fold_right (fun z a => Z.abs z + a)%Z 0%Z zs = fold_right (fun z a => Z.abs z + a)%Z 0%Z zs').
    { clear - Pz. induction Pz; cbn; lia. }
    rewrite Es, Ea in *. clear Es Ea Pz Hz zs.
    rewrite map_app in Ez.
    set (z1 := firstn (length l1) zs'). set (z2 := skipn (length l1) zs').
    assert (Hz12 : zs' = z1 ++ z2) by (symmetry; apply firstn_skipn).
    assert (Hz1 : map fval l1 = map IZR z1).
    { unfold z1. rewrite <- firstn_map, <- Ez, firstn_app, map_length, Nat.sub_diag, firstn_O, app_nil_r.
      symmetry. rewrite <- (map_length fval l1). apply firstn_all. }
    assert (Hz2 : map fval l2 = map IZR z2).
    { unfold z2. rewrite <- skipn_map, <- Ez, skipn_app, map_length, Nat.sub_diag.
      rewrite <- (map_length fval l1) at 1. rewrite skipn_all. reflexivity. }
    assert (Hc' : Forall canon (l1 ++ l2)) by (eapply Permutation_Forall; eassumption).
    apply Forall_app in Hc'. destruct Hc' as [Hc1 Hc2].
    assert (Fa : forall p q, fold_right (fun z a => Z.abs z + a)%Z 0%Z (p ++ q) =
                 (fold_right (fun z a => Z.abs z + a) 0 p + fold_right (fun z a => Z.abs z + a) 0 q)%Z).
    { clear. induction p as [|z p IH]; intros q; cbn; [lia|]. rewrite IH. lia. }
    assert (Fs : forall p q, fold_right Z.add 0%Z (p ++ q) = (fold_right Z.add 0 p + fold_right Z.add 0 q)%Z).
    { clear. induction p as [|z p IH]; intros q; cbn; [lia|]. rewrite IH. lia. }
    assert (Fp : forall p, (Z.abs (fold_right Z.add 0 p) <= fold_right (fun z a => Z.abs z + a) 0 p)%Z).
    { clear. induction p as [|z p IH]; cbn; lia. }
    rewrite Hz12, Fa in Hb. rewrite Hz12, Fs.
    assert (P1 := Fp z1). assert (P2 := Fp z2).
    destruct (IH1 Hc1 z1 Hz1) as [Ca Va]; [lia|]. destruct (IH2 Hc2 z2 Hz2) as [Cb Vb]; [lia|].
    destruct (fadd_any a b Ca Cb) as (R1 & _ & R3).
    { rewrite Va, Vb, <- plus_IZR, <- abs_IZR. apply Rlt_trans with (bpow 53).
      - rewrite bpow_IZR by lia. apply IZR_lt. lia.
      - apply Rlt_le_trans with (bpow 54); [|apply bpow_le; lia]. rewrite !bpow_IZR by lia. apply IZR_lt. lia. }
    split; [exact R1|]. rewrite (R3 (fold_right Z.add 0 z1 + fold_right Z.add 0 z2)%Z), Va, Vb, <- plus_IZR; [reflexivity| |lia].
    rewrite Va, Vb, <- plus_IZR. reflexivity.
Qed.

(** Vectors given by functions. *)
Lemma zip_features : forall {B} (f : f64 -> f64 -> B) d x y,
  zip f (features d x) (features d y) = map (fun k => f (x k) (y k)) (seq 0 d).
Proof.
  intros B f d x y. unfold features, zip. generalize (seq 0 d) as l. induction l as [|k l IH]; [reflexivity|].
  cbn. rewrite IH. reflexivity.
Qed.

Lemma lsum_seq : forall d (p : nat -> f64), lsum (map p (seq 0 d)) = rsum d (fun k => fval (p k)).
Proof.
  induction d as [|d IH]; intros p; [reflexivity|]. rewrite seq_S, map_app, lsum_app, IH. cbn. ring.
Qed.
Lemma labs_seq : forall d (p : nat -> f64), labs (map p (seq 0 d)) = rsum d (fun k => Rabs (fval (p k))).
Proof.
  induction d as [|d IH]; intros p; [reflexivity|]. rewrite seq_S, map_app, labs_app, IH. cbn. ring.
Qed.

Lemma rsum_abs : forall n f, Rabs (rsum n f) <= rsum n (fun k => Rabs (f k)).
Proof.
  induction n as [|n IH]; intros f; cbn; [rewrite Rabs_R0; lra|]. eapply Rle_trans; [apply Rabs_triang|].
  assert (H := IH f). lra.
Qed.

Lemma doubles_canon : forall d x k, doubles d x -> (k < d)%nat -> canon (x k).
Proof. intros d x k H Hk. destruct (H k Hk). apply valid_canon; assumption. Qed.

Lemma Forall_seq : forall (P : f64 -> Prop) d p, (forall k, (k < d)%nat -> P (p k)) -> Forall P (map p (seq 0 d)).
Proof.
  intros P d p H. apply Forall_forall. intros v Hv. apply in_map_iff in Hv. destruct Hv as (k & <- & Hk).
  apply in_seq in Hk. apply H. lia.
Qed.

Lemma big : forall a b, (a < b)%Z -> bpow a < bpow b.
Proof.
  intros a b H. apply Rlt_le_trans with (bpow (1 + a)); [|apply bpow_le; lia]. rewrite bpow_add. change (bpow 1) with (2 * 1).
  assert (Hp := bpow_pos a). lra.
Qed.

Lemma small_n : forall d, INR d <= bpow 50 -> INR d * u <= bpow (-3).
Proof.
  intros d H. change (-3)%Z with (50 + -53)%Z. rewrite bpow_add. apply Rmult_le_compat_r; [apply Rlt_le, bpow_pos|exact H].
Qed.

Lemma bpow_m3 : bpow (-3) = / 8.
Proof. change (-3)%Z with (- (3))%Z. rewrite bpow_neg, bpow_IZR by lia. reflexivity. Qed.

Lemma grow_le : forall d, INR d <= bpow 50 -> (1 + u) ^ d <= 1 + INR d * eps /\ (1 + u) ^ d <= 5 / 4.
Proof.
  intros d H. assert (Hs := small_n d H). rewrite bpow_m3 in Hs. assert (G := grow_bound d). rewrite <- u_eps.
  split; [|]; (apply Rle_trans with (1 + 2 * INR d * u); [apply G; lra|lra]).
Qed.

(** Terms computed with relative error [a] and absolute error [t], summed up. *)
Lemma sum_terms : forall v d (p : nat -> f64) (q : nat -> R) a t,
  adds_up (map p (seq 0 d)) v -> INR d <= bpow 50 -> 0 <= a -> 0 <= t <= 1 ->
  (forall k, (k < d)%nat -> canon (p k) /\ Rabs (fval (p k) - q k) <= a * Rabs (q k) + t) ->
  (1 + a) * rsum d (fun k => Rabs (q k)) <= bpow 1021 ->
  canon v /\ Rabs (fval v - rsum d q) <=
    ((1 + u) ^ (d - 1) * (1 + a) - 1) * rsum d (fun k => Rabs (q k)) + 5 / 4 * INR d * t.
Proof.
  intros v d p q a t Hv Hd Ha Ht Hp Hb.
  assert (Hu := u_pos).
  assert (Fc : Forall canon (map p (seq 0 d))) by (apply Forall_seq; intros k Hk; apply Hp, Hk).
  set (S := rsum d (fun k => Rabs (q k))) in *.
  assert (HS : 0 <= S) by (apply rsum_nonneg; intros; apply Rabs_pos).
  assert (Hn := pos_INR d).
  assert (SA : labs (map p (seq 0 d)) <= (1 + a) * S + INR d * t).
  { rewrite labs_seq. unfold S. rewrite <- rsum_scal, <- rsum_const, <- rsum_plus. apply rsum_le. intros k Hk.
    destruct (Hp k Hk) as [_ E]. replace (fval (p k)) with ((fval (p k) - q k) + q k) by ring.
    eapply Rle_trans; [apply Rabs_triang|]. lra. }
  assert (ST : Rabs (lsum (map p (seq 0 d)) - rsum d q) <= a * S + INR d * t).
  { rewrite lsum_seq, <- rsum_minus. eapply Rle_trans; [apply rsum_abs|].
    unfold S. rewrite <- rsum_scal, <- rsum_const, <- rsum_plus. apply rsum_le. intros k Hk. apply (Hp k Hk). }
  destruct (grow_le d Hd) as [_ G2].
  assert (G0 := grow_ge1 (d - 1)). assert (G1 := grow_mono (d - 1) d ltac:(lia)). assert (Gd := grow_ge1 d).
  assert (Hdt : INR d * t <= bpow 50) by (assert (INR d * t <= INR d * 1) by (apply Rmult_le_compat_l; lra); lra).
  assert (B50 := big 50 1021 ltac:(lia)). assert (Hpp := bpow_pos 1021).
  assert (B2 : 4 * bpow 1021 = bpow 1023).
  { change 1023%Z with (2 + 1021)%Z. rewrite bpow_add. change (bpow 2) with (2 * (2 * 1)). ring. }
  destruct (sum_any _ _ Hv Fc) as [Cv Ev].
  { rewrite map_length, seq_length. assert (Hl := labs_nonneg (map p (seq 0 d))).
    apply Rle_lt_trans with (5 / 4 * labs (map p (seq 0 d))); [apply Rmult_le_compat_r; lra|]. lra. }
  split; [exact Cv|]. rewrite map_length, seq_length in Ev.
  replace (fval v - rsum d q) with ((fval v - lsum (map p (seq 0 d))) + (lsum (map p (seq 0 d)) - rsum d q)) by ring.
  eapply Rle_trans; [apply Rabs_triang|].
  set (g := (1 + u) ^ (d - 1)) in *.
  assert (E1 : (g - 1) * labs (map p (seq 0 d)) <= (g - 1) * ((1 + a) * S + INR d * t)) by (apply Rmult_le_compat_l; lra).
  assert (E2 : g * (INR d * t) <= 5 / 4 * (INR d * t)) by (apply Rmult_le_compat_r; [apply Rmult_le_pos; lra|lra]).
  lra.
Qed.

Lemma dot_any : forall e d x y, decent e -> doubles d x -> doubles d y -> INR d <= bpow 50 ->
  absinner d (vals x) (vals y) <= bpow 1010 ->
  let v := fdot e (features d x) (features d y) in
  canon v /\ Rabs (fval v - inner d (vals x) (vals y)) <= ((1 + u) ^ d - 1) * absinner d (vals x) (vals y) + INR d * least.
Proof.
  intros e d x y He Dx Dy Hd Hb v.
  assert (Hu := u_pos). assert (Hn := pos_INR d).
  assert (Ht : 0 < tiny <= 1).
  { split; [apply bpow_pos|]. rewrite <- bpow_0. apply bpow_le. lia. }
  assert (HS : 0 <= absinner d (vals x) (vals y)) by (apply rsum_nonneg; intros; apply Rabs_pos).
  assert (B11 : 2 * bpow 1010 <= bpow 1021).
  { apply Rle_trans with (bpow (1 + 1010)); [rewrite bpow_add; change (bpow 1) with (2 * 1); lra|apply bpow_le; lia]. }
  assert (Hu1 : u <= 1) by (rewrite <- bpow_0; apply bpow_le; lia).
  destruct (sum_terms v d (fun k => fmul (x k) (y k)) (fun k => vals x k * vals y k) u tiny) as [C E]; try lra.
  - unfold v, fdot. rewrite zip_features. apply (d_acc e He).
  - intros k Hk. assert (Cx := doubles_canon d x k Dx Hk). assert (Cy := doubles_canon d y k Dy Hk).
    destruct (fmul_any (x k) (y k) Cx Cy) as (R1 & R2 & _).
    { apply Rle_lt_trans with (bpow 1010); [|apply big; lia]. apply Rle_trans with (2 := Hb).
      apply (rsum_term_le d (fun k => Rabs (vals x k * vals y k)) k Hk). intros; apply Rabs_pos. }
    split; [exact R1|exact R2].
  - fold (absinner d (vals x) (vals y)). 
    assert ((1 + u) * absinner d (vals x) (vals y) <= 2 * bpow 1010); [|lra].
    apply Rmult_le_compat; lra.
  - split; [exact C|]. unfold inner. apply Rle_trans with (1 := E). fold (absinner d (vals x) (vals y)).
    apply Rplus_le_compat.
    + destruct d as [|d]; [cbn; lra|]. apply Rmult_le_compat_r; [exact HS|].
      replace (S d - 1)%nat with d by lia. cbn [pow]. lra.
    + assert (HT := tiny_least). assert (INR d * tiny >= 0) by (apply Rle_ge, Rmult_le_pos; lra).
      rewrite <- HT. lra.
Qed.
