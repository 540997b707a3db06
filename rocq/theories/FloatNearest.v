(** Additions, subtractions, multiplications and divisions of doubles return a double that is nearest to the
    exact result; consequences for the order of results. *)
From Coq Require Import ZArith Bool List Reals Lia Lra Floats.SpecFloat.
From Verif Require Import Prelude KernelsModel FloatModel SpecFloats SpecFloatVal FloatProps FloatNormProps FloatRound FloatAny FloatDiv.
Local Open Scope R_scope.

(** No double is nearer to [y] than [r]. *)
Definition nearest (y : R) (r : f64) : Prop :=
  canon r /\ forall z, canon z -> Rabs (fval r - y) <= Rabs (fval z - y).

Lemma nearest_int : forall y m k, Rabs (IZR m - y) <= 1/2 -> Rabs (IZR m - y) <= Rabs (IZR k - y).
Proof.
  intros y m k H. destruct (Z.eq_dec m k) as [->|Hne]; [lra|].
  apply Rle_trans with (1 := H).
  assert (Hd : 1 <= Rabs (IZR k - IZR m)) by (rewrite <- minus_IZR, <- abs_IZR; apply IZR_le; lia).
  replace (IZR k - IZR m) with ((IZR k - y) - (IZR m - y)) in Hd by ring.
  assert (Ht := Rabs_triang (IZR k - y) (- (IZR m - y))). rewrite Rabs_Ropp in Ht. unfold Rminus at 1 in Hd. lra.
Qed.

Lemma grid_pos : forall y1 m2 e1 z, Rabs (IZR m2 - y1) <= 1/2 -> (-1074 <= e1)%Z ->
  e1 = (-1074)%Z \/ IZR (2 ^ 52) <= y1 -> canon z ->
  Rabs (IZR m2 * bpow e1 - y1 * bpow e1) <= Rabs (fval z - y1 * bpow e1).
Proof.
  intros y1 m2 e1 z Hr He1 Hg Cz. assert (Hp := bpow_pos e1).
  assert (HI : forall k, Rabs (IZR m2 * bpow e1 - y1 * bpow e1) <= Rabs (IZR k * bpow e1 - y1 * bpow e1)).
  { intros k. rewrite <- !Rmult_minus_distr_r, !Rabs_mult. apply Rmult_le_compat_r; [apply Rabs_pos|].
    apply nearest_int. exact Hr. }
  destruct z as [s|s| |s m e]; try contradiction.
  - cbn [fval]. replace 0 with (IZR 0 * bpow e1) by (rewrite Rmult_0_l; reflexivity). apply HI.
  - destruct Cz as (D & E & Q). destruct (Z_le_gt_dec e1 e) as [Hle|Hgt].
    + replace (fval (S754_finite s m e)) with (IZR ((if s then -1 else 1) * (Z.pos m * 2 ^ (e - e1))) * bpow e1).
      * apply HI.
      * cbn [fval]. rewrite !mult_IZR, <- (bpow_IZR (e - e1)) by lia.
        replace (bpow e) with (bpow (e - e1) * bpow e1) by (rewrite <- bpow_add; f_equal; lia).
        destruct s; ring.
    + destruct Hg as [Hg|Hg]; [lia|].
      assert (Hz : fval (S754_finite s m e) <= IZR (2 ^ 52) * bpow e1).
      { apply Rle_trans with (IZR (Z.pos m) * bpow e).
        - cbn [fval]. assert (H0 : 0 <= IZR (Z.pos m) * bpow e) by (apply Rmult_le_pos; [apply IZR_le; lia|apply Rlt_le, bpow_pos]).
          destruct s; lra.
        - apply Rle_trans with (bpow 53 * bpow e).
          + apply Rmult_le_compat_r; [apply Rlt_le, bpow_pos|]. rewrite bpow_IZR by lia. apply IZR_le.
            assert (Hb := digits_bounds m). assert (2 ^ Z.pos (digits2_pos m) <= 2 ^ 53)%Z by (apply Z.pow_le_mono_r; lia). lia.
          + rewrite <- (bpow_IZR 52) by lia. rewrite <- !bpow_add. apply bpow_le. lia. }
      apply Rle_trans with (1 := HI (2 ^ 52)%Z).
      assert (Hy : IZR (2 ^ 52) * bpow e1 <= y1 * bpow e1) by (apply Rmult_le_compat_r; lra).
      rewrite !Rabs_left1 by lra. lra.
Qed.

Lemma grid_nearest : forall s y1 m2 e1 z, Rabs (IZR m2 - y1) <= 1/2 -> (-1074 <= e1)%Z ->
  e1 = (-1074)%Z \/ IZR (2 ^ 52) <= y1 -> canon z ->
  Rabs (sgn s * (IZR m2 * bpow e1) - sgn s * (y1 * bpow e1)) <= Rabs (fval z - sgn s * (y1 * bpow e1)).
Proof.
  intros [] y1 m2 e1 z Hr He1 Hg Cz; unfold sgn.
  - assert (H := grid_pos y1 m2 e1 (fopp z) Hr He1 Hg (canon_opp _ Cz)). rewrite fval_opp in H.
    replace (-1 * (IZR m2 * bpow e1) - -1 * (y1 * bpow e1)) with (- (IZR m2 * bpow e1 - y1 * bpow e1)) by ring.
    replace (fval z - -1 * (y1 * bpow e1)) with (- (- fval z - y1 * bpow e1)) by ring.
    rewrite !Rabs_Ropp. exact H.
  - rewrite !Rmult_1_l. apply grid_pos; assumption.
Qed.

Lemma round_nearest : forall sx mx ex lx y, (0 <= mx)%Z -> located mx lx y ->
  let d := Zdigits2 mx in
  (ex <= fexp 53 1024 (d + ex))%Z -> (d + ex <= 1023)%Z ->
  let r := binary_round_aux 53 1024 sx mx ex lx in
  nearest (sgn sx * (y * bpow ex)) r.
Proof.
  intros sx mx ex lx y Hmx Hy d Hex Hhi.
  set (e1 := fexp 53 1024 (d + ex)) in *.
  assert (He1 : e1 = Z.max (d + ex - 53) (-1074)) by reflexivity.
  set (r0 := shr_record_of_loc mx lx).
  assert (Hm0 : shr_m r0 = mx) by apply rec_of_loc_m.
  assert (H1 : exists r1, shr_fexp 53 1024 mx ex lx = (r1, e1) /\ (0 <= shr_m r1)%Z /\
                          rep r1 (y / bpow (e1 - ex))).
  { unfold shr_fexp. fold d. fold e1. fold r0.
    destruct (e1 - ex)%Z as [|p|p] eqn:Hn; [| | lia].
    - exists r0. cbn [shr]. split; [f_equal; lia |]. split; [lia |].
      rewrite bpow_0. unfold Rdiv. rewrite Rinv_1, Rmult_1_r. exact Hy.
    - exists (iter_pos shr_1 p r0). cbn [shr]. split; [f_equal; lia |]. split; [apply iter_nonneg; lia |].
      apply rep_iter; [lia | exact Hy]. }
  destruct H1 as (r1 & Hs1 & Hr1 & Hrep).
  set (y1 := y / bpow (e1 - ex)) in *.
  assert (Hyy : y * bpow ex = y1 * bpow e1).
  { unfold y1. replace (bpow ex) with (bpow e1 / bpow (e1 - ex)).
    - assert (Hp := bpow_pos (e1 - ex)). field. lra.
    - assert (Hp := bpow_pos (e1 - ex)). replace e1 with (ex + (e1 - ex))%Z at 1 by lia. rewrite bpow_add. field. lra. }
  destruct (zdigits_bounds mx Hmx) as (Hd0 & Hdhi & Hdlo). fold d in Hd0, Hdhi, Hdlo.
  assert (Hfl := rep_floor _ _ Hy). unfold located in Hfl. rewrite rec_of_loc_m in Hfl.
  assert (Hyhi : y < bpow d).
  { rewrite bpow_IZR by lia. apply Rlt_le_trans with (IZR mx + 1); [lra |]. rewrite <- plus_IZR. apply IZR_le. lia. }
  assert (Hy1lo : (e1 = d + ex - 53)%Z -> IZR (2 ^ 52) <= y1).
  { intros He. rewrite <- (bpow_IZR 52) by lia.
    apply (Rmult_le_reg_r (bpow e1)); [apply bpow_pos |]. rewrite <- Hyy, <- bpow_add.
    replace (52 + e1)%Z with ((d - 1) + ex)%Z by lia. rewrite bpow_add.
    apply Rmult_le_compat_r; [assert (Hp := bpow_pos ex); lra |]. rewrite bpow_IZR by lia.
    apply Rle_trans with (IZR mx); [|lra]. apply IZR_le. apply Hdlo.
    destruct (Z.eq_dec mx 0) as [Hz|Hz]; [|lia]. exfalso. assert (Hd : d = 0%Z) by (unfold d; rewrite Hz; reflexivity). lia. }
  assert (Hy1hi : y1 < IZR (2 ^ 53)).
  { rewrite <- (bpow_IZR 53) by lia.
    apply (Rmult_lt_reg_r (bpow e1)); [apply bpow_pos |]. rewrite <- Hyy, <- bpow_add.
    apply Rlt_le_trans with (bpow (d + ex)); [|apply bpow_le; lia]. rewrite bpow_add.
    apply Rmult_lt_compat_r; [apply bpow_pos |exact Hyhi]. }
  set (m2 := round_nearest_even (shr_m r1) (loc_of_shr_record r1)).
  assert (Hround : Rabs (IZR m2 - y1) <= 1/2) by (apply rep_round; exact Hrep).
  assert (Hfl1 := rep_floor _ _ Hrep).
  assert (Hm2 : (0 <= m2 <= 2 ^ 53)%Z /\ ((e1 = d + ex - 53)%Z -> (2 ^ 52 <= m2)%Z)).
  { assert (shr_m r1 < 2 ^ 53)%Z by (apply lt_IZR; lra).
    assert ((e1 = d + ex - 53)%Z -> (2 ^ 52 <= shr_m r1)%Z).
    { intros He. specialize (Hy1lo He). assert (2 ^ 52 < shr_m r1 + 1)%Z; [| lia]. apply lt_IZR. rewrite plus_IZR. lra. }
    assert (Hle : (shr_m r1 <= m2 <= shr_m r1 + 1)%Z).
    { unfold m2, round_nearest_even. destruct (loc_of_shr_record r1) as [|[| |]]; try lia.
      destruct (Z.even (shr_m r1)); lia. }
    split; [lia|]. intros He. specialize (H0 He). lia. }
  destruct Hm2 as [Hm2 Hm2lo].
  assert (Hy1 : 0 <= y1).
  { assert (Hm0R : 0 <= IZR (shr_m r1)) by (apply IZR_le; exact Hr1). lra. }
  assert (Hgrid : e1 = (-1074)%Z \/ IZR (2 ^ 52) <= y1) by (destruct (Z.eq_dec e1 (-1074)); [left; assumption|right; apply Hy1lo; lia]).
  assert (Hsg : forall r, fval r = sgn sx * (IZR m2 * bpow e1) ->
                forall z, canon z -> Rabs (fval r - sgn sx * (y * bpow ex)) <= Rabs (fval z - sgn sx * (y * bpow ex))).
  { intros r -> z Cz. rewrite Hyy. apply grid_nearest; try assumption. lia. }
  cbv zeta. unfold binary_round_aux. rewrite Hs1. fold m2.
  destruct (Z.eq_dec m2 (2 ^ 53)) as [He | Hne].
  - rewrite He.
    assert (Hs2 : shr_fexp 53 1024 (2 ^ 53) e1 loc_Exact = (Build_shr_record (Z.pos (2 ^ 52)) false false, (e1 + 1)%Z)).
    { unfold shr_fexp. change (Zdigits2 (2 ^ 53)) with 54%Z. replace (fexp 53 1024 (54 + e1) - e1)%Z with 1%Z by (unfold fexp, emin; lia).
      reflexivity. }
    rewrite Hs2. cbn [shr_m].
    replace (e1 + 1 <=? 1024 - 53)%Z with true by (symmetry; apply Z.leb_le; lia).
    assert (Hv : fval (S754_finite sx (2 ^ 52) (e1 + 1)) = sgn sx * (IZR m2 * bpow e1)).
    { cbn [fval]. fold (sgn sx). rewrite He. f_equal. rewrite Z.add_comm, bpow_add. change (bpow 1) with (2 * 1).
      change (IZR (2 ^ 53)) with (IZR (Z.pos (2 ^ 52) * 2)). rewrite mult_IZR. ring. }
    split.
    + cbn. repeat split; try lia; auto.
    + apply Hsg. exact Hv.
  - destruct m2 as [|m|m] eqn:Em; [| | lia].
    + assert (Hs2 : shr_fexp 53 1024 0 e1 loc_Exact = (Build_shr_record 0 false false, e1)).
      { unfold shr_fexp. cbn [Zdigits2]. 
        destruct (fexp 53 1024 (0 + e1) - e1)%Z as [|p|p] eqn:Hn; [reflexivity| |reflexivity].
        unfold fexp, emin in Hn. lia. }
      rewrite Hs2. cbn [shr_m]. split; [exact I|]. apply Hsg. cbn [fval]. ring.
    + assert (Hdm : (Z.pos (digits2_pos m) <= 53)%Z).
      { destruct (Z_lt_le_dec 53 (Z.pos (digits2_pos m))) as [Hl|Hl]; [|exact Hl].
        assert (Hbm := digits_bounds m). assert (2 ^ 53 <= 2 ^ (Z.pos (digits2_pos m) - 1))%Z by (apply Z.pow_le_mono_r; lia). lia. }
      assert (Hs2 : shr_fexp 53 1024 (Z.pos m) e1 loc_Exact = (Build_shr_record (Z.pos m) false false, e1)).
      { unfold shr_fexp. cbn [Zdigits2].
        destruct (fexp 53 1024 (Z.pos (digits2_pos m) + e1) - e1)%Z as [|p|p] eqn:Hn; [reflexivity| |reflexivity].
        unfold fexp, emin in Hn. lia. }
      rewrite Hs2. cbn [shr_m].
      replace (e1 <=? 1024 - 53)%Z with true by (symmetry; apply Z.leb_le; lia).
      assert (Hv : fval (S754_finite sx m e1) = sgn sx * (IZR (Z.pos m) * bpow e1)) by reflexivity.
      split.
      * cbn. repeat split; try lia.
        destruct (Z.eq_dec e1 (-1074)) as [Hq|Hq]; [right; exact Hq|left].
        apply Pos2Z.inj. apply digits_unique; [lia|]. change (2 ^ (53 - 1))%Z with (2 ^ 52)%Z. lia.
      * apply Hsg. exact Hv.
Qed.

Lemma nearest_self : forall y r, canon r -> fval r = y -> nearest y r.
Proof.
  intros y r C H. split; [exact C|]. intros z _. rewrite H, Rminus_diag_eq by reflexivity. rewrite Rabs_R0. apply Rabs_pos.
Qed.

Lemma located_exact : forall m, located m loc_Exact (IZR m).
Proof. intros m. unfold located, rep. cbn. lra. Qed.

Lemma fmul_nearest : forall x y, canon x -> canon y -> Rabs (fval x * fval y) < bpow 1023 ->
  nearest (fval x * fval y) (fmul x y).
Proof.
  intros [sx|sx| |sx mx ex] [sy|sy| |sy my ey] Cx Cy Hhi; try contradiction;
    try (apply nearest_self; [exact I|transitivity 0; [reflexivity|cbn [fval]; ring]]).
  rewrite !fval_finite in *.
  set (P := IZR (Z.pos (mx * my)) * bpow (ex + ey)).
  assert (HP : sgn sx * (IZR (Z.pos mx) * bpow ex) * (sgn sy * (IZR (Z.pos my) * bpow ey)) = sgn (xorb sx sy) * P).
  { unfold P. rewrite sgn_xorb, Pos2Z.inj_mul, mult_IZR, bpow_add. ring. }
  assert (HP0 : 0 < P).
  { unfold P. apply Rmult_lt_0_compat; [apply IZR_lt; lia | apply bpow_pos]. }
  rewrite HP in *. rewrite Rabs_mult, sgn_abs, Rmult_1_l, Rabs_pos_eq in Hhi by lra.
  unfold fmul, SFmul.
  assert (Hm := magnitude _ _ _ Hhi).
  destruct Cx as (Dx & Ex & Qx), Cy as (Dy & Ey & Qy).
  assert (Hex : (ex + ey <= fexp 53 1024 (Z.pos (digits2_pos (mx * my)) + (ex + ey)))%Z).
  { unfold fexp, emin.
    destruct (Z_le_gt_dec 53 (Z.pos (digits2_pos (mx * my)))) as [Hd|Hd]; [lia|].
    assert (Hbx := digits_bounds mx). assert (Hby := digits_bounds my). assert (Hbz := digits_bounds (mx * my)).
    assert (Hs : (Z.pos (mx * my) < 2 ^ 52)%Z).
    { apply Z.lt_le_trans with (1 := proj2 Hbz). apply Z.pow_le_mono_r; lia. }
    rewrite Pos2Z.inj_mul in Hs.
    destruct Qx as [Qx|Qx].
    { rewrite Qx in Hbx. change (2 ^ (53 - 1))%Z with (2 ^ 52)%Z in Hbx. nia. }
    destruct Qy as [Qy|Qy].
    { rewrite Qy in Hby. change (2 ^ (53 - 1))%Z with (2 ^ 52)%Z in Hby. nia. }
    lia. }
  exact (round_nearest (xorb sx sy) (Z.pos (mx * my)) (ex + ey) loc_Exact _ ltac:(lia) (located_exact _) Hex Hm).
Qed.

Lemma round_sum_nearest : forall sx mx ex, (-1074 <= ex)%Z -> IZR (Z.pos mx) * bpow ex < bpow 1023 ->
  let r := binary_round 53 1024 sx mx ex in
  nearest (sgn sx * (IZR (Z.pos mx) * bpow ex)) r.
Proof.
  intros sx mx ex Hlo Hhi. cbv zeta. unfold binary_round, shl_align.
  set (d := Z.pos (digits2_pos mx)). set (f := fexp 53 1024 (d + ex)).
  assert (Hm := magnitude _ _ _ Hhi). fold d in Hm.
  assert (Hcase : exists mz ez, (match (f - ex)%Z with Z.neg k => (shift_pos k mx, f) | _ => (mx, ex) end) = (mz, ez) /\
     (ez <= f)%Z /\ (f = -1074 -> ez = f)%Z /\ (Z.pos (digits2_pos mz) + ez = d + ex)%Z /\
     IZR (Z.pos mz) * bpow ez = IZR (Z.pos mx) * bpow ex).
  { destruct (f - ex)%Z as [|k|k] eqn:Hk.
    - exists mx, ex. repeat split; lia.
    - exists mx, ex. repeat split; lia.
    - exists (shift_pos k mx), f. split; [reflexivity|]. split; [lia|]. split; [reflexivity|].
      change (shift_pos k mx) with (Pos.iter xO mx k). rewrite digits_shift. split; [unfold d; lia|].
      assert (Hi : Z.pos (Pos.iter xO mx k) = (Z.pos mx * 2 ^ Z.pos k)%Z).
      { rewrite <- Pos2Z.inj_pow, <- Pos2Z.inj_mul. f_equal.
        clear. induction k using Pos.peano_ind; [cbn; lia|].
        rewrite Pos.iter_succ, IHk, Pos.pow_succ_r. lia. }
      rewrite Hi, mult_IZR, <- bpow_IZR by lia. rewrite Rmult_assoc, <- bpow_add. do 2 f_equal. lia. }
  destruct Hcase as (mz & ez & Hq & Hez & Hsub & Hdig & Hval). rewrite Hq.
  assert (R := round_nearest sx (Z.pos mz) ez loc_Exact _ ltac:(lia) (located_exact _)). cbv zeta in R.
  rewrite <- Hval. apply R; cbn [Zdigits2]; rewrite Hdig; [exact Hez|exact Hm].
Qed.

Lemma fadd_nearest : forall x y, canon x -> canon y -> Rabs (fval x + fval y) < bpow 1023 ->
  nearest (fval x + fval y) (fadd x y).
Proof.
  intros [sx|sx| |sx mx ex] [sy|sy| |sy my ey] Cx Cy Hhi; try contradiction.
  - unfold fadd, SFadd. destruct (Bool.eqb sx sy); apply nearest_self; try exact I; cbn [fval]; ring.
  - apply nearest_self; [exact Cy|]. unfold fadd, SFadd. cbn [fval]. ring.
  - apply nearest_self; [exact Cx|]. unfold fadd, SFadd. cbn [fval]. ring.
  - unfold fadd, SFadd.
    set (ez := Z.min ex ey).
    set (z := (cond_Zopp sx (Z.pos (fst (shl_align mx ex ez))) + cond_Zopp sy (Z.pos (fst (shl_align my ey ez))))%Z).
    assert (Hz : IZR z * bpow ez = fval (S754_finite sx mx ex) + fval (S754_finite sy my ey)).
    { rewrite !fval_finite. rewrite <- (shl_align_val mx ex ez), <- (shl_align_val my ey ez) by (unfold ez; lia).
      unfold z. rewrite plus_IZR, Rmult_plus_distr_r.
      assert (Hc : forall s p, IZR (cond_Zopp s (Z.pos p)) = sgn s * IZR (Z.pos p)).
      { intros [] p; unfold cond_Zopp, sgn; [rewrite opp_IZR|]; ring. }
      rewrite !Hc. ring. }
    rewrite <- Hz in *. destruct Cx as (_ & Ex & _), Cy as (_ & Ey & _).
    assert (Hez : (-1074 <= ez)%Z) by (unfold ez; lia).
    assert (Hbp := bpow_pos ez).
    unfold binary_normalize. destruct z as [|p|p].
    + apply nearest_self; [exact I|]. cbn [fval]. ring.
    + rewrite Rabs_pos_eq in Hhi by (apply Rmult_le_pos; [apply IZR_le; lia|lra]).
      assert (R := round_sum_nearest false p ez Hez Hhi). cbv zeta in R. unfold sgn in R. rewrite Rmult_1_l in R. exact R.
    + assert (Hneg : IZR (Z.neg p) * bpow ez = - (IZR (Z.pos p) * bpow ez)).
      { change (Z.neg p) with (- Z.pos p)%Z. rewrite opp_IZR. ring. }
      rewrite Hneg, Rabs_Ropp in *.
      rewrite Rabs_pos_eq in Hhi by (apply Rmult_le_pos; [apply IZR_le; lia|lra]).
      assert (R := round_sum_nearest true p ez Hez Hhi). cbv zeta in R. unfold sgn in R.
      replace (-1 * (IZR (Z.pos p) * bpow ez)) with (- (IZR (Z.pos p) * bpow ez)) in R by ring. exact R.
Qed.

Lemma fsub_nearest : forall x y, canon x -> canon y -> Rabs (fval x - fval y) < bpow 1023 ->
  nearest (fval x - fval y) (fsub x y).
Proof.
  intros x y Cx Cy H. rewrite fsub_fadd.
  assert (Hq : fval x + fval (fopp y) = fval x - fval y) by (rewrite fval_opp; ring).
  rewrite <- Hq in *. exact (fadd_nearest x (fopp y) Cx (canon_opp _ Cy) H).
Qed.

Lemma fdiv_nearest : forall x y, canon x -> canon y -> fval y <> 0 -> Rabs (fval x / fval y) < bpow 1022 ->
  nearest (fval x / fval y) (fdiv x y).
Proof.
  intros [sx|sx| |sx mx ex] [sy|sy| |sy my ey] Cx Cy Hy0 Hhi; try contradiction; try (cbn in Hy0; lra).
  - apply nearest_self; [exact I|]. unfold fdiv, SFdiv. cbn [fval]. unfold Rdiv. ring.
  - assert (Bx := digits_bounds mx). assert (By := digits_bounds my).
    set (d1 := Z.pos (digits2_pos mx)) in *. set (d2 := Z.pos (digits2_pos my)) in *.
    set (D := (d1 + ex - (d2 + ey))%Z).
    set (e' := Z.min (fexp 53 1024 D) (ex - ey)). set (s := (ex - ey - e')%Z).
    assert (Hs : (0 <= s)%Z) by (unfold s, e'; lia).
    set (y := IZR (Z.pos mx * 2 ^ s) / IZR (Z.pos my)).
    assert (Hmy : 0 < IZR (Z.pos my)) by (apply IZR_lt; lia).
    assert (Hmx : 0 < IZR (Z.pos mx)) by (apply IZR_lt; lia).
    assert (H2s : 0 < IZR (2 ^ s)) by (apply IZR_lt; apply Z.pow_pos_nonneg; lia).
    assert (HP : fval (S754_finite sx mx ex) / fval (S754_finite sy my ey) = sgn (xorb sx sy) * (y * bpow e')).
    { unfold y. cbn [fval]. fold (sgn sx) (sgn sy). rewrite mult_IZR, <- (bpow_IZR s) by lia.
      replace (bpow e') with (bpow ex / bpow ey / bpow s).
      - assert (Hp := bpow_pos ey). assert (Hp' := bpow_pos s).
        rewrite sgn_xorb. destruct sx, sy; unfold sgn; field; repeat split; lra.
      - replace ex with (s + (e' + ey))%Z by (unfold s; lia). rewrite !bpow_add.
        assert (Hp := bpow_pos ey). assert (Hp' := bpow_pos s). field. lra. }
    assert (Hyp : 0 < y) by (unfold y; rewrite mult_IZR; apply Rdiv_lt_0_compat; [apply Rmult_lt_0_compat; assumption | exact Hmy]).
    assert (HP0 : 0 < y * bpow e') by (apply Rmult_lt_0_compat; [exact Hyp | apply bpow_pos]).
    rewrite HP in *. rewrite Rabs_mult, sgn_abs, Rmult_1_l, Rabs_pos_eq in * by lra.
    unfold fdiv, SFdiv, SFdiv_core_binary. cbn [Zdigits2]. fold d1 d2. fold D. fold e'. fold s.
    cbv zeta.
    replace (match s with Z0 => Z.pos mx | Z.pos _ => Z.shiftl (Z.pos mx) s | Z.neg _ => 0%Z end) with (Z.pos mx * 2 ^ s)%Z.
    2:{ destruct s as [|p|p] eqn:Es; [change (2 ^ 0)%Z with 1%Z; lia| |lia].
        rewrite Z.shiftl_mul_pow2 by lia. reflexivity. }
    assert (Hde := Z_div_mod (Z.pos mx * 2 ^ s) (Z.pos my) ltac:(lia)).
    destruct (Z.div_eucl (Z.pos mx * 2 ^ s) (Z.pos my)) as [q r]. destruct Hde as [Hq Hr].
    assert (Hq0 : (0 <= q)%Z) by (assert (0 < Z.pos mx * 2 ^ s)%Z by (apply Z.mul_pos_pos; [lia|apply Z.pow_pos_nonneg; lia]); nia).
    assert (Hyq : y = IZR q + IZR r / IZR (Z.pos my)).
    { unfold y. rewrite Hq, plus_IZR, mult_IZR. field. lra. }
    assert (Hloc : located q (new_location (Z.pos my) r) y) by (rewrite Hyq; apply new_location_located; [lia|exact Hr]).
    assert (Hfl := rep_floor _ _ Hloc). unfold located in Hfl. rewrite rec_of_loc_m in Hfl.
    destruct (zdigits_bounds q Hq0) as (Hd0 & Hdhi & Hdlo).
    assert (HD : (D <= Zdigits2 q + e')%Z).
    { destruct (Z_le_gt_dec D e') as [Hle|Hgt]; [lia|].
      assert (Hlow : bpow (D - 1 - e') <= y).
      { unfold y. apply (Rmult_le_reg_r (IZR (Z.pos my))); [exact Hmy|].
        unfold Rdiv. rewrite Rmult_assoc, Rinv_l, Rmult_1_r by lra.
        apply Rle_trans with (bpow (D - 1 - e') * bpow d2).
        - apply Rmult_le_compat_l; [apply Rlt_le, bpow_pos|]. rewrite bpow_IZR by (unfold d2; lia). apply IZR_le. lia.
        - rewrite <- bpow_add. rewrite mult_IZR, <- (bpow_IZR s) by lia.
          replace (D - 1 - e' + d2)%Z with ((d1 - 1) + s)%Z by (unfold s, D; lia). rewrite bpow_add.
          apply Rmult_le_compat_r; [apply Rlt_le, bpow_pos|]. rewrite bpow_IZR by (unfold d1; lia). apply IZR_le. lia. }
      rewrite bpow_IZR in Hlow by lia.
      assert (Hql : (2 ^ (D - 1 - e') < q + 1)%Z) by (apply lt_IZR; rewrite plus_IZR; lra).
      assert (Hlt : (2 ^ (D - 1 - e') < 2 ^ Zdigits2 q)%Z) by lia.
      apply Z.pow_lt_mono_r_iff in Hlt; lia. }
    assert (Hex : (e' <= fexp 53 1024 (Zdigits2 q + e'))%Z).
    { apply Z.le_trans with (fexp 53 1024 D); [unfold e'; lia|]. unfold fexp. lia. }
    assert (Hmag : (Zdigits2 q + e' <= 1023)%Z).
    { destruct (Z.eq_dec q 0) as [Hz|Hz].
      - rewrite Hz. cbn [Zdigits2]. rewrite Hz in Hex. cbn [Zdigits2] in Hex. unfold fexp, emin in Hex. lia.
      - specialize (Hdlo ltac:(lia)).
        assert (Hl : (Zdigits2 q - 1 + e' < 1022)%Z); [|lia].
        apply bpow_lt_inv. apply Rle_lt_trans with (2 := Hhi). rewrite bpow_add.
        apply Rmult_le_compat_r; [apply Rlt_le, bpow_pos|].
        assert (Hq1 : (1 <= Zdigits2 q)%Z) by (destruct q; cbn [Zdigits2]; lia).
        rewrite bpow_IZR by lia. apply Rle_trans with (IZR q); [apply IZR_le; exact Hdlo|lra]. }
    exact (round_nearest (xorb sx sy) q e' _ y Hq0 Hloc Hex Hmag).
Qed.

(** ** Consequences *)
Lemma nearest_le : forall y r z, nearest y r -> canon z -> y <= fval z -> fval r <= fval z.
Proof.
  intros y r z [_ H] Cz Hz. specialize (H z Cz). rewrite (Rabs_pos_eq (fval z - y)) in H by lra.
  assert (H1 := Rle_abs (fval r - y)). lra.
Qed.

Lemma nearest_ge : forall y r z, nearest y r -> canon z -> fval z <= y -> fval z <= fval r.
Proof.
  intros y r z [_ H] Cz Hz. specialize (H z Cz). rewrite (Rabs_left1 (fval z - y)) in H by lra.
  assert (H1 := Rle_abs (- (fval r - y))). rewrite Rabs_Ropp in H1. lra.
Qed.

Lemma nearest_exact : forall y r z, nearest y r -> canon z -> fval z = y -> fval r = y.
Proof.
  intros y r z H Cz Hz. assert (H1 := nearest_le y r z H Cz ltac:(lra)). assert (H2 := nearest_ge y r z H Cz ltac:(lra)). lra.
Qed.

Lemma nearest_mono : forall a b x y, nearest a x -> nearest b y -> a < b -> fval x <= fval y.
Proof.
  intros a b x y Hx Hy Hab. destruct (Rle_lt_dec (fval x) (fval y)) as [H|H]; [exact H|exfalso].
  destruct Hx as [Cx Hx], Hy as [Cy Hy]. specialize (Hx y Cy). specialize (Hy x Cx).
  destruct (Rlt_le_dec a ((fval x + fval y) / 2)) as [Ha|Ha].
  - assert (H1 := Rle_abs (fval x - a)). assert (H2 : Rabs (fval y - a) < fval x - a) by (apply Rabs_def1; lra). lra.
  - assert (H1 := Rle_abs (- (fval y - b))). rewrite Rabs_Ropp in H1.
    assert (H2 : Rabs (fval x - b) < - (fval y - b)) by (apply Rabs_def1; lra). lra.
Qed.

(** Doubles that stand for the same number are the same, except for the sign of zero. *)
Lemma canon_inj : forall x y, canon x -> canon y -> fval x = fval y -> f_same x y.
Proof.
  assert (HP : forall m e, 0 < IZR (Z.pos m) * bpow e).
  { intros m e. apply Rmult_lt_0_compat; [apply IZR_lt; lia|apply bpow_pos]. }
  intros [s|s| |s m e] [s'|s'| |s' m' e'] Cx Cy H; try contradiction.
  - right. split; reflexivity.
  - assert (H1 := HP m' e'). cbn [fval] in H. destruct s'; lra.
  - assert (H1 := HP m e). cbn [fval] in H. destruct s; lra.
  - left. assert (H1 := HP m e). assert (H2 := HP m' e'). cbn [fval] in H.
    assert (Hs : s = s') by (destruct s, s'; try reflexivity; lra). subst s'.
    assert (Hv : IZR (Z.pos m) * bpow e = IZR (Z.pos m') * bpow e') by (destruct s; lra).
    assert (He : e = e').
    { destruct (Z.lt_trichotomy e e') as [He|[He|He]]; [|exact He|].
      - assert (Hl := mag_lt m e m' e' Cx Cy He). lra.
      - assert (Hl := mag_lt m' e' m e Cy Cx He). lra. }
    subst e'. assert (Hp := bpow_pos e). apply Rmult_eq_reg_r in Hv; [|lra]. apply eq_IZR in Hv. inversion Hv. reflexivity.
Qed.
