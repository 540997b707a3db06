(** Rounding errors of divisions of arbitrary doubles; comparisons; integers as doubles. *)
From Coq Require Import ZArith Bool List Reals Lia Lra Floats.SpecFloat.
From Verif Require Import Prelude KernelsModel FloatModel SpecFloats SpecFloatVal FloatProps FloatNormProps FloatRound FloatAny.
Local Open Scope R_scope.

Lemma zdigits_bounds : forall m, (0 <= m)%Z ->
  (0 <= Zdigits2 m)%Z /\ (m < 2 ^ Zdigits2 m)%Z /\ ((0 < m)%Z -> (2 ^ (Zdigits2 m - 1) <= m)%Z).
Proof.
  intros [|m|m] H; cbn [Zdigits2]; [|assert (Hb := digits_bounds m); lia|lia].
  split; [lia|]. split; [reflexivity|lia].
Qed.

(** Rounding of a number [y] located above the integer [mx]. *)
Lemma round_loc : forall sx mx ex lx y, (0 <= mx)%Z -> located mx lx y ->
  let d := Zdigits2 mx in
  (ex <= fexp 53 1024 (d + ex))%Z -> (d + ex <= 1023)%Z ->
  let r := binary_round_aux 53 1024 sx mx ex lx in
  canon r /\ Rabs (fval r - sgn sx * (y * bpow ex)) <= half_step (d + ex).
Proof.
  intros sx mx ex lx y Hmx Hy d Hex Hhi.
  set (e1 := fexp 53 1024 (d + ex)) in *.
  assert (He1 : e1 = Z.max (d + ex - 53) (-1074)) by reflexivity.
  set (r0 := shr_record_of_loc mx lx).
  assert (Hm0 : shr_m r0 = mx) by apply rec_of_loc_m.
  assert (H1 : exists r1, shr_fexp 53 1024 mx ex lx = (r1, e1) /\ (0 <= shr_m r1)%Z /\
                          rep r1 (y / bpow (e1 - ex))).
  { unfold shr_fexp. fold d. fold e1. fold r0.
    destruct (e1 - ex)%Z as [|p|p] eqn:Hn; [| | lia].
    - exists r0. cbn [shr]. split; [f_equal; lia |]. split; [lia |].
      rewrite bpow_0. unfold Rdiv. rewrite Rinv_1, Rmult_1_r. exact Hy.
    - exists (iter_pos shr_1 p r0). cbn [shr]. split; [f_equal; lia |]. split; [apply iter_nonneg; lia |].
      apply rep_iter; [lia | exact Hy]. }
  destruct H1 as (r1 & Hs1 & Hr1 & Hrep).
  set (y1 := y / bpow (e1 - ex)) in *.
  assert (Hyy : y * bpow ex = y1 * bpow e1).
  { unfold y1. replace (bpow ex) with (bpow e1 / bpow (e1 - ex)).
    - assert (Hp := bpow_pos (e1 - ex)). field. lra.
    - assert (Hp := bpow_pos (e1 - ex)). replace e1 with (ex + (e1 - ex))%Z at 1 by lia. rewrite bpow_add. field. lra. }
  destruct (zdigits_bounds mx Hmx) as (Hd0 & Hdhi & Hdlo). fold d in Hd0, Hdhi, Hdlo.
  assert (Hfl := rep_floor _ _ Hy). unfold located in Hfl. rewrite rec_of_loc_m in Hfl.
  assert (Hyhi : y < bpow d).
  { rewrite bpow_IZR by lia. apply Rlt_le_trans with (IZR mx + 1); [lra |]. rewrite <- plus_IZR. apply IZR_le. lia. }
  assert (Hy1lo : (e1 = d + ex - 53)%Z -> IZR (2 ^ 52) <= y1).
  { intros He. rewrite <- (bpow_IZR 52) by lia.
    apply (Rmult_le_reg_r (bpow e1)); [apply bpow_pos |]. rewrite <- Hyy, <- bpow_add.
    replace (52 + e1)%Z with ((d - 1) + ex)%Z by lia. rewrite bpow_add.
    apply Rmult_le_compat_r; [assert (Hp := bpow_pos ex); lra |]. rewrite bpow_IZR by lia.
    apply Rle_trans with (IZR mx); [|lra]. apply IZR_le. apply Hdlo.
    destruct (Z.eq_dec mx 0) as [Hz|Hz]; [|lia]. exfalso. assert (Hd : d = 0%Z) by (unfold d; rewrite Hz; reflexivity). lia. }
  assert (Hy1hi : y1 < IZR (2 ^ 53)).
  { rewrite <- (bpow_IZR 53) by lia.
    apply (Rmult_lt_reg_r (bpow e1)); [apply bpow_pos |]. rewrite <- Hyy, <- bpow_add.
    apply Rlt_le_trans with (bpow (d + ex)); [|apply bpow_le; lia]. rewrite bpow_add.
    apply Rmult_lt_compat_r; [apply bpow_pos |exact Hyhi]. }
  set (m2 := round_nearest_even (shr_m r1) (loc_of_shr_record r1)).
  assert (Hround : Rabs (IZR m2 - y1) <= 1/2) by (apply rep_round; exact Hrep).
  assert (Hfl1 := rep_floor _ _ Hrep).
  assert (Hm2 : (0 <= m2 <= 2 ^ 53)%Z /\ ((e1 = d + ex - 53)%Z -> (2 ^ 52 <= m2)%Z)).
  { assert (shr_m r1 < 2 ^ 53)%Z by (apply lt_IZR; lra).
    assert ((e1 = d + ex - 53)%Z -> (2 ^ 52 <= shr_m r1)%Z).
    { intros He. specialize (Hy1lo He). assert (2 ^ 52 < shr_m r1 + 1)%Z; [| lia]. apply lt_IZR. rewrite plus_IZR. lra. }
    assert (Hle : (shr_m r1 <= m2 <= shr_m r1 + 1)%Z).
    { unfold m2, round_nearest_even. destruct (loc_of_shr_record r1) as [|[| |]]; try lia.
      destruct (Z.even (shr_m r1)); lia. }
    split; [lia|]. intros He. specialize (H0 He). lia. }
  destruct Hm2 as [Hm2 Hm2lo].
  assert (Herr : Rabs (IZR m2 * bpow e1 - y * bpow ex) <= half_step (d + ex)).
  { rewrite Hyy. replace (IZR m2 * bpow e1 - y1 * bpow e1) with ((IZR m2 - y1) * bpow e1) by ring.
    assert (Hp := bpow_pos e1). rewrite Rabs_mult, (Rabs_pos_eq (bpow e1)) by lra.
    unfold half_step. fold e1. apply Rmult_le_compat_r; [lra |exact Hround]. }
  assert (Hsg : forall z, Rabs (z - y * bpow ex) <= half_step (d + ex) ->
                Rabs (sgn sx * z - sgn sx * (y * bpow ex)) <= half_step (d + ex)).
  { intros z Hz. rewrite <- Rmult_minus_distr_l, Rabs_mult, sgn_abs, Rmult_1_l. exact Hz. }
  cbv zeta. unfold binary_round_aux. rewrite Hs1. fold m2.
  destruct (Z.eq_dec m2 (2 ^ 53)) as [He | Hne].
  - rewrite He.
    assert (Hs2 : shr_fexp 53 1024 (2 ^ 53) e1 loc_Exact = (Build_shr_record (Z.pos (2 ^ 52)) false false, (e1 + 1)%Z)).
    { unfold shr_fexp. change (Zdigits2 (2 ^ 53)) with 54%Z. replace (fexp 53 1024 (54 + e1) - e1)%Z with 1%Z by (unfold fexp, emin; lia).
      reflexivity. }
    rewrite Hs2. cbn [shr_m].
    replace (e1 + 1 <=? 1024 - 53)%Z with true by (symmetry; apply Z.leb_le; lia).
    assert (Hv : fval (S754_finite sx (2 ^ 52) (e1 + 1)) = sgn sx * (IZR m2 * bpow e1)).
    { cbn [fval]. fold (sgn sx). rewrite He. f_equal. rewrite Z.add_comm, bpow_add. change (bpow 1) with (2 * 1).
      change (IZR (2 ^ 53)) with (IZR (Z.pos (2 ^ 52) * 2)). rewrite mult_IZR. ring. }
    split.
    + cbn. repeat split; try lia; auto.
    + rewrite Hv. apply Hsg, Herr.
  - destruct m2 as [|m|m] eqn:Em; [| | lia].
    + assert (Hs2 : shr_fexp 53 1024 0 e1 loc_Exact = (Build_shr_record 0 false false, e1)).
      { unfold shr_fexp. cbn [Zdigits2]. 
        destruct (fexp 53 1024 (0 + e1) - e1)%Z as [|p|p] eqn:Hn; [reflexivity| |reflexivity].
        unfold fexp, emin in Hn. lia. }
      rewrite Hs2. cbn [shr_m]. split; [exact I|]. cbn [fval].
      assert (Hz := Hsg _ Herr). replace (sgn sx * (0 * bpow e1)) with 0 in Hz by ring. exact Hz.
    + assert (Hdm : (Z.pos (digits2_pos m) <= 53)%Z).
      { destruct (Z_lt_le_dec 53 (Z.pos (digits2_pos m))) as [Hl|Hl]; [|exact Hl].
        assert (Hbm := digits_bounds m). assert (2 ^ 53 <= 2 ^ (Z.pos (digits2_pos m) - 1))%Z by (apply Z.pow_le_mono_r; lia). lia. }
      assert (Hs2 : shr_fexp 53 1024 (Z.pos m) e1 loc_Exact = (Build_shr_record (Z.pos m) false false, e1)).
      { unfold shr_fexp. cbn [Zdigits2].
        destruct (fexp 53 1024 (Z.pos (digits2_pos m) + e1) - e1)%Z as [|p|p] eqn:Hn; [reflexivity| |reflexivity].
        unfold fexp, emin in Hn. lia. }
      rewrite Hs2. cbn [shr_m].
      replace (e1 <=? 1024 - 53)%Z with true by (symmetry; apply Z.leb_le; lia).
      assert (Hv : fval (S754_finite sx m e1) = sgn sx * (IZR (Z.pos m) * bpow e1)) by reflexivity.
      split.
      * cbn. repeat split; try lia.
        destruct (Z.eq_dec e1 (-1074)) as [Hq|Hq]; [right; exact Hq|left].
        apply Pos2Z.inj. apply digits_unique; [lia|]. change (2 ^ (53 - 1))%Z with (2 ^ 52)%Z. lia.
      * rewrite Hv. apply Hsg, Herr.
Qed.

Lemma half_step_loc : forall mx lx y ex, (0 <= mx)%Z -> located mx lx y -> (ex <= fexp 53 1024 (Zdigits2 mx + ex))%Z ->
  half_step (Zdigits2 mx + ex) <= unit_roundoff * (y * bpow ex) + tiny.
Proof.
  intros mx lx y ex Hmx Hy Hex.
  destruct (zdigits_bounds mx Hmx) as (Hd0 & Hdhi & Hdlo).
  assert (Hfl := rep_floor _ _ Hy). unfold located in Hfl. rewrite rec_of_loc_m in Hfl.
  unfold half_step, unit_roundoff, tiny. unfold fexp, emin in *.
  assert (Hpe := bpow_pos ex). assert (Hu := bpow_pos (-53)). assert (Ht := bpow_pos (-1075)).
  assert (HM : 0 <= IZR mx) by (apply IZR_le; exact Hmx).
  assert (Hy0 : 0 <= y * bpow ex) by (apply Rmult_le_pos; lra).
  assert (Hu0 : 0 <= bpow (-53) * (y * bpow ex)) by (apply Rmult_le_pos; lra).
  assert (Hhalf : forall k, 1/2 * bpow k = bpow (k - 1)).
  { intros k. replace k with (1 + (k - 1))%Z at 1 by lia. rewrite bpow_add. change (bpow 1) with (2 * 1). lra. }
  rewrite Hhalf.
  destruct (Z.max_spec (Zdigits2 mx + ex - 53) (3 - 1024 - 53)) as [[Hm Hq]|[Hm Hq]]; rewrite Hq in *.
  - change (3 - 1024 - 53 - 1)%Z with (-1075)%Z. lra.
  - assert (Hmp : (0 < mx)%Z).
    { destruct (Z.eq_dec mx 0) as [Hz|Hz]; [|lia]. rewrite Hz in *. cbn in *. lia. }
    specialize (Hdlo Hmp).
    apply Rle_trans with (bpow (-53) * (y * bpow ex)); [|lra].
    replace (Zdigits2 mx + ex - 53 - 1)%Z with (-53 + ((Zdigits2 mx - 1) + ex))%Z by lia. rewrite !bpow_add.
    apply Rmult_le_compat_l; [lra|]. apply Rmult_le_compat_r; [lra|]. rewrite bpow_IZR by lia.
    apply Rle_trans with (IZR mx); [apply IZR_le; exact Hdlo|lra].
Qed.

Lemma fdiv_any : forall x y, canon x -> canon y -> fval y <> 0 -> Rabs (fval x / fval y) < bpow 1022 ->
  canon (fdiv x y) /\ Rabs (fval (fdiv x y) - fval x / fval y) <= unit_roundoff * Rabs (fval x / fval y) + tiny.
Proof.
  intros [sx|sx| |sx mx ex] [sy|sy| |sy my ey] Cx Cy Hy0 Hhi; try contradiction; try (cbn in Hy0; lra).
  - split; [exact I|]. unfold fdiv, SFdiv. cbn [fval]. unfold Rdiv. rewrite Rmult_0_l, Rminus_0_r, Rabs_R0, Rmult_0_r, Rplus_0_l.
    apply Rlt_le, bpow_pos.
  - assert (Bx := digits_bounds mx). assert (By := digits_bounds my).
    set (d1 := Z.pos (digits2_pos mx)) in *. set (d2 := Z.pos (digits2_pos my)) in *.
    set (D := (d1 + ex - (d2 + ey))%Z).
    set (e' := Z.min (fexp 53 1024 D) (ex - ey)). set (s := (ex - ey - e')%Z).
    assert (Hs : (0 <= s)%Z) by (unfold s, e'; lia).
    set (y := IZR (Z.pos mx * 2 ^ s) / IZR (Z.pos my)).
    assert (Hmy : 0 < IZR (Z.pos my)) by (apply IZR_lt; lia).
    assert (Hmx : 0 < IZR (Z.pos mx)) by (apply IZR_lt; lia).
    assert (H2s : 0 < IZR (2 ^ s)) by (apply IZR_lt; apply Z.pow_pos_nonneg; lia).
    assert (HP : fval (S754_finite sx mx ex) / fval (S754_finite sy my ey) = sgn (xorb sx sy) * (y * bpow e')).
    { unfold y. cbn [fval]. fold (sgn sx) (sgn sy). rewrite mult_IZR, <- (bpow_IZR s) by lia.
      replace (bpow e') with (bpow ex / bpow ey / bpow s).
      - assert (Hp := bpow_pos ey). assert (Hp' := bpow_pos s).
        rewrite sgn_xorb. destruct sx, sy; unfold sgn; field; repeat split; lra.
      - replace ex with (s + (e' + ey))%Z by (unfold s; lia). rewrite !bpow_add.
        assert (Hp := bpow_pos ey). assert (Hp' := bpow_pos s). field. lra. }
    assert (Hyp : 0 < y) by (unfold y; rewrite mult_IZR; apply Rdiv_lt_0_compat; [apply Rmult_lt_0_compat; assumption | exact Hmy]).
    assert (HP0 : 0 < y * bpow e') by (apply Rmult_lt_0_compat; [exact Hyp | apply bpow_pos]).
    rewrite HP in *. rewrite Rabs_mult, sgn_abs, Rmult_1_l, Rabs_pos_eq in * by lra.
    unfold fdiv, SFdiv, SFdiv_core_binary. cbn [Zdigits2]. fold d1 d2. fold D. fold e'. fold s.
    cbv zeta.
    replace (match s with Z0 => Z.pos mx | Z.pos _ => Z.shiftl (Z.pos mx) s | Z.neg _ => 0%Z end) with (Z.pos mx * 2 ^ s)%Z.
    2:{ destruct s as [|p|p] eqn:Es; [change (2 ^ 0)%Z with 1%Z; lia| |lia].
        rewrite Z.shiftl_mul_pow2 by lia. reflexivity. }
    assert (Hde := Z_div_mod (Z.pos mx * 2 ^ s) (Z.pos my) ltac:(lia)).
    destruct (Z.div_eucl (Z.pos mx * 2 ^ s) (Z.pos my)) as [q r]. destruct Hde as [Hq Hr].
    assert (Hq0 : (0 <= q)%Z) by (assert (0 < Z.pos mx * 2 ^ s)%Z by (apply Z.mul_pos_pos; [lia|apply Z.pow_pos_nonneg; lia]); nia).
    assert (Hyq : y = IZR q + IZR r / IZR (Z.pos my)).
    { unfold y. rewrite Hq, plus_IZR, mult_IZR. field. lra. }
    assert (Hloc : located q (new_location (Z.pos my) r) y) by (rewrite Hyq; apply new_location_located; [lia|exact Hr]).
    assert (Hfl := rep_floor _ _ Hloc). unfold located in Hfl. rewrite rec_of_loc_m in Hfl.
    destruct (zdigits_bounds q Hq0) as (Hd0 & Hdhi & Hdlo).
    assert (HD : (D <= Zdigits2 q + e')%Z).
    { destruct (Z_le_gt_dec D e') as [Hle|Hgt]; [lia|].
      assert (Hlow : bpow (D - 1 - e') <= y).
      { unfold y. apply (Rmult_le_reg_r (IZR (Z.pos my))); [exact Hmy|].
        unfold Rdiv. rewrite Rmult_assoc, Rinv_l, Rmult_1_r by lra.
        apply Rle_trans with (bpow (D - 1 - e') * bpow d2).
        - apply Rmult_le_compat_l; [apply Rlt_le, bpow_pos|]. rewrite bpow_IZR by (unfold d2; lia). apply IZR_le. lia.
        - rewrite <- bpow_add. rewrite mult_IZR, <- (bpow_IZR s) by lia.
          replace (D - 1 - e' + d2)%Z with ((d1 - 1) + s)%Z by (unfold s, D; lia). rewrite bpow_add.
          apply Rmult_le_compat_r; [apply Rlt_le, bpow_pos|]. rewrite bpow_IZR by (unfold d1; lia). apply IZR_le. lia. }
      rewrite bpow_IZR in Hlow by lia.
      assert (Hql : (2 ^ (D - 1 - e') < q + 1)%Z) by (apply lt_IZR; rewrite plus_IZR; lra).
      assert (Hlt : (2 ^ (D - 1 - e') < 2 ^ Zdigits2 q)%Z) by lia.
      apply Z.pow_lt_mono_r_iff in Hlt; lia. }
    assert (Hex : (e' <= fexp 53 1024 (Zdigits2 q + e'))%Z).
    { apply Z.le_trans with (fexp 53 1024 D); [unfold e'; lia|]. unfold fexp. lia. }
    assert (Hmag : (Zdigits2 q + e' <= 1023)%Z).
    { destruct (Z.eq_dec q 0) as [Hz|Hz].
      - rewrite Hz. cbn [Zdigits2]. rewrite Hz in Hex. cbn [Zdigits2] in Hex. unfold fexp, emin in Hex. lia.
      - specialize (Hdlo ltac:(lia)).
        assert (Hl : (Zdigits2 q - 1 + e' < 1022)%Z); [|lia].
        apply bpow_lt_inv. apply Rle_lt_trans with (2 := Hhi). rewrite bpow_add.
        apply Rmult_le_compat_r; [apply Rlt_le, bpow_pos|].
        assert (Hq1 : (1 <= Zdigits2 q)%Z) by (destruct q; cbn [Zdigits2]; lia).
        rewrite bpow_IZR by lia. apply Rle_trans with (IZR q); [apply IZR_le; exact Hdlo|lra]. }
    destruct (round_loc (xorb sx sy) q e' _ y Hq0 Hloc Hex Hmag) as [R1 R2].
    split; [exact R1|]. eapply Rle_trans; [exact R2|]. rewrite (Rabs_pos_eq (y * bpow e')) by lra. apply (half_step_loc _ _ _ _ Hq0 Hloc Hex).
Qed.

(** ** Integers *)
Lemma fint_any : forall z, (Z.abs z < 2 ^ 53)%Z -> canon (fint z) /\ fval (fint z) = IZR z.
Proof.
  assert (HP : forall s p, (Z.pos p < 2 ^ 53)%Z ->
            canon (binary_round 53 1024 s p 0) /\ fval (binary_round 53 1024 s p 0) = sgn s * IZR (Z.pos p)).
  { intros s p Hp. destruct (round_sum s p 0) as (R1 & _ & R3); [lia| |].
    - rewrite bpow_0, Rmult_1_r. apply Rlt_le_trans with (bpow 53); [rewrite bpow_IZR by lia; apply IZR_lt; exact Hp|apply bpow_le; lia].
    - split; [exact R1|]. apply R3; [rewrite bpow_0; ring|lia]. }
  intros [|p|p] Hz; unfold fint, binary_normalize.
  - split; [exact I|reflexivity].
  - destruct (HP false p ltac:(lia)) as [H1 H2]. split; [exact H1|]. rewrite H2. unfold sgn. ring.
  - destruct (HP true p ltac:(lia)) as [H1 H2]. split; [exact H1|]. rewrite H2. unfold sgn.
    change (Z.neg p) with (- Z.pos p)%Z. rewrite opp_IZR. ring.
Qed.

(** ** Comparisons *)
Lemma mag_lt : forall m e m' e', canon (S754_finite false m e) -> canon (S754_finite false m' e') -> (e < e')%Z ->
  IZR (Z.pos m) * bpow e < IZR (Z.pos m') * bpow e'.
Proof.
  intros m e m' e' (D & E & H) (D' & E' & H') Hlt.
  assert (Hm := digits_bounds m). assert (Hm' := digits_bounds m').
  destruct H' as [H'|H']; [|lia]. rewrite H' in Hm'.
  apply Rlt_le_trans with (bpow (53 + e)).
  - rewrite bpow_add. apply Rmult_lt_compat_r; [apply bpow_pos|]. rewrite bpow_IZR by lia. apply IZR_lt.
    apply Z.lt_le_trans with (2 ^ Z.pos (digits2_pos m))%Z; [lia|]. apply Z.pow_le_mono_r; lia.
  - apply Rle_trans with (bpow (52 + e')); [apply bpow_le; lia|]. rewrite bpow_add.
    apply Rmult_le_compat_r; [apply Rlt_le, bpow_pos|]. rewrite bpow_IZR by lia. apply IZR_le. lia.
Qed.

Lemma compare_any : forall x y, canon x -> canon y ->
  match SFcompare x y with
  | Some Lt => fval x < fval y
  | Some Eq => fval x = fval y
  | Some Gt => fval y < fval x
  | None => False
  end.
Proof.
  assert (HP : forall m e, 0 < IZR (Z.pos m) * bpow e).
  { intros m e. apply Rmult_lt_0_compat; [apply IZR_lt; lia|apply bpow_pos]. }
  assert (HM : forall m m' e, (Z.pos m < Z.pos m')%Z -> IZR (Z.pos m) * bpow e < IZR (Z.pos m') * bpow e).
  { intros m m' e H. apply Rmult_lt_compat_r; [apply bpow_pos|apply IZR_lt; exact H]. }
  intros [s|s| |s m e] [s'|s'| |s' m' e'] Cx Cy; try contradiction; cbn [SFcompare].
  - reflexivity.
  - assert (H := HP m' e'). destruct s'; cbn [fval]; lra.
  - assert (H := HP m e). destruct s; cbn [fval]; lra.
  - destruct s, s'; cbn [fval].
    + destruct (Z.compare_spec e e') as [He|He|He].
      * subst e'. change (Pos.compare_cont Eq m m') with (Pos.compare m m'). destruct (Pos.compare_spec m m') as [Hm|Hm|Hm]; cbn [CompOpp].
        -- subst. reflexivity.
        -- specialize (HM m m' e Hm). lra.
        -- specialize (HM m' m e Hm). lra.
      * assert (H := mag_lt m e m' e' Cx Cy He). lra.
      * assert (H := mag_lt m' e' m e Cy Cx He). lra.
    + assert (H := HP m e). assert (H' := HP m' e'). lra.
    + assert (H := HP m e). assert (H' := HP m' e'). lra.
    + destruct (Z.compare_spec e e') as [He|He|He].
      * subst e'. change (Pos.compare_cont Eq m m') with (Pos.compare m m'). destruct (Pos.compare_spec m m') as [Hm|Hm|Hm].
        -- subst. reflexivity.
        -- specialize (HM m m' e Hm). lra.
        -- specialize (HM m' m e Hm). lra.
      * assert (H := mag_lt m e m' e' Cx Cy He). lra.
      * assert (H := mag_lt m' e' m e Cy Cx He). lra.
Qed.

Lemma leb_any : forall x y, canon x -> canon y -> (SFleb x y = true <-> fval x <= fval y).
Proof.
  intros x y Cx Cy. assert (H := compare_any x y Cx Cy). unfold SFleb. destruct (SFcompare x y) as [[]|]; split; intros; try lra; try discriminate; try reflexivity; contradiction.
Qed.

Lemma ltb_any : forall x y, canon x -> canon y -> (SFltb x y = true <-> fval x < fval y).
Proof.
  intros x y Cx Cy. assert (H := compare_any x y Cx Cy). unfold SFltb. destruct (SFcompare x y) as [[]|]; split; intros; try lra; try discriminate; try reflexivity; contradiction.
Qed.
