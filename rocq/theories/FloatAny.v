(** Rounding errors of additions and multiplications of arbitrary doubles, subnormal numbers included. *)
From Coq Require Import ZArith Bool List Reals Lia Lra Floats.SpecFloat.
From Verif Require Import Prelude KernelsModel FloatModel SpecFloats SpecFloatVal FloatProps FloatNormProps FloatRound.
Local Open Scope R_scope.

(** Zeros and the finite numbers in their standard representation. *)
Definition canon (x : f64) : Prop :=
  match x with
  | S754_zero _ => True
  | S754_finite _ m e =>
      (Z.pos (digits2_pos m) <= 53)%Z /\ (-1074 <= e <= 971)%Z /\ (digits2_pos m = 53%positive \/ e = (-1074)%Z)
  | _ => False
  end.

Lemma valid_canon : forall x, f_finite x = true -> valid_binary 53 1024 x = true -> canon x.
Proof.
  intros [s|s| |s m e] Hf Hv; try discriminate; [exact I|]. cbn in Hv. unfold bounded, canonical_mantissa in Hv.
  apply andb_true_iff in Hv. destruct Hv as [H1 H2]. apply Zeq_bool_eq in H1. apply Z.leb_le in H2.
  unfold fexp, emin in H1. cbn. 
  destruct (Z.max_spec (Z.pos (digits2_pos m) + e - 53) (3 - 1024 - 53)) as [[Hm Hq]|[Hm Hq]].
  - rewrite Hq in H1. repeat split; lia.
  - rewrite Hq in H1. assert (Hd : Z.pos (digits2_pos m) = 53%Z) by lia.
    split; [lia|]. split; [lia|]. left. apply Pos2Z.inj. exact Hd.
Qed.

Lemma canon_finite : forall x, canon x -> f_finite x = true.
Proof. intros [s|s| |s m e] H; try contradiction; reflexivity. Qed.

Definition half_step (x : Z) : R := 1/2 * bpow (fexp 53 1024 x).

Lemma round_any : forall sx mx ex,
  let d := Z.pos (digits2_pos mx) in
  (ex <= fexp 53 1024 (d + ex))%Z -> (d + ex <= 1023)%Z ->
  let r := binary_round_aux 53 1024 sx (Z.pos mx) ex loc_Exact in
  canon r /\ Rabs (fval r - sgn sx * (IZR (Z.pos mx) * bpow ex)) <= half_step (d + ex) /\
  (forall z, IZR (Z.pos mx) * bpow ex = IZR z * bpow (fexp 53 1024 (d + ex)) ->
     fval r = sgn sx * (IZR (Z.pos mx) * bpow ex)).
Proof.
  intros sx mx ex d Hex Hhi.
  set (e1 := fexp 53 1024 (d + ex)) in *.
  assert (He1 : e1 = Z.max (d + ex - 53) (-1074)) by reflexivity.
  set (y := IZR (Z.pos mx)).
  set (r0 := shr_record_of_loc (Z.pos mx) loc_Exact).
  assert (Hy : rep r0 y) by (unfold rep, r0, y; cbn; lra).
  assert (H1 : exists r1, shr_fexp 53 1024 (Z.pos mx) ex loc_Exact = (r1, e1) /\ (0 <= shr_m r1)%Z /\
                          rep r1 (y / bpow (e1 - ex))).
  { unfold shr_fexp. cbn [Zdigits2]. fold d. fold e1. fold r0.
    destruct (e1 - ex)%Z as [|p|p] eqn:Hn; [| | lia].
    - exists r0. cbn [shr]. split; [f_equal; lia |]. split; [cbn; lia |].
      rewrite bpow_0. unfold Rdiv. rewrite Rinv_1, Rmult_1_r. exact Hy.
    - exists (iter_pos shr_1 p r0). cbn [shr]. split; [f_equal; lia |]. split; [apply iter_nonneg; cbn; lia |].
      apply rep_iter; [cbn; lia | exact Hy]. }
  destruct H1 as (r1 & Hs1 & Hr1 & Hrep).
  set (y1 := y / bpow (e1 - ex)) in *.
  assert (Hyy : y * bpow ex = y1 * bpow e1).
  { unfold y1. replace (bpow ex) with (bpow e1 / bpow (e1 - ex)).
    - assert (Hp := bpow_pos (e1 - ex)). field. lra.
    - assert (Hp := bpow_pos (e1 - ex)). replace e1 with (ex + (e1 - ex))%Z at 1 by lia. rewrite bpow_add. field. lra. }
  assert (Hb := digits_bounds mx). fold d in Hb.
  assert (Hy1lo : (e1 = d + ex - 53)%Z -> IZR (2 ^ 52) <= y1).
  { intros He. rewrite <- (bpow_IZR 52) by lia.
    apply (Rmult_le_reg_r (bpow e1)); [apply bpow_pos |]. rewrite <- Hyy, <- bpow_add.
    replace (52 + e1)%Z with ((d - 1) + ex)%Z by lia. rewrite bpow_add.
    apply Rmult_le_compat_r; [assert (Hp := bpow_pos ex); lra |]. rewrite bpow_IZR by lia. apply IZR_le. lia. }
  assert (Hy1hi : y1 < IZR (2 ^ 53)).
  { rewrite <- (bpow_IZR 53) by lia.
    apply (Rmult_lt_reg_r (bpow e1)); [apply bpow_pos |]. rewrite <- Hyy, <- bpow_add.
    apply Rlt_le_trans with (bpow (d + ex)); [|apply bpow_le; lia]. rewrite bpow_add.
    apply Rmult_lt_compat_r; [apply bpow_pos |]. rewrite bpow_IZR by lia. apply IZR_lt. lia. }
  set (m2 := round_nearest_even (shr_m r1) (loc_of_shr_record r1)).
  assert (Hround : Rabs (IZR m2 - y1) <= 1/2) by (apply rep_round; exact Hrep).
  assert (Hfl1 := rep_floor _ _ Hrep).
  assert (Hm2 : (0 <= m2 <= 2 ^ 53)%Z /\ ((e1 = d + ex - 53)%Z -> (2 ^ 52 <= m2)%Z)).
  { assert (shr_m r1 < 2 ^ 53)%Z by (apply lt_IZR; lra).
    assert ((e1 = d + ex - 53)%Z -> (2 ^ 52 <= shr_m r1)%Z).
    { intros He. specialize (Hy1lo He). assert (2 ^ 52 < shr_m r1 + 1)%Z; [| lia]. apply lt_IZR. rewrite plus_IZR. lra. }
    assert (Hle : (shr_m r1 <= m2 <= shr_m r1 + 1)%Z).
    { unfold m2, round_nearest_even. destruct (loc_of_shr_record r1) as [|[| |]]; try lia.
      destruct (Z.even (shr_m r1)); lia. }
    split; [lia|]. intros He. specialize (H0 He). lia. }
  destruct Hm2 as [Hm2 Hm2lo].
  assert (Herr : Rabs (IZR m2 * bpow e1 - y * bpow ex) <= half_step (d + ex)).
  { rewrite Hyy. replace (IZR m2 * bpow e1 - y1 * bpow e1) with ((IZR m2 - y1) * bpow e1) by ring.
    assert (Hp := bpow_pos e1). rewrite Rabs_mult, (Rabs_pos_eq (bpow e1)) by lra.
    unfold half_step. fold e1. apply Rmult_le_compat_r; [lra |exact Hround]. }
  assert (Hexact : forall z, y * bpow ex = IZR z * bpow e1 -> IZR m2 * bpow e1 = y * bpow ex).
  { intros z He. assert (Hp := bpow_pos e1). rewrite Hyy in *. apply Rmult_eq_reg_r in He; [|lra]. rewrite He in *.
    rewrite <- minus_IZR, <- abs_IZR in Hround. assert (Hz : (Z.abs (m2 - z) < 1)%Z) by (apply lt_IZR; lra).
    do 2 f_equal. lia. }
  assert (Hsg : forall z, Rabs (z - y * bpow ex) <= half_step (d + ex) ->
                Rabs (sgn sx * z - sgn sx * (y * bpow ex)) <= half_step (d + ex)).
  { intros z Hz. rewrite <- Rmult_minus_distr_l, Rabs_mult, sgn_abs, Rmult_1_l. exact Hz. }
  cbv zeta. unfold binary_round_aux. rewrite Hs1. fold m2.
  destruct (Z.eq_dec m2 (2 ^ 53)) as [He | Hne].
  - rewrite He.
    assert (Hs2 : shr_fexp 53 1024 (2 ^ 53) e1 loc_Exact = (Build_shr_record (Z.pos (2 ^ 52)) false false, (e1 + 1)%Z)).
    { unfold shr_fexp. change (Zdigits2 (2 ^ 53)) with 54%Z. replace (fexp 53 1024 (54 + e1) - e1)%Z with 1%Z by (unfold fexp, emin; lia).
      reflexivity. }
    rewrite Hs2. cbn [shr_m].
    replace (e1 + 1 <=? 1024 - 53)%Z with true by (symmetry; apply Z.leb_le; lia).
    assert (Hv : fval (S754_finite sx (2 ^ 52) (e1 + 1)) = sgn sx * (IZR m2 * bpow e1)).
    { cbn [fval]. fold (sgn sx). rewrite He. f_equal. rewrite Z.add_comm, bpow_add. change (bpow 1) with (2 * 1).
      change (IZR (2 ^ 53)) with (IZR (Z.pos (2 ^ 52) * 2)). rewrite mult_IZR. ring. }
    split; [|split].
    + cbn. repeat split; try lia; auto.
    + rewrite Hv. apply Hsg, Herr.
    + intros z Hq. rewrite Hv, (Hexact z Hq). reflexivity.
  - destruct m2 as [|m|m] eqn:Em; [| | lia].
    + assert (Hs2 : shr_fexp 53 1024 0 e1 loc_Exact = (Build_shr_record 0 false false, e1)).
      { unfold shr_fexp. cbn [Zdigits2]. 
        destruct (fexp 53 1024 (0 + e1) - e1)%Z as [|p|p] eqn:Hn; [reflexivity| |reflexivity].
        unfold fexp, emin in Hn. lia. }
      rewrite Hs2. cbn [shr_m]. split; [exact I|]. cbn [fval]. split.
      * assert (Hz := Hsg _ Herr). replace (sgn sx * (0 * bpow e1)) with 0 in Hz by ring. exact Hz.
      * intros z Hq. fold y. rewrite <- (Hexact z Hq). ring.
    + assert (Hdm : (Z.pos (digits2_pos m) <= 53)%Z).
      { destruct (Z_lt_le_dec 53 (Z.pos (digits2_pos m))) as [Hl|Hl]; [|exact Hl].
        assert (Hbm := digits_bounds m). assert (2 ^ 53 <= 2 ^ (Z.pos (digits2_pos m) - 1))%Z by (apply Z.pow_le_mono_r; lia). lia. }
      assert (Hs2 : shr_fexp 53 1024 (Z.pos m) e1 loc_Exact = (Build_shr_record (Z.pos m) false false, e1)).
      { unfold shr_fexp. cbn [Zdigits2].
        destruct (fexp 53 1024 (Z.pos (digits2_pos m) + e1) - e1)%Z as [|p|p] eqn:Hn; [reflexivity| |reflexivity].
        unfold fexp, emin in Hn. lia. }
      rewrite Hs2. cbn [shr_m].
      replace (e1 <=? 1024 - 53)%Z with true by (symmetry; apply Z.leb_le; lia).
      assert (Hv : fval (S754_finite sx m e1) = sgn sx * (IZR (Z.pos m) * bpow e1)) by reflexivity.
      split; [|split].
      * cbn. repeat split; try lia.
        destruct (Z.eq_dec e1 (-1074)) as [Hq|Hq]; [right; exact Hq|left].
        apply Pos2Z.inj. apply digits_unique; [lia|]. change (2 ^ (53 - 1))%Z with (2 ^ 52)%Z. lia.
      * rewrite Hv. apply Hsg, Herr.
      * intros z Hq. rewrite Hv, (Hexact z Hq). reflexivity.
Qed.

(** The error in terms of the value: relative 2^-53 or absolute 2^-1075. *)
Definition unit_roundoff : R := bpow (-53).
Definition tiny : R := bpow (-1075).

Lemma half_step_bound : forall mx ex, let d := Z.pos (digits2_pos mx) in
  half_step (d + ex) <= unit_roundoff * (IZR (Z.pos mx) * bpow ex) + tiny /\
  (fexp 53 1024 (d + ex) <> (-1074)%Z -> half_step (d + ex) <= unit_roundoff * (IZR (Z.pos mx) * bpow ex)).
Proof.
  intros mx ex d. unfold half_step, unit_roundoff, tiny.
  assert (Hb := digits_bounds mx). fold d in Hb.
  assert (Hv : bpow (d - 1 + ex) <= IZR (Z.pos mx) * bpow ex).
  { rewrite bpow_add. apply Rmult_le_compat_r; [assert (Hp := bpow_pos ex); lra|].
    rewrite bpow_IZR by lia. apply IZR_le. lia. }
  assert (Hh : forall z, 1/2 * bpow z = bpow (z - 1)).
  { intros z. replace (z - 1)%Z with (z + -1)%Z by lia. rewrite bpow_add. change (bpow (-1)) with (/ (2 * 1)). lra. }
  rewrite Hh. assert (Hu := bpow_pos (-53)). assert (Ht := bpow_pos (-1075)).
  assert (Hn : bpow (d + ex - 53 - 1) <= bpow (-53) * (IZR (Z.pos mx) * bpow ex)).
  { replace (d + ex - 53 - 1)%Z with (-53 + (d - 1 + ex))%Z by lia. rewrite (bpow_add (-53)).
    apply Rmult_le_compat_l; lra. }
  assert (Hpos : 0 < bpow (d - 1 + ex)) by apply bpow_pos.
  unfold fexp, emin. split.
  - destruct (Z.max_spec (d + ex - 53) (3 - 1024 - 53)) as [[Hm ->]|[Hm ->]].
    + change (3 - 1024 - 53 - 1)%Z with (-1075)%Z. assert (0 <= bpow (-53) * (IZR (Z.pos mx) * bpow ex)); [|lra].
      apply Rmult_le_pos; lra.
    + lra.
  - destruct (Z.max_spec (d + ex - 53) (3 - 1024 - 53)) as [[Hm ->]|[Hm ->]]; [intros H; contradiction H; reflexivity|].
    intros _. exact Hn.
Qed.

Lemma magnitude : forall mx ex b, IZR (Z.pos mx) * bpow ex < bpow b -> (Z.pos (digits2_pos mx) + ex <= b)%Z.
Proof.
  intros mx ex b H. assert (Hb := digits_bounds mx).
  assert (Hl : (Z.pos (digits2_pos mx) - 1 + ex < b)%Z); [|lia].
  apply bpow_lt_inv. apply Rle_lt_trans with (2 := H). rewrite bpow_add.
  apply Rmult_le_compat_r; [assert (Hp := bpow_pos ex); lra|]. rewrite bpow_IZR by lia. apply IZR_le. lia.
Qed.

Lemma fval_finite : forall s m e, fval (S754_finite s m e) = sgn s * (IZR (Z.pos m) * bpow e).
Proof. reflexivity. Qed.

Lemma fmul_any : forall x y, canon x -> canon y -> Rabs (fval x * fval y) < bpow 1023 ->
  canon (fmul x y) /\ Rabs (fval (fmul x y) - fval x * fval y) <= unit_roundoff * Rabs (fval x * fval y) + tiny /\
  (forall z, fval x * fval y = IZR z -> (Z.abs z < 2 ^ 53)%Z -> fval (fmul x y) = fval x * fval y).
Proof.
  assert (Ht : 0 < tiny) by apply bpow_pos. assert (Hu : 0 < unit_roundoff) by apply bpow_pos.
  assert (HZ : forall v, v = 0 -> Rabs (0 - v) <= unit_roundoff * Rabs v + tiny /\
            (forall z, v = IZR z -> (Z.abs z < 2 ^ 53)%Z -> 0 = v)).
  { intros v ->. split; [|reflexivity]. rewrite Rminus_0_r, Rabs_R0. lra. }
  intros [sx|sx| |sx mx ex] [sy|sy| |sy my ey] Cx Cy Hhi; try contradiction;
    try (split; [exact I|]; apply HZ; cbn [fval]; ring).
  rewrite !fval_finite in *.
  set (P := IZR (Z.pos (mx * my)) * bpow (ex + ey)).
  assert (HP : sgn sx * (IZR (Z.pos mx) * bpow ex) * (sgn sy * (IZR (Z.pos my) * bpow ey)) = sgn (xorb sx sy) * P).
  { unfold P. rewrite sgn_xorb, Pos2Z.inj_mul, mult_IZR, bpow_add. ring. }
  assert (HP0 : 0 < P).
  { unfold P. apply Rmult_lt_0_compat; [apply IZR_lt; lia | apply bpow_pos]. }
  rewrite HP in *. rewrite Rabs_mult, sgn_abs, Rmult_1_l, Rabs_pos_eq in Hhi by lra.
  unfold fmul, SFmul.
  assert (Hm := magnitude _ _ _ Hhi).
  destruct Cx as (Dx & Ex & Qx), Cy as (Dy & Ey & Qy).
  assert (Hex : (ex + ey <= fexp 53 1024 (Z.pos (digits2_pos (mx * my)) + (ex + ey)))%Z).
  { unfold fexp, emin.
    destruct (Z_le_gt_dec 53 (Z.pos (digits2_pos (mx * my)))) as [Hd|Hd]; [lia|].
    assert (Hbx := digits_bounds mx). assert (Hby := digits_bounds my). assert (Hbz := digits_bounds (mx * my)).
    assert (Hs : (Z.pos (mx * my) < 2 ^ 52)%Z).
    { apply Z.lt_le_trans with (1 := proj2 Hbz). apply Z.pow_le_mono_r; lia. }
    rewrite Pos2Z.inj_mul in Hs.
    destruct Qx as [Qx|Qx].
    { rewrite Qx in Hbx. change (2 ^ (53 - 1))%Z with (2 ^ 52)%Z in Hbx. nia. }
    destruct Qy as [Qy|Qy].
    { rewrite Qy in Hby. change (2 ^ (53 - 1))%Z with (2 ^ 52)%Z in Hby. nia. }
    lia. }
  destruct (round_any (xorb sx sy) (mx * my) (ex + ey) Hex Hm) as (R1 & R2 & R3).
  split; [exact R1|]. split.
  - apply Rle_trans with (1 := R2).
    rewrite Rabs_mult, sgn_abs, Rmult_1_l, Rabs_pos_eq by lra.
    apply half_step_bound.
  - intros z Hz Hlt. set (f := fexp 53 1024 (Z.pos (digits2_pos (mx * my)) + (ex + ey))) in *.
    assert (Hz' : P = IZR (Z.abs z)).
    { rewrite abs_IZR, <- Hz, Rabs_mult, sgn_abs, Rmult_1_l, Rabs_pos_eq by lra. reflexivity. }
    apply (R3 (Z.abs z * 2 ^ (- f))%Z). fold P. rewrite Hz'.
    assert (Hf : (f <= 0)%Z).
    { unfold f, fexp, emin. enough (Z.pos (digits2_pos (mx * my)) + (ex + ey) <= 53)%Z by lia.
      apply magnitude. fold P. rewrite Hz', bpow_IZR by lia. apply IZR_lt. lia. }
    rewrite mult_IZR, <- bpow_IZR by lia. rewrite Rmult_assoc, <- bpow_add. replace (- f + f)%Z with 0%Z by lia.
    rewrite bpow_0. lra.
Qed.

(** Additions commit no error in the subnormal range. *)
Lemma round_sum : forall sx mx ex, (-1074 <= ex)%Z -> IZR (Z.pos mx) * bpow ex < bpow 1023 ->
  let r := binary_round 53 1024 sx mx ex in
  canon r /\ Rabs (fval r - sgn sx * (IZR (Z.pos mx) * bpow ex)) <= unit_roundoff * (IZR (Z.pos mx) * bpow ex) /\
  (forall z, IZR (Z.pos mx) * bpow ex = IZR z -> (Z.abs z < 2 ^ 53)%Z -> fval r = sgn sx * IZR z).
Proof.
  intros sx mx ex Hlo Hhi. cbv zeta. unfold binary_round, shl_align.
  set (d := Z.pos (digits2_pos mx)). set (f := fexp 53 1024 (d + ex)).
  assert (Hm := magnitude _ _ _ Hhi). fold d in Hm.
  assert (Hcase : exists mz ez, (match (f - ex)%Z with Z.neg k => (shift_pos k mx, f) | _ => (mx, ex) end) = (mz, ez) /\
     (ez <= f)%Z /\ (f = -1074 -> ez = f)%Z /\ (Z.pos (digits2_pos mz) + ez = d + ex)%Z /\
     IZR (Z.pos mz) * bpow ez = IZR (Z.pos mx) * bpow ex).
  { destruct (f - ex)%Z as [|k|k] eqn:Hk.
    - exists mx, ex. repeat split; lia.
    - exists mx, ex. repeat split; lia.
    - exists (shift_pos k mx), f. split; [reflexivity|]. split; [lia|]. split; [reflexivity|].
      change (shift_pos k mx) with (Pos.iter xO mx k). rewrite digits_shift. split; [unfold d; lia|].
      assert (Hi : Z.pos (Pos.iter xO mx k) = (Z.pos mx * 2 ^ Z.pos k)%Z).
      { rewrite <- Pos2Z.inj_pow, <- Pos2Z.inj_mul. f_equal.
        clear. induction k using Pos.peano_ind; [cbn; lia|].
        rewrite Pos.iter_succ, IHk, Pos.pow_succ_r. lia. }
      rewrite Hi, mult_IZR, <- bpow_IZR by lia. rewrite Rmult_assoc, <- bpow_add. do 2 f_equal. lia. }
  destruct Hcase as (mz & ez & Hq & Hez & Hsub & Hdig & Hval). rewrite Hq.
  destruct (round_any sx mz ez) as (R1 & R2 & R3); [rewrite Hdig; exact Hez|lia|].
  rewrite Hdig in *. fold f in R3. rewrite Hval in *. split; [exact R1|]. split.
  2: { intros z Hz Hlt. rewrite (R3 (z * 2 ^ (- f))%Z), Hz; [reflexivity|].
    assert (Hf : (f <= 0)%Z).
    { unfold f, fexp, emin. enough (d + ex <= 53)%Z by lia. apply magnitude. rewrite Hz, bpow_IZR by lia. apply IZR_lt. lia. }
    rewrite mult_IZR, <- bpow_IZR by lia. rewrite Rmult_assoc, <- bpow_add. replace (- f + f)%Z with 0%Z by lia.
    rewrite bpow_0. lra. }
  destruct (Z.eq_dec f (-1074)) as [Hf|Hf].
  - rewrite (R3 (Z.pos mz)) by (rewrite <- Hval, (Hsub Hf); reflexivity). rewrite Rminus_diag_eq by reflexivity. rewrite Rabs_R0.
    apply Rmult_le_pos; [apply Rlt_le, bpow_pos|]. apply Rmult_le_pos; [apply IZR_le; lia|apply Rlt_le, bpow_pos].
  - apply Rle_trans with (1 := R2). apply half_step_bound. exact Hf.
Qed.

Lemma shl_align_val : forall m e ez, (ez <= e)%Z ->
  IZR (Z.pos (fst (shl_align m e ez))) * bpow ez = IZR (Z.pos m) * bpow e.
Proof.
  intros m e ez H. unfold shl_align. destruct (ez - e)%Z as [|k|k] eqn:Hk; [|lia|].
  - cbn [fst]. do 2 f_equal. lia.
  - cbn [fst]. change (shift_pos k m) with (Pos.iter xO m k).
    assert (Hi : Z.pos (Pos.iter xO m k) = (Z.pos m * 2 ^ Z.pos k)%Z).
    { rewrite <- Pos2Z.inj_pow, <- Pos2Z.inj_mul. f_equal.
      clear. induction k using Pos.peano_ind; [cbn; lia|].
      rewrite Pos.iter_succ, IHk, Pos.pow_succ_r. lia. }
    rewrite Hi, mult_IZR, <- bpow_IZR by lia. rewrite Rmult_assoc, <- bpow_add. do 2 f_equal. lia.
Qed.

Lemma fadd_any : forall x y, canon x -> canon y -> Rabs (fval x + fval y) < bpow 1023 ->
  canon (fadd x y) /\ Rabs (fval (fadd x y) - (fval x + fval y)) <= unit_roundoff * Rabs (fval x + fval y) /\
  (forall z, fval x + fval y = IZR z -> (Z.abs z < 2 ^ 53)%Z -> fval (fadd x y) = fval x + fval y).
Proof.
  assert (Hu : 0 < unit_roundoff) by apply bpow_pos.
  assert (HE : forall v w, v = w -> Rabs (v - w) <= unit_roundoff * Rabs w /\
            (forall z, w = IZR z -> (Z.abs z < 2 ^ 53)%Z -> v = w)).
  { intros v w ->. split; [|reflexivity]. rewrite Rminus_diag_eq by reflexivity. rewrite Rabs_R0. apply Rmult_le_pos; [lra|apply Rabs_pos]. }
  intros [sx|sx| |sx mx ex] [sy|sy| |sy my ey] Cx Cy Hhi; try contradiction.
  - unfold fadd, SFadd. destruct (Bool.eqb sx sy); (split; [exact I|]; apply HE; cbn [fval]; ring).
  - split; [exact Cy|]. apply HE. cbn [fadd SFadd]. unfold fadd, SFadd. cbn [fval]. ring.
  - split; [exact Cx|]. apply HE. unfold fadd, SFadd. cbn [fval]. ring.
  - unfold fadd, SFadd.
    set (ez := Z.min ex ey).
    set (z := (cond_Zopp sx (Z.pos (fst (shl_align mx ex ez))) + cond_Zopp sy (Z.pos (fst (shl_align my ey ez))))%Z).
    assert (Hz : IZR z * bpow ez = fval (S754_finite sx mx ex) + fval (S754_finite sy my ey)).
    { rewrite !fval_finite. rewrite <- (shl_align_val mx ex ez), <- (shl_align_val my ey ez) by (unfold ez; lia).
      unfold z. rewrite plus_IZR, Rmult_plus_distr_r.
      assert (Hc : forall s p, IZR (cond_Zopp s (Z.pos p)) = sgn s * IZR (Z.pos p)).
      { intros [] p; unfold cond_Zopp, sgn; [rewrite opp_IZR|]; ring. }
      rewrite !Hc. ring. }
    rewrite <- Hz in *. destruct Cx as (_ & Ex & _), Cy as (_ & Ey & _).
    assert (Hez : (-1074 <= ez)%Z) by (unfold ez; lia).
    assert (Hbp := bpow_pos ez).
    unfold binary_normalize. destruct z as [|p|p].
    + split; [exact I|]. apply HE. cbn [fval]. ring.
    + rewrite Rabs_pos_eq in Hhi by (apply Rmult_le_pos; [apply IZR_le; lia|lra]).
      destruct (round_sum false p ez Hez Hhi) as (R1 & R2 & R3). split; [exact R1|].
      unfold sgn in R2, R3. rewrite Rmult_1_l in R2. split; [|intros z Hq Hlt; rewrite (R3 z Hq Hlt); lra]. rewrite (Rabs_pos_eq (IZR (Z.pos p) * bpow ez)); [exact R2|].
      apply Rmult_le_pos; [apply IZR_le; lia|lra].
    + assert (Hneg : IZR (Z.neg p) * bpow ez = - (IZR (Z.pos p) * bpow ez)).
      { change (Z.neg p) with (- Z.pos p)%Z. rewrite opp_IZR. ring. }
      rewrite Hneg, Rabs_Ropp in *.
      rewrite Rabs_pos_eq in Hhi by (apply Rmult_le_pos; [apply IZR_le; lia|lra]).
      destruct (round_sum true p ez Hez Hhi) as (R1 & R2 & R3). split; [exact R1|].
      unfold sgn in R2, R3. split; [|intros z Hq Hlt; rewrite (R3 (- z)%Z); [rewrite opp_IZR; lra|rewrite opp_IZR; lra|lia]]. replace (-1 * (IZR (Z.pos p) * bpow ez)) with (- (IZR (Z.pos p) * bpow ez)) in R2 by ring.
      rewrite (Rabs_pos_eq (IZR (Z.pos p) * bpow ez)); [exact R2|].
      apply Rmult_le_pos; [apply IZR_le; lia|lra].
Qed.

Lemma fsub_fadd : forall x y, fsub x y = fadd x (fopp y).
Proof.
  intros [sx|sx| |sx mx ex] [sy|sy| |sy my ey]; try reflexivity.
  unfold fsub, fadd, SFsub, SFadd, fopp, SFopp. cbv zeta.
  replace (cond_Zopp (negb sy) (Z.pos (fst (shl_align my ey (Z.min ex ey)))))
    with (- cond_Zopp sy (Z.pos (fst (shl_align my ey (Z.min ex ey)))))%Z; [reflexivity|].
  destruct sy; unfold cond_Zopp, negb; lia.
Qed.

Lemma canon_opp : forall x, canon x -> canon (fopp x).
Proof. intros [s|s| |s m e] H; exact H. Qed.

Lemma fval_opp : forall x, fval (fopp x) = - fval x.
Proof. intros [s|s| |s m e]; cbn; try ring. destruct s; cbn; ring. Qed.

Lemma canon_abs : forall x, canon x -> canon (fabs x).
Proof. intros [s|s| |s m e] H; exact H. Qed.

Lemma fval_abs : forall x, fval (fabs x) = Rabs (fval x).
Proof.
  assert (H0 : Rabs 0 = 0) by apply Rabs_R0.
  intros [s|s| |s m e]; cbn; try (symmetry; exact H0).
  assert (H : 0 <= IZR (Z.pos m) * bpow e).
  { apply Rmult_le_pos; [apply IZR_le; lia | apply Rlt_le, bpow_pos]. }
  rewrite Rabs_mult, (Rabs_pos_eq (IZR (Z.pos m) * bpow e)) by exact H. f_equal.
  destruct s; [rewrite Rabs_left by lra|rewrite Rabs_pos_eq by lra]; ring.
Qed.

Lemma fsub_any : forall x y, canon x -> canon y -> Rabs (fval x - fval y) < bpow 1023 ->
  canon (fsub x y) /\ Rabs (fval (fsub x y) - (fval x - fval y)) <= unit_roundoff * Rabs (fval x - fval y) /\
  (forall z, fval x - fval y = IZR z -> (Z.abs z < 2 ^ 53)%Z -> fval (fsub x y) = fval x - fval y).
Proof.
  intros x y Cx Cy H. rewrite fsub_fadd.
  assert (Hq : fval x + fval (fopp y) = fval x - fval y) by (rewrite fval_opp; ring).
  rewrite <- Hq in *. exact (fadd_any x (fopp y) Cx (canon_opp _ Cy) H).
Qed.

(** Square roots of subnormal numbers are normal. *)
Lemma fsqrt_any : forall x, canon x -> 0 < fval x ->
  normal (fsqrt x) /\ Rabs (fval (fsqrt x) - sqrt (fval x)) <= bpow (-53) * sqrt (fval x).
Proof.
  intros [ | | | s m e] N Hpos; try contradiction; [cbn in Hpos; lra|].
  assert (Hm0 : 0 < IZR (Z.pos m)) by (apply IZR_lt; lia). assert (Hbe := bpow_pos e).
  assert (s = false) as ->.
  { destruct s; [| reflexivity]. cbn [fval] in Hpos. nra. }
  destruct N as (D' & He & _). assert (D := digits_bounds m). set (d := Z.pos (digits2_pos m)) in *.
  assert (Hd1 : (1 <= d)%Z) by (unfold d; lia).
  cbn [fval] in *. rewrite Rmult_1_l in *.
  set (h := Z.div2 e). set (k := Z.div2 (d + e + 1)). set (e' := (k - 53)%Z). set (s := (e - 2 * e')%Z).
  assert (Hh : (e = 2 * h \/ e = 2 * h + 1)%Z).
  { unfold h. assert (H := Z.div2_odd e). destruct (Z.odd e); unfold Z.b2z in H; lia. }
  assert (Hk : (d + e + 1 = 2 * k \/ d + e + 1 = 2 * k + 1)%Z).
  { unfold k. assert (H := Z.div2_odd (d + e + 1)). destruct (Z.odd (d + e + 1)); unfold Z.b2z in H; lia. }
  assert (Hs : (s = 105 - d \/ s = 106 - d)%Z) by (unfold s, e'; lia).
  set (m' := (Z.pos m * 2 ^ s)%Z).
  assert (Hm' : (2 ^ 104 <= m' < 2 ^ 106)%Z).
  { assert (Hp : (0 < 2 ^ s)%Z) by (apply Z.pow_pos_nonneg; lia).
    assert (Hl : (2 ^ 104 <= 2 ^ (d - 1) * 2 ^ s)%Z).
    { rewrite <- Z.pow_add_r by lia. apply Z.pow_le_mono_r; lia. }
    assert (Hr : (2 ^ d * 2 ^ s <= 2 ^ 106)%Z).
    { rewrite <- Z.pow_add_r by lia. apply Z.pow_le_mono_r; lia. }
    unfold m'. split.
    - apply Z.le_trans with (1 := Hl). apply Z.mul_le_mono_nonneg_r; lia.
    - apply Z.lt_le_trans with (2 := Hr). apply Z.mul_lt_mono_pos_r; lia. }
  unfold fsqrt, SFsqrt, SFsqrt_core_binary. cbn [Zdigits2].
  fold d. fold k. fold h.
  replace (Z.min (fexp 53 1024 k) h) with e' by (unfold fexp, emin, e'; lia).
  fold s.
  assert (Hmatch : match s with Z0 => Z.pos m | Z.pos _ => Z.shiftl (Z.pos m) s | Z.neg _ => 0%Z end = m').
  { unfold m'. rewrite <- Z.shiftl_mul_pow2 by lia. destruct s; try lia; reflexivity. }
  cbv zeta. rewrite Hmatch.
  assert (Hsp := Z.sqrtrem_spec m' ltac:(lia)). destruct (Z.sqrtrem m') as [q r]. destruct Hsp as [Hq Hr].
  assert (Hq52 : (2 ^ 52 <= q)%Z) by nia.
  destruct q as [|q|q]; [lia | | lia].
  set (y := sqrt (IZR m')).
  assert (Hm'R : 0 < IZR m') by (apply IZR_lt; lia).
  assert (Hyy : y * y = IZR m') by (apply sqrt_sqrt; lra).
  assert (Hy0 : 0 < y) by (apply sqrt_lt_R0; exact Hm'R).
  assert (Hx : IZR (Z.pos m) * bpow e = IZR m' * (bpow e' * bpow e')).
  { unfold m'. rewrite mult_IZR, <- (bpow_IZR s) by lia. rewrite <- bpow_add, Rmult_assoc, <- bpow_add. do 2 f_equal. unfold s. lia. }
  assert (Hsx : sqrt (IZR (Z.pos m) * bpow e) = y * bpow e').
  { rewrite Hx. rewrite sqrt_mult_alt by lra. f_equal. assert (Hp := bpow_pos e'). apply sqrt_square. lra. }
  rewrite Hsx.
  assert (HqR : IZR (Z.pos q) * IZR (Z.pos q) + IZR r = y * y) by (rewrite Hyy, Hq, plus_IZR, mult_IZR; reflexivity).
  assert (Hq0 : 0 < IZR (Z.pos q)) by (apply IZR_lt; lia).
  assert (Hr0 : 0 <= IZR r) by (apply IZR_le; lia).
  assert (Hr1 : IZR r <= 2 * IZR (Z.pos q)) by (rewrite <- mult_IZR; apply IZR_le; lia).
  set (l := if Zeq_bool r 0 then loc_Exact else loc_Inexact (if (r <=? Z.pos q)%Z then Lt else Gt)).
  assert (Hloc : located (Z.pos q) l y).
  { unfold located, l, rep. destruct (Zeq_bool r 0) eqn:E0.
    - apply Zeq_bool_eq in E0. cbn. rewrite E0 in HqR. nra.
    - apply Zeq_bool_neq in E0. assert (Hrp : 0 < IZR r) by (apply IZR_lt; lia).
      destruct (Z.leb_spec r (Z.pos q)) as [Hle | Hgt]; cbn [shr_record_of_loc shr_m shr_r shr_s].
      + apply IZR_le in Hle. split; nra.
      + assert (Hg : IZR (Z.pos q) + 1 <= IZR r) by (rewrite <- plus_IZR; apply IZR_le; lia). split; nra. }
  assert (Hyl : bpow 52 <= y).
  { rewrite bpow_IZR by lia. assert (IZR (2 ^ 104) <= y * y) by (rewrite Hyy; apply IZR_le; lia).
    assert (IZR (2 ^ 104) = IZR (2 ^ 52) * IZR (2 ^ 52)) by (rewrite <- mult_IZR; reflexivity).
    assert (0 < IZR (2 ^ 52)) by (apply IZR_lt; lia). nra. }
  assert (Hyh : y < bpow 53).
  { rewrite bpow_IZR by lia. assert (y * y < IZR (2 ^ 106)) by (rewrite Hyy; apply IZR_lt; lia).
    assert (IZR (2 ^ 106) = IZR (2 ^ 53) * IZR (2 ^ 53)) by (rewrite <- mult_IZR; reflexivity).
    assert (0 < IZR (2 ^ 53)) by (apply IZR_lt; lia). nra. }
  destruct (range_core false q e' l y Hloc Hq52) as (m2 & e2 & E1 & E2 & E3).
  - apply Rle_trans with (bpow 52 * bpow e').
    + rewrite <- bpow_add. apply bpow_le. unfold e'. lia.
    + apply Rmult_le_compat_r; [assert (Hp := bpow_pos e'); lra | exact Hyl].
  - apply Rlt_le_trans with (bpow 53 * bpow e').
    + apply Rmult_lt_compat_r; [apply bpow_pos | exact Hyh].
    + rewrite <- bpow_add. apply bpow_le. unfold e'. lia.
  - rewrite E1. split; [exact E2 |]. cbn [fval]. rewrite Rmult_1_l. exact E3.
Qed.
