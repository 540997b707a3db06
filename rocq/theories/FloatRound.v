(** Rounding errors of SpecFloat multiplication, division and square root on normal numbers. *)
From Coq Require Import ZArith Bool List Lia Lra Reals Floats.SpecFloat.
From Verif Require Import FloatModel SpecFloats SpecFloatVal FloatProps.
Local Open Scope R_scope.

(** ** Powers of two and digits *)
Lemma bpow_pos : forall e, 0 < bpow e.
Proof. intros e. apply powerRZ_lt. lra. Qed.

Lemma bpow_add : forall a b, bpow (a + b) = bpow a * bpow b.
Proof. intros a b. apply powerRZ_add. lra. Qed.

Lemma bpow_0 : bpow 0 = 1.
Proof. reflexivity. Qed.

Lemma bpow_neg : forall e, bpow (- e) = / bpow e.
Proof.
  intros e. assert (H := bpow_add e (- e)). rewrite Z.add_opp_diag_r, bpow_0 in H. assert (Hp := bpow_pos e).
  apply (Rmult_eq_reg_l (bpow e)); [| lra]. rewrite <- H, Rinv_r by lra. reflexivity.
Qed.

Lemma bpow_IZR : forall e, (0 <= e)%Z -> bpow e = IZR (2 ^ e).
Proof.
  intros e He. rewrite <- (Z2Nat.id e He). generalize (Z.to_nat e) as n. intros n.
  unfold bpow. rewrite <- pow_powerRZ. rewrite <- pow_IZR. reflexivity.
Qed.

Lemma bpow_le : forall a b, (a <= b)%Z -> bpow a <= bpow b.
Proof.
  intros a b H. replace b with (a + (b - a))%Z by lia. rewrite bpow_add.
  assert (H1 : 1 <= bpow (b - a)).
  { rewrite bpow_IZR by lia. apply IZR_le. assert (0 < 2 ^ (b - a))%Z by (apply Z.pow_pos_nonneg; lia). lia. }
  assert (Hp := bpow_pos a). nra.
Qed.

Lemma bpow_lt_inv : forall a b, bpow a < bpow b -> (a < b)%Z.
Proof.
  intros a b H. destruct (Z_lt_le_dec a b) as [Hl | Hl]; [exact Hl |]. apply bpow_le in Hl. lra.
Qed.

Lemma digits_bounds : forall m, (2 ^ (Z.pos (digits2_pos m) - 1) <= Z.pos m < 2 ^ Z.pos (digits2_pos m))%Z.
Proof.
  assert (H : forall p, (2 ^ (Z.pos (Pos.succ p) - 1) = 2 * 2 ^ (Z.pos p - 1) /\ 2 ^ Z.pos (Pos.succ p) = 2 * 2 ^ Z.pos p)%Z).
  { intros p. rewrite Pos2Z.inj_succ. split.
    - replace (Z.succ (Z.pos p) - 1)%Z with (Z.succ (Z.pos p - 1)) by lia. apply Z.pow_succ_r. lia.
    - apply Z.pow_succ_r. lia. }
  induction m as [m IH|m IH|]; cbn [digits2_pos].
  - destruct (H (digits2_pos m)) as [-> ->]. lia.
  - destruct (H (digits2_pos m)) as [-> ->]. lia.
  - cbn. lia.
Qed.

Lemma digits_unique : forall m d, (0 < d)%Z -> (2 ^ (d - 1) <= Z.pos m < 2 ^ d)%Z -> Z.pos (digits2_pos m) = d.
Proof.
  intros m d Hd H. assert (Hb := digits_bounds m).
  destruct (Z.lt_trichotomy (Z.pos (digits2_pos m)) d) as [Hl | [He | Hl]]; [| exact He |].
  - assert (2 ^ Z.pos (digits2_pos m) <= 2 ^ (d - 1))%Z by (apply Z.pow_le_mono_r; lia). lia.
  - assert (2 ^ d <= 2 ^ (Z.pos (digits2_pos m) - 1))%Z by (apply Z.pow_le_mono_r; lia). lia.
Qed.

(** ** Shifting out digits *)

(** [y] lies in the place described by the record: integer part, and how the fraction compares to 1/2. *)
Definition rep (r : shr_record) (y : R) : Prop :=
  let f := y - IZR (shr_m r) in
  match shr_r r, shr_s r with
  | false, false => f = 0
  | false, true => 0 < f < 1/2
  | true, false => f = 1/2
  | true, true => 1/2 < f < 1
  end.

Lemma rep_shr_1 : forall r y, (0 <= shr_m r)%Z -> rep r y -> rep (shr_1 r) (y / 2).
Proof.
  intros [m r s] y Hm H. cbn [shr_m] in Hm. unfold rep in *. cbn [shr_m shr_r shr_s] in H.
  destruct m as [|[p|p|]|p]; [| | | | lia].
  all: cbn [shr_1 shr_m shr_r shr_s].
  - destruct r, s; cbn [orb]; lra.
  - rewrite (Pos2Z.inj_xI p), plus_IZR, mult_IZR in H. destruct r, s; cbn [orb]; lra.
  - rewrite (Pos2Z.inj_xO p), mult_IZR in H. destruct r, s; cbn [orb]; lra.
  - destruct r, s; cbn [orb]; lra.
Qed.

Lemma rep_iter : forall p r y, (0 <= shr_m r)%Z -> rep r y -> rep (iter_pos shr_1 p r) (y / bpow (Z.pos p)).
Proof.
  induction p as [p IH|p IH|]; intros r y Hm H; cbn [iter_pos].
  - replace (y / bpow (Z.pos p~1)) with (y / 2 / bpow (Z.pos p) / bpow (Z.pos p)).
    2:{ rewrite (Pos2Z.inj_xI p). replace (2 * Z.pos p + 1)%Z with (1 + (Z.pos p + Z.pos p))%Z by lia.
        rewrite !bpow_add. change (bpow 1) with (2 * 1). assert (Hp := bpow_pos (Z.pos p)). field. lra. }
    assert (H1 : (0 <= shr_m (shr_1 r))%Z) by (exact (iter_nonneg 1 r Hm)).
    apply IH; [apply iter_nonneg; exact H1 |]. apply IH; [exact H1 |]. apply rep_shr_1; assumption.
  - replace (y / bpow (Z.pos p~0)) with (y / bpow (Z.pos p) / bpow (Z.pos p)).
    2:{ rewrite (Pos2Z.inj_xO p). replace (2 * Z.pos p)%Z with (Z.pos p + Z.pos p)%Z by lia.
        rewrite !bpow_add. assert (Hp := bpow_pos (Z.pos p)). field. lra. }
    apply IH; [apply iter_nonneg; exact Hm |]. apply IH; assumption.
  - change (bpow 1) with (2 * 1). rewrite Rmult_1_r. apply rep_shr_1; assumption.
Qed.

Lemma rep_floor : forall r y, rep r y -> IZR (shr_m r) <= y < IZR (shr_m r) + 1.
Proof. intros [m [] []] y H; unfold rep in H; cbn in *; lra. Qed.

(** Rounding to nearest even: within half a unit. *)
Lemma rep_round : forall r y, rep r y ->
  Rabs (IZR (round_nearest_even (shr_m r) (loc_of_shr_record r)) - y) <= 1/2.
Proof.
  intros [m r s] y H. unfold rep in H. cbn [shr_m shr_r shr_s] in H.
  destruct r, s; cbn [loc_of_shr_record round_nearest_even shr_m].
  - rewrite plus_IZR. apply Rabs_le. lra.
  - destruct (Z.even m); [| rewrite plus_IZR]; apply Rabs_le; lra.
  - apply Rabs_le. lra.
  - apply Rabs_le. lra.
Qed.

(** The location [l] describes where [y] lies above the integer [m]. *)
Definition located (m : Z) (l : location) (y : R) : Prop := rep (shr_record_of_loc m l) y.

Lemma rec_of_loc_m : forall m l, shr_m (shr_record_of_loc m l) = m.
Proof. intros m [|[| |]]; reflexivity. Qed.

(** ** The rounding function *)
Lemma round_core : forall sx mx ex lx y,
  located (Z.pos mx) lx y ->
  let d := Z.pos (digits2_pos mx) in
  (53 <= d)%Z -> (-1021 <= d + ex)%Z -> (d + ex <= 1023)%Z ->
  exists m e, binary_round_aux 53 1024 sx (Z.pos mx) ex lx = S754_finite sx m e /\
    digits2_pos m = 53%positive /\ (-1074 <= e <= 971)%Z /\
    Rabs (IZR (Z.pos m) * bpow e - y * bpow ex) <= bpow (-53) * (y * bpow ex).
Proof.
  intros sx mx ex lx y Hy d Hd Hlo Hhi.
  set (e1 := (d + ex - 53)%Z).
  assert (Hf : fexp 53 1024 (d + ex) = e1).
  { unfold fexp, emin, e1. lia. }
  set (r0 := shr_record_of_loc (Z.pos mx) lx).
  assert (Hm0 : shr_m r0 = Z.pos mx) by apply rec_of_loc_m.
  (* the first shift *)
  assert (H1 : exists r1, shr_fexp 53 1024 (Z.pos mx) ex lx = (r1, e1) /\ (0 <= shr_m r1)%Z /\
                          rep r1 (y / bpow (e1 - ex))).
  { unfold shr_fexp. cbn [Zdigits2]. fold d. rewrite Hf. fold r0.
    assert (He : (0 <= e1 - ex)%Z) by (unfold e1; lia).
    destruct (e1 - ex)%Z as [|p|p] eqn:Hn; [| | lia].
    - exists r0. cbn [shr]. split; [f_equal; lia |]. split; [lia |]. rewrite bpow_0. unfold Rdiv. rewrite Rinv_1, Rmult_1_r. exact Hy.
    - exists (iter_pos shr_1 p r0). cbn [shr]. split; [f_equal; lia |]. split; [apply iter_nonneg; lia |].
      apply rep_iter; [lia | exact Hy]. }
  destruct H1 as (r1 & Hs1 & Hr1 & Hrep).
  set (y1 := y / bpow (e1 - ex)) in *.
  assert (Hyy : y * bpow ex = y1 * bpow e1).
  { unfold y1. replace (bpow ex) with (bpow e1 / bpow (e1 - ex)).
    - assert (Hp := bpow_pos (e1 - ex)). field. lra.
    - assert (Hp := bpow_pos (e1 - ex)). replace e1 with (ex + (e1 - ex))%Z at 1 by lia. rewrite bpow_add. field. lra. }
  (* y1 has 53 digits before the point *)
  assert (Hb := digits_bounds mx). fold d in Hb.
  assert (Hfl := rep_floor _ _ Hy). unfold located in Hfl. rewrite rec_of_loc_m in Hfl.
  assert (Hylo : bpow (d - 1) <= y).
  { rewrite bpow_IZR by lia. apply Rle_trans with (IZR (Z.pos mx)); [apply IZR_le; lia | lra]. }
  assert (Hyhi : y < bpow d).
  { rewrite bpow_IZR by lia. apply Rlt_le_trans with (IZR (Z.pos mx) + 1); [lra |]. rewrite <- plus_IZR. apply IZR_le. lia. }
  assert (Hy1lo : IZR (2 ^ 52) <= y1).
  { change (2 ^ 52)%Z with (2 ^ (52))%Z. rewrite <- (bpow_IZR 52) by lia.
    apply (Rmult_le_reg_r (bpow e1)); [apply bpow_pos |]. rewrite <- Hyy, <- bpow_add.
    replace (52 + e1)%Z with ((d - 1) + ex)%Z by (unfold e1; lia). rewrite bpow_add.
    apply Rmult_le_compat_r; [assert (Hp := bpow_pos ex); lra | exact Hylo]. }
  assert (Hy1hi : y1 < IZR (2 ^ 53)).
  { rewrite <- (bpow_IZR 53) by lia.
    apply (Rmult_lt_reg_r (bpow e1)); [apply bpow_pos |]. rewrite <- Hyy, <- bpow_add.
    replace (53 + e1)%Z with (d + ex)%Z by (unfold e1; lia). rewrite bpow_add.
    apply Rmult_lt_compat_r; [apply bpow_pos | exact Hyhi]. }
  set (m2 := round_nearest_even (shr_m r1) (loc_of_shr_record r1)).
  assert (Hround : Rabs (IZR m2 - y1) <= 1/2) by (apply rep_round; exact Hrep).
  assert (Hm2 : (2 ^ 52 <= m2 <= 2 ^ 53)%Z).
  { assert (Hfl1 := rep_floor _ _ Hrep).
    assert (2 ^ 52 <= shr_m r1)%Z.
    { assert (2 ^ 52 < shr_m r1 + 1)%Z; [| lia]. apply lt_IZR. rewrite plus_IZR. lra. }
    assert (shr_m r1 < 2 ^ 53)%Z by (apply lt_IZR; lra).
    unfold m2, round_nearest_even. destruct (loc_of_shr_record r1) as [|[| |]]; try lia.
    destruct (Z.even (shr_m r1)); lia. }
  assert (Herr : Rabs (IZR m2 * bpow e1 - y * bpow ex) <= bpow (-53) * (y * bpow ex)).
  { rewrite Hyy. replace (IZR m2 * bpow e1 - y1 * bpow e1) with ((IZR m2 - y1) * bpow e1) by ring.
    assert (Hp := bpow_pos e1). rewrite Rabs_mult, (Rabs_pos_eq (bpow e1)) by lra.
    rewrite <- Rmult_assoc. apply Rmult_le_compat_r; [lra |].
    apply Rle_trans with (1/2); [exact Hround |].
    replace (1/2) with (bpow (-53) * IZR (2 ^ 52)).
    - apply Rmult_le_compat_l; [assert (Hq := bpow_pos (-53)); lra | exact Hy1lo].
    - rewrite <- (bpow_IZR 52), <- bpow_add by lia. change (bpow (-53 + 52)) with (/ (2 * 1)). field. }
  unfold binary_round_aux. rewrite Hs1. fold m2.
  destruct (Z.eq_dec m2 (2 ^ 53)) as [He | Hne].
  - (* carry into the next power of two *)
    exists (2 ^ 52)%positive, (e1 + 1)%Z. rewrite He.
    assert (Hs2 : shr_fexp 53 1024 (2 ^ 53) e1 loc_Exact = (Build_shr_record (Z.pos (2 ^ 52)) false false, (e1 + 1)%Z)).
    { unfold shr_fexp. change (Zdigits2 (2 ^ 53)) with 54%Z. replace (fexp 53 1024 (54 + e1) - e1)%Z with 1%Z by (unfold fexp, emin; lia).
      reflexivity. }
    rewrite Hs2. cbn [shr_m].
    replace (e1 + 1 <=? 1024 - 53)%Z with true by (symmetry; apply Z.leb_le; unfold e1; lia).
    split; [reflexivity |]. split; [reflexivity |]. split; [unfold e1; lia |].
    rewrite He in Herr. rewrite Z.add_comm, bpow_add. change (bpow 1) with (2 * 1).
    replace (IZR (Z.pos (2 ^ 52)) * (2 * 1 * bpow e1)) with (IZR (2 ^ 53) * bpow e1); [exact Herr |].
    change (IZR (2 ^ 53)) with (IZR (Z.pos (2 ^ 52) * 2)). rewrite mult_IZR. ring.
  - destruct m2 as [|m|m]; [lia | | lia].
    assert (Hdm : digits2_pos m = 53%positive).
    { apply Pos2Z.inj. apply digits_unique; [lia |]. change (2 ^ (53 - 1))%Z with (2 ^ 52)%Z. lia. }
    exists m, e1.
    assert (Hs2 : shr_fexp 53 1024 (Z.pos m) e1 loc_Exact = (Build_shr_record (Z.pos m) false false, e1)).
    { unfold shr_fexp. cbn [Zdigits2]. rewrite Hdm. replace (fexp 53 1024 (53 + e1) - e1)%Z with 0%Z by (unfold fexp, emin; lia).
      reflexivity. }
    rewrite Hs2. cbn [shr_m].
    replace (e1 <=? 1024 - 53)%Z with true by (symmetry; apply Z.leb_le; unfold e1; lia).
    split; [reflexivity |]. split; [exact Hdm |]. split; [unfold e1; lia | exact Herr].
Qed.

Definition sgn (b : bool) : R := if b then -1 else 1.
Lemma sgn_xorb : forall a b, sgn (xorb a b) = sgn a * sgn b.
Proof. intros [] []; cbn; lra. Qed.
Lemma sgn_abs : forall b, Rabs (sgn b) = 1.
Proof. intros []; unfold sgn; [rewrite Rabs_left by lra | rewrite Rabs_right by lra]; lra. Qed.

Lemma mant_bounds : forall m, digits2_pos m = 53%positive -> (2 ^ 52 <= Z.pos m < 2 ^ 53)%Z.
Proof. intros m H. assert (Hb := digits_bounds m). rewrite H in Hb. exact Hb. Qed.

(** From the magnitude of a real number to the conditions of [round_core]. *)
Lemma range_core : forall sx mx ex lx y, located (Z.pos mx) lx y -> (2 ^ 52 <= Z.pos mx)%Z ->
  bpow (-1021) <= y * bpow ex -> y * bpow ex < bpow 1022 ->
  exists m e, binary_round_aux 53 1024 sx (Z.pos mx) ex lx = S754_finite sx m e /\
    normal (S754_finite sx m e) /\
    Rabs (IZR (Z.pos m) * bpow e - y * bpow ex) <= bpow (-53) * (y * bpow ex).
Proof.
  intros sx mx ex lx y Hy Hm Hlo Hhi. assert (Hb := digits_bounds mx).
  assert (Hfl := rep_floor _ _ Hy). rewrite rec_of_loc_m in Hfl. assert (Hp := bpow_pos ex).
  assert (Hd : (53 <= Z.pos (digits2_pos mx))%Z).
  { destruct (Z_lt_le_dec (Z.pos (digits2_pos mx)) 53) as [Hl | Hl]; [| exact Hl].
    assert (2 ^ Z.pos (digits2_pos mx) <= 2 ^ 52)%Z by (apply Z.pow_le_mono_r; lia). lia. }
  assert (H1 : (-1021 < Z.pos (digits2_pos mx) + ex)%Z).
  { apply bpow_lt_inv. apply Rle_lt_trans with (1 := Hlo). rewrite bpow_add. apply Rmult_lt_compat_r; [exact Hp |].
    rewrite bpow_IZR by lia. apply Rlt_le_trans with (IZR (Z.pos mx) + 1); [lra |]. rewrite <- plus_IZR. apply IZR_le. lia. }
  assert (H2 : (Z.pos (digits2_pos mx) - 1 + ex < 1022)%Z).
  { apply bpow_lt_inv. apply Rle_lt_trans with (2 := Hhi). rewrite bpow_add. apply Rmult_le_compat_r; [lra |].
    rewrite bpow_IZR by lia. apply Rle_trans with (IZR (Z.pos mx)); [apply IZR_le; lia | lra]. }
  destruct (round_core sx mx ex lx y Hy) as (m & e & E1 & E2 & E3 & E4); try lia.
  exists m, e. split; [exact E1 |]. split; [split; assumption | exact E4].
Qed.

Lemma fmul_error : forall x y, normal x -> normal y ->
  bpow (-1021) <= Rabs (fval x * fval y) -> Rabs (fval x * fval y) < bpow 1022 ->
  normal (fmul x y) /\ Rabs (fval (fmul x y) - fval x * fval y) <= bpow (-53) * Rabs (fval x * fval y).
Proof.
  intros [ | | | sx mx ex] [ | | | sy my ey] Nx Ny Hlo Hhi; try contradiction.
  destruct Nx as [Dx _], Ny as [Dy _]. apply mant_bounds in Dx. apply mant_bounds in Dy.
  set (P := IZR (Z.pos (mx * my)) * bpow (ex + ey)).
  assert (HP : fval (S754_finite sx mx ex) * fval (S754_finite sy my ey) = sgn (xorb sx sy) * P).
  { unfold P. cbn [fval]. fold (sgn sx) (sgn sy). rewrite sgn_xorb, Pos2Z.inj_mul, mult_IZR, bpow_add. ring. }
  assert (HP0 : 0 < P).
  { unfold P. apply Rmult_lt_0_compat; [apply IZR_lt; lia | apply bpow_pos]. }
  rewrite HP in *. rewrite Rabs_mult, sgn_abs, Rmult_1_l, Rabs_pos_eq in * by lra.
  unfold fmul, SFmul.
  destruct (range_core (xorb sx sy) (mx * my) (ex + ey) loc_Exact (IZR (Z.pos (mx * my)))) as (m & e & E1 & E2 & E3).
  - unfold located, rep. cbn. lra.
  - rewrite Pos2Z.inj_mul. nia.
  - exact Hlo.
  - exact Hhi.
  - rewrite E1. split; [exact E2 |]. cbn [fval]. fold (sgn (xorb sx sy)). fold P in E3.
    replace (sgn (xorb sx sy) * (IZR (Z.pos m) * bpow e) - sgn (xorb sx sy) * P)
      with (sgn (xorb sx sy) * (IZR (Z.pos m) * bpow e - P)) by ring.
    rewrite !Rabs_mult, !sgn_abs, ?Rmult_1_l, ?(Rabs_pos_eq P) by lra. exact E3.
Qed.

Lemma new_location_located : forall q m r, (0 < m)%Z -> (0 <= r < m)%Z ->
  located q (new_location m r) (IZR q + IZR r / IZR m).
Proof.
  intros q m r Hm Hr. unfold located, new_location.
  assert (HmR : 0 < IZR m) by (apply IZR_lt; lia).
  assert (Hf : forall a b, (a < b)%Z -> IZR a < IZR b) by (intros; apply IZR_lt; assumption).
  assert (Hdiv : forall k, IZR r / IZR m < k <-> IZR r < k * IZR m).
  { intros k. split; intros H.
    - apply (Rmult_lt_compat_r (IZR m)) in H; [| exact HmR]. unfold Rdiv in H. rewrite Rmult_assoc, Rinv_l, Rmult_1_r in H by lra. exact H.
    - apply (Rmult_lt_reg_r (IZR m)); [exact HmR |]. unfold Rdiv. rewrite Rmult_assoc, Rinv_l, Rmult_1_r by lra. exact H. }
  assert (Hdiv2 : forall k, k < IZR r / IZR m <-> k * IZR m < IZR r).
  { intros k. split; intros H.
    - apply (Rmult_lt_compat_r (IZR m)) in H; [| exact HmR]. unfold Rdiv in H. rewrite Rmult_assoc, Rinv_l, Rmult_1_r in H by lra. exact H.
    - apply (Rmult_lt_reg_r (IZR m)); [exact HmR |]. unfold Rdiv. rewrite Rmult_assoc, Rinv_l, Rmult_1_r by lra. exact H. }
  assert (H1 : IZR r / IZR m < 1) by (apply Hdiv; rewrite Rmult_1_l; apply IZR_lt; lia).
  destruct (Z.eq_dec r 0) as [-> | Hr0].
  { destruct (Z.even m); cbn; unfold rep; cbn; lra. }
  assert (H0 : 0 < IZR r / IZR m) by (apply Hdiv2; rewrite Rmult_0_l; apply IZR_lt; lia).
  assert (Hz : Zeq_bool r 0 = false) by (destruct (Zeq_bool r 0) eqn:E; [apply Zeq_bool_eq in E; lia | reflexivity]).
  assert (Hlt : (2 * r < m)%Z -> IZR r / IZR m < 1/2).
  { intros H. apply Hdiv. apply IZR_lt in H. rewrite mult_IZR in H. lra. }
  assert (Hgt : (m < 2 * r)%Z -> 1/2 < IZR r / IZR m).
  { intros H. apply Hdiv2. apply IZR_lt in H. rewrite mult_IZR in H. lra. }
  assert (Heq : (2 * r = m)%Z -> IZR r / IZR m = 1/2).
  { intros H. rewrite <- H, mult_IZR. field. apply not_0_IZR. exact Hr0. }
  destruct (Z.even m) eqn:He.
  - unfold new_location_even. rewrite Hz. unfold rep. destruct (Z.compare_spec (2 * r) m) as [H | H | H];
      cbn [shr_record_of_loc shr_m shr_r shr_s].
    + rewrite (Heq H). lra.
    + specialize (Hlt H). lra.
    + specialize (Hgt H). lra.
  - unfold new_location_odd. rewrite Hz. unfold rep.
    assert (Ho : Z.odd m = true) by (rewrite <- Z.negb_even, He; reflexivity).
    apply Z.odd_spec in Ho. destruct Ho as [k Hk].
    destruct (Z.compare_spec (2 * r + 1) m) as [H | H | H]; cbn [shr_record_of_loc shr_m shr_r shr_s].
    + assert (Hl : (2 * r < m)%Z) by lia. specialize (Hlt Hl). lra.
    + assert (Hl : (2 * r < m)%Z) by lia. specialize (Hlt Hl). lra.
    + assert (Hl : (m < 2 * r)%Z) by lia. specialize (Hgt Hl). lra.
Qed.

Lemma fdiv_error : forall x y, normal x -> normal y ->
  bpow (-1020) <= Rabs (fval x / fval y) -> Rabs (fval x / fval y) < bpow 1022 ->
  normal (fdiv x y) /\ Rabs (fval (fdiv x y) - fval x / fval y) <= bpow (-53) * Rabs (fval x / fval y).
Proof.
  intros [ | | | sx mx ex] [ | | | sy my ey] Nx Ny Hlo Hhi; try contradiction.
  destruct Nx as [Dx' _], Ny as [Dy' _]. assert (Dx := mant_bounds _ Dx'). assert (Dy := mant_bounds _ Dy').
  set (e' := (ex - ey - 53)%Z).
  set (y := IZR (Z.pos mx * 2 ^ 53) / IZR (Z.pos my)).
  assert (Hmy : 0 < IZR (Z.pos my)) by (apply IZR_lt; lia).
  assert (Hmx : 0 < IZR (Z.pos mx)) by (apply IZR_lt; lia).
  assert (HP : fval (S754_finite sx mx ex) / fval (S754_finite sy my ey) = sgn (xorb sx sy) * (y * bpow e')).
  { unfold y, e'. cbn [fval]. fold (sgn sx) (sgn sy). rewrite mult_IZR.
    replace (ex - ey - 53)%Z with (ex + (- ey) + (- (53)))%Z by lia. rewrite !bpow_add, !bpow_neg.
    rewrite (bpow_IZR 53) by lia. assert (H53 : 0 < IZR (2 ^ 53)) by (apply IZR_lt; lia). assert (Hp := bpow_pos ey).
    rewrite sgn_xorb. destruct sx, sy; unfold sgn; field; repeat split; lra. }
  assert (Hy0 : 0 < y) by (unfold y; rewrite mult_IZR; apply Rdiv_lt_0_compat; [apply Rmult_lt_0_compat; [exact Hmx | apply IZR_lt; lia] | exact Hmy]).
  assert (HP0 : 0 < y * bpow e') by (apply Rmult_lt_0_compat; [exact Hy0 | apply bpow_pos]).
  rewrite HP in *. rewrite Rabs_mult, sgn_abs, Rmult_1_l, Rabs_pos_eq in * by lra.
  (* the exponent chosen by the division *)
  assert (Hye : y < bpow 54).
  { unfold y. rewrite bpow_IZR by lia. apply (Rmult_lt_reg_r (IZR (Z.pos my))); [exact Hmy |].
    unfold Rdiv. rewrite Rmult_assoc, Rinv_l, Rmult_1_r by lra. rewrite <- mult_IZR. apply IZR_lt. lia. }
  assert (Hex : (-1020 < 54 + e')%Z).
  { apply bpow_lt_inv. apply Rle_lt_trans with (1 := Hlo). rewrite bpow_add. apply Rmult_lt_compat_r; [apply bpow_pos | exact Hye]. }
  unfold fdiv, SFdiv, SFdiv_core_binary. cbn [Zdigits2]. rewrite Dx', Dy'.
  replace (Z.min (fexp 53 1024 (53 + ex - (53 + ey))) (ex - ey)) with e' by (unfold fexp, emin, e' in *; lia).
  replace (ex - ey - e')%Z with 53%Z by (unfold e'; lia).
  cbv zeta iota. rewrite Z.shiftl_mul_pow2 by lia.
  assert (Hde := Z_div_mod (Z.pos mx * 2 ^ 53) (Z.pos my) ltac:(lia)).
  destruct (Z.div_eucl (Z.pos mx * 2 ^ 53) (Z.pos my)) as [q r]. destruct Hde as [Hq Hr].
  assert (Hq52 : (2 ^ 52 <= q)%Z) by nia.
  destruct q as [|q|q]; [lia | | lia].
  assert (Hyq : y = IZR (Z.pos q) + IZR r / IZR (Z.pos my)).
  { unfold y. rewrite Hq, plus_IZR, mult_IZR. field. lra. }
  destruct (range_core (xorb sx sy) q e' (new_location (Z.pos my) r) y) as (m & e & E1 & E2 & E3).
  - rewrite Hyq. apply new_location_located; [lia | exact Hr].
  - exact Hq52.
  - apply Rle_trans with (2 := Hlo). apply bpow_le. lia.
  - exact Hhi.
  - rewrite E1. split; [exact E2 |]. cbn [fval]. fold (sgn (xorb sx sy)).
    replace (sgn (xorb sx sy) * (IZR (Z.pos m) * bpow e) - sgn (xorb sx sy) * (y * bpow e'))
      with (sgn (xorb sx sy) * (IZR (Z.pos m) * bpow e - y * bpow e')) by ring.
    rewrite (Rabs_mult (sgn _)), !sgn_abs, ?Rmult_1_l, ?(Rabs_pos_eq (y * bpow e')) by lra. exact E3.
Qed.

Lemma fsqrt_error : forall x, normal x -> 0 < fval x ->
  normal (fsqrt x) /\ Rabs (fval (fsqrt x) - sqrt (fval x)) <= bpow (-53) * sqrt (fval x).
Proof.
  intros [ | | | s m e] N Hpos; try contradiction.
  assert (Hm0 : 0 < IZR (Z.pos m)) by (apply IZR_lt; lia). assert (Hbe := bpow_pos e).
  assert (s = false) as ->.
  { destruct s; [| reflexivity]. cbn [fval] in Hpos. nra. }
  destruct N as [D' He]. assert (D := mant_bounds _ D').
  cbn [fval] in *. rewrite Rmult_1_l in *.
  set (h := Z.div2 e). set (e' := (h - 26)%Z). set (s := (e - 2 * e')%Z).
  assert (Hh : (e = 2 * h \/ e = 2 * h + 1)%Z).
  { unfold h. assert (H := Z.div2_odd e). destruct (Z.odd e); unfold Z.b2z in H; lia. }
  assert (Hs : (s = 52 \/ s = 53)%Z) by (unfold s, e'; lia).
  set (m' := (Z.pos m * 2 ^ s)%Z).
  assert (Hm' : (2 ^ 104 <= m' < 2 ^ 106)%Z).
  { unfold m'. destruct Hs as [-> | ->]; lia. }
  unfold fsqrt, SFsqrt, SFsqrt_core_binary. cbn [Zdigits2]. rewrite D'.
  assert (Hd2 : Z.div2 (53 + e + 1) = (27 + h)%Z).
  { rewrite Z.div2_div. unfold h in *. rewrite Z.div2_div in *. replace (53 + e + 1)%Z with (e + 27 * 2)%Z by lia.
    rewrite Z.div_add by lia. lia. }
  fold h. rewrite Hd2.
  replace (Z.min (fexp 53 1024 (27 + h)) h) with e' by (unfold fexp, emin, e'; lia).
  fold s.
  assert (Hmatch : match s with Z0 => Z.pos m | Z.pos _ => Z.shiftl (Z.pos m) s | Z.neg _ => 0%Z end = m').
  { unfold m'. destruct Hs as [-> | ->]; rewrite <- Z.shiftl_mul_pow2 by lia; reflexivity. }
  cbv zeta. rewrite Hmatch.
  assert (Hsp := Z.sqrtrem_spec m' ltac:(lia)). destruct (Z.sqrtrem m') as [q r]. destruct Hsp as [Hq Hr].
  assert (Hq52 : (2 ^ 52 <= q)%Z) by nia.
  destruct q as [|q|q]; [lia | | lia].
  set (y := sqrt (IZR m')).
  assert (Hm'R : 0 < IZR m') by (apply IZR_lt; lia).
  assert (Hyy : y * y = IZR m') by (apply sqrt_sqrt; lra).
  assert (Hy0 : 0 < y) by (apply sqrt_lt_R0; exact Hm'R).
  assert (Hx : IZR (Z.pos m) * bpow e = IZR m' * (bpow e' * bpow e')).
  { unfold m'. rewrite mult_IZR, <- (bpow_IZR s) by lia. rewrite <- bpow_add, Rmult_assoc, <- bpow_add. do 2 f_equal. unfold s. lia. }
  assert (Hsx : sqrt (IZR (Z.pos m) * bpow e) = y * bpow e').
  { rewrite Hx. rewrite sqrt_mult_alt by lra. f_equal. assert (Hp := bpow_pos e'). apply sqrt_square. lra. }
  rewrite Hsx.
  assert (HqR : IZR (Z.pos q) * IZR (Z.pos q) + IZR r = y * y) by (rewrite Hyy, Hq, plus_IZR, mult_IZR; reflexivity).
  assert (Hq0 : 0 < IZR (Z.pos q)) by (apply IZR_lt; lia).
  assert (Hr0 : 0 <= IZR r) by (apply IZR_le; lia).
  assert (Hr1 : IZR r <= 2 * IZR (Z.pos q)) by (rewrite <- mult_IZR; apply IZR_le; lia).
  set (l := if Zeq_bool r 0 then loc_Exact else loc_Inexact (if (r <=? Z.pos q)%Z then Lt else Gt)).
  assert (Hloc : located (Z.pos q) l y).
  { unfold located, l, rep. destruct (Zeq_bool r 0) eqn:E0.
    - apply Zeq_bool_eq in E0. cbn. rewrite E0 in HqR. nra.
    - apply Zeq_bool_neq in E0. assert (Hrp : 0 < IZR r) by (apply IZR_lt; lia).
      destruct (Z.leb_spec r (Z.pos q)) as [Hle | Hgt]; cbn [shr_record_of_loc shr_m shr_r shr_s].
      + apply IZR_le in Hle. split; nra.
      + assert (Hg : IZR (Z.pos q) + 1 <= IZR r) by (rewrite <- plus_IZR; apply IZR_le; lia). split; nra. }
  assert (Hyl : bpow 52 <= y).
  { rewrite bpow_IZR by lia. assert (IZR (2 ^ 104) <= y * y) by (rewrite Hyy; apply IZR_le; lia).
    assert (IZR (2 ^ 104) = IZR (2 ^ 52) * IZR (2 ^ 52)) by (rewrite <- mult_IZR; reflexivity).
    assert (0 < IZR (2 ^ 52)) by (apply IZR_lt; lia). nra. }
  assert (Hyh : y < bpow 53).
  { rewrite bpow_IZR by lia. assert (y * y < IZR (2 ^ 106)) by (rewrite Hyy; apply IZR_lt; lia).
    assert (IZR (2 ^ 106) = IZR (2 ^ 53) * IZR (2 ^ 53)) by (rewrite <- mult_IZR; reflexivity).
    assert (0 < IZR (2 ^ 53)) by (apply IZR_lt; lia). nra. }
  destruct (range_core false q e' l y Hloc Hq52) as (m2 & e2 & E1 & E2 & E3).
  - apply Rle_trans with (bpow 52 * bpow e').
    + rewrite <- bpow_add. apply bpow_le. unfold e'. lia.
    + apply Rmult_le_compat_r; [assert (Hp := bpow_pos e'); lra | exact Hyl].
  - apply Rlt_le_trans with (bpow 53 * bpow e').
    + apply Rmult_lt_compat_r; [apply bpow_pos | exact Hyh].
    + rewrite <- bpow_add. apply bpow_le. unfold e'. lia.
  - rewrite E1. split; [exact E2 |]. cbn [fval]. rewrite Rmult_1_l. exact E3.
Qed.
