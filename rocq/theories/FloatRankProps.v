(** C89: cross-validation scores in double precision. *)
From Coq Require Import ZArith Bool List Reals Lia Lra Floats.SpecFloat.
From Verif Require Import Prelude KernelsModel FloatModel SpecFloats SpecFloatVal SpecFloatErr FloatProps FloatNormProps FloatRound
  FloatAny FloatDiv FloatSum FloatOpsModel FloatOpsFacts FloatNearest FloatRankModel SpecFloatRank.
Import ListNotations.
Local Open Scope R_scope.

Lemma Rabs_le_inv : forall x a, Rabs x <= a -> - a <= x <= a.
Proof. intros x a H. unfold Rabs in H. destruct (Rcase_abs x); lra. Qed.

(** ** Monotonicity of operations *)
Lemma fsub_mono : forall x x' y, canon x -> canon x' -> canon y ->
  Rabs (fval x - fval y) < bpow 1023 -> Rabs (fval x' - fval y) < bpow 1023 ->
  fval x <= fval x' -> fval (fsub x y) <= fval (fsub x' y).
Proof.
  intros x x' y Cx Cx' Cy B B' H. destruct (Rlt_le_dec (fval x) (fval x')) as [Hl|Hl].
  - apply (nearest_mono (fval x - fval y) (fval x' - fval y)); [apply fsub_nearest; assumption|apply fsub_nearest; assumption|lra].
  - destruct (canon_inj x x' Cx Cx' ltac:(lra)) as [->|[Z Z']]; [lra|].
    rewrite !fsub_fadd. destruct (fadd_zero_l x (fopp y) Z) as [-> _]. destruct (fadd_zero_l x' (fopp y) Z') as [-> _]. lra.
Qed.

Lemma zero_val : forall x, f_iszero x = true -> fval x = 0.
Proof. intros [s|s| |s m e] H; try discriminate. reflexivity. Qed.

Lemma fdiv_mono : forall x x' y, canon x -> canon x' -> canon y -> 0 < fval y ->
  Rabs (fval x / fval y) < bpow 1022 -> Rabs (fval x' / fval y) < bpow 1022 ->
  fval x <= fval x' -> fval (fdiv x y) <= fval (fdiv x' y).
Proof.
  intros x x' y Cx Cx' Cy Hy B B' H. destruct (Rlt_le_dec (fval x) (fval x')) as [Hl|Hl].
  - apply (nearest_mono (fval x / fval y) (fval x' / fval y)); [apply fdiv_nearest; try assumption; lra|apply fdiv_nearest; try assumption; lra|].
    apply Rmult_lt_compat_r; [apply Rinv_0_lt_compat, Hy|exact Hl].
  - destruct (canon_inj x x' Cx Cx' ltac:(lra)) as [->|[Z Z']]; [lra|].
    assert (N := fdiv_nearest x y Cx Cy ltac:(lra) B). assert (N' := fdiv_nearest x' y Cx' Cy ltac:(lra) B').
    rewrite (zero_val x Z) in N. rewrite (zero_val x' Z') in N'. unfold Rdiv in N, N'. rewrite Rmult_0_l in N, N'.
    rewrite (nearest_exact 0 _ fzero N I eq_refl), (nearest_exact 0 _ fzero N' I eq_refl). lra.
Qed.

Lemma fmul_mono : forall c x x', canon c -> canon x -> canon x' -> 0 < fval c ->
  Rabs (fval c * fval x) < bpow 1023 -> Rabs (fval c * fval x') < bpow 1023 ->
  fval x <= fval x' -> fval (fmul c x) <= fval (fmul c x').
Proof.
  intros c x x' Cc Cx Cx' Hc B B' H. destruct (Rlt_le_dec (fval x) (fval x')) as [Hl|Hl].
  - apply (nearest_mono (fval c * fval x) (fval c * fval x')); [apply fmul_nearest; assumption|apply fmul_nearest; assumption|].
    apply Rmult_lt_compat_l; assumption.
  - destruct (canon_inj x x' Cx Cx' ltac:(lra)) as [->|[Z Z']]; [lra|].
    assert (N := fmul_nearest c x Cc Cx B). assert (N' := fmul_nearest c x' Cc Cx' B').
    rewrite (zero_val x Z), Rmult_0_r in N. rewrite (zero_val x' Z'), Rmult_0_r in N'.
    rewrite (nearest_exact 0 _ fzero N I eq_refl), (nearest_exact 0 _ fzero N' I eq_refl). lra.
Qed.

(** ** Minimum and maximum *)
Lemma canon_nan : forall x, canon x -> f_isnan x = false.
Proof. intros [s|s| |s m e] H; try contradiction; reflexivity. Qed.

Lemma fmin_fold : forall l a, canon a -> Forall canon l ->
  canon (fold_left fmin2 l a) /\ In (fold_left fmin2 l a) (a :: l) /\
  (forall x, In x (a :: l) -> fval (fold_left fmin2 l a) <= fval x).
Proof.
  induction l as [|b l IH]; intros a Ca Hl.
  - cbn [fold_left]. split; [exact Ca|]. split; [left; reflexivity|]. intros x [<-|[]]. lra.
  - inversion Hl as [|? ? Cb Hl']; subst. cbn [fold_left].
    assert (Hm : fmin2 a b = if fltb b a then b else a) by (unfold fmin2; rewrite (canon_nan a Ca), (canon_nan b Cb); reflexivity).
    rewrite Hm. assert (Hlt := ltb_any b a Cb Ca). unfold fltb in *. destruct (SFltb b a).
    + destruct (IH b Cb Hl') as (H1 & H2 & H3). split; [exact H1|]. split; [right; exact H2|].
      assert (Hb := H3 b (or_introl eq_refl)). assert (Hba := proj1 Hlt eq_refl).
      intros x [<-|Hx]; [lra|apply H3; exact Hx].
    + destruct (IH a Ca Hl') as (H1 & H2 & H3). split; [exact H1|]. split.
      * destruct H2 as [H2|H2]; [left; exact H2|right; right; exact H2].
      * assert (Ha := H3 a (or_introl eq_refl)).
        assert (Hba : fval a <= fval b) by (destruct (Rle_lt_dec (fval a) (fval b)) as [H|H]; [exact H|apply Hlt in H; discriminate]).
        intros x [<-|[<-|Hx]]; [exact Ha|lra|apply H3; right; exact Hx].
Qed.

Lemma fmax_fold : forall l a, canon a -> Forall canon l ->
  canon (fold_left fmax2 l a) /\ In (fold_left fmax2 l a) (a :: l) /\
  (forall x, In x (a :: l) -> fval x <= fval (fold_left fmax2 l a)).
Proof.
  induction l as [|b l IH]; intros a Ca Hl.
  - cbn [fold_left]. split; [exact Ca|]. split; [left; reflexivity|]. intros x [<-|[]]. lra.
  - inversion Hl as [|? ? Cb Hl']; subst. cbn [fold_left].
    assert (Hm : fmax2 a b = if fltb a b then b else a) by (unfold fmax2; rewrite (canon_nan a Ca), (canon_nan b Cb); reflexivity).
    rewrite Hm. assert (Hlt := ltb_any a b Ca Cb). unfold fltb in *. destruct (SFltb a b).
    + destruct (IH b Cb Hl') as (H1 & H2 & H3). split; [exact H1|]. split; [right; exact H2|].
      assert (Hb := H3 b (or_introl eq_refl)). assert (Hba := proj1 Hlt eq_refl).
      intros x [<-|Hx]; [lra|apply H3; exact Hx].
    + destruct (IH a Ca Hl') as (H1 & H2 & H3). split; [exact H1|]. split.
      * destruct H2 as [H2|H2]; [left; exact H2|right; right; exact H2].
      * assert (Ha := H3 a (or_introl eq_refl)).
        assert (Hba : fval b <= fval a) by (destruct (Rle_lt_dec (fval b) (fval a)) as [H|H]; [exact H|apply Hlt in H; discriminate]).
        intros x [<-|[<-|Hx]]; [exact Ha|lra|apply H3; right; exact Hx].
Qed.

(** np.isclose(v, 0.0) *)
Lemma isclose_zero : forall v, canon v -> (fisclose v fzero = true <-> Rabs (fval v) <= fval f_atol).
Proof.
  intros v Cv. unfold fisclose. rewrite (isfinite_canon v Cv). cbn [f_isfinite fzero fint binary_normalize andb].
  change (fadd f_atol (fmul f_rtol (fabs (S754_zero false)))) with f_atol.
  destruct atol_canon as [Cat Vat].
  destruct (fadd_zero_l (fopp (S754_zero false)) v eq_refl) as [V C]. rewrite fadd_comm in V, C. rewrite <- fsub_fadd in V, C.
  specialize (C Cv). rewrite (leb_any _ _ (canon_abs _ C) Cat), fval_abs, V. tauto.
Qed.

Lemma atol_val : / 10 ^ 8 <= fval f_atol <= 101 / 100 * / 10 ^ 8.
Proof.
  unfold f_atol. cbn [fval]. rewrite Rmult_1_l. change (-79)%Z with (- (79))%Z. rewrite bpow_neg, bpow_IZR by lia.
  change (2 ^ 79)%Z with 604462909807314587353088%Z. lra.
Qed.

(** ** The scaled scores *)
Definition fine (x : f64) : Prop := canon x /\ Rabs (fval x) <= bpow 1000.

Lemma list_fine : forall l, score_list l -> forall x, In x l -> fine x.
Proof.
  intros l [_ H] x Hx. rewrite Forall_forall in H. destruct (H x Hx) as (F & V & B). split; [apply valid_canon; assumption|exact B].
Qed.

Definition scaled_one (mn sp v : f64) : f64 := fmul (fint 100) (fdiv (fsub v mn) sp).

Lemma core : forall l, score_list l -> exists mn mx,
  In mn l /\ In mx l /\ (forall x, In x l -> fval mn <= fval x <= fval mx) /\
  ((Rabs (fval (fsub mx mn)) <= fval f_atol /\ fcv_scores l = Ok (map (fun _ => fzero) l)) \/
   (fval f_atol < Rabs (fval (fsub mx mn)) /\ fcv_scores l = Ok (map (scaled_one mn (fsub mx mn)) l))).
Proof.
  intros l Hl. assert (Hf := list_fine l Hl). destruct l as [|a l']; [destruct Hl as [H _]; contradiction|].
  assert (Ca : canon a) by (apply Hf; left; reflexivity).
  assert (Cl : Forall canon l') by (apply Forall_forall; intros x Hx; apply Hf; right; exact Hx).
  destruct (fmin_fold l' a Ca Cl) as (C1 & I1 & M1). destruct (fmax_fold l' a Ca Cl) as (C2 & I2 & M2).
  exists (fold_left fmin2 l' a), (fold_left fmax2 l' a). split; [exact I1|]. split; [exact I2|].
  split; [intros x Hx; split; [apply M1|apply M2]; exact Hx|].
  assert (Cs : canon (fsub (fold_left fmax2 l' a) (fold_left fmin2 l' a))).
  { apply fsub_any; try assumption. destruct (Hf _ I1) as [_ B1]. destruct (Hf _ I2) as [_ B2].
    assert (Hb : bpow 1000 + bpow 1000 < bpow 1023).
    { change 1023%Z with (1000 + 23)%Z. rewrite bpow_add. assert (0 < bpow 1000) by apply bpow_pos.
      replace (bpow 23) with 8388608 by (rewrite bpow_IZR by lia; reflexivity). lra. }
    eapply Rle_lt_trans; [|exact Hb]. unfold Rminus. eapply Rle_trans; [apply Rabs_triang|]. rewrite Rabs_Ropp. lra. }
  unfold fcv_scores, fmin_max_scale, res_map.
  destruct (fisclose (fsub (fold_left fmax2 l' a) (fold_left fmin2 l' a)) fzero) eqn:E.
  - left. split; [apply isclose_zero; assumption|]. rewrite map_map. f_equal.
  - right. split.
    + destruct (Rlt_le_dec (fval f_atol) (Rabs (fval (fsub (fold_left fmax2 l' a) (fold_left fmin2 l' a))))) as [H|H]; [exact H|].
      apply isclose_zero in H; [rewrite E in H; discriminate|exact Cs].
    + rewrite map_map. reflexivity.
Qed.

Lemma unit_small : 0 < unit_roundoff <= / 10 ^ 15 /\ tiny <= unit_roundoff / 10 ^ 3 /\ 0 < tiny /\ eps = 2 * unit_roundoff.
Proof.
  assert (Hu : unit_roundoff = / 9007199254740992).
  { unfold unit_roundoff. change (-53)%Z with (- (53))%Z. rewrite bpow_neg, bpow_IZR by lia. reflexivity. }
  assert (Ht : tiny = unit_roundoff * bpow (-1022)) by (unfold tiny, unit_roundoff; rewrite <- bpow_add; reflexivity).
  assert (Hb : bpow (-1022) <= bpow (-10)) by (apply bpow_le; lia).
  assert (H10 : bpow (-10) = / 1024).
  { change (-10)%Z with (- (10))%Z. rewrite bpow_neg, bpow_IZR by lia. reflexivity. }
  assert (He : eps = 2 * unit_roundoff).
  { unfold eps, unit_roundoff. change (-52)%Z with (-53 + 1)%Z. rewrite bpow_add. replace (bpow 1) with 2 by (rewrite bpow_IZR by lia; reflexivity). ring. }
  assert (Hp : 0 < unit_roundoff) by apply bpow_pos. assert (Htp : 0 < tiny) by apply bpow_pos.
  split; [split; [exact Hp|rewrite Hu; lra]|]. split; [|split; [exact Htp|exact He]].
  rewrite Ht. apply Rle_trans with (unit_roundoff * / 1024); [apply Rmult_le_compat_l; lra|lra].
Qed.

Lemma hundred : canon (fint 100) /\ fval (fint 100) = 100.
Proof. destruct (fint_any 100 ltac:(lia)) as [C V]. split; [exact C|exact V]. Qed.

Lemma one_val : canon fone /\ fval fone = 1.
Proof. destruct (fint_any 1 ltac:(lia)) as [C V]. split; [exact C|exact V]. Qed.

(** One score. *)
Lemma scaled_facts : forall mn mx v, fine mn -> fine mx -> fine v ->
  fval mn <= fval v <= fval mx -> fval f_atol < Rabs (fval (fsub mx mn)) ->
  let r := scaled_one mn (fsub mx mn) v in
  canon r /\ 0 <= fval r <= 100 /\ (fval v = fval mn -> fval r = 0) /\ (fval v = fval mx -> fval r = 100) /\
  fval mn < fval mx /\
  Rabs (fval r - 100 * ((fval v - fval mn) / (fval mx - fval mn))) <= 202 * eps /\
  (forall w, fine w -> fval mn <= fval w -> fval w <= fval v -> fval (scaled_one mn (fsub mx mn) w) <= fval r).
Proof.
  intros mn mx v [Cmn Bmn] [Cmx Bmx] [Cv Bv] [Hlo Hhi] Hat r.
  destruct unit_small as ((Hu0 & Hu) & Ht & Ht0 & Heps). assert (Hav := atol_val).
  assert (HB : bpow 1000 + bpow 1000 < bpow 1023).
  { change 1023%Z with (1000 + 23)%Z. rewrite bpow_add. assert (0 < bpow 1000) by apply bpow_pos.
    replace (bpow 23) with 8388608 by (rewrite bpow_IZR by lia; reflexivity). lra. }
  assert (Hd : forall a b, Rabs a <= bpow 1000 -> Rabs b <= bpow 1000 -> Rabs (a - b) < bpow 1023).
  { intros a b Ha Hb. unfold Rminus. eapply Rle_lt_trans; [apply Rabs_triang|]. rewrite Rabs_Ropp. lra. }
  assert (H22 : 100 < bpow 1022).
  { apply Rlt_le_trans with (bpow 10); [|apply bpow_le; lia]. rewrite bpow_IZR by lia. change (2^10)%Z with 1024%Z. lra. }
  assert (H23 : 100 < bpow 1023) by (apply Rlt_le_trans with (bpow 1022); [exact H22|apply bpow_le; lia]).
  destruct (fsub_any mx mn Cmx Cmn (Hd _ _ Bmx Bmn)) as (CS & ES & _).
  set (S := fval (fsub mx mn)) in *. set (D := fval mx - fval mn) in *.
  assert (HD0 : 0 <= D) by (unfold D; lra). rewrite (Rabs_pos_eq D) in ES by exact HD0. apply Rabs_le_inv in ES.
  assert (HuD : unit_roundoff * D <= D / 10 ^ 15) by (assert (X := Rmult_le_compat_r D _ _ HD0 Hu); lra).
  assert (HS0 : 0 <= S) by lra. rewrite (Rabs_pos_eq S) in Hat by exact HS0.
  assert (HSp : 0 < S) by lra. assert (HDp : 0 < D) by lra.
  (* quotient of any score between mn and mx *)
  assert (Q : forall w, fine w -> fval mn <= fval w -> fval w <= fval mx ->
    canon (fsub w mn) /\ 0 <= fval (fsub w mn) <= S /\ Rabs (fval (fsub w mn) / S) < bpow 1022 /\
    canon (fdiv (fsub w mn) (fsub mx mn)) /\ 0 <= fval (fdiv (fsub w mn) (fsub mx mn)) <= 1 /\
    Rabs (100 * fval (fdiv (fsub w mn) (fsub mx mn))) < bpow 1023).
  { intros w [Cw Bw] W1 W2. destruct (fsub_any w mn Cw Cmn (Hd _ _ Bw Bmn)) as (Cs & Es & _).
    rewrite (Rabs_pos_eq (fval w - fval mn)) in Es by lra. apply Rabs_le_inv in Es.
    assert (Huw : unit_roundoff * (fval w - fval mn) <= (fval w - fval mn) / 10 ^ 15)
      by (assert (X := Rmult_le_compat_r (fval w - fval mn) _ _ ltac:(lra) Hu); lra).
    assert (Hle : fval (fsub w mn) <= S) by (apply fsub_mono; auto).
    assert (Hq : 0 <= fval (fsub w mn) / S <= 1).
    { split; [apply Rmult_le_pos; [lra|apply Rlt_le, Rinv_0_lt_compat, HSp]|].
      apply Rmult_le_reg_r with S; [exact HSp|]. unfold Rdiv. rewrite Rmult_assoc, Rinv_l by lra. lra. }
    assert (Hqb : Rabs (fval (fsub w mn) / S) < bpow 1022) by (rewrite Rabs_pos_eq by lra; lra).
    assert (N := fdiv_nearest (fsub w mn) (fsub mx mn) Cs CS ltac:(fold S; lra) Hqb). fold S in N.
    assert (N0 := nearest_ge _ _ fzero N I (proj1 Hq)). destruct one_val as [C1 V1].
    assert (N1 := nearest_le _ _ fone N C1 ltac:(rewrite V1; lra)). rewrite V1 in N1. change (fval fzero) with 0 in N0.
    split; [exact Cs|]. split; [lra|]. split; [exact Hqb|]. split; [exact (proj1 N)|]. split; [lra|].
    rewrite Rabs_pos_eq by lra. lra. }
  destruct hundred as [C100 V100].
  assert (Rm : forall w, fine w -> fval mn <= fval w -> fval w <= fval v -> fval (scaled_one mn (fsub mx mn) w) <= fval r).
  { intros w Fw W1 W2. destruct (Q w Fw W1 ltac:(lra)) as (A1 & A2 & A3 & A4 & A5 & A6).
    destruct (Q v (conj Cv Bv) ltac:(lra) Hhi) as (B1 & B2 & B3 & B4 & B5 & B6). destruct Fw as [Cw Bw].
    unfold r, scaled_one. apply fmul_mono; try assumption; rewrite ?V100; try lra; try assumption.
    apply fdiv_mono; try assumption. apply fsub_mono; auto. }
  destruct (Q v (conj Cv Bv) Hlo Hhi) as (Cs & Hs & Hqb & Cq & Hq & Hrb).
  rewrite <- V100 in Hrb. assert (Nr := fmul_nearest _ _ C100 Cq Hrb). fold (scaled_one mn (fsub mx mn) v) in Nr. fold r in Nr.
  assert (Ndiv := fdiv_nearest (fsub v mn) (fsub mx mn) Cs CS ltac:(fold S; lra) Hqb). fold S in Ndiv.
  destruct one_val as [C1 V1].
  split; [exact (proj1 Nr)|]. split; [split|].
  { apply (nearest_ge _ _ fzero Nr I). change (fval fzero) with 0. rewrite V100. lra. }
  { rewrite <- V100. apply (nearest_le _ _ (fint 100) Nr C100). rewrite V100. lra. }
  split; [|split; [|split; [|split]]].
  - intros He. assert (S0 : fval (fsub v mn) = 0).
    { destruct (fsub_any v mn Cv Cmn (Hd _ _ Bv Bmn)) as (_ & E & _). replace (fval v - fval mn) with 0 in E by lra.
      rewrite Rabs_R0, Rmult_0_r in E. apply Rabs_le_inv in E. lra. }
    rewrite S0 in Ndiv. unfold Rdiv in Ndiv. rewrite Rmult_0_l in Ndiv. assert (Q0 := nearest_exact _ _ fzero Ndiv I eq_refl).
    rewrite Q0, Rmult_0_r in Nr. exact (nearest_exact _ _ fzero Nr I eq_refl).
  - intros He. assert (S1 : fval (fsub v mn) = S).
    { apply Rle_antisym; [lra|]. apply fsub_mono; auto. lra. }
    rewrite S1 in Ndiv. replace (S / S) with 1 in Ndiv by (field; lra). assert (Q1 := nearest_exact _ _ fone Ndiv C1 V1).
    rewrite Q1, Rmult_1_r in Nr. rewrite <- V100. exact (nearest_exact _ _ (fint 100) Nr C100 eq_refl).
  - unfold D in HDp. lra.
  - destruct (fsub_any v mn Cv Cmn (Hd _ _ Bv Bmn)) as (_ & Es & _). set (d := fval v - fval mn) in *. set (s := fval (fsub v mn)) in *.
    assert (Hd0 : 0 <= d <= D) by (unfold d, D; lra). rewrite (Rabs_pos_eq d) in Es by lra.
    destruct (fdiv_any (fsub v mn) (fsub mx mn) Cs CS ltac:(fold S; lra) Hqb) as (_ & Eq). fold s S in Eq.
    destruct (fmul_any _ _ C100 Cq Hrb) as (_ & Er & _). fold (scaled_one mn (fsub mx mn) v) in Er. fold r in Er. rewrite V100 in Er.
    set (q := fval (fdiv (fsub v mn) (fsub mx mn))) in *.
    assert (Ht1 : 0 <= d / D <= 1).
    { split; [apply Rmult_le_pos; [lra|apply Rlt_le, Rinv_0_lt_compat, HDp]|].
      apply Rmult_le_reg_r with D; [exact HDp|]. unfold Rdiv. rewrite Rmult_assoc, Rinv_l by lra. lra. }
    set (t := d / D) in *. assert (Hdt : d = t * D) by (unfold t; field; lra).
    assert (E1 : Rabs (s / S - t) <= 201/100 * unit_roundoff).
    { replace (s / S - t) with (((s - d) - t * (S - D)) / S) by (rewrite Hdt; field; lra).
      unfold Rdiv. rewrite Rabs_mult, (Rabs_pos_eq (/ S)) by (apply Rlt_le, Rinv_0_lt_compat, HSp).
      apply Rmult_le_reg_r with S; [exact HSp|]. rewrite Rmult_assoc, Rinv_l, Rmult_1_r by lra.
      assert (T1 : Rabs (t * (S - D)) <= unit_roundoff * D).
      { rewrite Rabs_mult, (Rabs_pos_eq t) by lra. assert (X : Rabs (S - D) <= unit_roundoff * D) by (apply Rabs_le; lra).
        assert (Y := Rmult_le_compat t 1 _ _ (proj1 Ht1) (Rabs_pos _) (proj2 Ht1) X). lra. }
      assert (T2 : unit_roundoff * d <= unit_roundoff * D) by (apply Rmult_le_compat_l; lra).
      unfold Rminus at 1. eapply Rle_trans; [apply Rabs_triang|]. rewrite Rabs_Ropp.
      assert (T3 : 2 * D <= 201/100 * S) by lra.
      assert (T4 := Rmult_le_compat_l unit_roundoff _ _ ltac:(lra) T3). lra. }
    assert (Hsq : 0 <= s / S <= 1).
    { split; [apply Rmult_le_pos; [lra|apply Rlt_le, Rinv_0_lt_compat, HSp]|].
      apply Rmult_le_reg_r with S; [exact HSp|]. unfold Rdiv. rewrite Rmult_assoc, Rinv_l by lra. lra. }
    rewrite (Rabs_pos_eq (s / S)) in Eq by lra. rewrite (Rabs_pos_eq (100 * q)) in Er by lra.
    assert (U1 : unit_roundoff * (s / S) <= unit_roundoff) by (assert (X := Rmult_le_compat_l unit_roundoff _ 1 ltac:(lra) (proj2 Hsq)); lra).
    assert (U2 : unit_roundoff * (100 * q) <= 100 * unit_roundoff)
      by (assert (X := Rmult_le_compat_l unit_roundoff (100 * q) 100 ltac:(lra) ltac:(lra)); lra).
    apply Rabs_le_inv in Eq. apply Rabs_le_inv in Er. apply Rabs_le_inv in E1. apply Rabs_le. rewrite Heps. lra.
  - exact Rm.
Qed.

Lemma nth_map_in : forall (f : f64 -> f64) l k, (k < length l)%nat -> nth k (map f l) fzero = f (nth k l fzero).
Proof. intros f l k H. rewrite (nth_indep _ fzero (f fzero)) by (rewrite map_length; exact H). apply map_nth. Qed.

Lemma score_in : forall l x, In x l -> exists k, (k < length l)%nat /\ nth k l fzero = x.
Proof. intros l x H. destruct (In_nth l x fzero H) as (k & H1 & H2). exists k. split; assumption. Qed.

(** [core], in terms of the extreme values. *)
Lemma core_vals : forall l lo hi, score_list l -> smallest l lo -> largest l hi -> exists mn mx,
  fine mn /\ fine mx /\ fval mn = lo /\ fval mx = hi /\ lo <= hi /\
  (forall k, (k < length l)%nat -> fine (nth k l fzero) /\ lo <= score l k <= hi) /\
  ((hi - lo <= 11 / 10 ^ 9 /\ Rabs (fval (fsub mx mn)) <= fval f_atol /\ fcv_scores l = Ok (map (fun _ => fzero) l)) \/
   (/ 10 ^ 8 < hi - lo /\ fval f_atol < Rabs (fval (fsub mx mn)) /\ fcv_scores l = Ok (map (scaled_one mn (fsub mx mn)) l))).
Proof.
  intros l lo hi Hl [[kl [Kl El]] Hlo] [[kh [Kh Eh]] Hhi]. destruct (core l Hl) as (mn & mx & I1 & I2 & Hb & Hc).
  assert (Hf := list_fine l Hl). exists mn, mx. assert (F1 := Hf _ I1). assert (F2 := Hf _ I2).
  destruct (score_in l mn I1) as (k1 & K1 & E1). destruct (score_in l mx I2) as (k2 & K2 & E2).
  assert (Vmn : fval mn = lo).
  { apply Rle_antisym; [rewrite <- El; apply Hb, nth_In, Kl|]. rewrite <- E1. apply (Hlo k1 K1). }
  assert (Vmx : fval mx = hi).
  { apply Rle_antisym; [rewrite <- E2; apply (Hhi k2 K2)|]. rewrite <- Eh. apply Hb, nth_In, Kh. }
  assert (Hlh : lo <= hi) by (rewrite <- Vmn, <- Vmx; apply Hb, I1).
  split; [exact F1|]. split; [exact F2|]. split; [exact Vmn|]. split; [exact Vmx|]. split; [exact Hlh|].
  split; [intros k Hk; split; [apply Hf, nth_In, Hk|split; [apply Hlo|apply Hhi]; exact Hk]|].
  destruct F1 as [C1 B1], F2 as [C2 B2]. destruct unit_small as ((Hu0 & Hu) & _). assert (Hav := atol_val).
  assert (HB : Rabs (fval mx - fval mn) < bpow 1023).
  { unfold Rminus. eapply Rle_lt_trans; [apply Rabs_triang|]. rewrite Rabs_Ropp.
    assert (HB : bpow 1000 + bpow 1000 < bpow 1023).
    { change 1023%Z with (1000 + 23)%Z. rewrite bpow_add. assert (0 < bpow 1000) by apply bpow_pos.
      replace (bpow 23) with 8388608 by (rewrite bpow_IZR by lia; reflexivity). lra. }
    lra. }
  destruct (fsub_any mx mn C2 C1 HB) as (CS & ES & _). rewrite Vmn, Vmx, (Rabs_pos_eq (hi - lo)) in ES by lra.
  apply Rabs_le_inv in ES. assert (HuD := Rmult_le_compat_r (hi - lo) _ _ ltac:(lra) Hu).
  assert (HS : 0 <= fval (fsub mx mn)) by lra.
  destruct Hc as [[Ha Hc]|[Ha Hc]]; [left|right].
  - split; [|split; assumption]. rewrite Rabs_pos_eq in Ha by exact HS. lra.
  - split; [|split; assumption]. rewrite Rabs_pos_eq in Ha by exact HS.
    destruct (Rle_lt_dec (hi - lo) (/ 10 ^ 8)) as [H|H]; [|exact H]. exfalso.
    (* the nearest double of something at most 1e-8 is at most f_atol *)
    assert (N := fsub_nearest mx mn C2 C1 HB). rewrite Vmn, Vmx in N. destruct atol_canon as [Cat _].
    assert (N1 := nearest_le _ _ f_atol N Cat ltac:(lra)). lra.
Qed.

(** *** C89 *)

(** One score per kernel; they are finite, between 0 and 100, and in the order of the scores of
    cross-validation. *)
Lemma pf_C89_scores : forall l, score_list l -> exists r, fcv_scores l = Ok r /\ length r = length l /\
  (forall k, (k < length l)%nat -> f_finite (nth k r fzero) = true /\ 0 <= score r k <= 100) /\
  (forall j k, (j < length l)%nat -> (k < length l)%nat -> score l j <= score l k -> score r j <= score r k).
Proof.
  intros l Hl. destruct (core l Hl) as (mn & mx & I1 & I2 & Hb & [[Ha Hc]|[Ha Hc]]); rewrite Hc.
  - exists (map (fun _ => fzero) l). split; [reflexivity|]. split; [apply map_length|]. unfold score. split.
    + intros k Hk. rewrite nth_map_in by exact Hk. split; [reflexivity|]. change (fval fzero) with 0. lra.
    + intros j k Hj Hk _. rewrite !nth_map_in by assumption. lra.
  - exists (map (scaled_one mn (fsub mx mn)) l). split; [reflexivity|]. split; [apply map_length|]. unfold score.
    assert (Hf := list_fine l Hl). split.
    + intros k Hk. rewrite nth_map_in by exact Hk. assert (Ik := nth_In l fzero Hk).
      destruct (scaled_facts mn mx (nth k l fzero) (Hf _ I1) (Hf _ I2) (Hf _ Ik) (Hb _ Ik) Ha) as (C & R & _).
      split; [apply canon_finite, C|exact R].
    + intros j k Hj Hk Hjk. rewrite !nth_map_in by assumption. assert (Ik := nth_In l fzero Hk). assert (Ij := nth_In l fzero Hj).
      destruct (scaled_facts mn mx (nth k l fzero) (Hf _ I1) (Hf _ I2) (Hf _ Ik) (Hb _ Ik) Ha) as (_ & _ & _ & _ & _ & _ & M).
      apply M; [apply Hf, Ij|apply Hb, Ij|exact Hjk].
Qed.

(** When the scores are spread over more than 1.1e-8: the worst kernel gets 0, the best 100, exactly, and every
    other one its position between them, up to 202 units of roundoff at 1. *)
Lemma pf_C89_scaled : forall l lo hi, score_list l -> smallest l lo -> largest l hi -> 11 / 10 ^ 9 < hi - lo ->
  exists r, fcv_scores l = Ok r /\ forall k, (k < length l)%nat ->
    near (100 * ((score l k - lo) / (hi - lo))) (202 * eps) (nth k r fzero) /\
    (score l k = lo -> score r k = 0) /\ (score l k = hi -> score r k = 100).
Proof.
  intros l lo hi Hl Hlo Hhi Hs. destruct (core_vals l lo hi Hl Hlo Hhi) as (mn & mx & F1 & F2 & V1 & V2 & _ & Hk & [(H & _)|(_ & Ha & Hc)]); [lra|].
  rewrite Hc. eexists. split; [reflexivity|]. intros k K. destruct (Hk k K) as [Fk Bk]. unfold score in *. rewrite nth_map_in by exact K.
  destruct (scaled_facts mn mx (nth k l fzero) F1 F2 Fk ltac:(lra) Ha) as (C & _ & R0 & R1 & _ & E & _).
  rewrite V1, V2 in E. split; [split; [apply canon_finite, C|exact E]|]. split; intros; [apply R0|apply R1]; lra.
Qed.

(** When they differ by at most 1e-8, every kernel gets 0. *)
Lemma pf_C89_constant : forall l lo hi, score_list l -> smallest l lo -> largest l hi -> hi - lo <= / 10 ^ 8 ->
  fcv_scores l = Ok (map (fun _ => fzero) l).
Proof.
  intros l lo hi Hl Hlo Hhi Hs. destruct (core_vals l lo hi Hl Hlo Hhi) as (mn & mx & _ & _ & _ & _ & _ & _ & [(_ & _ & Hc)|(H & _)]); [exact Hc|lra].
Qed.

(** ** The chosen kernel *)
Lemma eqb_any : forall x y, canon x -> canon y -> (SFeqb x y = true <-> fval x = fval y).
Proof.
  intros x y Cx Cy. assert (H := compare_any x y Cx Cy). unfold SFeqb.
  destruct (SFcompare x y) as [[]|]; split; intros; try lra; try discriminate; try reflexivity; contradiction.
Qed.

Lemma ffind_none : forall p l, (forall x, In x l -> p x = false) -> ffind p l = None.
Proof.
  intros p l. induction l as [|a l IH]; intros H; [reflexivity|]. cbn [ffind]. rewrite (H a (or_introl eq_refl)).
  rewrite IH by (intros x Hx; apply H; right; exact Hx). reflexivity.
Qed.

Lemma ffind_some : forall p l, (exists x, In x l /\ p x = true) ->
  exists i, ffind p l = Some i /\ (i < length l)%nat /\ p (nth i l fzero) = true /\ (forall k, (k < i)%nat -> p (nth k l fzero) = false).
Proof.
  intros p l. induction l as [|a l IH]; intros (x & Hx & Px); [destruct Hx|]. cbn [ffind]. destruct (p a) eqn:E.
  - exists 0%nat. split; [reflexivity|]. split; [cbn; lia|]. split; [exact E|]. intros k Hk. lia.
  - destruct Hx as [<-|Hx]; [congruence|]. destruct (IH (ex_intro _ x (conj Hx Px))) as (i & H1 & H2 & H3 & H4).
    exists (S i). rewrite H1. split; [reflexivity|]. split; [cbn; lia|]. split; [exact H3|].
    intros [|k] Hk; [exact E|]. apply H4. lia.
Qed.

Lemma fargmax_first : forall r, r <> [] -> Forall canon r -> exists i, fargmax r = Ok i /\ (i < length r)%nat /\
  (forall k, (k < length r)%nat -> score r k <= score r i) /\ (forall k, (k < i)%nat -> score r k < score r i).
Proof.
  intros [|a r'] H Hc; [contradiction|]. inversion Hc as [|? ? Ca Cr]; subst. destruct (fmax_fold r' a Ca Cr) as (C & I & M).
  unfold fargmax. assert (Hin : forall x, In x (a :: r') -> canon x) by (apply Forall_forall; exact Hc).
  rewrite ffind_none by (intros x Hx; apply canon_nan, Hin, Hx).
  destruct (ffind_some (fun v => SFeqb v (fold_left fmax2 r' a)) (a :: r')) as (i & E & Hi & Pi & Pk).
  { exists (fold_left fmax2 r' a). split; [exact I|]. apply eqb_any; auto. }
  rewrite E. exists i. split; [reflexivity|]. split; [exact Hi|].
  apply eqb_any in Pi; [|apply Hin, nth_In, Hi|exact C]. unfold score.
  split; [intros k Hk; rewrite Pi; apply M, nth_In, Hk|].
  intros k Hk. assert (Hk' : (k < length (a :: r'))%nat) by lia. assert (X := M _ (nth_In (a :: r') fzero Hk')).
  specialize (Pk k Hk). destruct (Rlt_le_dec (fval (nth k (a :: r') fzero)) (fval (nth i (a :: r') fzero))) as [Hl|Hl]; [exact Hl|].
  assert (Y : fval (nth k (a :: r') fzero) = fval (fold_left fmax2 r' a)) by lra.
  apply (eqb_any _ _ (Hin _ (nth_In _ fzero Hk')) C) in Y. cbv beta in Pk. congruence.
Qed.

(** The kernel chosen is the best one, up to three units of roundoff of the spread of the scores, or to 1.1e-8. *)
Lemma pf_C89_chosen : forall l lo hi, score_list l -> smallest l lo -> largest l hi ->
  exists i, rbind (fcv_scores l) fargmax = Ok i /\ (i < length l)%nat /\
    (hi - score l i <= 3 * eps * (hi - lo) \/ (i = 0%nat /\ hi - lo <= 11 / 10 ^ 9)).
Proof.
  intros l lo hi Hl Hlo Hhi.
  destruct (core_vals l lo hi Hl Hlo Hhi) as (mn & mx & F1 & F2 & V1 & V2 & Hlh & Hk & [(H & _ & Hc)|(_ & Ha & Hc)]); rewrite Hc; cbn [rbind].
  - destruct l as [|a l]; [destruct Hl as [X _]; contradiction|]. exists 0%nat.
    destruct (fargmax_first (map (fun _ => fzero) (a :: l)) ltac:(discriminate)) as (i & E & Hi & M & L).
    { apply Forall_forall. intros x Hx. apply in_map_iff in Hx. destruct Hx as (? & <- & _). exact I. }
    assert (i = 0%nat) as ->.
    { destruct i as [|i]; [reflexivity|]. specialize (L 0%nat ltac:(lia)). unfold score in L.
      rewrite map_length in Hi. rewrite !nth_map_in in L by lia. lra. }
    split; [exact E|]. split; [cbn; lia|]. right. split; [reflexivity|exact H].
  - assert (Cr : Forall canon (map (scaled_one mn (fsub mx mn)) l)).
    { apply Forall_forall. intros x Hx. apply in_map_iff in Hx. destruct Hx as (v & <- & Hv).
      destruct (score_in l v Hv) as (k & K & <-). destruct (Hk k K) as [Fk Bk]. unfold score in Bk.
      apply (scaled_facts mn mx (nth k l fzero) F1 F2 Fk ltac:(lra) Ha). }
    assert (Hne : map (scaled_one mn (fsub mx mn)) l <> []) by (destruct l; [destruct Hl as [X _]; contradiction|discriminate]).
    destruct (fargmax_first _ Hne Cr) as (i & E & Hi & M & _). rewrite map_length in Hi, M. exists i. split; [exact E|]. split; [exact Hi|]. left.
    destruct Hhi as [[kh [Kh Eh]] Hhi]. specialize (M kh Kh). unfold score in *. rewrite !nth_map_in in M by assumption.
    destruct (Hk kh Kh) as [Fh Bh]. destruct (Hk i Hi) as [Fi Bi].
    destruct (scaled_facts mn mx (nth kh l fzero) F1 F2 Fh ltac:(lra) Ha) as (_ & _ & _ & R1 & _).
    destruct (scaled_facts mn mx (nth i l fzero) F1 F2 Fi ltac:(lra) Ha) as (_ & _ & _ & _ & P & Er & _).
    rewrite R1 in M by lra. rewrite V1, V2 in *. apply Rabs_le_inv in Er.
    assert (T : 1 - 3 * eps <= (fval (nth i l fzero) - lo) / (hi - lo)) by (assert (0 < eps) by apply bpow_pos; lra).
    apply (Rmult_le_compat_r (hi - lo)) in T; [|lra]. unfold Rdiv in T. rewrite Rmult_assoc, Rinv_l in T by lra. lra.
Qed.

(** ** NaN *)
Lemma fmin_nan : forall l, fold_left fmin2 l S754_nan = S754_nan.
Proof. induction l as [|b l IH]; [reflexivity|exact IH]. Qed.

Lemma fmin_nan_in : forall l a, In S754_nan (a :: l) -> fold_left fmin2 l a = S754_nan.
Proof.
  induction l as [|b l IH]; intros a H.
  - destruct H as [->|[]]. reflexivity.
  - cbn [fold_left]. destruct H as [->|[->|H]].
    + apply fmin_nan.
    + unfold fmin2 at 2. rewrite orb_true_r. apply fmin_nan.
    + apply IH. right. exact H.
Qed.

Lemma fsub_nan_r : forall x, fsub x S754_nan = S754_nan.
Proof. intros [s|s| |s m e]; reflexivity. Qed.
Lemma fdiv_nan_l : forall y, fdiv S754_nan y = S754_nan.
Proof. intros [s|s| |s m e]; reflexivity. Qed.

(** One score that is not a number makes all of them so, and the first kernel is chosen whatever its score. *)
Lemma pf_C89_nan : forall l, In S754_nan l ->
  fcv_scores l = Ok (map (fun _ => S754_nan) l) /\ rbind (fcv_scores l) fargmax = Ok 0%nat.
Proof.
  intros [|a l'] H; [destruct H|].
  assert (E : fcv_scores (a :: l') = Ok (map (fun _ => S754_nan) (a :: l'))).
  { unfold fcv_scores, fmin_max_scale, res_map. rewrite (fmin_nan_in l' a H), fsub_nan_r.
    change (fisclose S754_nan fzero) with false. cbv iota. rewrite map_map. f_equal. apply map_ext. intros v.
    rewrite fsub_nan_r, fdiv_nan_l. reflexivity. }
  split; [exact E|]. rewrite E. reflexivity.
Qed.

Lemma ffind_in : forall p l, (exists x, In x l /\ p x = true) -> exists i, ffind p l = Some i /\ (i < length l)%nat.
Proof.
  intros p l. induction l as [|a l IH]; intros (x & Hx & Px); [destruct Hx|]. cbn [ffind].
  destruct (p a) eqn:Ea; [exists 0%nat; split; [reflexivity|cbn; lia]|].
  destruct Hx as [->|Hx]; [congruence|]. destruct (IH (ex_intro _ x (conj Hx Px))) as (i & Ei & Hi).
  exists (S i). rewrite Ei. split; [reflexivity|cbn; lia].
Qed.
Lemma ffind_none_all : forall p l, ffind p l = None -> forall x, In x l -> p x = false.
Proof.
  intros p l. induction l as [|a l IH]; intros H x Hx; [destruct Hx|]. cbn [ffind] in H.
  destruct (p a) eqn:Ea; [discriminate|]. destruct Hx as [<-|Hx]; [exact Ea|]. apply IH; [|exact Hx].
  destruct (ffind p l); [discriminate|reflexivity].
Qed.
Lemma SFeqb_refl_num : forall v, f_isnan v = false -> SFeqb v v = true.
Proof.
  intros [s|[]| |[] mm e] H; try discriminate H; try reflexivity; unfold SFeqb, SFcompare; rewrite Z.compare_refl, ?Pos.compare_cont_refl; reflexivity.
Qed.
Lemma fmax_fold_in : forall l a, (forall x, In x (a :: l) -> f_isnan x = false) -> In (fold_left fmax2 l a) (a :: l).
Proof.
  induction l as [|b l IH]; intros a H; [left; reflexivity|]. cbn [fold_left].
  assert (E : fmax2 a b = a \/ fmax2 a b = b).
  { unfold fmax2. rewrite (H a (or_introl eq_refl)), (H b (or_intror (or_introl eq_refl))). cbn. destruct (fltb a b); auto. }
  assert (F : forall x, In x (fmax2 a b :: l) -> f_isnan x = false).
  { intros x [<-|Hx]; [destruct E as [->| ->]; apply H; cbn; auto|apply H; cbn; auto]. }
  destruct (IH _ F) as [<-|Hi]; [destruct E as [->| ->]; cbn; auto|cbn; auto].
Qed.
Lemma fargmax_any : forall l, l <> [] -> exists i, fargmax l = Ok i /\ (i < length l)%nat.
Proof.
  intros [|a l] H; [congruence|]. unfold fargmax. destruct (ffind f_isnan (a :: l)) eqn:E.
  - exists n. split; [reflexivity|]. destruct (ffind_in f_isnan (a :: l)) as (i & Ei & Hi); [|congruence].
    revert n E. generalize (a :: l). clear. induction l as [|b r IH]; cbn [ffind]; intros n E; [discriminate|].
    destruct (f_isnan b) eqn:Eb; [exists b; cbn; auto|]. destruct (ffind f_isnan r) eqn:Er; [|discriminate].
    destruct (IH _ eq_refl) as (x & Hx & Px). exists x. cbn. auto.
  - pose proof (ffind_none_all _ _ E) as Hn.
    destruct (ffind_in (fun v => SFeqb v (fold_left fmax2 l a)) (a :: l)) as (i & Ei & Hi).
    { exists (fold_left fmax2 l a). pose proof (fmax_fold_in l a Hn) as Hi. split; [exact Hi|]. apply SFeqb_refl_num, Hn, Hi. }
    exists i. rewrite Ei. auto.
Qed.

(** Whatever the scores (infinities and NaN included), only an empty list of them raises, and it raises ValueError;
    otherwise every score is scaled and one of the kernels is chosen. *)
Lemma pf_C89_errors : forall l : list f64,
  (l = [] -> fcv_scores l = Raise ValueError /\ rbind (fcv_scores l) fargmax = Raise ValueError /\ fargmax l = Raise ValueError) /\
  (l <> [] -> exists r i, fcv_scores l = Ok r /\ length r = length l /\
     rbind (fcv_scores l) fargmax = Ok i /\ (i < length l)%nat).
Proof.
  intros l. split; intros H; [subst; repeat split|].
  assert (E : exists r, fcv_scores l = Ok r /\ length r = length l).
  { destruct l as [|a l']; [congruence|]. unfold fcv_scores, fmin_max_scale, res_map. cbv zeta.
    destruct fisclose; eexists; (split; [reflexivity|]); rewrite !map_length; reflexivity. }
  destruct E as (r & Er & Lr). destruct (fargmax_any r) as (i & Ei & Hi).
  { intros ->. destruct l; [congruence|discriminate]. }
  exists r, i. rewrite Er. cbn [rbind]. rewrite <- Lr. auto.
Qed.

Lemma good_cons : forall x l, canon x -> Rabs (fval x) <= bpow 1000 ->
  Forall (fun x => f_finite x = true /\ valid_binary 53 1024 x = true /\ Rabs (fval x) <= bpow 1000) l ->
  Forall (fun x => f_finite x = true /\ valid_binary 53 1024 x = true /\ Rabs (fval x) <= bpow 1000) (x :: l).
Proof. intros x l C B H. constructor; [|exact H]. destruct (canon_valid x C). auto. Qed.

(** ** Two cases in which a kernel with a smaller score is chosen *)
Definition minus_ulp : f64 := S754_finite false 9007199254740991 (-53).

(** The scores -1, 1 - 2^-53 and 1. *)
Lemma pf_C89_best_refuted : exists l i j, score_list l /\ (i < length l)%nat /\ (j < length l)%nat /\
  rbind (fcv_scores l) fargmax = Ok i /\ score l i < score l j /\ 1 < score l j - score l 0.
Proof.
  exists [fint (-1); minus_ulp; fint 1], 1%nat, 2%nat.
  assert (B : 1 <= bpow 1000) by (rewrite <- bpow_0; apply bpow_le; lia).
  destruct (fint_any (-1) ltac:(lia)) as [Cm Vm]. destruct one_val as [C1 V1].
  assert (Vu : fval minus_ulp = 9007199254740991 / 9007199254740992).
  { unfold minus_ulp. cbn [fval]. rewrite Rmult_1_l. change (-53)%Z with (- (53))%Z. rewrite bpow_neg, bpow_IZR by lia. reflexivity. }
  change fone with (fint 1) in V1.
  split.
  { split; [discriminate|]. repeat (apply good_cons; [apply valid_canon; reflexivity|rewrite ?Vm, ?V1, ?Vu; apply Rabs_le; lra|]). constructor. }
  split; [cbn; lia|]. split; [cbn; lia|]. split; [reflexivity|]. unfold score. cbn [nth]. rewrite Vm, V1, Vu. lra.
Qed.

(** The scores 1/2 and 1/2 + 2^-28. *)
Lemma pf_C89_close_refuted : exists l i j, score_list l /\ (i < length l)%nat /\ (j < length l)%nat /\
  rbind (fcv_scores l) fargmax = Ok i /\ score l i + / 10 ^ 9 < score l j.
Proof.
  exists [S754_finite false 4503599627370496 (-53); S754_finite false 4503599660924928 (-53)], 0%nat, 1%nat.
  assert (B : 1 <= bpow 1000) by (rewrite <- bpow_0; apply bpow_le; lia).
  assert (V : forall m, fval (S754_finite false m (-53)) = IZR (Z.pos m) / 9007199254740992).
  { intros m. cbn [fval]. rewrite Rmult_1_l. change (-53)%Z with (- (53))%Z. rewrite bpow_neg, bpow_IZR by lia. reflexivity. }
  split.
  { split; [discriminate|]. repeat (apply good_cons; [apply valid_canon; reflexivity|rewrite ?V; apply Rabs_le; lra|]). constructor. }
  split; [cbn; lia|]. split; [cbn; lia|]. split; [reflexivity|]. unfold score. cbn [nth]. rewrite !V. lra.
Qed.

(** The scores 1/4, 1, 1/2, 1: scaled to 0, 100, 33.3..., 100, and the second kernel is chosen. *)
Lemma pf_C89_example :
  let l := [S754_finite false 4503599627370496 (-54); fint 1; S754_finite false 4503599627370496 (-53); fint 1] in
  score_list l /\ smallest l (1/4) /\ largest l 1 /\
  fcv_scores l = Ok [fzero; fint 100; S754_finite false 4691249611844266 (-47); fint 100] /\
  rbind (fcv_scores l) fargmax = Ok 1%nat.
Proof.
  intros l. destruct one_val as [C1 V1]. change fone with (fint 1) in V1.
  assert (B : 1 <= bpow 1000) by (rewrite <- bpow_0; apply bpow_le; lia).
  assert (Va : fval (S754_finite false 4503599627370496 (-54)) = 1/4).
  { cbn [fval]. rewrite Rmult_1_l. change (-54)%Z with (- (54))%Z. rewrite bpow_neg, bpow_IZR by lia. change (2^54)%Z with 18014398509481984%Z. lra. }
  assert (Vb : fval (S754_finite false 4503599627370496 (-53)) = 1/2).
  { cbn [fval]. rewrite Rmult_1_l. change (-53)%Z with (- (53))%Z. rewrite bpow_neg, bpow_IZR by lia. change (2^53)%Z with 9007199254740992%Z. lra. }
  assert (Hall : forall k, (k < length l)%nat -> 1/4 <= score l k <= 1).
  { intros k Hk. unfold score, l. destruct k as [|[|[|[|k]]]]; cbn [nth]; rewrite ?Va, ?Vb, ?V1; try lra. cbn in Hk. lia. }
  split.
  { split; [discriminate|]. unfold l. repeat (apply good_cons; [apply valid_canon; reflexivity|rewrite ?Va, ?Vb, ?V1; apply Rabs_le; lra|]). constructor. }
  split; [split; [exists 0%nat; split; [cbn; lia|exact Va]|intros k Hk; apply Hall, Hk]|].
  split; [split; [exists 1%nat; split; [cbn; lia|exact V1]|intros k Hk; apply Hall, Hk]|].
  split; reflexivity.
Qed.
