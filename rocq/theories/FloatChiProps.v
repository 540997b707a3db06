(** C86: the accuracy of Chi2Kernel and HadamardKernel in double precision. *)
From Coq Require Import ZArith Bool List Permutation Reals Lia Lra Floats.SpecFloat.
From Verif Require Import Prelude KernelsModel XReal MatModel FloatModel SpecFloats SpecFloatVal SpecLinAlg RSum PSDFacts KernelFacts SpecKernels
  SpecFloatErr FloatProps FloatNormProps FloatRound FloatAny FloatSum FloatDiv FloatDotProps.
Import ListNotations.
Local Open Scope R_scope.

(** A quotient of approximations. *)
Lemma quot_any : forall p s P S a b t, canon p -> canon s -> 0 <= P -> 0 < S -> 0 <= a -> 0 <= b <= / 2 -> 0 <= t ->
  Rabs (fval p - P) <= a * P + t -> Rabs (fval s - S) <= b * S ->
  2 * ((1 + a) * (P / S) + t / S) < bpow 1022 ->
  canon (fdiv p s) /\
  Rabs (fval (fdiv p s) - P / S) <= ((1 + u) * (1 + a) / (1 - b) - 1) * (P / S) + (1 + u) / (1 - b) * (t / S) + tiny.
Proof.
  intros p s P S a b t Cp Cs HP HS Ha Hb Ht Ep Es Hbig.
  assert (Hu := u_pos).
  assert (Hs : (1 - b) * S <= fval s) by (apply Rabs_le_inv in Es; lra).
  assert (Hs0 : 0 < fval s).
  { apply Rlt_le_trans with (2 := Hs). apply Rmult_lt_0_compat; lra. }
  set (i := / (1 - b)). assert (Hi : (1 - b) * i = 1) by (unfold i; field; lra).
  assert (Hi0 : 0 < i) by (apply Rinv_0_lt_compat; lra).
  assert (Hi2 : i <= 2) by (assert (i * b <= i * / 2) by (apply Rmult_le_compat_l; lra); lra).
  set (k := S / fval s).
  assert (Hk0 : 0 < k) by (apply Rdiv_lt_0_compat; lra).
  assert (Hk : k <= i).
  { apply Rmult_le_reg_r with (1 - b); [lra|]. replace (i * (1 - b)) with 1 by lra.
    unfold k. apply Rmult_le_reg_r with (fval s); [lra|]. replace (S / fval s * (1 - b) * fval s) with ((1 - b) * S) by (field; lra). lra. }
  set (X := P / S). set (Y := t / S). fold X Y in Hbig.
  assert (HX : 0 <= X) by (apply Rmult_le_pos; [lra|apply Rlt_le, Rinv_0_lt_compat; lra]).
  assert (HY : 0 <= Y) by (apply Rmult_le_pos; [lra|apply Rlt_le, Rinv_0_lt_compat; lra]).
  assert (E1 : Rabs ((fval p - P) / S) <= a * X + Y).
  { unfold Rdiv. rewrite Rabs_mult, (Rabs_pos_eq (/ S)) by (apply Rlt_le, Rinv_0_lt_compat; lra).
    apply Rle_trans with ((a * P + t) * / S); [apply Rmult_le_compat_r; [apply Rlt_le, Rinv_0_lt_compat; lra|exact Ep]|].
    apply Req_le. unfold X, Y. field. lra. }
  assert (E2 : Rabs ((fval s - S) / S) <= b).
  { unfold Rdiv. rewrite Rabs_mult, (Rabs_pos_eq (/ S)) by (apply Rlt_le, Rinv_0_lt_compat; lra).
    apply Rle_trans with ((b * S) * / S); [apply Rmult_le_compat_r; [apply Rlt_le, Rinv_0_lt_compat; lra|exact Es]|].
    apply Req_le. field. lra. }
  set (r := fval p / fval s).
  assert (Er : Rabs (r - X) <= (a * X + Y + b * X) * i).
  { replace (r - X) with (((fval p - P) / S - X * ((fval s - S) / S)) * k) by (unfold r, X, k; field; lra).
    rewrite Rabs_mult, (Rabs_pos_eq k) by lra. apply Rmult_le_compat; try apply Rabs_pos; try lra.
    unfold Rminus at 1. eapply Rle_trans; [apply Rabs_triang|]. rewrite Rabs_Ropp, (Rabs_mult X), (Rabs_pos_eq X) by lra.
    assert (X * Rabs ((fval s - S) / S) <= X * b) by (apply Rmult_le_compat_l; lra). lra. }
  assert (Hri : (a * X + Y + b * X) * i + X = ((1 + a) * X + Y) * i).
  { transitivity ((a * X + Y + b * X) * i + X * ((1 - b) * i)); [rewrite Hi; ring|ring]. }
  assert (Hr : Rabs r <= ((1 + a) * X + Y) * i).
  { replace r with ((r - X) + X) by ring. eapply Rle_trans; [apply Rabs_triang|]. rewrite (Rabs_pos_eq X) by lra. lra. }
  assert (HZ : 0 <= (1 + a) * X + Y) by (assert (0 <= (1 + a) * X) by (apply Rmult_le_pos; lra); lra).
  destruct (fdiv_any p s Cp Cs) as [C E]; [lra| |].
  { fold r. apply Rle_lt_trans with (1 := Hr). apply Rle_lt_trans with (2 := Hbig).
    rewrite (Rmult_comm 2). apply Rmult_le_compat_l; lra. }
  split; [exact C|]. fold r in E.
  replace (fval (fdiv p s) - X) with ((fval (fdiv p s) - r) + (r - X)) by ring.
  eapply Rle_trans; [apply Rabs_triang|].
  assert (u * Rabs r <= u * (((1 + a) * X + Y) * i)) by (apply Rmult_le_compat_l; lra).
  replace (((1 + u) * (1 + a) / (1 - b) - 1) * X + (1 + u) / (1 - b) * Y) with ((1 + u) * (((1 + a) * X + Y) * i) - X) by (unfold i; field; lra).
  lra.
Qed.

Lemma u_small : u <= / 1000000.
Proof.
  apply Rle_trans with (bpow (-20)); [apply bpow_le; lia|]. change (-20)%Z with (- (20))%Z. rewrite bpow_neg, bpow_IZR by lia.
  change (2 ^ 20)%Z with 1048576%Z. lra.
Qed.

Lemma inv_1mu : / (1 - u) <= (1 + u) ^ 2.
Proof.
  assert (Hu := u_pos). assert (Hs := u_small). apply Rmult_le_reg_l with (1 - u); [lra|]. rewrite Rinv_r by lra.
  assert (0 <= u * (1 - u - u * u)); [|cbn [pow]; lra]. apply Rmult_le_pos; [lra|].
  assert (u * u <= u * 1) by (apply Rmult_le_compat_l; lra). lra.
Qed.

Lemma iszero_of_fval : forall x, canon x -> fval x = 0 -> f_iszero x = true.
Proof.
  intros [s|s| |s m e] C H; try contradiction; [reflexivity|]. exfalso. cbn [fval] in H.
  assert (0 < IZR (Z.pos m) * bpow e) by (apply Rmult_lt_0_compat; [apply IZR_lt; lia|apply bpow_pos]).
  destruct s; lra.
Qed.
Lemma fval_iszero : forall x, f_iszero x = true -> fval x = 0.
Proof. intros [s|s| |s m e] H; try discriminate. reflexivity. Qed.

(** One term (a - b)^2 / (a + b) of the chi-squared statistic. *)
Definition chi_q (a b : R) : R := if Req_EM_T (a + b) 0 then 0 else (a - b) * (a - b) / (a + b).
Definition chi_t (e : platform) (a b : f64) : f64 :=
  let v := fdiv (e_pow e (fsub a b) ftwo) (fadd a b) in if f_isnan v then fzero else v.

Lemma chi_q_nonneg : forall a b, 0 <= a -> 0 <= b -> 0 <= chi_q a b <= a + b.
Proof.
  intros a b Ha Hb. unfold chi_q. destruct (Req_EM_T (a + b) 0) as [E|E]; [lra|].
  assert (Hi : 0 < / (a + b)) by (apply Rinv_0_lt_compat; lra). split.
  - apply Rmult_le_pos; [apply Rle_0_sqr|lra].
  - apply Rmult_le_reg_r with (a + b); [lra|]. unfold Rdiv. rewrite Rmult_assoc, Rinv_l, Rmult_1_r by lra.
    assert (0 <= a * b) by (apply Rmult_le_pos; lra). lra.
Qed.

Lemma midsize_range : forall r, midsize r -> 0 <= r <= bpow 500.
Proof. intros r [->|H]; [split; [lra|apply Rlt_le, bpow_pos]|]. assert (Hp := bpow_pos (-400)). lra. Qed.

Lemma chi_term : forall e a b, decent e -> pow_within eps 2 e -> canon a -> canon b -> midsize (fval a) -> midsize (fval b) ->
  canon (chi_t e a b) /\
  Rabs (fval (chi_t e a b) - chi_q (fval a) (fval b)) <= ((1 + u) ^ 7 - 1) * Rabs (chi_q (fval a) (fval b)) + bpow (-600).
Proof.
  intros e a b He Hpow Ca Cb Ma Mb.
  assert (Ra := midsize_range _ Ma). assert (Rb := midsize_range _ Mb).
  assert (Q := chi_q_nonneg (fval a) (fval b) ltac:(lra) ltac:(lra)). rewrite (Rabs_pos_eq (chi_q _ _)) by lra.
  assert (Hu := u_pos). assert (Hu1 := u_small).
  unfold chi_t, chi_q in *. cbv zeta. destruct (Req_EM_T (fval a + fval b) 0) as [E|E].
  - assert (Za : f_iszero a = true) by (apply iszero_of_fval; [exact Ca|lra]).
    assert (Zb : f_iszero b = true) by (apply iszero_of_fval; [exact Cb|lra]).
    assert (ZS : f_iszero (fsub a b) = true).
    { destruct a as [sa| | |]; try discriminate; destruct b as [sb| | |]; try discriminate; destruct sa, sb; reflexivity. }
    assert (ZA : f_iszero (fadd a b) = true).
    { destruct a as [sa| | |]; try discriminate; destruct b as [sb| | |]; try discriminate; destruct sa, sb; reflexivity. }
    assert (ZP := d_pow_zero e He _ ZS).
    assert (HN : fdiv (e_pow e (fsub a b) ftwo) (fadd a b) = S754_nan).
    { destruct (e_pow e (fsub a b) ftwo); try discriminate. destruct (fadd a b); try discriminate. reflexivity. }
    rewrite HN. split; [exact I|]. cbn [f_isnan]. change (fval fzero) with 0. rewrite Rminus_0_r, Rabs_R0, Rmult_0_r, Rplus_0_l.
    apply Rlt_le, bpow_pos.
  - set (S := fval a + fval b) in *. set (V := fval a - fval b) in *.
    assert (HS : bpow (-400) <= S).
    { unfold S in *. destruct Ma as [Ma|Ma], Mb as [Mb|Mb]; lra. }
    assert (HS0 : 0 < S) by (assert (Hp := bpow_pos (-400)); lra).
    assert (B1 : 2 * bpow 500 = bpow 501) by (change 501%Z with (1 + 500)%Z; rewrite bpow_add; change (bpow 1) with (2 * 1); ring).
    assert (HS1 : S <= bpow 501) by (unfold S; lra).
    assert (HV1 : Rabs V <= bpow 500) by (unfold V; apply Rabs_le; lra).
    destruct (fsub_any a b Ca Cb) as (Cv & Ev & _).
    { apply Rle_lt_trans with (1 := HV1). apply big. lia. }
    destruct (fadd_any a b Ca Cb) as (Cs & Es & _).
    { fold S. rewrite Rabs_pos_eq by lra. apply Rle_lt_trans with (1 := HS1). apply big. lia. }
    fold S in Es. rewrite (Rabs_pos_eq S) in Es by lra. fold V in Ev.
    set (v := fsub a b) in *.
    assert (Ev2 := sq_rel (fval v) V u ltac:(lra) Ev).
    assert (HVV : 0 <= V * V) by apply Rle_0_sqr.
    assert (HVV1 : V * V <= bpow 1000).
    { change 1000%Z with (500 + 500)%Z. rewrite bpow_add. replace (V * V) with (Rabs V * Rabs V) by (rewrite <- Rabs_mult; apply Rabs_pos_eq; exact HVV).
      apply Rmult_le_compat; try apply Rabs_pos; exact HV1. }
    assert (Huu : u * u <= u * / 1000000) by (apply Rmult_le_compat_l; lra).
    assert (Hvv : fval v * fval v <= 2 * (V * V)).
    { apply Rabs_le_inv in Ev2. assert (((1 + u) * (1 + u) - 1) * (V * V) <= 1 * (V * V)) by (apply Rmult_le_compat_r; lra). lra. }
    destruct (canon_valid v Cv) as [Fv Vv].
    destruct (Hpow v Fv Vv) as [[Fp Ep] Vp].
    { rewrite RPow_abs, Rabs_pos_eq by (cbn [pow]; rewrite Rmult_1_r; apply Rle_0_sqr).
      cbn [pow]. rewrite Rmult_1_r. apply Rle_trans with (1 := Hvv). apply Rle_trans with (bpow (1 + 1000)).
      - rewrite bpow_add. change (bpow 1) with (2 * 1). lra.
      - apply bpow_le. lia. }
    change (fint (Z.of_nat 2)) with ftwo in *.
    assert (Cp := valid_canon _ Fp Vp).
    set (p := e_pow e v ftwo) in *.
    assert (Hpv : fval v ^ 2 = fval v * fval v) by (cbn [pow]; ring). rewrite Hpv in Ep.
    assert (Hpa : Rabs (fval v) ^ 2 = Rabs (fval v * fval v)).
    { rewrite RPow_abs, Hpv. reflexivity. }
    rewrite Hpa in Ep.
    assert (Ep' := chain (fval p) (fval v * fval v) (V * V) eps ((1 + u) * (1 + u) - 1) 0 least).
    assert (Heps : 0 < eps) by apply bpow_pos. assert (Hue := u_eps). assert (Hl : 0 < least) by apply bpow_pos.
    assert (Hq2 : 0 <= (1 + u) * (1 + u) - 1) by (assert (0 <= u * u) by (apply Rmult_le_pos; lra); lra).
    specialize (Ep' ltac:(lra) Hq2 HVV ltac:(lra) ltac:(lra) Ep).
    set (al := (1 + u) ^ 4 - 1).
    assert (Hal : (1 + eps) * (1 + ((1 + u) * (1 + u) - 1)) - 1 <= al).
    { unfold al. rewrite <- Hue. replace (1 + ((1 + u) * (1 + u) - 1)) with ((1 + u) * (1 + u)) by ring. cbn [pow].
      assert (0 <= (u * u) * ((1 + u) * (1 + u))) by (apply Rmult_le_pos; [apply Rle_0_sqr|apply Rle_0_sqr]). lra. }
    assert (Hal0 : 0 <= al) by (assert (G := grow_ge1 4); unfold al; lra).
    assert (Hal1 : al <= / 4).
    { unfold al. destruct (grow_le 4) as [_ G]; [|lra]. cbn [INR]. apply Rle_trans with (bpow 3); [change (bpow 3) with (2 * (2 * (2 * 1))); lra|apply bpow_le; lia]. }
    assert (Ep2 : Rabs (fval p - V * V) <= al * (V * V) + least).
    { apply Rle_trans with (1 := Ep'). assert (((1 + eps) * (1 + ((1 + u) * (1 + u) - 1)) - 1) * (V * V) <= al * (V * V)) by (apply Rmult_le_compat_r; lra). lra. }
    assert (HQ : 0 <= V * V / S <= S) by (unfold S, V in *; lra).
    assert (HlS : least / S <= bpow (-674)).
    { apply Rmult_le_reg_r with S; [lra|]. unfold Rdiv. rewrite Rmult_assoc, Rinv_l, Rmult_1_r by lra.
      unfold least. change (-1074)%Z with (-674 + -400)%Z. rewrite bpow_add. apply Rmult_le_compat_l; [apply Rlt_le, bpow_pos|exact HS]. }
    assert (Hl0 : 0 <= least / S) by (apply Rmult_le_pos; [lra|apply Rlt_le, Rinv_0_lt_compat; lra]).
    assert (Hone : bpow (-674) <= 1) by (rewrite <- bpow_0; apply bpow_le; lia).
    assert (B500 : 1 <= bpow 501) by (rewrite <- bpow_0; apply bpow_le; lia).
    destruct (quot_any p (fadd a b) (V * V) S al u least Cp Cs HVV HS0 Hal0 ltac:(lra) ltac:(lra) Ep2 Es) as [C D].
    { apply Rle_lt_trans with (2 * (2 * bpow 501 + 1 * bpow 501)).
      - assert ((1 + al) * (V * V / S) <= 2 * bpow 501) by (apply Rmult_le_compat; lra). lra.
      - apply Rle_lt_trans with (bpow (3 + 501)); [|apply big; lia]. rewrite bpow_add. change (bpow 3) with (2 * (2 * (2 * 1))). lra. }
    assert (HN : f_isnan (fdiv p (fadd a b)) = false).
    { destruct (fdiv p (fadd a b)); try reflexivity. contradiction. }
    rewrite HN. split; [exact C|]. apply Rle_trans with (1 := D).
    assert (I := inv_1mu).
    assert (HI : (1 + u) * (1 + al) / (1 - u) <= (1 + u) ^ 7).
    { replace (1 + al) with ((1 + u) ^ 4) by (unfold al; ring).
      replace ((1 + u) ^ 7) with ((1 + u) * (1 + u) ^ 4 * (1 + u) ^ 2) by ring. unfold Rdiv. apply Rmult_le_compat_l; [|exact I].
      apply Rmult_le_pos; [lra|]. assert (G := grow_ge1 4). lra. }
    assert (HJ : (1 + u) / (1 - u) <= 2).
    { apply Rle_trans with ((1 + u) * (1 + u) ^ 2); [apply Rmult_le_compat_l; [lra|exact I]|].
      destruct (grow_le 3) as [_ G]; [|cbn [pow] in G; lra].
      cbn [INR]. apply Rle_trans with (bpow 3); [change (bpow 3) with (2 * (2 * (2 * 1))); lra|apply bpow_le; lia]. }
    assert (HJ0 : 0 <= (1 + u) / (1 - u)) by (apply Rmult_le_pos; [lra|apply Rlt_le, Rinv_0_lt_compat; lra]).
    assert (K1 : ((1 + u) * (1 + al) / (1 - u) - 1) * (V * V / S) <= ((1 + u) ^ 7 - 1) * (V * V / S)) by (apply Rmult_le_compat_r; lra).
    assert (K2 : (1 + u) / (1 - u) * (least / S) <= 2 * bpow (-674)) by (apply Rmult_le_compat; lra).
    assert (K3 : 2 * bpow (-674) + tiny <= bpow (-600)).
    { assert (tiny <= bpow (-674)) by (apply bpow_le; lia). apply Rle_trans with (bpow (2 + -674)); [|apply bpow_le; lia].
      rewrite bpow_add. change (bpow 2) with (2 * (2 * 1)). assert (Hp := bpow_pos (-674)). lra. }
    unfold V, S in *. lra.
Qed.

Lemma chi2_sum : forall d x y, chi2stat d x y = rsum d (fun k => chi_q (x k) (y k)).
Proof. reflexivity. Qed.

Lemma features_nonneg : forall d x, doubles d x -> (forall k, (k < d)%nat -> 0 <= vals x k) -> forallb f_nonneg (features d x) = true.
Proof.
  intros d x Dx Hx. apply forallb_forall. intros v Hv. apply in_map_iff in Hv. destruct Hv as (k & <- & Hk). apply in_seq in Hk.
  apply nonneg_of_fval; [apply (doubles_canon d x k Dx); lia|apply Hx; lia].
Qed.

Lemma INR_le_bpow : forall n k, (0 <= k)%Z -> (Z.of_nat n <= 2 ^ k)%Z -> INR n <= bpow k.
Proof. intros n k Hk H. rewrite INR_IZR_INZ, bpow_IZR by exact Hk. apply IZR_le, H. Qed.

(** C86: the chi-squared kernel, on features that are zero or between 2^-400 and 2^500: off by at most
    delta + (d + 8) eps. *)
Lemma pf_C86_chi2 : forall e delta gamma d x y, decent e -> exp_within delta e -> pow_within eps 2 e ->
  f_finite gamma = true -> valid_binary 53 1024 gamma = true -> 0 < fval gamma <= bpow 400 ->
  doubles d x -> doubles d y -> INR d + 8 <= bpow 50 ->
  (forall k, (k < d)%nat -> midsize (vals x k) /\ midsize (vals y k)) ->
  exists v, fkernel_value e (FChi2 gamma) (features d x) (features d y) = Ok v /\
    near (exp (- fval gamma * chi2stat d (vals x) (vals y))) (delta + (INR d + 8) * eps) v.
Proof.
  intros e delta gamma d x y He Hexp Hpow Fg Vg Hg Dx Dy Hd HM. cbn [fkernel_value].
  assert (Hx0 : forall k, (k < d)%nat -> 0 <= vals x k) by (intros k Hk; apply midsize_range, HM, Hk).
  assert (Hy0 : forall k, (k < d)%nat -> 0 <= vals y k) by (intros k Hk; apply midsize_range, HM, Hk).
  rewrite (nonneg_not_neg _ (features_nonneg d x Dx Hx0)), (nonneg_not_neg _ (features_nonneg d y Dy Hy0)).
  eexists. split; [reflexivity|].
  assert (Cg := valid_canon _ Fg Vg). assert (Hu := u_pos). assert (Hu1 := u_small). assert (Hn := pos_INR d).
  set (D := chi2stat d (vals x) (vals y)).
  assert (HQ : forall k, (k < d)%nat -> 0 <= chi_q (vals x k) (vals y k) <= bpow 501).
  { intros k Hk. destruct (chi_q_nonneg (vals x k) (vals y k)) as [H1 H2]; auto. split; [exact H1|].
    destruct (HM k Hk) as [Mx My]. apply midsize_range in Mx. apply midsize_range in My.
    change 501%Z with (1 + 500)%Z. rewrite bpow_add. change (bpow 1) with (2 * 1). lra. }
  assert (HD : 0 <= D) by (apply rsum_nonneg; intros k Hk; apply (HQ k Hk)).
  assert (HDb : D <= bpow 551).
  { apply Rle_trans with (INR d * bpow 501).
    - rewrite <- rsum_const. apply rsum_le. intros k Hk. apply (HQ k Hk).
    - change 551%Z with (50 + 501)%Z. rewrite bpow_add. apply Rmult_le_compat_r; [apply Rlt_le, bpow_pos|lra]. }
  assert (HDa : rsum d (fun k => Rabs (chi_q (vals x k) (vals y k))) = D).
  { apply rsum_ext. intros k Hk. apply Rabs_pos_eq, (HQ k Hk). }
  set (s := fnansum e (zip (fun a b => fdiv (e_pow e (fsub a b) ftwo) (fadd a b)) (features d x) (features d y))).
  assert (Hs : adds_up (map (fun k => chi_t e (x k) (y k)) (seq 0 d)) s).
  { unfold s, fnansum. rewrite zip_features, map_map. apply (d_sum e He). }
  assert (Hd' : INR d <= bpow 50) by lra.
  assert (T : forall k, (k < d)%nat -> canon (chi_t e (x k) (y k)) /\
    Rabs (fval (chi_t e (x k) (y k)) - chi_q (vals x k) (vals y k)) <= ((1 + u) ^ 7 - 1) * Rabs (chi_q (vals x k) (vals y k)) + bpow (-600)).
  { intros k Hk. destruct (HM k Hk) as [Mx My]. apply chi_term; auto.
    - exact (doubles_canon d x k Dx Hk).
    - exact (doubles_canon d y k Dy Hk). }
  assert (G7 := grow_ge1 7). assert (G7' : (1 + u) ^ 7 <= 5 / 4).
  { apply grow_le. apply Rle_trans with (bpow 3); [apply INR_le_bpow; lia|apply bpow_le; lia]. }
  assert (B600 : 0 <= bpow (-600) <= 1).
  { split; [apply Rlt_le, bpow_pos|]. rewrite <- bpow_0. apply bpow_le. lia. }
  destruct (sum_terms s d _ (fun k => chi_q (vals x k) (vals y k)) ((1 + u) ^ 7 - 1) (bpow (-600)) Hs Hd' ltac:(lra) B600 T) as [Cs Es].
  { rewrite HDa. replace (1 + ((1 + u) ^ 7 - 1)) with ((1 + u) ^ 7) by ring.
    apply Rle_trans with (2 * bpow 551); [apply Rmult_le_compat; lra|].
    apply Rle_trans with (bpow (1 + 551)); [rewrite bpow_add; change (bpow 1) with (2 * 1); lra|apply bpow_le; lia]. }
  rewrite HDa in Es. change (rsum d (fun k => chi_q (vals x k) (vals y k))) with D in Es.
  replace (1 + ((1 + u) ^ 7 - 1)) with ((1 + u) ^ 7) in Es by ring. rewrite <- pow_add in Es.
  assert (Hpow8 : INR (d + 8) = INR d + 8) by (rewrite plus_INR; cbn [INR]; ring).
  assert (Hpow7 : INR (d + 7) = INR d + 7) by (rewrite plus_INR; cbn [INR]; ring).
  destruct (grow_le (d + 7)) as [G1 G2]; [lra|].
  set (th := (1 + u) ^ (d + 6) - 1). set (ta := 5 / 4 * INR d * bpow (-600)).
  assert (GM : (1 + u) ^ (d - 1 + 7) - 1 <= th \/ d = 0%nat).
  { destruct d as [|d']; [right; reflexivity|left]. unfold th. replace (S d' - 1 + 7)%nat with (S d' + 6)%nat by lia. lra. }
  assert (Es' : Rabs (fval s - D) <= th * D + ta).
  { apply Rle_trans with (1 := Es). apply Rplus_le_compat_r. destruct GM as [GM|E0].
    - apply Rmult_le_compat_r; lra.
    - unfold D, chi2stat. rewrite E0. cbn [rsum]. lra. }
  assert (Gth := grow_ge1 (d + 6)). assert (Gth' := grow_mono (d + 6) (d + 7) ltac:(lia)).
  assert (Hta0 : 0 <= ta) by (unfold ta; apply Rmult_le_pos; [lra|apply B600]).
  assert (Hta : ta <= bpow (-549)).
  { unfold ta. apply Rle_trans with (2 * bpow 50 * bpow (-600)).
    - apply Rmult_le_compat_r; [apply B600|]. lra.
    - change (-549)%Z with (1 + 50 + -600)%Z. rewrite !bpow_add. change (bpow 1) with (2 * 1). lra. }
  assert (Hgta : fval gamma * ta <= bpow (-149)).
  { change (-149)%Z with (400 + -549)%Z. rewrite bpow_add. apply Rmult_le_compat; lra. }
  assert (Hgta0 : 0 <= fval gamma * ta) by (apply Rmult_le_pos; lra).
  assert (Hs0 : 0 <= fval s).
  { apply fval_nonneg. apply (adds_nonneg _ _ Hs). apply forallb_forall. intros w Hw. apply in_map_iff in Hw.
    destruct Hw as (k & <- & Hk). apply in_seq in Hk. assert (Hk' : (k < d)%nat) by lia.
    unfold chi_t. cbv zeta.
    assert (Cx := doubles_canon d x k Dx Hk'). assert (Cy := doubles_canon d y k Dy Hk').
    assert (Nx := nonneg_of_fval _ Cx (Hx0 k Hk')). assert (Ny := nonneg_of_fval _ Cy (Hy0 k Hk')).
    assert (Hm := HM k Hk'). destruct Hm as [Mx My]. apply midsize_range in Mx. apply midsize_range in My.
    destruct (fadd_any (x k) (y k) Cx Cy) as (_ & Ea & _).
    { unfold vals in *. rewrite Rabs_pos_eq by lra. apply Rle_lt_trans with (bpow (1 + 500)); [|apply big; lia].
      rewrite bpow_add. change (bpow 1) with (2 * 1). lra. }
    apply fdiv_nonneg.
    - assert (Hn' := fsub_finite (x k) (y k) (canon_finite _ Cx) (canon_finite _ Cy)).
      destruct (f_nonneg (fsub (x k) (y k))) eqn:Hsg; [apply (d_pow_nonneg e He); exact Hsg |].
      rewrite <- (d_pow_even e He). apply (d_pow_nonneg e He).
      destruct (fsub (x k) (y k)) as [sg|[]| |[]]; try discriminate; try reflexivity. destruct Hn'. reflexivity.
    - apply fadd_nonneg; assumption.
    - intros Hz. rewrite Hz in Ea. cbn [fval] in Ea. unfold vals in *.
      rewrite (Rabs_pos_eq (fval (x k) + fval (y k))) in Ea by lra. unfold Rminus in Ea. rewrite Rplus_0_l, Rabs_Ropp, Rabs_pos_eq in Ea by lra.
      assert (u * (fval (x k) + fval (y k)) <= / 2 * (fval (x k) + fval (y k))) by (apply Rmult_le_compat_r; lra).
      apply (d_pow_zero e He).
      assert (Zx : f_iszero (x k) = true) by (apply iszero_of_fval; [exact Cx|lra]).
      assert (Zy : f_iszero (y k) = true) by (apply iszero_of_fval; [exact Cy|lra]).
      destruct (x k) as [sa| | |]; try discriminate; destruct (y k) as [sb| | |]; try discriminate; destruct sa, sb; reflexivity. }
  destruct (exp_scaled e delta gamma s D th ta Hexp Cg ltac:(lra) Cs Hs0 HD ltac:(unfold th; lra) Hta0 Es') as [F E].
  { rewrite Rmult_plus_distr_l.
    assert (fval gamma * (2 * D) <= bpow 400 * (2 * bpow 551)) by (apply Rmult_le_compat; lra).
    assert (bpow 400 * (2 * bpow 551) = bpow 952).
    { change 952%Z with (1 + (400 + 551))%Z. rewrite !bpow_add. change (bpow 1) with (2 * 1). ring. }
    assert (bpow (-149) <= bpow 952) by (apply bpow_le; lia).
    assert (2 * bpow 952 = bpow 953) by (change 953%Z with (1 + 952)%Z; rewrite bpow_add; change (bpow 1) with (2 * 1); ring).
    assert (bpow 953 < bpow 1020) by (apply big; lia). lra. }
  split; [exact F|]. apply Rle_trans with (1 := E).
  assert (H1 : (1 + u) * (1 + th) = (1 + u) ^ (d + 7)).
  { unfold th. replace (d + 7)%nat with (S (d + 6)) by lia. cbn [pow]. ring. }
  rewrite H1.
  assert (Hsm : 2 * ((1 + u) * (fval gamma * ta) + tiny) <= eps).
  { assert ((1 + u) * (fval gamma * ta) <= 2 * bpow (-149)) by (apply Rmult_le_compat; lra).
    assert (tiny <= bpow (-149)) by (apply bpow_le; lia).
    apply Rle_trans with (bpow (3 + -149)); [|apply bpow_le; lia]. rewrite bpow_add. change (bpow 3) with (2 * (2 * (2 * 1))).
    assert (Hp := bpow_pos (-149)). lra. }
  rewrite Hpow7 in G1. lra.
Qed.

(** C86: kernel matrices of Chi2Kernel are symmetric, and positive semidefinite up to the rounding error. *)
Lemma pf_C86_chi2_psd : forall e delta gamma n d X K, decent e -> exp_within delta e -> pow_within eps 2 e ->
  f_finite gamma = true -> valid_binary 53 1024 gamma = true -> 0 < fval gamma <= bpow 400 ->
  (forall i, (i < n)%nat -> doubles d (X i)) -> INR d + 8 <= bpow 50 ->
  (forall i k, (i < n)%nat -> (k < d)%nat -> midsize (vals (X i) k)) ->
  (forall i j, (i < n)%nat -> (j < n)%nat ->
     fkernel_value e (FChi2 gamma) (features d (X i)) (features d (X j)) = Ok (K i j)) ->
  symmetric n (fun i j => fval (K i j)) /\
  almost_psd n (fun i j => fval (K i j)) (fun c =>
    (delta + (INR d + 8) * eps) * (rsum n (fun i => Rabs (c i)) * rsum n (fun i => Rabs (c i)))).
Proof.
  intros e delta gamma n d X K He Hexp Hpow Fg Vg Hg DX Hd HM HK. split.
  - intros i j Hi Hj. assert (E1 := HK i j Hi Hj). assert (E2 := HK j i Hj Hi).
    rewrite (pf_C76_symmetric e) in E1 by apply (d_pow_even e He). congruence.
  - apply (almost_psd_const n _ (fun i j => exp (- fval gamma * chi2stat d (vals (X i)) (vals (X j))))).
    + apply (psd_chi2 n d (fun i => vals (X i))); [lra|]. intros i k Hi Hk. apply midsize_range, HM; assumption.
    + intros i j Hi Hj. assert (E1 := HK i j Hi Hj).
      destruct (pf_C86_chi2 e delta gamma d (X i) (X j) He Hexp Hpow Fg Vg Hg (DX i Hi) (DX j Hj) Hd) as (v & Ev & _ & Hv).
      { intros k Hk. split; apply HM; assumption. }
      rewrite E1 in Ev. injection Ev as <-. exact Hv.
Qed.

(** One term of HadamardKernel. *)
Definition had_q (a b : R) : R := if Req_EM_T (a + b) 0 then 0 else a * b / (2 * (a + b)).

Lemma had_q_nonneg : forall a b, 0 <= a -> 0 <= b -> 0 <= had_q a b <= a.
Proof.
  intros a b Ha Hb. unfold had_q. destruct (Req_EM_T (a + b) 0) as [E|E]; [lra|].
  assert (Hi : 0 < / (2 * (a + b))) by (apply Rinv_0_lt_compat; lra).
  assert (0 <= a * b) by (apply Rmult_le_pos; lra). split.
  - apply Rmult_le_pos; lra.
  - apply Rmult_le_reg_r with (2 * (a + b)); [lra|]. unfold Rdiv. rewrite Rmult_assoc, Rinv_l, Rmult_1_r by lra.
    assert (0 <= a * a) by apply Rle_0_sqr. lra.
Qed.

Lemma abspower_nonneg : forall alpha r, 0 <= abspower alpha r.
Proof. intros. unfold abspower. destruct (Req_EM_T r 0); [lra|]. apply Rlt_le, exp_pos. Qed.

Lemma had_pow : forall e delta alpha x, powers_within delta alpha e -> 0 <= delta -> canon x ->
  midsize (abspower (fval alpha) (fval x)) ->
  let A := abspower (fval alpha) (fval x) in let a := e_pow e (fabs x) alpha in
  canon a /\ Rabs (fval a - A) <= delta * A /\ (A = 0 -> f_iszero a = true).
Proof.
  intros e delta alpha x [HZ HP] Hd Cx HM A a. unfold A in *. unfold abspower in *.
  destruct (Req_EM_T (fval x) 0) as [E|E].
  - assert (Zx := iszero_of_fval x Cx E). assert (Za : f_iszero a = true).
    { apply HZ. destruct x; try discriminate. reflexivity. }
    split; [destruct a; try discriminate; exact I|]. rewrite (fval_iszero a Za). split; [|auto].
    rewrite Rminus_0_r, Rabs_R0. lra.
  - assert (Hpos : 0 < Rpower (Rabs (fval x)) (fval alpha)) by apply exp_pos.
    destruct HM as [HM|HM]; [lra|].
    assert (Ca := canon_abs x Cx). destruct (canon_valid _ Ca) as [Fa Va].
    assert (Habs : fval (fabs x) = Rabs (fval x)) by apply fval_abs.
    destruct (HP (fabs x) Fa Va) as [[Fp Ep] Vp].
    { rewrite Habs. apply Rabs_pos_lt, E. }
    { rewrite Habs. exact HM. }
    rewrite Habs in Ep. fold a in Ep, Fp, Vp. split; [apply valid_canon; assumption|]. split; [exact Ep|]. lra.
Qed.

Lemma prod_rel : forall a b A B dl, 0 <= A -> 0 <= B -> 0 <= dl -> Rabs (a - A) <= dl * A -> Rabs (b - B) <= dl * B ->
  Rabs (a * b - A * B) <= ((1 + dl) * (1 + dl) - 1) * (A * B).
Proof.
  intros a b A B dl HA HB Hd Ea Eb.
  replace (a * b - A * B) with ((a - A) * (b - B) + ((a - A) * B + A * (b - B))) by ring.
  eapply Rle_trans; [apply Rabs_triang|]. eapply Rle_trans; [apply Rplus_le_compat_l, Rabs_triang|].
  rewrite !Rabs_mult, (Rabs_pos_eq A), (Rabs_pos_eq B) by lra.
  assert (Rabs (a - A) * Rabs (b - B) <= (dl * A) * (dl * B)) by (apply Rmult_le_compat; try apply Rabs_pos; assumption).
  assert (Rabs (a - A) * B <= (dl * A) * B) by (apply Rmult_le_compat_r; assumption).
  assert (A * Rabs (b - B) <= A * (dl * B)) by (apply Rmult_le_compat_l; assumption).
  lra.
Qed.

Definition kappa : R := bpow (-200).
Lemma kappa_u : 0 < kappa <= u / 1000000.
Proof.
  split; [apply bpow_pos|]. apply Rle_trans with (bpow (-20 + -53)); [apply bpow_le; lia|]. rewrite bpow_add.
  change (-20)%Z with (- (20))%Z. rewrite (bpow_neg 20), (bpow_IZR 20) by lia. change (2 ^ 20)%Z with 1048576%Z.
  assert (H := u_pos). unfold unit_roundoff in *. lra.
Qed.

(** The combined relative error of a term. *)
Definition had_c (dl : R) : R :=
  (1 + u) * (1 + ((1 + u) * ((1 + dl) * (1 + dl)) - 1 + kappa)) / (1 - ((1 + u) * ((1 + u) * (1 + dl)) - 1 + kappa)) - 1 + kappa.

Lemma had_c_bound : forall dl, 0 <= dl <= / 1000 -> 0 <= had_c dl <= 302 / 100 * dl + 42 / 10 * u /\
  0 <= (1 + u) * ((1 + dl) * (1 + dl)) - 1 + kappa <= / 2 /\
  0 <= (1 + u) * ((1 + u) * (1 + dl)) - 1 + kappa <= / 2.
Proof.
  intros dl Hd. assert (Hu := u_pos). assert (Hs := u_small). assert (Hk := kappa_u).
  assert (D2 : 0 <= dl * dl <= / 1000 * dl) by (split; [apply Rmult_le_pos; lra|apply Rmult_le_compat_r; lra]).
  assert (U2 : 0 <= u * u <= / 1000000 * u) by (split; [apply Rmult_le_pos; lra|apply Rmult_le_compat_r; lra]).
  assert (UD : 0 <= u * dl <= / 1000 * u) by (split; [apply Rmult_le_pos; lra|rewrite (Rmult_comm u); apply Rmult_le_compat_r; lra]).
  assert (UDD : 0 <= u * (dl * dl) <= / 1000 * u).
  { split; [apply Rmult_le_pos; lra|]. rewrite (Rmult_comm u). apply Rmult_le_compat_r; lra. }
  assert (UUD : 0 <= u * (u * dl) <= / 1000000 * u).
  { split; [apply Rmult_le_pos; lra|]. rewrite (Rmult_comm u). apply Rmult_le_compat_r; lra. }
  set (a' := (1 + u) * ((1 + dl) * (1 + dl)) - 1 + kappa).
  set (b' := (1 + u) * ((1 + u) * (1 + dl)) - 1 + kappa).
  assert (Ha : 0 <= a' <= 2001 / 1000 * dl + 101 / 100 * u) by (unfold a'; lra).
  assert (Hb : 0 <= b' <= dl + 201 / 100 * u) by (unfold b'; lra).
  split; [|split; lra].
  set (w := b' * (1002 / 1000)).
  assert (Hinv : / (1 - b') <= 1 + w).
  { apply Rmult_le_reg_l with (1 - b'); [lra|]. rewrite Rinv_r by lra.
    assert (0 <= b' * (2 / 1000 - 1002 / 1000 * b')); [|unfold w; lra]. apply Rmult_le_pos; lra. }
  assert (Hinv1 : 1 <= / (1 - b')).
  { apply Rmult_le_reg_l with (1 - b'); [lra|]. rewrite Rinv_r by lra. lra. }
  unfold had_c. fold a' b'. unfold Rdiv.
  assert (Hua : 1 <= (1 + u) * (1 + a')) by (assert (0 <= u * a') by (apply Rmult_le_pos; lra); lra).
  assert (Hw : 0 <= w <= 1002 / 1000 * dl + 202 / 100 * u) by (unfold w; lra).
  assert (Hq : (1 + u) * (1 + a') <= 1 + (2002 / 1000 * dl + 202 / 100 * u)).
  { assert (u * a' <= u * / 100) by (apply Rmult_le_compat_l; lra). lra. }
  set (z := 2002 / 1000 * dl + 202 / 100 * u) in *.
  split.
  - assert (1 * 1 <= (1 + u) * (1 + a') * / (1 - b')) by (apply Rmult_le_compat; lra). lra.
  - assert ((1 + u) * (1 + a') * / (1 - b') <= (1 + z) * (1 + w)) by (apply Rmult_le_compat; lra).
    assert (z * w <= 21 / 10000 * w) by (apply Rmult_le_compat_r; [lra|unfold z; lra]).
    unfold z in *. lra.
Qed.

Lemma ftwo_any : canon ftwo /\ fval ftwo = 2.
Proof. apply (fint_any 2). lia. Qed.

Lemma had_term : forall e delta alpha x y, powers_within delta alpha e -> 0 <= delta <= / 1000 -> canon x -> canon y ->
  let A := abspower (fval alpha) (fval x) in let B := abspower (fval alpha) (fval y) in
  let a := e_pow e (fabs x) alpha in let b := e_pow e (fabs y) alpha in
  let den := fmul ftwo (fadd a b) in
  midsize A -> midsize B ->
  if fltb fzero den
  then canon (fdiv (fmul a b) den) /\ Rabs (fval (fdiv (fmul a b) den) - had_q A B) <= had_c delta * had_q A B
  else had_q A B = 0.
Proof.
  intros e delta alpha x y HP Hd Cx Cy A B a b den MA MB.
  assert (Hu := u_pos). assert (Hus := u_small). assert (Hk := kappa_u).
  destruct (had_pow e delta alpha x HP ltac:(lra) Cx MA) as (Ca & Ea & Za).
  destruct (had_pow e delta alpha y HP ltac:(lra) Cy MB) as (Cb & Eb & Zb).
  fold A a in Ea, Za, Ca. fold B b in Eb, Zb, Cb.
  assert (RA := midsize_range _ MA). assert (RB := midsize_range _ MB).
  destruct (had_c_bound delta Hd) as (HC & Ha' & Hb').
  set (a' := (1 + u) * ((1 + delta) * (1 + delta)) - 1 + kappa) in *.
  set (b' := (1 + u) * ((1 + u) * (1 + delta)) - 1 + kappa) in *.
  destruct (Req_EM_T (A + B) 0) as [E0|E0].
  - assert (ZA := Za ltac:(lra)). assert (ZB := Zb ltac:(lra)).
    assert (Hden : fltb fzero den = false).
    { unfold den. destruct a as [sa| | |]; try discriminate. destruct b as [sb| | |]; try discriminate. destruct sa, sb; reflexivity. }
    rewrite Hden. unfold had_q. destruct (Req_EM_T (A + B) 0); [reflexivity|contradiction].
  - assert (HT : bpow (-400) <= A + B) by (destruct MA as [MA|MA], MB as [MB|MB]; lra).
    assert (B4 := bpow_pos (-400)). assert (B5 := bpow_pos 500).
    assert (A0 : 0 <= A) by lra. assert (B0 : 0 <= B) by lra.
    set (T := A + B) in *.
    assert (Eab : Rabs (fval a + fval b - T) <= delta * T).
    { replace (fval a + fval b - T) with ((fval a - A) + (fval b - B)) by (unfold T; ring).
      eapply Rle_trans; [apply Rabs_triang|]. unfold T. lra. }
    assert (HdT : 0 <= delta * T <= / 1000 * T) by (split; [apply Rmult_le_pos; lra|apply Rmult_le_compat_r; lra]).
    assert (B502 : 4 * bpow 500 = bpow 502) by (change 502%Z with (2 + 500)%Z; rewrite bpow_add; change (bpow 2) with (2 * (2 * 1)); ring).
    assert (Hab : Rabs (fval a + fval b) <= bpow 502) by (apply Rabs_le_inv in Eab; apply Rabs_le; unfold T in *; lra).
    destruct (fadd_any a b Ca Cb) as (C1 & E1 & _); [apply Rle_lt_trans with (1 := Hab), big; lia|].
    assert (E1' := chain (fval (fadd a b)) (fval a + fval b) T u delta 0 0 ltac:(lra) ltac:(lra) ltac:(lra) ltac:(lra) ltac:(lra) ltac:(lra)).
    rewrite Rmult_0_r, !Rplus_0_r in E1'.
    destruct ftwo_any as [C2 V2].
    assert (HuT : 0 <= u * T <= / 1000000 * T) by (split; [apply Rmult_le_pos; lra|apply Rmult_le_compat_r; lra]).
    assert (HudT : 0 <= u * (delta * T) <= / 1000000 * T).
    { split; [apply Rmult_le_pos; lra|]. apply Rmult_le_compat; lra. }
    assert (Hs1 : Rabs (2 * fval (fadd a b)) <= bpow 504).
    { rewrite Rabs_mult, (Rabs_pos_eq 2) by lra. assert (bpow 504 = 4 * bpow 502).
      { change 504%Z with (2 + 502)%Z. rewrite bpow_add. change (bpow 2) with (2 * (2 * 1)). ring. }
      assert (Rabs (fval (fadd a b)) <= 2 * T); [apply Rabs_le_inv in E1'; apply Rabs_le; lra|]. unfold T in *. lra. }
    destruct (fmul_any ftwo (fadd a b) C2 C1) as (Cden & Eden & _).
    { rewrite V2. apply Rle_lt_trans with (1 := Hs1), big. lia. }
    rewrite V2 in Eden. fold den in Cden, Eden.
    set (S := 2 * T). assert (HS0 : 0 < S) by (unfold S; lra).
    assert (E2S : Rabs (2 * fval (fadd a b) - S) <= ((1 + u) * (1 + delta) - 1) * S + 0).
    { unfold S. replace (2 * fval (fadd a b) - 2 * T) with (2 * (fval (fadd a b) - T)) by ring. rewrite Rabs_mult, (Rabs_pos_eq 2) by lra. lra. }
    assert (Eden' := chain (fval den) (2 * fval (fadd a b)) S u ((1 + u) * (1 + delta) - 1) 0 tiny ltac:(lra)
                       ltac:(assert (0 <= u * delta) by (apply Rmult_le_pos; lra); lra) ltac:(lra) ltac:(lra) E2S Eden).
    rewrite Rmult_0_r, Rplus_0_r in Eden'.
    assert (HtS : tiny <= kappa * S).
    { apply Rle_trans with (kappa * bpow (-400)); [|apply Rmult_le_compat_l; [lra|unfold S; lra]].
      unfold kappa. rewrite <- bpow_add. apply bpow_le. lia. }
    assert (EdenS : Rabs (fval den - S) <= b' * S).
    { apply Rle_trans with (1 := Eden'). unfold b'. replace (1 + ((1 + u) * (1 + delta) - 1)) with ((1 + u) * (1 + delta)) by ring. lra. }
    assert (Hden0 : 0 < fval den).
    { apply Rabs_le_inv in EdenS. assert (b' * S <= / 2 * S) by (apply Rmult_le_compat_r; lra). lra. }
    assert (Hkeep : fltb fzero den = true).
    { apply ltb_any; [exact I|exact Cden|]. change (fval fzero) with 0. exact Hden0. }
    rewrite Hkeep. unfold had_q. destruct (Req_EM_T (A + B) 0) as [E|_]; [contradiction|]. fold T. fold S.
    assert (Hzero : A = 0 \/ B = 0 -> f_iszero (fmul a b) = true).
    { intros [H|H]; [assert (Z := Za H)|assert (Z := Zb H)].
      - destruct a as [sa| | |]; try discriminate. destruct b; try contradiction; reflexivity.
      - destruct b as [sb| | |]; try discriminate. destruct a; try contradiction; reflexivity. }
    assert (Hz : A = 0 \/ B = 0 -> canon (fdiv (fmul a b) den) /\ Rabs (fval (fdiv (fmul a b) den) - A * B / S) <= had_c delta * (A * B / S)).
    { intros H. assert (Z := Hzero H). assert (HAB : A * B / S = 0).
      { destruct H as [-> | ->]; unfold Rdiv; ring. }
      rewrite HAB. destruct (fmul a b); try discriminate. destruct den; try contradiction; [cbn in Hden0; lra|].
      split; [exact I|]. unfold fdiv, SFdiv. cbn [fval]. rewrite Rminus_0_r, Rabs_R0, Rmult_0_r. lra. }
    destruct MA as [MA|MA]; [apply Hz; left; exact MA|]. destruct MB as [MB|MB]; [apply Hz; right; exact MB|].
    clear Hz Hzero.
    assert (Hprod := prod_rel (fval a) (fval b) A B delta A0 B0 ltac:(lra) Ea Eb).
    assert (HABlo : bpow (-800) <= A * B).
    { change (-800)%Z with (-400 + -400)%Z. rewrite bpow_add. apply Rmult_le_compat; lra. }
    assert (B8 := bpow_pos (-800)).
    assert (HABhi : A * B <= bpow 1000) by (change 1000%Z with (500 + 500)%Z; rewrite bpow_add; apply Rmult_le_compat; lra).
    assert (Hdd : (1 + delta) * (1 + delta) - 1 <= 1).
    { assert (delta * delta <= / 1000 * delta) by (apply Rmult_le_compat_r; lra). lra. }
    assert (Hdd0 : 0 <= (1 + delta) * (1 + delta) - 1) by (assert (0 <= delta * delta) by apply Rle_0_sqr; lra).
    assert (Habhi : Rabs (fval a * fval b) <= bpow 1001).
    { assert (((1 + delta) * (1 + delta) - 1) * (A * B) <= 1 * (A * B)) by (apply Rmult_le_compat_r; lra).
      apply Rabs_le_inv in Hprod. change 1001%Z with (1 + 1000)%Z. rewrite bpow_add. change (bpow 1) with (2 * 1).
      apply Rabs_le. lra. }
    destruct (fmul_any a b Ca Cb) as (Cn & En & _); [apply Rle_lt_trans with (1 := Habhi), big; lia|].
    assert (En' := chain (fval (fmul a b)) (fval a * fval b) (A * B) u ((1 + delta) * (1 + delta) - 1) 0 tiny ltac:(lra) Hdd0 ltac:(lra) ltac:(lra) ltac:(lra) En).
    rewrite Rmult_0_r, Rplus_0_r in En'.
    assert (HtP : tiny <= kappa * (A * B)).
    { apply Rle_trans with (kappa * bpow (-800)); [|apply Rmult_le_compat_l; lra].
      unfold kappa. rewrite <- bpow_add. apply bpow_le. lia. }
    assert (EnP : Rabs (fval (fmul a b) - A * B) <= a' * (A * B) + 0).
    { apply Rle_trans with (1 := En'). unfold a'. replace (1 + ((1 + delta) * (1 + delta) - 1)) with ((1 + delta) * (1 + delta)) by ring. lra. }
    assert (HQ : had_q A B = A * B / S).
    { unfold had_q. destruct (Req_EM_T (A + B) 0) as [E|_]; [contradiction|]. reflexivity. }
    assert (HQ1 := had_q_nonneg A B A0 B0). rewrite HQ in HQ1.
    assert (HQlo : bpow (-402) <= A * B / S).
    { apply Rmult_le_reg_r with S; [exact HS0|]. unfold Rdiv. rewrite Rmult_assoc, Rinv_l, Rmult_1_r by lra.
      assert (H4 : bpow (-400) = 4 * bpow (-402)) by (change (-400)%Z with (2 + -402)%Z; rewrite bpow_add; change (bpow 2) with (2 * (2 * 1)); ring).
      unfold S, T.
      assert (4 * bpow (-402) * B <= A * B) by (rewrite <- H4; apply Rmult_le_compat_r; lra).
      assert (A * (4 * bpow (-402)) <= A * B) by (rewrite <- H4; apply Rmult_le_compat_l; lra). lra. }
    destruct (quot_any (fmul a b) den (A * B) S a' b' 0 Cn Cden ltac:(lra) HS0 ltac:(lra) ltac:(lra) ltac:(lra) EnP EdenS) as [C D].
    { unfold Rdiv at 2. rewrite Rmult_0_l, Rplus_0_r.
      assert ((1 + a') * (A * B / S) <= 2 * bpow 500) by (apply Rmult_le_compat; lra).
      apply Rle_lt_trans with (bpow 502); [lra|apply big; lia]. }
    split; [exact C|]. assert (H0S : 0 / S = 0) by (unfold Rdiv; ring). rewrite H0S, Rmult_0_r, Rplus_0_r in D.
    apply Rle_trans with (1 := D).
    assert (HtQ : tiny <= kappa * (A * B / S)).
    { apply Rle_trans with (kappa * bpow (-402)); [|apply Rmult_le_compat_l; lra].
      unfold kappa. rewrite <- bpow_add. apply bpow_le. lia. }
    unfold had_c. fold a' b'. lra.
Qed.

Lemma lsum_filter : forall d p (f : nat -> f64), lsum (map f (filter p (seq 0 d))) = rsum d (fun k => if p k then fval (f k) else 0).
Proof.
  induction d as [|d IH]; intros p f; [reflexivity|]. rewrite seq_S, filter_app, map_app, lsum_app, IH. cbn [rsum plus].
  rewrite Rplus_comm. cbn [filter]. destruct (p d); cbn [map lsum]; ring.
Qed.
Lemma labs_filter : forall d p (f : nat -> f64), labs (map f (filter p (seq 0 d))) = rsum d (fun k => if p k then Rabs (fval (f k)) else 0).
Proof.
  induction d as [|d IH]; intros p f; [reflexivity|]. rewrite seq_S, filter_app, map_app, labs_app, IH. cbn [rsum plus].
  rewrite Rplus_comm. cbn [filter]. destruct (p d); cbn [map labs]; ring.
Qed.
Lemma filter_map : forall {A B} (p : B -> bool) (f : A -> B) l, filter p (map f l) = map f (filter (fun x => p (f x)) l).
Proof. induction l as [|a l IH]; [reflexivity|]. cbn. destruct (p (f a)); cbn; rewrite IH; reflexivity. Qed.
Lemma filter_len : forall {A} (p : A -> bool) l, (length (filter p l) <= length l)%nat.
Proof. induction l as [|a l IH]; [cbn; lia|]. cbn. destruct (p a); cbn; lia. Qed.

(** C86: the Hadamard kernel, on features with |x|^alpha zero or between 2^-400 and 2^500: with powers of
    relative error [delta] the value has relative error 4 delta + (d + 3) eps. *)
Lemma pf_C86_hadamard : forall e delta alpha d x y, decent e -> powers_within delta alpha e -> 0 <= delta <= / 1000 ->
  doubles d x -> doubles d y -> INR d <= bpow 50 ->
  (forall k, (k < d)%nat -> midsize (abspower (fval alpha) (vals x k)) /\ midsize (abspower (fval alpha) (vals y k))) ->
  exists v, fkernel_value e (FHadamard alpha) (features d x) (features d y) = Ok v /\
    near (hadamard_sum d (fval alpha) (vals x) (vals y))
         ((4 * delta + (INR d + 3) * eps) * hadamard_sum d (fval alpha) (vals x) (vals y)) v.
Proof.
  intros e delta alpha d x y He HP Hdl Dx Dy Hd HM. eexists. split; [reflexivity|].
  assert (Hu := u_pos). assert (Hus := u_small). assert (Hn := pos_INR d).
  set (H := hadamard_sum d (fval alpha) (vals x) (vals y)).
  set (A := fun k => abspower (fval alpha) (vals x k)). set (B := fun k => abspower (fval alpha) (vals y k)).
  set (a := fun k => e_pow e (fabs (x k)) alpha). set (b := fun k => e_pow e (fabs (y k)) alpha).
  set (den := fun k => fmul ftwo (fadd (a k) (b k))).
  set (p := fun k => fltb fzero (den k)). set (f := fun k => fdiv (fmul (a k) (b k)) (den k)).
  assert (Hl : adds_up (map f (filter p (seq 0 d))) (fhadamard e alpha (features d x) (features d y))).
  { unfold fhadamard. cbv zeta.
    replace (map (fun w => e_pow e (fabs w) alpha) (features d x)) with (features d a) by (unfold features; rewrite map_map; reflexivity).
    replace (map (fun w => e_pow e (fabs w) alpha) (features d y)) with (features d b) by (unfold features; rewrite map_map; reflexivity).
    rewrite zip_features, filter_map, map_map. apply (d_sum e He). }
  set (v := fhadamard e alpha (features d x) (features d y)) in *.
  assert (HA : forall k, (k < d)%nat -> 0 <= A k <= bpow 500) by (intros k Hk; apply midsize_range, HM, Hk).
  assert (HB : forall k, (k < d)%nat -> 0 <= B k <= bpow 500) by (intros k Hk; apply midsize_range, HM, Hk).
  assert (HQ : forall k, (k < d)%nat -> 0 <= had_q (A k) (B k) <= A k).
  { intros k Hk. apply had_q_nonneg; [apply HA, Hk|apply HB, Hk]. }
  assert (EH : H = rsum d (fun k => had_q (A k) (B k))) by reflexivity.
  assert (H0 : 0 <= H) by (rewrite EH; apply rsum_nonneg; intros k Hk; apply (HQ k Hk)).
  assert (H1 : H <= bpow 550).
  { apply Rle_trans with (INR d * bpow 500).
    - rewrite EH, <- rsum_const. apply rsum_le. intros k Hk. assert (Q := HQ k Hk). assert (Q' := HA k Hk). lra.
    - change 550%Z with (50 + 500)%Z. rewrite bpow_add. apply Rmult_le_compat_r; [apply Rlt_le, bpow_pos|lra]. }
  assert (T : forall k, (k < d)%nat -> if p k then canon (f k) /\ Rabs (fval (f k) - had_q (A k) (B k)) <= had_c delta * had_q (A k) (B k)
                                     else had_q (A k) (B k) = 0).
  { intros k Hk. destruct (HM k Hk) as [M1 M2].
    exact (had_term e delta alpha (x k) (y k) HP Hdl (doubles_canon d x k Dx Hk) (doubles_canon d y k Dy Hk) M1 M2). }
  destruct (had_c_bound delta Hdl) as (HC & _ & _).
  set (c := had_c delta) in *. set (l := map f (filter p (seq 0 d))) in *.
  assert (Fl : Forall canon l).
  { apply Forall_forall. intros w Hw. apply in_map_iff in Hw. destruct Hw as (k & <- & Hk). apply filter_In in Hk.
    destruct Hk as [Hk Pk]. apply in_seq in Hk. assert (Tk := T k ltac:(lia)). rewrite Pk in Tk. apply Tk. }
  assert (SL : Rabs (lsum l - H) <= c * H).
  { unfold l. rewrite lsum_filter, EH, <- rsum_minus, <- rsum_scal. eapply Rle_trans; [apply rsum_abs|]. apply rsum_le.
    intros k Hk. assert (Tk := T k Hk). destruct (p k); [apply Tk|]. rewrite Tk, Rminus_0_r, Rabs_R0. lra. }
  assert (SA : labs l <= (1 + c) * H).
  { unfold l. rewrite labs_filter, EH, <- rsum_scal. apply rsum_le. intros k Hk. assert (Tk := T k Hk). assert (Qk := HQ k Hk).
    destruct (p k).
    - destruct Tk as [_ Tk]. replace (fval (f k)) with ((fval (f k) - had_q (A k) (B k)) + had_q (A k) (B k)) by ring.
      eapply Rle_trans; [apply Rabs_triang|]. rewrite (Rabs_pos_eq (had_q (A k) (B k))) by lra. lra.
    - rewrite Tk. lra. }
  assert (Len : (length l <= d)%nat).
  { unfold l. rewrite map_length. eapply Nat.le_trans; [apply filter_len|]. rewrite seq_length. lia. }
  destruct (grow_le d Hd) as [G1 G2].
  assert (M1 := grow_mono (length l) d Len). assert (M2 := grow_mono (length l - 1) d ltac:(lia)).
  assert (M3 := grow_ge1 (length l - 1)). assert (M4 := grow_ge1 (length l)). assert (M5 := grow_ge1 d).
  assert (L0 := labs_nonneg l).
  assert (HcH : (1 + c) * H <= 2 * bpow 550) by (apply Rmult_le_compat; lra).
  assert (B551 : 4 * bpow 550 = bpow 552) by (change 552%Z with (2 + 550)%Z; rewrite bpow_add; change (bpow 2) with (2 * (2 * 1)); ring).
  destruct (sum_any _ _ Hl Fl) as [Cv Ev].
  { apply Rle_lt_trans with (bpow 552); [|apply big; lia].
    apply Rle_trans with (5 / 4 * (2 * bpow 550)); [apply Rmult_le_compat; lra|]. assert (Hp := bpow_pos 550). lra. }
  split; [apply canon_finite, Cv|].
  replace (fval v - H) with ((fval v - lsum l) + (lsum l - H)) by ring. eapply Rle_trans; [apply Rabs_triang|].
  assert (E1 : ((1 + u) ^ (length l - 1) - 1) * labs l <= ((1 + u) ^ d - 1) * ((1 + c) * H)) by (apply Rmult_le_compat; lra).
  apply Rle_trans with (((1 + u) ^ d * (1 + c) - 1) * H); [lra|]. apply Rmult_le_compat_r; [exact H0|].
  assert (E2 : (1 + u) ^ d * c <= 5 / 4 * c) by (apply Rmult_le_compat_r; lra).
  assert (Hue := u_eps). lra.
Qed.

Lemma hadamard_psd : forall n d X alpha, psd n (fun i j => hadamard_sum d alpha (X i) (X j)).
Proof.
  intros n d X alpha. apply (psd_ext n (fun i j => rsum d (fun k => harm (pw alpha (X i k)) (pw alpha (X j k)) / 2))).
  - intros i j _ _. apply rsum_ext. intros k _. cbv zeta. change (abspower alpha) with (pw alpha). unfold harm.
    destruct (Req_EM_T _ 0) as [E|E]; [lra|]. field. exact E.
  - apply (psd_rsum n d (fun k i j => harm (pw alpha (X i k)) (pw alpha (X j k)) / 2)). intros k Hk.
    apply (psd_ext n (fun i j => / 2 * harm (pw alpha (X i k)) (pw alpha (X j k)))); [intros; lra|].
    apply psd_scal; [lra|]. apply (psd_harm n (fun i => pw alpha (X i k))). intros. apply pw_nonneg.
Qed.

(** C86: kernel matrices of HadamardKernel are symmetric, and positive semidefinite up to the rounding
    error. *)
Lemma pf_C86_hadamard_psd : forall e delta alpha n d X K, decent e -> powers_within delta alpha e -> 0 <= delta <= / 1000 ->
  (forall i, (i < n)%nat -> doubles d (X i)) -> INR d <= bpow 50 ->
  (forall i k, (i < n)%nat -> (k < d)%nat -> midsize (abspower (fval alpha) (vals (X i) k))) ->
  (forall i j, (i < n)%nat -> (j < n)%nat ->
     fkernel_value e (FHadamard alpha) (features d (X i)) (features d (X j)) = Ok (K i j)) ->
  symmetric n (fun i j => fval (K i j)) /\
  almost_psd n (fun i j => fval (K i j)) (fun c =>
    (4 * delta + (INR d + 3) * eps) *
    quad n (fun i j => hadamard_sum d (fval alpha) (vals (X i)) (vals (X j))) (fun i => Rabs (c i))).
Proof.
  intros e delta alpha n d X K He HP Hdl DX Hd HM HK. split.
  - intros i j Hi Hj. assert (E1 := HK i j Hi Hj). assert (E2 := HK j i Hj Hi).
    rewrite (pf_C76_symmetric e) in E1 by apply (d_pow_even e He). congruence.
  - intros c. set (eta := 4 * delta + (INR d + 3) * eps).
    set (Hm := fun i j => hadamard_sum d (fval alpha) (vals (X i)) (vals (X j))).
    assert (Hq := quad_near n (fun i j => fval (K i j)) Hm (fun i j => eta * Hm i j) c).
    assert (Hps := hadamard_psd n d (fun i => vals (X i)) (fval alpha)). destruct Hps as [_ Hps]. specialize (Hps c).
    assert (Hs : quad n (fun i j => eta * Hm i j) (fun i => Rabs (c i)) = eta * quad n Hm (fun i => Rabs (c i))).
    { unfold quad. rewrite <- rsum_scal. apply rsum_ext. intros i _. rewrite <- rsum_scal. apply rsum_ext. intros j _. ring. }
    rewrite Hs in Hq. specialize (Hq ltac:(
      intros i j Hi Hj; assert (E1 := HK i j Hi Hj);
      destruct (pf_C86_hadamard e delta alpha d (X i) (X j) He HP Hdl (DX i Hi) (DX j Hj) Hd) as (v & Ev & _ & Hv);
      [intros k Hk; split; apply HM; assumption|]; rewrite E1 in Ev; injection Ev as <-; exact Hv)).
    fold Hm in Hps. change (fun i j => hadamard_sum d (fval alpha) (vals (X i)) (vals (X j))) with Hm in Hps. lra.
Qed.

(** C86: the requirements on the platform can be met together, with squares for HadamardKernel(alpha=2). *)
Lemma pf_C86_powers_example :
  exists e, decent e /\ exp_within eps e /\ pow_within eps 2 e /\ powers_within eps ftwo e.
Proof.
  exists careful. destruct careful_ok as (H1 & H2 & H3 & _). split; [exact H1|]. split; [exact H2|]. split; [exact H3|].
  split; [intros [s| | |] Hv; try discriminate; reflexivity|].
  intros v Fv Vv Hv Hb. cbn [careful e_pow]. assert (Cv := valid_canon v Fv Vv). destruct ftwo_any as [_ V2]. rewrite V2 in *.
  assert (HR : Rpower (fval v) 2 = fval v * fval v).
  { replace 2 with (INR 2) by (cbn; ring). rewrite Rpower_pow by exact Hv. cbn. ring. }
  rewrite HR in *. assert (Hsq : 0 <= fval v * fval v) by apply Rle_0_sqr.
  destruct (fmul_any v v Cv Cv) as (C & E & _).
  { rewrite Rabs_pos_eq by exact Hsq. apply Rle_lt_trans with (1 := proj2 Hb). apply big. lia. }
  destruct (canon_valid _ C) as [F V]. split; [split; [exact F|]|exact V].
  rewrite (Rabs_pos_eq (fval v * fval v)) in E by exact Hsq. apply Rle_trans with (1 := E).
  rewrite <- u_eps. assert (tiny <= u * (fval v * fval v)); [|lra].
  apply Rle_trans with (u * bpow (-400)); [|apply Rmult_le_compat_l; [apply Rlt_le, u_pos|apply Hb]].
  unfold unit_roundoff. rewrite <- bpow_add. apply bpow_le. lia.
Qed.

(*BEGIN PROP*)
(** C86 on concrete data: x = (0.1, 0.2, 0.3) and y = (1, 1, 1) meet the requirements of C86_chi2, and those of
    C86_hadamard with alpha = 2; so does (0, 0.1) with (0, 1). *)
Definition x4 (k : nat) : f64 := match k with O => fzero | _ => S754_finite false 7205759403792794 (-56) end.
Definition y4 (k : nat) : f64 := match k with O => fzero | _ => fone end.
Example C86_chi2_example :
  (doubles 3 x3 /\ doubles 3 y3 /\
   (forall k, (k < 3)%nat -> midsize (vals x3 k) /\ midsize (vals y3 k)) /\
   (forall k, (k < 3)%nat -> midsize (abspower (fval ftwo) (vals x3 k)) /\ midsize (abspower (fval ftwo) (vals y3 k)))) /\
  (doubles 2 x4 /\ doubles 2 y4 /\
   (forall k, (k < 2)%nat -> midsize (vals x4 k) /\ midsize (vals y4 k)) /\
   (forall k, (k < 2)%nat -> midsize (abspower (fval ftwo) (vals x4 k)) /\ midsize (abspower (fval ftwo) (vals y4 k)))).
Proof.
  assert (H1 : fval fone = 1) by apply (fint_any 1 ltac:(lia)).
  assert (P1 : 1 <= bpow 500) by (rewrite <- bpow_0; apply bpow_le; lia).
  assert (P2 : bpow (-400) <= 1) by (rewrite <- bpow_0; apply bpow_le; lia).
  assert (H : forall r, bpow (-100) <= r <= 1 -> midsize r /\ midsize (abspower (fval ftwo) r)).
  { intros r Hr. assert (Hp := bpow_pos (-100)). assert (B : bpow (-400) <= bpow (-100) * bpow (-100)) by (rewrite <- bpow_add; apply bpow_le; lia).
    assert (B' : bpow (-400) <= bpow (-100)) by (apply bpow_le; lia). split; [right; lra|].
    right. unfold abspower. destruct (Req_EM_T r 0); [lra|]. rewrite (proj2 ftwo_any), Rabs_pos_eq by lra.
    replace 2 with (INR 2) by (cbn; ring). rewrite Rpower_pow by lra. cbn [pow]. rewrite Rmult_1_r.
    assert (bpow (-100) * bpow (-100) <= r * r) by (apply Rmult_le_compat; lra).
    assert (r * r <= 1 * 1) by (apply Rmult_le_compat; lra). lra. }
  assert (B56 : bpow (-100) <= bpow (-56)) by (apply bpow_le; lia).
  assert (E56 : bpow (-56) = / 72057594037927936) by (change (-56)%Z with (- (56))%Z; rewrite bpow_neg, bpow_IZR by lia; reflexivity).
  assert (E55 : bpow (-55) = 2 * bpow (-56)) by (change (-55)%Z with (1 + -56)%Z; rewrite bpow_add; change (bpow 1) with (2 * 1); ring).
  assert (E54 : bpow (-54) = 4 * bpow (-56)) by (change (-54)%Z with (2 + -56)%Z; rewrite bpow_add; change (bpow 2) with (2 * (2 * 1)); ring).
  assert (R3 : forall k, (k < 3)%nat -> bpow (-100) <= vals x3 k <= 1).
  { intros [|[|[|k]]] Hk; try lia; unfold vals; cbn [x3 fval]; rewrite ?E55, ?E54; rewrite ?Rmult_1_l; rewrite E56 in *; lra. }
  assert (RY : forall k, bpow (-100) <= vals y3 k <= 1).
  { intros k. unfold vals, y3. rewrite H1, E56 in *. lra. }
  assert (M0 : midsize (fval fzero) /\ midsize (abspower (fval ftwo) (fval fzero))).
  { change (fval fzero) with 0. split; left; [reflexivity|]. unfold abspower. destruct (Req_EM_T 0 0); [reflexivity|lra]. }
  split; (split; [|split; [|split]]).
  - intros [|[|[|k]]] Hk; try lia; split; reflexivity.
  - intros k _; split; reflexivity.
  - intros k Hk. split; apply H; [apply R3, Hk|apply RY].
  - intros k Hk. split; apply H; [apply R3, Hk|apply RY].
  - intros [|[|k]] Hk; try lia; split; reflexivity.
  - intros [|[|k]] Hk; try lia; split; reflexivity.
  - intros [|[|k]] Hk; try lia; [split; apply M0|]. split; apply H; [apply (R3 0%nat); lia|apply (RY 0%nat)].
  - intros [|[|k]] Hk; try lia; [split; apply M0|]. split; apply H; [apply (R3 0%nat); lia|apply (RY 0%nat)].
Qed.
(*END PROP*)
