(** C90: composite kernels in double precision. *)
From Coq Require Import ZArith Bool List Permutation Reals Lia Lra Floats.SpecFloat.
From Verif Require Import Prelude KernelsModel XReal MatModel FloatModel SpecFloats SpecFloatVal SpecLinAlg RSum PSDFacts
  KernelFacts SpecFloatErr FloatProps FloatNormProps FloatRound FloatAny FloatSum FloatDiv FloatDotProps
  FloatOpsModel SpecFloatOps FloatOpsFacts FloatNearest FloatRankModel SpecFloatRank FloatRankProps
  FloatCompositeModel SpecFloatComposite.
Import ListNotations.
Local Open Scope R_scope.

(** ** Sums *)
Definition acc (L : nat) (x : nat -> f64) : f64 := fold_left fadd (map x (seq 0 L)) fzero.

Lemma acc_S : forall L x, acc (S L) x = fadd (acc L x) (x L).
Proof. intros L x. unfold acc. rewrite seq_S, map_app, fold_left_app. reflexivity. Qed.

Lemma acc_adds : forall L x, adds_up (map x (seq 0 L)) (acc L x).
Proof. intros L x. apply (adds_left _ [] fzero). apply adds_zero. Qed.

Lemma acc_any : forall L x, INR L <= bpow 50 -> (forall k, (k < L)%nat -> canon (x k)) ->
  rsum L (fun k => Rabs (fval (x k))) <= bpow 1020 ->
  canon (acc L x) /\
  Rabs (fval (acc L x) - rsum L (fun k => fval (x k))) <= INR L * eps * rsum L (fun k => Rabs (fval (x k))) /\
  Rabs (fval (acc L x)) <= 5 / 4 * rsum L (fun k => Rabs (fval (x k))).
Proof.
  intros L x HL Hc Hb. destruct (grow_le L HL) as [G1 G2].
  assert (G0 := grow_ge1 (L - 1)). assert (G3 := grow_mono (L - 1) L ltac:(lia)).
  set (T := rsum L (fun k => Rabs (fval (x k)))) in *.
  assert (HT : 0 <= T) by (apply rsum_nonneg; intros; apply Rabs_pos).
  destruct (sum_any _ _ (acc_adds L x)) as [Cv Ev].
  - apply Forall_seq. exact Hc.
  - rewrite map_length, seq_length, labs_seq. fold T.
    apply Rle_lt_trans with (5 / 4 * T); [apply Rmult_le_compat_r; lra|].
    assert (B2 : 8 * bpow 1020 = bpow 1023).
    { change 1023%Z with (3 + 1020)%Z. rewrite bpow_add. change (bpow 3) with (2 * (2 * (2 * 1))). ring. }
    assert (0 < bpow 1020) by apply bpow_pos. lra.
  - rewrite map_length, seq_length, lsum_seq, labs_seq in Ev. fold T in Ev. split; [exact Cv|].
    assert (E1 : ((1 + u) ^ (L - 1) - 1) * T <= INR L * eps * T) by (apply Rmult_le_compat_r; lra).
    assert (E2 : ((1 + u) ^ (L - 1) - 1) * T <= / 4 * T) by (apply Rmult_le_compat_r; lra).
    split; [lra|].
    replace (fval (acc L x)) with ((fval (acc L x) - rsum L (fun k => fval (x k))) + rsum L (fun k => fval (x k))) by ring.
    eapply Rle_trans; [apply Rabs_triang|]. assert (X := rsum_abs L (fun k => fval (x k))). cbv beta in X. fold T in X. lra.
Qed.

Lemma fadd_mono : forall x x' y y', canon x -> canon x' -> canon y -> canon y' ->
  Rabs (fval x + fval y) < bpow 1023 -> Rabs (fval x' + fval y') < bpow 1023 ->
  fval x <= fval x' -> fval y <= fval y' -> fval (fadd x y) <= fval (fadd x' y').
Proof.
  intros x x' y y' Cx Cx' Cy Cy' B B' Hx Hy. destruct (Rlt_le_dec (fval x + fval y) (fval x' + fval y')) as [Hl|Hl].
  - apply (nearest_mono (fval x + fval y) (fval x' + fval y')); [apply fadd_nearest; assumption|apply fadd_nearest; assumption|exact Hl].
  - assert (Z : forall a b c, canon a -> canon b -> canon c -> fval a = fval b -> fval (fadd a c) = fval (fadd b c)).
    { intros a b c Ca Cb Cc E. destruct (canon_inj a b Ca Cb E) as [->|[Z Z']]; [reflexivity|].
      destruct (fadd_zero_l a c Z) as [-> _]. destruct (fadd_zero_l b c Z') as [-> _]. reflexivity. }
    rewrite (Z x x' y Cx Cx' Cy ltac:(lra)), (fadd_comm x' y), (fadd_comm x' y'), (Z y y' x' Cy Cy' Cx' ltac:(lra)). lra.
Qed.

Lemma acc_mono : forall L x y, INR L <= bpow 50 -> (forall k, (k < L)%nat -> canon (x k) /\ canon (y k) /\ fval (x k) <= fval (y k)) ->
  rsum L (fun k => Rabs (fval (x k))) <= bpow 1020 -> rsum L (fun k => Rabs (fval (y k))) <= bpow 1020 ->
  fval (acc L x) <= fval (acc L y).
Proof.
  induction L as [|L IH]; intros x y HL H Bx By; [apply Rle_refl|]. rewrite !acc_S.
  assert (HL' : INR L <= bpow 50) by (rewrite S_INR in HL; lra).
  cbn [rsum] in Bx, By. assert (Px := Rabs_pos (fval (x L))). assert (Py := Rabs_pos (fval (y L))).
  assert (Nx : 0 <= rsum L (fun k => Rabs (fval (x k)))) by (apply rsum_nonneg; intros; apply Rabs_pos).
  assert (Ny : 0 <= rsum L (fun k => Rabs (fval (y k)))) by (apply rsum_nonneg; intros; apply Rabs_pos).
  destruct (acc_any L x HL') as (Cx & _ & Mx); [intros k Hk; apply H; lia|lra|].
  destruct (acc_any L y HL') as (Cy & _ & My); [intros k Hk; apply H; lia|lra|].
  destruct (H L ltac:(lia)) as (CxL & CyL & Hle).
  assert (B2 : 8 * bpow 1020 = bpow 1023).
  { change 1023%Z with (3 + 1020)%Z. rewrite bpow_add. change (bpow 3) with (2 * (2 * (2 * 1))). ring. }
  assert (0 < bpow 1020) by apply bpow_pos.
  apply fadd_mono; try assumption.
  - eapply Rle_lt_trans; [apply Rabs_triang|]. lra.
  - eapply Rle_lt_trans; [apply Rabs_triang|]. lra.
  - apply IH; [exact HL'|intros k Hk; apply H; lia|lra|lra].
Qed.

(** Whole numbers are bounds that sums respect. *)
Lemma acc_units : forall L x, (Z.of_nat L < 2 ^ 53)%Z -> (forall k, (k < L)%nat -> canon (x k) /\ -1 <= fval (x k) <= 1) ->
  canon (acc L x) /\ - INR L <= fval (acc L x) <= INR L /\
  ((forall k, (k < L)%nat -> 0 <= fval (x k)) -> 0 <= fval (acc L x)) /\
  ((forall k, (k < L)%nat -> fval (x k) = 1) -> fval (acc L x) = INR L).
Proof.
  induction L as [|L IH]; intros x HL H.
  - split; [exact I|]. change (fval (acc 0 x)) with 0. cbn [INR]. repeat split; intros; lra.
  - destruct (IH x ltac:(lia)) as (C & B & P & E); [intros k Hk; apply H; lia|]. rewrite acc_S.
    destruct (H L ltac:(lia)) as [CL BL]. rewrite S_INR.
    assert (HI : INR L <= 9007199254740992).
    { rewrite INR_IZR_INZ. apply IZR_le. lia. }
    assert (H0 := pos_INR L).
    assert (Bb : Rabs (fval (acc L x) + fval (x L)) < bpow 1023).
    { apply Rle_lt_trans with (bpow 54).
      - replace (bpow 54) with 18014398509481984 by (rewrite bpow_IZR by lia; reflexivity). apply Rabs_le. lra.
      - apply big. lia. }
    assert (N := fadd_nearest _ _ C CL Bb).
    destruct (fint_any (Z.of_nat (S L)) ltac:(lia)) as [Ci Vi]. rewrite <- INR_IZR_INZ, S_INR in Vi.
    assert (Cn := canon_opp _ Ci).
    assert (Vn : fval (fopp (fint (Z.of_nat (S L)))) = - (INR L + 1)) by (rewrite fval_opp, Vi; reflexivity).
    split; [exact (proj1 N)|]. split; [split|split].
    + rewrite <- Vn. apply (nearest_ge _ _ _ N Cn). lra.
    + rewrite <- Vi. apply (nearest_le _ _ _ N Ci). lra.
    + intros Hp. apply (nearest_ge _ _ fzero N I). change (fval fzero) with 0. specialize (P ltac:(intros; apply Hp; lia)).
      specialize (Hp L ltac:(lia)). lra.
    + intros H1. rewrite E in N by (intros; apply H1; lia). rewrite (H1 L) in N by lia.
      exact (nearest_exact _ _ _ N Ci Vi).
Qed.

(** ** Products *)
Definition pacc (L : nat) (x : nat -> f64) : f64 := fold_left fmul (map x (seq 0 L)) fone.

Lemma pacc_S : forall L x, pacc (S L) x = fmul (pacc L x) (x L).
Proof. intros L x. unfold pacc. rewrite seq_S, map_app, fold_left_app. reflexivity. Qed.

Lemma rprod_abs : forall L q M, 0 <= M -> (forall k, (k < L)%nat -> Rabs (q k) <= M) -> Rabs (rprod L q) <= M ^ L.
Proof.
  induction L as [|L IH]; intros q M HM H; cbn [rprod pow]; [rewrite Rabs_R1; lra|]. rewrite Rabs_mult, Rmult_comm.
  apply Rmult_le_compat; try apply Rabs_pos; [apply H; lia|apply IH; [exact HM|intros k Hk; apply H; lia]].
Qed.

Lemma pow_ge1 : forall M k, 1 <= M -> 1 <= M ^ k.
Proof. intros M k H. rewrite <- (pow1 k). apply pow_incr. lra. Qed.

Lemma pacc_any : forall L x M, 1 <= M -> INR L <= bpow 50 -> M ^ L <= bpow 1020 ->
  (forall k, (k < L)%nat -> canon (x k) /\ Rabs (fval (x k)) <= M) ->
  canon (pacc L x) /\ Rabs (fval (pacc L x) - rprod L (fun k => fval (x k))) <= INR L * eps * M ^ L /\
  Rabs (fval (pacc L x)) <= 5 / 4 * M ^ L.
Proof.
  intros L x M HM. induction L as [|L IH]; intros HL HB H.
  - split; [apply one_val|]. change (pacc 0 x) with fone. destruct one_val as [_ ->]. cbn [rprod INR pow].
    rewrite Rminus_diag_eq by reflexivity. rewrite Rabs_R0, Rabs_R1. lra.
  - assert (HL' : INR L <= bpow 50) by (rewrite S_INR in HL; lra).
    assert (P1 := pow_ge1 M L HM). assert (HB' : M ^ L <= bpow 1020).
    { apply Rle_trans with (2 := HB). cbn [pow]. assert (X := Rmult_le_compat_r (M ^ L) 1 M ltac:(lra) HM). lra. }
    destruct (IH HL' HB') as (C & E & B); [intros k Hk; apply H; lia|]. destruct (H L ltac:(lia)) as [CL BL].
    rewrite pacc_S. set (p := fval (pacc L x)) in *. set (y := fval (x L)) in *. set (q := rprod L (fun k => fval (x k))) in *.
    assert (HML : M ^ S L = M * M ^ L) by reflexivity. set (G := M ^ L) in *. rewrite HML in *. clear HML.
    assert (Bpy : Rabs (p * y) <= 5 / 4 * (M * G)).
    { rewrite Rabs_mult. replace (5 / 4 * (M * G)) with (5 / 4 * G * M) by ring. apply Rmult_le_compat; try apply Rabs_pos; assumption. }
    assert (B2 : 8 * bpow 1020 = bpow 1023).
    { change 1023%Z with (3 + 1020)%Z. rewrite bpow_add. change (bpow 3) with (2 * (2 * (2 * 1))). ring. }
    assert (Hpp : 0 < bpow 1020) by apply bpow_pos.
    destruct (fmul_any (pacc L x) (x L) C CL) as (Cm & Em & _); [fold p y; lra|]. fold p y in Em.
    split; [exact Cm|]. destruct unit_small as ((Hu0 & Hu) & Ht & Ht0 & Heps). cbn [rprod]. fold q y.
    assert (MG : 1 <= M * G) by (assert (X := Rmult_le_compat 1 M 1 G ltac:(lra) ltac:(lra) HM P1); lra).
    assert (Em' : Rabs (fval (fmul (pacc L x) (x L)) - p * y) <= eps * (M * G)).
    { assert (X := Rmult_le_compat_l unit_roundoff _ _ ltac:(lra) Bpy).
      assert (Y := Rmult_le_compat_l unit_roundoff 1 (M * G) ltac:(lra) MG). rewrite Heps. lra. }
    assert (Hpq : Rabs (p * y - q * y) <= INR L * eps * (M * G)).
    { replace (p * y - q * y) with ((p - q) * y) by ring. rewrite Rabs_mult.
      replace (INR L * eps * (M * G)) with (INR L * eps * G * M) by ring. apply Rmult_le_compat; try apply Rabs_pos; assumption. }
    assert (Es : Rabs (fval (fmul (pacc L x) (x L)) - q * y) <= INR (S L) * eps * (M * G)).
    { replace (fval (fmul (pacc L x) (x L)) - q * y) with ((fval (fmul (pacc L x) (x L)) - p * y) + (p * y - q * y)) by ring.
      eapply Rle_trans; [apply Rabs_triang|]. rewrite S_INR. lra. }
    split; [exact Es|].
    replace (fval (fmul (pacc L x) (x L))) with ((fval (fmul (pacc L x) (x L)) - q * y) + q * y) by ring.
    eapply Rle_trans; [apply Rabs_triang|].
    assert (Hq : Rabs (q * y) <= M * G).
    { rewrite Rabs_mult, Rmult_comm. apply Rmult_le_compat; try apply Rabs_pos; [exact BL|]. apply rprod_abs; [lra|].
      intros k Hk. apply H. lia. }
    assert (Hs := small_n (S L) HL). rewrite bpow_m3 in Hs.
    assert (Hse : INR (S L) * eps <= / 4) by (rewrite Heps; unfold u in Hs; unfold unit_roundoff; lra).
    assert (X := Rmult_le_compat_r (M * G) _ _ ltac:(lra) Hse). lra.
Qed.

(** Products of numbers between -1 and 1. *)
Lemma pacc_units : forall L x, (forall k, (k < L)%nat -> canon (x k) /\ -1 <= fval (x k) <= 1) ->
  canon (pacc L x) /\ -1 <= fval (pacc L x) <= 1 /\
  ((forall k, (k < L)%nat -> 0 <= fval (x k)) -> 0 <= fval (pacc L x)) /\
  ((forall k, (k < L)%nat -> fval (x k) = 1) -> fval (pacc L x) = 1).
Proof.
  destruct one_val as [C1 V1]. induction L as [|L IH]; intros x H.
  - split; [exact C1|]. change (pacc 0 x) with fone. rewrite V1. repeat split; intros; lra.
  - destruct (IH x) as (C & B & P & E); [intros k Hk; apply H; lia|]. rewrite pacc_S. destruct (H L ltac:(lia)) as [CL BL].
    assert (Ba : Rabs (fval (pacc L x) * fval (x L)) <= 1).
    { rewrite Rabs_mult. replace 1 with (1 * 1) by ring. apply Rmult_le_compat; try apply Rabs_pos; apply Rabs_le; lra. }
    assert (B1 : 1 < bpow 1023) by (rewrite <- bpow_0; apply big; lia).
    assert (N := fmul_nearest _ _ C CL ltac:(lra)). apply Rabs_le_inv in Ba.
    split; [exact (proj1 N)|]. split; [split|split].
    + assert (X := nearest_ge _ _ (fopp fone) N (canon_opp _ C1)). rewrite fval_opp, V1 in X. apply X. lra.
    + rewrite <- V1. apply (nearest_le _ _ _ N C1). lra.
    + intros Hp. apply (nearest_ge _ _ fzero N I). change (fval fzero) with 0. apply Rmult_le_pos; [apply P; intros; apply Hp; lia|apply Hp; lia].
    + intros H1. rewrite E in N by (intros; apply H1; lia). rewrite (H1 L), Rmult_1_r in N by lia.
      exact (nearest_exact _ _ _ N C1 V1).
Qed.

Lemma fmul_mono2 : forall x x' y y', canon x -> canon x' -> canon y -> canon y' ->
  Rabs (fval x' * fval y') < bpow 1023 ->
  0 <= fval x <= fval x' -> 0 <= fval y <= fval y' -> fval (fmul x y) <= fval (fmul x' y').
Proof.
  intros x x' y y' Cx Cx' Cy Cy' B Hx Hy.
  assert (Hle : fval x * fval y <= fval x' * fval y') by (apply Rmult_le_compat; lra).
  assert (P : 0 <= fval x * fval y) by (apply Rmult_le_pos; lra).
  assert (B0 : Rabs (fval x * fval y) < bpow 1023) by (rewrite Rabs_pos_eq in * by lra; lra).
  assert (N := fmul_nearest x y Cx Cy B0). assert (N' := fmul_nearest x' y' Cx' Cy' B).
  destruct (Rlt_le_dec (fval x * fval y) (fval x' * fval y')) as [Hl|Hl]; [apply (nearest_mono _ _ _ _ N N' Hl)|].
  destruct (Rle_lt_dec (fval x * fval y) 0) as [Hz|Hz].
  - assert (E : fval x * fval y = 0) by lra. assert (E' : fval x' * fval y' = 0) by lra. rewrite E in N. rewrite E' in N'.
    rewrite (nearest_exact 0 _ fzero N I eq_refl), (nearest_exact 0 _ fzero N' I eq_refl). lra.
  - assert (Hx0 : 0 < fval x) by (destruct (Rle_lt_dec (fval x) 0); [replace (fval x) with 0 in Hz by lra; lra|assumption]).
    assert (Hy0 : 0 < fval y) by (destruct (Rle_lt_dec (fval y) 0); [replace (fval y) with 0 in Hz by lra; lra|assumption]).
    assert (Ex : fval x = fval x').
    { apply Rle_antisym; [lra|]. apply Rmult_le_reg_r with (fval y); [exact Hy0|].
      apply Rle_trans with (fval x' * fval y'); [apply Rmult_le_compat_l; lra|lra]. }
    assert (Ey : fval y = fval y').
    { apply Rle_antisym; [lra|]. apply Rmult_le_reg_l with (fval x); [exact Hx0|].
      apply Rle_trans with (fval x' * fval y'); [apply Rmult_le_compat_r; lra|lra]. }
    destruct (canon_inj x x' Cx Cx' Ex) as [->|[Z _]]; [|rewrite (zero_val x Z) in Hx0; lra].
    destruct (canon_inj y y' Cy Cy' Ey) as [->|[Z _]]; [|rewrite (zero_val y Z) in Hy0; lra]. lra.
Qed.

Lemma pacc_mono : forall L x y M, 1 <= M -> INR L <= bpow 50 -> M ^ L <= bpow 1020 ->
  (forall k, (k < L)%nat -> canon (x k) /\ canon (y k) /\ 0 <= fval (x k) <= fval (y k) /\ fval (y k) <= M) ->
  0 <= fval (pacc L x) <= fval (pacc L y).
Proof.
  intros L x y M HM. induction L as [|L IH]; intros HL HB H.
  - change (pacc 0 x) with fone. change (pacc 0 y) with fone. destruct one_val as [_ ->]. lra.
  - assert (HL' : INR L <= bpow 50) by (rewrite S_INR in HL; lra).
    assert (P1 := pow_ge1 M L HM). assert (HB' : M ^ L <= bpow 1020).
    { apply Rle_trans with (2 := HB). cbn [pow]. assert (X := Rmult_le_compat_r (M ^ L) 1 M ltac:(lra) HM). lra. }
    specialize (IH HL' HB' ltac:(intros k Hk; apply H; lia)). rewrite !pacc_S.
    destruct (pacc_any L x M HM HL' HB') as (Cx & _ & Bx).
    { intros k Hk. destruct (H k ltac:(lia)) as (A1 & A2 & A3 & A4). split; [exact A1|]. rewrite Rabs_pos_eq by lra. lra. }
    destruct (pacc_any L y M HM HL' HB') as (Cy & _ & By).
    { intros k Hk. destruct (H k ltac:(lia)) as (A1 & A2 & A3 & A4). split; [exact A2|]. rewrite Rabs_pos_eq by lra. lra. }
    destruct (H L ltac:(lia)) as (CxL & CyL & Hle & HyM).
    assert (B2 : 8 * bpow 1020 = bpow 1023).
    { change 1023%Z with (3 + 1020)%Z. rewrite bpow_add. change (bpow 3) with (2 * (2 * (2 * 1))). ring. }
    assert (Hpp : 0 < bpow 1020) by apply bpow_pos.
    assert (Bpy : Rabs (fval (pacc L y) * fval (y L)) < bpow 1023).
    { apply Rle_lt_trans with (5 / 4 * M ^ S L); [|lra]. cbn [pow]. rewrite Rabs_mult.
      replace (5 / 4 * (M * M ^ L)) with (5 / 4 * M ^ L * M) by ring.
      apply Rmult_le_compat; try apply Rabs_pos; [exact By|rewrite Rabs_pos_eq by lra; exact HyM]. }
    split; [|apply fmul_mono2; try assumption; lra].
    assert (P : 0 <= fval (pacc L x) * fval (x L)) by (apply Rmult_le_pos; lra).
    assert (Hle2 : fval (pacc L x) * fval (x L) <= fval (pacc L y) * fval (y L)) by (apply Rmult_le_compat; lra).
    assert (N := fmul_nearest _ _ Cx CxL ltac:(rewrite Rabs_pos_eq in * by lra; lra)).
    apply (nearest_ge _ _ fzero N I). exact P.
Qed.

(** ** Entries of the composite kernels *)
Lemma average_entry : forall L Ks i j, faverage_kernel (members L Ks) i j =
  fdiv (acc L (fun k => Ks k i j)) (fint (Z.of_nat L)).
Proof.
  intros L Ks i j. unfold faverage_kernel, members, acc. rewrite map_length, seq_length. f_equal.
  rewrite (fold_left_map fadd (fun K => K i j)), map_map. reflexivity.
Qed.
Lemma product_entry : forall L Ks i j, fproduct_kernel (members L Ks) i j = pacc L (fun k => Ks k i j).
Proof.
  intros L Ks i j. unfold fproduct_kernel, members, pacc. rewrite (fold_left_map fmul (fun K => K i j)), map_map. reflexivity.
Qed.
Lemma combine_entry : forall L w Ks i j, fcombine (map w (seq 0 L)) (map Ks (seq 0 L)) i j = acc L (fun k => fmul (w k) (Ks k i j)).
Proof.
  intros L w K i j. unfold fcombine. rewrite combine_map.
  rewrite (fold_left_map (fun acc v => fadd acc v) (fun p => fmul (fst p) (snd p i j))), map_map. reflexivity.
Qed.

Lemma entries_canon : forall L n Ks b i j k, all_doubles L n Ks b -> (i < n)%nat -> (j < n)%nat -> (k < L)%nat ->
  canon (Ks k i j) /\ Rabs (fval (Ks k i j)) <= b.
Proof.
  intros L n Ks b i j k H Hi Hj Hk. destruct (H k Hk i j Hi Hj) as (F & V & B). split; [apply valid_canon; assumption|exact B].
Qed.

Lemma entries_sum : forall L n Ks b i j, all_doubles L n Ks b -> (i < n)%nat -> (j < n)%nat ->
  rsum L (fun k => Rabs (fval (Ks k i j))) <= INR L * b.
Proof.
  intros L n Ks b i j H Hi Hj. rewrite <- rsum_const. apply rsum_le. intros k Hk. apply (entries_canon L n Ks b i j k H Hi Hj Hk).
Qed.

Lemma fmul_one : forall x, canon x -> Rabs (fval x) < bpow 1023 -> canon (fmul fone x) /\ fval (fmul fone x) = fval x.
Proof.
  intros x C B. destruct one_val as [C1 V1]. assert (N := fmul_nearest fone x C1 C). rewrite V1, Rmult_1_l in N.
  specialize (N B). split; [exact (proj1 N)|]. exact (nearest_exact _ _ _ N C eq_refl).
Qed.

Lemma repeat_seq : forall {A} (a : A) L, repeat a L = map (fun _ => a) (seq 0 L).
Proof. intros A a L. generalize 0%nat. induction L as [|L IH]; intros s; [reflexivity|]. cbn. rewrite (IH (S s)). reflexivity. Qed.

(** *** C90 *)

(** SumKernel.fit() without weights: entry (i, j) is the sum of the entries of the members, off by at most
    L eps sum_k |K_k(i,j)|. *)
Lemma pf_C90_sum : forall L n Ks b, INR L <= bpow 50 -> all_doubles L n Ks b -> INR L * b <= bpow 1010 ->
  exists C, fsum_kernel None (members L Ks) = Ok C /\ forall i j, (i < n)%nat -> (j < n)%nat ->
    near (rsum L (fun k => mvals (Ks k) i j)) (INR L * eps * rsum L (fun k => Rabs (mvals (Ks k) i j))) (C i j).
Proof.
  intros L n Ks b HL HK Hb. eexists. split; [reflexivity|]. intros i j Hi Hj. unfold members.
  rewrite map_length, seq_length, repeat_seq, combine_entry.
  assert (HS := entries_sum L n Ks b i j HK Hi Hj). assert (B10 := big 1010 1020 ltac:(lia)). assert (B23 := big 1010 1023 ltac:(lia)).
  assert (H1 : forall k, (k < L)%nat -> canon (fmul fone (Ks k i j)) /\ fval (fmul fone (Ks k i j)) = fval (Ks k i j)).
  { intros k Hk. destruct (entries_canon L n Ks b i j k HK Hi Hj Hk) as [C B]. apply fmul_one; [exact C|].
    assert (X := rsum_term_le L (fun k => Rabs (fval (Ks k i j))) k Hk ltac:(intros; apply Rabs_pos)). cbv beta in X. lra. }
  assert (E1 : rsum L (fun k => fval (fmul fone (Ks k i j))) = rsum L (fun k => mvals (Ks k) i j)) by (apply rsum_ext; intros k Hk; apply H1, Hk).
  assert (E2 : rsum L (fun k => Rabs (fval (fmul fone (Ks k i j)))) = rsum L (fun k => Rabs (mvals (Ks k) i j)))
    by (apply rsum_ext; intros k Hk; destruct (H1 k Hk) as [_ ->]; reflexivity).
  destruct (acc_any L (fun k => fmul fone (Ks k i j)) HL) as (C & E & _).
  - intros k Hk. apply H1, Hk.
  - rewrite E2. unfold mvals. lra.
  - rewrite E1, E2 in E. split; [apply canon_finite, C|exact E].
Qed.

(** SumKernel.fit(kernel_weights) and WeightedAverageKernel.fit(): they agree, and entry (i, j) is off by at most
    L eps sum_k |w_k K_k(i,j)|. *)
Lemma pf_C90_weighted : forall L n w Ks a b, INR L <= bpow 50 ->
  (forall k, (k < L)%nat -> f_finite (w k) = true /\ valid_binary 53 1024 (w k) = true /\ Rabs (fval (w k)) <= a) ->
  all_doubles L n Ks b -> INR L * (a * b) <= bpow 1010 ->
  fsum_kernel (Some (members L w)) (members L Ks) = Ok (fweighted_kernel (members L w) (members L Ks)) /\
  forall i j, (i < n)%nat -> (j < n)%nat ->
  near (rsum L (fun k => fval (w k) * mvals (Ks k) i j))
       (INR L * eps * rsum L (fun k => Rabs (fval (w k)) * Rabs (mvals (Ks k) i j)) + INR L * least)
       (fweighted_kernel (members L w) (members L Ks) i j).
Proof.
  intros L n w Ks a b HL Hw HK Hab. split.
  { unfold fsum_kernel, members. rewrite !map_length, Nat.eqb_refl. reflexivity. }
  intros i j Hi Hj. unfold fweighted_kernel, members.
  assert (HE : rsum L (fun k => Rabs (fval (w k)) * Rabs (mvals (Ks k) i j)) = rsum L (fun k => Rabs (fval (w k) * fval (Ks k i j)))).
  { apply rsum_ext. intros k Hk. rewrite Rabs_mult. reflexivity. }
  rewrite HE.
  destruct (prods_any L w (fun k => Ks k i j) _ (rsum L (fun k => Rabs (fval (w k) * fval (Ks k i j)))) (combine_adds L w Ks i j) HL) as [Cv Ev].
  - intros k Hk. split; [apply valid_canon; apply Hw, Hk|apply (entries_canon L n Ks b i j k HK Hi Hj Hk)].
  - apply Rle_refl.
  - apply Rle_trans with (2 := Hab). rewrite <- rsum_const. apply rsum_le. intros k Hk. rewrite Rabs_mult.
    apply Rmult_le_compat; try apply Rabs_pos; [apply Hw, Hk|apply (entries_canon L n Ks b i j k HK Hi Hj Hk)].
  - split; [apply canon_finite, Cv|exact Ev].
Qed.

(** AverageKernel: off by at most (L + 1) eps times the mean of |K_k(i,j)| (and the least positive number). *)
Lemma pf_C90_average : forall L n Ks b, (0 < L)%nat -> INR L <= bpow 50 -> all_doubles L n Ks b -> INR L * b <= bpow 1010 ->
  forall i j, (i < n)%nat -> (j < n)%nat ->
  near (rsum L (fun k => mvals (Ks k) i j) / INR L)
       ((INR L + 1) * eps * (rsum L (fun k => Rabs (mvals (Ks k) i j)) / INR L) + least)
       (faverage_kernel (members L Ks) i j).
Proof.
  intros L n Ks b H0 HL HK Hb i j Hi Hj. rewrite average_entry.
  assert (HS := entries_sum L n Ks b i j HK Hi Hj). assert (B10 := big 1010 1020 ltac:(lia)).
  assert (HT : 0 <= rsum L (fun k => Rabs (fval (Ks k i j)))) by (apply rsum_nonneg; intros; apply Rabs_pos).
  destruct (acc_any L (fun k => Ks k i j) HL) as (C & E & M).
  { intros k Hk. apply (entries_canon L n Ks b i j k HK Hi Hj Hk). }
  { lra. }
  unfold mvals. set (s := fval (acc L (fun k => Ks k i j))) in *. set (T := rsum L (fun k => Rabs (fval (Ks k i j)))) in *.
  set (S := rsum L (fun k => fval (Ks k i j))) in *.
  assert (HLp : 1 <= INR L) by (apply (le_INR 1); lia).
  assert (HLz : (Z.abs (Z.of_nat L) < 2 ^ 53)%Z).
  { apply lt_IZR. rewrite Z.abs_eq by lia. rewrite <- INR_IZR_INZ. apply Rle_lt_trans with (1 := HL).
    change (IZR (2 ^ 53)) with 9007199254740992. rewrite bpow_IZR by lia. change (2 ^ 50)%Z with 1125899906842624%Z. lra. }
  destruct (fint_any (Z.of_nat L) HLz) as [CL VL]. rewrite <- INR_IZR_INZ in VL.
  assert (HiL : 0 < / INR L <= 1).
  { split; [apply Rinv_0_lt_compat; lra|]. rewrite <- Rinv_1. apply Rinv_le_contravar; lra. }
  assert (Hsq : Rabs (s / INR L) <= 5 / 4 * (T / INR L)).
  { unfold Rdiv at 1. rewrite Rabs_mult, (Rabs_pos_eq (/ INR L)) by lra. unfold Rdiv. rewrite <- Rmult_assoc. apply Rmult_le_compat_r; lra. }
  assert (HTL : 0 <= T / INR L <= T).
  { split; [apply Rmult_le_pos; lra|]. assert (X := Rmult_le_compat_l T _ 1 HT (proj2 HiL)). unfold Rdiv. lra. }
  assert (B2 : 4 * bpow 1020 = bpow 1022).
  { change 1022%Z with (2 + 1020)%Z. rewrite bpow_add. change (bpow 2) with (2 * (2 * 1)). ring. }
  assert (Hpp : 0 < bpow 1020) by apply bpow_pos.
  destruct (fdiv_any (acc L (fun k => Ks k i j)) (fint (Z.of_nat L)) C CL) as [Cd Ed]; [lra|rewrite VL; fold s; lra|].
  rewrite VL in Ed. fold s in Ed. split; [apply canon_finite, Cd|].
  destruct unit_small as ((Hu0 & Hu) & Ht & Ht0 & Heps). assert (Htl := tiny_least).
  assert (E1 : Rabs (s / INR L - S / INR L) <= INR L * eps * (T / INR L)).
  { replace (s / INR L - S / INR L) with ((s - S) * / INR L) by (unfold Rdiv; ring). rewrite Rabs_mult, (Rabs_pos_eq (/ INR L)) by lra.
    unfold Rdiv. rewrite <- Rmult_assoc. apply Rmult_le_compat_r; [lra|exact E]. }
  assert (E2 := Rmult_le_compat_l unit_roundoff _ _ ltac:(lra) Hsq).
  match goal with |- Rabs (?x - _) <= _ => replace (x - S / INR L) with ((x - s / INR L) + (s / INR L - S / INR L)) by ring end.
  eapply Rle_trans; [apply Rabs_triang|].
  assert (E3 : 0 <= unit_roundoff * (T / INR L)) by (apply Rmult_le_pos; lra).
  replace ((INR L + 1) * eps * (T / INR L)) with (INR L * eps * (T / INR L) + 2 * (unit_roundoff * (T / INR L))) by (rewrite Heps; ring).
  lra.
Qed.

(** ProductKernel of entries of magnitude at most M (at least 1): off by at most L eps M^L. *)
Lemma pf_C90_product : forall L n Ks M, 1 <= M -> INR L <= bpow 50 -> M ^ L <= bpow 1010 -> all_doubles L n Ks M ->
  forall i j, (i < n)%nat -> (j < n)%nat ->
  near (rprod L (fun k => mvals (Ks k) i j)) (INR L * eps * M ^ L) (fproduct_kernel (members L Ks) i j).
Proof.
  intros L n Ks M HM HL HB HK i j Hi Hj. rewrite product_entry. assert (B10 := big 1010 1020 ltac:(lia)).
  destruct (pacc_any L (fun k => Ks k i j) M HM HL ltac:(lra)) as (C & E & _).
  { intros k Hk. apply (entries_canon L n Ks M i j k HK Hi Hj Hk). }
  split; [apply canon_finite, C|exact E].
Qed.

(** AverageKernel and ProductKernel of members with entries between -1 and 1, such as normalized ones: the
    entries are between -1 and 1, without any rounding error beyond; they are not negative if those of the members
    are not; and they are exactly 1 where those of all members are. *)
Lemma pf_C90_unit_range : forall L n Ks, (0 < L)%nat -> (Z.of_nat L < 2 ^ 53)%Z -> all_doubles L n Ks 1 ->
  forall i j, (i < n)%nat -> (j < n)%nat ->
  let av := faverage_kernel (members L Ks) i j in let pr := fproduct_kernel (members L Ks) i j in
  (f_finite av = true /\ -1 <= fval av <= 1) /\ (f_finite pr = true /\ -1 <= fval pr <= 1) /\
  ((forall k, (k < L)%nat -> 0 <= mvals (Ks k) i j) -> 0 <= fval av /\ 0 <= fval pr) /\
  ((forall k, (k < L)%nat -> mvals (Ks k) i j = 1) -> fval av = 1 /\ fval pr = 1).
Proof.
  intros L n Ks H0 HL HK i j Hi Hj av pr.
  assert (HX : forall k, (k < L)%nat -> canon (Ks k i j) /\ -1 <= fval (Ks k i j) <= 1).
  { intros k Hk. destruct (entries_canon L n Ks 1 i j k HK Hi Hj Hk) as [C B]. apply Rabs_le_inv in B. split; [exact C|lra]. }
  destruct (acc_units L (fun k => Ks k i j) HL HX) as (Ca & Ba & Pa & Ea).
  destruct (pacc_units L (fun k => Ks k i j) HX) as (Cp & Bp & Pp & Ep).
  unfold av, pr. rewrite average_entry, product_entry.
  destruct (fint_any (Z.of_nat L) ltac:(lia)) as [CL VL]. rewrite <- INR_IZR_INZ in VL.
  assert (HLp : 1 <= INR L) by (apply (le_INR 1); lia).
  assert (HiL : 0 < / INR L) by (apply Rinv_0_lt_compat; lra).
  assert (Hq : -1 <= fval (acc L (fun k => Ks k i j)) / INR L <= 1).
  { split; apply Rmult_le_reg_r with (INR L); try lra; unfold Rdiv; rewrite Rmult_assoc, Rinv_l by lra; lra. }
  assert (B1 : 1 < bpow 1022) by (rewrite <- bpow_0; apply big; lia).
  assert (N := fdiv_nearest (acc L (fun k => Ks k i j)) (fint (Z.of_nat L)) Ca CL ltac:(lra)). rewrite VL in N.
  specialize (N ltac:(apply Rle_lt_trans with 1; [apply Rabs_le; lra|lra])). destruct one_val as [C1 V1].
  split; [split; [apply canon_finite, (proj1 N)|split]|].
  - assert (X := nearest_ge _ _ (fopp fone) N (canon_opp _ C1)). rewrite fval_opp, V1 in X. apply X. lra.
  - rewrite <- V1. apply (nearest_le _ _ _ N C1). lra.
  - split; [split; [apply canon_finite, Cp|exact Bp]|]. unfold mvals. split.
    + intros Hp. split; [|apply Pp; exact Hp]. apply (nearest_ge _ _ fzero N I). change (fval fzero) with 0.
      apply Rmult_le_pos; [apply Pa; exact Hp|lra].
    + intros H1. split; [|apply Ep; exact H1]. rewrite (Ea H1) in N. replace (INR L / INR L) with 1 in N by (field; lra).
      exact (nearest_exact _ _ _ N C1 V1).
Qed.

(** They keep the order: when every member gives the pair (i, j) no more than (i', j'), so does the average, and
    the product if the entries are not negative. *)
Lemma pf_C90_order : forall L n Ks b, (0 < L)%nat -> INR L <= bpow 50 -> all_doubles L n Ks b -> INR L * b <= bpow 1010 ->
  forall i j i' j', (i < n)%nat -> (j < n)%nat -> (i' < n)%nat -> (j' < n)%nat ->
  (forall k, (k < L)%nat -> mvals (Ks k) i j <= mvals (Ks k) i' j') ->
  fval (faverage_kernel (members L Ks) i j) <= fval (faverage_kernel (members L Ks) i' j') /\
  (1 <= b -> b ^ L <= bpow 1010 -> (forall k, (k < L)%nat -> 0 <= mvals (Ks k) i j) ->
   fval (fproduct_kernel (members L Ks) i j) <= fval (fproduct_kernel (members L Ks) i' j')).
Proof.
  intros L n Ks b H0 HL HK Hb i j i' j' Hi Hj Hi' Hj' Hle. rewrite !average_entry, !product_entry.
  assert (HS := entries_sum L n Ks b i j HK Hi Hj). assert (HS' := entries_sum L n Ks b i' j' HK Hi' Hj').
  assert (B10 := big 1010 1020 ltac:(lia)). assert (Hpp : 0 < bpow 1010) by apply bpow_pos.
  assert (HX : forall k, (k < L)%nat -> canon (Ks k i j) /\ canon (Ks k i' j') /\ fval (Ks k i j) <= fval (Ks k i' j')).
  { intros k Hk. split; [apply (entries_canon L n Ks b i j k HK Hi Hj Hk)|].
    split; [apply (entries_canon L n Ks b i' j' k HK Hi' Hj' Hk)|apply Hle, Hk]. }
  split.
  - assert (HM := acc_mono L (fun k => Ks k i j) (fun k => Ks k i' j') HL HX ltac:(lra) ltac:(lra)).
    destruct (acc_any L (fun k => Ks k i j) HL (fun k Hk => proj1 (HX k Hk)) ltac:(lra)) as (C & _ & M).
    destruct (acc_any L (fun k => Ks k i' j') HL (fun k Hk => proj1 (proj2 (HX k Hk))) ltac:(lra)) as (C' & _ & M').
    assert (HLz : (Z.abs (Z.of_nat L) < 2 ^ 53)%Z).
    { apply lt_IZR. rewrite Z.abs_eq by lia. rewrite <- INR_IZR_INZ. apply Rle_lt_trans with (1 := HL).
      change (IZR (2 ^ 53)) with 9007199254740992. rewrite bpow_IZR by lia. change (2 ^ 50)%Z with 1125899906842624%Z. lra. }
    destruct (fint_any (Z.of_nat L) HLz) as [CL VL]. rewrite <- INR_IZR_INZ in VL.
    assert (HLp : 1 <= INR L) by (apply (le_INR 1); lia).
    assert (HiL : 0 < / INR L <= 1).
    { split; [apply Rinv_0_lt_compat; lra|]. rewrite <- Rinv_1. apply Rinv_le_contravar; lra. }
    assert (B2 : 4 * bpow 1020 = bpow 1022).
    { change 1022%Z with (2 + 1020)%Z. rewrite bpow_add. change (bpow 2) with (2 * (2 * 1)). ring. }
    assert (HQ : forall v, Rabs v <= 2 * bpow 1020 -> Rabs (v / INR L) < bpow 1022).
    { intros v Hv. unfold Rdiv. rewrite Rabs_mult, (Rabs_pos_eq (/ INR L)) by lra.
      assert (X := Rmult_le_compat_l (Rabs v) _ 1 (Rabs_pos v) (proj2 HiL)). lra. }
    apply fdiv_mono; try assumption; rewrite VL; try lra; apply HQ; lra.
  - intros Hb1 HbL Hp. apply (pacc_mono L _ _ b Hb1 HL ltac:(lra)). intros k Hk.
    destruct (HX k Hk) as (A1 & A2 & A3). destruct (entries_canon L n Ks b i' j' k HK Hi' Hj' Hk) as [_ Bk].
    specialize (Hp k Hk). unfold mvals in Hp. split; [exact A1|]. split; [exact A2|]. split; [lra|].
    apply Rabs_le_inv in Bk. lra.
Qed.

(** Weights are refused exactly if there are not as many as members, with ValueError. *)
Lemma pf_C90_weights : forall w Ks,
  (exists C, fsum_kernel (Some w) Ks = Ok C) /\ length w = length Ks \/
  fsum_kernel (Some w) Ks = Raise ValueError /\ length w <> length Ks.
Proof.
  intros w Ks. unfold fsum_kernel. destruct (Nat.eqb_spec (length w) (length Ks)) as [E|E]; [left|right]; split; eauto.
Qed.

(** All of them are exactly symmetric when the members are, for all floats. *)
Lemma pf_C90_symmetric : forall Ks w n, (forall K, In K Ks -> forall i j, (i < n)%nat -> (j < n)%nat -> K i j = K j i) ->
  forall i j, (i < n)%nat -> (j < n)%nat ->
  (forall C, fsum_kernel w Ks = Ok C -> C i j = C j i) /\
  (forall ws, fweighted_kernel ws Ks i j = fweighted_kernel ws Ks j i) /\
  fproduct_kernel Ks i j = fproduct_kernel Ks j i /\ faverage_kernel Ks i j = faverage_kernel Ks j i.
Proof.
  intros Ks w n H i j Hi Hj.
  assert (HF : forall (g : f64 -> f64 -> f64) l a, (forall K, In K l -> K i j = K j i) ->
    fold_left (fun acc (K : nat -> nat -> f64) => g acc (K i j)) l a = fold_left (fun acc K => g acc (K j i)) l a).
  { intros g l. induction l as [|K l IH]; intros a Hl; [reflexivity|]. cbn [fold_left]. rewrite (Hl K (or_introl eq_refl)).
    apply IH. intros K' HK'. apply Hl. right. exact HK'. }
  assert (HC : forall ws, fcombine ws Ks i j = fcombine ws Ks j i).
  { unfold fcombine. generalize fzero. induction Ks as [|K Ks IH]; intros a ws; [destruct ws; reflexivity|].
    destruct ws as [|v ws]; [reflexivity|]. cbn [combine fold_left fst snd]. rewrite (H K (or_introl eq_refl) i j Hi Hj).
    apply IH. intros K' HK'. apply H. right. exact HK'. }
  split; [|split; [|split]].
  - intros C HCk. unfold fsum_kernel in HCk. destruct w as [ws|].
    + destruct (Nat.eqb (length ws) (length Ks)); [|discriminate HCk]. injection HCk as <-. apply HC.
    + injection HCk as <-. apply HC.
  - intros ws. apply HC.
  - apply HF. intros K HK. apply H; assumption.
  - unfold faverage_kernel. f_equal. apply HF. intros K HK. apply H; assumption.
Qed.

Lemma rprod_fold : forall L f, rprod L f = fold_right Rmult 1 (map f (seq 0 L)).
Proof.
  intros L f. assert (G : forall l a, fold_right Rmult a l = fold_right Rmult 1 l * a).
  { induction l as [|x l IH]; intros a; cbn; [ring|]. rewrite IH. ring. }
  induction L as [|L IH]; [reflexivity|]. rewrite seq_S, map_app, fold_right_app. cbn [rprod map fold_right]. rewrite G, IH. cbn. ring.
Qed.

(** Sums, averages and products of positive semidefinite matrices are positive semidefinite up to rounding. *)
Lemma pf_C90_psd : forall L n Ks b, (0 < L)%nat -> INR L <= bpow 50 -> all_doubles L n Ks b -> 1 <= b ->
  INR L * b <= bpow 1010 -> b ^ L <= bpow 1010 -> (forall k, (k < L)%nat -> psd n (mvals (Ks k))) ->
  (forall C, fsum_kernel None (members L Ks) = Ok C ->
     almost_psd n (mvals C) (fun c => (INR L * eps * (INR L * b)) * (rsum n (fun i => Rabs (c i)) * rsum n (fun i => Rabs (c i))))) /\
  almost_psd n (mvals (faverage_kernel (members L Ks)))
    (fun c => ((INR L + 1) * eps * b + least) * (rsum n (fun i => Rabs (c i)) * rsum n (fun i => Rabs (c i)))) /\
  almost_psd n (mvals (fproduct_kernel (members L Ks)))
    (fun c => (INR L * eps * b ^ L) * (rsum n (fun i => Rabs (c i)) * rsum n (fun i => Rabs (c i)))).
Proof.
  intros L n Ks b H0 HL HK Hb1 Hb HbL HP. assert (He : 0 < eps) by apply bpow_pos.
  assert (HLp : 1 <= INR L) by (apply (le_INR 1); lia).
  assert (HLe : 0 <= INR L * eps) by (apply Rmult_le_pos; lra).
  assert (HiL : 0 < / INR L) by (apply Rinv_0_lt_compat; lra).
  split; [|split].
  - intros C HC. destruct (pf_C90_sum L n Ks b HL HK Hb) as (C' & HC' & HN). rewrite HC in HC'. injection HC' as <-.
    apply (almost_psd_const n _ (fun i j => rsum L (fun k => mvals (Ks k) i j))); [apply psd_rsum, HP|].
    intros i j Hi Hj. destruct (HN i j Hi Hj) as [_ E]. eapply Rle_trans; [exact E|]. apply Rmult_le_compat_l; [exact HLe|].
    apply (entries_sum L n Ks b i j HK Hi Hj).
  - apply (almost_psd_const n _ (fun i j => / INR L * rsum L (fun k => mvals (Ks k) i j))).
    { apply psd_scal; [lra|]. apply psd_rsum, HP. }
    intros i j Hi Hj. destruct (pf_C90_average L n Ks b H0 HL HK Hb i j Hi Hj) as [_ E].
    rewrite (Rmult_comm (/ INR L)). eapply Rle_trans; [exact E|]. apply Rplus_le_compat_r. apply Rmult_le_compat_l; [apply Rmult_le_pos; lra|].
    apply Rmult_le_reg_r with (INR L); [lra|]. unfold Rdiv. rewrite Rmult_assoc, Rinv_l, Rmult_1_r, (Rmult_comm b) by lra.
    apply (entries_sum L n Ks b i j HK Hi Hj).
  - apply (almost_psd_const n _ (fun i j => fold_right Rmult 1 (map (fun k => mvals (Ks k) i j) (seq 0 L)))); [apply psd_prod, HP|].
    intros i j Hi Hj. destruct (pf_C90_product L n Ks b Hb1 HL HbL HK i j Hi Hj) as [_ E]. rewrite rprod_fold in E. exact E.
Qed.

(** The average of equal matrices need not be that matrix: with three members whose entry is the double nearest
    to 1/10 the average is larger than all of them. *)
Lemma pf_C90_average_refuted : exists n K i j, doubles2 n n K 1 /\ psd n (mvals K) /\ (i < n)%nat /\ (j < n)%nat /\
  fval (K i j) < fval (faverage_kernel [K; K; K] i j).
Proof.
  exists 2%nat, tenth2, 0%nat, 1%nat.
  assert (V : fval (S754_finite false 7205759403792794 (-56)) = 7205759403792794 / 72057594037927936).
  { cbn [fval]. rewrite Rmult_1_l. change (-56)%Z with (- (56))%Z. rewrite bpow_neg, bpow_IZR by lia. reflexivity. }
  assert (V' : fval (S754_finite false 7205759403792795 (-56)) = 7205759403792795 / 72057594037927936).
  { cbn [fval]. rewrite Rmult_1_l. change (-56)%Z with (- (56))%Z. rewrite bpow_neg, bpow_IZR by lia. reflexivity. }
  destruct one_val as [_ V1].
  split; [|split; [|split; [lia|split; [lia|]]]].
  - intros i j Hi Hj. unfold mvals. destruct i as [|[|i]]; [| |lia]; destruct j as [|[|j]]; try lia;
      (split; [reflexivity|split; [reflexivity|]]); unfold tenth2; cbn [Nat.eqb]; rewrite ?V, ?V1; apply Rabs_le; lra.
  - set (t := 7205759403792794 / 72057594037927936) in *.
    apply psd_ext with (fun i j => t * 1 + (1 - t) * (if Nat.eq_dec i j then 1 else 0)).
    + intros i j Hi Hj. unfold mvals, tenth2. destruct (Nat.eq_dec i j) as [->|D].
      * rewrite Nat.eqb_refl, V1. ring.
      * apply Nat.eqb_neq in D. rewrite D, V. fold t. ring.
    + apply psd_plus; [apply psd_scal; [unfold t; lra|apply psd_ones]|]. apply psd_scal; [unfold t; lra|].
      apply (psd_same Nat.eq_dec 2 (fun i => i)).
  - change (tenth2 0%nat 1%nat) with (S754_finite false 7205759403792794 (-56)).
    change (faverage_kernel [tenth2; tenth2; tenth2] 0%nat 1%nat) with (S754_finite false 7205759403792795 (-56)).
    rewrite V, V'. lra.
Qed.

(** The order of the members matters for sums. *)
Lemma pf_C90_sum_order_refuted : exists Ks Ks' C C', Permutation Ks Ks' /\ (forall K, In K Ks -> doubles2 1 1 K 1) /\
  fsum_kernel None Ks = Ok C /\ fsum_kernel None Ks' = Ok C' /\ fval (C 0%nat 0%nat) < fval (C' 0%nat 0%nat).
Proof.
  pose (one := fun (_ _ : nat) => fone). pose (small := fun (_ _ : nat) => S754_finite false 4503599627370496 (-105)).
  exists [one; small; small], [small; small; one]. eexists. eexists.
  assert (V : fval (S754_finite false 4503599627370496 (-105)) = / 9007199254740992).
  { cbn [fval]. rewrite Rmult_1_l. change (-105)%Z with (- (105))%Z. rewrite bpow_neg, bpow_IZR by lia.
    change (2 ^ 105)%Z with 40564819207303340847894502572032%Z. lra. }
  destruct one_val as [_ V1].
  split; [|split; [|split; [reflexivity|split; [reflexivity|]]]].
  - apply perm_trans with [small; one; small]; [apply perm_swap|apply perm_skip, perm_swap].
  - intros K HK i j Hi Hj. unfold mvals. destruct HK as [<-|[<-|[<-|[]]]]; (split; [reflexivity|split; [reflexivity|]]);
      unfold one, small; rewrite ?V, ?V1; apply Rabs_le; lra.
  - match goal with |- fval ?a < fval ?b => change a with fone; change b with (S754_finite false 4503599627370497 (-52)) end.
    rewrite V1. cbn [fval]. rewrite Rmult_1_l. change (-52)%Z with (- (52))%Z. rewrite bpow_neg, bpow_IZR by lia.
    change (2 ^ 52)%Z with 4503599627370496%Z. lra.
Qed.

(** A product of positive numbers need not be positive: 2^-600 with itself. *)
Lemma pf_C90_product_refuted : exists K : nat -> nat -> f64, doubles2 1 1 K 1 /\ 0 < fval (K 0%nat 0%nat) /\
  fval (fproduct_kernel [K; K] 0%nat 0%nat) = 0.
Proof.
  exists (fun _ _ => S754_finite false 4503599627370496 (-652)).
  assert (V : fval (S754_finite false 4503599627370496 (-652)) = bpow (-600)).
  { cbn [fval]. rewrite Rmult_1_l. change (-652)%Z with (- (52) + -600)%Z. rewrite bpow_add, bpow_neg, (bpow_IZR 52) by lia.
    change (2 ^ 52)%Z with 4503599627370496%Z. set (q := bpow (-600)). field. }
  assert (B : 0 < bpow (-600)) by apply bpow_pos. assert (B' : bpow (-600) <= 1) by (rewrite <- bpow_0; apply bpow_le; lia).
  split; [|split; [rewrite V; exact B|reflexivity]].
  intros i j Hi Hj. split; [reflexivity|split; [reflexivity|]]. unfold mvals. rewrite V. apply Rabs_le. lra.
Qed.

(** Two members meeting the hypotheses, their average and product. *)
Lemma pf_C90_example : all_doubles 2 2 (fun k => if Nat.eqb k 0 then half2 else tenth2) 1 /\
  INR 2 * 1 <= bpow 1010 /\ 1 ^ 2 <= bpow 1010 /\
  let Ks := members 2 (fun k => if Nat.eqb k 0 then half2 else tenth2) in
  faverage_kernel Ks 0%nat 1%nat = S754_finite false 5404319552844595 (-54) /\ faverage_kernel Ks 1%nat 1%nat = fone /\
  fproduct_kernel Ks 0%nat 1%nat = S754_finite false 7205759403792794 (-57) /\ fproduct_kernel Ks 1%nat 1%nat = fone /\
  res_map (fun C => C 1%nat 0%nat) (fsum_kernel (Some [fone; ftwo]) Ks) = Ok (S754_finite false 6305039478318694 (-53)).
Proof.
  assert (B : 4 <= bpow 1010).
  { apply Rle_trans with (bpow 2); [rewrite bpow_IZR by lia; change (2 ^ 2)%Z with 4%Z; lra|apply bpow_le; lia]. }
  assert (V : fval (S754_finite false 7205759403792794 (-56)) = 7205759403792794 / 72057594037927936).
  { cbn [fval]. rewrite Rmult_1_l. change (-56)%Z with (- (56))%Z. rewrite bpow_neg, bpow_IZR by lia. reflexivity. }
  assert (V' : fval (S754_finite false 4503599627370496 (-53)) = 4503599627370496 / 9007199254740992).
  { cbn [fval]. rewrite Rmult_1_l. change (-53)%Z with (- (53))%Z. rewrite bpow_neg, bpow_IZR by lia. reflexivity. }
  destruct one_val as [_ V1].
  split; [|split; [cbn [INR]; lra|split; [cbn [pow]; lra|]]].
  - intros k Hk i j Hi Hj. unfold mvals. destruct k as [|[|k]]; [| |lia];
      (destruct i as [|[|i]]; [| |lia]; destruct j as [|[|j]]; try lia;
      (split; [reflexivity|split; [reflexivity|]]); unfold tenth2, half2; cbn [Nat.eqb]; rewrite ?V, ?V', ?V1; apply Rabs_le; lra).
  - repeat split; reflexivity.
Qed.
