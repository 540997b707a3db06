(** C86: the accuracy of kernels in double precision. *)
From Coq Require Import ZArith Bool List Permutation Reals Lia Lra Floats.SpecFloat.
From Verif Require Import Prelude KernelsModel XReal MatModel FloatModel SpecFloats SpecFloatVal SpecLinAlg RSum PSDFacts KernelFacts SpecKernels
  SpecFloatErr FloatProps FloatNormProps FloatRound FloatAny FloatSum.
Import ListNotations.
Local Open Scope R_scope.

(** C86: the linear kernel: with d features the value differs from the inner product by at most
    d eps sum |x_k y_k| (and d times the least positive number). Numbers below the normal range are
    included; the only restrictions are against overflow. *)
Lemma pf_C86_linear : forall e d x y, decent e -> doubles d x -> doubles d y -> INR d <= bpow 50 ->
  absinner d (vals x) (vals y) <= bpow 1010 ->
  exists v, fkernel_value e FLinear (features d x) (features d y) = Ok v /\
    near (inner d (vals x) (vals y)) (INR d * eps * absinner d (vals x) (vals y) + INR d * least) v.
Proof.
  intros e d x y He Dx Dy Hd Hb. eexists. split; [reflexivity|].
  destruct (dot_any e d x y He Dx Dy Hd Hb) as [C E]. split; [apply canon_finite, C|].
  apply Rle_trans with (1 := E). apply Rplus_le_compat_r, Rmult_le_compat_r.
  - apply rsum_nonneg. intros. apply Rabs_pos.
  - destruct (grow_le d Hd) as [G _]. lra.
Qed.

Fixpoint isum' (d : nat) (f : nat -> Z) : Z := match d with O => 0%Z | S k => (isum' k f + f k)%Z end.

Lemma isum_seq : forall d f, fold_right Z.add 0%Z (map f (seq 0 d)) = isum' d f.
Proof.
  assert (A : forall p q, fold_right Z.add 0%Z (p ++ q) = (fold_right Z.add 0 p + fold_right Z.add 0 q)%Z).
  { induction p as [|z p IH]; intros q; cbn; [lia|]. rewrite IH. lia. }
  induction d as [|d IH]; intros f; [reflexivity|]. rewrite seq_S, map_app, A, IH. cbn. lia.
Qed.

Lemma isum_IZR : forall d f, IZR (isum' d f) = rsum d (fun k => IZR (f k)).
Proof. induction d as [|d IH]; intros f; cbn; [reflexivity|]. rewrite plus_IZR, IH. reflexivity. Qed.

(** C86: the linear kernel on whole numbers is exact as long as sum |x_k y_k| is below 2^53. *)
Lemma pf_C86_linear_exact : forall e d x y (a b : nat -> Z), decent e -> doubles d x -> doubles d y ->
  (forall k, (k < d)%nat -> vals x k = IZR (a k) /\ vals y k = IZR (b k)) ->
  absinner d (vals x) (vals y) < bpow 53 ->
  exists v, fkernel_value e FLinear (features d x) (features d y) = Ok v /\
    near (inner d (vals x) (vals y)) 0 v.
Proof.
  intros e d x y a b He Dx Dy Hz Hb. eexists. split; [reflexivity|].
  set (p := fun k => fmul (x k) (y k)).
  set (q := fun k => (a k * b k)%Z).
  assert (HS : absinner d (vals x) (vals y) = IZR (isum' d (fun k => Z.abs (q k)))).
  { unfold absinner. rewrite isum_IZR. apply rsum_ext. intros k Hk. destruct (Hz k Hk) as [-> ->].
    unfold q. rewrite abs_IZR, mult_IZR. reflexivity. }
  assert (Hlt : (isum' d (fun k => Z.abs (q k)) < 2 ^ 53)%Z).
  { apply lt_IZR. rewrite <- HS, <- bpow_IZR by lia. exact Hb. }
  assert (Hterm : forall k, (k < d)%nat -> (Z.abs (q k) < 2 ^ 53)%Z).
  { intros k Hk. apply Z.le_lt_trans with (2 := Hlt). apply le_IZR. rewrite isum_IZR.
    apply (rsum_term_le d (fun k => IZR (Z.abs (q k))) k Hk). intros. apply IZR_le. lia. }
  assert (Hp : forall k, (k < d)%nat -> canon (p k) /\ fval (p k) = IZR (q k)).
  { intros k Hk. destruct (Hz k Hk) as [Ex Ey]. unfold vals in Ex, Ey. specialize (Hterm k Hk).
    destruct (fmul_any (x k) (y k)) as (R1 & _ & R3).
    - exact (doubles_canon d x k Dx Hk).
    - exact (doubles_canon d y k Dy Hk).
    - rewrite Ex, Ey, <- mult_IZR, <- abs_IZR. apply Rlt_trans with (bpow 53); [|apply big; lia].
      rewrite bpow_IZR by lia. apply IZR_lt. exact Hterm.
    - split; [exact R1|]. unfold p. rewrite (R3 (q k)), Ex, Ey; [unfold q; rewrite mult_IZR; reflexivity| |exact Hterm].
      rewrite Ex, Ey. unfold q. rewrite mult_IZR. reflexivity. }
  destruct (sum_ints (map p (seq 0 d)) (fdot e (features d x) (features d y))) with (zs := map q (seq 0 d)) as [C V].
  - unfold fdot. rewrite zip_features. apply (d_acc e He).
  - apply Forall_seq. intros k Hk. apply Hp, Hk.
  - rewrite !map_map. apply map_ext_in. intros k Hk. apply in_seq in Hk. apply Hp. lia.
  - replace (fold_right (fun z a0 : Z => Z.abs z + a0) 0 (map q (seq 0 d)))%Z with (isum' d (fun k => Z.abs (q k))); [exact Hlt|].
    rewrite <- isum_seq. generalize (seq 0 d). induction l as [|k l IH]; cbn; [reflexivity|]. rewrite IH. reflexivity.
  - split; [apply canon_finite, C|]. rewrite V, isum_seq, isum_IZR. unfold inner.
    rewrite (rsum_ext d (fun k => vals x k * vals y k) (fun k => IZR (q k))).
    + rewrite Rminus_diag_eq by reflexivity. rewrite Rabs_R0. lra.
    + intros k Hk. destruct (Hz k Hk) as [-> ->]. unfold q. rewrite mult_IZR. reflexivity.
Qed.

Lemma quad_near : forall n A B E c, (forall i j, (i < n)%nat -> (j < n)%nat -> Rabs (A i j - B i j) <= E i j) ->
  quad n B c - quad n E (fun i => Rabs (c i)) <= quad n A c.
Proof.
  intros n A B E c H. unfold quad. rewrite <- rsum_minus. apply rsum_le. intros i Hi. rewrite <- rsum_minus.
  apply rsum_le. intros j Hj. specialize (H i j Hi Hj).
  assert (H1 : Rabs (c i * (A i j - B i j) * c j) <= Rabs (c i) * E i j * Rabs (c j)).
  { rewrite !Rabs_mult. apply Rmult_le_compat_r; [apply Rabs_pos|]. apply Rmult_le_compat_l; [apply Rabs_pos|exact H]. }
  assert (H2 := Rle_abs (- (c i * (A i j - B i j) * c j))). rewrite Rabs_Ropp in H2.
  assert (H3 : c i * A i j * c j = c i * B i j * c j + c i * (A i j - B i j) * c j) by ring. lra.
Qed.

Lemma quad_const : forall n b c, quad n (fun _ _ => b) c = b * (rsum n c * rsum n c).
Proof.
  intros n b c. unfold quad. rewrite rsum_mult, <- rsum_scal. apply rsum_ext. intros i _. rewrite <- rsum_scal.
  apply rsum_ext. intros j _. ring.
Qed.

(** C86: kernel matrices of LinearKernel are symmetric, and positive semidefinite up to rounding. *)
Lemma pf_C86_linear_psd : forall e n d X K, decent e -> (forall i, (i < n)%nat -> doubles d (X i)) ->
  INR d <= bpow 50 ->
  (forall i j, (i < n)%nat -> (j < n)%nat ->
     absinner d (vals (X i)) (vals (X j)) <= bpow 1010 /\
     fkernel_value e FLinear (features d (X i)) (features d (X j)) = Ok (K i j)) ->
  symmetric n (fun i j => fval (K i j)) /\
  almost_psd n (fun i j => fval (K i j)) (fun c =>
    INR d * eps * rsum d (fun k => rsum n (fun i => Rabs (c i * vals (X i) k)) * rsum n (fun i => Rabs (c i * vals (X i) k)))
    + INR d * least * (rsum n (fun i => Rabs (c i)) * rsum n (fun i => Rabs (c i)))).
Proof.
  intros e n d X K He DX Hd HK. split.
  { intros i j Hi Hj. destruct (HK i j Hi Hj) as [_ E1]. destruct (HK j i Hj Hi) as [_ E2].
    rewrite (pf_C76_symmetric e FLinear) in E1 by apply (d_pow_even e He). congruence. }
  intros c.
  set (E := fun i j => INR d * eps * absinner d (vals (X i)) (vals (X j)) + INR d * least).
  assert (Hq := quad_near n (fun i j => fval (K i j)) (fun i j => inner d (vals (X i)) (vals (X j))) E c).
  assert (HB : 0 <= quad n (fun i j => inner d (vals (X i)) (vals (X j))) c) by apply (psd_inner n d (fun i => vals (X i))).
  assert (HE : quad n E (fun i => Rabs (c i)) =
    INR d * eps * rsum d (fun k => rsum n (fun i => Rabs (c i * vals (X i) k)) * rsum n (fun i => Rabs (c i * vals (X i) k)))
    + INR d * least * (rsum n (fun i => Rabs (c i)) * rsum n (fun i => Rabs (c i)))).
  { unfold E. rewrite (quad_plus n (fun i j => INR d * eps * absinner d (vals (X i)) (vals (X j)))), quad_const.
    rewrite (quad_scal n (INR d * eps)). f_equal. f_equal. unfold quad, absinner.
    rewrite (rsum_ext n _ (fun i => rsum d (fun k => rsum n (fun j => Rabs (c i * vals (X i) k) * Rabs (c j * vals (X j) k))))).
    - rewrite rsum_swap. apply rsum_ext. intros k _. rewrite rsum_mult. reflexivity.
    - intros i _. rewrite rsum_swap. apply rsum_ext. intros j _. rewrite <- rsum_scal, <- rsum_scal_r.
      apply rsum_ext. intros k _. rewrite !Rabs_mult. ring. }
  rewrite HE in Hq. cbv beta. apply Rle_trans with (2 := Hq ltac:(
    intros i j Hi Hj; destruct (HK i j Hi Hj) as [Hb Ek];
    destruct (pf_C86_linear e d (X i) (X j) He (DX i Hi) (DX j Hj) Hd Hb) as (v & Ev & _ & Hv);
    rewrite Ek in Ev; injection Ev as <-; exact Hv)).
  lra.
Qed.

Lemma Rabs_le_inv : forall x a, Rabs x <= a -> - a <= x <= a.
Proof. intros x a. unfold Rabs. destruct (Rcase_abs x); lra. Qed.

(** Exponentials of nearby numbers. *)
Lemma x_exp : forall a, a * exp (- a) <= / 2.
Proof.
  intros a. assert (H := exp_pos (- a)). destruct (Rle_lt_dec a 0) as [Ha|Ha]; [nra|].
  assert (H1 : 1 + a / 2 < exp (a / 2)) by (apply exp_ineq1; lra).
  assert (H2 : exp a = exp (a / 2) * exp (a / 2)) by (rewrite <- exp_plus; f_equal; field).
  assert (H3 : 2 * a <= exp a) by (rewrite H2; assert (0 <= (1 - a / 2) * (1 - a / 2)) by apply Rle_0_sqr; nra).
  assert (H4 : exp a * exp (- a) = 1) by (rewrite <- exp_plus, Rplus_opp_r; apply exp_0). nra.
Qed.

Lemma exp_drop : forall a h, 0 <= h -> 0 <= exp (- a) - exp (- (a + h)) <= exp (- a) * h.
Proof.
  intros a h Hh. rewrite Ropp_plus_distr, exp_plus. assert (H := exp_pos (- a)).
  assert (H1 : 1 - h <= exp (- h)) by (assert (Q := exp_ineq1_le (- h)); lra).
  assert (H2 : exp (- h) <= 1).
  { rewrite <- exp_0. destruct (Req_dec h 0) as [->|Hn]; [rewrite Ropp_0; lra|]. left. apply exp_increasing. lra. }
  split; nra.
Qed.

Lemma exp_near : forall a b th ta, 0 <= a -> 0 <= b -> 0 <= th <= / 2 -> 0 <= ta -> Rabs (b - a) <= th * a + ta ->
  Rabs (exp (- b) - exp (- a)) <= th + 2 * ta.
Proof.
  intros a b th ta Ha Hb Hth Hta H. apply Rabs_le_inv in H.
  assert (Le1 : forall z, 0 <= z -> exp (- z) <= 1).
  { intros z Hz. rewrite <- exp_0. destruct (Req_dec z 0) as [->|Hn]; [rewrite Ropp_0; lra|]. left. apply exp_increasing. lra. }
  destruct (Rle_lt_dec a b) as [L|L].
  - assert (D := exp_drop a (b - a) ltac:(lra)). replace (a + (b - a)) with b in D by ring.
    assert (X := x_exp a). assert (P := exp_pos (- a)). assert (Q := Le1 a Ha).
    assert (exp (- a) * (b - a) <= exp (- a) * (th * a + ta)) by (apply Rmult_le_compat_l; lra).
    assert (exp (- a) * (th * a + ta) = th * (a * exp (- a)) + ta * exp (- a)) by ring.
    assert (th * (a * exp (- a)) <= th * / 2) by (apply Rmult_le_compat_l; lra).
    assert (ta * exp (- a) <= ta * 1) by (apply Rmult_le_compat_l; lra).
    apply Rabs_le. lra.
  - assert (D := exp_drop b (a - b) ltac:(lra)). replace (b + (a - b)) with a in D by ring.
    assert (X := x_exp b). assert (P := exp_pos (- b)). assert (Q := Le1 b Hb).
    assert (Hd : a - b <= 2 * th * b + (1 + 2 * th) * ta).
    { assert (a - b <= th * (a - b) + th * b + ta) by lra.
      assert (th * (a - b) <= / 2 * (a - b)) by (apply Rmult_le_compat_r; lra).
      assert (Hs : a - b <= 2 * (th * b) + 2 * ta) by lra.
      assert (th * (a - b) <= th * (2 * (th * b) + 2 * ta)) by (apply Rmult_le_compat_l; lra).
      assert (th * (th * b) <= / 2 * (th * b)) by (apply Rmult_le_compat_r; [apply Rmult_le_pos; lra|lra]). lra. }
    assert (exp (- b) * (a - b) <= exp (- b) * (2 * th * b + (1 + 2 * th) * ta)) by (apply Rmult_le_compat_l; lra).
    assert (exp (- b) * (2 * th * b + (1 + 2 * th) * ta) = 2 * th * (b * exp (- b)) + (1 + 2 * th) * ta * exp (- b)) by ring.
    assert (2 * th * (b * exp (- b)) <= 2 * th * / 2) by (apply Rmult_le_compat_l; lra).
    assert ((1 + 2 * th) * ta * exp (- b) <= (1 + 2 * th) * ta * 1) by (apply Rmult_le_compat_l; [apply Rmult_le_pos; lra|lra]).
    assert (2 * th * ta <= 1 * ta) by (apply Rmult_le_compat_r; lra).
    apply Rabs_le. lra.
Qed.

Lemma fval_nonneg : forall x, f_nonneg x = true -> 0 <= fval x.
Proof.
  intros [s|s| |s m e] H; cbn in *; try lra. destruct s; [discriminate|].
  rewrite Rmult_1_l. apply Rmult_le_pos; [apply IZR_le; lia|apply Rlt_le, bpow_pos].
Qed.

Lemma nonneg_of_fval : forall x, canon x -> 0 <= fval x -> f_nonneg x = true.
Proof.
  intros [s|s| |s m e] C H; try contradiction; [reflexivity|]. cbn in *. destruct s; [|reflexivity].
  assert (0 < IZR (Z.pos m) * bpow e) by (apply Rmult_lt_0_compat; [apply IZR_lt; lia|apply bpow_pos]). lra.
Qed.

Lemma canon_normal : forall x, normal x -> canon x.
Proof. intros [s|s| |s m e] H; try contradiction. destruct H as [H1 H2]. split; [rewrite H1; lia|]. split; [lia|]. left. exact H1. Qed.

(** exp of -gamma s, for a distance [s] known up to an error. *)
Lemma exp_scaled : forall e delta g s D th ta, exp_within delta e -> canon g -> 0 < fval g -> canon s -> 0 <= fval s ->
  0 <= D -> 0 <= th <= / 4 -> 0 <= ta -> Rabs (fval s - D) <= th * D + ta ->
  fval g * (2 * D + ta) <= bpow 1020 ->
  near (exp (- fval g * D)) (delta + ((1 + u) * (1 + th) - 1) + 2 * ((1 + u) * (fval g * ta) + tiny)) (e_exp e (fmul (fopp g) s)).
Proof.
  intros e delta g s D th ta He Cg Hg Cs Hs HD Hth Hta HE Hb.
  assert (Hu := u_pos). assert (Ht : 0 < tiny) by apply bpow_pos.
  assert (Hu1 : u <= / 8).
  { rewrite <- bpow_m3. apply bpow_le. lia. }
  assert (HsD : fval s <= (1 + th) * D + ta) by (apply Rabs_le_inv in HE; lra).
  assert (HgS : 0 <= fval g * fval s) by (apply Rmult_le_pos; lra).
  assert (Hgs : fval g * fval s <= fval g * (2 * D + ta)).
  { apply Rmult_le_compat_l; [lra|]. assert (th * D <= 1 * D) by (apply Rmult_le_compat_r; lra). lra. }
  set (w := fmul (fopp g) s).
  assert (Hv : fval (fopp g) * fval s = - (fval g * fval s)) by (rewrite fval_opp; ring).
  destruct (fmul_any (fopp g) s (canon_opp _ Cg) Cs) as (Cw & Ew & _).
  { rewrite Hv, Rabs_Ropp, Rabs_pos_eq by lra. apply Rle_lt_trans with (bpow 1020); [lra|apply big; lia]. }
  fold w in Cw, Ew. rewrite Hv, Rabs_Ropp, (Rabs_pos_eq (fval g * fval s)) in Ew by lra.
  assert (Hw : fval w <= 0).
  { assert (N : f_nonneg (fopp w) = true).
    { apply scale_nonpos; [apply canon_finite, Cg| |apply nonneg_of_fval; [exact Cg|lra]|apply nonneg_of_fval; [exact Cs|exact Hs]].
      destruct g; try reflexivity. cbn in Hg. lra. }
    apply fval_nonneg in N. rewrite fval_opp in N. lra. }
  destruct (canon_valid w Cw) as [Fw Vw]. destruct (He w Fw Vw Hw) as [Fe Ee].
  split; [exact Fe|].
  set (a := fval g * D). set (b := - fval w).
  assert (Ha : 0 <= a) by (apply Rmult_le_pos; lra).
  assert (Hab : Rabs (b - a) <= ((1 + u) * (1 + th) - 1) * a + ((1 + u) * (fval g * ta) + tiny)).
  { replace (b - a) with (- (fval w - - (fval g * fval s)) + fval g * (fval s - D)) by (unfold a, b; ring).
    eapply Rle_trans; [apply Rabs_triang|]. rewrite Rabs_Ropp, (Rabs_mult (fval g)), (Rabs_pos_eq (fval g)) by lra.
    assert (fval g * Rabs (fval s - D) <= fval g * (th * D + ta)) by (apply Rmult_le_compat_l; lra).
    assert (u * (fval g * fval s) <= u * (fval g * ((1 + th) * D + ta))).
    { apply Rmult_le_compat_l; [lra|]. apply Rmult_le_compat_l; lra. }
    unfold a. lra. }
  assert (Hth' : 0 <= (1 + u) * (1 + th) - 1 <= / 2).
  { assert (0 <= u * th) by (apply Rmult_le_pos; lra). assert (u * th <= / 8 * / 4) by (apply Rmult_le_compat; lra). lra. }
  assert (Hta' : 0 <= (1 + u) * (fval g * ta) + tiny).
  { assert (0 <= fval g * ta) by (apply Rmult_le_pos; lra). assert (0 <= (1 + u) * (fval g * ta)) by (apply Rmult_le_pos; lra). lra. }
  assert (EN := exp_near a b _ _ Ha ltac:(unfold b; lra) Hth' Hta' Hab).
  replace (- fval g * D) with (- a) by (unfold a; ring).
  replace (fval (e_exp e w) - exp (- a)) with ((fval (e_exp e w) - exp (fval w)) + (exp (fval w) - exp (- a))) by ring.
  eapply Rle_trans; [apply Rabs_triang|]. replace (exp (fval w)) with (exp (- b)) in * by (unfold b; f_equal; ring).
  lra.
Qed.

Lemma rsum_absabs : forall d f, rsum d (fun k => Rabs (Rabs (f k))) = rsum d (fun k => Rabs (f k)).
Proof. intros. apply rsum_ext. intros. apply Rabs_Rabsolu. Qed.

(** C86: the Laplacian kernel: with an exponential that is off by at most [delta], the value is off by at
    most delta + (d + 1) eps. *)
Lemma pf_C86_laplacian : forall e delta gamma d x y, decent e -> exp_within delta e ->
  f_finite gamma = true -> valid_binary 53 1024 gamma = true -> 0 < fval gamma ->
  doubles d x -> doubles d y -> INR d + 1 <= bpow 50 ->
  dist1 d (vals x) (vals y) <= bpow 1010 -> fval gamma * dist1 d (vals x) (vals y) <= bpow 1010 ->
  exists v, fkernel_value e (FLaplacian gamma) (features d x) (features d y) = Ok v /\
    near (exp (- fval gamma * dist1 d (vals x) (vals y))) (delta + (INR d + 1) * eps + least) v.
Proof.
  intros e delta gamma d x y He Hexp Fg Vg Hg Dx Dy Hd HD1 HgD. eexists. split; [reflexivity|].
  assert (Cg := valid_canon _ Fg Vg). assert (Hu := u_pos). assert (Hn := pos_INR d).
  set (D := dist1 d (vals x) (vals y)) in *.
  assert (HD : 0 <= D) by (apply rsum_nonneg; intros; apply Rabs_pos).
  set (s := e_sum e (map fabs (zip fsub (features d x) (features d y)))).
  rewrite <- S_INR in *.
  assert (Hd' : INR d <= bpow 50) by (rewrite S_INR in Hd; lra).
  assert (Hu1 : u <= / 8) by (rewrite <- bpow_m3; apply bpow_le; lia).
  assert (B11 : 2 * bpow 1010 = bpow 1011) by (change 1011%Z with (1 + 1010)%Z; rewrite bpow_add; change (bpow 1) with (2 * 1); ring).
  assert (B12 := big 1011 1020 ltac:(lia)). assert (B13 := big 1011 1021 ltac:(lia)).
  assert (Hsum : canon s /\ Rabs (fval s - D) <= ((1 + u) ^ d - 1) * D + 0).
  { destruct (sum_terms s d (fun k => fabs (fsub (x k) (y k))) (fun k => Rabs (vals x k - vals y k)) u 0) as [C E]; try lra.
    - unfold s. rewrite zip_features, map_map. apply (d_sum e He).
    - intros k Hk. destruct (fsub_any (x k) (y k)) as (R1 & R2 & _).
      + exact (doubles_canon d x k Dx Hk).
      + exact (doubles_canon d y k Dy Hk).
      + apply Rle_lt_trans with (bpow 1010); [|apply big; lia]. apply Rle_trans with (2 := HD1).
        apply (rsum_term_le d (fun k => Rabs (vals x k - vals y k)) k Hk). intros. apply Rabs_pos.
      + split; [apply canon_abs, R1|]. rewrite fval_abs, Rplus_0_r, Rabs_Rabsolu.
        apply Rle_trans with (2 := R2). apply Rabs_triang_inv2.
    - rewrite rsum_absabs. change (rsum d (fun k => Rabs (vals x k - vals y k))) with D.
      assert (u * D <= 1 * D) by (apply Rmult_le_compat_r; lra). lra.
    - split; [exact C|]. rewrite rsum_absabs in E. change (rsum d (fun k => Rabs (vals x k - vals y k))) with D in E.
      apply Rle_trans with (1 := E). rewrite Rmult_0_r. apply Rplus_le_compat_r. destruct d as [|d].
      + cbn. unfold D, dist1. cbn. lra.
      + apply Rmult_le_compat_r; [exact HD|]. replace (S d - 1)%nat with d by lia. cbn [pow]. lra. }
  destruct Hsum as [Cs Es].
  destruct (grow_le d Hd') as [_ G2]. assert (G1 := grow_ge1 d).
  destruct (grow_le (S d) Hd) as [G3 _].
  destruct (exp_scaled e delta gamma s D ((1 + u) ^ d - 1) 0 Hexp Cg Hg Cs) as [F E]; try lra.
  - apply fval_nonneg. apply (adds_nonneg _ _ (d_sum e He _)). rewrite zip_features, map_map.
    apply forallb_forall. intros v Hv. apply in_map_iff in Hv. destruct Hv as (k & <- & Hk). apply in_seq in Hk.
    destruct (fsub_any (x k) (y k)) as (R1 & _ & _).
    + apply (doubles_canon d x k Dx). lia.
    + apply (doubles_canon d y k Dy). lia.
    + apply Rle_lt_trans with (bpow 1010); [|apply big; lia]. apply Rle_trans with (2 := HD1).
      apply (rsum_term_le d (fun k => Rabs (vals x k - vals y k)) k); [lia|]. intros. apply Rabs_pos.
    + apply nonneg_of_fval; [apply canon_abs, R1|]. rewrite fval_abs. apply Rabs_pos.
  - split; [exact F|]. apply Rle_trans with (1 := E). rewrite <- tiny_least. cbn [pow] in G3.
    replace (1 + ((1 + u) ^ d - 1)) with ((1 + u) ^ d) by ring. lra.
Qed.

Lemma sq_rel : forall t v a, 0 <= a -> Rabs (t - v) <= a * Rabs v -> Rabs (t * t - v * v) <= ((1 + a) * (1 + a) - 1) * (v * v).
Proof.
  intros t v a Ha H. replace (t * t - v * v) with ((t - v) * ((t - v) + 2 * v)) by ring. rewrite Rabs_mult.
  assert (Hv : v * v = Rabs v * Rabs v) by (rewrite <- Rabs_mult, Rabs_pos_eq; [reflexivity|apply Rle_0_sqr]).
  rewrite Hv. assert (P := Rabs_pos v).
  apply Rle_trans with ((a * Rabs v) * (a * Rabs v + 2 * Rabs v)); [|apply Req_le; ring].
  apply Rmult_le_compat; try apply Rabs_pos; [exact H|].
  eapply Rle_trans; [apply Rabs_triang|]. rewrite (Rabs_mult 2), (Rabs_pos_eq 2) by lra. lra.
Qed.

Lemma chain : forall P s D a b t1 t2, 0 <= a -> 0 <= b -> 0 <= D -> 0 <= t1 ->
  Rabs (s - D) <= b * D + t1 -> Rabs (P - s) <= a * Rabs s + t2 ->
  Rabs (P - D) <= ((1 + a) * (1 + b) - 1) * D + (1 + a) * t1 + t2.
Proof.
  intros P s D a b t1 t2 Ha Hb HD Ht H1 H2.
  assert (Hs : Rabs s <= (1 + b) * D + t1).
  { replace s with ((s - D) + D) by ring. eapply Rle_trans; [apply Rabs_triang|]. rewrite (Rabs_pos_eq D) by lra. lra. }
  replace (P - D) with ((P - s) + (s - D)) by ring. eapply Rle_trans; [apply Rabs_triang|].
  assert (a * Rabs s <= a * ((1 + b) * D + t1)) by (apply Rmult_le_compat_l; lra). lra.
Qed.

Lemma fsqrt_zero : forall s, canon s -> fval s = 0 -> fsqrt s = s.
Proof.
  intros [s|s| |s m e] C H; try contradiction; [reflexivity|]. cbn in H.
  assert (0 < IZR (Z.pos m) * bpow e) by (apply Rmult_lt_0_compat; [apply IZR_lt; lia|apply bpow_pos]).
  destruct s; lra.
Qed.

(** The squared distance as GaussianKernel computes it: the square of the norm. *)
Lemma norm_square : forall e d x y, decent e -> pow_within eps 2 e -> doubles d x -> doubles d y -> INR d + 8 <= bpow 50 ->
  dist2 d (vals x) (vals y) <= bpow 1000 ->
  let P := e_pow e (fnorm2 e (zip fsub (features d x) (features d y))) ftwo in
  canon P /\ 0 <= fval P /\
  Rabs (fval P - dist2 d (vals x) (vals y)) <= ((1 + u) ^ (d + 6) - 1) * dist2 d (vals x) (vals y) + (INR d + 1) * least.
Proof.
  intros e d x y He Hsq Dx Dy Hd HD1 P.
  assert (Hu := u_pos). assert (Hn := pos_INR d).
  assert (Ht : 0 < tiny <= 1).
  { split; [apply bpow_pos|]. rewrite <- bpow_0. apply bpow_le. lia. }
  assert (Hu1 : u <= / 64).
  { apply Rle_trans with (bpow (-6)); [apply bpow_le; lia|]. change (-6)%Z with (- (6))%Z. rewrite bpow_neg, bpow_IZR by lia. apply Req_le. reflexivity. }
  assert (Huu : 0 <= u * u <= / 64 * u) by (split; [apply Rmult_le_pos; lra|apply Rmult_le_compat_r; lra]).
  assert (Huuu : 0 <= u * u * u <= / 64 * u).
  { split; [apply Rmult_le_pos; lra|]. apply Rmult_le_compat_r; [lra|]. apply Rle_trans with (/ 64 * u); [lra|]. 
    apply Rle_trans with (/64 * 1); [apply Rmult_le_compat_l; lra|lra]. }
  set (D := dist2 d (vals x) (vals y)) in *.
  assert (HD : 0 <= D) by (apply rsum_nonneg; intros; apply Rle_0_sqr).
  assert (Hd' : INR d <= bpow 50) by lra.
  assert (B1 : 8 * bpow 1000 = bpow 1003) by (change 1003%Z with (3 + 1000)%Z; rewrite bpow_add; change (bpow 3) with (2 * (2 * (2 * 1))); ring).
  assert (B2 := big 1003 1010 ltac:(lia)). assert (B3 := big 1003 1021 ltac:(lia)). assert (B4 := big 1003 1023 ltac:(lia)).
  assert (B0 : 8 < bpow 1000) by (replace 8 with (bpow 3) by (change (bpow 3) with (2 * (2 * (2 * 1))); ring); apply big; lia).
  set (dk := fun k => fsub (x k) (y k)).
  set (s := fdot e (features d dk) (features d dk)).
  assert (HP : P = e_pow e (fsqrt s) ftwo).
  { unfold P, fnorm2. rewrite zip_features. reflexivity. }
  assert (Hdk : forall k, (k < d)%nat -> canon (dk k) /\
     Rabs (fval (dk k) - (vals x k - vals y k)) <= u * Rabs (vals x k - vals y k) /\
     (vals x k - vals y k) * (vals x k - vals y k) <= bpow 1000).
  { intros k Hk.
    assert (Hsqk : (vals x k - vals y k) * (vals x k - vals y k) <= bpow 1000).
    { apply Rle_trans with (2 := HD1).
      apply (rsum_term_le d (fun k => (vals x k - vals y k) * (vals x k - vals y k)) k Hk). intros. apply Rle_0_sqr. }
    destruct (fsub_any (x k) (y k)) as (R1 & R2 & _).
    - exact (doubles_canon d x k Dx Hk).
    - exact (doubles_canon d y k Dy Hk).
    - change (Rabs (vals x k - vals y k) < bpow 1023). apply Rle_lt_trans with (1 + bpow 1000); [|lra].
      apply Rle_trans with (1 + (vals x k - vals y k) * (vals x k - vals y k)); [|lra].
      assert (Q : 0 <= (Rabs (vals x k - vals y k) - / 2) * (Rabs (vals x k - vals y k) - / 2)) by apply Rle_0_sqr.
      assert (Q2 : Rabs (vals x k - vals y k) * Rabs (vals x k - vals y k) = (vals x k - vals y k) * (vals x k - vals y k)).
      { rewrite <- Rabs_mult. apply Rabs_pos_eq, Rle_0_sqr. }
      nra.
    - repeat split; assumption. }
  set (a3 := (1 + u) * ((1 + u) * (1 + u)) - 1).
  assert (Ha3 : 0 <= a3 <= 1) by (unfold a3; lra).
  set (t5 := 5 / 4 * INR d * tiny).
  assert (Ht5 : 0 <= t5) by (unfold t5; apply Rmult_le_pos; [lra|lra]).
  assert (Hs : canon s /\ Rabs (fval s - D) <= ((1 + u) ^ (d + 2) - 1) * D + t5).
  { destruct (sum_terms s d (fun k => fmul (dk k) (dk k)) (fun k => (vals x k - vals y k) * (vals x k - vals y k)) a3 tiny) as [C E]; try lra.
    - unfold s, fdot. rewrite zip_features. apply (d_acc e He).
    - intros k Hk. destruct (Hdk k Hk) as (C1 & E1 & Q1).
      assert (Hsq2 := sq_rel _ _ u ltac:(lra) E1).
      set (q := (vals x k - vals y k) * (vals x k - vals y k)) in *.
      assert (Hq : 0 <= q) by apply Rle_0_sqr.
      assert (Hd2 : 0 <= fval (dk k) * fval (dk k)) by apply Rle_0_sqr.
      assert (Hd2' : fval (dk k) * fval (dk k) <= (1 + u) * (1 + u) * q) by (apply Rabs_le_inv in Hsq2; lra).
      assert (Hq2 : (1 + u) * (1 + u) * q <= 2 * q) by (apply Rmult_le_compat_r; lra).
      destruct (fmul_any (dk k) (dk k) C1 C1) as (R1 & R2 & _).
      { rewrite Rabs_pos_eq by lra. lra. }
      split; [exact R1|]. rewrite (Rabs_pos_eq q) by lra. rewrite (Rabs_pos_eq (fval (dk k) * fval (dk k))) in R2 by lra.
      replace (fval (fmul (dk k) (dk k)) - q) with
        ((fval (fmul (dk k) (dk k)) - fval (dk k) * fval (dk k)) + (fval (dk k) * fval (dk k) - q)) by ring.
      eapply Rle_trans; [apply Rabs_triang|].
      assert (u * (fval (dk k) * fval (dk k)) <= u * ((1 + u) * (1 + u) * q)) by (apply Rmult_le_compat_l; lra).
      unfold a3. lra.
    - rewrite (rsum_ext d _ (fun k => (vals x k - vals y k) * (vals x k - vals y k))) by (intros; apply Rabs_pos_eq, Rle_0_sqr).
      fold (dist2 d (vals x) (vals y)). fold D. assert (a3 * D <= 1 * D) by (apply Rmult_le_compat_r; lra). lra.
    - split; [exact C|]. revert E.
      rewrite (rsum_ext d (fun k => Rabs _) (fun k => (vals x k - vals y k) * (vals x k - vals y k))) by (intros; apply Rabs_pos_eq, Rle_0_sqr).
      fold (dist2 d (vals x) (vals y)). fold D. fold t5. intros E. apply Rle_trans with (1 := E). apply Rplus_le_compat_r.
      destruct d as [|d'].
      + unfold D, dist2. cbn [rsum]. lra.
      + apply Rmult_le_compat_r; [exact HD|]. replace (S d' + 2)%nat with ((S d' - 1) + 3)%nat by lia. rewrite pow_add.
        unfold a3. cbn [pow]. lra. }
  destruct Hs as [Cs Es].
  assert (Hs0 : f_nonneg s = true).
  { unfold s, fdot. apply (adds_nonneg _ _ (d_acc e He _)). rewrite zip_features. apply forallb_forall.
    intros v Hv. apply in_map_iff in Hv. destruct Hv as (k & <- & Hk). apply in_seq in Hk. apply fsquare_nonneg.
    destruct (Hdk k ltac:(lia)) as (C1 & _ & _). destruct (dk k); try contradiction; discriminate. }
  assert (Hsv := fval_nonneg _ Hs0).
  assert (Gle : (1 + u) ^ (d + 2) <= 5 / 4).
  { apply grow_le. rewrite plus_INR. cbn [INR]. lra. }
  assert (Ht5' : t5 <= 1).
  { unfold t5. apply Rle_trans with (5 / 4 * (bpow 50 * tiny)).
    - rewrite Rmult_assoc. apply Rmult_le_compat_l; [lra|]. apply Rmult_le_compat_r; lra.
    - unfold tiny. rewrite <- bpow_add. apply Rle_trans with (5 / 4 * bpow (-3)); [|rewrite bpow_m3; lra].
      apply Rmult_le_compat_l; [lra|]. apply bpow_le. lia. }
  assert (HsD : fval s <= 2 * bpow 1000).
  { apply Rabs_le_inv in Es. assert (((1 + u) ^ (d + 2) - 1) * D <= / 4 * D) by (apply Rmult_le_compat_r; lra). lra. }
  set (a2 := (1 + u) * (1 + u) - 1).
  assert (Hr : canon (fsqrt s) /\ Rabs (fval (fsqrt s) * fval (fsqrt s) - fval s) <= a2 * fval s).
  { destruct (Req_dec (fval s) 0) as [Hz|Hz].
    - rewrite (fsqrt_zero s Cs Hz), Hz. split; [exact Cs|]. rewrite Rmult_0_r, Rminus_0_r, Rabs_R0. lra.
    - destruct (fsqrt_any s Cs ltac:(lra)) as [N E]. split; [apply canon_normal, N|].
      assert (Hq := sq_rel (fval (fsqrt s)) (sqrt (fval s)) u ltac:(lra)).
      rewrite (Rabs_pos_eq (sqrt (fval s))), sqrt_sqrt in Hq by (try apply sqrt_pos; lra). apply Hq. exact E. }
  destruct Hr as [Cr Er].
  set (q := fval (fsqrt s) * fval (fsqrt s)) in *.
  assert (Hq0 : 0 <= q) by apply Rle_0_sqr.
  assert (Hqs : q <= (1 + u) * (1 + u) * fval s) by (apply Rabs_le_inv in Er; unfold a2 in Er; lra).
  assert (Hqs2 : (1 + u) * (1 + u) * fval s <= 2 * fval s) by (apply Rmult_le_compat_r; lra).
  destruct (canon_valid _ Cr) as [Fr Vr].
  assert (Hq2 : Rabs (fval (fsqrt s)) ^ 2 = q).
  { rewrite RPow_abs, Rabs_pos_eq by (apply pow2_ge_0). unfold q. ring. }
  destruct (Hsq (fsqrt s) Fr Vr) as [[FP EP] VP]; [rewrite Hq2; lra|]. rewrite Hq2 in EP.
  replace (fval (fsqrt s) ^ 2) with q in EP by (unfold q; ring). change (fint (Z.of_nat 2)) with ftwo in *.
  rewrite HP. split; [apply valid_canon; assumption|]. split.
  { apply fval_nonneg, (d_pow_nonneg e He), fsqrt_nonneg, Hs0. }
  set (a4 := (1 + eps) * (1 + a2) - 1).
  assert (EP' : Rabs (fval (e_pow e (fsqrt s) ftwo) - fval s) <= a4 * Rabs (fval s) + least).
  { rewrite (Rabs_pos_eq (fval s)) by lra.
    replace (fval (e_pow e (fsqrt s) ftwo) - fval s) with ((fval (e_pow e (fsqrt s) ftwo) - q) + (q - fval s)) by ring.
    eapply Rle_trans; [apply Rabs_triang|].
    assert (eps * q <= eps * ((1 + u) * (1 + u) * fval s)).
    { apply Rmult_le_compat_l; [rewrite <- u_eps; lra|lra]. }
    unfold a4, a2 in *. lra. }
  assert (He2 := u_eps). assert (HT := tiny_least).
  assert (Ha4 : 0 <= a4 /\ 1 + a4 <= (1 + u) ^ 4 /\ 1 + a4 <= 5 / 4).
  { unfold a4, a2. rewrite <- He2. cbn [pow]. 
    assert (0 <= u * u * (1 + u) * (1 + u)) by (apply Rmult_le_pos; [apply Rmult_le_pos; lra|lra]). lra. }
  assert (G1 := grow_ge1 (d + 2)).
  assert (CH := chain (fval (e_pow e (fsqrt s) ftwo)) (fval s) D a4 ((1 + u) ^ (d + 2) - 1) t5 least
    ltac:(lra) ltac:(lra) HD Ht5 Es EP').
  apply Rle_trans with (1 := CH).
  replace (d + 6)%nat with (4 + (d + 2))%nat by lia. rewrite (pow_add (1 + u) 4 (d + 2)).
  assert (C1 : ((1 + a4) * (1 + ((1 + u) ^ (d + 2) - 1)) - 1) * D <= ((1 + u) ^ 4 * (1 + u) ^ (d + 2) - 1) * D).
  { apply Rmult_le_compat_r; [exact HD|]. replace (1 + ((1 + u) ^ (d + 2) - 1)) with ((1 + u) ^ (d + 2)) by ring.
    assert ((1 + a4) * (1 + u) ^ (d + 2) <= (1 + u) ^ 4 * (1 + u) ^ (d + 2)); [|lra]. apply Rmult_le_compat_r; lra. }
  assert (C2 : (1 + a4) * t5 <= INR d * least).
  { apply Rle_trans with (5 / 4 * t5); [apply Rmult_le_compat_r; lra|]. unfold t5. rewrite <- HT.
    assert (0 <= INR d * tiny) by (apply Rmult_le_pos; lra). lra. }
  replace ((INR d + 1) * least) with (INR d * least + least) by ring. rewrite <- Rplus_assoc.
  apply Rplus_le_compat_r. apply Rplus_le_compat; [exact C1|exact C2].
Qed.

(** C86: the Gaussian kernel: off by at most delta + (d + 8) eps. *)
Lemma pf_C86_gaussian : forall e delta gamma d x y, decent e -> exp_within delta e -> pow_within eps 2 e ->
  f_finite gamma = true -> valid_binary 53 1024 gamma = true -> 0 < fval gamma <= bpow 900 ->
  doubles d x -> doubles d y -> INR d + 8 <= bpow 50 ->
  dist2 d (vals x) (vals y) <= bpow 1000 -> fval gamma * dist2 d (vals x) (vals y) <= bpow 1000 ->
  exists v, fkernel_value e (FGaussian gamma) (features d x) (features d y) = Ok v /\
    near (exp (- fval gamma * dist2 d (vals x) (vals y))) (delta + (INR d + 8) * eps) v.
Proof.
  intros e delta gamma d x y He Hexp Hsq Fg Vg Hg Dx Dy Hd HD1 HgD. eexists. split; [reflexivity|].
  assert (Cg := valid_canon _ Fg Vg). assert (Hu := u_pos). assert (Hn := pos_INR d).
  destruct (norm_square e d x y He Hsq Dx Dy Hd HD1) as (CP & PP & EP).
  set (P := e_pow e (fnorm2 e (zip fsub (features d x) (features d y))) ftwo) in *.
  set (D := dist2 d (vals x) (vals y)) in *.
  assert (HD : 0 <= D) by (apply rsum_nonneg; intros; apply Rle_0_sqr).
  assert (H6 : INR (d + 6) <= bpow 50) by (rewrite plus_INR; cbn [INR]; lra).
  assert (H7 : INR (S (d + 6)) <= bpow 50) by (rewrite S_INR, plus_INR; cbn [INR]; lra).
  destruct (grow_le _ H6) as [_ G2]. destruct (grow_le _ H7) as [G3 _]. assert (G1 := grow_ge1 (d + 6)).
  assert (Hl : 0 < least) by apply bpow_pos.
  set (ta := (INR d + 1) * least) in *.
  assert (Hta : 0 <= ta) by (apply Rmult_le_pos; lra).
  assert (Hgta : fval gamma * ta <= bpow (-124)).
  { apply Rle_trans with (bpow 900 * (bpow 50 * bpow (-1074))).
    - apply Rmult_le_compat; [lra|exact Hta|lra|]. unfold ta. apply Rmult_le_compat_r; [apply Rlt_le, bpow_pos|]. lra.
    - rewrite <- !bpow_add. apply bpow_le. lia. }
  assert (B1 : 2 * bpow 1000 = bpow 1001) by (change 1001%Z with (1 + 1000)%Z; rewrite bpow_add; change (bpow 1) with (2 * 1); ring).
  assert (B2 := big 1001 1019 ltac:(lia)). assert (B3 := big (-124) 1019 ltac:(lia)).
  assert (B4 : 2 * bpow 1019 = bpow 1020) by (change 1020%Z with (1 + 1019)%Z; rewrite bpow_add; change (bpow 1) with (2 * 1); ring).
  destruct (exp_scaled e delta gamma P D ((1 + u) ^ (d + 6) - 1) ta Hexp Cg ltac:(lra) CP PP HD) as [F E]; try lra.
  split; [exact F|]. apply Rle_trans with (1 := E).
  replace (1 + ((1 + u) ^ (d + 6) - 1)) with ((1 + u) ^ (d + 6)) by ring.
  cbn [pow] in G3. rewrite S_INR, plus_INR in G3. cbn [INR] in G3.
  assert (Hsmall : 2 * ((1 + u) * (fval gamma * ta) + tiny) <= eps).
  { assert (Hu1 : u <= 1) by (rewrite <- bpow_0; apply bpow_le; lia).
    assert (0 <= fval gamma * ta) by (apply Rmult_le_pos; lra).
    assert ((1 + u) * (fval gamma * ta) <= 2 * bpow (-124)) by (apply Rmult_le_compat; lra).
    assert (tiny <= bpow (-124)) by (apply bpow_le; lia).
    assert (8 * bpow (-124) = bpow (-121)) by (change (-121)%Z with (3 + -124)%Z; rewrite bpow_add; change (bpow 3) with (2 * (2 * (2 * 1))); ring).
    assert (bpow (-121) <= eps) by (apply bpow_le; lia).
    assert (0 < bpow (-124)) by apply bpow_pos. lra. }
  lra.
Qed.

Lemma almost_psd_const : forall n A B b, psd n B ->
  (forall i j, (i < n)%nat -> (j < n)%nat -> Rabs (A i j - B i j) <= b) ->
  almost_psd n A (fun c => b * (rsum n (fun i => Rabs (c i)) * rsum n (fun i => Rabs (c i)))).
Proof.
  intros n A B b [_ HB] H c. assert (Hq := quad_near n A B (fun _ _ => b) c H). rewrite quad_const in Hq.
  specialize (HB c). lra.
Qed.

(** C86: kernel matrices of LaplacianKernel are symmetric, and positive semidefinite up to the rounding
    error. *)
Lemma pf_C86_laplacian_psd : forall e delta gamma n d X K, decent e -> exp_within delta e ->
  f_finite gamma = true -> valid_binary 53 1024 gamma = true -> 0 < fval gamma ->
  (forall i, (i < n)%nat -> doubles d (X i)) -> INR d + 1 <= bpow 50 ->
  (forall i j, (i < n)%nat -> (j < n)%nat ->
     dist1 d (vals (X i)) (vals (X j)) <= bpow 1010 /\ fval gamma * dist1 d (vals (X i)) (vals (X j)) <= bpow 1010 /\
     fkernel_value e (FLaplacian gamma) (features d (X i)) (features d (X j)) = Ok (K i j)) ->
  symmetric n (fun i j => fval (K i j)) /\
  almost_psd n (fun i j => fval (K i j)) (fun c =>
    (delta + (INR d + 1) * eps + least) * (rsum n (fun i => Rabs (c i)) * rsum n (fun i => Rabs (c i)))).
Proof.
  intros e delta gamma n d X K He Hexp Fg Vg Hg DX Hd HK. split.
  - intros i j Hi Hj. destruct (HK i j Hi Hj) as (_ & _ & E1). destruct (HK j i Hj Hi) as (_ & _ & E2).
    rewrite (pf_C76_symmetric e) in E1 by apply (d_pow_even e He). congruence.
  - apply (almost_psd_const n _ (fun i j => exp (- fval gamma * dist1 d (vals (X i)) (vals (X j))))).
    + apply (psd_laplacian n d (fun i => vals (X i))). lra.
    + intros i j Hi Hj. destruct (HK i j Hi Hj) as (H1 & H2 & E1).
      destruct (pf_C86_laplacian e delta gamma d (X i) (X j) He Hexp Fg Vg Hg (DX i Hi) (DX j Hj) Hd H1 H2) as (v & Ev & _ & Hv).
      rewrite E1 in Ev. injection Ev as <-. exact Hv.
Qed.

(** C86: and those of GaussianKernel. *)
Lemma pf_C86_gaussian_psd : forall e delta gamma n d X K, decent e -> exp_within delta e -> pow_within eps 2 e ->
  f_finite gamma = true -> valid_binary 53 1024 gamma = true -> 0 < fval gamma <= bpow 900 ->
  (forall i, (i < n)%nat -> doubles d (X i)) -> INR d + 8 <= bpow 50 ->
  (forall i j, (i < n)%nat -> (j < n)%nat ->
     dist2 d (vals (X i)) (vals (X j)) <= bpow 1000 /\ fval gamma * dist2 d (vals (X i)) (vals (X j)) <= bpow 1000 /\
     fkernel_value e (FGaussian gamma) (features d (X i)) (features d (X j)) = Ok (K i j)) ->
  symmetric n (fun i j => fval (K i j)) /\
  almost_psd n (fun i j => fval (K i j)) (fun c =>
    (delta + (INR d + 8) * eps) * (rsum n (fun i => Rabs (c i)) * rsum n (fun i => Rabs (c i)))).
Proof.
  intros e delta gamma n d X K He Hexp Hsq Fg Vg Hg DX Hd HK. split.
  - intros i j Hi Hj. destruct (HK i j Hi Hj) as (_ & _ & E1). destruct (HK j i Hj Hi) as (_ & _ & E2).
    rewrite (pf_C76_symmetric e) in E1 by apply (d_pow_even e He). congruence.
  - apply (almost_psd_const n _ (fun i j => exp (- fval gamma * dist2 d (vals (X i)) (vals (X j))))).
    + apply (psd_gaussian n d (fun i => vals (X i))). lra.
    + intros i j Hi Hj. destruct (HK i j Hi Hj) as (H1 & H2 & E1).
      destruct (pf_C86_gaussian e delta gamma d (X i) (X j) He Hexp Hsq Fg Vg Hg (DX i Hi) (DX j Hj) Hd H1 H2) as (v & Ev & _ & Hv).
      rewrite E1 in Ev. injection Ev as <-. exact Hv.
Qed.

(** gamma <x, y> + offset, as SigmoidKernel and PolyKernel compute it. *)
Lemma affine : forall e d x y g o, decent e -> canon g -> canon o -> doubles d x -> doubles d y -> INR d + 2 <= bpow 50 ->
  absinner d (vals x) (vals y) <= bpow 1010 ->
  Rabs (fval o) + Rabs (fval g) * (absinner d (vals x) (vals y) + 1) <= bpow 1010 ->
  let w := fadd o (fmul g (fdot e (features d x) (features d y))) in
  canon w /\ Rabs (fval w - (fval o + fval g * inner d (vals x) (vals y))) <=
    ((1 + u) ^ (d + 2) - 1) * (Rabs (fval o) + Rabs (fval g) * absinner d (vals x) (vals y)) +
    (2 * Rabs (fval g) * INR d + 1) * least.
Proof.
  intros e d x y g o He Cg Co Dx Dy Hd HS Hb w.
  assert (Hu := u_pos). assert (Hn := pos_INR d). assert (Ht : 0 < tiny) by apply bpow_pos.
  assert (Hu1 : u <= / 8) by (rewrite <- bpow_m3; apply bpow_le; lia).
  assert (Hd' : INR d <= bpow 50) by lra.
  destruct (dot_any e d x y He Dx Dy Hd' HS) as [Cv Ev].
  set (v := fdot e (features d x) (features d y)) in *.
  set (S := absinner d (vals x) (vals y)) in *. set (I := inner d (vals x) (vals y)) in *.
  assert (HS0 : 0 <= S) by (apply rsum_nonneg; intros; apply Rabs_pos).
  assert (HI : Rabs I <= S) by apply rsum_abs.
  destruct (grow_le d Hd') as [_ G2]. assert (G1 := grow_ge1 d).
  set (G := (1 + u) ^ d) in *.
  set (g' := Rabs (fval g)) in *. assert (Hg0 : 0 <= g') by apply Rabs_pos.
  set (o' := Rabs (fval o)) in *. assert (Ho0 : 0 <= o') by apply Rabs_pos.
  assert (Hl : 0 < least) by apply bpow_pos.
  assert (Hdl : 0 <= INR d * least <= / 8).
  { split; [apply Rmult_le_pos; lra|]. apply Rle_trans with (bpow 50 * bpow (-1074)).
    - apply Rmult_le_compat_r; [apply Rlt_le, bpow_pos|exact Hd'].
    - rewrite <- bpow_add, <- bpow_m3. apply bpow_le. lia. }
  assert (Hv : Rabs (fval v) <= G * S + INR d * least).
  { replace (fval v) with ((fval v - I) + I) by ring. eapply Rle_trans; [apply Rabs_triang|]. lra. }
  assert (HGS : G * S <= 5 / 4 * S) by (apply Rmult_le_compat_r; lra).
  assert (Hgv : Rabs (fval g * fval v) <= g' * (G * S + INR d * least)).
  { rewrite Rabs_mult. apply Rmult_le_compat_l; lra. }
  assert (Hgv2 : g' * (G * S + INR d * least) <= 5 / 4 * (g' * (S + 1))).
  { replace (5 / 4 * (g' * (S + 1))) with (g' * (5 / 4 * (S + 1))) by ring. apply Rmult_le_compat_l; lra. }
  assert (B1 : 2 * bpow 1010 = bpow 1011) by (change 1011%Z with (1 + 1010)%Z; rewrite bpow_add; change (bpow 1) with (2 * 1); ring).
  assert (B2 := big 1011 1022 ltac:(lia)). assert (B0 := bpow_pos 1010).
  assert (B3 : 2 * bpow 1022 = bpow 1023) by (change 1023%Z with (1 + 1022)%Z; rewrite bpow_add; change (bpow 1) with (2 * 1); ring).
  destruct (fmul_any g v Cg Cv) as (Cm & Em & _); [lra|].
  set (m := fmul g v) in *.
  assert (Em' : Rabs (fval m - fval g * I) <= ((1 + u) * G - 1) * (g' * S) + (1 + u) * (g' * (INR d * least)) + tiny).
  { replace (fval m - fval g * I) with ((fval m - fval g * fval v) + fval g * (fval v - I)) by ring.
    eapply Rle_trans; [apply Rabs_triang|]. rewrite (Rabs_mult (fval g) (fval v - I)). fold g'.
    assert (g' * Rabs (fval v - I) <= g' * ((G - 1) * S + INR d * least)) by (apply Rmult_le_compat_l; lra).
    assert (u * Rabs (fval g * fval v) <= u * (g' * (G * S + INR d * least))) by (apply Rmult_le_compat_l; lra).
    lra. }
  assert (HgI : Rabs (fval g * I) <= g' * S) by (rewrite Rabs_mult; apply Rmult_le_compat_l; [exact Hg0|exact HI]).
  set (t1 := (1 + u) * (g' * (INR d * least)) + tiny).
  assert (Hm : Rabs (fval m) <= (1 + u) * G * (g' * S) + t1).
  { replace (fval m) with ((fval m - fval g * I) + fval g * I) by ring. eapply Rle_trans; [apply Rabs_triang|]. unfold t1. lra. }
  assert (Hom : Rabs (fval o + fval m) <= o' + ((1 + u) * G * (g' * S) + t1)).
  { eapply Rle_trans; [apply Rabs_triang|]. unfold o'. lra. }
  assert (HgS : 0 <= g' * S) by (apply Rmult_le_pos; lra).
  assert (Hgd : 0 <= g' * (INR d * least) <= g' * / 8).
  { split; [apply Rmult_le_pos; lra|apply Rmult_le_compat_l; lra]. }
  assert (HuG : (1 + u) * G <= 9 / 8 * (5 / 4)) by (apply Rmult_le_compat; lra).
  assert (HuG1 : 1 <= (1 + u) * G).
  { apply Rle_trans with (1 * 1); [lra|]. apply Rmult_le_compat; lra. }
  assert (HuGS : (1 + u) * G * (g' * S) <= 9 / 8 * (5 / 4) * (g' * S)) by (apply Rmult_le_compat_r; lra).
  assert (Hugd : u * (g' * (INR d * least)) <= / 8 * (g' * (INR d * least))) by (apply Rmult_le_compat_r; lra).
  assert (Hugd0 : 0 <= u * (g' * (INR d * least))) by (apply Rmult_le_pos; lra).
  assert (Ht8 : tiny <= / 8) by (rewrite <- bpow_m3; apply bpow_le; lia).
  assert (Hone : 1 <= bpow 1010) by (rewrite <- bpow_0; apply bpow_le; lia).
  destruct (fadd_any o m Co Cm) as (Cw & Ew & _).
  { apply Rle_lt_trans with (1 := Hom). unfold t1. lra. }
  fold w in Cw, Ew. split; [exact Cw|].
  replace (fval w - (fval o + fval g * I)) with ((fval w - (fval o + fval m)) + (fval m - fval g * I)) by ring.
  eapply Rle_trans; [apply Rabs_triang|].
  assert (E1 : u * Rabs (fval o + fval m) <= u * (o' + ((1 + u) * G * (g' * S) + t1))) by (apply Rmult_le_compat_l; lra).
  rewrite pow_add. fold G. cbn [pow]. rewrite Rmult_1_r.
  assert (Ho : u * o' <= (G * ((1 + u) * (1 + u)) - 1) * o').
  { apply Rmult_le_compat_r; [exact Ho0|].
    assert (1 * (1 + u) <= G * (1 + u) * (1 + u)); [|lra]. apply Rmult_le_compat_r; lra. }
  assert (HT := tiny_least).
  assert (Ht1 : (1 + u) * t1 <= 2 * (g' * (INR d * least)) + least).
  { apply Rle_trans with (9 / 8 * t1); [apply Rmult_le_compat_r; [unfold t1; lra|lra]|]. unfold t1. lra. }
  unfold t1 in *.
  replace ((2 * g' * INR d + 1) * least) with (2 * (g' * (INR d * least)) + least) by ring.
  set (A := (1 + u) * (g' * (INR d * least)) + tiny) in *.
  assert (Ef : Rabs (fval m - fval g * I) <= ((1 + u) * G - 1) * (g' * S) + A) by (unfold A; lra).
  replace ((G * ((1 + u) * (1 + u)) - 1) * (o' + g' * S)) with
    ((G * ((1 + u) * (1 + u)) - 1) * o' + (u * ((1 + u) * G * (g' * S)) + ((1 + u) * G - 1) * (g' * S))) by ring.
  apply Rle_trans with (u * (o' + ((1 + u) * G * (g' * S) + A)) + (((1 + u) * G - 1) * (g' * S) + A)); [lra|].
  replace (u * (o' + ((1 + u) * G * (g' * S) + A)) + (((1 + u) * G - 1) * (g' * S) + A)) with
    (u * o' + (u * ((1 + u) * G * (g' * S)) + ((1 + u) * G - 1) * (g' * S)) + (1 + u) * A) by ring.
  lra.
Qed.

Lemma tanh_lipschitz : forall a b, Rabs (tanh a - tanh b) <= Rabs (a - b).
Proof.
  assert (H : forall a b, a < b -> Rabs (tanh b - tanh a) <= Rabs (b - a)).
  { intros a b Hab.
    destruct (MVT_cor2 tanh (fun c => (cosh c * cosh c - sinh c * sinh c) / (cosh c * cosh c)) a b Hab) as (c & Hc & _).
    - intros c _. assert (Hch : cosh c <> 0).
      { unfold cosh. assert (H1 := exp_pos c). assert (H2 := exp_pos (- c)). lra. }
      assert (D := derivable_pt_lim_div sinh cosh c (cosh c) (sinh c) (derivable_pt_lim_sinh c) (derivable_pt_lim_cosh c) Hch).
      unfold Rsqr in D. exact D.
    - rewrite Hc, Rabs_mult. assert (P := Rabs_pos (b - a)). rewrite <- (Rmult_1_l (Rabs (b - a))) at 2.
      apply Rmult_le_compat_r; [exact P|].
      assert (Hd : cosh c * cosh c - sinh c * sinh c = 1).
      { unfold cosh, sinh. assert (Hm : exp c * exp (- c) = 1) by (rewrite <- exp_plus, Rplus_opp_r; apply exp_0). lra. }
      assert (Hc1 : 1 <= cosh c * cosh c) by (assert (0 <= sinh c * sinh c) by apply Rle_0_sqr; lra).
      rewrite Hd. unfold Rdiv. rewrite Rmult_1_l.
      assert (0 < / (cosh c * cosh c)) by (apply Rinv_0_lt_compat; lra). rewrite Rabs_pos_eq by lra.
      rewrite <- Rinv_1. apply Rinv_le_contravar; lra. }
  intros a b. destruct (Rtotal_order a b) as [L|[->|L]].
  - rewrite (Rabs_minus_sym a b), (Rabs_minus_sym (tanh a)). apply H, L.
  - rewrite !Rminus_diag_eq by reflexivity. rewrite Rabs_R0. lra.
  - apply H. exact L.
Qed.

(** C86: the sigmoid kernel. *)
Lemma pf_C86_sigmoid : forall e delta gamma offset d x y, decent e -> tanh_within delta e ->
  f_finite gamma = true -> valid_binary 53 1024 gamma = true ->
  f_finite offset = true -> valid_binary 53 1024 offset = true ->
  doubles d x -> doubles d y -> INR d + 2 <= bpow 50 ->
  let S := absinner d (vals x) (vals y) in
  S <= bpow 1010 -> Rabs (fval offset) + Rabs (fval gamma) * (S + 1) <= bpow 1010 ->
  exists v, fkernel_value e (FSigmoid gamma offset) (features d x) (features d y) = Ok v /\
    near (tanh (fval offset + fval gamma * inner d (vals x) (vals y)))
         (delta + (INR d + 2) * eps * (Rabs (fval offset) + Rabs (fval gamma) * S)
                + (2 * Rabs (fval gamma) * INR d + 1) * least) v.
Proof.
  intros e delta gamma offset d x y He Ht Fg Vg Fo Vo Dx Dy Hd S HS Hb. eexists. split; [reflexivity|].
  destruct (affine e d x y gamma offset He (valid_canon _ Fg Vg) (valid_canon _ Fo Vo) Dx Dy Hd HS Hb) as [Cw Ew].
  fold S in Ew. set (w := fadd offset (fmul gamma (fdot e (features d x) (features d y)))) in *.
  set (W := fval offset + fval gamma * inner d (vals x) (vals y)) in *.
  destruct (canon_valid w Cw) as [Fw Vw]. destruct (Ht w Fw Vw) as [Fe Ee]. split; [exact Fe|].
  assert (HL := tanh_lipschitz (fval w) W).
  replace (fval (e_tanh e w) - tanh W) with ((fval (e_tanh e w) - tanh (fval w)) + (tanh (fval w) - tanh W)) by ring.
  eapply Rle_trans; [apply Rabs_triang|].
  assert (H2 : INR (d + 2) <= bpow 50) by (rewrite plus_INR; cbn [INR]; lra).
  destruct (grow_le _ H2) as [G _]. rewrite plus_INR in G. cbn [INR] in G.
  assert (HA : 0 <= Rabs (fval offset) + Rabs (fval gamma) * S).
  { assert (0 <= S) by (apply rsum_nonneg; intros; apply Rabs_pos). assert (H0 := Rabs_pos (fval offset)).
    assert (0 <= Rabs (fval gamma) * S) by (apply Rmult_le_pos; [apply Rabs_pos|assumption]). lra. }
  assert (HB : ((1 + u) ^ (d + 2) - 1) * (Rabs (fval offset) + Rabs (fval gamma) * S) <=
               (INR d + 2) * eps * (Rabs (fval offset) + Rabs (fval gamma) * S)) by (apply Rmult_le_compat_r; lra).
  lra.
Qed.

Lemma pow_near : forall k w W A q, 0 <= A -> 1 <= q -> Rabs W <= A -> Rabs (w - W) <= (q - 1) * A ->
  Rabs (w ^ k - W ^ k) <= (q ^ k - 1) * A ^ k /\ Rabs w ^ k <= q ^ k * A ^ k.
Proof.
  intros k w W A q HA Hq HW H.
  assert (Hw : Rabs w <= q * A).
  { replace w with ((w - W) + W) by ring. eapply Rle_trans; [apply Rabs_triang|]. lra. }
  split.
  - induction k as [|k IH]; [cbn; rewrite Rminus_diag_eq by reflexivity; rewrite Rabs_R0; lra|].
    cbn [pow]. replace (w * w ^ k - W * W ^ k) with (w * (w ^ k - W ^ k) + (w - W) * W ^ k) by ring.
    eapply Rle_trans; [apply Rabs_triang|]. rewrite !Rabs_mult.
    assert (Hk : Rabs (W ^ k) <= A ^ k) by (rewrite <- RPow_abs; apply pow_incr; split; [apply Rabs_pos|exact HW]).
    assert (HAk : 0 <= A ^ k) by (apply pow_le; exact HA).
    assert (E1 : Rabs w * Rabs (w ^ k - W ^ k) <= (q * A) * ((q ^ k - 1) * A ^ k)).
    { apply Rmult_le_compat; try apply Rabs_pos; assumption. }
    assert (E2 : Rabs (w - W) * Rabs (W ^ k) <= (q - 1) * A * A ^ k) by (apply Rmult_le_compat; try apply Rabs_pos; assumption).
    apply Rle_trans with ((q * A) * ((q ^ k - 1) * A ^ k) + (q - 1) * A * A ^ k); [lra|apply Req_le; ring].
  - rewrite <- Rpow_mult_distr. apply pow_incr. split; [apply Rabs_pos|exact Hw].
Qed.

(** C86: the polynomial kernel of degree k with |b| >= 1 (the default is b = 1): relative to
    (|b| + |gamma| sum |x_i y_i|)^k the error is at most 2 delta + k (d + 3) eps. *)
Lemma pf_C86_polynomial : forall e delta k gamma b d x y, decent e -> 0 <= delta -> pow_within delta k e ->
  f_finite gamma = true -> valid_binary 53 1024 gamma = true -> Rabs (fval gamma) <= bpow 900 ->
  f_finite b = true -> valid_binary 53 1024 b = true -> 1 <= Rabs (fval b) ->
  doubles d x -> doubles d y -> INR k * (INR d + 3) <= bpow 50 -> INR d + 3 <= bpow 50 ->
  let S := absinner d (vals x) (vals y) in
  let A := Rabs (fval b) + Rabs (fval gamma) * S in
  S <= bpow 1000 -> A <= bpow 1000 -> A ^ k <= bpow 1000 ->
  exists v, fkernel_value e (FPoly (fint (Z.of_nat k)) gamma b) (features d x) (features d y) = Ok v /\
    near ((fval b + fval gamma * inner d (vals x) (vals y)) ^ k)
         ((2 * delta + INR k * (INR d + 3) * eps) * A ^ k + least) v.
Proof.
  intros e delta k gamma b d x y He Hdel Hp Fg Vg Bg Fb Vb Hb1 Dx Dy Hkd Hd S A HS HA HAk. eexists. split; [reflexivity|].
  assert (HS0 : 0 <= S) by (apply rsum_nonneg; intros; apply Rabs_pos).
  assert (HgS : 0 <= Rabs (fval gamma) * S) by (apply Rmult_le_pos; [apply Rabs_pos|exact HS0]).
  assert (Hn := pos_INR d). assert (Hu := u_pos). assert (Hl : 0 < least) by apply bpow_pos.
  assert (HA1 : 1 <= A) by (unfold A; lra).
  assert (B1 : bpow 1000 + bpow 900 <= bpow 1010).
  { assert (bpow 900 <= bpow 1000) by (apply bpow_le; lia).
    assert (2 * bpow 1000 = bpow 1001) by (change 1001%Z with (1 + 1000)%Z; rewrite bpow_add; change (bpow 1) with (2 * 1); ring).
    assert (bpow 1001 <= bpow 1010) by (apply bpow_le; lia). lra. }
  assert (B2 : bpow 1000 <= bpow 1010) by (apply bpow_le; lia).
  destruct (affine e d x y gamma b He (valid_canon _ Fg Vg) (valid_canon _ Fb Vb) Dx Dy ltac:(lra) ltac:(fold S; lra)
    ltac:(fold S; unfold A in HA; lra)) as [Cw Ew].
  fold S in Ew. fold A in Ew. set (w := fadd b (fmul gamma (fdot e (features d x) (features d y)))) in *.
  set (W := fval b + fval gamma * inner d (vals x) (vals y)) in *.
  assert (HW : Rabs W <= A).
  { unfold W, A. eapply Rle_trans; [apply Rabs_triang|]. apply Rplus_le_compat_l. rewrite Rabs_mult.
    apply Rmult_le_compat_l; [apply Rabs_pos|]. apply rsum_abs. }
  assert (G2 := grow_ge1 (d + 2)).
  set (q := (1 + u) ^ (d + 3)).
  assert (Hq : q = (1 + u) ^ (d + 2) * (1 + u)).
  { unfold q. replace (d + 3)%nat with (Datatypes.S (d + 2)) by lia. cbn [pow]. ring. }
  assert (Hq1 : 1 <= q) by apply grow_ge1.
  assert (Hsmall : (2 * Rabs (fval gamma) * INR d + 1) * least <= u).
  { assert (0 <= Rabs (fval gamma)) by apply Rabs_pos.
    assert (Hm : Rabs (fval gamma) * INR d <= bpow 900 * bpow 50) by (apply Rmult_le_compat; lra).
    rewrite <- bpow_add in Hm. change (900 + 50)%Z with 950%Z in Hm.
    assert (H1 : 1 <= bpow 950) by (rewrite <- bpow_0; apply bpow_le; lia).
    apply Rle_trans with (4 * bpow 950 * bpow (-1074)).
    - apply Rmult_le_compat_r; [apply Rlt_le, bpow_pos|]. lra.
    - replace 4 with (bpow 2) by (change (bpow 2) with (2 * (2 * 1)); ring). rewrite <- !bpow_add. apply bpow_le. lia. }
  assert (Ew' : Rabs (fval w - W) <= (q - 1) * A).
  { apply Rle_trans with (1 := Ew). rewrite Hq.
    assert (1 * u <= (1 + u) ^ (d + 2) * A * u).
    { apply Rmult_le_compat_r; [lra|]. apply Rle_trans with (1 * 1); [lra|]. apply Rmult_le_compat; lra. }
    lra. }
  destruct (pow_near k (fval w) W A q ltac:(lra) Hq1 HW Ew') as [P1 P2].
  assert (Hqk : q ^ k = (1 + u) ^ ((d + 3) * k)) by (unfold q; rewrite pow_mult; reflexivity).
  assert (HI : INR ((d + 3) * k) = INR k * (INR d + 3)) by (rewrite mult_INR, plus_INR; cbn [INR]; ring).
  destruct (grow_le ((d + 3) * k)) as [G3 G4]; [rewrite HI; exact Hkd|]. rewrite <- Hqk in G3, G4. rewrite HI in G3.
  assert (HAk0 : 0 <= A ^ k) by (apply pow_le; lra).
  assert (Hqa : q ^ k * A ^ k <= 5 / 4 * A ^ k) by (apply Rmult_le_compat_r; lra).
  assert (B3 : 5 / 4 * bpow 1000 <= bpow 1010).
  { assert (2 * bpow 1000 = bpow 1001) by (change 1001%Z with (1 + 1000)%Z; rewrite bpow_add; change (bpow 1) with (2 * 1); ring).
    assert (bpow 1001 <= bpow 1010) by (apply bpow_le; lia). assert (B := bpow_pos 1000). lra. }
  destruct (canon_valid w Cw) as [Fw Vw]. destruct (Hp w Fw Vw) as [[Fe Ee] _]; [lra|]. split; [exact Fe|].
  set (v := e_pow e w (fint (Z.of_nat k))) in *.
  replace (fval v - W ^ k) with ((fval v - fval w ^ k) + (fval w ^ k - W ^ k)) by ring.
  eapply Rle_trans; [apply Rabs_triang|].
  assert (E1 : delta * Rabs (fval w) ^ k <= delta * (2 * A ^ k)) by (apply Rmult_le_compat_l; lra).
  assert (E2 : (q ^ k - 1) * A ^ k <= INR k * (INR d + 3) * eps * A ^ k) by (apply Rmult_le_compat_r; lra).
  lra.
Qed.

(** A platform whose exponential is computed in fixed point. *)
Definition fixed (r : R) : f64 := binary_normalize 53 1024 (up (r * bpow 53) - 1) (-53) false.
Definition careful : platform :=
  mkPlatform
    (fun v => if f_iszero v then fone
              else if f_nonneg (fopp v) then (if f_finite v then fixed (exp (fval v)) else fzero)
              else S754_infinity false)
    (fun v => if f_iszero v then v
              else if f_nonneg v then fixed (tanh (fval v)) else fopp (fixed (- tanh (fval v))))
    (fun v _ => fmul v v) (fold_right fadd fzero) (fold_right fadd fzero).

Lemma fixed_ok : forall r, 0 < r < 1 ->
  canon (fixed r) /\ f_nonneg (fixed r) = true /\ SFleb (fixed r) fone = true /\ Rabs (fval (fixed r) - r) <= eps.
Proof.
  intros r Hr. unfold fixed. destruct (archimed (r * bpow 53)) as [U1 U2]. set (m := (up (r * bpow 53) - 1)%Z).
  assert (Hm : IZR m = IZR (up (r * bpow 53)) - 1) by (unfold m; rewrite minus_IZR; reflexivity).
  assert (H53 := bpow_pos 53). assert (Hb : bpow 53 * bpow (-53) = 1) by (rewrite <- bpow_add; apply bpow_0).
  assert (Hu := u_pos). change (bpow (-53)) with u in *.
  assert (Hz : 0 < r * bpow 53 < bpow 53).
  { split; [apply Rmult_lt_0_compat; lra|]. apply Rle_lt_trans with (r * bpow 53); [lra|].
    apply Rlt_le_trans with (1 * bpow 53); [apply Rmult_lt_compat_r; lra|lra]. }
  assert (Hm0 : (0 <= m)%Z).
  { enough (-1 < m)%Z by lia. apply lt_IZR. rewrite Hm. lra. }
  assert (HmR : IZR m <= r * bpow 53 <= IZR m + 1) by lra.
  assert (HmU : Rabs (IZR m * u - r) <= u).
  { replace r with (r * bpow 53 * u) by (rewrite Rmult_assoc, Hb; ring).
    replace (IZR m * u - r * bpow 53 * u) with ((IZR m - r * bpow 53) * u) by ring.
    rewrite Rabs_mult, (Rabs_pos_eq u) by lra. apply Rle_trans with (1 * u); [|lra].
    apply Rmult_le_compat_r; [lra|]. apply Rabs_le. lra. }
  assert (Hmax : IZR m * u <= 1 - u).
  { assert (Hlt : (m + 1 <= 2 ^ 53)%Z).
    { enough (m < 2 ^ 53)%Z by lia. apply lt_IZR. rewrite <- bpow_IZR by lia. lra. }
    apply IZR_le in Hlt. rewrite plus_IZR, <- bpow_IZR in Hlt by lia.
    assert ((IZR m + 1) * u <= bpow 53 * u) by (apply Rmult_le_compat_r; lra). lra. }
  unfold binary_normalize. destruct m as [|p|p] eqn:Em; [| |lia].
  - rewrite <- u_eps. repeat split; try reflexivity. cbn [fval]. rewrite Rmult_0_l in HmU. lra.
  - destruct (round_sum false p (-53) ltac:(lia)) as (C & E & _).
    { change (bpow (-53)) with u. apply Rle_lt_trans with (1 := Hmax). apply Rlt_trans with 1; [lra|]. rewrite <- bpow_0. apply big. lia. }
    change (bpow (-53)) with u in E. unfold sgn in E. rewrite Rmult_1_l in E.
    assert (N := round_sign p (-53)). set (v := binary_round 53 1024 false p (-53)) in *.
    assert (Hp0 : 0 < IZR (Z.pos p) * u) by (apply Rmult_lt_0_compat; [apply IZR_lt; lia|lra]).
    assert (Hq : u * (IZR (Z.pos p) * u) <= u * (1 - u)) by (apply Rmult_le_compat_l; lra).
    assert (Huu : 0 < u * u) by (apply Rmult_lt_0_compat; lra).
    split; [exact C|]. split; [exact N|]. split.
    + assert (Hlt1 : fval v < 1) by (apply Rabs_le_inv in E; lra).
      clear - C N Hlt1. destruct v as [s|s| |s m e]; try contradiction; [reflexivity|].
      cbn in N. destruct s; [discriminate|]. destruct C as (C1 & C2 & C3).
      rewrite fone_eq. assert (He : (e < -52)%Z).
      { destruct C3 as [C3|C3]; [|lia]. assert (B := digits_bounds m). rewrite C3 in B. change (2 ^ (53 - 1))%Z with (2 ^ 52)%Z in B.
        cbn [fval] in Hlt1. rewrite Rmult_1_l in Hlt1.
        assert (Hl : bpow (52 + e) < bpow 0).
        { rewrite bpow_0. apply Rle_lt_trans with (2 := Hlt1). rewrite bpow_add. apply Rmult_le_compat_r; [apply Rlt_le, bpow_pos|].
          rewrite bpow_IZR by lia. apply IZR_le. lia. }
        apply bpow_lt_inv in Hl. lia. }
      unfold SFleb, SFcompare. rewrite (proj2 (Z.compare_lt_iff e (-52)) He). reflexivity.
    + rewrite <- u_eps. replace (fval v - r) with ((fval v - IZR (Z.pos p) * u) + (IZR (Z.pos p) * u - r)) by ring.
      eapply Rle_trans; [apply Rabs_triang|]. lra.
Qed.

Lemma careful_ok : decent careful /\ exp_within eps careful /\ pow_within eps 2 careful /\ tanh_within eps careful.
Proof.
  assert (Hs : forall l, adds_up l (fold_right fadd fzero l)).
  { induction l as [|a l IH]; [apply adds_zero |]. cbn [fold_right].
    apply (adds_plus [a] l); [apply adds_one | exact IH | apply Permutation_refl]. }
  assert (Hneg : forall v, f_iszero v = false -> f_nonneg (fopp v) = true -> f_finite v = true -> 0 < exp (fval v) < 1).
  { intros v Hz Hn Hf. split; [apply exp_pos|]. rewrite <- exp_0. apply exp_increasing.
    destruct v as [s|s| |s m e]; try discriminate. cbn in Hn. destruct s; [|discriminate]. cbn [fval].
    assert (0 < IZR (Z.pos m) * bpow e) by (apply Rmult_lt_0_compat; [apply IZR_lt; lia|apply bpow_pos]). lra. }
  split; [|split; [|split]].
  - constructor; cbn [careful e_sum e_acc e_pow e_exp]; try exact Hs.
    + exact fmul_opp2.
    + intros v Hv. apply fsquare_nonneg. destruct v; discriminate.
    + intros [s| | |] Hv; try discriminate. reflexivity.
    + intros v Hv. rewrite Hv. reflexivity.
    + intros v Hv. rewrite Hv. destruct (f_iszero v) eqn:Hz; [split; reflexivity|].
      destruct (f_finite v) eqn:Hf; [|split; reflexivity].
      destruct (fixed_ok _ (Hneg v Hz Hv Hf)) as (_ & H1 & H2 & _). split; assumption.
  - intros v Fv Vv Hv. cbn [careful e_exp]. assert (Cv := valid_canon v Fv Vv).
    destruct (f_iszero v) eqn:Hz.
    + assert (E0 : fval v = 0) by (destruct v; try discriminate; reflexivity). rewrite E0, exp_0. split; [reflexivity|].
      assert (H1 : fval fone = 1).
      { rewrite fone_eq. cbn [fval]. change (-52)%Z with (- (52))%Z. rewrite bpow_neg, bpow_IZR by lia. change (2 ^ 52)%Z with 4503599627370496%Z. lra. }
      rewrite H1, Rminus_diag_eq by reflexivity. rewrite Rabs_R0. apply Rlt_le, bpow_pos.
    + assert (Hn : f_nonneg (fopp v) = true).
      { apply nonneg_of_fval; [apply canon_opp, Cv|]. rewrite fval_opp. lra. }
      rewrite Hn, Fv. destruct (fixed_ok _ (Hneg v Hz Hn Fv)) as (C & _ & _ & E). split; [apply canon_finite, C|exact E].
  - intros v Fv Vv Hb. cbn [careful e_pow]. assert (Cv := valid_canon v Fv Vv).
    assert (Hsq : 0 <= fval v * fval v) by apply Rle_0_sqr.
    assert (Hv2 : Rabs (fval v) ^ 2 = fval v * fval v).
    { rewrite RPow_abs, Rabs_pos_eq by (apply pow2_ge_0). ring. }
    rewrite Hv2 in *. replace (fval v ^ 2) with (fval v * fval v) by ring.
    destruct (fmul_any v v Cv Cv) as (C & E & _).
    { rewrite Rabs_pos_eq by exact Hsq. apply Rle_lt_trans with (1 := Hb). apply big. lia. }
    destruct (canon_valid _ C) as [F V]. split; [split; [exact F|]|exact V].
    rewrite (Rabs_pos_eq (fval v * fval v)) in E by exact Hsq. apply Rle_trans with (1 := E).
    rewrite <- u_eps, <- tiny_least. assert (Hu := u_pos). assert (Ht : 0 < tiny) by apply bpow_pos.
    assert (0 <= u * (fval v * fval v)) by (apply Rmult_le_pos; lra). lra.
  - intros v Fv Vv. cbn [careful e_tanh]. assert (Cv := valid_canon v Fv Vv).
    assert (Hth : forall t, 0 < t -> 0 < tanh t < 1).
    { intros t H. unfold tanh, sinh, cosh. assert (H1 : exp (- t) < exp t) by (apply exp_increasing; lra).
      assert (H2 := exp_pos (- t)). assert (Hc : 0 < (exp t + exp (- t)) / 2) by lra. split.
      - apply Rdiv_lt_0_compat; lra.
      - apply (Rmult_lt_reg_r ((exp t + exp (- t)) / 2)); [exact Hc|]. unfold Rdiv at 1. rewrite Rmult_assoc, Rinv_l by lra. lra. }
    destruct (f_iszero v) eqn:Hz.
    + assert (E0 : fval v = 0) by (destruct v; try discriminate; reflexivity). split; [exact Fv|]. assert (T0 : tanh 0 = 0) by (unfold tanh, sinh, cosh; rewrite Ropp_0, exp_0; field).
      rewrite E0, T0, Rminus_0_r, Rabs_R0.
      apply Rlt_le, bpow_pos.
    + destruct (f_nonneg v) eqn:Hnn.
      * assert (Hp : 0 < fval v).
        { destruct v as [s|s| |[] m e]; try discriminate. cbn [fval]. rewrite Rmult_1_l.
          apply Rmult_lt_0_compat; [apply IZR_lt; lia|apply bpow_pos]. }
        destruct (fixed_ok _ (Hth _ Hp)) as (C & _ & _ & E). split; [apply canon_finite, C|exact E].
      * assert (Hp : 0 < - fval v).
        { destruct v as [s|s| |[] m e]; try discriminate. cbn [fval].
          assert (0 < IZR (Z.pos m) * bpow e) by (apply Rmult_lt_0_compat; [apply IZR_lt; lia|apply bpow_pos]). lra. }
        assert (Hodd : - tanh (fval v) = tanh (- fval v)).
        { unfold tanh, sinh, cosh. rewrite Ropp_involutive. assert (P1 := exp_pos (fval v)). assert (P2 := exp_pos (- fval v)).
          field. lra. }
        rewrite Hodd. destruct (fixed_ok _ (Hth _ Hp)) as (C & _ & _ & E).
        split; [apply canon_finite, canon_opp, C|]. rewrite fval_opp.
        replace (- fval (fixed (tanh (- fval v))) - tanh (fval v)) with (- (fval (fixed (tanh (- fval v))) - tanh (- fval v))) by (rewrite <- Hodd; ring).
        rewrite Rabs_Ropp. exact E.
Qed.

(** C86: the requirements on the platform can be met together. *)
Lemma pf_C86_platform_example : exists e, decent e /\ exp_within eps e /\ pow_within eps 2 e /\ tanh_within eps e.
Proof. exists careful. exact careful_ok. Qed.

(*BEGIN PROP*)
(** C86 on concrete data: x = (0.1, 0.2, 0.3) and y = (1, 1, 1) meet the requirements of C86_linear and
    those of C86_laplacian, C86_gaussian, C86_sigmoid and C86_polynomial (k = 2) with gamma = b = 1; the
    linear kernel on them is not exact. *)
Definition x3 (k : nat) : f64 :=
  match k with
  | O => S754_finite false 7205759403792794 (-56)
  | S O => S754_finite false 7205759403792794 (-55)
  | _ => S754_finite false 5404319552844595 (-54)
  end.
Definition y3 (k : nat) : f64 := fone.
Example C86_example :
  doubles 3 x3 /\ doubles 3 y3 /\ absinner 3 (vals x3) (vals y3) <= bpow 1010 /\
  dist1 3 (vals x3) (vals y3) <= bpow 1010 /\ dist2 3 (vals x3) (vals y3) <= bpow 1000 /\ fval fone = 1 /\
  (1 + 1 * absinner 3 (vals x3) (vals y3)) ^ 2 <= bpow 1000 /\
  exists v, fkernel_value plain FLinear (features 3 x3) (features 3 y3) = Ok v /\
    fval v <> inner 3 (vals x3) (vals y3).
Proof.
  assert (H1 : fval fone = 1).
  { rewrite fone_eq. cbn [fval]. change (-52)%Z with (- (52))%Z. rewrite bpow_neg, bpow_IZR by lia. change (2 ^ 52)%Z with 4503599627370496%Z. lra. }
  assert (V : forall k, vals y3 k = 1) by (intros; exact H1).
  assert (B56 := bpow_pos (-56)).
  assert (E55 : bpow (-55) = 2 * bpow (-56)) by (change (-55)%Z with (1 + -56)%Z; rewrite bpow_add; change (bpow 1) with (2 * 1); ring).
  assert (E54 : bpow (-54) = 4 * bpow (-56)) by (change (-54)%Z with (2 + -56)%Z; rewrite bpow_add; change (bpow 2) with (2 * (2 * 1)); ring).
  assert (E53 : bpow (-53) = 8 * bpow (-56)) by (change (-53)%Z with (3 + -56)%Z; rewrite bpow_add; change (bpow 3) with (2 * (2 * (2 * 1))); ring).
  assert (E56 : bpow (-56) = / 72057594037927936) by (change (-56)%Z with (- (56))%Z; rewrite bpow_neg, bpow_IZR by lia; reflexivity).
  assert (X0 : vals x3 0 = 7205759403792794 * bpow (-56)) by (unfold vals; cbn [x3 fval]; ring).
  assert (X1 : vals x3 1 = 14411518807585588 * bpow (-56)) by (unfold vals; cbn [x3 fval]; rewrite E55; ring).
  assert (X2 : vals x3 2 = 21617278211378380 * bpow (-56)) by (unfold vals; cbn [x3 fval]; rewrite E54; ring).
  assert (R0 : 0 < vals x3 0 < 1) by (rewrite X0, E56; lra).
  assert (R1 : 0 < vals x3 1 < 1) by (rewrite X1, E56; lra).
  assert (R2 : 0 < vals x3 2 < 1) by (rewrite X2, E56; lra).
  assert (Big : 8 <= bpow 1000).
  { replace 8 with (bpow 3) by (change (bpow 3) with (2 * (2 * (2 * 1))); ring). apply bpow_le. lia. }
  assert (Big' : bpow 1000 <= bpow 1010) by (apply bpow_le; lia).
  split; [intros [|[|[|k]]] Hk; try lia; split; reflexivity|].
  split; [intros k _; unfold y3; split; reflexivity|].
  split. { unfold absinner. cbn [rsum]. rewrite !V, !Rmult_1_r, !Rabs_pos_eq by lra. lra. }
  split. { unfold dist1. cbn [rsum]. rewrite !V, !Rabs_left by lra. lra. }
  split. { unfold dist2. cbn [rsum]. rewrite !V. nra. }
  split; [exact H1|].
  split.
  { unfold absinner. cbn [rsum]. rewrite !V, !Rmult_1_r, !Rabs_pos_eq by lra. rewrite X0, X1, X2, E56. nra. }
  exists (S754_finite false 5404319552844595 (-53)). split; [vm_compute; reflexivity|].
  unfold inner. cbn [rsum]. rewrite !V, X0, X1, X2. cbn [fval]. rewrite E53, E56. lra.
Qed.
(*END PROP*)
