(** Facts about the kernel functions. *)
From Coq Require Import String Reals List Bool Arith Lra Lia Psatz.
Import ListNotations.
From Verif Require Import Prelude MatModel UtilsModel XReal SpecLinAlg RSum PSDFacts OpsModel OpsFacts KernelsModel SpecKernels.
Local Open Scope R_scope.

Lemma zip_swap : forall {A B C} (f : A -> B -> C) x y, zip f x y = zip (fun b a => f a b) y x.
Proof.
  intros A B C f. unfold zip. induction x as [|a x IH]; intros [|b y]; simpl; try reflexivity.
  f_equal. apply IH.
Qed.

Lemma zip_ext : forall {A B C} (f g : A -> B -> C) x y,
  (forall a b, f a b = g a b) -> zip f x y = zip g x y.
Proof. intros. unfold zip. apply map_ext. intros. apply H. Qed.

Lemma zip_sym : forall {A C} (f : A -> A -> C) x y,
  (forall a b, f a b = f b a) -> zip f x y = zip f y x.
Proof. intros. rewrite zip_swap. now apply zip_ext. Qed.

Lemma zip_map : forall {A B A' B' C} (f : A' -> B' -> C) (g : A -> A') (h : B -> B') x y,
  zip f (map g x) (map h y) = zip (fun a b => f (g a) (h b)) x y.
Proof.
  intros. unfold zip. revert y. induction x as [|a x IH]; intros [|b y]; simpl; try reflexivity.
  f_equal. apply IH.
Qed.

Lemma zip_seq : forall {B} (f : nat -> nat -> B) n, zip f (seq 0 n) (seq 0 n) = map (fun k => f k k) (seq 0 n).
Proof.
  intros B f n. unfold zip. generalize 0%nat. induction n as [|n IH]; intros s; simpl; [reflexivity|].
  f_equal. apply IH.
Qed.

Lemma zip_fin : forall {B} (f : xr -> xr -> B) d x y,
  zip f (map (fun k => Fin (x k)) (seq 0 d)) (map (fun k => Fin (y k)) (seq 0 d))
  = map (fun k => f (Fin (x k)) (Fin (y k))) (seq 0 d).
Proof. intros. now rewrite zip_map, zip_seq. Qed.

(** ** Validation *)
Lemma check_swap : forall cast dx (x : ndarray xr) dy y e,
  check_input_arrays cast dy y dx x e
  = match check_input_arrays cast dx x dy y e with
    | Ok p => Ok (snd p, fst p)
    | Raise er => Raise er
    end.
Proof.
  intros. unfold check_input_arrays, ensure_ndarray_1D, ensure_ndarray_size.
  destruct (negb (nd_ndim (squeeze_from 1 x) =? 1)%nat), (negb (nd_ndim (squeeze_from 1 y) =? 1)%nat); simpl;
    try reflexivity.
  - destruct (negb (issubdtype dy e)); [destruct (cast dy _)|]; reflexivity.
  - destruct (negb (issubdtype dx e)); [destruct (cast dx _)|]; reflexivity.
  - destruct (negb (issubdtype dx e)), (negb (issubdtype dy e));
      try destruct (cast dx (nd_data x)); try destruct (cast dy (nd_data y)); simpl; try reflexivity;
      rewrite Nat.eqb_sym; match goal with |- context [negb ?b] => destruct b end; reflexivity.
Qed.

Lemma call_fvec : forall cast k d x y,
  kernel_call cast k DFloat (fvec d x) DFloat (fvec d y)
  = kernel_value k (map (fun i => Fin (x i)) (seq 0 d)) (map (fun i => Fin (y i)) (seq 0 d)).
Proof.
  intros. unfold kernel_call, check_input_arrays, ensure_ndarray_1D, ensure_ndarray_size.
  unfold fvec, squeeze_from. simpl.
  assert (E : issubdtype DFloat (kernel_dtype k) = true) by now destruct k.
  rewrite E. simpl. rewrite !map_length, Nat.eqb_refl. reflexivity.
Qed.

(** ** Symmetry *)
Lemma xabs_sub : forall a b, xabs (xsub a b) = xabs (xsub b a).
Proof.
  destruct a, b; simpl; try reflexivity. f_equal.
  replace (r0 + - r) with (- (r + - r0)) by ring. now rewrite Rabs_Ropp.
Qed.

Lemma xsqr_sub : forall a b, xmul (xsub a b) (xsub a b) = xmul (xsub b a) (xsub b a).
Proof. destruct a, b; simpl; try reflexivity. f_equal; ring. Qed.

Lemma zip_map_self : forall {A B} (f : B -> B -> A) (l : list B), zip f l l = map (fun a => f a a) l.
Proof. intros. unfold zip. induction l as [|a l IH]; simpl; [reflexivity|]. f_equal; apply IH. Qed.

Lemma map_zip : forall {A B C D} (g : C -> D) (f : A -> B -> C) x y,
  map g (zip f x y) = zip (fun a b => g (f a b)) x y.
Proof. intros. unfold zip. now rewrite map_map. Qed.

Lemma value_sym : forall k x y, kernel_value k x y = kernel_value k y x.
Proof.
  intros k x y. destruct k; simpl.
  - f_equal. unfold hadamard_value.
    rewrite (zip_sym (fun a b => (xmul a b, xmul (Fin 2) (xadd a b)))); [reflexivity|].
    intros a b. now rewrite xmul_comm, xadd_comm.
  - unfold xdot. now rewrite (zip_sym xmul x y xmul_comm).
  - unfold xnorm2, xdot.
    assert (E : zip xmul (zip xsub x y) (zip xsub x y) = zip xmul (zip xsub y x) (zip xsub y x)).
    { rewrite !zip_map_self, !map_zip.
      rewrite (zip_sym (fun a b => xmul (xsub a b) (xsub a b)) x y); [reflexivity|].
      intros; apply xsqr_sub. }
    now rewrite E.
  - rewrite !map_zip, (zip_sym (fun a b => xabs (xsub a b)) x y xabs_sub). reflexivity.
  - rewrite orb_comm. destruct (_ || _); [reflexivity|].
    rewrite (zip_sym (fun a b => xdiv (xmul (xsub a b) (xsub a b)) (xadd a b)) x y); [reflexivity|].
    intros a b. now rewrite xsqr_sub, xadd_comm.
  - unfold xdot. now rewrite (zip_sym xmul x y xmul_comm).
  - unfold xdot. now rewrite (zip_sym xmul x y xmul_comm).
Qed.

(** ** Values on finite vectors *)
Notation fl d x := (map (fun k => Fin (x k)) (seq 0 d)).

Lemma xdot_fin : forall d x y, xdot (fl d x) (fl d y) = Fin (inner d x y).
Proof. intros. unfold xdot. rewrite zip_fin. apply xsum_fin_ext. reflexivity. Qed.

Lemma xpow_fin : forall r n, xpow (Fin r) n = Fin (r ^ n).
Proof.
  intros r n. induction n as [|n IH]; [reflexivity|].
  cbn [xpow pow]. destruct n as [|n]; [simpl; f_equal; ring|]. rewrite IH. reflexivity.
Qed.

Lemma poly_value : forall d x y degree gamma b,
  kernel_value (KPoly degree gamma b) (fl d x) (fl d y) = Ok (Fin ((b + gamma * inner d x y) ^ degree)).
Proof. intros. simpl. rewrite xdot_fin. simpl. now rewrite xpow_fin. Qed.

Lemma xnorm2_sub : forall d x y,
  xmul (xnorm2 (zip xsub (fl d x) (fl d y))) (xnorm2 (zip xsub (fl d x) (fl d y))) = Fin (dist2 d x y).
Proof.
  intros. rewrite zip_fin. unfold xnorm2.
  replace (map (fun k => xsub (Fin (x k)) (Fin (y k))) (seq 0 d)) with (fl d (fun k => x k - y k)) by reflexivity.
  rewrite xdot_fin. unfold inner. fold (dist2 d x y).
  assert (H : 0 <= dist2 d x y) by apply rsum_sqr_nonneg.
  simpl. destruct (Rlt_dec (dist2 d x y) 0); [lra|]. simpl. now rewrite sqrt_sqrt.
Qed.

Lemma eps_pos : 0 < float_eps.
Proof. unfold float_eps. apply Rinv_0_lt_compat. apply pow_lt. lra. Qed.
Lemma eps_lt1 : float_eps < 1.
Proof.
  unfold float_eps. rewrite <- Rinv_1. apply Rinv_lt_contravar; [|apply Rlt_pow_R1; [lra|lia]].
  rewrite Rmult_1_l. apply pow_lt. lra.
Qed.

Lemma min_eps_fin : forall r, ensure_min_eps (Fin r) = Fin (Rmax float_eps r).
Proof.
  intros r. unfold ensure_min_eps. cbn [xltb]. unfold Rltb, Rmax.
  destruct (Rlt_dec float_eps r), (Rle_dec float_eps r); f_equal; lra.
Qed.

Lemma gaussian_gamma_fin : forall s,
  gaussian_gamma (Fin s) = Fin (Rmax float_eps (1 / (2 * (Rmax float_eps s * Rmax float_eps s)))).
Proof.
  intros s. unfold gaussian_gamma, gaussian_sigma. rewrite min_eps_fin. cbn [xmul xdiv].
  assert (0 < Rmax float_eps s) by (assert (H := Rmax_l float_eps s); assert (H' := eps_pos); lra).
  destruct (Req_EM_T _ 0) as [E|E]; [nra|]. apply min_eps_fin.
Qed.

Lemma gaussian_gamma_bounds : forall s, s <> NaN ->
  exists g, gaussian_gamma s = Fin g /\ float_eps <= g <= 1 / (2 * (float_eps * float_eps)).
Proof.
  assert (He := eps_pos). assert (He1 := eps_lt1).
  assert (B : forall r, float_eps <= r -> 1 / (2 * (r * r)) <= 1 / (2 * (float_eps * float_eps))).
  { intros r Hr. unfold Rdiv. rewrite !Rmult_1_l. apply Rinv_le_contravar; nra. }
  assert (C : float_eps <= 1 / (2 * (float_eps * float_eps))).
  { apply (Rmult_le_reg_r (2 * (float_eps * float_eps))); [nra|].
    unfold Rdiv. rewrite Rmult_1_l, Rinv_l by nra.
    apply Rle_trans with (float_eps * (2 * (float_eps * 1))); [nra|].
    assert (float_eps <= / 2).
    { unfold float_eps. apply Rinv_le_contravar; [lra|].
      replace 2 with (2 ^ 1) at 1 by ring. apply Rle_pow; [lra|lia]. }
    nra. }
  intros s Hs. destruct s as [s| | |]; [| | |contradiction].
  - rewrite gaussian_gamma_fin. eexists. split; [reflexivity|]. split; [apply Rmax_l|].
    apply Rmax_lub; [exact C|]. apply B, Rmax_l.
  - exists float_eps. split; [|split; [lra|exact C]].
    unfold gaussian_gamma, gaussian_sigma, ensure_min_eps. cbn [xltb xmul]. cbn [xmul signed_inf].
    unfold signed_inf. destruct (Rlt_dec 0 2); [|lra]. cbn [xdiv xltb]. unfold Rltb.
    destruct (Rlt_dec float_eps 0); [lra|reflexivity].
  - replace (gaussian_gamma NInf) with (gaussian_gamma (Fin 0)).
    + rewrite gaussian_gamma_fin. eexists. split; [reflexivity|]. split; [apply Rmax_l|].
      apply Rmax_lub; [exact C|]. apply B, Rmax_l.
    + unfold gaussian_gamma, gaussian_sigma, ensure_min_eps. cbn [xltb]. unfold Rltb.
      destruct (Rlt_dec float_eps 0); [lra|reflexivity].
Qed.

Lemma gaussian_value : forall d x y s g, gaussian_gamma s = Fin g ->
  kernel_value (KGaussian s) (fl d x) (fl d y) = Ok (Fin (exp (- g * dist2 d x y))).
Proof.
  intros d x y s g Hg. cbn [kernel_value]. rewrite Hg, xnorm2_sub. reflexivity.
Qed.

Lemma laplacian_value : forall d x y g,
  kernel_value (KLaplacian g) (fl d x) (fl d y) = Ok (Fin (exp (- g * dist1 d x y))).
Proof.
  intros. cbn [kernel_value]. rewrite zip_fin, map_map.
  rewrite (xsum_fin_ext d _ (fun k => Rabs (x k - y k))); [reflexivity|]. reflexivity.
Qed.

Lemma existsb_neg_fin : forall d x,
  existsb (fun v => xltb v (Fin 0)) (fl d x) = true <-> exists k, (k < d)%nat /\ x k < 0.
Proof.
  intros d x. rewrite existsb_exists. split.
  - intros (v & Hin & Hv). apply in_map_iff in Hin. destruct Hin as (k & <- & Hk).
    apply in_seq in Hk. exists k. split; [lia|]. simpl in Hv. unfold Rltb in Hv.
    destruct (Rlt_dec (x k) 0); [assumption|discriminate].
  - intros (k & Hk & Hx). exists (Fin (x k)). split.
    + apply in_map_iff. exists k. split; [reflexivity|]. apply in_seq. lia.
    + simpl. unfold Rltb. now destruct (Rlt_dec (x k) 0).
Qed.

Lemma existsb_neg_false : forall d x, (forall k, (k < d)%nat -> 0 <= x k) ->
  existsb (fun v => xltb v (Fin 0)) (fl d x) = false.
Proof.
  intros d x H. destruct (existsb _ _) eqn:E; [|reflexivity]. apply existsb_neg_fin in E.
  destruct E as (k & Hk & Hx). specialize (H k Hk). lra.
Qed.

Lemma xsum_filter_if : forall {A} (p : A -> bool) (g : A -> xr) l,
  xsum (map g (filter p l)) = xsum (map (fun a => if p a then g a else Fin 0) l).
Proof.
  intros A p g l. induction l as [|a l IH]; [reflexivity|]. cbn [filter map].
  destruct (p a); unfold xsum in *; cbn [map fold_right]; rewrite IH; [reflexivity|]. symmetry. apply xadd_0_l.
Qed.

Lemma xnansum_fin : forall d (g : nat -> xr) (f : nat -> R),
  (forall k, (k < d)%nat -> (g k = Fin (f k)) \/ (g k = NaN /\ f k = 0)) ->
  xnansum (map g (seq 0 d)) = Fin (rsum d f).
Proof.
  intros d g f H. unfold xnansum. rewrite <- (map_id (filter _ _)), xsum_filter_if, map_map.
  apply xsum_fin_ext. intros k Hk. destruct (H k Hk) as [->|[-> E]]; simpl; [reflexivity|now rewrite E].
Qed.

Lemma chi2_value : forall d x y g,
  (forall k, (k < d)%nat -> 0 <= x k) -> (forall k, (k < d)%nat -> 0 <= y k) ->
  kernel_value (KChi2 g) (fl d x) (fl d y) = Ok (Fin (exp (- g * chi2stat d x y))).
Proof.
  intros d x y g Hx Hy. cbn [kernel_value].
  rewrite (existsb_neg_false d x Hx), (existsb_neg_false d y Hy). cbn [orb].
  rewrite zip_fin. unfold chi2stat.
  rewrite (xnansum_fin d _ (fun k => if Req_EM_T (x k + y k) 0 then 0
                   else (x k - y k) * (x k - y k) / (x k + y k))); [reflexivity|].
  intros k Hk. specialize (Hx k Hk). specialize (Hy k Hk). simpl.
  destruct (Req_EM_T (x k + y k) 0) as [E|E]; [right|left; reflexivity].
  split; [|reflexivity]. assert (x k = 0) by lra. assert (y k = 0) by lra. rewrite H, H0.
  unfold signed_inf. destruct (Rlt_dec 0 _); [lra|]. destruct (Rlt_dec _ 0); [lra|reflexivity].
Qed.

(** |x|^alpha for alpha > 0. *)
Definition pw (alpha r : R) : R := if Req_EM_T r 0 then 0 else Rpower (Rabs r) alpha.

Lemma pw_nonneg : forall alpha r, 0 <= pw alpha r.
Proof. intros. unfold pw. destruct (Req_EM_T r 0); [lra|]. left. apply exp_pos. Qed.

Lemma xpower_pw : forall alpha r, 0 < alpha -> xpower (xabs (Fin r)) alpha = Fin (pw alpha r).
Proof.
  intros alpha r H. unfold xpower, pw. destruct (Req_EM_T alpha 0); [lra|]. simpl.
  destruct (Req_EM_T (Rabs r) 0) as [E|E], (Req_EM_T r 0) as [E'|E'].
  - destruct (Rlt_dec alpha 0); [lra|reflexivity].
  - exfalso. now apply (Rabs_no_R0 r).
  - subst. rewrite Rabs_R0 in E. lra.
  - reflexivity.
Qed.

Lemma hadamard_fin : forall d x y alpha, 0 < alpha ->
  kernel_value (KHadamard alpha) (fl d x) (fl d y)
  = Ok (Fin (rsum d (fun k => harm (pw alpha (x k)) (pw alpha (y k)) / 2))).
Proof.
  intros d x y alpha Ha. cbn [kernel_value]. f_equal. unfold hadamard_value.
  rewrite !map_map, zip_map, zip_seq, xsum_filter_if, map_map.
  apply xsum_fin_ext. intros k Hk. rewrite !xpower_pw by assumption. simpl. unfold harm, Rltb.
  assert (H1 := pw_nonneg alpha (x k)). assert (H2 := pw_nonneg alpha (y k)).
  destruct (Rlt_dec 0 (2 * (pw alpha (x k) + pw alpha (y k)))), (Req_EM_T (pw alpha (x k) + pw alpha (y k)) 0);
    try lra.
  - destruct (Req_EM_T _ 0); [lra|]. f_equal. field. lra.
  - f_equal. lra.
Qed.

Lemma tanh_lt1 : forall r, -1 < tanh r < 1.
Proof.
  intros r. unfold tanh, sinh, cosh. assert (H1 := exp_pos r). assert (H2 := exp_pos (- r)).
  split.
  - apply (Rmult_lt_reg_r ((exp r + exp (- r)) / 2)); [lra|].
    unfold Rdiv at 2. rewrite Rmult_assoc, Rinv_l by lra. lra.
  - apply (Rmult_lt_reg_r ((exp r + exp (- r)) / 2)); [lra|].
    unfold Rdiv at 1. rewrite Rmult_assoc, Rinv_l by lra. lra.
Qed.

Lemma tanh_neg : forall r, r < 0 -> tanh r < 0.
Proof.
  intros r Hr. unfold tanh, sinh, cosh. assert (H1 := exp_pos r). assert (H2 := exp_pos (- r)).
  assert (H : exp r < exp (- r)) by (apply exp_increasing; lra).
  apply (Rmult_lt_reg_r ((exp r + exp (- r)) / 2)); [lra|].
  unfold Rdiv at 1. rewrite Rmult_assoc, Rinv_l by lra. lra.
Qed.

(** ** Positive semidefiniteness *)
Lemma psd_shift_scale : forall n A b g, 0 <= b -> 0 <= g -> psd n A -> psd n (fun i j => b + g * A i j).
Proof.
  intros. apply (psd_plus n (fun _ _ => b) (fun i j => g * A i j)); [|now apply psd_scal].
  apply (psd_ext n (fun _ _ => b * 1)); [intros; ring|]. apply psd_scal; [assumption|apply psd_ones].
Qed.

Lemma inner_sym : forall d x y, inner d x y = inner d y x.
Proof. intros. apply rsum_ext. intros. ring. Qed.

Lemma dist2_inner : forall d x y, dist2 d x y = inner d x x + inner d y y - 2 * inner d x y.
Proof.
  intros. unfold dist2, inner. rewrite <- rsum_plus, <- rsum_scal, <- rsum_minus. apply rsum_ext. intros. ring.
Qed.

Lemma psd_gaussian : forall n d X g, 0 <= g -> psd n (fun i j => exp (- g * dist2 d (X i) (X j))).
Proof.
  intros n d X g Hg.
  apply (psd_ext n (fun i j => exp (- g * inner d (X i) (X i)) * exp (2 * g * inner d (X i) (X j))
                               * exp (- g * inner d (X j) (X j)))).
  - intros i j _ _. rewrite <- !exp_plus, dist2_inner. f_equal. ring.
  - apply (psd_scale n (fun i => exp (- g * inner d (X i) (X i)))). apply psd_exp.
    apply psd_scal; [lra|apply psd_inner].
Qed.

Lemma psd_laplacian : forall n d X g, 0 <= g -> psd n (fun i j => exp (- g * dist1 d (X i) (X j))).
Proof.
  intros n d X g Hg.
  apply (psd_ext n (fun i j => fold_right Rmult 1 (map (fun k => exp (- g * Rabs (X i k - X j k))) (seq 0 d)))).
  - intros i j _ _. unfold dist1. rewrite <- rsum_scal, exp_rsum. reflexivity.
  - apply (psd_prod n d (fun k i j => exp (- g * Rabs (X i k - X j k)))). intros k _.
    apply (psd_laplace1 n g (fun i => X i k)). assumption.
Qed.

Lemma chi2_harm : forall a b, 0 <= a -> 0 <= b ->
  (if Req_EM_T (a + b) 0 then 0 else (a - b) * (a - b) / (a + b)) = a + b - 4 * harm a b.
Proof.
  intros a b Ha Hb. unfold harm. destruct (Req_EM_T (a + b) 0) as [E|E]; [lra|]. field. assumption.
Qed.

Lemma psd_chi2 : forall n d X g, 0 <= g ->
  (forall i k, (i < n)%nat -> (k < d)%nat -> 0 <= X i k) ->
  psd n (fun i j => exp (- g * chi2stat d (X i) (X j))).
Proof.
  intros n d X g Hg HX.
  apply (psd_ext n (fun i j => exp (- g * rsum d (X i)) * exp (4 * g * rsum d (fun k => harm (X i k) (X j k)))
                               * exp (- g * rsum d (X j)))).
  - intros i j Hi Hj. rewrite <- !exp_plus. f_equal. unfold chi2stat.
    rewrite (rsum_ext d (fun k => if Req_EM_T (X i k + X j k) 0 then 0 else _)
              (fun k => X i k + X j k - 4 * harm (X i k) (X j k))).
    + rewrite rsum_minus, rsum_plus, rsum_scal.
      change (rsum d (fun k => X i k)) with (rsum d (X i)). change (rsum d (fun k => X j k)) with (rsum d (X j)). ring.
    + intros k Hk. apply chi2_harm; auto.
  - apply (psd_scale n (fun i => exp (- g * rsum d (X i)))). apply psd_exp. apply psd_scal; [lra|].
    apply (psd_rsum n d (fun k i j => harm (X i k) (X j k))). intros k Hk.
    apply (psd_harm n (fun i => X i k)). auto.
Qed.

Lemma psd_hadamard : forall n d X alpha,
  psd n (fun i j => rsum d (fun k => harm (pw alpha (X i k)) (pw alpha (X j k)) / 2)).
Proof.
  intros. apply (psd_rsum n d (fun k i j => harm (pw alpha (X i k)) (pw alpha (X j k)) / 2)). intros k Hk.
  apply (psd_ext n (fun i j => / 2 * harm (pw alpha (X i k)) (pw alpha (X j k)))); [intros; lra|].
  apply psd_scal; [lra|]. apply (psd_harm n (fun i => pw alpha (X i k))). intros. apply pw_nonneg.
Qed.

Lemma psd_same : forall {A} (eqd : forall a b : A, {a = b} + {a <> b}) n (s : nat -> A),
  psd n (fun i j => if eqd (s i) (s j) then 1 else 0).
Proof.
  intros A eqd. induction n as [|n IH]; intros s.
  - split; [intros i j Hi; lia|]. intros c. unfold quad. simpl. lra.
  - apply (psd_border n _ 1); [lra| | |].
    + destruct (eqd (s n) (s n)); congruence.
    + intros i Hi. destruct (eqd (s i) (s n)), (eqd (s n) (s i)); congruence.
    + apply (psd_ext n (fun i j => (if eqd (s i) (s n) then 0 else 1) * (if eqd (s i) (s j) then 1 else 0)
                                   * (if eqd (s j) (s n) then 0 else 1))).
      * intros i j _ _. destruct (eqd (s i) (s n)), (eqd (s i) (s j)), (eqd (s j) (s n)); try lra; congruence.
      * apply (psd_scale n (fun i => if eqd (s i) (s n) then 0 else 1)). apply IH.
Qed.
