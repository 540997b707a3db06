(** C92: is_PSD and is_psd in double precision. *)
From Coq Require Import String ZArith Bool List Permutation Lia Lra Reals Floats.SpecFloat Arith.
Import ListNotations.
From Verif Require Import Prelude MatModel UtilsModel KMModel SpecKM KernelsModel FloatModel FloatOpsModel SpecFloats SpecFloatVal
  SpecLinAlg SpecKernels SpecFloatErr SpecFloatOps FloatKMModel SpecFloatKM.
From Verif Require Import MatFacts MFacts KMFacts KMInv KMHist KMHist2 RSum PSDFacts OpsProps2 KernelFacts.
From Verif Require Import FloatProps FloatNormProps FloatRound FloatErrProps FloatAny FloatSum FloatDiv FloatDotProps FloatChiProps
  FloatOpsFacts FloatRankProps FloatKMFacts FloatKMProps.
Local Open Scope R_scope.

(** ** Eigenvalues and quadratic forms *)
Lemma eig_quad : forall n B l t, eigenvalues_of n B l ->
  (forall k, (k < n)%nat -> - t <= l k) <-> (forall x, - t * rsum n (fun i => x i * x i) <= quad n (lowsym B) x).
Proof.
  intros n B l t (Q & Qr & Qc & QA). split.
  - intros H x. rewrite (lowsym_quad n B l Q x QA), (orth_norm n Q x Qr), <- rsum_scal.
    apply rsum_le. intros k Hk. apply Rmult_le_compat_r; [apply Rle_0_sqr|auto].
  - intros H k Hk. specialize (H (fun i => Q i k)).
    rewrite (lowsym_quad n B l Q _ QA), Qc, Nat.eqb_refl in H by assumption.
    rewrite (rsum_ext n _ (fun m => if Nat.eqb m k then l m else 0)) in H.
    + rewrite (rsum_delta n k l) in H by assumption. lra.
    + intros m Hm. rewrite Qc by assumption. rewrite (Nat.eqb_sym k m). destruct (Nat.eqb m k); ring.
Qed.

Lemma lowsym_sym : forall n B x, symmetric n B -> quad n (lowsym B) x = quad n B x.
Proof.
  intros n B x H. apply quad_ext; [|reflexivity]. intros i j Hi Hj. unfold lowsym.
  destruct (Nat.le_ge_cases i j) as [L|L].
  - rewrite Nat.max_r, Nat.min_l by assumption. apply H; assumption.
  - rewrite Nat.max_l, Nat.min_r by assumption. reflexivity.
Qed.

Lemma abs_sum_sq : forall n c, rsum n (fun i => Rabs (c i)) * rsum n (fun i => Rabs (c i)) <= INR n * rsum n (fun i => c i * c i).
Proof.
  intros n c. assert (H := rsum_cs n (fun i => Rabs (c i)) (fun _ => 1)). cbv beta in H.
  rewrite (rsum_ext n (fun i => Rabs (c i) * 1) (fun i => Rabs (c i))) in H by (intros; ring).
  rewrite (rsum_ext n (fun i => Rabs (c i) * Rabs (c i)) (fun i => c i * c i)) in H.
  2:{ intros i _. rewrite <- Rabs_mult. apply Rabs_pos_eq. exact (Rle_0_sqr _). }
  rewrite (rsum_ext n (fun _ => 1 * 1) (fun _ => 1)) in H by (intros; ring). rewrite rsum_const in H. lra.
Qed.

Lemma near_form : forall n A B b c, 0 <= b -> (forall i j, (i < n)%nat -> (j < n)%nat -> Rabs (A i j - B i j) <= b) ->
  quad n B c - INR n * b * rsum n (fun i => c i * c i) <= quad n A c.
Proof.
  intros n A B b c Hb H. assert (Hq := quad_near n A B (fun _ _ => b) c H). rewrite quad_const in Hq.
  assert (b * (rsum n (fun i => Rabs (c i)) * rsum n (fun i => Rabs (c i))) <= b * (INR n * rsum n (fun i => c i * c i)))
    by (apply Rmult_le_compat_l; [exact Hb|apply abs_sum_sq]).
  lra.
Qed.

Lemma low_near : forall n A P b, symmetric n P -> (forall i j, (i < n)%nat -> (j < n)%nat -> Rabs (A i j - P i j) <= b) ->
  forall i j, (i < n)%nat -> (j < n)%nat -> Rabs (lowsym A i j - P i j) <= b.
Proof.
  intros n A P b Hs H i j Hi Hj. unfold lowsym. destruct (Nat.le_ge_cases i j) as [L|L].
  - rewrite Nat.max_r, Nat.min_l by assumption. rewrite (Hs i j) by assumption. apply H; assumption.
  - rewrite Nat.max_l, Nat.min_r by assumption. apply H; assumption.
Qed.

Lemma dbl_canon : forall n l k, doubles n l -> (k < n)%nat -> canon (l k).
Proof. intros n l k H Hk. destruct (H k Hk). apply valid_canon; assumption. Qed.

Lemma below : forall n l tol, doubles n l -> canon tol ->
  (existsb (fun v => fltb v (fopp tol)) (map l (seq 0 n)) = false <-> forall k, (k < n)%nat -> - fval tol <= vals l k).
Proof.
  intros n l tol Dl Ct. split.
  - intros H k Hk. destruct (Rle_dec (- fval tol) (vals l k)) as [|N]; [assumption|exfalso].
    assert (T : existsb (fun v => fltb v (fopp tol)) (map l (seq 0 n)) = true).
    { apply existsb_exists. exists (l k). split; [apply in_map, in_seq; lia|].
      apply ltb_any; [apply (dbl_canon n); assumption|apply canon_opp, Ct|]. rewrite fval_opp. unfold vals in N. lra. }
    congruence.
  - intros H. destruct (existsb _ _) eqn:E; [|reflexivity]. apply existsb_exists in E. destruct E as (v & Hv & Hc).
    apply in_map_iff in Hv. destruct Hv as (k & <- & Hk). apply in_seq in Hk.
    apply ltb_any in Hc; [|apply (dbl_canon n); [assumption|lia]|apply canon_opp, Ct].
    rewrite fval_opp in Hc. specialize (H k ltac:(lia)). unfold vals in H. lra.
Qed.

Lemma fget_tab : forall n A i j, (i < n)%nat -> (j < n)%nat -> fget (tabulate n n A) i j = A i j.
Proof. intros. unfold fget. apply mget_tabulate; assumption. Qed.

Lemma symmetric_close : forall n A, doubles2 n n A (bpow 1000) ->
  (forall i j, (i < n)%nat -> (j < n)%nat -> Rabs (mvals A i j - mvals A j i) <= bpow (-28)) ->
  fnot_symmetric n (fget (tabulate n n A)) = false.
Proof.
  intros n A HA H. unfold fnot_symmetric. apply negb_false_iff, forallb_forall. intros i Hi. apply in_seq in Hi.
  apply forallb_forall. intros j Hj. apply in_seq in Hj. rewrite !fget_tab by lia.
  destruct (HA i j ltac:(lia) ltac:(lia)) as (F & V & _). destruct (HA j i ltac:(lia) ltac:(lia)) as (F' & V' & B').
  apply close_any; [apply valid_canon; assumption|apply valid_canon; assumption|exact B'|].
  apply Rle_trans with (1 := H i j ltac:(lia) ltac:(lia)).
  change (-28)%Z with (- (1) + -27)%Z. rewrite bpow_add, bpow_neg. replace (bpow 1) with 2 by (rewrite bpow_IZR by lia; reflexivity).
  assert (0 < bpow (-27)) by apply bpow_pos. lra.
Qed.

Lemma delta_nonneg : forall n delta (A : nat -> nat -> R) B, (0 < n)%nat ->
  (forall i j, (i < n)%nat -> (j < n)%nat -> Rabs (B i j - A i j) <= delta) -> 0 <= delta.
Proof. intros n delta A B Hn H. apply Rle_trans with (2 := H 0%nat 0%nat Hn Hn), Rabs_pos. Qed.

(** C92. In double precision, is_PSD answers True on every matrix that is within [b] of a positive
    semidefinite matrix, if the eigensolver is backward stable: it returns the exact eigenvalues of some
    symmetric matrix within [delta] of its argument, and n (b + delta) is at most the tolerance. *)
Lemma pf_C92_true : forall eig f n A P b delta tol, f <> Lil -> doubles2 n n A (bpow 1000) ->
  f_finite tol = true -> valid_binary 53 1024 tol = true ->
  psd n P -> (forall i j, (i < n)%nat -> (j < n)%nat -> Rabs (mvals A i j - P i j) <= b) ->
  (forall i j, (i < n)%nat -> (j < n)%nat -> Rabs (mvals A i j - mvals A j i) <= bpow (-28)) ->
  solves_within delta eig n A -> INR n * (b + delta) <= fval tol ->
  fis_PSD eig (mkArr f (tabulate n n A)) tol = Ok true.
Proof.
  intros eig f n A P b delta tol Hf HA Ft Vt [Ps Pq] Hb Hsym (l & B & He & Dl & HE & Bs & Hd) Hn.
  unfold fis_PSD. cbn [amat]. replace (is_ndarray (mkArr f (tabulate n n A))) with true by (destruct f; [reflexivity|contradiction|reflexivity]).
  cbn [negb]. cbn [tabulate mr mc]. rewrite Nat.eqb_refl. cbn [negb].
  change (mkMat n n _) with (tabulate n n A). rewrite (symmetric_close n A HA Hsym), He. f_equal. apply negb_true_iff.
  apply below; [exact Dl|apply valid_canon; assumption|]. apply (eig_quad n B (vals l) (fval tol) HE).
  intros x. rewrite (lowsym_sym n B x Bs). set (S := rsum n (fun i => x i * x i)).
  destruct n as [|n]; [unfold S, quad; cbn [rsum]; lra|].
  assert (Hd0 := delta_nonneg (Datatypes.S n) _ _ _ (Nat.lt_0_succ n) Hd). assert (Hb0 := delta_nonneg (Datatypes.S n) _ _ _ (Nat.lt_0_succ n) Hb).
  assert (Hlow := low_near (Datatypes.S n) (mvals A) P b Ps Hb).
  assert (HBP : forall i j, (i < Datatypes.S n)%nat -> (j < Datatypes.S n)%nat -> Rabs (B i j - P i j) <= b + delta).
  { intros i j Hi Hj. replace (B i j - P i j) with ((B i j - lowsym (mvals A) i j) + (lowsym (mvals A) i j - P i j)) by ring.
    apply Rle_trans with (1 := Rabs_triang _ _). specialize (Hd i j Hi Hj). specialize (Hlow i j Hi Hj). lra. }
  assert (Hq := near_form _ B P (b + delta) x ltac:(lra) HBP). fold S in Hq. specialize (Pq x).
  assert (HS : 0 <= S) by apply rsum_sqr_nonneg.
  assert (INR (Datatypes.S n) * (b + delta) * S <= fval tol * S) by (apply Rmult_le_compat_r; assumption). lra.
Qed.

(** C92. It answers False where the quadratic form (of the lower triangle, which is what the eigensolver
    reads) takes a value below -(tolerance + n delta). *)
Lemma pf_C92_false : forall eig f n A delta tol v, f <> Lil ->
  f_finite tol = true -> valid_binary 53 1024 tol = true ->
  solves_within delta eig n A ->
  quad n (lowsym (mvals A)) v < - (fval tol + INR n * delta) * rsum n (fun i => v i * v i) ->
  fis_PSD eig (mkArr f (tabulate n n A)) tol = Ok false.
Proof.
  intros eig f n A delta tol v Hf Ft Vt (l & B & He & Dl & HE & Bs & Hd) Hv.
  unfold fis_PSD. cbn [amat]. replace (is_ndarray (mkArr f (tabulate n n A))) with true by (destruct f; [reflexivity|contradiction|reflexivity]).
  cbn [negb]. cbn [tabulate mr mc]. rewrite Nat.eqb_refl. cbn [negb].
  change (mkMat n n _) with (tabulate n n A). destruct (fnot_symmetric _ _); [reflexivity|]. rewrite He. f_equal. apply negb_false_iff.
  destruct (existsb _ _) eqn:E; [reflexivity|]. exfalso.
  assert (E' := proj1 (below n l tol Dl (valid_canon tol Ft Vt)) E).
  assert (Hq := proj1 (eig_quad n B (vals l) (fval tol) HE) E' v). rewrite (lowsym_sym n B v Bs) in Hq.
  destruct n as [|n]; [unfold quad in Hv; cbn [rsum] in Hv; lra|].
  assert (Hd0 := delta_nonneg (Datatypes.S n) _ _ _ (Nat.lt_0_succ n) Hd).
  assert (Hd' : forall i j, (i < S n)%nat -> (j < S n)%nat -> Rabs (lowsym (mvals A) i j - B i j) <= delta).
  { intros i j Hi Hj. rewrite Rabs_minus_sym. apply Hd; assumption. }
  assert (Hn := near_form _ (lowsym (mvals A)) B delta v Hd0 Hd'). lra.
Qed.

(** C92. The other answers: TypeError for what is not an ndarray, False for a matrix that is not square or not
    symmetric (np.isclose), and False, not an error, when the eigensolver raises. *)
Lemma pf_C92_total : forall eig a tol,
  (afmt a = Lil -> fis_PSD eig a tol = Raise TypeError) /\
  (afmt a <> Lil -> exists b, fis_PSD eig a tol = Ok b) /\
  (afmt a <> Lil -> mr (amat a) <> mc (amat a) -> fis_PSD eig a tol = Ok false) /\
  (afmt a <> Lil -> (exists i j, (i < mr (amat a))%nat /\ (j < mr (amat a))%nat /\
     fisclose (mget S754_nan (amat a) i j) (mget S754_nan (amat a) j i) = false) -> fis_PSD eig a tol = Ok false) /\
  (afmt a <> Lil -> forall x, eig (amat a) = Raise x -> fis_PSD eig a tol = Ok false).
Proof.
  intros eig [f M] tol. cbn [afmt amat]. unfold fis_PSD. cbn [amat]. split; [intros ->; reflexivity|].
  assert (Hnd : f <> Lil -> is_ndarray (mkArr f M) = true) by (intros H; destruct f; [reflexivity|contradiction|reflexivity]).
  split; [|split; [|split]].
  - intros H. rewrite (Hnd H). cbn [negb]. destruct (mr M =? mc M)%nat; [|eexists; reflexivity]. cbn [negb].
    destruct (fnot_symmetric _ _); [eexists; reflexivity|]. destruct (eig M); eexists; reflexivity.
  - intros H Hn. rewrite (Hnd H). apply Nat.eqb_neq in Hn. rewrite Hn. reflexivity.
  - intros H (i & j & Hi & Hj & Hc). rewrite (Hnd H). cbn [negb]. destruct (mr M =? mc M)%nat; [|reflexivity]. cbn [negb].
    destruct (fnot_symmetric _ _) eqn:E; [reflexivity|]. exfalso. unfold fnot_symmetric in E. apply negb_false_iff in E.
    rewrite forallb_forall in E. specialize (E i). rewrite in_seq in E. specialize (E ltac:(lia)).
    rewrite forallb_forall in E. specialize (E j). rewrite in_seq in E. specialize (E ltac:(lia)).
    unfold fget in E. congruence.
  - intros H x Hx. rewrite (Hnd H). cbn [negb]. destruct (mr M =? mc M)%nat; [|reflexivity]. cbn [negb].
    destruct (fnot_symmetric _ _); [reflexivity|]. rewrite Hx. reflexivity.
Qed.

(** ** is_psd *)
Lemma fis_psd_eq : forall e eig K x n d, admissible x None n n d ->
  fis_psd e eig K x = rbind (outcome (fN e) OpFull (after (U:=unit) (fN e) K true [] x None []))
                         (fun o => match o with OArr a => fis_PSD eig a f_psd_tolerance | _ => Raise TypeError end).
Proof.
  intros e eig K x n d H. unfold fis_psd, outcome, after. cbn [app run step]. rewrite outcome_fmap, state_fmap.
  unfold bind at 1. rewrite (attach_to_ok _ x None n n d H). cbn [fst].
  unfold bind. destruct (full (fN e) (attached (km_new K true []) x None n n d)) as [s' [a|er]]; reflexivity.
Qed.

Lemma psd_tolerance_val : 999 / 1000 * / 10 ^ 6 <= fval f_psd_tolerance <= 1001 / 1000 * / 10 ^ 6.
Proof.
  unfold f_psd_tolerance. cbn [fval]. rewrite Rmult_1_l. change (-72)%Z with (- (72))%Z. rewrite bpow_neg, bpow_IZR by lia.
  change (2 ^ 72)%Z with 4722366482869645213696%Z. lra.
Qed.

Lemma is_psd_true : forall e K n d x (B : nat -> nat -> f64) P b,
  admissible x None n n d ->
  outcome (fN e) OpFull (after (U:=unit) (fN e) K true [] x None []) = Ok (OArr (mkArr Dense (tabulate n n B))) ->
  doubles2 n n B (bpow 1000) -> psd n P ->
  (forall i j, (i < n)%nat -> (j < n)%nat -> Rabs (mvals B i j - P i j) <= b) ->
  (forall i j, (i < n)%nat -> (j < n)%nat -> Rabs (mvals B i j - mvals B j i) <= bpow (-28)) ->
  forall eig delta, solves_within delta eig n B -> INR n * (b + delta) <= 99 / 100 * / 10 ^ 6 ->
  fis_psd e eig K x = Ok true.
Proof.
  intros e K n d x B P b Ha HO HB HP Hb Hs eig delta He Hn. rewrite (fis_psd_eq e eig K x n d Ha), HO. cbn [rbind].
  apply (pf_C92_true eig Dense n B P b delta f_psd_tolerance); try assumption.
  - discriminate.
  - reflexivity.
  - vm_compute. reflexivity.
  - destruct psd_tolerance_val. lra.
Qed.

(*BEGIN PROP*)
(** What np.random.rand draws: multiples of 2^-53 in the unit interval. *)
Definition drawn (n d : nat) (X : nat -> nat -> f64) : Prop :=
  forall i k, (i < n)%nat -> (k < d)%nat -> f_finite (X i k) = true /\ valid_binary 53 1024 (X i k) = true /\
    (fval (X i k) = 0 \/ bpow (-53) <= fval (X i k) <= 1).
(*END PROP*)

Lemma drawn_facts : forall n d X, drawn n d X ->
  (forall i, (i < n)%nat -> doubles d (X i)) /\
  (forall i k, (i < n)%nat -> (k < d)%nat -> 0 <= vals (X i) k <= 1) /\
  (forall i k, (i < n)%nat -> (k < d)%nat -> midsize (vals (X i) k)) /\
  (forall k i, (i < n)%nat -> match k with FGaussian _ | FLaplacian _ | FChi2 _ => f_domain k (features d (X i)) | _ => True end).
Proof.
  intros n d X H. assert (H0 := bpow_pos (-53)).
  assert (HR : forall i k, (i < n)%nat -> (k < d)%nat -> 0 <= vals (X i) k <= 1).
  { intros i k Hi Hk. destruct (H i k Hi Hk) as (_ & _ & [E|E]); unfold vals; [rewrite E|]; lra. }
  assert (HD : forall i, (i < n)%nat -> forallb f_finite (features d (X i)) = true).
  { intros i Hi. apply forallb_forall. intros v Hv. apply in_map_iff in Hv. destruct Hv as (k & <- & Hk). apply in_seq in Hk.
    apply (H i k); lia. }
  split; [|split; [exact HR|split]].
  - intros i Hi k Hk. destruct (H i k Hi Hk) as (F & V & _). split; assumption.
  - intros i k Hi Hk. destruct (H i k Hi Hk) as (_ & _ & [E|E]); [left; exact E|right]. unfold vals.
    assert (bpow (-400) <= bpow (-53)) by (apply bpow_le; lia). assert (1 <= bpow 500) by (rewrite <- bpow_0; apply bpow_le; lia). lra.
  - intros k i Hi. destruct k; try exact I; (split; [apply HD, Hi|]); try exact I.
    apply forallb_forall. intros v Hv. apply in_map_iff in Hv. destruct Hv as (q & <- & Hk). apply in_seq in Hk.
    destruct (H i q Hi ltac:(lia)) as (F & V & R). assert (0 <= fval (X i q)) by (destruct R as [->|R]; lra).
    destruct (X i q) as [s|s| |s m ex]; try discriminate; [reflexivity|]. destruct s; [exfalso|reflexivity]. cbn [fval] in *.
    assert (0 < IZR (Z.pos m) * bpow ex) by (apply Rmult_lt_0_compat; [apply IZR_lt; lia|apply bpow_pos]). lra.
Qed.

Lemma rsum_le_const : forall d f b, (forall k, (k < d)%nat -> f k <= b) -> rsum d f <= INR d * b.
Proof. intros d f b H. rewrite <- rsum_const. apply rsum_le. exact H. Qed.

Lemma drawn_dist : forall d x y, (forall k, (k < d)%nat -> 0 <= x k <= 1) -> (forall k, (k < d)%nat -> 0 <= y k <= 1) ->
  0 <= dist1 d x y <= INR d /\ 0 <= dist2 d x y <= INR d.
Proof.
  intros d x y Hx Hy. assert (HA : forall k, (k < d)%nat -> Rabs (x k - y k) <= 1).
  { intros k Hk. specialize (Hx k Hk). specialize (Hy k Hk). apply Rabs_le. lra. }
  split; (split; [apply rsum_nonneg; intros; first [apply Rabs_pos|exact (Rle_0_sqr _)]|]);
    rewrite <- (Rmult_1_r (INR d)); apply rsum_le_const; intros k Hk; specialize (HA k Hk).
  - exact HA.
  - rewrite <- (Rabs_pos_eq ((x k - y k) * (x k - y k))) by exact (Rle_0_sqr _). rewrite Rabs_mult.
    rewrite <- (Rmult_1_r 1). apply Rmult_le_compat; try apply Rabs_pos; exact HA.
Qed.

(*BEGIN PROP*)
(** The three distance kernels with 0 < gamma <= 2^400. *)
Definition smooth_kernel (k : fkernel) : Prop :=
  match k with
  | FGaussian g | FLaplacian g | FChi2 g =>
      f_finite g = true /\ valid_binary 53 1024 g = true /\ 0 < fval g <= bpow 400
  | _ => False
  end.
(*END PROP*)

Lemma smooth_distance : forall k, smooth_kernel k ->
  distance_kernel (fun g => f_finite g = true /\ f_iszero g = false /\ f_nonneg g = true) k.
Proof.
  assert (H : forall g, f_finite g = true -> 0 < fval g -> f_iszero g = false /\ f_nonneg g = true).
  { intros [s|s| |s m ex] F Hp; try discriminate; cbn [fval] in Hp; [lra|]. split; [reflexivity|]. destruct s; [exfalso|reflexivity].
    assert (0 < IZR (Z.pos m) * bpow ex) by (apply Rmult_lt_0_compat; [apply IZR_lt; lia|apply bpow_pos]). lra. }
  intros k Hk. destruct k; try contradiction Hk; destruct Hk as (F & _ & R & _); (split; [exact F|apply (H _ F R)]).
Qed.

Lemma smooth_near : forall e dl k n d X, decent e -> exp_within dl e -> pow_within eps 2 e -> smooth_kernel k ->
  drawn n d X -> INR d + 8 <= bpow 50 ->
  exists P, psd n P /\ forall i j, (i < n)%nat -> (j < n)%nat ->
    near (P i j) (dl + (INR d + 9) * eps) (fvalue e k (features d (X i)) (features d (X j))).
Proof.
  intros e dl k n d X He Hx Hp Hk HX Hd. destruct (drawn_facts n d X HX) as (HD & HR & HM & _).
  assert (Hep := eps_pos). assert (H0 := pos_INR d).
  assert (B1 : bpow 50 <= bpow 1000) by (apply bpow_le; lia). assert (B2 : bpow 1000 <= bpow 1010) by (apply bpow_le; lia).
  assert (B3 : bpow 400 <= bpow 900) by (apply bpow_le; lia).
  assert (B4 : forall g t, 0 < g <= bpow 400 -> 0 <= t <= bpow 50 -> g * t <= bpow 1000).
  { intros g t Hg Ht. apply Rle_trans with (bpow 400 * bpow 50); [apply Rmult_le_compat; lra|]. rewrite <- bpow_add. apply bpow_le. lia. }
  assert (Hl : least <= eps) by (apply bpow_le; lia).
  assert (HW : forall a b b' v, b <= b' -> near a b v -> near a b' v) by (intros a b b' v Hb [F E]; split; [exact F|lra]).
  assert (HDist : forall i j, (i < n)%nat -> (j < n)%nat ->
     0 <= dist1 d (vals (X i)) (vals (X j)) <= INR d /\ 0 <= dist2 d (vals (X i)) (vals (X j)) <= INR d).
  { intros i j Hi Hj. apply drawn_dist; intros q Hq; apply HR; assumption. }
  destruct k as [alpha|degree gamma b0|gamma|gamma|gamma|gamma b0|]; try contradiction Hk; destruct Hk as (Fg & Vg & Rg).
  - exists (fun i j => exp (- fval gamma * dist2 d (vals (X i)) (vals (X j)))).
    split; [apply (psd_gaussian n d (fun i => vals (X i))); lra|]. intros i j Hi Hj. destruct (HDist i j Hi Hj) as [D1 D2].
    destruct (pf_C86_gaussian e dl gamma d (X i) (X j) He Hx Hp Fg Vg ltac:(lra) (HD i Hi) (HD j Hj) Hd) as (v & Hv & Hn); [lra|apply B4; lra|].
    rewrite fvalue_features, Hv. apply HW with (2 := Hn). lra.
  - exists (fun i j => exp (- fval gamma * dist1 d (vals (X i)) (vals (X j)))).
    split; [apply (psd_laplacian n d (fun i => vals (X i))); lra|]. intros i j Hi Hj. destruct (HDist i j Hi Hj) as [D1 D2].
    destruct (pf_C86_laplacian e dl gamma d (X i) (X j) He Hx Fg Vg ltac:(lra) (HD i Hi) (HD j Hj) ltac:(lra)) as (v & Hv & Hn).
    + lra.
    + apply Rle_trans with (2 := B2). apply B4; lra.
    + rewrite fvalue_features, Hv. apply HW with (2 := Hn). lra.
  - exists (fun i j => exp (- fval gamma * chi2stat d (vals (X i)) (vals (X j)))).
    split.
    + apply (psd_chi2 n d (fun i => vals (X i))); [lra|]. intros i q Hi Hq. apply HR; assumption.
    + intros i j Hi Hj.
      destruct (pf_C86_chi2 e dl gamma d (X i) (X j) He Hx Hp Fg Vg Rg (HD i Hi) (HD j Hj) Hd) as (v & Hv & Hn).
      * intros q Hq. split; apply HM; assumption.
      * rewrite fvalue_features, Hv. apply HW with (2 := Hn). lra.
Qed.

(** C92. is_psd of GaussianKernel, LaplacianKernel and Chi2Kernel (0 < gamma <= 2^400) answers True, whatever
    np.random.rand draws: if the exponential is off by at most [dl], the eigensolver is backward stable to within
    [delta] on the one matrix it is given, and n (dl + (d + 9) eps + delta) is below 0.99e-6 (n = 50 and d = 4 in
    the code). *)
Lemma pf_C92_is_psd : forall e dl k n d X, decent e -> exp_doubles e -> exp_within dl e -> pow_within eps 2 e ->
  smooth_kernel k -> drawn n d X -> INR d + 8 <= bpow 50 ->
  exists A, (forall i j, (i < n)%nat -> (j < n)%nat -> f_same (A i j) (fvalue e k (features d (X i)) (features d (X j)))) /\
    forall eig delta, solves_within delta eig n A ->
      INR n * (dl + (INR d + 9) * eps + delta) <= 99 / 100 * / 10 ^ 6 ->
      fis_psd e eig (fbuiltin e k) (fsample n d X) = Ok true.
Proof.
  intros e dl k n d X He Hxd Hx Hp Hk HX Hd.
  destruct (drawn_facts n d X HX) as (HD & HR & HM & HF).
  assert (HF' : forall i, (i < n)%nat -> f_domain k (features d (X i))).
  { intros i Hi. specialize (HF k i Hi). destruct k; try contradiction Hk; exact HF. }
  destruct (@pf_C91_unit unit e k [] [] n d X OpFull He Hxd (smooth_distance k Hk) HF' eq_refl (or_introl eq_refl)) as (A & HO & HA).
  destruct (smooth_near e dl k n d X He Hx Hp Hk HX Hd) as (P & HP & HN).
  exists A. split; [exact HA|]. intros eig delta Hs Hb.
  assert (HV : forall i j, (i < n)%nat -> (j < n)%nat -> exists v, fkernel_value e k (features d (X i)) (features d (X j)) = Ok v /\
     f_same (A i j) v /\ f_finite v = true /\ valid_binary 53 1024 v = true /\ 0 <= fval v <= 1).
  { intros i j Hi Hj.
    destruct (pf_C76_range e k _ _ He (smooth_distance k Hk) (HF' i Hi) (HF' j Hj)) as (v & Hv & _).
    exists v. split; [exact Hv|]. split; [|apply (unit_value e k _ _ v He Hxd (smooth_distance k Hk) (HF' i Hi) (HF' j Hj) Hv)].
    specialize (HA i j Hi Hj). cbv beta in HA. rewrite fvalue_features, Hv in HA. exact HA. }
  assert (Hsame : forall a v, f_same a v -> f_finite v = true -> valid_binary 53 1024 v = true -> f_finite a = true /\ valid_binary 53 1024 a = true).
  { intros a v [->|[Ha Hv]] F V; [auto|]. destruct a; try discriminate. split; reflexivity. }
  apply (is_psd_true e (fbuiltin e k) n d (fsample n d X) A P (dl + (INR d + 9) * eps) (fsample_adm n d X) HO) with (delta := delta); try assumption.
  - intros i j Hi Hj. destruct (HV i j Hi Hj) as (v & _ & S & F & V & R). destruct (Hsame _ _ S F V) as [FA VA].
    split; [exact FA|]. split; [exact VA|]. unfold mvals. rewrite (fval_same _ _ S), Rabs_pos_eq by lra.
    apply Rle_trans with 1; [lra|]. rewrite <- bpow_0. apply bpow_le. lia.
  - intros i j Hi Hj. unfold mvals. rewrite (fval_same _ _ (HA i j Hi Hj)). apply HN; assumption.
  - intros i j Hi Hj. destruct (HV i j Hi Hj) as (v & Ev & S & _). destruct (HV j i Hj Hi) as (w & Ew & S' & _).
    rewrite (pf_C76_symmetric e k _ _ (d_pow_even e He)), Ev in Ew. injection Ew as <-.
    unfold mvals. rewrite (fval_same _ _ S), (fval_same _ _ S'), Rminus_diag_eq, Rabs_R0 by reflexivity. apply Rlt_le, bpow_pos.
Qed.

Lemma psd_cosine : forall n d X, psd n (fun i j => cosine d (X i) (X j)).
Proof.
  intros n d X. apply psd_ext with (A := fun i j => / sqrt (inner d (X i) (X i)) * inner d (X i) (X j) * / sqrt (inner d (X j) (X j))).
  - intros i j _ _. unfold cosine, Rdiv. destruct (Req_dec (sqrt (inner d (X i) (X i))) 0) as [E|E].
    + rewrite E, Rmult_0_l, Rinv_0. ring.
    + destruct (Req_dec (sqrt (inner d (X j) (X j))) 0) as [E'|E'].
      * rewrite E', Rmult_0_r, Rinv_0. ring.
      * field. split; assumption.
  - apply (psd_scale n (fun i => / sqrt (inner d (X i) (X i)))). apply psd_inner.
Qed.

Lemma cosine_bound : forall d x y, Rabs (cosine d x y) <= 1.
Proof.
  intros d x y. unfold cosine, Rdiv. rewrite Rabs_mult.
  assert (H := Rle_trans _ _ _ (inner_abs d x y) (absinner_cs d x y)).
  set (s := sqrt (inner d x x) * sqrt (inner d y y)) in *.
  assert (Hs : 0 <= s) by (apply Rmult_le_pos; apply sqrt_pos).
  destruct (Req_dec s 0) as [E|E].
  - rewrite E, Rinv_0, Rabs_R0. lra.
  - rewrite (Rabs_pos_eq (/ s)) by (left; apply Rinv_0_lt_compat; lra).
    apply Rmult_le_reg_r with s; [lra|]. rewrite Rmult_assoc, Rinv_l by exact E. lra.
Qed.

(** C92. is_psd of LinearKernel answers True on every sample whose rows have self-products between 1.1e-8 and
    2^999 (a draw of np.random.rand with a row closer to zero ends in KMNormError, C91_error). *)
Lemma pf_C92_is_psd_linear : forall e n d X, decent e -> INR d <= bpow 20 ->
  (forall i, (i < n)%nat -> big_enough d (X i)) ->
  exists A, (forall i j, (i < n)%nat -> (j < n)%nat -> near (cosine d (vals (X i)) (vals (X j))) ((3 * INR d + 5) * eps) (A i j)) /\
    forall eig delta, solves_within delta eig n A ->
      INR n * ((3 * INR d + 5) * eps + delta) <= 99 / 100 * / 10 ^ 6 ->
      fis_psd e eig (fbuiltin e FLinear) (fsample n d X) = Ok true.
Proof.
  intros e n d X He Hd HX.
  assert (Hd40 : INR d <= bpow 40) by (apply Rle_trans with (1 := Hd), bpow_le; lia).
  destruct (@pf_C91_linear unit e [] [] n d X OpFull He Hd40 HX eq_refl (or_introl eq_refl)) as (A & HO & HAV).
  assert (HA := fun i j Hi Hj => proj1 (HAV i j Hi Hj)). assert (HV := fun i j Hi Hj => proj2 (HAV i j Hi Hj)).
  exists A. split; [exact HA|]. intros eig delta Hs Hb.
  assert (Hsm : (3 * INR d + 5) * eps <= bpow (-29)).
  { assert (H20 : bpow 20 = 1048576) by (rewrite bpow_IZR by lia; reflexivity). rewrite eps_val.
    change (-29)%Z with (- (29))%Z. rewrite bpow_neg, bpow_IZR by lia. change (2 ^ 29)%Z with 536870912%Z. lra. }
  assert (E29 : bpow (-28) = bpow (-29) + bpow (-29)).
  { change (-28)%Z with (1 + -29)%Z. rewrite bpow_add. replace (bpow 1) with 2 by (rewrite bpow_IZR by lia; reflexivity). ring. }
  assert (E1 : bpow (-29) <= 1) by (rewrite <- bpow_0; apply bpow_le; lia).
  assert (E2 : 2 <= bpow 1000) by (replace 2 with (bpow 1) by (rewrite bpow_IZR by lia; reflexivity); apply bpow_le; lia).
  apply (is_psd_true e (fbuiltin e FLinear) n d (fsample n d X) A (fun i j => cosine d (vals (X i)) (vals (X j)))
           ((3 * INR d + 5) * eps) (fsample_adm n d X) HO) with (delta := delta); try assumption.
  - intros i j Hi Hj. destruct (HA i j Hi Hj) as [F E]. split; [exact F|]. split; [apply HV; assumption|].
    unfold mvals. assert (C := cosine_bound d (vals (X i)) (vals (X j))).
    replace (fval (A i j)) with (fval (A i j) - cosine d (vals (X i)) (vals (X j)) + cosine d (vals (X i)) (vals (X j))) by ring.
    apply Rle_trans with (1 := Rabs_triang _ _). lra.
  - apply (psd_cosine n d (fun i => vals (X i))).
  - intros i j Hi Hj. apply HA; assumption.
  - intros i j Hi Hj. destruct (HA i j Hi Hj) as [_ E]. destruct (HA j i Hj Hi) as [_ E']. rewrite (cosine_sym d (vals (X j))) in E'.
    unfold mvals. set (c := cosine d (vals (X i)) (vals (X j))) in *.
    replace (fval (A i j) - fval (A j i)) with (fval (A i j) - c + - (fval (A j i) - c)) by ring.
    apply Rle_trans with (1 := Rabs_triang _ _). rewrite Rabs_Ropp. lra.
Qed.

(** C92. A self-similarity that np.isclose finds close to zero makes is_psd raise KMNormError. *)
Lemma pf_C92_error : forall e eig (K : kernel f64 f64) k x n d,
  never_raises K k x None n n d -> kfmt K = true -> admissible x None n n d ->
  (exists i, (i < n)%nat /\ fisclose (k (row_of d x i) (row_of d x i)) fzero = true) ->
  fis_psd e eig K x = Raise KMNormError.
Proof.
  intros e eig K k x n d HK Hf Ha Hi. rewrite (fis_psd_eq e eig K x n d Ha).
  rewrite (@pf_C91_error unit e K k [] [] x None n n d OpFull HK Hf Ha eq_refl (or_introl eq_refl) Hi). reflexivity.
Qed.

(*BEGIN PROP*)
(** Two samples of one feature. *)
Definition big_sample (i k : nat) : f64 := match i with O => fint 160791506 | _ => fint 133526255 end.
(** The doubles next to their products. *)
Definition big_products (i j : nat) : f64 :=
  match i, j with
  | O, O => fint 25853908401748036
  | S _, S _ => fint 17829260774325024
  | _, _ => fint 21469887631990032
  end.
(*END PROP*)

Lemma big_vals : mvals big_products 0 0 = 25853908401748036 /\ mvals big_products 1 1 = 17829260774325024 /\
  mvals big_products 0 1 = 21469887631990032 /\ mvals big_products 1 0 = 21469887631990032.
Proof.
  assert (B1 : bpow 1 = 2) by (rewrite bpow_IZR by lia; reflexivity).
  assert (B2 : bpow 2 = 4) by (rewrite bpow_IZR by lia; reflexivity).
  unfold mvals. repeat split;
    match goal with |- fval ?x = _ => let v := eval vm_compute in x in change x with v end;
    cbn [fval]; rewrite Rmult_1_l, ?B1, ?B2; lra.
Qed.

(** C92: what must not be expected: True for every positive semidefinite kernel. The linear kernel matrix
    (normalized=False) of the two samples 160791506 and 133526255 is positive semidefinite in exact arithmetic. In
    double precision, every eigensolver that is backward stable to within 1 (a relative 4e-17) makes is_PSD answer
    False. Such answers exist. *)
Lemma pf_C92_rounding_refuted :
  outcome (fN plain) OpFull (after (U:=unit) (fN plain) (fbuiltin plain FLinear) false [] (fsample 2 1 big_sample) None [])
    = Ok (OArr (mkArr Dense (tabulate 2 2 big_products))) /\ decent plain /\
  psd 2 (fun i j => inner 1 (vals (big_sample i)) (vals (big_sample j))) /\
  (forall eig, solves_within 1 eig 2 big_products ->
     fis_PSD eig (mkArr Dense (tabulate 2 2 big_products)) f_psd_tolerance = Ok false) /\
  exists eig, solves_within 1 eig 2 big_products.
Proof.
  destruct big_vals as (V00 & V11 & V01 & V10).
  split; [vm_compute; reflexivity|]. split; [apply pf_C76_platform_example|].
  split; [apply (psd_inner 2 1 (fun i => vals (big_sample i)))|]. split.
  - intros eig He. apply (pf_C92_false eig Dense 2 big_products 1 f_psd_tolerance (fun i => match i with O => 133526255 | _ => -160791506 end)).
    + discriminate.
    + reflexivity.
    + vm_compute. reflexivity.
    + exact He.
    + destruct psd_tolerance_val as [_ T]. unfold quad, lowsym. cbn [rsum Nat.max Nat.min INR]. rewrite V00, V11, V10.
      set (t := fval f_psd_tolerance) in *. lra.
  - set (a := 160791506). set (b := 133526255). set (S := a * a + b * b).
    set (l := fun k => match k with O => fint 43683169176073064 | _ => fopp (fdiv (fint 5) (fint 2)) end).
    assert (L0 : vals l 0 = 43683169176073064).
    { assert (B3 : bpow 3 = 8) by (rewrite bpow_IZR by lia; reflexivity). unfold vals.
      match goal with |- fval ?x = _ => let v := eval vm_compute in x in change x with v end. cbn [fval]. rewrite B3. lra. }
    assert (L1 : vals l 1 = - (5 / 2)).
    { unfold vals. match goal with |- fval ?x = _ => let v := eval vm_compute in x in change x with v end. cbn [fval].
      change (-51)%Z with (- (51))%Z. rewrite bpow_neg, bpow_IZR by lia. change (2 ^ 51)%Z with 2251799813685248%Z. lra. }
    set (c := / sqrt S).
    assert (Hc : c * c = / 43683169176073061).
    { unfold c. rewrite <- Rinv_mult, sqrt_sqrt by (unfold S, a, b; lra). f_equal. unfold S, a, b. lra. }
    exists (fun _ => Ok (map l (seq 0 2))).
    exists l, (fun i j => match i, j with
                          | O, O => (43683169176073064 * (a * a) - 5 / 2 * (b * b)) / S
                          | O, _ => (43683169176073064 + 5 / 2) * (a * b) / S
                          | _, O => (43683169176073064 + 5 / 2) * (a * b) / S
                          | _, _ => (43683169176073064 * (b * b) - 5 / 2 * (a * a)) / S
                          end).
    split; [reflexivity|]. split.
    { intros k Hk. destruct k as [|[|k]]; try lia; split; vm_compute; reflexivity. }
    split; [|split].
    + exists (fun i k => match i, k with O, O => a * c | O, _ => b * c | _, O => b * c | _, _ => - a * c end).
      assert (HS : / S = c * c) by (rewrite Hc; f_equal; unfold S, a, b; lra). unfold Rdiv. rewrite HS.
      assert (H1 : a * a * (c * c) + b * b * (c * c) = 1) by (rewrite Hc; unfold a, b; lra).
      split; [|split]; intros i j Hi Hj; destruct i as [|[|i]], j as [|[|j]]; try lia;
        unfold lowsym; cbn [rsum Nat.eqb Nat.max Nat.min]; rewrite ?L0, ?L1; lra.
    + intros [|[|i]] [|[|j]] Hi Hj; try lia; reflexivity.
    + intros [|[|i]] [|[|j]] Hi Hj; try lia; unfold lowsym; cbn [Nat.max Nat.min]; rewrite ?V00, ?V11, ?V10;
        unfold S, a, b; apply Rabs_le; lra.
Qed.

(** C92: a case that meets the hypotheses of C92_true and C92_is_psd together: two equal rows give the matrix of
    ones, whose eigenvalues are 0 and 2; and a platform and a draw that are as required. *)
Lemma pf_C92_example :
  (exists eig, solves_within 0 eig 2 (fun _ _ => fone) /\
     fis_PSD eig (mkArr Dense (tabulate 2 2 (fun _ _ => fone))) f_psd_tolerance = Ok true) /\
  (exists e, decent e /\ exp_doubles e /\ exp_within eps e /\ pow_within eps 2 e) /\
  smooth_kernel (FGaussian fone) /\ drawn 2 2 (fun i k => fdiv fone (fint (Z.of_nat (1 + i + k)))) /\
  INR 50 * (eps + (INR 4 + 9) * eps + bpow (-30)) <= 99 / 100 * / 10 ^ 6.
Proof.
  split; [|split; [|split; [|split]]].
  - set (l := fun k : nat => match k with O => fzero | _ => fint 2 end).
    assert (V : fval (fint 2) = 2) by (apply (fint_any 2); vm_compute; reflexivity).
    assert (HE : solves_within 0 (fun _ => Ok (map l (seq 0 2))) 2 (fun _ _ => fone)).
    { exists l, (fun _ _ => 1). split; [reflexivity|]. split.
      { intros [|[|k]] Hk; try lia; split; vm_compute; reflexivity. }
      split; [|split].
      - exists (fun i k => match i, k with 1%nat, O => - / sqrt 2 | _, _ => / sqrt 2 end).
        assert (H : / sqrt 2 * / sqrt 2 = 1/2) by (rewrite <- Rinv_mult, sqrt_sqrt by lra; lra).
        assert (L0 : vals l 0 = 0) by reflexivity. assert (L1 : vals l 1 = 2) by exact V.
        split; [|split]; intros [|[|i]] [|[|j]] Hi Hj; try lia; unfold lowsym; cbn [rsum Nat.eqb Nat.max Nat.min];
          rewrite ?L0, ?L1; lra.
      - intros i j _ _. reflexivity.
      - intros i j _ _. unfold lowsym, mvals. rewrite fval_fone, Rminus_diag_eq, Rabs_R0 by reflexivity. lra. }
    eexists. split; [exact HE|].
    apply (pf_C92_true _ Dense 2 (fun _ _ => fone) (fun _ _ => 1) 0 0 f_psd_tolerance); try assumption.
    + discriminate.
    + intros i j _ _. split; [reflexivity|]. split; [vm_compute; reflexivity|]. unfold mvals. rewrite fval_fone, Rabs_R1, <- bpow_0.
      apply bpow_le. lia.
    + reflexivity.
    + vm_compute. reflexivity.
    + apply psd_ones.
    + intros i j _ _. unfold mvals. rewrite fval_fone, Rminus_diag_eq, Rabs_R0 by reflexivity. lra.
    + intros i j _ _. rewrite Rminus_diag_eq, Rabs_R0 by reflexivity. apply Rlt_le, bpow_pos.
    + destruct psd_tolerance_val. cbn [INR]. lra.
  - exists careful. destruct careful_ok as (H1 & H2 & H3 & _). split; [exact H1|]. split; [|split; assumption].
    intros v. cbn [careful e_exp]. destruct (f_iszero v) eqn:Hz; [vm_compute; reflexivity|].
    destruct (f_nonneg (fopp v)) eqn:Hn; [|reflexivity]. destruct (f_finite v) eqn:Hf; [|reflexivity].
    apply canon_valid. apply fixed_ok. split; [apply exp_pos|]. rewrite <- exp_0. apply exp_increasing.
    destruct v as [s|s| |s m ex]; try discriminate. destruct s; [|discriminate]. cbn [fval].
    assert (0 < IZR (Z.pos m) * bpow ex) by (apply Rmult_lt_0_compat; [apply IZR_lt; lia|apply bpow_pos]). lra.
  - split; [reflexivity|]. split; [vm_compute; reflexivity|]. rewrite fval_fone. split; [lra|]. rewrite <- bpow_0. apply bpow_le. lia.
  - assert (B53 : bpow (-53) <= / 4).
    { change (-53)%Z with (- (53))%Z. rewrite bpow_neg, bpow_IZR by lia. change (2 ^ 53)%Z with 9007199254740992%Z. lra. }
    intros i k Hi Hk. destruct i as [|[|i]], k as [|[|k]]; try lia;
      (split; [reflexivity|]; split; [vm_compute; reflexivity|]; right;
       match goal with |- context [fval ?x] => let v := eval vm_compute in x in change x with v end; cbn [fval];
       rewrite Rmult_1_l; change (-52)%Z with (- (52))%Z; change (-53)%Z with (- (53))%Z in *; change (-54)%Z with (- (54))%Z;
       rewrite ?(bpow_neg 52), ?(bpow_neg 54), ?(bpow_neg 53) in *; rewrite ?(bpow_IZR 52), ?(bpow_IZR 54), ?(bpow_IZR 53) in * by lia;
       change (2 ^ 52)%Z with 4503599627370496%Z; change (2 ^ 53)%Z with 9007199254740992%Z in *; change (2 ^ 54)%Z with 18014398509481984%Z; lra).
  - rewrite eps_val. change (-30)%Z with (- (30))%Z. rewrite bpow_neg, bpow_IZR by lia. change (2 ^ 30)%Z with 1073741824%Z.
    replace (INR 50) with 50 by (rewrite INR_IZR_INZ; reflexivity). replace (INR 4) with 4 by (rewrite INR_IZR_INZ; reflexivity). lra.
Qed.
