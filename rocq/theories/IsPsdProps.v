(** C74: BaseKernelFunction.is_psd. *)
From Coq Require Import String Reals List Arith ZArith Bool Lia Lra.
Import ListNotations.
From Verif Require Import Prelude MatModel UtilsModel KMModel SpecKM XReal OpsModel SpecLinAlg SpecKernels KernelsModel
  KMXModel SpecKMX IsPsdModel.
From Verif Require Import MatFacts MFacts KMFacts KMInv KMTotal KMHist KMHist2 KMProps RSum OpsFacts OpsProps OpsProps2
  KernelFacts KernelProps KMXProps.

Local Open Scope list_scope.
Local Open Scope nat_scope.

(*BEGIN PROP*)
(** The eigensolver returns the eigenvalues of this matrix. *)
Definition solves (eig : mat xr -> res (list xr)) (n : nat) (A : nat -> nat -> R) : Prop :=
  exists l, eig (rmat n n A) = Ok (map (fun k => Fin (l k)) (seq 0 n)) /\ eigenvalues_of n A l.
(*END PROP*)

Lemma is_psd_eq : forall eig K x n d, admissible x None n n d ->
  is_psd eig K x = rbind (outcome xN OpFull (after (U:=unit) xN K true [] x None []))
                         (fun o => match o with OArr a => is_PSD eig a psd_tolerance | _ => Raise TypeError end).
Proof.
  intros eig K x n d H. unfold is_psd, outcome, after. cbn [app run step]. rewrite outcome_fmap, state_fmap.
  unfold bind at 1. rewrite (attach_to_ok _ x None n n d H). cbn [fst].
  unfold bind. destruct (full xN (attached (km_new K true []) x None n n d)) as [s' [a|e]]; reflexivity.
Qed.

(** C74: on every sample on which the kernel is positive semidefinite with self-similarities above
    1e-8, is_psd answers True (if the eigensolver does its job on the one matrix it is given). *)
Lemma pf_C74_true :
  forall cast k n d X,
    psd_on (fun x y => kernel_call cast k DFloat x DFloat y) n d X ->
    (forall i, i < n -> exists r, kernel_call cast k DFloat (fvec d (X i)) DFloat (fvec d (X i)) = Ok (Fin r)
                                  /\ (1/100000000 < r)%R) ->
    exists B, psd n B /\ (forall i, i < n -> B i i = 1%R) /\
      forall eig, solves eig n B -> is_psd eig (builtin k) (rsample n d X) = Ok true.
Proof.
  intros cast k n d X Hp Hd.
  destruct (pf_C64_normalised_psd (U:=unit) cast k [] [] n d X OpFull Hp Hd eq_refl (or_introl eq_refl))
    as (B & HB & Hpsd & H1 & _).
  exists B. split; [exact Hpsd|]. split; [exact H1|]. intros eig (l & He & Hl).
  rewrite (is_psd_eq eig _ _ n d (rsample_adm n d X)), HB. cbn [rbind].
  destruct (pf_C26_decides eig Dense n B l psd_tolerance ltac:(discriminate) He Hl) as (b & Hb & Hiff).
  rewrite Hb. f_equal. apply Hiff. destruct Hpsd as [Hs Hq]. split.
  - intros i j Hi Hj. rewrite (Hs i j Hi Hj). unfold Rminus. rewrite Rplus_opp_r, Rabs_R0.
    pose proof (Rabs_pos (B j i)). lra.
  - intros x.
    assert (Hx : (0 <= rsum n (fun i => x i * x i))%R).
    { apply rsum_nonneg. intros i _. apply Rle_0_sqr. }
    assert (E : quad n (lowsym B) x = quad n B x).
    { unfold quad. apply rsum_ext. intros i Hi. apply rsum_ext. intros j Hj. f_equal. f_equal. unfold lowsym.
      destruct (Nat.le_gt_cases i j) as [Hij|Hij].
      - rewrite Nat.max_r, Nat.min_l by lia. apply Hs; assumption.
      - rewrite Nat.max_l, Nat.min_r by lia. reflexivity. }
    rewrite E. specialize (Hq x). unfold psd_tolerance. nra.
Qed.

(** C74, the built-in kernels whose self-similarities are known: for every finite sample, is_psd of
    GaussianKernel, of LaplacianKernel (gamma >= 0) and of PolyKernel (gamma, b >= 0, b^degree > 1e-8)
    is True; so it is for Chi2Kernel (gamma >= 0) if the sample is not negative, as samples drawn by
    np.random.rand are. *)
Lemma pf_C74_builtin :
  forall k n d X,
    match k with
    | KGaussian sigma => sigma <> NaN
    | KLaplacian gamma => (0 <= gamma)%R
    | KChi2 gamma => (0 <= gamma)%R /\ forall i j, i < n -> j < d -> (0 <= X i j)%R
    | KPoly degree gamma b => (0 <= gamma)%R /\ (0 <= b)%R /\ (1/100000000 < b ^ degree)%R
    | KLinear => forall i, i < n -> (1/100000000 < inner d (X i) (X i))%R
    | KHadamard alpha => (0 < alpha)%R /\ forall i, i < n -> exists r,
          kernel_call (fun _ _ => None) k DFloat (fvec d (X i)) DFloat (fvec d (X i)) = Ok (Fin r) /\ (1/100000000 < r)%R
    | KSigmoid _ _ => False
    end ->
    exists B, psd n B /\ (forall i, i < n -> B i i = 1%R) /\
      forall eig, solves eig n B -> is_psd eig (builtin k) (rsample n d X) = Ok true.
Proof.
  intros k n d X H. destruct k as [alpha|degree gamma b|sigma|gamma|gamma|gamma offset|].
  - destruct H as [Ha Hd]. apply (pf_C74_true (fun _ _ => None)); [apply pf_C31_psd; exact Ha|exact Hd].
  - destruct H as (Hg & Hb & Hbd). apply (pf_C74_true (fun _ _ => None)); [apply pf_C28_poly; assumption|].
    intros i _. eexists. split; [apply pf_C28_poly_value|]. eapply Rlt_le_trans; [exact Hbd|].
    apply pow_incr. split; [exact Hb|]. assert (0 <= inner d (X i) (X i))%R by (apply rsum_nonneg; intros; apply Rle_0_sqr). nra.
  - apply (pf_C74_true (fun _ _ => None)); [apply pf_C29_gaussian; exact H|]. intros i _. exists 1%R.
    split; [apply (pf_C29_gaussian_range (fun _ _ => None) sigma d (X i) (X i) H)|lra].
  - apply (pf_C74_true (fun _ _ => None)); [apply pf_C29_laplacian; exact H|]. intros i _. exists 1%R.
    split; [apply (pf_C29_laplacian_value (fun _ _ => None) gamma d (X i) (X i) H)|lra].
  - destruct H as [Hg HX]. apply (pf_C74_true (fun _ _ => None)); [apply pf_C30_psd; assumption|]. intros i Hi. exists 1%R.
    split; [|lra]. apply (pf_C30_range (fun _ _ => None) gamma d (X i) (X i) Hg); intros j Hj; apply HX; assumption.
  - destruct H.
  - apply (pf_C74_true (fun _ _ => None)); [apply pf_C28_linear|]. intros i Hi. eexists.
    split; [apply pf_C28_linear_value|]. exact (H i Hi).
Qed.

(** C74: a self-similarity within 1e-8 of zero makes is_psd raise KMNormError, also for kernels that are
    positive semidefinite. *)
Lemma pf_C74_error :
  forall eig (K : kernel xr xr) k x n d i r,
    never_raises K k x None n n d -> kfmt K = true -> admissible x None n n d ->
    i < n -> k (row_of d x i) (row_of d x i) = Fin r -> (Rabs r <= 1/100000000)%R ->
    is_psd eig K x = Raise KMNormError.
Proof.
  intros eig K k x n d i r HK Hf Ha Hi Hk Hr. rewrite (is_psd_eq eig K x n d Ha).
  rewrite (pf_C03_error K k [] [] x n d OpFull i r HK Hf Ha eq_refl (or_introl eq_refl) Hi Hk Hr). reflexivity.
Qed.

(** C74: exactly: with self-similarities above 1e-8, is_psd answers True if and only if the normalised
    matrix B_ij = A_ij / sqrt(A_ii A_jj) satisfies x'Bx >= -1e-6 x'x for all x, and False otherwise. *)
Lemma pf_C74_exact :
  forall eig (K : kernel xr xr) k x n d A,
    never_raises K k x None n n d -> kfmt K = true -> admissible x None n n d ->
    kernel_matrix k n n d x None = rmat n n A -> symmetric n A ->
    (forall j, j < n -> (1/100000000 < A j j)%R) ->
    let B := fun i j => (A i j / sqrt (A i i * A j j))%R in
    solves eig n B ->
    exists b, is_psd eig K x = Ok b /\
      (b = true <-> forall v, (- (1/1000000) * rsum n (fun i => v i * v i) <= quad n B v)%R).
Proof.
  intros eig K k x n d A HK Hf Ha HA Hs Hd B (l & He & Hl). rewrite (is_psd_eq eig K x n d Ha).
  rewrite (pf_C03_one_sample K k [] [] x n d OpFull HK Hf Ha eq_refl (or_introl eq_refl)), HA.
  rewrite (pf_C19_entries "cosine" Dense n A eq_refl Hd). cbn [res_map rbind]. fold B.
  destruct (pf_C26_decides eig Dense n B l psd_tolerance ltac:(discriminate) He Hl) as (b & Hb & Hiff).
  exists b. split; [exact Hb|]. rewrite Hiff.
  assert (HsB : symmetric n B).
  { intros i j Hi Hj. unfold B. rewrite (Hs i j Hi Hj), (Rmult_comm (A i i)). reflexivity. }
  assert (E : forall v, quad n (lowsym B) v = quad n B v).
  { intros v. unfold quad. apply rsum_ext. intros i Hi. apply rsum_ext. intros j Hj. f_equal. f_equal. unfold lowsym.
    destruct (Nat.le_gt_cases i j) as [Hij|Hij].
    - rewrite Nat.max_r, Nat.min_l by lia. apply HsB; assumption.
    - rewrite Nat.max_l, Nat.min_r by lia. reflexivity. }
  split.
  - intros [_ H] v. rewrite <- E. exact (H v).
  - intros H. split.
    + intros i j Hi Hj. rewrite (HsB i j Hi Hj). unfold Rminus. rewrite Rplus_opp_r, Rabs_R0.
      pose proof (Rabs_pos (B j i)). lra.
    + intros v. rewrite E. exact (H v).
Qed.

(** C74: a self-similarity below -1e-8 (so that the kernel is not positive semidefinite), none of them
    within 1e-8 of zero, gives False. *)
Lemma pf_C74_false :
  forall eig (K : kernel xr xr) k x n d A i,
    never_raises K k x None n n d -> kfmt K = true -> admissible x None n n d ->
    kernel_matrix k n n d x None = rmat n n A ->
    (forall j, j < n -> (1/100000000 < Rabs (A j j))%R) ->
    i < n -> (A i i < 0)%R ->
    is_psd eig K x = Ok false.
Proof.
  intros eig K k x n d A i HK Hf Ha HA Hd Hi Hneg. rewrite (is_psd_eq eig K x n d Ha).
  rewrite (pf_C03_one_sample K k [] [] x n d OpFull HK Hf Ha eq_refl (or_introl eq_refl)), HA.
  destruct (pf_C20_negative_diagonal "cosine" Dense n A eq_refl Hd) as (B & HB & HE). rewrite HB. cbn [res_map rbind].
  destruct (HE i i Hi Hi) as [[_ HN]|[Hpos _]]; [|lra].
  assert (HB' : exists f M, B = mkArr f (tabulate n n M) /\ f <> Lil).
  { rewrite (normalize_finite "cosine" Dense n A eq_refl Hd) in HB. injection HB as <-. eexists _, _. split; [reflexivity|discriminate]. }
  destruct HB' as (f & M & -> & Hfm). unfold is_PSD. cbn [amat mr mc tabulate] in *.
  destruct (negb (is_ndarray (mkArr f (tabulate n n M)))) eqn:En; [destruct f; [discriminate|congruence|discriminate]|].
  rewrite Nat.eqb_refl. cbn [negb].
  match goal with |- context [negb (forallb ?g ?l)] => assert (Hfa : forallb g l = false) end.
  { apply not_true_iff_false. intros Hall. rewrite forallb_forall in Hall.
    specialize (Hall i ltac:(apply in_seq; lia)). rewrite forallb_forall in Hall. specialize (Hall i ltac:(apply in_seq; lia)).
    rewrite HN in Hall. discriminate. }
  rewrite Hfa. reflexivity.
Qed.
Lemma for_each_raise : forall {St A} (f : A -> M St unit) a l s s' e,
  f a s = (s', Raise e) -> for_each (a :: l) f s = (s', Raise e).
Proof. intros St A f a l s s' e H. cbn [for_each]. unfold bind. rewrite H. reflexivity. Qed.

Lemma full_first_raises : forall {E V U} (N : numops V) (s : km E V U) xs ys n m x y e,
  k_sample s = Some xs -> k_sample_two s = Some ys -> k_populated s = false -> k_full s = None ->
  k_shape s = Some (S n, S m) -> k_memo s = [] -> nd_row xs 0 = Ok x -> nd_row ys 0 = Ok y ->
  kf (k_kernel s) (length (g_calls s)) x y = Raise e ->
  snd (full N s) = Raise RuntimeError.
Proof.
  intros E V U N s xs ys n m x y e H1 H2 H3 H4 H5 H6 H7 H8 H9.
  assert (HE : forall v, exists s', eval_kernel 0 0 (set_full v s) = (s', Raise e)).
  { intros v. destruct s; cbn in *; subst. unfold eval_kernel. cbn. rewrite H7. cbn. rewrite H8. cbn. rewrite H9.
    eexists. reflexivity. }
  assert (HP : exists s', populate_upper N true s = (s', Raise RuntimeError)).
  { unfold populate_upper, bind at 1, get. rewrite H3, H4. cbn [negb is_some andb when].
    unfold bind at 1, attr_or, bind at 1, get. rewrite H5. cbn [ret fst snd]. unfold bind at 1, modify at 1.
    unfold bind at 1, try_except. cbn [seq].
    destruct (HE (Some (mkArr Dense (mfull (S n) (S m) (v_nan N))))) as [s' Hs'].
    erewrite for_each_raise; [eexists; reflexivity|].
    cbn [seq Nat.sub]. erewrite for_each_raise; [reflexivity|]. unfold bind. rewrite Hs'. reflexivity. }
  destruct HP as [s' HP]. unfold full, bind at 1, get. rewrite H1, H3. cbn [negb when].
  unfold bind at 1. unfold bind at 1. unfold populate_fully. unfold bind at 1. rewrite HP. reflexivity.
Qed.

(** C74: a kernel that raises on its first call, on the first row of the sample, makes is_psd raise
    RuntimeError. *)
Lemma pf_C74_raises :
  forall eig (K : kernel xr xr) x n d e, is_sample x n d -> 1 <= n ->
    kf K 0 (row_of d x 0) (row_of d x 0) = Raise e -> is_psd eig K x = Raise RuntimeError.
Proof.
  intros eig K x n d e Hx Hn He. assert (Ha : admissible x None n n d) by (split; [exact Hx|reflexivity]).
  destruct n as [|n]; [lia|].
  unfold is_psd, bind at 1. rewrite (attach_to_ok _ x None (S n) (S n) d Ha). unfold bind.
  assert (H : snd (full xN (attached (km_new (U:=unit) K true []) x None (S n) (S n) d)) = Raise RuntimeError).
  { apply (full_first_raises xN _ (stored (S n) d x) (stored (S n) d x) n n (row_of d x 0) (row_of d x 0) e); try reflexivity; exact He. }
  destruct (full xN (attached (km_new K true []) x None (S n) (S n) d)) as [s' r]. cbn [snd] in H. subst r. reflexivity.
Qed.

(** C74 is false for MatchCountKernel: on numbers its is_psd raises RuntimeError, whatever is drawn. *)
Lemma pf_C74_match_count :
  forall eig ceqb perc x n d, is_sample x n d -> 1 <= n ->
    is_psd eig (match_kernel ceqb perc DFloat) x = Raise RuntimeError.
Proof.
  intros eig ceqb perc x n d Hx Hn. apply (pf_C74_raises eig _ x n d TypeError Hx Hn).
  cbn [match_kernel kf]. unfold match_call, ensure_type_size, nd_ndim. cbn. rewrite Nat.eqb_refl. reflexivity.
Qed.

(** C74 is false for LinearKernel, which is positive semidefinite: if a row of the draw is zero, is_psd
    raises KMNormError. *)
Lemma pf_C74_refuted :
  exists X, (forall i j, 0 <= X i j < 1)%R /\
    (forall cast n d, psd_on (fun x y => kernel_call cast KLinear DFloat x DFloat y) n d X) /\
    forall eig, is_psd eig (builtin KLinear) (rsample 50 4 X) = Raise KMNormError.
Proof.
  exists (fun i _ => if i =? 7 then 0%R else (1/2)%R). split; [intros i j; destruct (i =? 7); lra|].
  split; [intros; apply pf_C28_linear|]. intros eig.
  apply (pf_C74_error eig (builtin KLinear) xdot (rsample 50 4 _) 50 4 7 0%R).
  - apply linear_total; reflexivity.
  - reflexivity.
  - apply rsample_adm.
  - lia.
  - rewrite rsample_row by lia. cbn. repeat f_equal. lra.
  - rewrite Rabs_R0. lra.
Qed.

(** C74: the draw of zeros shows that SigmoidKernel(offset=-1) is not positive semidefinite. *)
Lemma pf_C74_sigmoid : forall eig, is_psd eig (builtin (KSigmoid 1 (-1))) (rsample 50 4 (fun _ _ => 0%R)) = Ok false.
Proof.
  intros eig.
  assert (HA : finite_on (KSigmoid 1 (-1)) 4 50 50 (fun _ _ => 0%R) (fun _ _ => 0%R) (fun _ _ => tanh (-1))).
  { intros i j _ _. rewrite <- (call_fvec (fun _ _ => None)).
    destruct (pf_C32_range (fun _ _ => None) 1 (-1) 4 (fun _ => 0%R) (fun _ => 0%R)) as (v & -> & -> & _).
    repeat f_equal. unfold inner. cbn [rsum]. lra. }
  assert (Ht : (tanh (-1) < - (1/2))%R).
  { unfold tanh, sinh, cosh. replace (- -1)%R with 1%R by lra.
    pose proof (exp_ineq1 1 ltac:(lra)) as H1. pose proof (exp_pos (-1)) as H2.
    assert (H3 : (exp 1 * exp (-1) = 1)%R) by (rewrite <- exp_plus; replace (1 + -1)%R with 0%R by lra; apply exp_0).
    apply (Rmult_lt_reg_r ((exp (-1) + exp 1) / 2)); [lra|].
    unfold Rdiv at 1. rewrite Rmult_assoc, Rinv_l, Rmult_1_r by lra. nra. }
  apply (pf_C74_false eig _ (valueOf (KSigmoid 1 (-1))) _ 50 4 (fun _ _ => tanh (-1)) 0).
  - exact (rsample_total _ _ _ _ _ HA).
  - reflexivity.
  - apply rsample_adm.
  - apply (rsample_matrix _ _ _ _ _ HA). intros i j _ _. reflexivity.
  - intros j _. rewrite Rabs_left; lra.
  - lia.
  - lra.
Qed.

Lemma two_by_two : forall B : nat -> nat -> R, symmetric 2 B -> (forall i, i < 2 -> B i i = 1%R) ->
  eigenvalues_of 2 B (fun k => match k with 0 => (1 + B 0%nat 1%nat)%R | _ => (1 - B 0%nat 1%nat)%R end).
Proof.
  intros B Hs Hd. exists (fun i k => match i, k with 1, 1 => (- / sqrt 2)%R | _, _ => (/ sqrt 2)%R end).
  assert (H : (/ sqrt 2 * / sqrt 2 = 1/2)%R) by (rewrite <- Rinv_mult, sqrt_sqrt by lra; lra).
  pose proof (Hs 0 1 ltac:(lia) ltac:(lia)) as H01. pose proof (Hd 0 ltac:(lia)) as H00. pose proof (Hd 1 ltac:(lia)) as H11.
  assert (H' : (/ sqrt 2 * / sqrt 2 * B 0%nat 1%nat = 1/2 * B 0%nat 1%nat)%R) by (rewrite H; reflexivity).
  split; [|split]; intros [|[|i]] [|[|j]] Hi Hj; try lia; unfold lowsym; cbn [rsum Nat.eqb Nat.max Nat.min]; lra.
Qed.

(** C74 applies: the Gaussian kernel on the sample [[0], [1]], with the eigenvalues computed by hand. *)
Lemma pf_C74_example : exists eig, is_psd eig (builtin (KGaussian (Fin 1))) (rsample 2 1 (fun i _ => INR i)) = Ok true.
Proof.
  destruct (pf_C74_builtin (KGaussian (Fin 1)) 2 1 (fun i _ => INR i) ltac:(discriminate)) as (B & [Hs _] & Hd & H).
  exists (fun _ => Ok [Fin (1 + B 0%nat 1%nat); Fin (1 - B 0%nat 1%nat)]). apply H. eexists. split; [|exact (two_by_two B Hs Hd)]. reflexivity.
Qed.

(*BEGIN PROP*)
(** A user-defined kernel: 1 between equal numbers, -2 between different ones. *)
Definition indef (u v : list xr) : xr :=
  match u, v with
  | Fin a :: _, Fin b :: _ => Fin (if Req_EM_T a b then 1 else -2)
  | _, _ => NaN
  end.
(*END PROP*)

(** C74_exact applies: on the sample [[0], [1]] this kernel has the matrix [[1, -2], [-2, 1]], with the
    eigenvalues -1 and 3, and is found not to be positive semidefinite. *)
Lemma pf_C74_example_false : forall eig,
  solves eig 2 (fun i j => if i =? j then 1 else -2)%R ->
  is_psd eig (mkKernel (fun _ u v => Ok (indef u v)) true) (rsample 2 1 (fun i _ => INR i)) = Ok false.
Proof.
  intros eig He. set (A := fun i j => (if i =? j then 1 else -2)%R).
  assert (HB : forall i j, (A i j / sqrt (A i i * A j j))%R = A i j).
  { intros i j. unfold A. rewrite !Nat.eqb_refl, Rmult_1_l, sqrt_1. field. }
  destruct (pf_C74_exact eig (mkKernel (fun _ u v => Ok (indef u v)) true) indef (rsample 2 1 (fun i _ => INR i)) 2 1 A)
    as (b & Hb & Hiff).
  - intros t u v _ _. reflexivity.
  - reflexivity.
  - apply rsample_adm.
  - unfold kernel_matrix, rmat. apply tabulate_ext. intros i j Hi Hj. unfold entry.
    destruct i as [|[|i]]; [| |lia]; (destruct j as [|[|j]]; [| |lia]); cbn; unfold A; cbn;
      destruct Req_EM_T; try reflexivity; cbn in *; lra.
  - intros i j _ _. unfold A. rewrite Nat.eqb_sym. reflexivity.
  - intros j _. unfold A. rewrite Nat.eqb_refl. lra.
  - destruct He as (l & E1 & E2). exists l.
    assert (HE : rmat 2 2 (fun i j => (A i j / sqrt (A i i * A j j))%R) = rmat 2 2 A) by (apply rmat_ext; intros; apply HB).
    rewrite HE. split; [exact E1|]. destruct E2 as (Q & Q1 & Q2 & Q3). exists Q. split; [exact Q1|]. split; [exact Q2|].
    intros i j Hi Hj. unfold lowsym. rewrite HB. exact (Q3 i j Hi Hj).
  - rewrite Hb. f_equal. destruct b; [|reflexivity]. exfalso.
    pose proof (proj1 Hiff eq_refl (fun _ => 1%R)) as H. unfold quad in H. cbn [rsum] in H. rewrite !HB in H. unfold A in H. cbn in H. lra.
Qed.
