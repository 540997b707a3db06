(** Kernels with integer parameters on integer data: C107. *)
From Coq Require Import String Reals List Arith ZArith Bool Lia Lra Znumtheory.
Import ListNotations.
From Verif Require Import Prelude MatModel UtilsModel IndexModel KMModel SpecKM XReal OpsModel
  SpecLinAlg KernelsModel SpecKernels KMXModel SpecKMX IntModel SpecInt IntParamModel SpecIntParam.
From Verif Require Import MatFacts MFacts KMFacts KMInv KMHist KMTotal KMProps RSum OpsFacts OpsProps
  PSDFacts KernelFacts KernelProps KMXProps IntProps.
Local Open Scope list_scope.
Local Open Scope Z_scope.

(** ** Congruences *)
Definition cong (t : itype) (a b : Z) : Prop := a mod modulus t = b mod modulus t.

Lemma cong_wrap : forall t z, cong t (wrap t z) z.
Proof. exact wrap_mod. Qed.
Lemma cong_add : forall t a a' b b', cong t a a' -> cong t b b' -> cong t (a + b) (a' + b').
Proof. unfold cong. intros t a a' b b' H1 H2. now rewrite (Zplus_mod a), (Zplus_mod a'), H1, H2. Qed.
Lemma cong_mul : forall t a a' b b', cong t a a' -> cong t b b' -> cong t (a * b) (a' * b').
Proof. unfold cong. intros t a a' b b' H1 H2. now rewrite (Zmult_mod a), (Zmult_mod a'), H1, H2. Qed.
Lemma cong_pow : forall t a a' n, cong t a a' -> cong t (a ^ Z.of_nat n) (a' ^ Z.of_nat n).
Proof.
  intros t a a' n H. induction n as [|n IH]; [reflexivity|].
  rewrite Nat2Z.inj_succ, !Z.pow_succ_r by lia. now apply cong_mul.
Qed.

Lemma affine_wrap : forall u b g D, iadd u b (imul u g D) = wrap u (b + g * D).
Proof.
  intros u b g D. unfold iadd, imul. apply wrap_eq.
  apply (cong_add u b b); [reflexivity|apply cong_wrap].
Qed.

Lemma spow_wrap : forall u z n, 0 <= n -> spow u (wrap u z) n = Ok (wrap u (z ^ n)).
Proof.
  intros u z n Hn. unfold spow. destruct (Z.ltb_spec n 0); [lia|]. f_equal.
  rewrite ipow_eq, Z2Nat.id by exact Hn. apply wrap_eq.
  rewrite <- (Z2Nat.id n) by exact Hn. apply cong_pow, cong_wrap.
Qed.

(** The scalar that the arrays contribute. *)
Definition scalar (t : itype) (k : pkernel) (d : nat) (x y : nat -> Z) : Z :=
  match k with
  | PPoly _ _ _ | PSigmoid _ _ => wrap t (zsum d (fun i => x i * y i))
  | PLaplacian _ => wrap (sum_type t) (zsum d (fun i => iabs t (isub t (x i) (y i))))
  end.
Definition combined (k : pkernel) (D : Z) : Z :=
  match k with
  | PPoly degree gamma b => (b + gamma * D) ^ degree
  | PLaplacian gamma => - gamma * D
  | PSigmoid gamma offset => offset + gamma * D
  end.

Lemma pvalue : forall t u k d x y, natural k ->
  pkernel_value t u k (zvec d x) (zvec d y)
  = Ok (Fin (outer k (IZR (wrap u (combined k (scalar t k d x y)))))).
Proof.
  intros t u k d x y Hk. destruct k; cbn [pkernel_value combined scalar outer natural] in *.
  - rewrite idot_spec, affine_wrap, spow_wrap by exact Hk. reflexivity.
  - rewrite zip_zvec, map_map, isum_spec. reflexivity.
  - rewrite idot_spec, affine_wrap. reflexivity.
Qed.

Lemma scalar_safe : forall t k d x y, data_safe t k d x y ->
  combined k (scalar t k d x y) = integer_of k d x y.
Proof.
  intros t k d x y H. destruct k; cbn [combined scalar integer_of data_safe] in *.
  - now rewrite wrap_id.
  - destruct H as [H Hs]. f_equal.
    rewrite (zsum_ext d _ (fun i => Z.abs (x i - y i))); [now apply wrap_id|].
    intros i Hi. destruct (H i Hi) as [H1 H2]. unfold isub, iabs.
    now rewrite !wrap_id by (rewrite ?wrap_id; assumption).
  - now rewrite wrap_id.
Qed.

Lemma float_value : forall k d x y, natural k ->
  kernel_value (to_float k) (map ofZ (zvec d x)) (map ofZ (zvec d y))
  = Ok (Fin (outer k (IZR (integer_of k d x y)))).
Proof.
  intros k d x y Hk. rewrite !fl_of. destruct k; cbn [to_float outer integer_of natural] in *.
  - etransitivity; [apply poly_value|]. do 2 f_equal. rewrite inner_Z, <- mult_IZR, <- plus_IZR.
    rewrite pow_IZR, Z2Nat.id by exact Hk. reflexivity.
  - etransitivity; [apply laplacian_value|]. do 3 f_equal. rewrite mult_IZR, opp_IZR. f_equal.
    unfold dist1. rewrite IZR_zsum. apply rsum_ext. intros i _. rewrite <- minus_IZR. apply Rabs_Zabs.
  - cbn [kernel_value]. rewrite xdot_fin, inner_Z. cbn [xmul xadd xtanh]. do 3 f_equal.
    now rewrite <- mult_IZR, <- plus_IZR.
Qed.

(** C107: if what the arrays contribute (inner product, or differences and their sum) is representable,
    the kernel computes with r, the representable integer congruent to the exact one modulo 2^bits;
    overflow in between does not matter. *)
Lemma pf_C107_value : forall t u k d x y, natural k -> data_safe t k d x y ->
  exists r, pkernel_value t u k (zvec d x) (zvec d y) = Ok (Fin (outer k (IZR r))) /\
    fits u r /\ (2 ^ bits (i_width u) | r - integer_of k d x y) /\
    (r = integer_of k d x y <-> fits u (integer_of k d x y)).
Proof.
  intros t u k d x y Hk Hd. rewrite (pvalue t u k d x y Hk), (scalar_safe t k d x y Hd).
  eexists. split; [reflexivity|]. split; [apply wrap_fits|]. destruct (modulus_half u) as [Hm Hh]. split.
  - apply Z.mod_divide; [change (modulus u <> 0); lia|]. fold (modulus u).
    rewrite Zminus_mod, wrap_mod, Z.sub_diag. apply Z.mod_0_l. lia.
  - split; [|apply wrap_id]. intros <-. apply wrap_fits.
Qed.

(** C107: for polynomial and sigmoid kernels on arrays of the dtype in which the parameters come in
    (int64, say) no condition on the data is needed. *)
Lemma pf_C107_any : forall t k d x y, natural k -> (forall g, k <> PLaplacian g) ->
  exists r, pkernel_value t t k (zvec d x) (zvec d y) = Ok (Fin (outer k (IZR r))) /\
    fits t r /\ (2 ^ bits (i_width t) | r - integer_of k d x y) /\
    (r = integer_of k d x y <-> fits t (integer_of k d x y)).
Proof.
  intros t k d x y Hk HL. rewrite (pvalue t t k d x y Hk).
  assert (E : wrap t (combined k (scalar t k d x y)) = wrap t (integer_of k d x y)).
  { apply wrap_eq. destruct k; cbn [combined scalar integer_of natural] in *.
    - rewrite <- (Z2Nat.id degree) by exact Hk. apply cong_pow, cong_add; [reflexivity|].
      apply cong_mul; [reflexivity|apply cong_wrap].
    - now destruct (HL gamma).
    - apply cong_add; [reflexivity|]. apply cong_mul; [reflexivity|apply cong_wrap]. }
  rewrite E. eexists. split; [reflexivity|]. split; [apply wrap_fits|]. destruct (modulus_half t) as [Hm Hh]. split.
  - apply Z.mod_divide; [change (modulus t <> 0); lia|]. fold (modulus t).
    rewrite Zminus_mod, wrap_mod, Z.sub_diag. apply Z.mod_0_l. lia.
  - split; [|apply wrap_id]. intros <-. apply wrap_fits.
Qed.

Lemma exact_float : forall t u k d x y, natural k -> data_safe t k d x y -> fits u (integer_of k d x y) ->
  pkernel_value t u k (zvec d x) (zvec d y)
  = kernel_value (to_float k) (map ofZ (zvec d x)) (map ofZ (zvec d y)).
Proof.
  intros t u k d x y Hk Hd Hf. destruct (pf_C107_value t u k d x y Hk Hd) as (r & E & _ & _ & Hr).
  rewrite E, float_value by exact Hk. now rewrite (proj2 Hr Hf).
Qed.

(** C107: a polynomial kernel with integer parameters returns what it returns for float parameters and
    float64 arrays exactly when the polynomial is representable. *)
Lemma pf_C107_poly : forall t degree gamma b d x y, 0 <= degree ->
  pkernel_value t t (PPoly degree gamma b) (zvec d x) (zvec d y)
  = kernel_value (to_float (PPoly degree gamma b)) (map ofZ (zvec d x)) (map ofZ (zvec d y))
  <-> fits t ((b + gamma * zsum d (fun i => x i * y i)) ^ degree).
Proof.
  intros t degree gamma b d x y Hd. set (k := PPoly degree gamma b).
  destruct (pf_C107_any t k d x y Hd) as (r & E & _ & _ & Hr); [discriminate|].
  rewrite E, float_value by exact Hd. cbn [outer integer_of] in *. split.
  - intros H. apply Hr. injection H as H. now apply eq_IZR.
  - intros H. now rewrite (proj2 Hr H).
Qed.

(** C107: a condition on the data. Entries at most B in absolute value, arrays and parameters in a
    signed dtype of N bits, and (|b| + |gamma| d B^2)^degree < 2^(N-1): a polynomial kernel of degree
    at least 1 is exact. *)
Lemma pf_C107_bound : forall t degree gamma b d x y B, i_signed t = true -> 1 <= degree -> 0 <= B ->
  (forall i, (i < d)%nat -> Z.abs (x i) <= B /\ Z.abs (y i) <= B) ->
  (Z.abs b + Z.abs gamma * (Z.of_nat d * (B * B))) ^ degree < 2 ^ (bits (i_width t) - 1) ->
  pkernel_value t t (PPoly degree gamma b) (zvec d x) (zvec d y)
  = kernel_value (to_float (PPoly degree gamma b)) (map ofZ (zvec d x)) (map ofZ (zvec d y)).
Proof.
  intros t degree gamma b d x y B Hs Hd HB Hxy Hlt. apply pf_C107_poly; [lia|].
  set (S := zsum d (fun i => x i * y i)).
  assert (HS : Z.abs S <= Z.of_nat d * (B * B)).
  { apply zsum_bound; [nia|]. intros i Hi. destruct (Hxy i Hi) as [H1 H2]. rewrite Z.abs_mul.
    apply Z.mul_le_mono_nonneg; lia. }
  assert (HA : Z.abs (b + gamma * S) <= Z.abs b + Z.abs gamma * (Z.of_nat d * (B * B))).
  { etransitivity; [apply Z.abs_triangle|]. rewrite Z.abs_mul. apply Z.add_le_mono_l.
    apply Z.mul_le_mono_nonneg_l; [lia|exact HS]. }
  assert (HP : Z.abs ((b + gamma * S) ^ degree) < 2 ^ (bits (i_width t) - 1)).
  { eapply Z.le_lt_trans; [|exact Hlt]. rewrite Z.abs_pow. apply Z.pow_le_mono_l. lia. }
  unfold fits. rewrite Hs. lia.
Qed.

(** C107: a negative degree raises ValueError, for all data. *)
Lemma pf_C107_negative : forall t u degree gamma b x y, degree < 0 ->
  pkernel_value t u (PPoly degree gamma b) x y = Raise ValueError.
Proof.
  intros t u degree gamma b x y H. cbn [pkernel_value]. unfold spow.
  destruct (Z.ltb_spec degree 0); [reflexivity|lia].
Qed.

(** C107: these kernels are symmetric, overflow or not, on signed integers; on unsigned ones the
    polynomial and the sigmoid kernel are. *)
Lemma pf_C107_symmetric : forall t u k x y,
  i_signed t = true \/ (forall g, k <> PLaplacian g) ->
  pkernel_value t u k x y = pkernel_value t u k y x.
Proof.
  intros t u k x y H. destruct k; cbn [pkernel_value].
  - now rewrite idot_sym.
  - destruct H as [H|H]; [|now destruct (H gamma)].
    rewrite !map_zip, (zip_sym (fun a b => iabs t (isub t a b)) x y); [reflexivity|].
    intros a b. now apply isub_abs.
  - now rewrite idot_sym.
Qed.

(** ** Kernel matrices *)

Definition pv (t u : itype) (k : pkernel) (x y : list Z) : xr :=
  match pkernel_value t u k x y with Ok r => r | Raise _ => NaN end.

Lemma pkernel_total : forall t u k n d X, natural k ->
  never_raises (builtin_param t u k) (pv t u k) (zsample n d X) None n n d.
Proof.
  intros t u k n d X Hk s a b (i & Hi) (j & Hj).
  assert (Hi' : (i < n)%nat /\ a = row_of d (zsample n d X) i) by tauto.
  assert (Hj' : (j < n)%nat /\ b = row_of d (zsample n d X) j) by tauto.
  destruct Hi' as [Hi' ->], Hj' as [Hj' ->]. cbn [builtin_param kf].
  rewrite !(row_length d n) by (auto using zsample_len). rewrite Nat.eqb_refl.
  rewrite !zsample_row by assumption. unfold pv. now rewrite pvalue by exact Hk.
Qed.

Lemma zsum_sym : forall d x y, zsum d (fun i => x i * y i) = zsum d (fun i => y i * x i).
Proof. intros. apply zsum_ext. intros. apply Z.mul_comm. Qed.

Lemma integer_sym : forall k d x y, integer_of k d x y = integer_of k d y x.
Proof.
  intros [degree gamma b|gamma|gamma o] d x y; cbn [integer_of]; rewrite ?(zsum_sym d x y); try reflexivity.
  f_equal. apply zsum_ext. intros i _. rewrite <- (Z.abs_opp (x i - y i)). f_equal. ring.
Qed.

(** C107, matrices: on a sample all pairs of rows of which are safe, and for which the integer is
    representable, [full] is the exact kernel matrix, or its cosine normalisation, after any history. *)
Lemma pf_C107_matrix :
  forall {U} t u k (pre post : list (op Z U)) n d X, natural k ->
    (forall i j, (i <= j < n)%nat -> data_safe t k d (X i) (X j) /\ fits u (integer_of k d (X i) (X j))) ->
    no_attach post ->
    (no_full_sparse post -> no_whole_index n n post ->
     outcome xN OpFull (after xN (builtin_param t u k) false pre (zsample n d X) None post)
     = Ok (OArr (mkArr Dense (rmat n n (fun i j => outer k (IZR (integer_of k d (X i) (X j)))))))) /\
    ((forall i, (i < n)%nat -> (1/100000000 < outer k (IZR (integer_of k d (X i) (X i))))%R) ->
     outcome xN OpFull (after xN (builtin_param t u k) true pre (zsample n d X) None post)
     = Ok (OArr (mkArr Dense (rmat n n (fun i j =>
         (outer k (IZR (integer_of k d (X i) (X j)))
          / sqrt (outer k (IZR (integer_of k d (X i) (X i))) * outer k (IZR (integer_of k d (X j) (X j)))))%R))))).
Proof.
  intros U t u k pre post n d X Hk Hsafe Hno.
  assert (Hnr := pkernel_total t u k n d X Hk).
  set (A := fun i j => outer k (IZR (integer_of k d (X i) (X j)))).
  assert (V : forall i j, (i <= j < n)%nat -> pv t u k (zvec d (X i)) (zvec d (X j)) = Fin (A i j)).
  { intros i j Hij. destruct (Hsafe i j Hij) as [H1 H2]. unfold pv.
    destruct (pf_C107_value t u k d (X i) (X j) Hk H1) as (r & E & _ & _ & Hr).
    rewrite E. unfold A. now rewrite (proj2 Hr H2). }
  assert (HM : kernel_matrix (pv t u k) n n d (zsample n d X) None = rmat n n A).
  { apply tabulate_ext. intros i j Hi Hj. unfold entry. rewrite !zsample_row by assumption.
    destruct (Nat.leb_spec i j) as [L|L].
    - apply V. lia.
    - rewrite V by lia. unfold A. do 2 f_equal. rewrite integer_sym. reflexivity. }
  split.
  - intros Hfs Hwi.
    rewrite (pf_C04_full_partial xN (builtin_param t u k) (pv t u k) pre post (zsample n d X) None n n d Hnr
               eq_refl (zsample_adm n d X) Hno Hfs Hwi), HM. reflexivity.
  - intros Hd.
    apply (pf_C03_value (builtin_param t u k) (pv t u k) pre post (zsample n d X) n d OpFull A Hnr eq_refl
             (zsample_adm n d X) Hno (or_introl eq_refl) HM Hd).
Qed.

Lemma poly_psd : forall degree gamma b n d X, 0 <= degree -> 0 <= gamma -> 0 <= b ->
  psd n (fun i j => outer (PPoly degree gamma b) (IZR (integer_of (PPoly degree gamma b) d (X i) (X j)))).
Proof.
  intros degree gamma b n d X Hd Hg Hb. cbn [outer integer_of].
  apply (psd_ext n (fun i j => ((IZR b + IZR gamma * inner d (fun q => IZR (X i q)) (fun q => IZR (X j q))) ^ Z.to_nat degree)%R)).
  { intros i j _ _. rewrite inner_Z, <- mult_IZR, <- plus_IZR, pow_IZR, Z2Nat.id by exact Hd. reflexivity. }
  apply (psd_pow n (fun i j => (IZR b + IZR gamma * inner d (fun q => IZR (X i q)) (fun q => IZR (X j q)))%R)).
  apply (psd_shift_scale n (fun i j => inner d (fun q => IZR (X i q)) (fun q => IZR (X j q)))).
  - now apply IZR_le.
  - now apply IZR_le.
  - apply (psd_inner n d (fun i q => IZR (X i q))).
Qed.

(** C107: with gamma, b >= 0, degree >= 1 and entries at most B in absolute value such that
    (b + gamma d B^2)^degree and d B^2 are below 2^(N-1), a KernelMatrix of the polynomial kernel over
    an N-bit signed sample is positive semidefinite, its entries being the exact values. *)
Lemma pf_C107_psd : forall {U} t degree gamma b (pre post : list (op Z U)) n d X B,
  i_signed t = true -> 1 <= degree -> 0 <= gamma -> 0 <= b -> 0 <= B ->
  (forall i q, (i < n)%nat -> (q < d)%nat -> Z.abs (X i q) <= B) ->
  (b + gamma * (Z.of_nat d * (B * B))) ^ degree < 2 ^ (bits (i_width t) - 1) ->
  Z.of_nat d * (B * B) < 2 ^ (bits (i_width t) - 1) ->
  no_attach post -> no_full_sparse post -> no_whole_index n n post ->
  exists A, psd n A /\
    (forall i j, (i < n)%nat -> (j < n)%nat ->
       A i j = IZR ((b + gamma * zsum d (fun q => X i q * X j q)) ^ degree)) /\
    outcome xN OpFull (after xN (builtin_param t t (PPoly degree gamma b)) false pre (zsample n d X) None post)
    = Ok (OArr (mkArr Dense (rmat n n A))).
Proof.
  intros U t degree gamma b pre post n d X B Hs Hd Hg Hb HB HX H1 H2 Hno Hfs Hwi.
  exists (fun i j => outer (PPoly degree gamma b) (IZR (integer_of (PPoly degree gamma b) d (X i) (X j)))).
  split; [apply poly_psd; lia|]. split; [reflexivity|].
  refine (proj1 (pf_C107_matrix t t (PPoly degree gamma b) pre post n d X _ _ Hno) Hfs Hwi); [cbn; lia|].
  intros i j Hij. cbn [data_safe integer_of].
  set (S := zsum d (fun q => X i q * X j q)).
  assert (HS : Z.abs S <= Z.of_nat d * (B * B)).
  { apply zsum_bound; [nia|]. intros q Hq. rewrite Z.abs_mul.
    assert (K1 := HX i q ltac:(lia) Hq). assert (K2 := HX j q ltac:(lia) Hq). apply Z.mul_le_mono_nonneg; lia. }
  assert (HA : Z.abs (b + gamma * S) <= b + gamma * (Z.of_nat d * (B * B))).
  { etransitivity; [apply Z.abs_triangle|]. rewrite Z.abs_mul, (Z.abs_eq b), (Z.abs_eq gamma) by assumption.
    apply Z.add_le_mono_l. apply Z.mul_le_mono_nonneg_l; [lia|exact HS]. }
  assert (HP : Z.abs ((b + gamma * S) ^ degree) < 2 ^ (bits (i_width t) - 1)).
  { eapply Z.le_lt_trans; [|exact H1]. rewrite Z.abs_pow. apply Z.pow_le_mono_l. lia. }
  unfold fits. rewrite Hs. lia.
Qed.

(*BEGIN PROP*)
(** The dtype of [np.array([[1449]])] and of lists of Python integers. *)
Definition int64 : itype := mkIt W64 true.
(*END PROP*)

Lemma one_full : forall {U} k x r, natural k -> pkernel_value int64 int64 k [x] [x] = Ok (Fin r) ->
  outcome xN OpFull (after xN (builtin_param int64 int64 k) false ([] : list (op Z U)) (zsample 1 1 (fun _ _ => x)) None [])
  = Ok (OArr (mkArr Dense (rmat 1 1 (fun _ _ => r)))).
Proof.
  intros U k x r Hk E.
  rewrite (pf_C04_full_partial xN (builtin_param int64 int64 k) (pv int64 int64 k) [] []
     (zsample 1 1 (fun _ _ => x)) None 1 1 1).
  - do 3 f_equal. apply tabulate_ext. intros i j Hi Hj. unfold entry. rewrite !zsample_row by assumption.
    unfold zvec. cbn [seq map]. unfold pv. rewrite E. destruct (i <=? j)%nat; reflexivity.
  - now apply pkernel_total.
  - reflexivity.
  - apply zsample_adm.
  - reflexivity.
  - intros [].
  - intros ix [].
Qed.

(** C107, without the bounds, is false: PolyKernel(degree=3, gamma=1, b=1) gives the int64 sample
    [[1449]] the self-similarity -9191008615827396408 although gamma, b >= 0, so its KernelMatrix is not positive
    semidefinite; the same kernel with float parameters, PolyKernel(degree=3), is positive there. *)
Lemma pf_C107_psd_refuted : forall {U}, exists x A,
  outcome xN OpFull (after xN (builtin_param int64 int64 (PPoly 3 1 1)) false ([] : list (op Z U))
                       (zsample 1 1 (fun _ _ => x)) None [])
  = Ok (OArr (mkArr Dense (rmat 1 1 A))) /\ ~ psd 1 A /\
  exists r, (0 < r)%R /\ ikernel_value int64 (IPoly 3 1 1) [x] [x] = Ok (Fin r).
Proof.
  intros U. exists 1449, (fun _ _ => IZR (wrap int64 (2099602 ^ 3))). split; [|split].
  - apply one_full; [cbn; lia|].
    assert (E := pvalue int64 int64 (PPoly 3 1 1) 1 (fun _ => 1449) (fun _ => 1449) ltac:(cbn; lia)).
    unfold zvec in E. cbn [seq map] in E. etransitivity; [exact E|]. reflexivity.
  - intros [_ H]. specialize (H (fun _ => 1%R)). unfold quad in H. cbn [rsum] in H.
    assert (N : (IZR (wrap int64 (2099602 ^ 3)) < 0)%R) by (apply (IZR_lt _ 0); vm_compute; reflexivity).
    lra.
  - exists (IZR 2099602 ^ 3)%R. split; [apply pow_lt, (IZR_lt 0); lia|].
    cbn [ikernel_value]. change (idot int64 [1449] [1449]) with 2099601. unfold ofZ.
    cbn [xmul xadd]. rewrite xpow_fin. do 3 f_equal. rewrite Rmult_1_l, <- plus_IZR. reflexivity.
Qed.

(** C107, without the bounds, is false: LaplacianKernel(gamma=2**62) on the int64 numbers 0 and 3
    returns a value above 1, exp(2^62), where exp(-3*2^62) is meant. *)
Lemma pf_C107_laplacian_refuted : exists gamma x y r, 0 < gamma /\ fits int64 gamma /\
  pkernel_value int64 int64 (PLaplacian gamma) [x] [y] = Ok (Fin r) /\ (1 < r)%R.
Proof.
  exists (2 ^ 62), 0, 3, (exp (IZR (2 ^ 62))). split; [lia|]. split; [vm_compute; split; congruence|]. split.
  - assert (E := pvalue int64 int64 (PLaplacian (2 ^ 62)) 1 (fun _ => 0) (fun _ => 3) I).
    unfold zvec in E. cbn [seq map] in E. etransitivity; [exact E|]. reflexivity.
  - rewrite <- exp_0. apply exp_increasing, (IZR_lt 0). lia.
Qed.

(*BEGIN PROP*)
(** C107 on concrete data: PolyKernel(degree=3, gamma=2, b=1) on the int64 sample [[1, 2], [-3, 4]]
    meets the bounds with B = 4; its values are 1331, 1331 and 132651. Degree 0 and an overflow in
    between: (2^32)^2 wraps to 0; 2^62 * 4 + 7 to 7. *)
Example C107_example :
  let X := fun i q => nth q (nth i [[1; 2]; [-3; 4]] []) 0 in
  (forall i q, (i < 2)%nat -> (q < 2)%nat -> Z.abs (X i q) <= 4) /\
  (1 + 2 * (Z.of_nat 2 * (4 * 4))) ^ 3 < 2 ^ 63 /\
  pkernel_value int64 int64 (PPoly 3 2 1) (zvec 2 (X 0%nat)) (zvec 2 (X 1%nat)) = Ok (Fin 1331) /\
  pkernel_value int64 int64 (PPoly 3 2 1) (zvec 2 (X 1%nat)) (zvec 2 (X 1%nat)) = Ok (Fin 132651) /\
  pkernel_value int64 int64 (PPoly 0 2 1) (zvec 2 (X 0%nat)) (zvec 2 (X 1%nat)) = Ok (Fin 1) /\
  pkernel_value int64 int64 (PPoly 2 1 0) [65536] [65536] = Ok (Fin 0) /\
  pkernel_value int64 int64 (PPoly 1 (2 ^ 62) 7) [2] [2] = Ok (Fin 7) /\
  pkernel_value int64 int64 (PPoly (-1) 1 1) [2] [2] = Raise ValueError.
Proof.
  intros X. split.
  { intros [|[|i]] [|[|q]] H1 H2; cbn; lia. }
  split; [vm_compute; reflexivity|]. repeat (split; [reflexivity|]). reflexivity.
Qed.
(*END PROP*)
