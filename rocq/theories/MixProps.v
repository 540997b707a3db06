(** Kernels with integer and float parameters on integer data, and the kernels of the buckets: C112. *)
From Coq Require Import String Reals List Arith ZArith Bool Lia Lra Znumtheory.
Import ListNotations.
From Verif Require Import Prelude MatModel UtilsModel IndexModel KMModel SpecKM XReal OpsModel
  SpecLinAlg KernelsModel SpecKernels KMXModel SpecKMX IntModel SpecInt IntParamModel SpecIntParam MixModel SpecMix
  SetModel BucketModel SpecBucket.
From Verif Require Import MatFacts MFacts KMFacts KMInv KMHist KMTotal KMProps RSum OpsFacts OpsProps
  PSDFacts KernelFacts KernelProps KMXProps IntProps IntParamProps.
Local Open Scope list_scope.
Local Open Scope Z_scope.

(** C112: with float parameters only, these are the kernels of C84. *)
Lemma pf_C112_floats : forall t u n g b o x y,
  mkernel_value t u (MPoly n (PF g) (PF b)) x y = ikernel_value t (IPoly n g b) x y /\
  mkernel_value t u (MLaplacian (PF g)) x y = ikernel_value t (ILaplacian g) x y /\
  mkernel_value t u (MSigmoid (PF g) (PF o)) x y = ikernel_value t (ISigmoid g o) x y.
Proof.
  intros t u n g b o x y. split; [|split; reflexivity]. cbn [mkernel_value ikernel_value pmul padd ppow pval].
  unfold ofZ. cbn [xmul xadd]. rewrite xpow_fin. reflexivity.
Qed.
(** C112: with integer parameters only, these are the kernels of C107. *)
Lemma pf_C112_integers : forall t u n g b o x y,
  mkernel_value t u (MPoly n (PI g) (PI b)) x y = pkernel_value t u (PPoly (Z.of_nat n) g b) x y /\
  mkernel_value t u (MLaplacian (PI g)) x y = pkernel_value t u (PLaplacian g) x y /\
  mkernel_value t u (MSigmoid (PI g) (PI o)) x y = pkernel_value t u (PSigmoid g o) x y.
Proof.
  intros t u n g b o x y. split; [|split; reflexivity]. cbn [mkernel_value pkernel_value pmul padd ppow pval].
  unfold spow. destruct (Z.ltb_spec (Z.of_nat n) 0); [lia|]. rewrite Nat2Z.id. reflexivity.
Qed.

(** C112: where the integers of the formula are representable, a kernel returns what it returns for float
    parameters and float64 arrays. *)
Lemma pf_C112_exact : forall t u k d x y, mix_safe t u k d x y ->
  mkernel_value t u k (zvec d x) (zvec d y)
  = kernel_value (to_nk k) (map ofZ (zvec d x)) (map ofZ (zvec d y)).
Proof.
  intros t u k d x y H. destruct k as [n g b|g|g o|k]; cbn [mix_safe] in H.
  - destruct g as [g|g].
    + destruct b as [b|b].
      * destruct H as [Hd Hf]. rewrite (proj1 (pf_C112_integers t u n g b 0 _ _)).
        rewrite exact_float; [|apply Nat2Z.is_nonneg|exact Hd|exact Hf].
        cbn [to_float to_nk]. rewrite Nat2Z.id. reflexivity.
      * destruct H as [Hd Hf]. cbn [mkernel_value pmul padd ppow to_nk pval]. rewrite idot_spec, wrap_id by exact Hd.
        unfold imul. rewrite wrap_id by exact Hf. rewrite !fl_of. rewrite poly_value, inner_Z, <- mult_IZR. reflexivity.
    + cbn [mkernel_value to_nk pmul]. rewrite idot_spec, wrap_id by exact H. rewrite !fl_of, poly_value, inner_Z.
      destruct b; reflexivity.
  - destruct H as (H1 & H2 & H3). destruct g as [g|g].
    + rewrite (proj1 (proj2 (pf_C112_integers t u 0 g 0 0 _ _))).
      apply (exact_float t u (PLaplacian g)); [exact I|split; [exact H1|exact H2]|exact H3].
    + rewrite (proj1 (proj2 (pf_C112_floats t u 0 g 0 0 _ _))).
      apply (pf_C84_exact t (ILaplacian g)). split; assumption.
  - destruct g as [g|g].
    + destruct o as [o|o].
      * rewrite (proj2 (proj2 (pf_C112_integers t u 0 g 0 o _ _))).
        apply (exact_float t u (PSigmoid g o)); [exact I|apply H|apply H].
      * destruct H as [Hd Hf]. cbn [mkernel_value pmul padd to_nk pval]. rewrite idot_spec, wrap_id by exact Hd.
        unfold imul. rewrite wrap_id by exact Hf. rewrite !fl_of. cbn [kernel_value].
        rewrite xdot_fin, inner_Z, mult_IZR. reflexivity.
    + cbn [mkernel_value to_nk pmul]. rewrite idot_spec, wrap_id by exact H. rewrite !fl_of.
      cbn [kernel_value]. rewrite xdot_fin, inner_Z. destruct o; reflexivity.
  - apply pf_C84_exact. exact H.
Qed.

Lemma tanh_inj : forall a b, tanh a = tanh b -> a = b.
Proof.
  assert (F : forall r, tanh r = (1 - 2 / (exp (2 * r) + 1))%R).
  { intros r. unfold tanh, sinh, cosh. replace (2 * r)%R with (r + r)%R by ring. rewrite exp_plus, exp_Ropp.
    assert (P := exp_pos r). field. nra. }
  intros a b H. rewrite !F in H. assert (Pa := exp_pos (2 * a)). assert (Pb := exp_pos (2 * b)).
  assert (E : (/ (exp (2 * a) + 1) = / (exp (2 * b) + 1))%R) by (unfold Rdiv in H; lra).
  apply (f_equal Rinv) in E. rewrite !Rinv_inv in E. assert (E' : exp (2 * a) = exp (2 * b)) by lra.
  apply exp_inv in E'. lra.
Qed.

Lemma wrapped : forall t a b, a mod modulus t = b mod modulus t ->
  fits t (wrap t a) /\ (2 ^ bits (i_width t) | wrap t a - b) /\ (wrap t a = b <-> fits t b).
Proof.
  intros t a b H. split; [apply wrap_fits|]. destruct (modulus_half t) as [Hm Hh]. split.
  - apply Z.mod_divide; [change (modulus t <> 0); lia|]. fold (modulus t).
    rewrite Zminus_mod, wrap_mod, H, Z.sub_diag. apply Z.mod_0_l. lia.
  - rewrite (wrap_eq t a b H). split; [intros <-; apply wrap_fits|apply wrap_id].
Qed.

(** C112: an integer gamma and a float offset or b, on arrays of the dtype in which gamma comes in (int64,
    say): the kernel computes with r, the representable integer congruent to gamma times the inner product
    modulo 2^bits. A sigmoid kernel is right exactly if this product is representable. *)
Lemma pf_C112_value : forall t g o n b d x y, let p := g * zsum d (fun i => x i * y i) in
  exists r, fits t r /\ (2 ^ bits (i_width t) | r - p) /\ (r = p <-> fits t p) /\
    mkernel_value t t (MSigmoid (PI g) (PF o)) (zvec d x) (zvec d y) = Ok (Fin (tanh (o + IZR r))) /\
    mkernel_value t t (MPoly n (PI g) (PF b)) (zvec d x) (zvec d y) = Ok (Fin ((b + IZR r) ^ n)) /\
    (mkernel_value t t (MSigmoid (PI g) (PF o)) (zvec d x) (zvec d y)
     = kernel_value (KSigmoid (IZR g) o) (map ofZ (zvec d x)) (map ofZ (zvec d y)) <-> fits t p).
Proof.
  intros t g o n b d x y p.
  destruct (wrapped t (g * wrap t (zsum d (fun i => x i * y i))) p) as (W1 & W2 & W3).
  { apply (cong_mul t g g); [reflexivity|apply cong_wrap]. }
  eexists. split; [exact W1|]. split; [exact W2|]. split; [exact W3|].
  cbn [mkernel_value pmul padd ppow pval]. rewrite idot_spec. unfold imul. split; [reflexivity|]. split; [reflexivity|].
  rewrite !fl_of. cbn [kernel_value]. rewrite xdot_fin, inner_Z. cbn [xmul xadd xtanh]. rewrite <- mult_IZR. fold p.
  rewrite <- W3. split; intros H.
  - injection H as H. apply tanh_inj in H. apply eq_IZR. lra.
  - rewrite H. reflexivity.
Qed.

(** C112: these kernels are symmetric, overflow or not, on signed integers. *)
Lemma pf_C112_symmetric : forall t u k x y, i_signed t = true -> mkernel_value t u k x y = mkernel_value t u k y x.
Proof.
  intros t u k x y Hs. destruct k as [n g b|g|g o|k].
  - cbn [mkernel_value]. now rewrite idot_sym.
  - destruct g as [g|g].
    + rewrite !(proj1 (proj2 (pf_C112_integers t u 0 g 0 0 _ _))). apply pf_C107_symmetric. now left.
    + rewrite !(proj1 (proj2 (pf_C112_floats t u 0 g 0 0 _ _))). apply pf_C84_symmetric. now left.
  - cbn [mkernel_value]. now rewrite idot_sym.
  - apply pf_C84_symmetric. now left.
Qed.

(** ** The buckets *)

Lemma py_power_val : forall e, pval (py_power e) = two_pow e.
Proof.
  intros e. unfold py_power, two_pow. destruct (Z.leb_spec 0 e) as [H|H]; [|reflexivity]. cbn [pval].
  rewrite <- (Z2Nat.id e) by exact H. rewrite <- pow_powerRZ, <- pow_IZR. reflexivity.
Qed.

(** C112: the kernels of the strategies, as config.py writes their parameters, are those of C48. *)
Lemma pf_C112_strategies : map to_nk exhaustive_mix = exhaustive_kernels /\ map to_nk light_mix = light_kernels.
Proof.
  unfold exhaustive_mix, light_mix, bucket_mix, exhaustive_kernels, light_kernels.
  split; cbn [map odd_range app to_nk to_nkernel]; rewrite !py_power_val; reflexivity.
Qed.

(** C112: every kernel of these buckets is exact on signed integers of at most B in absolute value, d features, if
    d B^2, 2 B, 32 d B^2 and 64 d B are small enough. *)
Lemma pf_C112_bucket : forall t u k d x y B, i_signed t = true -> i_signed u = true -> 0 <= B ->
  (forall i, (i < d)%nat -> Z.abs (x i) <= B /\ Z.abs (y i) <= B) ->
  Z.of_nat d * (B * B) < 2 ^ (bits (i_width t) - 1) -> 2 * B < 2 ^ (bits (i_width t) - 1) ->
  32 * (Z.of_nat d * (B * B)) < 2 ^ (bits (i_width u) - 1) -> 64 * (Z.of_nat d * B) < 2 ^ (bits (i_width u) - 1) ->
  In k (exhaustive_mix ++ light_mix) ->
  mix_safe t u k d x y /\
  mkernel_value t u k (zvec d x) (zvec d y) = kernel_value (to_nk k) (map ofZ (zvec d x)) (map ofZ (zvec d y)).
Proof.
  intros t u k d x y B Ht Hu HB Hxy H1 H2 H3 H4 Hk.
  assert (S : mix_safe t u k d x y); [|split; [exact S|now apply pf_C112_exact]].
  assert (Hf : forall s z, i_signed s = true -> Z.abs z < 2 ^ (bits (i_width s) - 1) -> fits s z).
  { intros s z Hs Hz. unfold fits. rewrite Hs. lia. }
  assert (W : 2 ^ (bits (i_width u) - 1) <= 2 ^ 63) by (apply Z.pow_le_mono_r; [lia|destruct (i_width u); cbn; lia]).
  assert (D : Z.abs (zsum d (fun i => x i * y i)) <= Z.of_nat d * (B * B)).
  { apply zsum_bound; [nia|]. intros i Hi. destruct (Hxy i Hi) as [X Y]. rewrite Z.abs_mul. apply Z.mul_le_mono_nonneg; lia. }
  assert (A : Z.abs (zsum d (fun i => Z.abs (x i - y i))) <= Z.of_nat d * (2 * B)).
  { apply zsum_bound; [lia|]. intros i Hi. destruct (Hxy i Hi) as [X Y]. lia. }
  assert (Hdot : fits t (zsum d (fun i => x i * y i))) by (apply Hf; [exact Ht|lia]).
  assert (Hsig : forall g, 0 <= g <= 32 -> fits t (zsum d (fun i => x i * y i)) /\ fits u (g * zsum d (fun i => x i * y i))).
  { intros g Hg. split; [exact Hdot|]. apply Hf; [exact Hu|]. rewrite Z.abs_mul. nia. }
  assert (Hlap0 : (forall i, (i < d)%nat -> fits t (x i - y i) /\ fits t (Z.abs (x i - y i))) /\
                  fits (sum_type t) (zsum d (fun i => Z.abs (x i - y i)))).
  { split.
    - intros i Hi. destruct (Hxy i Hi) as [X Y]. split; apply Hf; (exact Ht || lia).
    - apply Hf; [exact Ht|]. cbn [sum_type i_width bits]. change (64 - 1) with 63. lia. }
  assert (Hlap : forall g, 0 <= g <= 32 -> mix_safe t u (MLaplacian (PI g)) d x y).
  { intros g Hg. cbn [mix_safe]. split; [apply Hlap0|]. split; [apply Hlap0|]. apply Hf; [exact Hu|].
    rewrite Z.abs_mul, Z.abs_opp. nia. }
  assert (HlapF : forall g, mix_safe t u (MLaplacian (PF g)) d x y).
  { intros g. cbn [mix_safe]. split; [apply Hlap0|]. split; [apply Hlap0|exact I]. }
  assert (HG : forall s, mix_safe t u (MOther (IGaussian s)) d x y).
  { intros s. apply (pf_C84_safe t (IGaussian s) d x y B Ht HB Hxy). exact H2. }
  unfold exhaustive_mix, light_mix, bucket_mix in Hk. cbn [map odd_range app In] in Hk.
  repeat (destruct Hk as [<-|Hk]; [first [exact Hdot|apply HG|apply HlapF|apply Hlap; cbn; lia|apply Hsig; cbn; lia]|]).
  destruct Hk.
Qed.

(** ** Matrices *)
Definition mvalue (t u : itype) (k : mkernel) (v w : list Z) : xr :=
  match mkernel_value t u k v w with Ok r => r | Raise _ => NaN end.

Lemma mkernel_total : forall t u k n d X A,
  finite_on (to_nk k) d n n (fun i q => IZR (X i q)) (fun i q => IZR (X i q)) A ->
  never_raises (builtin_mix t u k) (mvalue t u k) (zsample n d X) None n n d.
Proof.
  intros t u k n d X A HA s v w (i & Hi) (j & Hj).
  assert (Hi' : (i < n)%nat /\ v = row_of d (zsample n d X) i) by tauto.
  assert (Hj' : (j < n)%nat /\ w = row_of d (zsample n d X) j) by tauto.
  destruct Hi' as [Hi' ->], Hj' as [Hj' ->]. cbn [builtin_mix kf].
  rewrite !(row_length d n) by (auto using zsample_len). rewrite Nat.eqb_refl.
  rewrite !zsample_row by assumption. unfold mvalue.
  destruct k as [| | |[]]; try reflexivity. cbn [mkernel_value ikernel_value]. rewrite !fl_of.
  specialize (HA i j Hi' Hj'). cbn [to_nk to_nkernel] in HA. rewrite HA. reflexivity.
Qed.

Lemma mkernel_matrix : forall t u k n d X A,
  finite_on (to_nk k) d n n (fun i q => IZR (X i q)) (fun i q => IZR (X i q)) A ->
  (forall i j, (i <= j < n)%nat -> mix_safe t u k d (X i) (X j)) ->
  kernel_matrix (mvalue t u k) n n d (zsample n d X) None = rmat n n A.
Proof.
  intros t u k n d X A HA Hsafe.
  assert (Hs : symmetric n A).
  { intros i j Hi Hj. assert (E := HA i j Hi Hj). rewrite value_sym, (HA j i Hj Hi) in E. injection E as E. now symmetry. }
  assert (V : forall i j, (i <= j < n)%nat -> mvalue t u k (zvec d (X i)) (zvec d (X j)) = Fin (A i j)).
  { intros i j Hij. unfold mvalue. rewrite pf_C112_exact by now apply Hsafe. rewrite !fl_of.
    rewrite (HA i j) by lia. reflexivity. }
  apply tabulate_ext. intros i j Hi Hj. unfold entry. rewrite !zsample_row by assumption.
  destruct (Nat.leb_spec i j) as [L|L].
  - apply V. lia.
  - rewrite V by lia. f_equal. now apply Hs.
Qed.

(** C112, matrices: on an integer sample all pairs of rows of which are safe, [full] is the kernel matrix of the
    sample converted to float64, or its cosine normalisation, after any history. *)
Lemma pf_C112_matrix :
  forall {U} t u k (pre post : list (op Z U)) n d X A,
    finite_on (to_nk k) d n n (fun i q => IZR (X i q)) (fun i q => IZR (X i q)) A ->
    (forall i j, (i <= j < n)%nat -> mix_safe t u k d (X i) (X j)) -> no_attach post ->
    (no_full_sparse post -> no_whole_index n n post ->
     outcome xN OpFull (after xN (builtin_mix t u k) false pre (zsample n d X) None post)
     = Ok (OArr (mkArr Dense (rmat n n A)))) /\
    ((forall i, (i < n)%nat -> (1/100000000 < A i i)%R) ->
     outcome xN OpFull (after xN (builtin_mix t u k) true pre (zsample n d X) None post)
     = Ok (OArr (mkArr Dense (rmat n n (fun i j => (A i j / sqrt (A i i * A j j))%R))))).
Proof.
  intros U t u k pre post n d X A HA Hsafe Hno.
  assert (Hnr := mkernel_total t u k n d X A HA). assert (HM := mkernel_matrix t u k n d X A HA Hsafe). split.
  - intros Hfs Hwi.
    rewrite (pf_C04_full_partial xN (builtin_mix t u k) (mvalue t u k) pre post (zsample n d X) None n n d Hnr
               eq_refl (zsample_adm n d X) Hno Hfs Hwi), HM. reflexivity.
  - intros Hd.
    apply (pf_C03_value (builtin_mix t u k) (mvalue t u k) pre post (zsample n d X) n d OpFull A Hnr eq_refl
             (zsample_adm n d X) Hno (or_introl eq_refl) HM Hd).
Qed.

(** C112, without the bounds, is false for the kernels of the exhaustive bucket: its LaplacianKernel(gamma=32) gives
    the int64 numbers 0 and 2^59 the similarity 1, and its SigmoidKernel(gamma=32) gives 2^29 and itself a negative
    one, where the exact values are below 1 and positive. *)
Lemma pf_C112_bucket_refuted :
  (exists k x y r, In k exhaustive_mix /\ fits int64 x /\ fits int64 y /\ x <> y /\
     mkernel_value int64 int64 k [x] [y] = Ok (Fin 1) /\
     kernel_value (to_nk k) [ofZ x] [ofZ y] = Ok (Fin r) /\ (r < 1)%R) /\
  (exists k x r r', In k exhaustive_mix /\ fits int64 x /\
     mkernel_value int64 int64 k [x] [x] = Ok (Fin r) /\
     kernel_value (to_nk k) [ofZ x] [ofZ x] = Ok (Fin r') /\ (r < 0 < r')%R).
Proof.
  assert (P5 : py_power 5 = PI 32) by reflexivity.
  split.
  - exists (MLaplacian (PI 32)), 0, (2 ^ 59).
    assert (E := laplacian_value 1 (fun _ => IZR 0) (fun _ => IZR (2 ^ 59)) (IZR 32)). unfold fl in E. cbn [map seq] in E.
    eexists. split; [|split; [|split; [|split; [|split; [|split; [exact E|]]]]]].
    + unfold exhaustive_mix, bucket_mix. right. rewrite !in_app_iff. right. right. left.
      cbn [odd_range map In]. right. right. right. right. right. left. reflexivity.
    + unfold fits. cbn. lia.
    + unfold fits. cbn. lia.
    + lia.
    + transitivity (Ok (Fin (exp (IZR 0)))); [vm_compute; reflexivity|]. rewrite exp_0. reflexivity.
    + rewrite <- exp_0. apply exp_increasing. unfold dist1. cbn [rsum]. rewrite Rminus_0_l, Rabs_Ropp, Rabs_pos_eq by (apply IZR_le; lia).
      assert (0 < IZR (2 ^ 59))%R by (apply IZR_lt; lia). lra.
  - exists (MSigmoid (PI 32) (PF 1)), (2 ^ 29).
    exists (tanh (1 + IZR (- 2 ^ 63))), (tanh (1 + 32 * (IZR (2 ^ 29) * IZR (2 ^ 29)))).
    split; [|split; [|split; [|split]]].
    + unfold exhaustive_mix, bucket_mix. right. rewrite !in_app_iff. right. right. right. left.
      cbn [odd_range map In]. right. right. right. right. right. left. reflexivity.
    + unfold fits. cbn. lia.
    + cbn [mkernel_value pmul padd pval]. replace (imul int64 32 (idot int64 [2 ^ 29] [2 ^ 29])) with (- 2 ^ 63) by reflexivity. reflexivity.
    + cbn. do 3 f_equal. ring.
    + assert (N := IZR_lt (- 2 ^ 63) (-2) ltac:(lia)).
      split; [apply tanh_neg; lra|].
      replace (tanh (1 + 32 * (IZR (2 ^ 29) * IZR (2 ^ 29)))) with (- tanh (- (1 + 32 * (IZR (2 ^ 29) * IZR (2 ^ 29)))))%R.
      * assert (Q : (tanh (- (1 + 32 * (IZR (2 ^ 29) * IZR (2 ^ 29)))) < 0)%R).
        { apply tanh_neg. assert (0 < IZR (2 ^ 29))%R by (apply IZR_lt; lia). nra. }
        lra.
      * unfold tanh, sinh, cosh. rewrite Ropp_involutive. set (a := (1 + 32 * (IZR (2 ^ 29) * IZR (2 ^ 29)))%R).
        assert (A1 := exp_pos a). assert (A2 := exp_pos (- a)). field. lra.
Qed.

(** C112: the bounds are met by int64 points of two features of at most 1000, and, before numpy 2, by int8 points of
    two features of at most 7. *)
Lemma pf_C112_example :
  (let B := 1000 in 2 * (B * B) < 2 ^ (bits (i_width int64) - 1) /\ 2 * B < 2 ^ (bits (i_width int64) - 1) /\
     32 * (2 * (B * B)) < 2 ^ (bits (i_width int64) - 1) /\ 64 * (2 * B) < 2 ^ (bits (i_width int64) - 1)) /\
  (let B := 7 in 2 * (B * B) < 2 ^ (bits (i_width int8) - 1) /\ 2 * B < 2 ^ (bits (i_width int8) - 1) /\
     32 * (2 * (B * B)) < 2 ^ (bits (i_width int64) - 1) /\ 64 * (2 * B) < 2 ^ (bits (i_width int64) - 1)) /\
  In (MSigmoid (PI 32) (PF 1)) exhaustive_mix /\ In (MLaplacian (PF (powerRZ 2 (-5)))) exhaustive_mix /\
  mkernel_value int64 int64 (MSigmoid (PI 32) (PF 1)) [1; 2] [-3; 4] = Ok (Fin (tanh 161)) /\
  mkernel_value int8 int8 (MSigmoid (PI 32) (PF 1)) [1; 2] [-3; 4] = Ok (Fin (tanh (-95))).
Proof.
  cbv zeta. cbn [i_width bits int64 int8].
  split; [|split; [|split; [|split; [|split]]]].
  - repeat split; reflexivity.
  - repeat split; reflexivity.
  - unfold exhaustive_mix, bucket_mix. right. rewrite !in_app_iff. right. right. right. left.
    cbn [odd_range map In]. right. right. right. right. right. left. reflexivity.
  - unfold exhaustive_mix, bucket_mix. right. rewrite !in_app_iff. right. right. left. left. reflexivity.
  - cbn [mkernel_value pmul padd pval]. replace (imul int64 32 (idot int64 [1; 2] [-3; 4])) with 160 by reflexivity.
    cbn [xtanh]. do 3 f_equal; lra.
  - cbn [mkernel_value pmul padd pval]. replace (imul int8 32 (idot int8 [1; 2] [-3; 4])) with (-96) by reflexivity.
    cbn [xtanh]. do 3 f_equal; lra.
Qed.
