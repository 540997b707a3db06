(** Kernels on integer data: C84. *)
From Coq Require Import String Reals List Arith ZArith Bool Lia Lra Znumtheory.
Import ListNotations.
From Verif Require Import Prelude MatModel UtilsModel IndexModel KMModel SpecKM XReal OpsModel
  SpecLinAlg KernelsModel SpecKernels KMXModel SpecKMX IntModel SpecInt.
From Verif Require Import MatFacts MFacts KMFacts KMInv KMHist KMTotal KMProps RSum OpsFacts OpsProps
  PSDFacts KernelFacts KernelProps KMXProps.
Local Open Scope list_scope.
Local Open Scope Z_scope.

(** ** Wrapping *)
Definition modulus (t : itype) : Z := 2 ^ bits (i_width t).
Definition half (t : itype) : Z := 2 ^ (bits (i_width t) - 1).

Lemma modulus_half : forall t, modulus t = 2 * half t /\ 128 <= half t.
Proof. intros [[| | |] s]; vm_compute; split; congruence. Qed.

Lemma wrap_mod : forall t z, wrap t z mod modulus t = z mod modulus t.
Proof.
  intros t z. unfold wrap. fold (modulus t) (half t). destruct (modulus_half t) as [Hm Hh].
  destruct (i_signed t && (half t <=? z mod modulus t)).
  - replace (z mod modulus t - modulus t) with (z mod modulus t + (-1) * modulus t) by ring.
    rewrite Z_mod_plus_full. apply Z.mod_mod. lia.
  - apply Z.mod_mod. lia.
Qed.

Lemma wrap_fits : forall t z, fits t (wrap t z).
Proof.
  intros t z. unfold fits, wrap. fold (modulus t) (half t). destruct (modulus_half t) as [Hm Hh].
  assert (B := Z.mod_pos_bound z (modulus t)). destruct (i_signed t); cbn [andb]; [|lia].
  destruct (Z.leb_spec (half t) (z mod modulus t)); lia.
Qed.

Lemma fits_unique : forall t a b, fits t a -> fits t b -> a mod modulus t = b mod modulus t -> a = b.
Proof.
  intros t a b Ha Hb H. unfold fits in *. fold (modulus t) (half t) in *.
  destruct (modulus_half t) as [Hm Hh].
  assert (E1 := Z.div_mod a (modulus t)). assert (E2 := Z.div_mod b (modulus t)).
  assert (Hq : (a / modulus t - b / modulus t) * modulus t = a - b) by lia.
  set (q := a / modulus t - b / modulus t) in *. clearbody q.
  assert (- modulus t < a - b < modulus t) by (destruct (i_signed t); lia).
  assert (q = 0) by nia. subst q. lia.
Qed.

Lemma wrap_eq : forall t a b, a mod modulus t = b mod modulus t -> wrap t a = wrap t b.
Proof. intros t a b H. unfold wrap. fold (modulus t). now rewrite H. Qed.

Lemma wrap_id : forall t z, fits t z -> wrap t z = z.
Proof. intros t z H. apply (fits_unique t); [apply wrap_fits|exact H|apply wrap_mod]. Qed.

Lemma wrap_add : forall t a b c, a mod modulus t = b mod modulus t -> wrap t (a + c) = wrap t (b + c).
Proof.
  intros t a b c H. apply wrap_eq.
  rewrite (Zplus_mod a), (Zplus_mod b), H. reflexivity.
Qed.
Lemma wrap_mul : forall t a b c, a mod modulus t = b mod modulus t -> wrap t (c * a) = wrap t (c * b).
Proof.
  intros t a b c H. apply wrap_eq. rewrite (Zmult_mod c a), (Zmult_mod c b), H. reflexivity.
Qed.

Lemma fits_small : forall t z, 0 <= z < 128 -> fits t z.
Proof.
  intros t z Hz. unfold fits. fold (modulus t) (half t). destruct (modulus_half t) as [Hm Hh].
  destruct (i_signed t); lia.
Qed.

Lemma ipow_eq : forall t a n, ipow t a n = wrap t (a ^ Z.of_nat n).
Proof.
  intros t a n. induction n as [|n IH].
  - cbn. symmetry. apply wrap_id, fits_small. lia.
  - cbn [ipow]. rewrite IH. unfold imul. rewrite Nat2Z.inj_succ, Z.pow_succ_r by lia.
    apply wrap_mul, wrap_mod.
Qed.

(** ** Sums *)
Lemma zsum_ext : forall d f g, (forall i, (i < d)%nat -> f i = g i) -> zsum d f = zsum d g.
Proof. induction d as [|d IH]; intros f g H; [reflexivity|]. cbn. rewrite (IH f g), H; auto. Qed.

Lemma IZR_zsum : forall d f, IZR (zsum d f) = rsum d (fun i => IZR (f i)).
Proof.
  induction d as [|d IH]; intros f; [reflexivity|]. cbn [zsum]. rewrite plus_IZR, IH.
  reflexivity.
Qed.

Lemma fold_wrap : forall {A} t (g : A -> Z) l a b, a mod modulus t = b mod modulus t ->
  (fold_left (fun acc x => iadd t acc (g x)) l a) mod modulus t
  = (fold_left (fun acc x => acc + g x) l b) mod modulus t.
Proof.
  intros A t g l. induction l as [|x l IH]; intros a b H; [exact H|]. cbn [fold_left]. apply IH.
  unfold iadd. rewrite wrap_mod, (Zplus_mod a), (Zplus_mod b), H. reflexivity.
Qed.

Lemma fold_fits : forall {A} t (g : A -> Z) l a, fits t a ->
  fits t (fold_left (fun acc x => iadd t acc (g x)) l a).
Proof.
  intros A t g l. induction l as [|x l IH]; intros a H; [exact H|]. cbn [fold_left]. apply IH, wrap_fits.
Qed.

Lemma fold_zsum : forall d (f : nat -> Z), fold_left (fun acc i => acc + f i) (seq 0 d) 0 = zsum d f.
Proof.
  induction d as [|d IH]; intros f; [reflexivity|]. rewrite seq_S, fold_left_app, IH. reflexivity.
Qed.

Lemma fold_left_map : forall {A B C} (f : C -> B -> C) (g : A -> B) l a,
  fold_left f (map g l) a = fold_left (fun acc x => f acc (g x)) l a.
Proof. intros A B C f g l. induction l as [|x l IH]; intros a; [reflexivity|]. apply IH. Qed.

Lemma combine_zvec : forall d x y,
  combine (zvec d x) (zvec d y) = map (fun i => (x i, y i)) (seq 0 d).
Proof.
  intros d x y. unfold zvec. generalize (seq 0 d). intros l.
  induction l as [|i l IH]; [reflexivity|]. cbn. now rewrite IH.
Qed.

Lemma zip_zvec : forall {B} (f : Z -> Z -> B) d x y,
  zip f (zvec d x) (zvec d y) = map (fun i => f (x i) (y i)) (seq 0 d).
Proof. intros. unfold zip. now rewrite combine_zvec, map_map. Qed.

Lemma idot_spec : forall t d x y, idot t (zvec d x) (zvec d y) = wrap t (zsum d (fun i => x i * y i)).
Proof.
  intros t d x y. unfold idot. rewrite combine_zvec, fold_left_map. cbn [fst snd].
  apply (fits_unique t); [|apply wrap_fits|].
  - apply (fold_fits t (fun i => imul t (x i) (y i))). apply fits_small. lia.
  - rewrite (fold_wrap t (fun i => imul t (x i) (y i)) (seq 0 d) 0 0 eq_refl), wrap_mod, <- fold_zsum.
    generalize (seq 0 d) as l. intros l.
    assert (G : forall a b, a mod modulus t = b mod modulus t ->
      fold_left (fun acc i => acc + imul t (x i) (y i)) l a mod modulus t
      = fold_left (fun acc i => acc + x i * y i) l b mod modulus t).
    { induction l as [|i l IH]; intros a b H; [exact H|]. cbn [fold_left]. apply IH.
      rewrite (Zplus_mod a), (Zplus_mod b), H. unfold imul. now rewrite wrap_mod. }
    now apply G.
Qed.

Lemma isum_spec : forall t d f, isum t (map f (seq 0 d)) = wrap (sum_type t) (zsum d f).
Proof.
  intros t d f. unfold isum. fold (sum_type t). rewrite fold_left_map.
  apply (fits_unique (sum_type t)); [|apply wrap_fits|].
  - apply (fold_fits (sum_type t) f). apply fits_small. lia.
  - rewrite (fold_wrap (sum_type t) f (seq 0 d) 0 0 eq_refl), wrap_mod, <- fold_zsum. reflexivity.
Qed.

(** ** Agreement with the arithmetic of real numbers *)

Lemma fl_of : forall d x, map ofZ (zvec d x) = map (fun k => Fin (IZR (x k))) (seq 0 d).
Proof. intros. unfold zvec. now rewrite map_map. Qed.

Lemma inner_Z : forall d x y,
  inner d (fun k => IZR (x k)) (fun k => IZR (y k)) = IZR (zsum d (fun i => x i * y i)).
Proof.
  intros d x y. rewrite IZR_zsum. unfold inner. apply rsum_ext. intros k _. now rewrite mult_IZR.
Qed.

Lemma xpower_IZR : forall z a, (1 <= a)%nat ->
  xpower (xabs (Fin (IZR z))) (INR a) = Fin (IZR (Z.abs z ^ Z.of_nat a)).
Proof.
  intros z a Ha. assert (P : (0 < INR a)%R) by (apply lt_0_INR; lia).
  rewrite xpower_pw by exact P. f_equal. unfold pw. destruct (Req_EM_T (IZR z) 0) as [E|E].
  - apply eq_IZR in E. subst z. rewrite Z.abs_0, Z.pow_0_l by lia. reflexivity.
  - assert (Q : (0 < Rabs (IZR z))%R) by now apply Rabs_pos_lt.
    rewrite Rpower_pow by exact Q. rewrite <- pow_IZR, <- Rabs_Zabs. reflexivity.
Qed.

Lemma abs_pow_nonneg : forall z a, 0 <= Z.abs z ^ Z.of_nat a.
Proof. intros. apply Z.pow_nonneg, Z.abs_nonneg. Qed.

Lemma fits_half : forall t u v, 0 <= u -> 0 <= v -> fits t (2 * (u + v)) -> fits t (u + v).
Proof.
  intros t u v Hu Hv. unfold fits. destruct (i_signed t); lia.
Qed.

(** C84: as long as the integers in the formula of the kernel are representable, the kernel computes
    on integer arrays what it computes on the same numbers as float64. *)
Lemma pf_C84_exact : forall t k d x y, safe t k d x y ->
  ikernel_value t k (zvec d x) (zvec d y)
  = kernel_value (to_nkernel k) (map ofZ (zvec d x)) (map ofZ (zvec d y)).
Proof.
  intros t k d x y H. rewrite !fl_of. destruct k; cbn [safe to_nkernel] in *.
  - destruct H as [Ha H]. cbn [ikernel_value kernel_value]. f_equal.
    unfold ihadamard, hadamard_value. unfold zvec. rewrite !map_map, !zip_map, !zip_seq, !xsum_filter_if, !map_map.
    f_equal. apply map_ext_in. intros i Hi. apply in_seq in Hi. destruct (H i) as (H1 & H2 & H3 & H4 & H5 & H6); [lia|].
    rewrite !xpower_IZR by exact Ha. rewrite !ipow_eq. unfold iabs. rewrite !(wrap_id _ (Z.abs _)) by assumption.
    rewrite !(wrap_id t (_ ^ _)) by assumption. cbn [fst snd]. unfold imul, iadd.
    rewrite (wrap_id t _ H5).
    rewrite (wrap_id t (_ + _)) by (apply fits_half; auto using abs_pow_nonneg). rewrite (wrap_id t _ H6).
    set (u := Z.abs (x i) ^ Z.of_nat alpha) in *. set (v := Z.abs (y i) ^ Z.of_nat alpha) in *.
    assert (Hu : 0 <= u) by apply abs_pow_nonneg. assert (Hv : 0 <= v) by apply abs_pow_nonneg.
    unfold xltb, ofZ. cbn [xmul xadd]. rewrite <- plus_IZR, <- !mult_IZR.
    unfold Rltb. destruct (Z.ltb_spec 0 (2 * (u + v))) as [L|L], (Rlt_dec 0 (IZR (2 * (u + v)))) as [L'|L'];
      [reflexivity| | |reflexivity].
    + exfalso. apply L'. now apply IZR_lt.
    + exfalso. apply lt_IZR in L'. lia.
  - cbn [ikernel_value kernel_value]. rewrite idot_spec, wrap_id by exact H.
    rewrite xdot_fin, inner_Z. reflexivity.
  - cbn [ikernel_value kernel_value]. do 2 f_equal.
    assert (E : map ofZ (zip (isub t) (zvec d x) (zvec d y))
                = zip xsub (map (fun k => Fin (IZR (x k))) (seq 0 d)) (map (fun k => Fin (IZR (y k))) (seq 0 d))).
    { rewrite zip_zvec, zip_fin, map_map. apply map_ext_in. intros i Hi. apply in_seq in Hi.
      unfold isub, ofZ. rewrite wrap_id by (apply H; lia). cbn. now rewrite minus_IZR. }
    now rewrite E.
  - destruct H as [H Hs]. cbn [ikernel_value kernel_value]. do 3 f_equal.
    rewrite zip_zvec, map_map, isum_spec.
    rewrite (zsum_ext d _ (fun i => Z.abs (x i - y i))).
    2:{ intros i Hi. destruct (H i Hi) as [H1 H2]. unfold isub, iabs. now rewrite !wrap_id by (rewrite ?wrap_id; assumption). }
    rewrite wrap_id by exact Hs. unfold ofZ. rewrite IZR_zsum, zip_fin, map_map. symmetry.
    apply xsum_fin_ext. intros i Hi. transitivity (Fin (Rabs (IZR (x i) - IZR (y i)))); [reflexivity|]. f_equal. rewrite <- minus_IZR. apply Rabs_Zabs.
  - cbn [ikernel_value]. now rewrite !fl_of.
  - cbn [ikernel_value kernel_value]. rewrite idot_spec, wrap_id by exact H.
    rewrite xdot_fin, inner_Z. reflexivity.
  - cbn [ikernel_value kernel_value]. rewrite idot_spec, wrap_id by exact H.
    rewrite xdot_fin, inner_Z. reflexivity.
Qed.

(** C84: in any case a linear kernel returns the representable integer that is congruent to the inner
    product modulo 2^bits; so it is right exactly when the inner product is representable. *)
Lemma pf_C84_linear : forall t d x y,
  exists r, ikernel_value t ILinear (zvec d x) (zvec d y) = Ok (Fin (IZR r)) /\
    fits t r /\ (2 ^ bits (i_width t) | r - zsum d (fun i => x i * y i)) /\
    (r = zsum d (fun i => x i * y i) <-> fits t (zsum d (fun i => x i * y i))).
Proof.
  intros t d x y. cbn [ikernel_value]. rewrite idot_spec. eexists. split; [reflexivity|].
  split; [apply wrap_fits|]. destruct (modulus_half t) as [Hm Hh]. split.
  - apply Z.mod_divide; [change (modulus t <> 0); lia|]. fold (modulus t).
    rewrite Zminus_mod, wrap_mod, Z.sub_diag. apply Z.mod_0_l. lia.
  - split; [|apply wrap_id]. intros <-. apply wrap_fits.
Qed.

(** ** Symmetry *)

Lemma opp_mod : forall a b m, a mod m = b mod m -> (- a) mod m = (- b) mod m.
Proof. intros a b m H. rewrite <- (Z.sub_0_l a), <- (Z.sub_0_l b), (Zminus_mod 0 a), (Zminus_mod 0 b), H. reflexivity. Qed.

Lemma wrap_opp : forall t z, i_signed t = true ->
  wrap t (- z) = - wrap t z \/ (wrap t (- z) = - half t /\ wrap t z = - half t).
Proof.
  intros t z Hs. assert (F := wrap_fits t z). destruct (modulus_half t) as [Hm Hh].
  destruct (Z.eq_dec (wrap t z) (- half t)) as [E|E].
  - right. split; [|exact E].
    apply (fits_unique t); [apply wrap_fits| |].
    + unfold fits. fold (half t). rewrite Hs. lia.
    + rewrite wrap_mod. transitivity ((- wrap t z) mod modulus t).
      * apply opp_mod. now rewrite wrap_mod.
      * rewrite E. replace (- - half t) with (- half t + 1 * modulus t) by lia. apply Z_mod_plus_full.
  - left. apply (fits_unique t); [apply wrap_fits| |].
    + unfold fits in *. fold (half t) in *. rewrite Hs in *. lia.
    + rewrite wrap_mod. apply opp_mod. now rewrite wrap_mod.
Qed.

Lemma isub_sqr : forall t a b, i_signed t = true -> isub t a b * isub t a b = isub t b a * isub t b a.
Proof.
  intros t a b Hs. unfold isub. replace (b - a) with (- (a - b)) by ring.
  destruct (wrap_opp t (a - b) Hs) as [->|[-> ->]]; ring.
Qed.
Lemma isub_abs : forall t a b, i_signed t = true -> iabs t (isub t a b) = iabs t (isub t b a).
Proof.
  intros t a b Hs. unfold iabs, isub. f_equal. replace (b - a) with (- (a - b)) by ring.
  destruct (wrap_opp t (a - b) Hs) as [->|[-> ->]]; lia.
Qed.

Lemma idot_sym : forall t x y, idot t x y = idot t y x.
Proof.
  intros t x y. unfold idot. generalize 0. revert y.
  induction x as [|a x IH]; intros [|b y] z; try reflexivity. cbn [combine fold_left fst snd].
  rewrite IH. unfold imul. now rewrite (Z.mul_comm a b).
Qed.

(** C84: on signed integers every kernel is symmetric, overflow or not; on unsigned integers every
    kernel but the Gaussian and the Laplacian is. *)
Lemma pf_C84_symmetric : forall t k x y,
  i_signed t = true \/ (forall s, k <> IGaussian s) /\ (forall g, k <> ILaplacian g) ->
  ikernel_value t k x y = ikernel_value t k y x.
Proof.
  intros t k x y H. destruct k; cbn [ikernel_value].
  - f_equal. unfold ihadamard.
    rewrite (zip_sym (fun a b => (imul t a b, imul t 2 (iadd t a b)))); [reflexivity|].
    intros a b. unfold imul, iadd. now rewrite (Z.mul_comm a b), (Z.add_comm a b).
  - now rewrite idot_sym.
  - destruct H as [H|[H _]]; [|now destruct (H sigma)]. do 2 f_equal.
    assert (E : xnorm2 (map ofZ (zip (isub t) x y)) = xnorm2 (map ofZ (zip (isub t) y x))); [|now rewrite E].
    unfold xnorm2, xdot. rewrite !zip_map_self, !map_map, !map_zip.
    rewrite (zip_sym (fun a b => xmul (ofZ (isub t a b)) (ofZ (isub t a b))) x y); [reflexivity|].
    intros a b. unfold ofZ. cbn. rewrite <- !mult_IZR. now rewrite isub_sqr.
  - destruct H as [H|[_ H]]; [|now destruct (H gamma)].
    rewrite !map_zip, (zip_sym (fun a b => iabs t (isub t a b)) x y); [reflexivity|].
    intros a b. now apply isub_abs.
  - apply value_sym.
  - now rewrite idot_sym.
  - now rewrite idot_sym.
Qed.

(** ** Bounds *)

Lemma zsum_bound : forall d f B, 0 <= B -> (forall i, (i < d)%nat -> Z.abs (f i) <= B) ->
  Z.abs (zsum d f) <= Z.of_nat d * B.
Proof.
  induction d as [|d IH]; intros f B HB H; [cbn; lia|]. cbn [zsum].
  assert (H1 := IH f B HB (fun i Hi => H i (Nat.lt_lt_succ_r _ _ Hi))). assert (H2 := H d (Nat.lt_succ_diag_r d)).
  rewrite Nat2Z.inj_succ, Z.mul_succ_l. lia.
Qed.

(** C84: a condition on the data. If the entries are at most B in absolute value and
    d B^2 < 2^(bits-1), 2 B < 2^(bits-1), all kernels on signed integers but Hadamard's are exact (the
    sum of the Laplacian kernel, over 2 d B, being done in 64 bits); for Hadamard's, 4 B^(2 alpha) <
    2^(bits-1) suffices. *)
Lemma pf_C84_safe : forall t k d x y B, i_signed t = true -> 0 <= B ->
  (forall i, (i < d)%nat -> Z.abs (x i) <= B /\ Z.abs (y i) <= B) ->
  match k with
  | ILinear | IPoly _ _ _ | ISigmoid _ _ => Z.of_nat d * (B * B) < 2 ^ (bits (i_width t) - 1)
  | IGaussian _ => 2 * B < 2 ^ (bits (i_width t) - 1)
  | ILaplacian _ => 2 * B < 2 ^ (bits (i_width t) - 1) /\ Z.of_nat d * (2 * B) < 2 ^ 63
  | IChi2 _ => True
  | IHadamard a => (1 <= a)%nat /\ 1 <= B /\ 4 * (B ^ Z.of_nat a * B ^ Z.of_nat a) < 2 ^ (bits (i_width t) - 1)
  end -> safe t k d x y.
Proof.
  intros t k d x y B Hs HB Hxy Hk. unfold safe.
  assert (Hf : forall z, Z.abs z < 2 ^ (bits (i_width t) - 1) -> fits t z).
  { intros z Hz. unfold fits. rewrite Hs. lia. }
  assert (Hdot : Z.of_nat d * (B * B) < 2 ^ (bits (i_width t) - 1) -> fits t (zsum d (fun i => x i * y i))).
  { intros H. apply Hf. eapply Z.le_lt_trans; [|exact H]. apply zsum_bound; [nia|].
    intros i Hi. destruct (Hxy i Hi) as [H1 H2]. rewrite Z.abs_mul. apply Z.mul_le_mono_nonneg; lia. }
  destruct k; auto.
  - destruct Hk as (Ha & HB1 & Hk). split; [exact Ha|]. intros i Hi. destruct (Hxy i Hi) as [H1 H2].
    assert (P : forall z, Z.abs z <= B -> 0 <= Z.abs z ^ Z.of_nat alpha <= B ^ Z.of_nat alpha).
    { intros z Hz. split; [apply abs_pow_nonneg|]. apply Z.pow_le_mono_l. lia. }
    assert (P1 := P _ H1). assert (P2 := P _ H2).
    assert (Q : B <= B ^ Z.of_nat alpha).
    { rewrite <- (Z.pow_1_r B) at 1. apply Z.pow_le_mono_r; lia. }
    set (u := Z.abs (x i) ^ Z.of_nat alpha) in *. set (v := Z.abs (y i) ^ Z.of_nat alpha) in *.
    set (w := B ^ Z.of_nat alpha) in *. clearbody u v w.
    assert (W : 4 * w <= 4 * (w * w)) by nia. assert (UV : u * v <= w * w) by (apply Z.mul_le_mono_nonneg; lia).
    repeat split; apply Hf; rewrite Z.abs_eq; try lia; nia.
  - intros i Hi. destruct (Hxy i Hi) as [H1 H2]. apply Hf. lia.
  - destruct Hk as [Hk Hd]. split.
    + intros i Hi. destruct (Hxy i Hi) as [H1 H2]. split; apply Hf; lia.
    + unfold fits, sum_type. cbn [i_signed i_width bits]. rewrite Hs. change (64 - 1) with 63.
      assert (H : Z.abs (zsum d (fun i => Z.abs (x i - y i))) <= Z.of_nat d * (2 * B)).
      { apply zsum_bound; [lia|]. intros i Hi. destruct (Hxy i Hi) as [H1 H2]. lia. }
      lia.
Qed.

(** ** Kernel matrices over integer samples *)

Lemma zsample_len : forall n d X, length (nd_data (zsample n d X)) = (n * d)%nat.
Proof.
  intros n d X. unfold zsample. cbn [nd_data]. rewrite <- (seq_length n 0) at 2.
  generalize (seq 0 n). intros l. induction l as [|a l IH]; [reflexivity|].
  cbn [flat_map length]. unfold zvec at 1. rewrite app_length, IH, map_length, seq_length. lia.
Qed.

Lemma zsample_row : forall n d X i, (i < n)%nat -> row_of d (zsample n d X) i = zvec d (X i).
Proof.
  intros n d X i Hi. unfold row_of, zsample, zvec. cbn [nd_data].
  assert (H : forall s n, (i < n)%nat ->
    firstn d (skipn (i * d) (flat_map (fun i => map (X i) (seq 0 d)) (seq s n)))
    = map (X (s + i)%nat) (seq 0 d)); [|apply (H 0%nat n Hi)].
  clear n Hi. induction i as [|i IH]; intros s n Hi; (destruct n as [|n]; [lia|]); cbn [seq flat_map].
  - cbn [Nat.mul skipn]. rewrite Nat.add_0_r.
    rewrite firstn_app, map_length, seq_length, Nat.sub_diag. cbn [firstn].
    rewrite app_nil_r, firstn_all2; [reflexivity|]. rewrite map_length, seq_length. lia.
  - cbn [Nat.mul]. rewrite skipn_app, map_length, seq_length.
    replace (d + i * d - d)%nat with (i * d)%nat by lia.
    rewrite (skipn_all2 (n := (d + i * d)%nat) (map _ _)); [|rewrite map_length, seq_length; lia].
    cbn [app]. rewrite (IH (S s) n) by lia. now rewrite Nat.add_succ_r.
Qed.

Lemma zsample_adm : forall n d X, admissible (zsample n d X) None n n d.
Proof. intros. split; [exists []; split; [reflexivity|constructor]|reflexivity]. Qed.

Definition ivalue (t : itype) (k : ikernel) (u v : list Z) : xr :=
  match ikernel_value t k u v with Ok r => r | Raise _ => NaN end.

Lemma ikernel_total : forall t k n d X A,
  finite_on (to_nkernel k) d n n (fun i q => IZR (X i q)) (fun i q => IZR (X i q)) A ->
  never_raises (builtin_int t k) (ivalue t k) (zsample n d X) None n n d.
Proof.
  intros t k n d X A HA s u v (i & Hi) (j & Hj).
  assert (Hi' : (i < n)%nat /\ u = row_of d (zsample n d X) i) by tauto.
  assert (Hj' : (j < n)%nat /\ v = row_of d (zsample n d X) j) by tauto.
  destruct Hi' as [Hi' ->], Hj' as [Hj' ->]. cbn [builtin_int kf].
  rewrite !(row_length d n) by (auto using zsample_len). rewrite Nat.eqb_refl.
  rewrite !zsample_row by assumption. unfold ivalue.
  destruct k; try reflexivity. cbn [ikernel_value]. rewrite !fl_of.
  specialize (HA i j Hi' Hj'). cbn [to_nkernel] in HA. rewrite HA. reflexivity.
Qed.

Lemma ikernel_matrix : forall t k n d X A,
  finite_on (to_nkernel k) d n n (fun i q => IZR (X i q)) (fun i q => IZR (X i q)) A ->
  (forall i j, (i <= j < n)%nat -> safe t k d (X i) (X j)) ->
  kernel_matrix (ivalue t k) n n d (zsample n d X) None = rmat n n A.
Proof.
  intros t k n d X A HA Hsafe.
  assert (Hs : symmetric n A).
  { intros i j Hi Hj. assert (E := HA i j Hi Hj). rewrite value_sym, (HA j i Hj Hi) in E. injection E as E. now symmetry. }
  assert (V : forall i j, (i <= j < n)%nat -> ivalue t k (zvec d (X i)) (zvec d (X j)) = Fin (A i j)).
  { intros i j Hij. unfold ivalue. rewrite pf_C84_exact by now apply Hsafe. rewrite !fl_of.
    rewrite (HA i j) by lia. reflexivity. }
  apply tabulate_ext. intros i j Hi Hj. unfold entry. rewrite !zsample_row by assumption.
  destruct (Nat.leb_spec i j) as [L|L].
  - apply V. lia.
  - rewrite V by lia. f_equal. now apply Hs.
Qed.

(** C84, matrices: on an integer sample whose pairs of rows are safe, [full] is the kernel matrix of
    the sample converted to float64: the matrix A of its values, or its cosine normalisation, after any
    history. Only pairs i <= j matter. *)
Lemma pf_C84_matrix :
  forall {U} t k (pre post : list (op Z U)) n d X A,
    finite_on (to_nkernel k) d n n (fun i q => IZR (X i q)) (fun i q => IZR (X i q)) A ->
    (forall i j, (i <= j < n)%nat -> safe t k d (X i) (X j)) -> no_attach post ->
    (no_full_sparse post -> no_whole_index n n post ->
     outcome xN OpFull (after xN (builtin_int t k) false pre (zsample n d X) None post)
     = Ok (OArr (mkArr Dense (rmat n n A)))) /\
    ((forall i, (i < n)%nat -> (1/100000000 < A i i)%R) ->
     outcome xN OpFull (after xN (builtin_int t k) true pre (zsample n d X) None post)
     = Ok (OArr (mkArr Dense (rmat n n (fun i j => (A i j / sqrt (A i i * A j j))%R))))).
Proof.
  intros U t k pre post n d X A HA Hsafe Hno.
  assert (Hnr := ikernel_total t k n d X A HA). assert (HM := ikernel_matrix t k n d X A HA Hsafe). split.
  - intros Hfs Hwi.
    rewrite (pf_C04_full_partial xN (builtin_int t k) (ivalue t k) pre post (zsample n d X) None n n d Hnr
               eq_refl (zsample_adm n d X) Hno Hfs Hwi), HM. reflexivity.
  - intros Hd.
    apply (pf_C03_value (builtin_int t k) (ivalue t k) pre post (zsample n d X) n d OpFull A Hnr eq_refl
             (zsample_adm n d X) Hno (or_introl eq_refl) HM Hd).
Qed.

(** ** Unsigned integers and overflow *)

Lemma norm_one : forall z, xmul (xnorm2 [ofZ z]) (xnorm2 [ofZ z]) = Fin (IZR (z * z)).
Proof.
  intros z. unfold xnorm2, xdot, zip, ofZ. cbn [combine map xsum fold_right fst snd xmul xadd].
  rewrite Rplus_0_r. rewrite mult_IZR.
  assert (H : (0 <= IZR z * IZR z)%R) by (rewrite <- mult_IZR; apply IZR_le; nia).
  unfold xsqrt. destruct (Rlt_dec (IZR z * IZR z) 0); [lra|]. cbn [xmul]. f_equal. now apply sqrt_sqrt.
Qed.

Lemma gaussian_one : forall t sigma g a b, gaussian_gamma sigma = Fin g ->
  ikernel_value t (IGaussian sigma) [a] [b] = Ok (Fin (exp (- g * IZR (isub t a b * isub t a b)))).
Proof.
  intros t sigma g a b Hg. cbn [ikernel_value]. unfold zip. cbn [combine map fst snd].
  rewrite norm_one, Hg. reflexivity.
Qed.

Lemma laplacian_one : forall t gamma a b, fits (sum_type t) (iabs t (isub t a b)) ->
  ikernel_value t (ILaplacian gamma) [a] [b] = Ok (Fin (exp (- gamma * IZR (iabs t (isub t a b))))).
Proof.
  intros t gamma a b H. cbn [ikernel_value]. unfold zip. cbn [combine map fst snd].
  unfold isum. cbn [fold_left]. unfold iadd. cbn [Z.add]. fold (sum_type t). now rewrite wrap_id by exact H.
Qed.

(*BEGIN PROP*)
(** The dtype of images. *)
Definition uint8 : itype := mkIt W8 false.
Definition int8 : itype := mkIt W8 true.
(*END PROP*)

Lemma exp_ne : forall a b, a <> b -> exp a <> exp b.
Proof. intros a b H E. apply H. now apply exp_inv. Qed.

Lemma fits_unsigned64 : forall z, 0 <= z < 256 -> fits (sum_type uint8) z.
Proof. intros z Hz. unfold fits, sum_type, uint8. cbn [i_signed i_width bits]. change (2 ^ 64) with 18446744073709551616. lia. Qed.

(** C84 is false for unsigned integers: the Gaussian kernel (every bandwidth) and the Laplacian kernel
    (every gamma but 0) are not symmetric, because x - y wraps around. *)
Lemma pf_C84_unsigned_refuted : exists x y, fits uint8 x /\ fits uint8 y /\
  (forall sigma, sigma <> NaN ->
     ikernel_value uint8 (IGaussian sigma) [x] [y] <> ikernel_value uint8 (IGaussian sigma) [y] [x]) /\
  (forall gamma, gamma <> 0%R ->
     ikernel_value uint8 (ILaplacian gamma) [x] [y] <> ikernel_value uint8 (ILaplacian gamma) [y] [x]).
Proof.
  exists 1, 0. split; [apply fits_small; lia|]. split; [apply fits_small; lia|]. split.
  - intros sigma Hs. destruct (gaussian_gamma_bounds sigma Hs) as (g & Hg & Hb & _).
    assert (Hpos : (0 < g)%R) by (pose proof eps_pos; lra).
    rewrite !(gaussian_one uint8 sigma g) by exact Hg.
    change (isub uint8 1 0) with 1. change (isub uint8 0 1) with 255.
    intros E. injection E as E. revert E. apply exp_ne. cbn -[IZR]. nra.
  - intros gamma Hg. rewrite !laplacian_one by (apply fits_unsigned64; vm_compute; split; congruence).
    change (iabs uint8 (isub uint8 1 0)) with 1. change (iabs uint8 (isub uint8 0 1)) with 255.
    intros E. injection E as E. revert E. apply exp_ne. nra.
Qed.

(** C84 is false for unsigned integers: a KernelMatrix with a Gaussian kernel of any bandwidth is not
    positive semidefinite on the uint8 sample [[1], [0], [1]], whose first and last rows are equal but
    have different similarities to the second. *)
Lemma pf_C84_psd_refuted : forall {U} sigma, sigma <> NaN ->
  exists n d X A, (forall i q, (i < n)%nat -> (q < d)%nat -> fits uint8 (X i q)) /\
    outcome xN OpFull (after xN (builtin_int uint8 (IGaussian sigma)) false ([] : list (op Z U)) (zsample n d X) None [])
    = Ok (OArr (mkArr Dense (rmat n n A))) /\
    symmetric n A /\ ~ psd n A.
Proof.
  intros U sigma Hs. destruct (gaussian_gamma_bounds sigma Hs) as (g & Hg & Hb & _).
  assert (Hpos : (0 < g)%R) by (pose proof eps_pos; lra).
  set (X := fun i (_ : nat) => nth i [1; 0; 1] 0).
  set (D := fun i j => if (i <=? j)%nat then isub uint8 (X i 0%nat) (X j 0%nat) else isub uint8 (X j 0%nat) (X i 0%nat)).
  set (A := fun i j => exp (- g * IZR (D i j * D i j))).
  exists 3%nat, 1%nat, X, A. split.
  { intros i q Hi _. apply fits_small. unfold X. destruct i as [|[|[|i]]]; cbn; lia. }
  assert (Hsym : symmetric 3 A).
  { intros i j _ _. unfold A, D. destruct (Nat.leb_spec i j), (Nat.leb_spec j i); try reflexivity; try lia.
    assert (i = j) by lia. subst. reflexivity. }
  split; [|split; [exact Hsym|]].
  - rewrite (pf_C04_full_partial xN (builtin_int uint8 (IGaussian sigma)) (ivalue uint8 (IGaussian sigma)) [] []
       (zsample 3 1 X) None 3 3 1).
    + do 3 f_equal. apply tabulate_ext. intros i j Hi Hj. unfold entry. rewrite !zsample_row by assumption.
      unfold ivalue, zvec. cbn [seq map]. rewrite !(gaussian_one _ _ g) by exact Hg.
      unfold A, D. destruct (i <=? j)%nat; reflexivity.
    + intros s u v (i & Hi) (j & Hj).
      assert (Hi' : (i < 3)%nat /\ u = row_of 1 (zsample 3 1 X) i) by tauto.
      assert (Hj' : (j < 3)%nat /\ v = row_of 1 (zsample 3 1 X) j) by tauto.
      destruct Hi' as [Hi' ->], Hj' as [Hj' ->]. rewrite !zsample_row by assumption. reflexivity.
    + reflexivity.
    + apply zsample_adm.
    + reflexivity.
    + intros [].
    + intros ix [].
  - intros [_ Hq].
    assert (Hrs : A 0%nat 1%nat <> A 1%nat 2%nat).
    { unfold A, D, X. cbn [Nat.leb nth]. change (isub uint8 1 0) with 1. change (isub uint8 0 1) with 255.
      apply exp_ne. cbn -[IZR]. nra. }
    assert (H1 : A 0%nat 0%nat = 1%R /\ A 1%nat 1%nat = 1%R /\ A 2%nat 2%nat = 1%R /\ A 0%nat 2%nat = 1%R).
    { unfold A, D, X. cbn [Nat.leb nth]. change (isub uint8 1 1) with 0. change (isub uint8 0 0) with 0.
      cbn -[IZR]. rewrite Rmult_0_r, exp_0. auto. }
    destruct H1 as (H00 & H11 & H22 & H02).
    set (r := A 0%nat 1%nat) in *. set (s := A 1%nat 2%nat) in *.
    specialize (Hq (fun i => nth i [1; - (r - s); -1]%R 0%R)). unfold quad in Hq. cbn [rsum nth] in Hq.
    rewrite (Hsym 1%nat 0%nat), (Hsym 2%nat 0%nat), (Hsym 2%nat 1%nat) in Hq by lia.
    rewrite H00, H11, H22, H02 in Hq. fold r s in Hq.
    assert (Hp : (0 < (r - s) * (r - s))%R) by (apply Rsqr_pos_lt; lra).
    clear - Hq Hp. nra.
Qed.

(** C84 is false for small integers: with LinearKernel the uint8 sample [[16]] has self-similarity
    256 = 0, so that normalising raises KMNormError, and the int8 sample [[12]] has -112. *)
Lemma pf_C84_overflow_refuted :
  (exists x, fits uint8 x /\ x <> 0 /\
     outcome xN OpFull (after xN (builtin_int uint8 ILinear) true ([] : list (op Z unit)) (zsample 1 1 (fun _ _ => x)) None [])
     = Raise KMNormError) /\
  (exists x r, fits int8 x /\ (r < 0)%R /\
     outcome xN OpFull (after xN (builtin_int int8 ILinear) false ([] : list (op Z unit)) (zsample 1 1 (fun _ _ => x)) None [])
     = Ok (OArr (mkArr Dense (rmat 1 1 (fun _ _ => r))))).
Proof.
  split.
  - exists 16. split; [apply fits_small; lia|]. split; [lia|].
    apply (pf_C03_error (builtin_int uint8 ILinear) (ivalue uint8 ILinear) [] [] (zsample 1 1 (fun _ _ => 16)) 1 1 OpFull 0 0%R).
    + intros s u v (i & Hi) (j & Hj).
      assert (Hi' : (i < 1)%nat /\ u = row_of 1 (zsample 1 1 (fun _ _ => 16)) i) by tauto.
      assert (Hj' : (j < 1)%nat /\ v = row_of 1 (zsample 1 1 (fun _ _ => 16)) j) by tauto.
      destruct Hi' as [Hi' ->], Hj' as [Hj' ->]. rewrite !zsample_row by assumption. reflexivity.
    + reflexivity.
    + apply zsample_adm.
    + reflexivity.
    + auto.
    + lia.
    + reflexivity.
    + rewrite Rabs_R0. lra.
  - exists 12, (-112)%R. split; [apply fits_small; lia|]. split; [lra|].
    rewrite (pf_C04_full_partial xN (builtin_int int8 ILinear) (ivalue int8 ILinear) [] []
       (zsample 1 1 (fun _ _ => 12)) None 1 1 1).
    + do 3 f_equal. 
    + intros s u v (i & Hi) (j & Hj).
      assert (Hi' : (i < 1)%nat /\ u = row_of 1 (zsample 1 1 (fun _ _ => 12)) i) by tauto.
      assert (Hj' : (j < 1)%nat /\ v = row_of 1 (zsample 1 1 (fun _ _ => 12)) j) by tauto.
      destruct Hi' as [Hi' ->], Hj' as [Hj' ->]. rewrite !zsample_row by assumption. reflexivity.
    + reflexivity.
    + apply zsample_adm.
    + reflexivity.
    + intros [].
    + intros ix [].
Qed.

(*BEGIN PROP*)
(** C84 on concrete data: int64 vectors, all kernels of which are safe, and the hypotheses of
    C84_matrix for a linear kernel on the int64 sample [[1, 2], [-3, 4]]. *)
Example C84_example :
  let t := mkIt W64 true in
  let X := fun i q => nth q (nth i [[1; 2]; [-3; 4]] []) 0 in
  (forall i q, Z.abs (X i q) <= 4) /\
  safe t (IHadamard 3) 2 (X 0%nat) (X 1%nat) /\ safe t ILinear 2 (X 0%nat) (X 1%nat) /\
  safe t (ILaplacian 1) 2 (X 0%nat) (X 1%nat) /\
  finite_on KLinear 2 2 2 (fun i q => IZR (X i q)) (fun i q => IZR (X i q))
    (fun i j => inner 2 (fun q => IZR (X i q)) (fun q => IZR (X j q))) /\
  ikernel_value t ILinear (zvec 2 (X 0%nat)) (zvec 2 (X 1%nat)) = Ok (Fin 5).
Proof.
  intros t X.
  assert (HX : forall i q, Z.abs (X i q) <= 4).
  { intros [|[|i]] [|[|q]]; cbn; try lia; try (destruct q; cbn; lia). destruct i; cbn; lia.
    destruct i; cbn; lia. destruct i, q; cbn; lia. }
  split; [exact HX|]. split; [|split; [|split; [|split]]].
  - apply (pf_C84_safe t (IHadamard 3) 2 _ _ 4); [reflexivity|lia|intros; split; apply HX|]. split; [lia|].
    split; [lia|]. vm_compute. reflexivity.
  - apply (pf_C84_safe t ILinear 2 _ _ 4); [reflexivity|lia|intros; split; apply HX|]. vm_compute. reflexivity.
  - apply (pf_C84_safe t (ILaplacian 1) 2 _ _ 4); [reflexivity|lia|intros; split; apply HX|].
    split; vm_compute; reflexivity.
  - intros i j _ _. cbn [kernel_value]. now rewrite xdot_fin.
  - reflexivity.
Qed.
(*END PROP*)
