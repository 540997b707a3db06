(** Kernels on arrays of any dtype, with and without input validation: C87. *)
From Coq Require Import String Reals List Arith ZArith Bool Lia Lra.
Import ListNotations.
From Verif Require Import Prelude MatModel UtilsModel IndexModel KMModel SpecKM XReal OpsModel
  SpecLinAlg KernelsModel SpecKernels KMXModel SpecKMX IntModel SpecInt VecModel SpecVec.
From Verif Require Import MatFacts MFacts KMFacts KMInv KMHist KMTotal KMProps RSum OpsFacts OpsProps
  PSDFacts KernelFacts KernelProps KMXProps IntProps.
Local Open Scope list_scope.
Local Open Scope Z_scope.

(** ** Common dtypes *)

Definition lo (t : itype) : Z := if i_signed t then - half t else 0.
Definition hi (t : itype) : Z := if i_signed t then half t - 1 else modulus t - 1.

Lemma fits_range : forall t z, fits t z <-> lo t <= z <= hi t.
Proof. intros t z. unfold fits, lo, hi, half, modulus. destruct (i_signed t); lia. Qed.

Lemma range_ok : forall t, lo t <= hi t.
Proof. intros t. unfold lo, hi. destruct (modulus_half t). destruct (i_signed t); lia. Qed.

Lemma subtype_range : forall s p, subtype s p <-> lo p <= lo s /\ hi s <= hi p.
Proof.
  intros s p. unfold subtype. assert (R := range_ok s). split.
  - intros H. assert (H1 := H (lo s)). assert (H2 := H (hi s)). rewrite !fits_range in H1, H2. lia.
  - intros H z. rewrite !fits_range. lia.
Qed.

Lemma subtype_fits : forall s p z, subtype s p -> fits s z -> fits p z.
Proof. intros s p z H. apply H. Qed.

Definition contains (s p : itype) : bool := (lo p <=? lo s) && (hi s <=? hi p).
Lemma contains_subtype : forall s p, contains s p = true <-> subtype s p.
Proof.
  intros s p. rewrite subtype_range. unfold contains. rewrite andb_true_iff, !Z.leb_le. tauto.
Qed.

Definition all_types : list itype :=
  [mkIt W8 true; mkIt W16 true; mkIt W32 true; mkIt W64 true;
   mkIt W8 false; mkIt W16 false; mkIt W32 false; mkIt W64 false].
Lemma all_types_all : forall t, In t all_types.
Proof. intros [[| | |] [|]]; cbn; tauto. Qed.

Definition is_common (s t p : itype) : bool :=
  contains s p && contains t p && forallb (fun q => implb (contains s q && contains t q) (contains p q)) all_types.
Lemma is_common_spec : forall s t p, is_common s t p = true <-> common_type s t p.
Proof.
  intros s t p. unfold is_common, common_type. rewrite !andb_true_iff, forallb_forall, !contains_subtype.
  split; intros [[H1 H2] H3] || intros (H1 & H2 & H3); repeat split; auto.
  - intros q Hq1 Hq2. specialize (H3 q (all_types_all q)). rewrite <- contains_subtype in Hq1, Hq2.
    rewrite Hq1, Hq2 in H3. cbn in H3. now apply contains_subtype.
  - intros q _. destruct (contains s q) eqn:E1, (contains t q) eqn:E2; try reflexivity. cbn.
    apply contains_subtype, H3; now apply contains_subtype.
Qed.

Definition itype_eqb (s t : itype) : bool :=
  match i_width s, i_width t with W8, W8 | W16, W16 | W32, W32 | W64, W64 => true | _, _ => false end
  && Bool.eqb (i_signed s) (i_signed t).
Lemma itype_eqb_eq : forall s t, itype_eqb s t = true <-> s = t.
Proof.
  intros [[| | |] [|]] [[| | |] [|]]; vm_compute; split; intros H; try reflexivity; try discriminate.
Qed.

Lemma promote_check : forallb (fun s => forallb (fun t => forallb (fun p =>
    Bool.eqb (is_common s t p)
      (match promote s t with Some q => itype_eqb q p | None => false end)) all_types) all_types) all_types = true.
Proof. vm_compute. reflexivity. Qed.

(** C87: the dtype numpy chooses for two integer arrays is the smallest one that contains both; there
    is none exactly for uint64 with a signed type, and then it computes in float64. *)
Lemma pf_C87_common_type : forall s t,
  (forall p, promote s t = Some p <-> common_type s t p) /\
  (promote s t = None <->
   (s = mkIt W64 false /\ i_signed t = true) \/ (t = mkIt W64 false /\ i_signed s = true)).
Proof.
  intros s t. split.
  - intros p. rewrite <- is_common_spec. assert (H := promote_check). rewrite forallb_forall in H.
    specialize (H s (all_types_all s)). cbn beta in H. rewrite forallb_forall in H.
    specialize (H t (all_types_all t)). cbn beta in H. rewrite forallb_forall in H.
    specialize (H p (all_types_all p)). cbn beta in H. apply Bool.eqb_prop in H. rewrite H.
    destruct (promote s t) as [q|]; [|split; discriminate]. rewrite itype_eqb_eq.
    split; [intros E; now injection E|intros ->; reflexivity].
  - destruct s as [[| | |] [|]], t as [[| | |] [|]]; cbn; split; intros H; try discriminate; try reflexivity;
      try (left; split; reflexivity); try (right; split; reflexivity);
      destruct H as [[H1 H2]|[H1 H2]]; discriminate.
Qed.

(** ** Lists given by functions *)

Lemma as_float_num : forall d u, as_float (num_vec d u) = num_floats d u.
Proof. intros d [x|t x]; [reflexivity|]. cbn. now rewrite map_map. Qed.

Lemma vlen_num : forall d u, vlen (num_vec d u) = d.
Proof. intros d [x|t x]; cbn; now rewrite map_length, seq_length. Qed.

Lemma bcast_eq : forall {A B} (x : list A) (y : list B), length x = length y -> bcast x y = Ok (x, y).
Proof. intros A B x y H. unfold bcast. now rewrite H, Nat.eqb_refl. Qed.

Lemma xltb_IZR : forall a b, xltb (Fin (IZR a)) (Fin (IZR b)) = (a <? b).
Proof.
  intros a b. unfold xltb, Rltb. destruct (Rlt_dec (IZR a) (IZR b)) as [H|H], (Z.ltb_spec a b) as [L|L]; try reflexivity.
  - apply lt_IZR in H. lia.
  - exfalso. apply H. now apply IZR_lt.
Qed.

Lemma vneg_float : forall v, vneg v = existsb (fun a => xltb a (Fin 0)) (as_float v).
Proof.
  intros [l|t l|l]; cbn [vneg as_float]; [reflexivity| |]; induction l as [|a l IH]; try reflexivity;
    cbn [existsb map]; rewrite <- IH.
  - f_equal. symmetry. apply (xltb_IZR a 0).
  - assert (H : xltb (ofZ (ofB a)) (Fin 0) = false); [|rewrite H; reflexivity].
    unfold ofZ. rewrite (xltb_IZR (ofB a) 0). now destruct a.
Qed.

(** ** Agreement with the float64 kernels *)

Lemma square_zip : forall a b,
  zip xdiv (map (fun v => xmul v v) (zip xsub a b)) (zip xadd a b)
  = zip (fun u v => xdiv (xmul (xsub u v) (xsub u v)) (xadd u v)) a b.
Proof.
  unfold zip. induction a as [|u a IH]; intros [|v b]; try reflexivity. cbn [combine map]. f_equal. apply IH.
Qed.

(** Operands that numpy converts to float64. *)
Lemma body_floats : forall k x y, vlen x = vlen y -> common x y = PFloat (as_float x) (as_float y) ->
  (forall a, k <> IHadamard a) ->
  kernel_body k x y = kernel_value (to_nkernel k) (as_float x) (as_float y).
Proof.
  intros k x y Hl Hc Hk.
  assert (L : length (as_float x) = length (as_float y)).
  { destruct x, y; cbn in *; rewrite ?map_length; exact Hl. }
  destruct k; cbn [kernel_body to_nkernel kernel_value]; unfold vdot, vsub, vadd; rewrite ?Hc, ?Hl, ?Nat.eqb_refl;
    rewrite ?(bcast_eq _ _ L); cbn [res_map rbind fst snd]; try reflexivity.
  - exfalso. now apply (Hk alpha).
  - rewrite !vneg_float. destruct (_ || _)%bool; [reflexivity|]. cbn [vsquare as_float].
    now rewrite square_zip.
Qed.

(** Integer operands: as with two arrays of the common dtype. *)
Lemma body_ints : forall k x y p a b, common x y = PInt p a b -> vlen x = vlen y -> length a = length b ->
  (forall al, k <> IHadamard al) -> (forall g, k <> IChi2 g) ->
  kernel_body k x y = ikernel_value p k a b.
Proof.
  intros k x y p a b Hc Hl L Hk Hk'.
  destruct k; cbn [kernel_body ikernel_value]; unfold vdot, vsub, vadd; rewrite ?Hc, ?Hl, ?Nat.eqb_refl;
    rewrite ?(bcast_eq _ _ L); cbn [res_map rbind fst snd]; try reflexivity.
  - exfalso. now apply (Hk alpha).
  - exfalso. now apply (Hk' gamma).
Qed.

Lemma common_num : forall d u v,
  common (num_vec d u) (num_vec d v) =
  match u, v with
  | NInt s x, NInt t y =>
      match promote s t with
      | Some p => PInt p (zvec d x) (zvec d y)
      | None => PFloat (num_floats d u) (num_floats d v)
      end
  | _, _ => PFloat (num_floats d u) (num_floats d v)
  end.
Proof.
  intros d [x|s x] [y|t y]; cbn; rewrite ?map_map; try reflexivity.
  all: destruct (promote s t); reflexivity.
Qed.

Lemma chi2_ints : forall gamma s t p d x y, promote s t = Some p ->
  (forall i, (i < d)%nat -> fits p ((x i - y i) * (x i - y i)) /\ fits p (x i + y i)) ->
  kernel_body (IChi2 gamma) (num_vec d (NInt s x)) (num_vec d (NInt t y))
  = kernel_value (KChi2 gamma) (num_floats d (NInt s x)) (num_floats d (NInt t y)).
Proof.
  intros gamma s t p d x y Hp H. cbn [kernel_body kernel_value]. rewrite !vneg_float, !as_float_num.
  destruct (_ || _)%bool; [reflexivity|]. unfold vsub, vadd. rewrite !common_num, Hp.
  rewrite !bcast_eq by (unfold zvec; now rewrite !map_length). cbn [res_map rbind fst snd vsquare as_float num_floats].
  do 4 f_equal. rewrite !zip_zvec, !map_map, zip_map, zip_seq, zip_fin. apply map_ext_in. intros i Hi.
  apply in_seq in Hi. destruct (H i ltac:(lia)) as [H1 H2]. rewrite ipow_eq. unfold isub, iadd.
  rewrite (wrap_id p (x i + y i)) by exact H2.
  replace (wrap p (wrap p (x i - y i) ^ Z.of_nat 2)) with ((x i - y i) * (x i - y i)).
  2:{ symmetry. change (Z.of_nat 2) with 2. rewrite Z.pow_2_r.
      transitivity (wrap p ((x i - y i) * (x i - y i))); [|now apply wrap_id]. apply wrap_eq.
      now rewrite Zmult_mod, !wrap_mod, <- Zmult_mod. }
  unfold ofZ. cbn [xsub xadd xopp xmul]. unfold xsub. cbn [xadd xopp xmul].
  rewrite mult_IZR, minus_IZR, plus_IZR. reflexivity.
Qed.

Lemma powabs_float : forall a d u, own_powers (IHadamard a) d u ->
  as_float (vpowabs a (num_vec d u)) = map (fun v => xpower (xabs v) (INR a)) (num_floats d u).
Proof.
  intros a d [x|t x] H; cbn [own_powers num_vec vpowabs as_float num_floats] in *; [reflexivity|].
  destruct H as [Ha H]. rewrite !map_map. apply map_ext_in. intros i Hi. apply in_seq in Hi.
  destruct (H i ltac:(lia)) as [H1 H2]. rewrite xpower_IZR by exact Ha. rewrite ipow_eq. unfold iabs.
  rewrite (wrap_id t (Z.abs _)) by exact H1. now rewrite wrap_id.
Qed.

Lemma powabs_int : forall a d t x, own_powers (IHadamard a) d (NInt t x) ->
  vpowabs a (num_vec d (NInt t x)) = VInt t (zvec d (fun i => Z.abs (x i) ^ Z.of_nat a)).
Proof.
  intros a d t x [Ha H]. cbn [num_vec vpowabs]. f_equal. unfold zvec. rewrite map_map. apply map_ext_in.
  intros i Hi. apply in_seq in Hi. destruct (H i ltac:(lia)) as [H1 H2]. rewrite ipow_eq. unfold iabs.
  rewrite (wrap_id t (Z.abs _)) by exact H1. now rewrite wrap_id.
Qed.

Lemma powabs_len : forall a u, vlen (vpowabs a u) = vlen u.
Proof. intros a [l|t l|l]; cbn; now rewrite map_length. Qed.

Lemma hadamard_floats : forall a x y, vlen x = vlen y ->
  common (vpowabs a x) (vpowabs a y) = PFloat (as_float (vpowabs a x)) (as_float (vpowabs a y)) ->
  as_float (vpowabs a x) = map (fun v => xpower (xabs v) (INR a)) (as_float x) ->
  as_float (vpowabs a y) = map (fun v => xpower (xabs v) (INR a)) (as_float y) ->
  kernel_body (IHadamard a) x y = kernel_value (KHadamard (INR a)) (as_float x) (as_float y).
Proof.
  intros a x y Hl Hc Hx Hy. cbn [kernel_body kernel_value]. unfold vhadamard. rewrite Hc.
  assert (L : length (as_float (vpowabs a x)) = length (as_float (vpowabs a y))).
  { rewrite Hx, Hy, !map_length. destruct x, y; cbn in *; rewrite ?map_length; exact Hl. }
  rewrite (bcast_eq _ _ L). cbn [rbind]. rewrite L, Nat.eqb_refl. unfold hadamard_value. now rewrite Hx, Hy.
Qed.

Lemma zvec_len : forall d x, length (zvec d x) = d.
Proof. intros. unfold zvec. now rewrite map_length, seq_length. Qed.

Lemma hadamard_ints : forall a s t p d x y, promote s t = Some p ->
  own_powers (IHadamard a) d (NInt s x) -> own_powers (IHadamard a) d (NInt t y) -> safe p (IHadamard a) d x y ->
  kernel_body (IHadamard a) (num_vec d (NInt s x)) (num_vec d (NInt t y))
  = kernel_value (KHadamard (INR a)) (num_floats d (NInt s x)) (num_floats d (NInt t y)).
Proof.
  intros a s t p d x y Hp Hx Hy Hs.
  transitivity (ikernel_value p (IHadamard a) (zvec d x) (zvec d y)).
  2:{ rewrite (pf_C84_exact p (IHadamard a) d x y Hs). cbn [to_nkernel num_floats]. now rewrite !fl_of. }
  cbn [kernel_body ikernel_value]. rewrite !powabs_int by assumption. unfold vhadamard. cbn [common]. rewrite Hp.
  rewrite bcast_eq by (unfold zvec; now rewrite !map_length). cbn [rbind].
  rewrite !zvec_len, Nat.eqb_refl.
  unfold ihadamard. destruct Hs as [Ha Hs].
  assert (E : forall z, (forall i, (i < d)%nat -> fits p (Z.abs (z i)) /\ fits p (Z.abs (z i) ^ Z.of_nat a)) ->
    map (fun v => ipow p (iabs p v) a) (zvec d z) = zvec d (fun i => Z.abs (z i) ^ Z.of_nat a)).
  { intros z Hz. unfold zvec. rewrite map_map. apply map_ext_in. intros i Hi. apply in_seq in Hi.
    destruct (Hz i ltac:(lia)) as [H1 H2]. rewrite ipow_eq. unfold iabs. rewrite (wrap_id p (Z.abs _)) by exact H1.
    now rewrite wrap_id. }
  rewrite (E x), (E y); [reflexivity| |]; intros i Hi; destruct (Hs i Hi) as (H1 & H2 & H3 & H4 & _); auto.
Qed.

Lemma validated_num : forall k d u, (forall g, k <> IChi2 g) -> validated k (num_vec d u) = num_vec d u.
Proof. intros k d u Hk. destruct k, u; try reflexivity; exfalso; now apply (Hk gamma). Qed.

(** C87: as long as the integers in the formula of the kernel are representable, a kernel computes on
    two arrays of any numeric dtypes, with or without validation, what it computes on the same numbers
    as float64. *)
Lemma pf_C87_exact : forall skip k d u v, sound skip k d u v ->
  kernel_vec skip k (num_vec d u) (num_vec d v)
  = kernel_value (to_nkernel k) (num_floats d u) (num_floats d v).
Proof.
  intros skip k d u v (Hu & Hv & H).
  assert (Hl : vlen (num_vec d u) = vlen (num_vec d v)) by now rewrite !vlen_num.
  assert (Body : (skip = true \/ (forall g, k <> IChi2 g)) ->
    kernel_body k (num_vec d u) (num_vec d v) = kernel_value (to_nkernel k) (num_floats d u) (num_floats d v)).
  { intros Hs.
    assert (F : common (num_vec d u) (num_vec d v) = PFloat (num_floats d u) (num_floats d v) ->
      kernel_body k (num_vec d u) (num_vec d v) = kernel_value (to_nkernel k) (num_floats d u) (num_floats d v)).
    { intros Hc. rewrite <- !(as_float_num d) in *.
      destruct k; try (apply body_floats; [exact Hl|exact Hc|intros ?; discriminate]).
      cbn [to_nkernel]. apply hadamard_floats; [exact Hl| | |]; rewrite ?powabs_float, ?as_float_num by assumption; try reflexivity.
      rewrite <- !powabs_float by assumption.
      destruct u as [x|s x], v as [y|t y]; try reflexivity.
      rewrite !powabs_int by assumption. cbn [num_vec common] in Hc |- *. destruct (promote s t); [discriminate|reflexivity]. }
    destruct u as [x|s x], v as [y|t y]; try (apply F; rewrite common_num; reflexivity).
    destruct (promote s t) as [p|] eqn:Hp; [|apply F; now rewrite common_num, Hp].
    destruct (H p (proj1 (proj1 (pf_C87_common_type s t) p) Hp)) as [Hsafe Hchi].
    assert (Z : forall (Hn : forall al, k <> IHadamard al) (Hn' : forall g, k <> IChi2 g),
      kernel_body k (num_vec d (NInt s x)) (num_vec d (NInt t y))
      = kernel_value (to_nkernel k) (num_floats d (NInt s x)) (num_floats d (NInt t y))).
    { intros Hn Hn'. rewrite (body_ints k _ _ p (zvec d x) (zvec d y)); [| |exact Hl| |exact Hn|exact Hn'].
      - rewrite (pf_C84_exact p k d x y Hsafe). cbn [num_floats]. now rewrite !fl_of.
      - rewrite common_num, Hp. reflexivity.
      - now rewrite !zvec_len. }
    destruct k; try (apply Z; intros ?; discriminate).
    - now apply (hadamard_ints alpha s t p).
    - destruct Hs as [->|Hs]; [|exfalso; now apply (Hs gamma)].
      apply (chi2_ints gamma s t p); auto. exact (Hchi eq_refl). }
  destruct skip; cbn [kernel_vec]; [apply Body; now left|]. rewrite Hl, Nat.eqb_refl.
  assert (C : (exists g, k = IChi2 g) \/ forall g, k <> IChi2 g).
  { destruct k; try (right; intros ?; discriminate). left. now exists gamma. }
  destruct C as [[g ->]|C].
  - cbn [validated]. rewrite !as_float_num, body_floats; [reflexivity| |reflexivity|intros ?; discriminate].
    cbn [vlen]. rewrite <- !as_float_num. destruct u, v; cbn; now rewrite !map_length.
  - rewrite !validated_num by exact C. apply Body. now right.
Qed.

(** C87: with validation, boolean arrays are used as the numbers 0 and 1 in float64. *)
Lemma pf_C87_bool : forall k b y,
  kernel_vec false k (VBool b) y = kernel_vec false k (VFloat (map (fun v : bool => if v then Fin 1 else Fin 0) b)) y /\
  kernel_vec false k y (VBool b) = kernel_vec false k y (VFloat (map (fun v : bool => if v then Fin 1 else Fin 0) b)).
Proof.
  intros k b y.
  assert (E : as_float (VBool b) = map (fun v : bool => if v then Fin 1 else Fin 0) b).
  { cbn [as_float]. apply map_ext. now intros [|]. }
  unfold kernel_vec. rewrite <- E. cbn [vlen as_float]. rewrite !map_length.
  split; destruct (_ =? _)%nat; try reflexivity; destruct k; reflexivity.
Qed.

(** ** Arrays of different lengths *)

Lemma vdot_len : forall x y v, vdot x y = Ok v -> vlen x = vlen y.
Proof. intros x y v. unfold vdot. destruct (Nat.eqb_spec (vlen x) (vlen y)); [auto|discriminate]. Qed.

Lemma bcast_ok : forall {A B} (x : list A) (y : list B) p, bcast x y = Ok p ->
  length x = length y \/ length x = 1%nat \/ length y = 1%nat.
Proof.
  intros A B x y p. unfold bcast. destruct (Nat.eqb_spec (length x) (length y)); [auto|].
  destruct x as [|a [|a' x]], y as [|b [|b' y]]; cbn; auto; discriminate.
Qed.

Definition llen (c : operands) : nat := match c with PFloat a _ => length a | PInt _ a _ => length a | PBool a _ => length a end.
Definition rlen (c : operands) : nat := match c with PFloat _ a => length a | PInt _ _ a => length a | PBool _ a => length a end.
Lemma common_llen : forall x y, llen (common x y) = vlen x.
Proof. intros [l|s l|l] [m|t m|m]; cbn; rewrite ?map_length; try reflexivity. destruct (promote s t); cbn; now rewrite ?map_length. Qed.
Lemma common_rlen : forall x y, rlen (common x y) = vlen y.
Proof. intros [l|s l|l] [m|t m|m]; cbn; rewrite ?map_length; try reflexivity. destruct (promote s t); cbn; now rewrite ?map_length. Qed.

Lemma vsub_len : forall x y d, vsub x y = Ok d -> vlen x = vlen y \/ vlen x = 1%nat \/ vlen y = 1%nat.
Proof.
  intros x y d. rewrite <- (common_llen x y), <- (common_rlen x y). unfold vsub.
  destruct (common x y) as [a b|t a b|a b]; cbn [llen rlen]; [| |discriminate];
    destruct (bcast a b) as [p|e] eqn:E; cbn; try discriminate; intros _; now apply (bcast_ok a b p).
Qed.

Lemma vhadamard_len : forall x y v, vhadamard x y = Ok v -> vlen x = vlen y.
Proof.
  intros x y v. rewrite <- (common_llen x y), <- (common_rlen x y). unfold vhadamard.
  destruct (common x y) as [a b|t a b|a b]; cbn [llen rlen]; [| |discriminate];
    (destruct (bcast a b) as [p|e]; cbn [rbind]; [|discriminate];
     destruct (Nat.eqb_spec (length a) (length b)); [auto|discriminate]).
Qed.

(** C87: with validation, arrays of different lengths are refused with ValueError. Without, only the
    Gaussian, Laplacian and Chi2 kernels can return a value for them, and only if one length is 1. *)
Lemma pf_C87_lengths : forall k x y, vlen x <> vlen y ->
  kernel_vec false k x y = Raise ValueError /\
  forall v, kernel_vec true k x y = Ok v ->
    (vlen x = 1%nat \/ vlen y = 1%nat) /\
    ((exists s, k = IGaussian s) \/ (exists g, k = ILaplacian g) \/ (exists g, k = IChi2 g)).
Proof.
  intros k x y H. split.
  - unfold kernel_vec. apply Nat.eqb_neq in H. now rewrite H.
  - intros v. unfold kernel_vec. destruct k; cbn [kernel_body].
    + intros E. exfalso. apply H. apply vhadamard_len in E. now rewrite !powabs_len in E.
    + destruct (vdot x y) as [r|e] eqn:E; [|discriminate]. exfalso. eauto using vdot_len.
    + destruct (vsub x y) as [r|e] eqn:E; [|discriminate]. intros _. split; [|eauto].
      destruct (vsub_len _ _ _ E) as [?|?]; [contradiction|assumption].
    + destruct (vsub x y) as [r|e] eqn:E; [|discriminate]. intros _. split; [|eauto].
      destruct (vsub_len _ _ _ E) as [?|?]; [contradiction|assumption].
    + destruct (_ || _)%bool; [discriminate|]. destruct (vsub x y) as [r|e] eqn:E; [|discriminate]. intros _. split; [|eauto].
      destruct (vsub_len _ _ _ E) as [?|?]; [contradiction|assumption].
    + destruct (vdot x y) as [r|e] eqn:E; [|discriminate]. exfalso. eauto using vdot_len.
    + intros E. exfalso. eauto using vdot_len.
Qed.

(** C87: what a kernel can raise on 1-D arrays: with validation, ValueError for different lengths and
    Chi2Kernel's exception for negative numbers. Without, ValueError also for different lengths (other
    than 1 in kernels of differences), IndexError in HadamardKernel if one length is 1, TypeError in
    kernels of differences of two boolean arrays. *)
Lemma pf_C87_errors : forall skip k x y e, kernel_vec skip k x y = Raise e ->
  (e = ValueError /\ vlen x <> vlen y) \/
  (e = Chi2NegativeValues /\ exists g, k = IChi2 g) \/
  (skip = true /\ e = IndexError /\ vlen x <> vlen y /\ (vlen x = 1%nat \/ vlen y = 1%nat) /\ exists a, k = IHadamard a) \/
  (skip = true /\ e = TypeError /\ (exists a b, x = VBool a /\ y = VBool b) /\
     ((exists s, k = IGaussian s) \/ (exists g, k = ILaplacian g) \/ (exists g, k = IChi2 g))).
Proof.
  assert (BC : forall {A B} (a : list A) (b : list B) e, bcast a b = Raise e -> e = ValueError /\ length a <> length b).
  { intros A B a b e. unfold bcast. destruct (Nat.eqb_spec (length a) (length b)) as [L|L]; [discriminate|].
    destruct a as [|a0 [|a1 a]], b as [|b0 [|b1 b]]; intros E; try discriminate E; inversion E; auto. }
  assert (HV : forall x y e, vdot x y = Raise e -> e = ValueError /\ vlen x <> vlen y).
  { intros x y e. unfold vdot. destruct (Nat.eqb_spec (vlen x) (vlen y)); [discriminate|]. intros E. inversion E. auto. }
  assert (CB : forall x y a b, common x y = PBool a b -> exists a b, x = VBool a /\ y = VBool b).
  { intros [a|t a|a] [b|t' b|b] c d; cbn; try discriminate; try (destruct (promote _ _); discriminate). eauto. }
  assert (HS : forall x y e, vsub x y = Raise e ->
    (e = ValueError /\ vlen x <> vlen y) \/ (e = TypeError /\ exists a b, x = VBool a /\ y = VBool b)).
  { intros x y e. unfold vsub. pose proof (common_llen x y) as L1. pose proof (common_rlen x y) as L2. pose proof (CB x y) as C.
    destruct (common x y) as [a b|t a b|a b]; cbn [llen rlen] in *; rewrite <- ?L1, <- ?L2.
    - destruct (bcast a b) eqn:E; [discriminate|]. intros H. inversion H; subst. left. eapply BC, E.
    - destruct (bcast a b) eqn:E; [discriminate|]. intros H. inversion H; subst. left. eapply BC, E.
    - intros H. inversion H. right. split; [reflexivity|]. eapply C. reflexivity. }
  assert (HA : forall x y e, vadd x y = Raise e -> e = ValueError /\ vlen x <> vlen y).
  { intros x y e. unfold vadd. pose proof (common_llen x y) as L1. pose proof (common_rlen x y) as L2.
    destruct (common x y) as [a b|t a b|a b]; cbn [llen rlen] in *; rewrite <- ?L1, <- ?L2;
      (destruct (bcast a b) eqn:E; [discriminate|]; intros H; inversion H; subst; eapply BC, E). }
  assert (HH : forall a x y e, vhadamard (vpowabs a x) (vpowabs a y) = Raise e ->
    (e = ValueError /\ vlen x <> vlen y) \/ (e = IndexError /\ vlen x <> vlen y /\ (vlen x = 1%nat \/ vlen y = 1%nat))).
  { intros al x y e. unfold vhadamard. rewrite <- (powabs_len al x), <- (powabs_len al y).
    pose proof (common_llen (vpowabs al x) (vpowabs al y)) as L1. pose proof (common_rlen (vpowabs al x) (vpowabs al y)) as L2.
    pose proof (CB (vpowabs al x) (vpowabs al y)) as C.
    destruct (common (vpowabs al x) (vpowabs al y)) as [a b|t a b|a b]; cbn [llen rlen] in *; rewrite <- ?L1, <- ?L2.
    1, 2: (destruct (bcast a b) as [p|e'] eqn:E; cbn [rbind];
      [|intros H; inversion H; subst; left; eapply BC, E];
      destruct (Nat.eqb_spec (length a) (length b)) as [L|L]; [discriminate|]; intros H; inversion H; right;
      split; [reflexivity|]; split; [exact L|];
      unfold bcast in E; apply Nat.eqb_neq in L; rewrite L in E;
      destruct a as [|a0 [|a1 a]], b as [|b0 [|b1 b]]; try discriminate E; cbn; auto).
    destruct (C a b eq_refl) as (u & v & E & _). destruct x; discriminate E. }
  assert (K : forall k x y e, kernel_body k x y = Raise e ->
    (e = ValueError /\ vlen x <> vlen y) \/ (e = Chi2NegativeValues /\ exists g, k = IChi2 g) \/
    (e = IndexError /\ vlen x <> vlen y /\ (vlen x = 1%nat \/ vlen y = 1%nat) /\ exists a, k = IHadamard a) \/
    (e = TypeError /\ (exists a b, x = VBool a /\ y = VBool b) /\
     ((exists s, k = IGaussian s) \/ (exists g, k = ILaplacian g) \/ (exists g, k = IChi2 g)))).
  { intros k x y e. destruct k; cbn [kernel_body].
    - intros E. destruct (HH _ _ _ _ E) as [?|(? & ? & ?)]; [auto|]. right; right; left. eauto.
    - destruct (vdot x y) eqn:E; [discriminate|]. intros H. inversion H; subst. left. eapply HV, E.
    - destruct (vsub x y) eqn:E; [discriminate|]. intros H. inversion H; subst.
      destruct (HS _ _ _ E) as [?|[? ?]]; [auto|]. right; right; right. eauto.
    - destruct (vsub x y) eqn:E; [discriminate|]. intros H. inversion H; subst.
      destruct (HS _ _ _ E) as [?|[? ?]]; [auto|]. right; right; right. eauto 6.
    - destruct (_ || _)%bool.
      { intros H. inversion H. right; left. eauto. }
      destruct (vsub x y) eqn:E; cbn [rbind].
      + destruct (vadd x y) eqn:F; [discriminate|]. intros H. inversion H; subst. left. eapply HA, F.
      + intros H. inversion H; subst. destruct (HS _ _ _ E) as [?|[? ?]]; [auto|]. right; right; right. eauto 7.
    - destruct (vdot x y) eqn:E; [discriminate|]. intros H. inversion H; subst. left. eapply HV, E.
    - intros E. left. eapply HV, E. }
  intros skip k x y e. unfold kernel_vec. destruct skip.
  - intros E. destruct (K _ _ _ _ E) as [?|[?|[(? & ? & ? & ?)|(? & ? & ?)]]]; [auto|auto| |].
    + right; right; left. auto.
    + right; right; right. auto.
  - destruct (Nat.eqb_spec (vlen x) (vlen y)) as [L|L]; [|intros H; inversion H; auto].
    intros E.
    assert (V : forall v, vlen (validated k v) = vlen v).
    { intros v. destruct k, v; cbn; rewrite ?map_length; reflexivity. }
    destruct (K _ _ _ _ E) as [[_ N]|[?|[(_ & N & _)|(_ & (a & b & Ha & _) & _)]]].
    + rewrite !V in N. contradiction.
    + auto.
    + rewrite !V in N. contradiction.
    + destruct k, x; discriminate Ha.
Qed.

(** ** Symmetry *)

Definition swap (c : operands) : operands :=
  match c with PFloat a b => PFloat b a | PInt t a b => PInt t b a | PBool a b => PBool b a end.

Lemma promote_sym : forall s t, promote s t = promote t s.
Proof. intros [[| | |] [|]] [[| | |] [|]]; reflexivity. Qed.

Lemma common_sym : forall x y, common y x = swap (common x y).
Proof.
  intros [l|s l|l] [m|t m|m]; try reflexivity. cbn [common]. rewrite promote_sym.
  destruct (promote s t); reflexivity.
Qed.

Definition flip {A B} (r : res (A * B)) : res (B * A) := res_map (fun p => (snd p, fst p)) r.
Lemma bcast_sym : forall {A B} (x : list A) (y : list B), bcast y x = flip (bcast x y).
Proof.
  intros A B x y. unfold bcast, flip. rewrite (Nat.eqb_sym (length y)).
  destruct (Nat.eqb_spec (length x) (length y)); [reflexivity|].
  destruct x as [|a [|a' x]], y as [|b [|b' y]]; try reflexivity.
Qed.

Lemma vdot_sym : forall x y, vdot x y = vdot y x.
Proof.
  intros x y. unfold vdot. rewrite (Nat.eqb_sym (vlen y)). destruct (_ =? _)%nat; [|reflexivity].
  rewrite (common_sym x y). destruct (common x y) as [a b|t a b|a b]; cbn [swap]; f_equal.
  - unfold xdot. now rewrite (zip_sym xmul a b xmul_comm).
  - now rewrite idot_sym.
  - do 2 f_equal. revert b. induction a as [|u a IH]; intros [|v b]; try reflexivity. cbn. rewrite IH. f_equal. apply andb_comm.
Qed.

Lemma common_signed : forall x y t a b, ~ (unsigned x /\ unsigned y) -> common x y = PInt t a b -> i_signed t = true.
Proof.
  intros [l|s l|l] [m|t' m|m] t a b H; cbn [common]; try discriminate.
  - destruct s as [ws ss], t' as [wt st]. cbn in H. unfold promote. cbn [i_signed i_width].
    destruct ss, st; cbn.
    + intros E. injection E as <- _ _. reflexivity.
    + destruct (wider wt); cbn; intros E; [injection E as <- _ _; reflexivity|discriminate].
    + destruct (wider ws); cbn; intros E; [injection E as <- _ _; reflexivity|discriminate].
    + elim H. auto.
  - intros E. injection E as <- _ _. cbn in H. destruct (i_signed s); [reflexivity|]. elim H. auto.
  - intros E. injection E as <- _ _. cbn in H. destruct (i_signed t'); [reflexivity|]. elim H. auto.
Qed.

(** Functions of a difference that do not see its sign. *)
Lemma vsub_sym : forall {C} (f : vec -> C) x y,
  (forall a b, f (VFloat (zip xsub a b)) = f (VFloat (zip xsub b a))) ->
  (forall t a b, common x y = PInt t a b -> forall a' b', f (VInt t (zip (isub t) a' b')) = f (VInt t (zip (isub t) b' a'))) ->
  res_map f (vsub x y) = res_map f (vsub y x).
Proof.
  intros C f x y Hf Hi. unfold vsub. rewrite (common_sym x y).
  destruct (common x y) as [a b|t a b|a b] eqn:E; cbn [swap]; [| |reflexivity];
    rewrite (bcast_sym a b); destruct (bcast a b) as [[a' b']|e]; cbn; try reflexivity; f_equal; eauto.
Qed.

Lemma vadd_sym : forall x y, vadd x y = vadd y x.
Proof.
  intros x y. unfold vadd. rewrite (common_sym x y).
  destruct (common x y) as [a b|t a b|a b]; cbn [swap]; rewrite (bcast_sym a b);
    destruct (bcast a b) as [[a' b']|e]; cbn; try reflexivity; do 2 f_equal.
  - apply zip_sym, xadd_comm.
  - apply zip_sym. intros u v. unfold iadd. now rewrite Z.add_comm.
  - apply zip_sym, orb_comm.
Qed.

Lemma vhadamard_sym : forall x y, vhadamard x y = vhadamard y x.
Proof.
  intros x y. unfold vhadamard. rewrite (common_sym x y).
  destruct (common x y) as [a b|t a b|a b]; cbn [swap]; [| |reflexivity];
    rewrite (bcast_sym a b), (Nat.eqb_sym (length b)); destruct (bcast a b) as [p|e]; cbn; try reflexivity;
    (destruct (_ =? _)%nat; [|reflexivity]); do 2 f_equal.
  - rewrite (zip_sym (fun u v => (xmul u v, xmul (Fin 2) (xadd u v)))); [reflexivity|].
    intros u v. now rewrite xmul_comm, xadd_comm.
  - rewrite (zip_sym (fun u v => (imul t u v, imul t 2 (iadd t u v)))); [reflexivity|].
    intros u v. unfold imul, iadd. now rewrite (Z.mul_comm u v), (Z.add_comm u v).
Qed.

Lemma norm_sub_sym : forall a b, xnorm2 (zip xsub a b) = xnorm2 (zip xsub b a).
Proof.
  intros a b. unfold xnorm2, xdot. rewrite !zip_map_self, !map_zip.
  rewrite (zip_sym (fun a b => xmul (xsub a b) (xsub a b)) a b); [reflexivity|]. intros; apply xsqr_sub.
Qed.

Lemma square_sub_sym : forall t a b, ipow t (isub t a b) 2 = ipow t (isub t b a) 2.
Proof.
  intros t a b. rewrite !ipow_eq. change (Z.of_nat 2) with 2. rewrite !Z.pow_2_r. unfold isub. apply wrap_eq.
  rewrite !(Zmult_mod (wrap t _) (wrap t _)), !wrap_mod, <- !Zmult_mod. f_equal. ring.
Qed.

Lemma body_sym : forall k x y,
  ~ (unsigned x /\ unsigned y) \/ (forall s, k <> IGaussian s) /\ (forall g, k <> ILaplacian g) ->
  kernel_body k x y = kernel_body k y x.
Proof.
  intros k x y H. destruct k; cbn [kernel_body].
  - apply vhadamard_sym.
  - now rewrite vdot_sym.
  - destruct H as [H|[H _]]; [|now destruct (H sigma)]. apply vsub_sym.
    + intros a b. cbn [as_float]. now rewrite norm_sub_sym.
    + intros t a b E a' b'. cbn [as_float]. apply common_signed in E; [|exact H].
      assert (S : xnorm2 (map ofZ (zip (isub t) a' b')) = xnorm2 (map ofZ (zip (isub t) b' a'))); [|now rewrite S].
      unfold xnorm2, xdot. rewrite !zip_map_self, !map_map, !map_zip.
      rewrite (zip_sym (fun a b => xmul (ofZ (isub t a b)) (ofZ (isub t a b))) a' b'); [reflexivity|].
      intros u v. unfold ofZ. cbn. rewrite <- !mult_IZR. now rewrite isub_sqr.
  - destruct H as [H|[_ H]]; [|now destruct (H gamma)]. apply vsub_sym.
    + intros a b. cbn [vsumabs]. now rewrite !map_zip, (zip_sym (fun a b => xabs (xsub a b)) a b xabs_sub).
    + intros t a b E a' b'. apply common_signed in E; [|exact H]. cbn [vsumabs].
      rewrite !map_zip, (zip_sym (fun a b => iabs t (isub t a b)) a' b'); [reflexivity|].
      intros u v. now apply isub_abs.
  - rewrite orb_comm. destruct (_ || _)%bool; [reflexivity|]. rewrite (vadd_sym y x).
    assert (S : res_map (fun d => as_float (vsquare d)) (vsub x y) = res_map (fun d => as_float (vsquare d)) (vsub y x)).
    { apply vsub_sym.
      - intros a b. cbn [vsquare as_float]. rewrite !map_zip.
        apply (zip_sym (fun a b => xmul (xsub a b) (xsub a b))). intros; apply xsqr_sub.
      - intros t a b _ a' b'. cbn [vsquare as_float]. rewrite !map_zip.
        apply (zip_sym (fun a b => ofZ (ipow t (isub t a b) 2))). intros. now rewrite square_sub_sym. }
    destruct (vsub x y) as [d1|e1], (vsub y x) as [d2|e2]; cbn [res_map rbind] in *; try discriminate.
    + injection S as S. now rewrite S.
    + injection S as ->. reflexivity.
  - now rewrite vdot_sym.
  - apply vdot_sym.
Qed.

(** C87: a kernel is symmetric, whatever the two dtypes and lengths, with or without validation; only
    the Gaussian and the Laplacian kernel of two unsigned (or boolean) arrays are an exception (C84). *)
Lemma pf_C87_symmetric : forall skip k x y,
  ~ (unsigned x /\ unsigned y) \/ (forall s, k <> IGaussian s) /\ (forall g, k <> ILaplacian g) ->
  kernel_vec skip k x y = kernel_vec skip k y x.
Proof.
  intros skip k x y H. unfold kernel_vec. destruct skip; [now apply body_sym|].
  rewrite (Nat.eqb_sym (vlen y)). destruct (_ =? _)%nat; [|reflexivity]. apply body_sym.
  destruct H as [H|H]; [left|now right]. intros [Hx Hy]. apply H.
  destruct k, x, y; cbn in *; auto; contradiction.
Qed.

(** ** What validation protects from *)

Lemma map_ofB : forall l, map (fun v : bool => ofZ (ofB v)) l = map (fun v => Fin (bit v)) l.
Proof. intros l. apply map_ext. now intros [|]. Qed.

(** C87, booleans without validation: two boolean arrays of the same length have the linear kernel 1 or 0,
    whether some position is True in both or not; polynomial and sigmoid kernels use that number; the three
    kernels of differences raise TypeError. *)
Lemma pf_C87_bool_unvalidated : forall d (x y : nat -> bool),
  let u := VBool (map x (seq 0 d)) in let v := VBool (map y (seq 0 d)) in
  exists s, (s = 1%R /\ (exists i, (i < d)%nat /\ x i = true /\ y i = true) \/
             s = 0%R /\ (forall i, (i < d)%nat -> x i = false \/ y i = false)) /\
    kernel_vec true ILinear u v = Ok (Fin s) /\
    (forall degree gamma b, kernel_vec true (IPoly degree gamma b) u v = Ok (xpow (Fin (b + gamma * s)) degree)) /\
    (forall gamma offset, kernel_vec true (ISigmoid gamma offset) u v = Ok (xtanh (Fin (offset + gamma * s)))) /\
    (forall gamma, kernel_vec true (ILaplacian gamma) u v = Raise TypeError) /\
    (forall gamma, kernel_vec true (IChi2 gamma) u v = Raise TypeError) /\
    (forall sigma, kernel_vec true (IGaussian sigma) u v = Raise TypeError).
Proof.
  intros d x y u v.
  set (t := existsb (fun p => fst p && snd p) (combine (map x (seq 0 d)) (map y (seq 0 d)))).
  assert (D : vdot u v = Ok (Fin (bit t))).
  { unfold vdot, u, v. cbn [vlen common]. rewrite !map_length, Nat.eqb_refl. fold t. now destruct t. }
  assert (T : t = existsb (fun i => x i && y i) (seq 0 d)).
  { unfold t. clear. generalize (seq 0 d). intros l. induction l as [|i l IH]; [reflexivity|]. cbn [map combine existsb fst snd]. now rewrite IH. }
  exists (bit t). split.
  - destruct t eqn:Et.
    + left. split; [reflexivity|]. symmetry in T. apply existsb_exists in T. destruct T as (i & Hi & E). apply in_seq in Hi.
      apply andb_true_iff in E. exists i. split; [lia|tauto].
    + right. split; [reflexivity|]. intros i Hi. destruct (x i) eqn:Ex, (y i) eqn:Ey; auto. exfalso.
      assert (true = false) as F; [|discriminate F]. rewrite T. symmetry. apply existsb_exists. exists i. split; [apply in_seq; lia|].
      now rewrite Ex, Ey.
  - unfold kernel_vec. cbn [kernel_body]. rewrite D. repeat split.
Qed.

(** C87, booleans without validation against another array: a boolean array is used as the numbers 0 and 1
    in the dtype of a numeric array, except that HadamardKernel always makes it int64. *)
Lemma pf_C87_bool_promoted : forall k b y, (forall a, k <> IHadamard a) ->
  (forall l, y = VFloat l -> kernel_vec true k (VBool b) y = kernel_vec true k (VFloat (map (fun v => Fin (bit v)) b)) y /\
                             kernel_vec true k y (VBool b) = kernel_vec true k y (VFloat (map (fun v => Fin (bit v)) b))) /\
  (forall t l, y = VInt t l -> kernel_vec true k (VBool b) y = kernel_vec true k (VInt t (map (fun v : bool => if v then 1 else 0) b)) y /\
                               kernel_vec true k y (VBool b) = kernel_vec true k y (VInt t (map (fun v : bool => if v then 1 else 0) b))).
Proof.
  intros k b y Hk.
  assert (F : forall u w, vlen u = vlen w -> vneg u = vneg w -> common u y = common w y -> common y u = common y w ->
            kernel_vec true k u y = kernel_vec true k w y /\ kernel_vec true k y u = kernel_vec true k y w).
  { intros u w Hl Hn C1 C2. unfold kernel_vec. destruct k; try (now destruct (Hk alpha)); cbn [kernel_body];
      unfold vdot, vsub, vadd; rewrite ?C1, ?C2, ?Hl, ?Hn; split; reflexivity. }
  assert (P : forall t, promote t t = Some t).
  { intros [w [|]]; unfold promote, wmax; cbn; now rewrite Nat.leb_refl. }
  split.
  - intros l ->. apply F; cbn [vlen vneg common as_float]; rewrite ?map_length, ?map_ofB; try reflexivity.
    clear. induction b as [|[|] b IH]; cbn [map existsb bit]; [reflexivity| |]; rewrite <- IH, orb_false_r; unfold xltb, Rltb.
    + destruct (Rlt_dec 1 0); [lra|reflexivity].
    + destruct (Rlt_dec 0 0); [lra|reflexivity].
  - intros t l ->. apply F; cbn [vlen vneg common]; rewrite ?map_length, ?P; try reflexivity.
    clear. now induction b as [|[|] b IH]; cbn [map existsb].
Qed.

(** C87, HadamardKernel on booleans without validation: as on the int64 array of the numbers 0 and 1. *)
Lemma pf_C87_bool_hadamard : forall a b y, 
  kernel_vec true (IHadamard a) (VBool b) y = kernel_vec true (IHadamard a) (VInt (mkIt W64 true) (map (fun v : bool => if v then 1 else 0) b)) y /\
  kernel_vec true (IHadamard a) y (VBool b) = kernel_vec true (IHadamard a) y (VInt (mkIt W64 true) (map (fun v : bool => if v then 1 else 0) b)).
Proof.
  intros a b y. unfold kernel_vec. cbn [kernel_body vpowabs]. rewrite map_map.
  assert (E : map (fun v => ipow (mkIt W64 true) (ofB v) a) b
              = map (fun v : bool => ipow (mkIt W64 true) (iabs (mkIt W64 true) (if v then 1 else 0)) a) b).
  { apply map_ext. now intros [|]. }
  now rewrite E.
Qed.

(** C87 is false for boolean data without validation: the Laplacian and the Gaussian kernel raise
    TypeError (numpy has no difference of booleans), and a linear kernel returns 1 instead of 2. *)
Lemma pf_C87_bool_refuted : exists b,
  (forall gamma, kernel_vec false (ILaplacian gamma) (VBool b) (VBool b) = Ok (Fin 1) /\
                 kernel_vec true (ILaplacian gamma) (VBool b) (VBool b) = Raise TypeError) /\
  (forall sigma, sigma <> NaN ->
     kernel_vec false (IGaussian sigma) (VBool b) (VBool b) = Ok (Fin 1) /\
     kernel_vec true (IGaussian sigma) (VBool b) (VBool b) = Raise TypeError) /\
  kernel_vec false ILinear (VBool b) (VBool b) = Ok (Fin 2) /\
  kernel_vec true ILinear (VBool b) (VBool b) = Ok (Fin 1).
Proof.
  exists [true; true].
  assert (E : forall k, kernel_vec false k (VBool [true; true]) (VBool [true; true])
                        = kernel_vec false k (num_vec 2 (NFloat (fun _ => Fin 1))) (num_vec 2 (NFloat (fun _ => Fin 1)))).
  { intros k. rewrite (proj1 (pf_C87_bool k _ _)), (proj2 (pf_C87_bool k _ _)). reflexivity. }
  assert (F : forall k, (forall a, k <> IHadamard a) ->
    kernel_vec false k (VBool [true; true]) (VBool [true; true])
    = kernel_value (to_nkernel k) (map (fun _ => Fin 1) (seq 0 2)) (map (fun _ => Fin 1) (seq 0 2))).
  { intros k Hk. rewrite E, pf_C87_exact; [reflexivity|]. split; [|split]; [| |exact I]; destruct k; exact I. }
  split; [|split; [|split]].
  - intros gamma. split; [|reflexivity]. rewrite F by (intros ?; discriminate).
    cbn [to_nkernel kernel_value]. cbn. do 2 f_equal. rewrite Rplus_opp_r, Rabs_R0, !Rplus_0_l, Rmult_0_r. apply exp_0.
  - intros sigma Hs. split; [|reflexivity]. rewrite F by (intros ?; discriminate).
    cbn [to_nkernel kernel_value]. destruct (gaussian_gamma_bounds sigma Hs) as (g & Hg & _). rewrite Hg.
    cbn. rewrite Rplus_opp_r, Rmult_0_r, !Rplus_0_l. destruct (Rlt_dec 0 0); [lra|]. cbn. rewrite sqrt_0, Rmult_0_r, Rmult_0_r.
    now rewrite exp_0.
  - rewrite F by (intros ?; discriminate). cbn. do 2 f_equal. ring.
  - reflexivity.
Qed.

(** C87 is false for integers without validation: Chi2Kernel computes (x - y)^2 and x + y modulo 256 on
    uint8 data. *)
Lemma pf_C87_chi2_refuted : exists x y, fits uint8 x /\ fits uint8 y /\
  forall gamma, (gamma <> 0)%R -> exists a b,
    kernel_vec false (IChi2 gamma) (VInt uint8 [x]) (VInt uint8 [y]) = Ok (Fin a) /\
    kernel_vec true (IChi2 gamma) (VInt uint8 [x]) (VInt uint8 [y]) = Ok (Fin b) /\ a <> b.
Proof.
  exists 200, 100. split; [vm_compute; split; congruence|]. split; [vm_compute; split; congruence|].
  intros gamma Hg. exists (exp (- gamma * (10000 / 300))), (exp (- gamma * (16 / 44))). split; [|split].
  - change (VInt uint8 [200]) with (num_vec 1 (NInt uint8 (fun _ => 200))).
    change (VInt uint8 [100]) with (num_vec 1 (NInt uint8 (fun _ => 100))).
    rewrite pf_C87_exact.
    2:{ split; [exact I|]. split; [exact I|]. intros p _. split; [exact I|discriminate]. }
    cbn [num_floats seq map to_nkernel kernel_value existsb]. rewrite !(xltb_IZR _ 0).
    change (200 <? 0) with false. change (100 <? 0) with false. cbn [orb].
    unfold xnansum, zip. cbn [combine map fst snd]. unfold xsub. cbn [xopp xadd xmul xdiv].
    destruct (Req_EM_T (200 + 100) 0) as [H|H]; [lra|]. cbn [filter x_isnan negb xsum fold_right xadd xmul xexp].
    do 3 f_equal. field.
  - unfold kernel_vec. cbn [kernel_body vneg existsb]. change (200 <? 0) with false. change (100 <? 0) with false.
    cbn [orb]. unfold vsub, vadd. cbn [common]. change (promote uint8 uint8) with (Some uint8).
    cbv beta iota. rewrite !bcast_eq by reflexivity. cbn [res_map rbind fst snd]. unfold zip. cbn [combine map fst snd vsquare as_float].
    change (ipow uint8 (isub uint8 200 100) 2) with 16. change (iadd uint8 200 100) with 44.
    unfold ofZ, xnansum. cbn [combine map fst snd xdiv].
    destruct (Req_EM_T 44 0) as [H|H]; [lra|]. cbn [filter x_isnan negb xsum fold_right xadd xmul xexp].
    do 3 f_equal. field.
  - apply exp_ne. intros H. apply Hg. lra.
Qed.

(** C87 is false for arrays of different lengths without validation: the Laplacian kernel returns a
    number for arrays of lengths 1 and 2. *)
Lemma pf_C87_lengths_refuted : forall gamma, exists x y r, length x <> length y /\
  kernel_vec false (ILaplacian gamma) (VFloat x) (VFloat y) = Raise ValueError /\
  kernel_vec true (ILaplacian gamma) (VFloat x) (VFloat y) = Ok (Fin r).
Proof.
  intros gamma. exists [Fin 1], [Fin 2; Fin 3]. eexists. split; [cbn; lia|]. split; [reflexivity|].
  unfold kernel_vec. cbn. reflexivity.
Qed.

(** C87 is false for a KernelMatrix whose kernel skips the validation: after an attach_to that was refused
    because the samples have different numbers of columns, [full] is a matrix of kernel values between
    rows of one and two columns. With validation it raises RuntimeError. *)
Lemma pf_C87_refused_attach_refuted : forall gamma, exists x x' y r,
  nd_shape x' = [1; 1]%nat /\ nd_shape y = [1; 2]%nat /\
  trace (U := unit) xN [OpAttach x None; OpAttach x' (Some y); OpFull] (km_new (builtin_vec true (ILaplacian gamma)) false [])
  = [Ok OUnit; Raise ValueError; Ok (OArr (mkArr Dense (rmat 1 1 (fun _ _ => r))))] /\
  trace (U := unit) xN [OpAttach x None; OpAttach x' (Some y); OpFull] (km_new (builtin_vec false (ILaplacian gamma)) false [])
  = [Ok OUnit; Raise ValueError; Raise RuntimeError].
Proof.
  intros gamma. exists (mkNd [1; 1]%nat [EF (Fin 0)]), (mkNd [1; 1]%nat [EF (Fin 1)]), (mkNd [1; 2]%nat [EF (Fin 2); EF (Fin 3)]).
  eexists. split; [reflexivity|]. split; [reflexivity|]. split; cbn; reflexivity.
Qed.

(** ** Kernel matrices over two samples of different dtypes *)

Lemma dsample_row : forall n d D i, (i < n)%nat -> row_of d (data_sample n d D) i = map (data_elt D i) (seq 0 d).
Proof.
  intros n d D i Hi. unfold row_of, data_sample. cbn [nd_data].
  assert (H : forall s n, (i < n)%nat ->
    firstn d (skipn (i * d) (flat_map (fun i => map (data_elt D i) (seq 0 d)) (seq s n)))
    = map (data_elt D (s + i)%nat) (seq 0 d)); [|apply (H 0%nat n Hi)].
  clear n Hi. induction i as [|i IH]; intros s n Hi; (destruct n as [|n]; [lia|]); cbn [seq flat_map].
  - cbn [Nat.mul skipn]. rewrite Nat.add_0_r.
    rewrite firstn_app, map_length, seq_length, Nat.sub_diag. cbn [firstn].
    rewrite app_nil_r, firstn_all2; [reflexivity|]. rewrite map_length, seq_length. lia.
  - cbn [Nat.mul]. rewrite skipn_app, map_length, seq_length.
    replace (d + i * d - d)%nat with (i * d)%nat by lia.
    rewrite (skipn_all2 (n := (d + i * d)%nat) (map _ _)); [|rewrite map_length, seq_length; lia].
    cbn [app]. rewrite (IH (S s) n) by lia. now rewrite Nat.add_succ_r.
Qed.

Lemma row_vec_data : forall d D i, (0 < d)%nat -> ~ boolean D -> row_vec (map (data_elt D i) (seq 0 d)) = num_vec d (data_row D i).
Proof.
  intros [|d] D i Hd Hb; [lia|]. destruct D as [X|t X|X]; [| |now destruct Hb; exists X]; cbn; f_equal; f_equal; now rewrite map_map.
Qed.

Lemma row_vec_bool : forall d X i, (0 < d)%nat ->
  row_vec (map (data_elt (DBool X) i) (seq 0 d)) = VBool (map (X i) (seq 0 d)).
Proof. intros [|d] X i Hd; [lia|]. cbn. f_equal. f_equal. now rewrite map_map. Qed.

Lemma bool_floats : forall (b : nat -> bool) l,
  map (fun v : bool => if v then Fin 1 else Fin 0) (map b l) = map (fun q => Fin (bit (b q))) l.
Proof. intros b l. rewrite map_map. apply map_ext. intros q. now destruct (b q). Qed.

Lemma kernel_row_data : forall skip k d D E i j, (0 < d)%nat -> (skip = true -> ~ boolean D /\ ~ boolean E) ->
  kernel_vec skip k (row_vec (map (data_elt D i) (seq 0 d))) (row_vec (map (data_elt E j) (seq 0 d)))
  = kernel_vec skip k (num_vec d (data_row D i)) (num_vec d (data_row E j)).
Proof.
  intros skip k d D E i j Hd Hb. destruct skip.
  - destruct (Hb eq_refl). now rewrite !row_vec_data.
  - assert (L : forall y, kernel_vec false k (row_vec (map (data_elt D i) (seq 0 d))) y
                          = kernel_vec false k (num_vec d (data_row D i)) y).
    { intros y. destruct D as [X|t X|X]; try (rewrite row_vec_data; [reflexivity|exact Hd|intros [? H]; discriminate]).
      rewrite row_vec_bool, (proj1 (pf_C87_bool k _ y)), bool_floats by exact Hd. reflexivity. }
    assert (R : forall y, kernel_vec false k y (row_vec (map (data_elt E j) (seq 0 d)))
                          = kernel_vec false k y (num_vec d (data_row E j))).
    { intros y. destruct E as [X|t X|X]; try (rewrite row_vec_data; [reflexivity|exact Hd|intros [? H]; discriminate]).
      rewrite row_vec_bool, (proj2 (pf_C87_bool k _ y)), bool_floats by exact Hd. reflexivity. }
    now rewrite L, R.
Qed.

Lemma dsample_adm : forall n m d X Y, admissible (data_sample n d X) (Some (data_sample m d Y)) n m d.
Proof. intros. split; exists []; split; try reflexivity; constructor. Qed.

Definition dvalue (skip : bool) (k : ikernel) (u v : list elt) : xr :=
  match kernel_vec skip k (row_vec u) (row_vec v) with Ok r => r | Raise _ => NaN end.

Lemma body_total : forall k d u v, (forall g, k = IChi2 g -> vneg (num_vec d u) = false /\ vneg (num_vec d v) = false) ->
  exists r, kernel_body k (num_vec d u) (num_vec d v) = Ok r.
Proof.
  intros k d u v H. assert (Hl : vlen (num_vec d u) = vlen (num_vec d v)) by now rewrite !vlen_num.
  assert (B : forall {A} (f g : nat -> A), bcast (map f (seq 0 d)) (map g (seq 0 d)) = Ok (map f (seq 0 d), map g (seq 0 d))).
  { intros A f g. apply bcast_eq. now rewrite !map_length. }
  assert (S : exists s, vsub (num_vec d u) (num_vec d v) = Ok s).
  { unfold vsub. rewrite common_num. destruct u as [x|s x], v as [y|t y]; unfold zvec; cbn [num_floats];
      try destruct (promote s t); rewrite ?B; cbn; eauto. }
  assert (P : exists s, vadd (num_vec d u) (num_vec d v) = Ok s).
  { unfold vadd. rewrite common_num. destruct u as [x|s x], v as [y|t y]; unfold zvec; cbn [num_floats];
      try destruct (promote s t); rewrite ?B; cbn; eauto. }
  assert (D : exists s, vdot (num_vec d u) (num_vec d v) = Ok s).
  { unfold vdot. rewrite Hl, Nat.eqb_refl. eauto. }
  destruct S as [s S], P as [p P], D as [q D].
  destruct k; cbn [kernel_body]; rewrite ?S, ?P, ?D; cbn [res_map rbind]; eauto.
  - unfold vhadamard. destruct u as [x|ts x], v as [y|ty y]; cbn [num_vec vpowabs common as_float]; try destruct (promote ts ty);
      rewrite bcast_eq by (now rewrite !map_length); cbn [rbind]; rewrite !map_length, Nat.eqb_refl; eauto.
  - destruct (H gamma eq_refl) as [-> ->]. cbn [orb]. eauto.
Qed.

Lemma chi2_nonneg : forall g x y r, kernel_value (KChi2 g) x y = Ok r ->
  existsb (fun v => xltb v (Fin 0)) x = false /\ existsb (fun v => xltb v (Fin 0)) y = false.
Proof.
  intros g x y r. cbn [kernel_value]. destruct (existsb _ x); [discriminate|]. destruct (existsb _ y); [discriminate|auto].
Qed.

Lemma data_floats : forall d D i, num_floats d (data_row D i) = map (fun q => Fin (data_real D i q)) (seq 0 d).
Proof. intros d [X|t X|X] i; reflexivity. Qed.

Lemma dkernel_total : forall skip k n m d X Y A, (0 < n)%nat -> (0 < m)%nat -> (0 < d)%nat ->
  (skip = true -> ~ boolean X /\ ~ boolean Y) ->
  finite_on (to_nkernel k) d n m (data_real X) (data_real Y) A ->
  never_raises (builtin_vec skip k) (dvalue skip k) (data_sample n d X) (Some (data_sample m d Y)) n m d.
Proof.
  intros skip k n m d X Y A Hn Hm Hd Hb HA.
  assert (NX : forall g i, k = IChi2 g -> (i < n)%nat -> vneg (num_vec d (data_row X i)) = false).
  { intros g i -> Hi. rewrite vneg_float, as_float_num, data_floats. apply (chi2_nonneg g _ _ _ (HA i 0%nat Hi Hm)). }
  assert (NY : forall g j, k = IChi2 g -> (j < m)%nat -> vneg (num_vec d (data_row Y j)) = false).
  { intros g j -> Hj. rewrite vneg_float, as_float_num, data_floats. apply (chi2_nonneg g _ _ _ (HA 0%nat j Hn Hj)). }
  assert (T : forall u v, (forall g, k = IChi2 g -> vneg (num_vec d u) = false /\ vneg (num_vec d v) = false) ->
    exists r, kernel_vec skip k (num_vec d u) (num_vec d v) = Ok r).
  { intros u v H. unfold kernel_vec. destruct skip; [now apply body_total|]. rewrite !vlen_num, Nat.eqb_refl.
    assert (W : forall w, exists w', validated k (num_vec d w) = num_vec d w' /\ vneg (num_vec d w') = vneg (num_vec d w)).
    { intros w. destruct k; cbn [validated]; try (exists w; split; [now destruct w|reflexivity]).
      destruct w as [x|t x].
      - exists (NFloat x). split; reflexivity.
      - exists (NFloat (fun i => Fin (IZR (x i)))). rewrite !vneg_float, !as_float_num. split; reflexivity. }
    destruct (W u) as (u' & -> & Eu), (W v) as (v' & -> & Ev). apply body_total. intros g Hg. rewrite Eu, Ev. now apply (H g). }
  assert (R : forall u, is_row (data_sample n d X) (Some (data_sample m d Y)) n m d u ->
    exists D i, u = map (data_elt D i) (seq 0 d) /\ (D = X \/ D = Y) /\
      forall g, k = IChi2 g -> vneg (num_vec d (data_row D i)) = false).
  { intros u (i & [[Hi ->]|[Hi ->]]); rewrite dsample_row by assumption; do 2 eexists; (split; [reflexivity|]); split; eauto. }
  intros c u v Hu Hv. cbn [builtin_vec kf]. destruct (R u Hu) as (D & i & Eu & HD & Hw), (R v Hv) as (E & j & Ev & HE & Hw').
  unfold dvalue. rewrite Eu, Ev, kernel_row_data; [|exact Hd|].
  - destruct (T (data_row D i) (data_row E j)) as [r ->]; [|reflexivity]. intros g Hg. split; eauto.
  - intros Hs. destruct (Hb Hs), HD as [->| ->], HE as [->| ->]; auto.
Qed.

(** C87, matrices: for two samples of any numeric dtypes whose pairs of rows are sound, [full] is the
    matrix of the kernel on the same numbers in float64, after any history without the two sparse
    accesses, with or without validation. With validation, samples may be boolean. *)
Lemma pf_C87_matrix :
  forall {U} skip k (pre post : list (op elt U)) n m d X Y A,
    (0 < n)%nat -> (0 < m)%nat -> (0 < d)%nat ->
    (skip = true -> ~ boolean X /\ ~ boolean Y) ->
    finite_on (to_nkernel k) d n m (data_real X) (data_real Y) A ->
    (forall i j, (i < n)%nat -> (j < m)%nat -> sound skip k d (data_row X i) (data_row Y j)) ->
    no_attach post -> no_full_sparse post -> no_whole_index n m post ->
    outcome xN OpFull (after xN (builtin_vec skip k) false pre (data_sample n d X) (Some (data_sample m d Y)) post)
    = Ok (OArr (mkArr Dense (rmat n m A))).
Proof.
  intros U skip k pre post n m d X Y A Hn Hm Hd Hb HA Hs Hno Hfs Hwi.
  rewrite (pf_C04_full_partial xN (builtin_vec skip k) (dvalue skip k) pre post _ _ n m d
             (dkernel_total skip k n m d X Y A Hn Hm Hd Hb HA) eq_refl (dsample_adm n m d X Y) Hno Hfs Hwi).
  do 3 f_equal. apply tabulate_ext. intros i j Hi Hj. unfold entry.
  rewrite !dsample_row by assumption. unfold dvalue. rewrite kernel_row_data by assumption.
  rewrite pf_C87_exact by now apply Hs. rewrite !data_floats, (HA i j Hi Hj). reflexivity.
Qed.

(** C87 is false for boolean samples without validation: [full] of a linear kernel contains 1 instead of 2, and
    that of a Laplacian kernel raises RuntimeError. *)
Lemma pf_C87_bool_matrix_refuted : exists X,
  finite_on KLinear 2 1 1 (data_real (DBool X)) (data_real (DBool X)) (fun _ _ => 2%R) /\
  outcome xN OpFull (after (U := unit) xN (builtin_vec false ILinear) false [] (data_sample 1 2 (DBool X)) None [])
  = Ok (OArr (mkArr Dense (rmat 1 1 (fun _ _ => 2%R)))) /\
  outcome xN OpFull (after (U := unit) xN (builtin_vec true ILinear) false [] (data_sample 1 2 (DBool X)) None [])
  = Ok (OArr (mkArr Dense (rmat 1 1 (fun _ _ => 1%R)))) /\
  forall gamma,
    outcome xN OpFull (after (U := unit) xN (builtin_vec true (ILaplacian gamma)) false [] (data_sample 1 2 (DBool X)) None [])
    = Raise RuntimeError.
Proof.
  exists (fun _ _ => true). split; [|split; [|split]].
  - intros i j Hi Hj. cbn. do 2 f_equal. ring.
  - cbn. replace (1 * 1 + (1 * 1 + 0))%R with 2%R by ring. reflexivity.
  - reflexivity.
  - intros gamma. reflexivity.
Qed.

(*BEGIN PROP*)
(** C87 on concrete data: uint8 against int8 (the common dtype is int16), uint64 against int8 (none),
    a sound pair of a uint8 and a float64 array, and the hypotheses of C87_matrix for a linear kernel on the
    uint8 sample [[200, 2], [3, 4]] and the float64 sample [[1/2, -1]]. *)
Example C87_example :
  common_type uint8 int8 (mkIt W16 true) /\
  (forall p, ~ common_type (mkIt W64 false) int8 p) /\
  sound true (IHadamard 3) 2 (NInt uint8 (fun i => Z.of_nat (i + 1))) (NFloat (fun _ => Fin (1/2))) /\
  sound true (ILaplacian 1) 1 (NInt uint8 (fun _ => 200)) (NInt int8 (fun _ => -100)) /\
  kernel_vec false ILinear (VInt uint8 [200; 2]) (VInt int8 [-100; 1]) = Ok (Fin (-19998)) /\
  (let X := DInt uint8 (fun i q => nth q (nth i [[200; 2]; [3; 4]] []) 0) in
   let Y := DFloat (fun _ q => nth q [1/2; -1] 0)%R in
   finite_on KLinear 2 2 1 (data_real X) (data_real Y)
     (fun i j => inner 2 (data_real X i) (data_real Y j)) /\
   (forall i j, sound true ILinear 2 (data_row X i) (data_row Y j))).
Proof.
  split; [apply (proj1 (pf_C87_common_type uint8 int8)); reflexivity|]. split.
  { intros p H. apply (proj1 (pf_C87_common_type (mkIt W64 false) int8)) in H. discriminate. }
  split.
  { split; [|split; exact I]. split; [lia|]. intros i Hi. assert (C : i = 0%nat \/ i = 1%nat) by lia.
    destruct C as [->| ->]; vm_compute; repeat split; congruence. }
  split.
  { split; [exact I|]. split; [exact I|]. intros p Hp. apply (proj1 (pf_C87_common_type uint8 int8)) in Hp.
    injection Hp as <-. split; [|exact (fun _ => I)]. split; [|vm_compute; split; congruence].
    intros i _. split; vm_compute; split; congruence. }
  split; [reflexivity|]. cbn zeta. split.
  - intros i j _ _. cbn [kernel_value]. now rewrite xdot_fin.
  - intros i j. repeat split.
Qed.
(*END PROP*)
