(** C76, C77: the kernels and normalize_km in double precision. *)
From Coq Require Import ZArith Bool List Permutation Lia Floats.SpecFloat.
Import ListNotations.
From Verif Require Import Prelude KernelsModel FloatModel SpecFloats.

Lemma fadd_comm : forall x y, fadd x y = fadd y x.
Proof.
  intros [sx|sx| |sx mx ex] [sy|sy| |sy my ey]; unfold fadd, SFadd; try reflexivity.
  - destruct sx, sy; reflexivity.
  - destruct sx, sy; reflexivity.
  - rewrite (Z.min_comm ey ex). cbv zeta. rewrite Z.add_comm. reflexivity.
Qed.

Lemma fmul_comm : forall x y, fmul x y = fmul y x.
Proof.
  intros [sx|sx| |sx mx ex] [sy|sy| |sy my ey]; unfold fmul, SFmul; try reflexivity;
    try (rewrite (xorb_comm sx sy); reflexivity).
  rewrite (xorb_comm sx sy), (Pos.mul_comm mx my), (Z.add_comm ex ey). reflexivity.
Qed.

Lemma round_aux_opp : forall s m e l,
  binary_round_aux 53 1024 (negb s) m e l = SFopp (binary_round_aux 53 1024 s m e l).
Proof.
  intros s m e l. unfold binary_round_aux. destruct (shr_fexp 53 1024 m e l) as [mrs e'].
  destruct (shr_fexp 53 1024 (round_nearest_even (shr_m mrs) (loc_of_shr_record mrs)) e' loc_Exact) as [mrs2 e2].
  destruct (shr_m mrs2); try reflexivity. destruct (e2 <=? 1024 - 53)%Z; reflexivity.
Qed.

Lemma round_opp : forall s m e, binary_round 53 1024 (negb s) m e = SFopp (binary_round 53 1024 s m e).
Proof.
  intros s m e. unfold binary_round. destruct (shl_align _ _ _) as [mz ez]. apply round_aux_opp.
Qed.

(** Exchanging the operands of a subtraction changes at most the sign. *)
Lemma fsub_swap : forall x y, fsub y x = fsub x y \/ fsub y x = fopp (fsub x y).
Proof.
  intros [sx|sx| |sx mx ex] [sy|sy| |sy my ey]; unfold fsub, SFsub, fopp, SFopp; try (left; reflexivity);
    try (right; reflexivity); try (right; rewrite negb_involutive; reflexivity).
  - destruct sx, sy; cbn; auto.
  - destruct sx, sy; cbn; auto.
  - rewrite (Z.min_comm ey ex). cbv zeta.
    set (a := cond_Zopp sx _). set (b := cond_Zopp sy _).
    replace (b - a)%Z with (- (a - b))%Z by lia.
    destruct (a - b)%Z as [|p|p]; cbn [binary_normalize Z.opp]; [left; reflexivity | right | right].
    + exact (round_opp false p _).
    + exact (round_opp true p _).
Qed.

Lemma fabs_opp : forall x, fabs (fopp x) = fabs x.
Proof. intros [s|s| |s m e]; reflexivity. Qed.

Lemma fmul_opp2 : forall x, fmul (fopp x) (fopp x) = fmul x x.
Proof. intros [s|s| |s m e]; unfold fmul, SFmul, fopp, SFopp; try reflexivity; destruct s; reflexivity. Qed.

Lemma fabs_swap : forall x y, fabs (fsub x y) = fabs (fsub y x).
Proof. intros x y. destruct (fsub_swap x y) as [H | H]; rewrite H; [reflexivity | symmetry; apply fabs_opp]. Qed.

Lemma zip_swap : forall {A B} (f g : A -> A -> B) x y, (forall a b, f a b = g b a) -> zip f x y = zip g y x.
Proof.
  intros A B f g x y H. unfold zip. revert y. induction x as [|a x IH]; intros [|b y]; try reflexivity.
  cbn. rewrite H, IH. reflexivity.
Qed.

Lemma fdot_comm : forall e x y, fdot e x y = fdot e y x.
Proof. intros e x y. unfold fdot. f_equal. apply zip_swap. exact fmul_comm. Qed.

Lemma map_zip : forall {A B C D} (h : C -> D) (f : A -> B -> C) x y,
  map h (zip f x y) = zip (fun a b => h (f a b)) x y.
Proof. intros. unfold zip. rewrite map_map. reflexivity. Qed.

Lemma zip_self : forall {A B} (f : A -> A -> B) x, zip f x x = map (fun a => f a a) x.
Proof. intros A B f x. unfold zip. induction x as [|a x IH]; [reflexivity |]. cbn. rewrite IH. reflexivity. Qed.

Lemma fnorm_swap : forall e x y, fnorm2 e (zip fsub x y) = fnorm2 e (zip fsub y x).
Proof.
  intros e x y. unfold fnorm2, fdot. do 2 f_equal. rewrite !zip_self, !map_zip.
  apply zip_swap. intros a b. destruct (fsub_swap a b) as [H | H]; rewrite H;
    [reflexivity | symmetry; apply fmul_opp2].
Qed.

(** C76. In double precision with rounding, overflow, underflow and NaN, whatever the platform's
    elementary functions and its order of summation (the squares computed by pow must not depend on
    the sign, which matters for Chi2Kernel only): every kernel gives exactly the same float, or the same
    error, with its arguments exchanged. *)
Lemma pf_C76_symmetric : forall e k x y,
  (forall v, e_pow e (fopp v) ftwo = e_pow e v ftwo) ->
  fkernel_value e k x y = fkernel_value e k y x.
Proof.
  intros e k x y Hp. destruct k; cbn [fkernel_value].
  - unfold fhadamard. do 4 f_equal. apply zip_swap. intros a b. cbv beta.
    rewrite (fmul_comm a b), (fadd_comm a b). reflexivity.
  - rewrite fdot_comm. reflexivity.
  - rewrite fnorm_swap. reflexivity.
  - do 3 f_equal. rewrite !map_zip. f_equal. apply zip_swap. exact fabs_swap.
  - rewrite orb_comm. destruct (_ || _); [reflexivity |]. do 4 f_equal.
    apply zip_swap. intros a b. rewrite (fadd_comm a b). f_equal.
    destruct (fsub_swap a b) as [H | H]; rewrite H; [reflexivity | symmetry; apply Hp].
  - rewrite fdot_comm. reflexivity.
  - rewrite fdot_comm. reflexivity.
Qed.

(** ** Signs *)
Lemma iter_nonneg : forall p r, (0 <= shr_m r)%Z -> (0 <= shr_m (iter_pos shr_1 p r))%Z.
Proof.
  assert (H1 : forall r, (0 <= shr_m r)%Z -> (0 <= shr_m (shr_1 r))%Z).
  { intros [m r s] H. cbn in *. destruct m as [|[p|p|]|p]; cbn; lia. }
  induction p as [p IH|p IH|]; intros r H; cbn [iter_pos]; auto.
Qed.

Lemma shr_fexp_nonneg : forall m e l, (0 <= m)%Z -> (0 <= shr_m (fst (shr_fexp 53 1024 m e l)))%Z.
Proof.
  intros m e l H. unfold shr_fexp, shr.
  assert (Hl : (0 <= shr_m (shr_record_of_loc m l))%Z) by (destruct l as [|[| |]]; exact H).
  destruct (_ - e)%Z; [exact Hl | apply iter_nonneg; exact Hl | exact Hl].
Qed.

Lemma round_aux_sign : forall (s : bool) m e l, (0 <= m)%Z ->
  f_nonneg (if s then fopp (binary_round_aux 53 1024 s m e l) else binary_round_aux 53 1024 s m e l) = true.
Proof.
  intros s m e l Hm. unfold binary_round_aux.
  assert (H1 := shr_fexp_nonneg m e l Hm). destruct (shr_fexp 53 1024 m e l) as [mrs e']. cbn [fst] in H1.
  assert (H2 : (0 <= round_nearest_even (shr_m mrs) (loc_of_shr_record mrs))%Z).
  { unfold round_nearest_even. destruct (loc_of_shr_record mrs) as [|[| |]]; try lia.
    destruct (Z.even (shr_m mrs)); lia. }
  assert (H3 := shr_fexp_nonneg _ e' loc_Exact H2).
  destruct (shr_fexp 53 1024 (round_nearest_even (shr_m mrs) (loc_of_shr_record mrs)) e' loc_Exact) as [mrs2 e2].
  cbn [fst] in H3. destruct (shr_m mrs2) as [|p|p]; [destruct s; reflexivity | | lia].
  destruct (e2 <=? 1024 - 53)%Z; destruct s; reflexivity.
Qed.

Lemma round_sign : forall m e, f_nonneg (binary_round 53 1024 false m e) = true.
Proof.
  intros m e. unfold binary_round. destruct (shl_align _ _ _) as [mz ez].
  apply (round_aux_sign false). lia.
Qed.

Lemma fadd_nonneg : forall x y, f_nonneg x = true -> f_nonneg y = true -> f_nonneg (fadd x y) = true.
Proof.
  intros [sx|[]| |[] mx ex] [sy|[]| |[] my ey] Hx Hy; try discriminate; unfold fadd, SFadd; try reflexivity.
  - destruct sx, sy; reflexivity.
  - cbn [cond_Zopp]. cbv zeta. cbn [Z.add binary_normalize]. apply round_sign.
Qed.

Lemma fmul_nonneg : forall x y, f_nonneg x = true -> f_nonneg y = true ->
  fmul x y <> S754_nan -> f_nonneg (fmul x y) = true.
Proof.
  intros [sx|[]| |[] mx ex] [sy|[]| |[] my ey] Hx Hy Hn; try discriminate; unfold fmul, SFmul in *; try reflexivity;
    try (destruct Hn; reflexivity).
  apply (round_aux_sign false). lia.
Qed.

Lemma fsquare_nonneg : forall x, x <> S754_nan -> f_nonneg (fmul x x) = true.
Proof.
  intros [s|s| |s m e] H; unfold fmul, SFmul; try reflexivity; try (destruct H; reflexivity).
  - destruct s; reflexivity.
  - rewrite xorb_nilpotent. apply (round_aux_sign false). lia.
Qed.

Lemma fdiv_nonneg : forall x y, f_nonneg x = true -> f_nonneg y = true ->
  (y = S754_zero true -> f_iszero x = true) ->
  f_nonneg (if f_isnan (fdiv x y) then fzero else fdiv x y) = true.
Proof.
  intros [sx|[]| |[] mx ex] [[]|[]| |[] my ey] Hx Hy H; try discriminate; try reflexivity;
    try (specialize (H eq_refl); discriminate).
  unfold fdiv, SFdiv, SFdiv_core_binary. cbv zeta.
  set (m' := match _ with Z0 => _ | Zpos _ => _ | Zneg _ => _ end).
  assert (Hm : (0 <= m')%Z).
  { unfold m'. destruct (ex - ey - _)%Z as [|p|p]; [lia | | lia]. apply Z.shiftl_nonneg. lia. }
  assert (Hq : (0 <= fst (Z.div_eucl m' (Z.pos my)))%Z).
  { assert (Hd : (m' / Z.pos my)%Z = fst (Z.div_eucl m' (Z.pos my))).
    { unfold Z.div. destruct (Z.div_eucl m' (Z.pos my)). reflexivity. }
    rewrite <- Hd. apply Z.div_pos; lia. }
  destruct (Z.div_eucl m' (Z.pos my)) as [q r]. cbn [fst] in Hq.
  set (v := binary_round_aux _ _ _ _ _ _).
  assert (Hv : f_nonneg v = true) by (apply (round_aux_sign false); exact Hq).
  destruct v; [reflexivity | exact Hv | reflexivity | exact Hv].
Qed.

Lemma fsqrt_nonneg : forall x, f_nonneg x = true -> f_nonneg (fsqrt x) = true.
Proof.
  intros [s|[]| |[] m e] H; try discriminate; try reflexivity.
  unfold fsqrt, SFsqrt, SFsqrt_core_binary.
  set (m' := match _ with Z0 => _ | Zpos _ => _ | Zneg _ => _ end).
  assert (Hm : (0 <= m')%Z).
  { unfold m'. destruct (e - _)%Z as [|p|p]; [lia | | lia]. apply Z.shiftl_nonneg. lia. }
  assert (Hq := Z.sqrtrem_spec m' Hm). destruct (Z.sqrtrem m') as [q r].
  apply (round_aux_sign false). nia.
Qed.

(** ** Sums of zeros and of non-negative numbers *)
Lemma adds_nonneg : forall l v, adds_up l v -> forallb f_nonneg l = true -> f_nonneg v = true.
Proof.
  induction 1 as [s | v | l1 l2 l a b H1 IH1 H2 IH2 Hp]; intros Hl; [reflexivity | |].
  - cbn in Hl. rewrite andb_true_r in Hl. exact Hl.
  - rewrite forallb_forall in Hl. apply fadd_nonneg; [apply IH1 | apply IH2]; apply forallb_forall; intros u Hu;
      apply Hl; apply (Permutation_in _ (Permutation_sym Hp)); apply in_or_app; auto.
Qed.

Lemma adds_zeros : forall l v, adds_up l v -> forallb f_iszero l = true -> f_iszero v = true.
Proof.
  induction 1 as [s | v | l1 l2 l a b H1 IH1 H2 IH2 Hp]; intros Hl; [reflexivity | |].
  - cbn in Hl. rewrite andb_true_r in Hl. exact Hl.
  - rewrite forallb_forall in Hl.
    assert (Ha : f_iszero a = true).
    { apply IH1. apply forallb_forall; intros u Hu.
      apply Hl; apply (Permutation_in _ (Permutation_sym Hp)); apply in_or_app; auto. }
    assert (Hb : f_iszero b = true).
    { apply IH2. apply forallb_forall; intros u Hu.
      apply Hl; apply (Permutation_in _ (Permutation_sym Hp)); apply in_or_app; auto. }
    destruct a as [[]| | |]; try discriminate; destruct b as [[]| | |]; try discriminate; reflexivity.
Qed.

Lemma fsub_self : forall x, f_finite x = true -> fsub x x = fzero.
Proof.
  intros [s| | |s m e] H; try discriminate.
  - destruct s; reflexivity.
  - unfold fsub, SFsub. cbv zeta. rewrite Z.sub_diag. reflexivity.
Qed.

Lemma fmul_zero : forall x z, f_finite x = true -> f_iszero z = true -> f_iszero (fmul x z) = true.
Proof. intros [s| | |s m e] [z| | |]; try discriminate; reflexivity. Qed.

Lemma fsub_finite : forall x y, f_finite x = true -> f_finite y = true -> fsub x y <> S754_nan.
Proof.
  intros [sx| | |sx mx ex] [sy| | |sy my ey] Hx Hy H; try discriminate.
  - destruct sx, sy; discriminate.
  - unfold fsub, SFsub in H. cbv zeta in H.
    destruct (_ - _)%Z as [|p|p]; cbn [binary_normalize] in H; [discriminate | |].
    + assert (Hs := round_sign p (Z.min ex ey)). rewrite H in Hs. discriminate.
    + assert (Hs := round_sign p (Z.min ex ey)). change true with (negb false) in H. rewrite round_opp in H.
      destruct (binary_round 53 1024 false p (Z.min ex ey)); discriminate.
Qed.

(** The sum over the products in a scalar product of a vector of differences with itself. *)
Lemma fnorm_nonneg : forall e x y, decent e -> forallb f_finite x = true -> forallb f_finite y = true ->
  f_nonneg (fnorm2 e (zip fsub x y)) = true.
Proof.
  intros e x y He Hx Hy. unfold fnorm2. apply fsqrt_nonneg. unfold fdot. rewrite zip_self, map_zip.
  apply (adds_nonneg _ _ (d_acc e He _)). unfold zip. revert y Hy.
  induction x as [|a x IH]; intros [|b y] Hy; try reflexivity. cbn in *.
  apply andb_true_iff in Hx. apply andb_true_iff in Hy. destruct Hx, Hy. rewrite IH by assumption.
  rewrite fsquare_nonneg; [reflexivity | apply fsub_finite; assumption].
Qed.

(** -gamma * v for a positive finite gamma and v >= 0. *)
Lemma scale_nonpos : forall g v, f_finite g = true -> f_iszero g = false -> f_nonneg g = true ->
  f_nonneg v = true -> f_nonneg (fopp (fmul (fopp g) v)) = true.
Proof.
  intros [s| | |[] m e] [z|[]| |[] m' e'] Hf Hz Hg Hv; try discriminate; try reflexivity.
  cbn [fopp SFopp negb]. unfold fmul, SFmul. cbn [xorb]. apply (round_aux_sign true). lia.
Qed.

(*BEGIN PROP*)
(** The vectors on which a kernel is asked to behave: finite, and for Chi2Kernel without negative
    entries. *)
Definition f_domain (k : fkernel) (x : list f64) : Prop :=
  forallb f_finite x = true /\
  match k with FChi2 _ => forallb f_nonneg x = true | _ => True end.

(** The distance-based kernels, with the condition [P] on gamma. *)
Definition distance_kernel (P : f64 -> Prop) (k : fkernel) : Prop :=
  match k with FGaussian g | FLaplacian g | FChi2 g => P g | _ => False end.
(*END PROP*)

Lemma nonneg_not_neg : forall x, forallb f_nonneg x = true -> existsb (fun v => fltb v fzero) x = false.
Proof.
  induction x as [|a x IH]; intros H; [reflexivity |]. cbn in *. apply andb_true_iff in H. destruct H as [Ha H].
  rewrite IH by exact H. destruct a as [[]|[]| |[]]; try discriminate; reflexivity.
Qed.

(** C76. In double precision GaussianKernel, LaplacianKernel and Chi2Kernel with a finite gamma give
    exactly 1 between a finite vector and itself (non-negative in the case of Chi2Kernel), although
    intermediate results may overflow or be NaN. *)
Lemma pf_C76_unit_diagonal : forall e k x, decent e ->
  distance_kernel (fun g => f_finite g = true) k -> f_domain k x ->
  fkernel_value e k x x = Ok fone.
Proof.
  intros e k x He Hk [Hx Hd]. destruct k; try contradiction Hk; cbn [distance_kernel] in Hk; cbn [fkernel_value].
  - f_equal. apply (d_exp_zero e He). apply fmul_zero; [destruct gamma; exact Hk |].
    apply (d_pow_zero e He). unfold fnorm2.
    assert (Hz : f_iszero (fdot e (zip fsub x x) (zip fsub x x)) = true).
    { unfold fdot. apply (adds_zeros _ _ (d_acc e He _)). rewrite !zip_self, !map_map.
      clear Hd. induction x as [|a x IH]; [reflexivity |]. cbn in Hx |- *. apply andb_true_iff in Hx. destruct Hx as [Ha Hx].
      rewrite IH by exact Hx. rewrite fsub_self by exact Ha. reflexivity. }
    destruct (fdot e (zip fsub x x) (zip fsub x x)) as [s| | |]; try discriminate. reflexivity.
  - f_equal. apply (d_exp_zero e He). apply fmul_zero; [destruct gamma; exact Hk |].
    apply (adds_zeros _ _ (d_sum e He _)). rewrite zip_self, map_map.
    clear Hd. induction x as [|a x IH]; [reflexivity |]. cbn in Hx |- *. apply andb_true_iff in Hx. destruct Hx as [Ha Hx].
    rewrite IH by exact Hx. rewrite fsub_self by exact Ha. reflexivity.
  - rewrite (nonneg_not_neg x Hd). cbn [orb]. f_equal. apply (d_exp_zero e He). apply fmul_zero; [destruct gamma; exact Hk |].
    unfold fnansum. apply (adds_zeros _ _ (d_sum e He _)). rewrite zip_self, map_map.
    induction x as [|a x IH]; [reflexivity |]. cbn [forallb map] in *.
    apply andb_true_iff in Hx. destruct Hx as [Ha Hx]. apply andb_true_iff in Hd. destruct Hd as [Hn Hd].
    rewrite IH by assumption. rewrite fsub_self by exact Ha. rewrite andb_true_r.
    assert (Hp := d_pow_zero e He fzero eq_refl). destruct (e_pow e fzero ftwo) as [s| | |]; try discriminate.
    assert (Hs := fadd_nonneg a a Hn Hn). destruct (fadd a a) as [t|t| |t]; try discriminate; reflexivity.
Qed.

(** C76. In double precision these kernels with a positive finite gamma return a number between 0 and 1,
    never NaN, for all finite vectors (non-negative in the case of Chi2Kernel), whatever overflows or underflows. *)
Lemma pf_C76_range : forall e k x y, decent e ->
  distance_kernel (fun g => f_finite g = true /\ f_iszero g = false /\ f_nonneg g = true) k ->
  f_domain k x -> f_domain k y ->
  exists v, fkernel_value e k x y = Ok v /\ f_nonneg v = true /\ SFleb v fone = true.
Proof.
  intros e k x y He Hk [Hx Hdx] [Hy Hdy].
  assert (Hgo : forall g u, f_finite g = true /\ f_iszero g = false /\ f_nonneg g = true -> f_nonneg u = true ->
    exists v, Ok (e_exp e (fmul (fopp g) u)) = Ok v /\ f_nonneg v = true /\ SFleb v fone = true).
  { intros g u (H1 & H2 & H3) Hu. eexists. split; [reflexivity |]. apply (d_exp_range e He).
    apply scale_nonpos; assumption. }
  destruct k; try contradiction Hk; cbn [distance_kernel] in Hk; cbn [fkernel_value].
  - apply (Hgo gamma); [exact Hk |]. apply (d_pow_nonneg e He). apply fnorm_nonneg; assumption.
  - apply (Hgo gamma); [exact Hk |]. apply (adds_nonneg _ _ (d_sum e He _)). rewrite map_zip. unfold zip.
    clear Hdx Hdy. revert y Hy. induction x as [|a x IH]; intros [|b y] Hy; try reflexivity. cbn in *.
    apply andb_true_iff in Hx. apply andb_true_iff in Hy. destruct Hx as [Ha Hx], Hy as [Hb Hy].
    rewrite IH by assumption. rewrite andb_true_r.
    assert (Hn := fsub_finite a b Ha Hb). destruct (fsub a b); try reflexivity. destruct Hn. reflexivity.
  - rewrite (nonneg_not_neg x Hdx), (nonneg_not_neg y Hdy). cbn [orb]. apply (Hgo gamma); [exact Hk |].
    unfold fnansum. apply (adds_nonneg _ _ (d_sum e He _)). rewrite map_zip. unfold zip.
    revert y Hy Hdy. induction x as [|a x IH]; intros [|b y] Hy Hdy; try reflexivity. cbn [forallb map combine fst snd] in *.
    apply andb_true_iff in Hx. apply andb_true_iff in Hy. destruct Hx as [Ha Hx], Hy as [Hb Hy].
    apply andb_true_iff in Hdx. apply andb_true_iff in Hdy. destruct Hdx as [Na Hdx], Hdy as [Nb Hdy].
    rewrite IH by assumption. rewrite andb_true_r. apply fdiv_nonneg.
    + assert (Hn := fsub_finite a b Ha Hb).
      destruct (f_nonneg (fsub a b)) eqn:Hs; [apply (d_pow_nonneg e He); exact Hs |].
      rewrite <- (d_pow_even e He). apply (d_pow_nonneg e He).
      destruct (fsub a b) as [s|[]| |[]]; try discriminate; try reflexivity. destruct Hn. reflexivity.
    + apply fadd_nonneg; assumption.
    + intros Hz. apply (d_pow_zero e He).
      destruct a as [sa|[]| |[] ma ea]; try discriminate; destruct b as [sb|[]| |[] mb eb]; try discriminate.
      * destruct sa, sb; reflexivity.
      * exfalso. unfold fadd, SFadd in Hz. cbn [cond_Zopp] in Hz. cbv zeta in Hz.
        cbn [Z.add binary_normalize] in Hz. unfold binary_round in Hz. destruct (shl_align _ _ _) as [mz ez].
        unfold binary_round_aux in Hz. destruct (shr_fexp _ _ _ _ _) as [r1 e1].
        destruct (shr_fexp _ _ _ _ _) as [r2 e2]. destruct (shr_m r2); try discriminate.
        destruct (e2 <=? 1024 - 53)%Z; discriminate.
Qed.

(** A sum with a single term that is not zero is that term. *)
Lemma adds_single : forall u l v, f_finite u = true -> f_iszero u = false -> adds_up l v ->
  forall zs, Permutation l (u :: zs) -> forallb f_iszero zs = true -> v = u.
Proof.
  intros u l v Hf Hu Ha.
  induction Ha as [s | v | l1 l2 l a b H1 IH1 H2 IH2 Hp]; intros zs Hz Hzs.
  - apply Permutation_nil in Hz. discriminate.
  - apply Permutation_length_1_inv in Hz. injection Hz as <- _. reflexivity.
  - assert (Hq : Permutation (l1 ++ l2) (u :: zs)) by (rewrite <- Hp; exact Hz).
    assert (Hin : In u (l1 ++ l2)) by (apply (Permutation_in _ (Permutation_sym Hq)); left; reflexivity).
    assert (Hall : forall zs', Permutation zs' zs -> forallb f_iszero zs' = true).
    { intros zs' Hzz. apply forallb_forall. intros w Hw. rewrite forallb_forall in Hzs. apply Hzs.
      apply (Permutation_in _ Hzz). exact Hw. }
    apply in_app_or in Hin. destruct Hin as [Hin | Hin]; apply in_split in Hin; destruct Hin as (p & q & ->).
    + assert (Hr : Permutation ((p ++ q) ++ l2) zs).
      { apply (Permutation_cons_inv (a := u)). rewrite <- Hq, <- !app_assoc. cbn [app].
        apply Permutation_middle. }
      assert (Hr' := Hall _ Hr). rewrite forallb_app in Hr'. apply andb_true_iff in Hr'. destruct Hr' as [Hpq H2z].
      rewrite (IH1 (p ++ q) (Permutation_sym (Permutation_middle p q u)) Hpq).
      assert (Hb := adds_zeros _ _ H2 H2z). destruct u; try discriminate. destruct b; try discriminate. reflexivity.
    + assert (Hr : Permutation (l1 ++ (p ++ q)) zs).
      { apply (Permutation_cons_inv (a := u)). rewrite <- Hq, !app_assoc.
        apply Permutation_middle. }
      assert (Hr' := Hall _ Hr). rewrite forallb_app in Hr'. apply andb_true_iff in Hr'. destruct Hr' as [H1z Hpq].
      rewrite (IH2 (p ++ q) (Permutation_sym (Permutation_middle p q u)) Hpq).
      assert (Hb := adds_zeros _ _ H1 H1z). destruct u; try discriminate. destruct a; try discriminate. reflexivity.
Qed.

Lemma acc_first : forall e u z, decent e -> f_finite u = true -> f_iszero u = false -> f_iszero z = true ->
  e_acc e [u; z] = u.
Proof.
  intros e u z He Hf Hu Hz. apply (adds_single u [u; z] (e_acc e [u; z]) Hf Hu (d_acc e He _) [z] (Permutation_refl _)).
  cbn. rewrite Hz. reflexivity.
Qed.
Lemma acc_second : forall e u z, decent e -> f_finite u = true -> f_iszero u = false -> f_iszero z = true ->
  e_acc e [z; u] = u.
Proof.
  intros e u z He Hf Hu Hz. apply (adds_single u [z; u] (e_acc e [z; u]) Hf Hu (d_acc e He _) [z] (perm_swap _ _ _)).
  cbn. rewrite Hz. reflexivity.
Qed.

Lemma fnormalize2 : forall e K, decent e ->
  let d i := fdiv fone (fsqrt (K i i)) in
  (forall i j, i < 2 -> j < 2 -> f_finite (K i j) = true /\
     f_finite (fmul (d i) (K i j)) = true /\ f_iszero (fmul (d i) (K i j)) = false /\
     f_finite (fmul (fmul (d i) (K i j)) (d j)) = true /\
     f_iszero (fmul (fmul (d i) (K i j)) (d j)) = false) ->
  forall i j, i < 2 -> j < 2 -> fnormalize e 2 K i j = fmul (fmul (d i) (K i j)) (d j).
Proof.
  intros e K He d H.
  assert (Hz : forall x, f_finite x = true -> f_iszero (fmul fzero x) = true).
  { intros x Hx. rewrite fmul_comm. apply fmul_zero; [exact Hx | reflexivity]. }
  assert (Hin : forall i j, i < 2 -> j < 2 ->
    fmatmul e 2 (fdiagflat (fun i => K i i)) K i j = fmul (d i) (K i j)).
  { intros i j Hi Hj. destruct (H i j Hi Hj) as (_ & H1 & H2 & _).
    destruct (H 0 j) as (F0 & _); [lia | lia |]. destruct (H 1 j) as (F1 & _); [lia | lia |].
    destruct i as [|[|i]]; [| | lia]; unfold fmatmul; cbn [seq map].
    - apply (acc_first e _ _ He H1 H2). apply Hz. exact F1.
    - apply (acc_second e _ _ He H1 H2). apply Hz. exact F0. }
  intros i j Hi Hj. unfold fnormalize. cbv zeta. unfold fmatmul at 1. cbn [seq map]. rewrite !Hin by lia.
  destruct (H i 0 Hi) as (_ & G0 & _); [lia |]. destruct (H i 1 Hi) as (_ & G1 & _); [lia |].
  destruct (H i j Hi Hj) as (_ & _ & _ & H3 & H4).
  destruct j as [|[|j]]; [| | lia].
  - apply (acc_first e _ _ He H3 H4). apply fmul_zero; [exact G1 | reflexivity].
  - apply (acc_second e _ _ He H3 H4). apply fmul_zero; [exact G0 | reflexivity].
Qed.

(** C77. Exactly symmetric, with exactly ones on the diagonal, it need not be: on every platform normalize_km turns the
    symmetric matrix lin2 = ((2, 3), (3, 5))
    into one that is neither exactly symmetric nor has exactly ones on its diagonal. *)
Lemma pf_C77_not_exact : forall e, decent e ->
  let A := fnormalize e 2 lin2 in
  A 0 0 <> fone /\ A 0 1 <> A 1 0.
Proof.
  intros e He A.
  assert (H := fnormalize2 e lin2 He). cbv zeta in H. unfold A. rewrite !H; try lia.
  - split; vm_compute; discriminate.
  - intros i j Hi Hj. destruct i as [|[|i]]; try lia; destruct j as [|[|j]]; try lia; vm_compute; auto.
  - intros i j Hi Hj. destruct i as [|[|i]]; try lia; destruct j as [|[|j]]; try lia; vm_compute; auto.
  - intros i j Hi Hj. destruct i as [|[|i]]; try lia; destruct j as [|[|j]]; try lia; vm_compute; auto.
Qed.

(** C76: the requirements on the platform can be met. *)
Lemma pf_C76_platform_example : decent plain.
Proof.
  assert (Hs : forall l, adds_up l (fold_right fadd fzero l)).
  { induction l as [|a l IH]; [apply adds_zero |]. cbn [fold_right].
    apply (adds_plus [a] l); [apply adds_one | exact IH | apply Permutation_refl]. }
  constructor; cbn [plain e_sum e_acc e_pow e_exp]; try exact Hs.
  - exact fmul_opp2.
  - intros v Hv. apply fsquare_nonneg. destruct v; discriminate.
  - intros [s| | |] Hv; try discriminate. reflexivity.
  - intros v Hv. rewrite Hv. reflexivity.
  - intros v Hv. rewrite Hv. destruct (f_iszero v); split; reflexivity.
Qed.

(*BEGIN PROP*)
(** C76 on concrete vectors: (1, 2) and (2, 2) with LinearKernel give 6 both ways; and Chi2Kernel gives
    exactly 1 between (0, 3) and itself although the first term is 0/0. *)
Example C76_example :
  fkernel_value plain FLinear [fint 1; fint 2] [fint 2; fint 2] = Ok (fint 6) /\
  fkernel_value plain FLinear [fint 2; fint 2] [fint 1; fint 2] = Ok (fint 6) /\
  fkernel_value plain (FChi2 fone) [fint 0; fint 3] [fint 0; fint 3] = Ok fone.
Proof. split; [| split]; vm_compute; reflexivity. Qed.
(*END PROP*)
