(** How kernel values react to changes of the features (C95), in exact arithmetic. *)
From Coq Require Import String List Arith ZArith Bool Reals Lra Lia Permutation.
Import ListNotations.
From Verif Require Import Prelude MatModel MatFacts UtilsModel XReal SpecLinAlg RSum PSDFacts OpsModel OpsFacts KernelsModel
  SpecKernels KernelFacts KernelProps KMXModel IndexModel KMModel SpecKM SpecSample SampleXProps KMProps KMXProps.
Local Open Scope R_scope.

(*BEGIN PROP*)
(** The features [x] followed by the features [x']. *)
Definition joined (d : nat) (x x' : nat -> R) (k : nat) : R := if (k <? d)%nat then x k else x' (k - d)%nat.
(*END PROP*)

Lemma xadd_assoc : forall a b c, xadd a (xadd b c) = xadd (xadd a b) c.
Proof. intros [r| | |] [s| | |] [t| | |]; cbn [xadd]; try reflexivity. f_equal. ring. Qed.
Lemma xsum_perm : forall l l', Permutation l l' -> xsum l = xsum l'.
Proof.
  intros l l' H. unfold xsum. induction H; cbn [fold_right]; [reflexivity|congruence| |congruence].
  rewrite !xadd_assoc, (xadd_comm y x). reflexivity.
Qed.
Lemma perm_filter : forall {A} (p : A -> bool) l l', Permutation l l' -> Permutation (filter p l) (filter p l').
Proof.
  intros A p l l' H. induction H; cbn [filter].
  - constructor.
  - destruct (p x); [constructor|]; assumption.
  - destruct (p x), (p y); repeat constructor; apply Permutation_refl.
  - eapply Permutation_trans; eassumption.
Qed.
Lemma perm_existsb : forall {A} (p : A -> bool) l l', Permutation l l' -> existsb p l = existsb p l'.
Proof.
  intros A p l l' H. induction H; cbn [existsb]; [reflexivity|congruence| |congruence].
  destruct (p x), (p y); reflexivity.
Qed.
Lemma map_fst_combine : forall {A B} (x : list A) (y : list B), length x = length y -> map fst (combine x y) = x.
Proof. intros A B x. induction x as [|a x IH]; intros [|b y] H; try discriminate; [reflexivity|]. cbn. rewrite IH; auto. Qed.
Lemma map_snd_combine : forall {A B} (x : list A) (y : list B), length x = length y -> map snd (combine x y) = y.
Proof. intros A B x. induction x as [|a x IH]; intros [|b y] H; try discriminate; [reflexivity|]. cbn. rewrite IH; auto. Qed.
Lemma perm_zip : forall {A B C} (f : A -> B -> C) x y x' y', Permutation (combine x y) (combine x' y') ->
  Permutation (zip f x y) (zip f x' y').
Proof. intros. unfold zip. apply Permutation_map. assumption. Qed.

Lemma value_perm : forall k x y x' y', length x = length y -> length x' = length y' ->
  Permutation (combine x y) (combine x' y') -> kernel_value k x y = kernel_value k x' y'.
Proof.
  intros k x y x' y' Hl Hl' HP.
  assert (Hx : Permutation x x').
  { rewrite <- (map_fst_combine x y Hl), <- (map_fst_combine x' y' Hl'). apply Permutation_map. exact HP. }
  assert (Hy : Permutation y y').
  { rewrite <- (map_snd_combine x y Hl), <- (map_snd_combine x' y' Hl'). apply Permutation_map. exact HP. }
  assert (Hdot : xdot x y = xdot x' y') by (apply xsum_perm, perm_zip, HP).
  destruct k; cbn [kernel_value]; rewrite ?Hdot; try reflexivity.
  - unfold hadamard_value. f_equal. rewrite !zip_map. apply xsum_perm, Permutation_map, perm_filter, perm_zip, HP.
  - assert (E : xnorm2 (zip xsub x y) = xnorm2 (zip xsub x' y')).
    { unfold xnorm2, xdot. f_equal. rewrite !zip_map_self. apply xsum_perm, Permutation_map, perm_zip, HP. }
    rewrite E. reflexivity.
  - do 2 f_equal. f_equal. apply xsum_perm, Permutation_map, perm_zip, HP.
  - rewrite (perm_existsb _ x x' Hx), (perm_existsb _ y y' Hy). destruct (_ || _); [reflexivity|].
    do 3 f_equal. unfold xnansum. apply xsum_perm, perm_filter, perm_zip, HP.
Qed.

(** C95: the order of the features is irrelevant, for all numeric kernels and all entries, infinite or NaN
    included; also when the call raises. *)
Lemma pf_C95_order : forall cast k x y x' y', length x = length y -> length x' = length y' ->
  Permutation (combine x y) (combine x' y') ->
  kernel_call cast k DFloat (vec x) DFloat (vec y) = kernel_call cast k DFloat (vec x') DFloat (vec y').
Proof.
  intros cast k x y x' y' Hl Hl' HP. rewrite <- !pf_C63_rows_are_calls. unfold kernel_rows.
  rewrite Hl, Hl', !Nat.eqb_refl. apply value_perm; assumption.
Qed.

(*BEGIN PROP*)
(** The columns of [x'] are those of [x] in the order [f]. *)
Definition columns_reordered (d : nat) (f : nat -> nat) (n : nat) (x x' : ndarray xr) : Prop :=
  forall i, (i < n)%nat -> row_of d x' i = map (fun c => nth (f c) (row_of d x i) NaN) (seq 0 d).
(*END PROP*)

Lemma map_nth_seq : forall {A} (l : list A) z d, length l = d -> map (fun c => nth c l z) (seq 0 d) = l.
Proof.
  intros A l z d <-. apply nth_ext with (d := z) (d' := z); [rewrite map_length, seq_length; reflexivity|].
  intros i Hi. rewrite map_length, seq_length in Hi.
  rewrite (nth_indep _ z (nth 0 l z)) by (rewrite map_length, seq_length; exact Hi).
  rewrite (map_nth (fun c => nth c l z)), seq_nth by exact Hi. reflexivity.
Qed.
Lemma combine_map_seq : forall {A B C} (f : C -> A) (g : C -> B) l,
  combine (map f l) (map g l) = map (fun c => (f c, g c)) l.
Proof. intros A B C f g l. induction l as [|a l IH]; [reflexivity|]. cbn. rewrite IH. reflexivity. Qed.
Lemma reordered_combine : forall d f (u v : list xr), permutes d f -> length u = d -> length v = d ->
  Permutation (combine u v)
    (combine (map (fun c => nth (f c) u NaN) (seq 0 d)) (map (fun c => nth (f c) v NaN) (seq 0 d))).
Proof.
  intros d f u v Hf Hu Hv. rewrite combine_map_seq.
  rewrite <- (map_nth_seq u NaN d Hu) at 1. rewrite <- (map_nth_seq v NaN d Hv) at 1. rewrite combine_map_seq.
  rewrite <- (map_map f (fun c => (nth c u NaN, nth c v NaN))). apply Permutation_map, Permutation_sym, permutes_seq, Hf.
Qed.

(** C95: reordering the columns of the attached samples changes neither values nor exceptions of a built-in
    kernel on the rows, *)
Lemma pf_C95_rows : forall k d f n m x y x' y', permutes d f ->
  length (nd_data x) = (n * d)%nat -> length (nd_data (columns x y)) = (m * d)%nat ->
  columns_reordered d f n x x' -> columns_reordered d f m (columns x y) (columns x' y') ->
  forall t i j, (i < n)%nat -> (j < m)%nat ->
    kf (builtin k) t (row_of d x' i) (row_of d (columns x' y') j)
    = kf (builtin k) t (row_of d x i) (row_of d (columns x y) j).
Proof.
  intros k d f n m x y x' y' Hf Hx Hy Hrx Hry t i j Hi Hj. cbn [builtin kf]. unfold kernel_rows.
  assert (Hu := row_length d n x i Hx Hi). assert (Hv := row_length d m (columns x y) j Hy Hj).
  rewrite (Hrx i Hi), (Hry j Hj), !map_length, !seq_length, Hu, Hv, !Nat.eqb_refl.
  apply value_perm; [rewrite !map_length; reflexivity|congruence|].
  apply Permutation_sym. apply reordered_combine; assumption.
Qed.

(** nor, therefore, the kernel matrix, whatever was done before and after attach_to. *)
Lemma pf_C95_matrix :
  forall {U} k kv kv' (pre post pre' post' : list (op xr U)) x y x' y' n m d f,
    never_raises (builtin k) kv x y n m d -> never_raises (builtin k) kv' x' y' n m d ->
    admissible x y n m d -> admissible x' y' n m d -> (y = None <-> y' = None) ->
    length (nd_data x) = (n * d)%nat -> length (nd_data (columns x y)) = (m * d)%nat ->
    no_attach post -> no_full_sparse post -> no_whole_index n m post ->
    no_attach post' -> no_full_sparse post' -> no_whole_index n m post' ->
    permutes d f -> columns_reordered d f n x x' -> columns_reordered d f m (columns x y) (columns x' y') ->
    outcome xN OpFull (after xN (builtin k) false pre x y post)
    = outcome xN OpFull (after xN (builtin k) false pre' x' y' post').
Proof.
  intros U k kv kv' pre post pre' post' x y x' y' n m d f Hnr Hnr' Ha Ha' Hyy Hlx Hly Hno Hns Hnw Hno' Hns' Hnw' Hf Hrx Hry.
  rewrite (pf_C04_full_partial xN (builtin k) kv pre post x y n m d Hnr eq_refl Ha Hno Hns Hnw).
  rewrite (pf_C04_full_partial xN (builtin k) kv' pre' post' x' y' n m d Hnr' eq_refl Ha' Hno' Hns' Hnw').
  do 3 f_equal. apply tabulate_ext. intros i j Hi Hj.
  assert (H : forall i j, (i < n)%nat -> (j < m)%nat ->
    kv (row_of d x i) (row_of d (columns x y) j) = kv' (row_of d x' i) (row_of d (columns x' y') j)).
  { intros p q Hp Hq.
    assert (H := pf_C95_rows k d f n m x y x' y' Hf Hlx Hly Hrx Hry 0%nat p q Hp Hq).
    rewrite (Hnr 0%nat (row_of d x p) (row_of d (columns x y) q)) in H;
      [|exists p; left; split; [exact Hp|reflexivity]|exists q; right; split; [exact Hq|reflexivity]].
    rewrite (Hnr' 0%nat (row_of d x' p) (row_of d (columns x' y') q)) in H;
      [congruence|exists p; left; split; [exact Hp|reflexivity]|exists q; right; split; [exact Hq|reflexivity]]. }
  destruct y as [y|], y' as [y'|]; cbn [entry columns] in *.
  - apply H; assumption.
  - exfalso. destruct Hyy as [_ Hyy]. specialize (Hyy eq_refl). discriminate.
  - exfalso. destruct Hyy as [Hyy _]. specialize (Hyy eq_refl). discriminate.
  - destruct Ha as [_ Hm]. subst m. destruct (i <=? j)%nat; apply H; assumption.
Qed.

Lemma combine_app1 : forall {A B} (x : list A) (y : list B) a b, length x = length y ->
  combine (x ++ [a]) (y ++ [b]) = combine x y ++ [(a, b)].
Proof. intros A B x. induction x as [|c x IH]; intros [|e y] a b H; try discriminate; [reflexivity|]. cbn. rewrite IH; auto. Qed.
Lemma zip_app1 : forall {A B C} (f : A -> B -> C) x y a b, length x = length y ->
  zip f (x ++ [a]) (y ++ [b]) = zip f x y ++ [f a b].
Proof. intros. unfold zip. rewrite combine_app1, map_app by assumption. reflexivity. Qed.
Lemma xadd_Fin0_r : forall a, xadd a (Fin 0) = a.
Proof. intros [r| | |]; cbn [xadd]; try reflexivity. f_equal. ring. Qed.
Lemma xsum_app0 : forall l, xsum (l ++ [Fin 0]) = xsum l.
Proof.
  intros l. unfold xsum. rewrite fold_right_app. cbn [fold_right xadd]. rewrite Rplus_0_r. reflexivity.
Qed.
Lemma xdot_app0 : forall x y, length x = length y -> xdot (x ++ [Fin 0]) (y ++ [Fin 0]) = xdot x y.
Proof. intros. unfold xdot. rewrite zip_app1 by assumption. cbn [xmul]. rewrite Rmult_0_l. apply xsum_app0. Qed.
Lemma fin_sub_self : forall c, xsub (Fin c) (Fin c) = Fin 0.
Proof. intros c. cbn [xsub xopp xadd]. f_equal. ring. Qed.

Lemma gaussian_common : forall s x y c, length x = length y ->
  kernel_value (KGaussian s) (x ++ [Fin c]) (y ++ [Fin c]) = kernel_value (KGaussian s) x y.
Proof.
  intros s x y c H. cbn [kernel_value].
  replace (xnorm2 (zip xsub (x ++ [Fin c]) (y ++ [Fin c]))) with (xnorm2 (zip xsub x y)); [reflexivity|].
  unfold xnorm2. f_equal. rewrite zip_app1 by assumption. rewrite fin_sub_self. symmetry. apply xdot_app0. reflexivity.
Qed.
Lemma laplacian_common : forall g x y c, length x = length y ->
  kernel_value (KLaplacian g) (x ++ [Fin c]) (y ++ [Fin c]) = kernel_value (KLaplacian g) x y.
Proof.
  intros g x y c H. cbn [kernel_value]. rewrite zip_app1, map_app by assumption. rewrite fin_sub_self.
  cbn [map xabs]. rewrite Rabs_R0, xsum_app0. reflexivity.
Qed.
Lemma zero_over_zero : xdiv (xmul (xsub (Fin 0) (Fin 0)) (xsub (Fin 0) (Fin 0))) (xadd (Fin 0) (Fin 0)) = NaN.
Proof.
  rewrite fin_sub_self. cbn [xmul xadd xdiv]. rewrite Rmult_0_l, Rplus_0_l.
  destruct (Req_EM_T 0 0) as [_|E]; [|congruence]. unfold signed_inf. destruct (Rlt_dec 0 0); [lra|reflexivity].
Qed.

(** C95: a feature that is zero in both arguments can be left out, for every kernel but HadamardKernel with a
    negative exponent (then the value would be NaN, C31_negative_alpha_nan). By C95_order the feature may be
    in any position. *)
Lemma pf_C95_common_zero : forall cast k x y, length x = length y ->
  match k with KHadamard alpha => 0 < alpha | _ => True end ->
  kernel_call cast k DFloat (vec (x ++ [Fin 0])) DFloat (vec (y ++ [Fin 0]))
  = kernel_call cast k DFloat (vec x) DFloat (vec y).
Proof.
  intros cast k x y Hl Hk. rewrite <- !pf_C63_rows_are_calls. unfold kernel_rows.
  rewrite !app_length, Hl, !Nat.eqb_refl.
  destruct k; try (apply gaussian_common; exact Hl); try (apply laplacian_common; exact Hl); cbn [kernel_value];
    rewrite ?xdot_app0 by exact Hl; try reflexivity.
  - unfold hadamard_value. f_equal. rewrite !zip_map, zip_app1 by exact Hl.
    rewrite filter_app, map_app. cbn [filter snd xabs]. rewrite !Rabs_R0.
    replace (xpower (Fin 0) alpha) with (Fin 0).
    + cbn [xadd xmul xltb]. unfold Rltb. destruct (Rlt_dec 0 (2 * (0 + 0))); [lra|].
      cbn [map]. rewrite app_nil_r. reflexivity.
    + unfold xpower. destruct (Req_EM_T alpha 0); [lra|]. destruct (Req_EM_T 0 0); [|lra].
      destruct (Rlt_dec alpha 0); [lra|reflexivity].
  - rewrite !existsb_app. cbn [existsb xltb]. unfold Rltb. destruct (Rlt_dec 0 0); [lra|].
    rewrite !orb_false_r. destruct (_ || _); [reflexivity|].
    do 3 f_equal. rewrite zip_app1 by exact Hl. rewrite zero_over_zero. unfold xnansum.
    rewrite filter_app. cbn [filter x_isnan negb]. rewrite app_nil_r. reflexivity.
Qed.

(** C95: for Gaussian and Laplacian kernels so can every feature with the same finite value in both arguments. *)
Lemma pf_C95_common_feature : forall cast k x y c, length x = length y ->
  match k with KGaussian _ | KLaplacian _ => True | _ => False end ->
  kernel_call cast k DFloat (vec (x ++ [Fin c])) DFloat (vec (y ++ [Fin c]))
  = kernel_call cast k DFloat (vec x) DFloat (vec y).
Proof.
  intros cast k x y c Hl Hk. rewrite <- !pf_C63_rows_are_calls. unfold kernel_rows.
  rewrite !app_length, Hl, !Nat.eqb_refl.
  destruct k; try contradiction; [apply gaussian_common|apply laplacian_common]; exact Hl.
Qed.

Lemma gaussian_call : forall cast sigma d x y, sigma <> NaN -> exists g, gaussian_gamma sigma = Fin g /\
  kernel_call cast (KGaussian sigma) DFloat (fvec d x) DFloat (fvec d y) = Ok (Fin (exp (- g * dist2 d x y))).
Proof.
  intros cast sigma d x y Hs. destruct (gaussian_gamma_bounds sigma Hs) as (g & Hg & _).
  exists g. split; [exact Hg|]. rewrite call_fvec. apply gaussian_value. exact Hg.
Qed.
Lemma laplacian_call : forall cast g d x y,
  kernel_call cast (KLaplacian g) DFloat (fvec d x) DFloat (fvec d y) = Ok (Fin (exp (- g * dist1 d x y))).
Proof. intros. rewrite call_fvec. apply laplacian_value. Qed.
Lemma hadamard_call : forall cast alpha d x y, 0 < alpha ->
  kernel_call cast (KHadamard alpha) DFloat (fvec d x) DFloat (fvec d y)
  = Ok (Fin (rsum d (fun k => harm (pw alpha (x k)) (pw alpha (y k)) / 2))).
Proof. intros. rewrite call_fvec. apply hadamard_fin. assumption. Qed.
Lemma sigmoid_call : forall cast g c d x y,
  kernel_call cast (KSigmoid g c) DFloat (fvec d x) DFloat (fvec d y) = Ok (Fin (tanh (c + g * inner d x y))).
Proof. intros. destruct (pf_C32_range cast g c d x y) as (v & H & -> & _). exact H. Qed.

(** C95: Gaussian and Laplacian kernels depend on the difference of the points only. *)
Lemma pf_C95_translation : forall cast k d x y c,
  match k with KGaussian s => s <> NaN | KLaplacian _ => True | _ => False end ->
  kernel_call cast k DFloat (fvec d (fun i => x i + c i)) DFloat (fvec d (fun i => y i + c i))
  = kernel_call cast k DFloat (fvec d x) DFloat (fvec d y).
Proof.
  intros cast k d x y c Hk. destruct k as [| |s|g| | |]; try contradiction.
  - destruct (gaussian_call cast s d x y Hk) as (g & Hg & ->).
    destruct (gaussian_call cast s d (fun i => x i + c i) (fun i => y i + c i) Hk) as (g' & Hg' & ->).
    rewrite Hg in Hg'. injection Hg' as <-. do 3 f_equal. f_equal. unfold dist2. apply rsum_ext. intros i _. ring.
  - rewrite !laplacian_call. do 3 f_equal. f_equal. unfold dist1. apply rsum_ext. intros i _. f_equal. ring.
Qed.

(** C95: changing the sign of features in both arguments changes nothing, except for Chi2Kernel, which
    refuses negative numbers. *)
Lemma pf_C95_signs : forall cast k d x y e, (forall i, (i < d)%nat -> e i = 1 \/ e i = -1) ->
  match k with KGaussian s => s <> NaN | KHadamard alpha => 0 < alpha | KChi2 _ => False | _ => True end ->
  kernel_call cast k DFloat (fvec d (fun i => e i * x i)) DFloat (fvec d (fun i => e i * y i))
  = kernel_call cast k DFloat (fvec d x) DFloat (fvec d y).
Proof.
  intros cast k d x y e He Hk.
  assert (Hin : inner d (fun i => e i * x i) (fun i => e i * y i) = inner d x y).
  { unfold inner. apply rsum_ext. intros i Hi. destruct (He i Hi) as [-> | ->]; ring. }
  destruct k as [alpha|deg g b|s|g|g|g c|]; try contradiction.
  - rewrite !hadamard_call by exact Hk. do 2 f_equal. apply rsum_ext. intros i Hi.
    assert (E : forall r, pw alpha (e i * r) = pw alpha r).
    { intros r. destruct (He i Hi) as [-> | ->]; [rewrite Rmult_1_l; reflexivity|].
      replace (-1 * r) with (- r) by ring. unfold pw. rewrite Rabs_Ropp.
      destruct (Req_EM_T (- r) 0), (Req_EM_T r 0); try reflexivity; exfalso; lra. }
    rewrite !E. reflexivity.
  - rewrite !pf_C28_poly_value, Hin. reflexivity.
  - destruct (gaussian_call cast s d x y Hk) as (g & Hg & ->).
    destruct (gaussian_call cast s d (fun i => e i * x i) (fun i => e i * y i) Hk) as (g' & Hg' & ->).
    rewrite Hg in Hg'. injection Hg' as <-. do 3 f_equal. f_equal. unfold dist2. apply rsum_ext. intros i Hi.
    destruct (He i Hi) as [-> | ->]; ring.
  - rewrite !laplacian_call. do 3 f_equal. f_equal. unfold dist1. apply rsum_ext. intros i Hi.
    destruct (He i Hi) as [-> | ->]; [f_equal; ring|].
    replace (-1 * x i - -1 * y i) with (- (x i - y i)) by ring. apply Rabs_Ropp.
  - rewrite !sigmoid_call, Hin. reflexivity.
  - rewrite !pf_C28_linear_value, Hin. reflexivity.
Qed.

Lemma inner_scaled : forall d x y s, s * s * inner d x y = inner d (fun i => s * x i) (fun i => s * y i).
Proof. intros. unfold inner. rewrite <- rsum_scal. apply rsum_ext. intros. ring. Qed.

(** C95: features in other units. Multiplying all features by s > 0 amounts to another kernel parameter. *)
Lemma pf_C95_scaling_poly : forall cast degree gamma b d x y s,
  kernel_call cast (KPoly degree gamma b) DFloat (fvec d (fun i => s * x i)) DFloat (fvec d (fun i => s * y i))
  = kernel_call cast (KPoly degree (gamma * (s * s)) b) DFloat (fvec d x) DFloat (fvec d y).
Proof.
  intros. rewrite !pf_C28_poly_value. do 4 f_equal.
  replace (inner d (fun i => s * x i) (fun i => s * y i)) with (s * s * inner d x y) by (apply inner_scaled). ring.
Qed.
Lemma pf_C95_scaling_sigmoid : forall cast gamma c d x y s,
  kernel_call cast (KSigmoid gamma c) DFloat (fvec d (fun i => s * x i)) DFloat (fvec d (fun i => s * y i))
  = kernel_call cast (KSigmoid (gamma * (s * s)) c) DFloat (fvec d x) DFloat (fvec d y).
Proof.
  intros. rewrite !sigmoid_call. do 4 f_equal.
  replace (inner d (fun i => s * x i) (fun i => s * y i)) with (s * s * inner d x y) by (apply inner_scaled). ring.
Qed.
Lemma pf_C95_scaling_laplacian : forall cast gamma d x y s, 0 <= s ->
  kernel_call cast (KLaplacian gamma) DFloat (fvec d (fun i => s * x i)) DFloat (fvec d (fun i => s * y i))
  = kernel_call cast (KLaplacian (gamma * s)) DFloat (fvec d x) DFloat (fvec d y).
Proof.
  intros cast gamma d x y s Hs. rewrite !laplacian_call. do 3 f_equal.
  replace (- (gamma * s) * dist1 d x y) with (- gamma * (s * dist1 d x y)) by ring. f_equal.
  unfold dist1. rewrite <- rsum_scal. apply rsum_ext. intros i _.
  replace (s * x i - s * y i) with (s * (x i - y i)) by ring. rewrite Rabs_mult, (Rabs_right s) by lra. reflexivity.
Qed.
Lemma pf_C95_scaling_chi2 : forall cast gamma d x y s, 0 < s ->
  kernel_call cast (KChi2 gamma) DFloat (fvec d (fun i => s * x i)) DFloat (fvec d (fun i => s * y i))
  = kernel_call cast (KChi2 (gamma * s)) DFloat (fvec d x) DFloat (fvec d y).
Proof.
  intros cast gamma d x y s Hs. rewrite !call_fvec.
  assert (Hneg : forall z, existsb (fun v => xltb v (Fin 0)) (map (fun i => Fin (s * z i)) (seq 0 d))
                 = existsb (fun v => xltb v (Fin 0)) (map (fun i => Fin (z i)) (seq 0 d))).
  { intros z. apply eq_iff_eq_true. rewrite (existsb_neg_fin d (fun i => s * z i)), (existsb_neg_fin d z).
    split; intros (k & Hk & H); exists k; (split; [exact Hk|]).
    - destruct (Rlt_dec (z k) 0); [assumption|]. assert (0 <= s * z k) by (apply Rmult_le_pos; lra). lra.
    - assert (0 < s * - z k) by (apply Rmult_lt_0_compat; lra). lra. }
  destruct (existsb (fun v => xltb v (Fin 0)) (map (fun i => Fin (x i)) (seq 0 d))
            || existsb (fun v => xltb v (Fin 0)) (map (fun i => Fin (y i)) (seq 0 d))) eqn:E.
  - cbn [kernel_value]. rewrite !Hneg, E. reflexivity.
  - apply orb_false_iff in E. destruct E as [Ex Ey].
    assert (Hp : forall z, existsb (fun v => xltb v (Fin 0)) (map (fun i => Fin (z i)) (seq 0 d)) = false ->
              forall k, (k < d)%nat -> 0 <= z k).
    { intros z Hz k Hk. destruct (Rle_dec 0 (z k)) as [H|H]; [exact H|exfalso].
      assert (H' : existsb (fun v => xltb v (Fin 0)) (map (fun i => Fin (z i)) (seq 0 d)) = true)
        by (apply existsb_neg_fin; exists k; split; [exact Hk|lra]). congruence. }
    rewrite (chi2_value d x y _ (Hp x Ex) (Hp y Ey)).
    rewrite (chi2_value d (fun i => s * x i) (fun i => s * y i)) by
      (intros k Hk; apply Rmult_le_pos; [lra|]; (apply (Hp x Ex k Hk) || apply (Hp y Ey k Hk))).
    do 3 f_equal. replace (- (gamma * s) * chi2stat d x y) with (- gamma * (s * chi2stat d x y)) by ring. f_equal.
    unfold chi2stat. rewrite <- rsum_scal. apply rsum_ext. intros i Hi.
    destruct (Req_EM_T (x i + y i) 0) as [E|E], (Req_EM_T (s * x i + s * y i) 0) as [E'|E'].
    + ring.
    + exfalso. apply E'. rewrite <- Rmult_plus_distr_l, E. ring.
    + exfalso. apply E. rewrite <- Rmult_plus_distr_l in E'. apply Rmult_integral in E'. lra.
    + field. split; [exact E|lra].
Qed.
(** The bandwidth of GaussianKernel is in the unit of the features, as long as neither sigma nor
    1/(2 sigma^2) is below the smallest value the library uses, 2^-52. *)
Lemma pf_C95_scaling_gaussian : forall cast sigma d x y s, 0 < s ->
  / 2 ^ 52 <= sigma -> / 2 ^ 52 <= s * sigma ->
  / 2 ^ 52 <= 1 / (2 * (sigma * sigma)) -> / 2 ^ 52 <= 1 / (2 * (s * sigma * (s * sigma))) ->
  kernel_call cast (KGaussian (Fin (s * sigma))) DFloat (fvec d (fun i => s * x i)) DFloat (fvec d (fun i => s * y i))
  = kernel_call cast (KGaussian (Fin sigma)) DFloat (fvec d x) DFloat (fvec d y).
Proof.
  intros cast sigma d x y s Hs H1 H2 H3 H4. rewrite !call_fvec.
  assert (He := eps_pos). change (/ 2 ^ 52) with float_eps in H1, H2, H3, H4.
  assert (G1 : gaussian_gamma (Fin sigma) = Fin (1 / (2 * (sigma * sigma)))).
  { rewrite gaussian_gamma_fin. rewrite (Rmax_right float_eps sigma) by exact H1. rewrite Rmax_right by exact H3. reflexivity. }
  assert (G2 : gaussian_gamma (Fin (s * sigma)) = Fin (1 / (2 * (s * sigma * (s * sigma))))).
  { rewrite gaussian_gamma_fin. rewrite (Rmax_right float_eps (s * sigma)) by exact H2. rewrite Rmax_right by exact H4. reflexivity. }
  rewrite (gaussian_value d x y _ _ G1), (gaussian_value d (fun i => s * x i) (fun i => s * y i) _ _ G2).
  do 3 f_equal. replace (dist2 d (fun i => s * x i) (fun i => s * y i)) with (s * s * dist2 d x y).
  - field. split; lra.
  - unfold dist2. rewrite <- rsum_scal. apply rsum_ext. intros i _. ring.
Qed.

Lemma rsum_joined : forall d d' (F : nat -> R) (G G' : nat -> R),
  (forall k, (k < d)%nat -> F k = G k) -> (forall k, (k < d')%nat -> F (d + k)%nat = G' k) ->
  rsum (d + d') F = rsum d G + rsum d' G'.
Proof.
  intros d d' F G G' H H'. induction d' as [|d' IH].
  - rewrite Nat.add_0_r. cbn [rsum]. rewrite (rsum_ext d F G H). ring.
  - rewrite Nat.add_succ_r. cbn [rsum]. rewrite IH by (intros k Hk; apply H'; lia). rewrite (H' d') by lia. ring.
Qed.
Lemma joined_l : forall d x x' k, (k < d)%nat -> joined d x x' k = x k.
Proof. intros d x x' k H. unfold joined. apply Nat.ltb_lt in H. rewrite H. reflexivity. Qed.
Lemma joined_r : forall d x x' k, joined d x x' (d + k) = x' k.
Proof.
  intros d x x' k. unfold joined. replace (d + k <? d)%nat with false by (symmetry; apply Nat.ltb_ge; lia).
  f_equal. lia.
Qed.

(** C95: two groups of features. The Gaussian, Laplacian and chi-squared kernels of the joined features are the
    products of those of the groups, *)
Lemma pf_C95_groups_product : forall cast k d d' x y x' y' a b,
  match k with KGaussian s => s <> NaN | KLaplacian _ | KChi2 _ => True | _ => False end ->
  kernel_call cast k DFloat (fvec d x) DFloat (fvec d y) = Ok (Fin a) ->
  kernel_call cast k DFloat (fvec d' x') DFloat (fvec d' y') = Ok (Fin b) ->
  kernel_call cast k DFloat (fvec (d + d') (joined d x x')) DFloat (fvec (d + d') (joined d y y')) = Ok (Fin (a * b)).
Proof.
  intros cast k d d' x y x' y' a b Hk Ha Hb. destruct k as [| |s|g|g| |]; try contradiction.
  - destruct (gaussian_call cast s d x y Hk) as (g & Hg & H1).
    destruct (gaussian_call cast s d' x' y' Hk) as (g1 & Hg1 & H2).
    destruct (gaussian_call cast s (d + d') (joined d x x') (joined d y y') Hk) as (g2 & Hg2 & ->).
    rewrite Hg in Hg1, Hg2. injection Hg1 as <-. injection Hg2 as <-.
    rewrite H1 in Ha. rewrite H2 in Hb. injection Ha as <-. injection Hb as <-.
    rewrite <- exp_plus. do 3 f_equal. rewrite <- Rmult_plus_distr_l. f_equal. unfold dist2.
    apply rsum_joined; intros k Hl; rewrite ?joined_r, ?joined_l by exact Hl; reflexivity.
  - rewrite laplacian_call in *. injection Ha as <-. injection Hb as <-.
    rewrite <- exp_plus. do 3 f_equal. rewrite <- Rmult_plus_distr_l. f_equal. unfold dist1.
    apply rsum_joined; intros k Hl; rewrite ?joined_r, ?joined_l by exact Hl; reflexivity.
  - assert (Hpos : forall d x y a, kernel_call cast (KChi2 g) DFloat (fvec d x) DFloat (fvec d y) = Ok (Fin a) ->
              (forall k, (k < d)%nat -> 0 <= x k) /\ (forall k, (k < d)%nat -> 0 <= y k)).
    { clear. intros d x y a H. rewrite call_fvec in H. cbn [kernel_value] in H.
      destruct (existsb (fun v => xltb v (Fin 0)) (map (fun i => Fin (x i)) (seq 0 d))) eqn:Ex; [discriminate|].
      destruct (existsb (fun v => xltb v (Fin 0)) (map (fun i => Fin (y i)) (seq 0 d))) eqn:Ey; [discriminate|].
      split; intros k Hk; apply Rnot_lt_le; intros Hlt.
      - assert (H' := proj2 (existsb_neg_fin d x) (ex_intro _ k (conj Hk Hlt))). congruence.
      - assert (H' := proj2 (existsb_neg_fin d y) (ex_intro _ k (conj Hk Hlt))). congruence. }
    destruct (Hpos _ _ _ _ Ha) as [Hx Hy]. destruct (Hpos _ _ _ _ Hb) as [Hx' Hy'].
    rewrite pf_C30_value in Ha by assumption. rewrite pf_C30_value in Hb by assumption.
    injection Ha as <-. injection Hb as <-.
    assert (Hj : forall u u', (forall k, (k < d)%nat -> 0 <= u k) -> (forall k, (k < d')%nat -> 0 <= u' k) ->
                 forall k, (k < d + d')%nat -> 0 <= joined d u u' k).
    { intros u u' Hu Hu' k Hl. unfold joined. destruct (k <? d)%nat eqn:E; [apply Nat.ltb_lt in E; auto|].
      apply Nat.ltb_ge in E. apply Hu'. lia. }
    rewrite pf_C30_value by (apply Hj; assumption).
    rewrite <- exp_plus. do 3 f_equal. rewrite <- Rmult_plus_distr_l. f_equal. unfold chi2stat.
    apply rsum_joined; intros k Hl; rewrite ?joined_r, ?joined_l by exact Hl; reflexivity.
Qed.

(** and the linear and Hadamard kernels the sums. *)
Lemma pf_C95_groups_sum : forall cast k d d' x y x' y' a b,
  match k with KHadamard alpha => 0 < alpha | KLinear => True | _ => False end ->
  kernel_call cast k DFloat (fvec d x) DFloat (fvec d y) = Ok (Fin a) ->
  kernel_call cast k DFloat (fvec d' x') DFloat (fvec d' y') = Ok (Fin b) ->
  kernel_call cast k DFloat (fvec (d + d') (joined d x x')) DFloat (fvec (d + d') (joined d y y')) = Ok (Fin (a + b)).
Proof.
  intros cast k d d' x y x' y' a b Hk Ha Hb. destruct k as [alpha| | | | | |]; try contradiction.
  - rewrite hadamard_call in * by exact Hk. injection Ha as <-. injection Hb as <-. do 2 f_equal.
    apply rsum_joined; intros k Hl; rewrite ?joined_r, ?joined_l by exact Hl; reflexivity.
  - rewrite pf_C28_linear_value in *. injection Ha as <-. injection Hb as <-. do 2 f_equal. unfold inner.
    apply rsum_joined; intros k Hl; rewrite ?joined_r, ?joined_l by exact Hl; reflexivity.
Qed.

(** C95: LinearKernel is linear in each argument (the first here, by symmetry the second). *)
Lemma pf_C95_linear : forall cast d x z y a b p q,
  kernel_call cast KLinear DFloat (fvec d x) DFloat (fvec d y) = Ok (Fin p) ->
  kernel_call cast KLinear DFloat (fvec d z) DFloat (fvec d y) = Ok (Fin q) ->
  kernel_call cast KLinear DFloat (fvec d (fun i => a * x i + b * z i)) DFloat (fvec d y) = Ok (Fin (a * p + b * q)).
Proof.
  intros cast d x z y a b p q Hp Hq. rewrite pf_C28_linear_value in *. injection Hp as <-. injection Hq as <-.
  do 2 f_equal. unfold inner. rewrite <- !rsum_scal, <- rsum_plus. apply rsum_ext. intros. ring.
Qed.

Lemma pw_scaled : forall alpha s r, 0 < s -> pw alpha (s * r) = Rpower s alpha * pw alpha r.
Proof.
  intros alpha s r Hs. unfold pw. destruct (Req_EM_T r 0) as [->|E].
  - rewrite Rmult_0_r. destruct (Req_EM_T 0 0); [ring|lra].
  - destruct (Req_EM_T (s * r) 0) as [E'|E'].
    + exfalso. apply Rmult_integral in E'. lra.
    + rewrite Rabs_mult, (Rabs_right s) by lra. apply eq_sym, Rpower_mult_distr; [exact Hs|]. apply Rabs_pos_lt. exact E.
Qed.
Lemma harm_scaled : forall c a b, 0 < c -> harm (c * a) (c * b) = c * harm a b.
Proof.
  intros c a b Hc. unfold harm. destruct (Req_EM_T (a + b) 0) as [E|E], (Req_EM_T (c * a + c * b) 0) as [E'|E'].
  - ring.
  - exfalso. apply E'. rewrite <- Rmult_plus_distr_l, E. ring.
  - exfalso. apply E. rewrite <- Rmult_plus_distr_l in E'. apply Rmult_integral in E'. lra.
  - field. split; [exact E|]. lra.
Qed.
(** C95: HadamardKernel is homogeneous of degree alpha. *)
Lemma pf_C95_scaling_hadamard : forall cast alpha d x y s v, 0 < alpha -> 0 < s ->
  kernel_call cast (KHadamard alpha) DFloat (fvec d x) DFloat (fvec d y) = Ok (Fin v) ->
  kernel_call cast (KHadamard alpha) DFloat (fvec d (fun i => s * x i)) DFloat (fvec d (fun i => s * y i))
  = Ok (Fin (Rpower s alpha * v)).
Proof.
  intros cast alpha d x y s v Ha Hs H. rewrite hadamard_call in * by exact Ha. injection H as <-.
  do 2 f_equal. rewrite <- rsum_scal. apply rsum_ext. intros i _. rewrite !pw_scaled by exact Hs.
  rewrite harm_scaled by (apply exp_pos). unfold Rdiv. ring.
Qed.

(** C95: without alpha > 0 a feature that is zero in both arguments does change the value. *)
Lemma pf_C95_common_zero_refuted : exists alpha x y, kernel_init (KHadamard alpha) = Ok (KHadamard alpha) /\
  length x = length y /\ forall cast,
  (exists v, kernel_call cast (KHadamard alpha) DFloat (vec x) DFloat (vec y) = Ok (Fin v)) /\
  kernel_call cast (KHadamard alpha) DFloat (vec (x ++ [Fin 0])) DFloat (vec (y ++ [Fin 0])) = Ok NaN.
Proof.
  exists (-1), [Fin 1], [Fin 1]. split.
  { apply pf_C31_constructor. rewrite Rabs_left; lra. }
  split; [reflexivity|]. intros cast. split.
  - rewrite <- pf_C63_rows_are_calls. unfold kernel_rows. cbn [length Nat.eqb kernel_value]. unfold hadamard_value.
    cbn [map xabs]. rewrite Rabs_R1. unfold xpower. destruct (Req_EM_T (-1) 0); [lra|]. destruct (Req_EM_T 1 0); [lra|].
    assert (Hp : 0 < Rpower 1 (-1)) by apply exp_pos. set (q := Rpower 1 (-1)) in *.
    cbn [zip combine map fst snd filter xltb xadd xmul]. unfold Rltb. destruct (Rlt_dec 0 (2 * (q + q))); [|lra].
    cbn [map fst snd xdiv]. destruct (Req_EM_T (2 * (q + q)) 0); [lra|]. eexists. reflexivity.
  - change (vec ([Fin 1] ++ [Fin 0])) with (fvec 2 (fun k => match k with 0%nat => 1 | _ => 0 end)).
    apply (pf_C31_negative_alpha_nan cast (-1) 2 _ _ 1); [lra|lia|reflexivity].
Qed.

(** C95, the categorical kernel: the order of the features is irrelevant... *)
Lemma pf_C95_match_order : forall perc x y x' y', length x = length y -> length x' = length y' ->
  Permutation (combine x y) (combine x' y') ->
  match_call String.eqb perc DStr (vec x) DStr (vec y) = match_call String.eqb perc DStr (vec x') DStr (vec y').
Proof.
  intros perc x y x' y' Hl Hl' HP. unfold match_call, ensure_type_size, vec, nd_ndim. cbn [nd_shape nd_data length Nat.eqb negb rbind].
  rewrite Hl, Hl', !Nat.eqb_refl. cbn [negb].
  assert (E1 : match_count String.eqb x y = match_count String.eqb x' y').
  { unfold match_count. apply Permutation_length, perm_filter, HP. }
  assert (E2 : length y = length y').
  { apply Permutation_length in HP. rewrite !combine_length, Hl, Hl', !Nat.min_id in HP. exact HP. }
  rewrite E1, E2. reflexivity.
Qed.
(** ... and the counts of two groups of features add up. *)
Lemma pf_C95_match_groups : forall x y x' y' a b, length x = length y ->
  match_call String.eqb false DStr (vec x) DStr (vec y) = Ok (Fin a) ->
  match_call String.eqb false DStr (vec x') DStr (vec y') = Ok (Fin b) ->
  match_call String.eqb false DStr (vec (x ++ x')) DStr (vec (y ++ y')) = Ok (Fin (a + b)).
Proof.
  intros x y x' y' a b Hl Ha Hb. unfold match_call, ensure_type_size, vec, nd_ndim in *.
  cbn [nd_shape nd_data length Nat.eqb negb rbind] in *.
  rewrite Hl, Nat.eqb_refl in Ha. cbn [negb] in Ha. injection Ha as <-.
  destruct (length x' =? length y')%nat eqn:E; cbn [negb] in Hb; [|discriminate]. injection Hb as <-.
  apply Nat.eqb_eq in E. rewrite !app_length, Hl, E, Nat.eqb_refl. cbn [negb]. do 2 f_equal. rewrite <- plus_INR. f_equal.
  unfold match_count. clear E. revert y Hl. induction x as [|c x IH]; intros [|e y] Hl; try discriminate; [reflexivity|].
  cbn [app combine filter]. destruct (String.eqb _ _); cbn [length]; rewrite (IH y) by (injection Hl as Hl; exact Hl); reflexivity.
Qed.

(*BEGIN PROP*)
(** Concrete cases: (1, 2, 0) and (3, -1, 0) reordered, without the common zero, shifted, in other units,
    in two groups. *)
Example C95_order_example : Permutation (combine [Fin 1; Fin 2; Fin 0] [Fin 3; Fin (-1); Fin 0])
                                        (combine [Fin 0; Fin 1; Fin 2] [Fin 0; Fin 3; Fin (-1)]).
Proof. cbn [combine]. apply perm_trans with [(Fin 1, Fin 3); (Fin 0, Fin 0); (Fin 2, Fin (-1))]; constructor; constructor. Qed.
Example C95_matrix_example :
  let x := mkNd [2; 2]%nat [Fin 1; Fin 2; Fin 3; Fin 4] in
  let x' := mkNd [2; 2]%nat [Fin 2; Fin 1; Fin 4; Fin 3] in
  never_raises (builtin KLinear) xdot x None 2 2 2 /\ never_raises (builtin KLinear) xdot x' None 2 2 2 /\
  admissible x None 2 2 2 /\ admissible x' None 2 2 2 /\ permutes 2 (fun i => 1 - i)%nat /\
  columns_reordered 2 (fun i => 1 - i)%nat 2 x x'.
Proof.
  cbv zeta. split; [apply linear_total; reflexivity|]. split; [apply linear_total; reflexivity|].
  split; [split; [exists []; split; [reflexivity|constructor]|reflexivity]|].
  split; [split; [exists []; split; [reflexivity|constructor]|reflexivity]|].
  split; [split; lia|]. intros [|[|i]] Hi; try lia; reflexivity.
Qed.
Example C95_scaling_example : / 2 ^ 52 <= 2 /\ / 2 ^ 52 <= 1000 * 2 /\ / 2 ^ 52 <= 1 / (2 * (2 * 2)) /\
  / 2 ^ 52 <= 1 / (2 * (1000 * 2 * (1000 * 2))).
Proof.
  assert (H : / 2 ^ 52 <= / 2 ^ 23). { apply Rinv_le_contravar; [apply pow_lt; lra|]. apply Rle_pow; [lra|lia]. }
  assert (H' : / 2 ^ 23 <= 1 / (2 * (1000 * 2 * (1000 * 2)))).
  { unfold Rdiv. rewrite Rmult_1_l. apply Rinv_le_contravar; lra. }
  repeat split; lra.
Qed.
Example C95_groups_example : forall cast,
  kernel_call cast KLinear DFloat (fvec 1 (fun _ => 2)) DFloat (fvec 1 (fun _ => 3)) = Ok (Fin 6) /\
  kernel_call cast KLinear DFloat (fvec 2 (fun _ => 1)) DFloat (fvec 2 (fun _ => 5)) = Ok (Fin 10).
Proof.
  intros cast. split; rewrite pf_C28_linear_value; do 2 f_equal; unfold inner; cbn [rsum]; lra.
Qed.
(*END PROP*)
