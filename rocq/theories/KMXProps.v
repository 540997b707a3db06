(** KernelMatrix with the library's arithmetic and built-in kernels: C03, C61 - C64, and the
    counterexamples for C02, C04, C05, C07, C08, C10, C14, C17. *)
From Coq Require Import String Reals List Arith ZArith Bool Lia Lra Sorting.Sorted.
Import ListNotations.
From Verif Require Import Prelude MatModel UtilsModel IndexModel KMModel SpecKM XReal OpsModel
  SpecLinAlg KernelsModel SpecKernels KMXModel SpecKMX.
From Verif Require Import MatFacts MFacts KMFacts KMInv KMOps KMHist KMHist2 KMTotal KMGet KMProps RSum OpsFacts OpsProps
  PSDFacts KernelFacts KernelProps.

Local Open Scope list_scope.
Local Open Scope nat_scope.

(** ** History independence of normalised matrices *)

Lemma xN_method : forall meth a nk,
  op_normalize xN meth a = Ok nk -> op_normalize xN default_method a = Ok nk.
Proof.
  intros meth a nk. cbn [xN op_normalize]. unfold normalize_km.
  destruct (negb (mr (amat a) =? mc (amat a))); [discriminate|].
  change (String.eqb (lower default_method) "cosine") with true.
  destruct (String.eqb (lower meth) "cosine"); [auto|discriminate].
Qed.

(** C03, one sample. With normalized=True, a kernel that does not raise (any values, also NaN or
    infinite) and supports format(), [full], [full_sparse] and [normed_km] give the cosine
    normalisation of the kernel matrix of the sample, or its error, after every history. *)
Lemma pf_C03_one_sample :
  forall {E U} (K : kernel E xr) k (pre post : list (op E U)) x n d o,
    never_raises K k x None n n d -> kfmt K = true -> admissible x None n n d -> no_attach post ->
    (o = OpFull \/ o = OpFullSparse \/ o = OpNormedKM) ->
    outcome xN o (after xN K true pre x None post)
    = res_map OArr (normalize_km "cosine" (mkArr Dense (kernel_matrix k n n d x None))).
Proof.
  intros E U K k pre post x n d o Hnr Hfmt Hadm Hno Ho.
  rewrite (normalised_history_free xN K k pre post x None n n d o xN_method).
  - reflexivity.
  - intros meth A. apply normalize_sparse.
  - discriminate.
  - exact Hnr.
  - exact Hfmt.
  - exact Hadm.
  - exact Hno.
  - exact Ho.
Qed.

(** C03, the matrix: if the kernel matrix is the finite matrix [A] with diagonal above 1e-8, the
    entries are A_ij / sqrt(A_ii A_jj). *)
Lemma pf_C03_value :
  forall {E U} (K : kernel E xr) k (pre post : list (op E U)) x n d o A,
    never_raises K k x None n n d -> kfmt K = true -> admissible x None n n d -> no_attach post ->
    (o = OpFull \/ o = OpFullSparse \/ o = OpNormedKM) ->
    kernel_matrix k n n d x None = rmat n n A ->
    (forall i, i < n -> (1/100000000 < A i i)%R) ->
    outcome xN o (after xN K true pre x None post)
    = Ok (OArr (mkArr Dense (rmat n n (fun i j => (A i j / sqrt (A i i * A j j))%R)))).
Proof.
  intros E U K k pre post x n d o A Hnr Hfmt Hadm Hno Ho HA Hd.
  rewrite (pf_C03_one_sample K k pre post x n d o Hnr Hfmt Hadm Hno Ho), HA.
  rewrite (pf_C19_entries "cosine" Dense n A eq_refl Hd). reflexivity.
Qed.

(** C03, the error: a diagonal entry within 1e-8 of zero gives KMNormError, after every history. *)
Lemma pf_C03_error :
  forall {E U} (K : kernel E xr) k (pre post : list (op E U)) x n d o i r,
    never_raises K k x None n n d -> kfmt K = true -> admissible x None n n d -> no_attach post ->
    (o = OpFull \/ o = OpFullSparse \/ o = OpNormedKM) ->
    i < n -> k (row_of d x i) (row_of d x i) = Fin r -> (Rabs r <= 1/100000000)%R ->
    outcome xN o (after xN K true pre x None post) = Raise KMNormError.
Proof.
  intros E U K k pre post x n d o i r Hnr Hfmt Hadm Hno Ho Hi Hk Hr.
  rewrite (pf_C03_one_sample K k pre post x n d o Hnr Hfmt Hadm Hno Ho).
  assert (H : normalize_km "cosine" (mkArr Dense (kernel_matrix k n n d x None)) = Raise KMNormError).
  { apply pf_C20_norm_error_iff; [reflexivity|]. split; [reflexivity|]. exists i, r.
    split; [exact Hi|]. split; [|exact Hr]. unfold xget, kernel_matrix. cbn [amat].
    rewrite mget_tabulate by assumption. unfold entry. rewrite Nat.leb_refl. exact Hk. }
  rewrite H. reflexivity.
Qed.

(** C03, two samples: the same with the self-similarities of both samples, provided that those of
    the first sample are not negative or NaN. (Otherwise it is false: C03_refuted_two_samples.) *)
Lemma pf_C03_two_samples_partial :
  forall {E U} (K : kernel E xr) k (pre post : list (op E U)) x y n m d o,
    never_raises K k x (Some y) n m d -> kfmt K = true -> admissible x (Some y) n m d ->
    no_attach post -> (o = OpFull \/ o = OpFullSparse \/ o = OpNormedKM) ->
    (forall i, i < n -> match k (row_of d x i) (row_of d x i) with
                        | Fin r => (0 <= r)%R | PInf => True | _ => False end) ->
    outcome xN o (after xN K true pre x (Some y) post)
    = res_map OArr (normalize_km_2sample "cosine" (mkArr Dense (kernel_matrix k n m d x (Some y)))
        (map (fun i => k (row_of d x i) (row_of d x i)) (seq 0 n))
        (map (fun j => k (row_of d y j) (row_of d y j)) (seq 0 m))).
Proof.
  intros E U K k pre post x y n m d o Hnr Hfmt Hadm Hno Ho Hpos.
  rewrite (normalised_history_free xN K k pre post x (Some y) n m d o xN_method).
  - reflexivity.
  - intros meth A. apply normalize_sparse.
  - intros y' _. cbn zeta. apply normalize2_sparse.
    intros a Ha. apply in_map_iff in Ha. destruct Ha as (i & <- & Hi). apply in_seq in Hi.
    apply Hpos. lia.
  - exact Hnr.
  - exact Hfmt.
  - exact Hadm.
  - exact Hno.
  - exact Ho.
Qed.

(** ** Built-in kernels *)

Lemma row_length : forall {E} (d n : nat) (x : ndarray E) i, length (nd_data x) = n * d -> i < n ->
  length (row_of d x i) = d.
Proof.
  intros E d n x i Hl Hi. unfold row_of. rewrite firstn_length, skipn_length, Hl.
  assert (i * d + d <= n * d) by nia. lia.
Qed.

(** Kernel of rows, on the rows of a sample. *)
Definition valueOf (k : nkernel) (u v : list xr) : xr :=
  match kernel_value k u v with Ok r => r | Raise _ => NaN end.

(** C63: calling a kernel object on two float vectors is what KernelMatrix does with two rows. *)
Lemma pf_C63_rows_are_calls : forall cast k u v,
  kernel_rows k u v = kernel_call cast k DFloat (vec u) DFloat (vec v).
Proof.
  intros. unfold kernel_rows, kernel_call, check_input_arrays, ensure_ndarray_1D, ensure_ndarray_size.
  unfold vec, squeeze_from. simpl.
  assert (E : issubdtype DFloat (kernel_dtype k) = true) by now destruct k.
  rewrite E. simpl. destruct (length u =? length v); reflexivity.
Qed.

Lemma is_row_length : forall {E} (x : ndarray E) y n m d u,
  length (nd_data x) = n * d -> match y with None => n = m | Some y' => length (nd_data y') = m * d end ->
  is_row x y n m d u -> length u = d.
Proof.
  intros E x y n m d u Hx Hy (i & [[Hi ->]|[Hi ->]]).
  - now apply row_length with n.
  - destruct y as [y'|]; [now apply row_length with m|]. subst. now apply row_length with m.
Qed.

(** C63: every built-in numeric kernel other than chi-squared evaluates on all rows of all samples,
    whatever their contents. *)
Lemma pf_C63_total : forall k (x : ndarray xr) y n m d,
  (forall g, k <> KChi2 g) ->
  length (nd_data x) = n * d -> match y with None => n = m | Some y' => length (nd_data y') = m * d end ->
  exists kr, never_raises (builtin k) kr x y n m d /\
    forall u v, length u = length v -> kernel_value k u v = Ok (kr u v).
Proof.
  intros k x y n m d Hk Hx Hy. exists (valueOf k).
  assert (H : forall u v, kernel_value k u v = Ok (valueOf k u v)).
  { intros u v. unfold valueOf. destruct k; try reflexivity. destruct (Hk gamma eq_refl). }
  split; [|intros; apply H].
  intros t u v Hu Hv. cbn [builtin kf]. unfold kernel_rows.
  rewrite (is_row_length x y n m d u Hx Hy Hu), (is_row_length x y n m d v Hx Hy Hv), Nat.eqb_refl.
  apply H.
Qed.

(** C63: so does the chi-squared kernel if no element is negative (NaN is not negative). *)
Lemma pf_C63_chi2_total : forall g (x : ndarray xr) y n m d,
  length (nd_data x) = n * d -> match y with None => n = m | Some y' => length (nd_data y') = m * d end ->
  (forall a, In a (nd_data x) -> xltb a (Fin 0) = false) ->
  match y with None => True | Some y' => forall a, In a (nd_data y') -> xltb a (Fin 0) = false end ->
  exists kr, never_raises (builtin (KChi2 g)) kr x y n m d.
Proof.
  intros g x y n m d Hx Hy Hpx Hpy. exists (valueOf (KChi2 g)).
  assert (Hin : forall u, is_row x y n m d u -> existsb (fun v => xltb v (Fin 0)) u = false).
  { assert (Hz : forall (w : ndarray xr) i, (forall a, In a (nd_data w) -> xltb a (Fin 0) = false) ->
               existsb (fun v => xltb v (Fin 0)) (row_of d w i) = false).
    { intros w i Hw. destruct (existsb _ _) eqn:E; [|reflexivity]. apply existsb_exists in E.
      destruct E as (a & Ha & Hb). rewrite Hw in Hb; [discriminate|]. unfold row_of in Ha.
      assert (Ha' : In a (skipn (i * d) (nd_data w))).
      { rewrite <- (firstn_skipn d). apply in_or_app. now left. }
      rewrite <- (firstn_skipn (i * d)). apply in_or_app. now right. }
    intros u (i & [[_ ->]|[_ ->]]); [now apply Hz|]. destruct y; now apply Hz. }
  intros t u v Hu Hv. cbn [builtin kf]. unfold kernel_rows.
  rewrite (is_row_length x y n m d u Hx Hy Hu), (is_row_length x y n m d v Hx Hy Hv), Nat.eqb_refl.
  unfold valueOf, kernel_value. rewrite (Hin u Hu), (Hin v Hv). reflexivity.
Qed.

(*BEGIN PROP*)
Example C63_example : length (nd_data (mkNd [2; 2] [Fin 1; NaN; PInf; Fin 0])) = 2 * 2
  /\ forall g, KGaussian (Fin 0) <> KChi2 g.
Proof. split; [reflexivity|discriminate]. Qed.
(*END PROP*)

(** ** Real samples *)

Lemma rsample_len : forall n d X, length (nd_data (rsample n d X)) = n * d.
Proof.
  intros n d X. unfold rsample. cbn [nd_data]. rewrite <- (seq_length n 0) at 2.
  generalize (seq 0 n). intros l. induction l as [|a l IH]; [reflexivity|].
  cbn [flat_map length]. rewrite app_length, IH, map_length, seq_length. lia.
Qed.

Lemma rsample_row : forall n d X i, i < n ->
  row_of d (rsample n d X) i = map (fun k => Fin (X i k)) (seq 0 d).
Proof.
  intros n d X i Hi. unfold row_of, rsample. cbn [nd_data].
  assert (H : forall s n, i < n ->
    firstn d (skipn (i * d) (flat_map (fun i => map (fun k => Fin (X i k)) (seq 0 d)) (seq s n)))
    = map (fun k => Fin (X (s + i) k)) (seq 0 d)); [|apply (H 0 n Hi)].
  clear n Hi. induction i as [|i IH]; intros s n Hi; (destruct n as [|n]; [lia|]); cbn [seq flat_map].
  - cbn [Nat.mul skipn]. rewrite Nat.add_0_r.
    rewrite firstn_app, map_length, seq_length, Nat.sub_diag. cbn [firstn].
    rewrite app_nil_r, firstn_all2; [reflexivity|]. rewrite map_length, seq_length. lia.
  - cbn [Nat.mul]. rewrite skipn_app, map_length, seq_length.
    replace (d + i * d - d) with (i * d) by lia.
    rewrite (skipn_all2 (n := d + i * d) (map _ _)); [|rewrite map_length, seq_length; lia].
    cbn [app]. rewrite (IH (S s) n) by lia. now rewrite Nat.add_succ_r.
Qed.

Lemma rsample_adm : forall n d X, admissible (rsample n d X) None n n d.
Proof. intros. split; [exists []; split; [reflexivity|constructor]|reflexivity]. Qed.
Lemma rsample_adm2 : forall n m d X Y, admissible (rsample n d X) (Some (rsample m d Y)) n m d.
Proof. intros. split; exists []; (split; [reflexivity|constructor]). Qed.

Lemma rsample_total : forall k n d X A, finite_on k d n n X X A ->
  never_raises (builtin k) (valueOf k) (rsample n d X) None n n d.
Proof.
  intros k n d X A HA t u v (i & Hi) (j & Hj).
  assert (Hi' : i < n /\ u = row_of d (rsample n d X) i) by tauto.
  assert (Hj' : j < n /\ v = row_of d (rsample n d X) j) by tauto.
  destruct Hi' as [Hi' ->], Hj' as [Hj' ->]. cbn [builtin kf]. unfold kernel_rows.
  rewrite !(row_length d n) by (auto using rsample_len). rewrite Nat.eqb_refl.
  unfold valueOf. rewrite !rsample_row by assumption. now rewrite (HA i j).
Qed.

Lemma rsample_matrix : forall k n d X A, finite_on k d n n X X A -> symmetric n A ->
  kernel_matrix (valueOf k) n n d (rsample n d X) None = rmat n n A.
Proof.
  intros k n d X A HA Hs. apply tabulate_ext. intros i j Hi Hj. unfold entry, valueOf.
  rewrite !rsample_row by assumption. destruct (i <=? j).
  - now rewrite (HA i j).
  - rewrite (HA j i) by assumption. f_equal. now apply Hs.
Qed.

(** Vectors of finite numbers: calls are values. *)
Lemma psd_on_finite : forall cast k n d X, psd_on (fun x y => kernel_call cast k DFloat x DFloat y) n d X ->
  exists A, psd n A /\ finite_on k d n n X X A.
Proof.
  intros cast k n d X (A & Hp & HA). exists A. split; [exact Hp|]. intros i j Hi Hj.
  rewrite <- (call_fvec cast). now apply HA.
Qed.

(** C64: a kernel that is positive semidefinite on a finite real sample (the linear, polynomial,
    Gaussian, Laplacian, chi-squared and Hadamard kernels under the conditions of C28 - C31) yields,
    through a normalised KernelMatrix and after any history, a positive semidefinite matrix with
    ones on the diagonal and entries in [-1, 1], provided no self-similarity is below 1e-8. *)
Lemma pf_C64_normalised_psd :
  forall {U} cast k (pre post : list (op xr U)) n d X o,
    psd_on (fun x y => kernel_call cast k DFloat x DFloat y) n d X ->
    (forall i, i < n -> exists r, kernel_call cast k DFloat (fvec d (X i)) DFloat (fvec d (X i)) = Ok (Fin r)
                                  /\ (1/100000000 < r)%R) ->
    no_attach post -> (o = OpFull \/ o = OpFullSparse \/ o = OpNormedKM) ->
    exists B, outcome xN o (after xN (builtin k) true pre (rsample n d X) None post)
              = Ok (OArr (mkArr Dense (rmat n n B)))
      /\ psd n B
      /\ (forall i, i < n -> B i i = 1%R)
      /\ (forall i j, i < n -> j < n -> (-1 <= B i j <= 1)%R).
Proof.
  intros U cast k pre post n d X o Hpsd Hd Hno Ho.
  destruct (psd_on_finite cast k n d X Hpsd) as (A & Hp & HA).
  assert (Hd' : forall i, i < n -> (1/100000000 < A i i)%R).
  { intros i Hi. destruct (Hd i Hi) as (r & Hr & Hlt). rewrite call_fvec, (HA i i Hi Hi) in Hr.
    injection Hr as <-. exact Hlt. }
  exists (fun i j => (A i j / sqrt (A i i * A j j))%R). split; [|split; [|split]].
  - apply (pf_C03_value (builtin k) (valueOf k) pre post (rsample n d X) n d o A
             (rsample_total k n d X A HA) eq_refl (rsample_adm n d X) Hno Ho); [|exact Hd'].
    apply (rsample_matrix k n d X A HA). apply Hp.
  - apply normed_psd; [|exact Hp]. intros i Hi. specialize (Hd' i Hi). lra.
  - intros i Hi. specialize (Hd' i Hi). rewrite sqrt_square by lra. field. lra.
  - intros i j Hi Hj.
    destruct (pf_C19_psd "cosine" Dense n A eq_refl Hd' Hp) as (g & B & HB & _ & Hr).
    rewrite (pf_C19_entries "cosine" Dense n A eq_refl Hd') in HB. 
    apply (f_equal (fun r => match r with Ok a => amat a | Raise _ => rmat n n B end)) in HB.
    cbn [amat] in HB.
    pose proof (rmat_inj n n _ B HB i j Hi Hj) as E. cbv beta in E. rewrite E. now apply Hr.
Qed.

(** C64: the matrix of a Gaussian kernel, normalised or not, after any history (any history
    without the two sparse accesses when not normalised): entries exp(-g ||x_i - x_j||^2). *)
Lemma pf_C64_gaussian :
  forall {U} sigma nrm (pre post : list (op xr U)) n d X, sigma <> NaN ->
    no_attach post -> (nrm = true \/ (no_full_sparse post /\ no_whole_index n n post)) ->
    exists g, (0 < g)%R /\
      outcome xN OpFull (after xN (builtin (KGaussian sigma)) nrm pre (rsample n d X) None post)
      = Ok (OArr (mkArr Dense (rmat n n (fun i j => exp (- g * dist2 d (X i) (X j))%R)))).
Proof.
  intros U sigma nrm pre post n d X Hs Hno Hcase.
  destruct (gaussian_gamma_bounds sigma Hs) as (g & Hg & Hb & _).
  assert (Hpos : (0 < g)%R) by (pose proof eps_pos; lra).
  exists g. split; [exact Hpos|].
  set (A := fun i j => exp (- g * dist2 d (X i) (X j))).
  assert (HA : finite_on (KGaussian sigma) d n n X X A).
  { intros i j Hi Hj. apply (gaussian_value d (X i) (X j) sigma g Hg). }
  assert (Hsym : symmetric n A).
  { apply (psd_gaussian n d X g). lra. }
  assert (Hone : forall i, A i i = 1%R).
  { intros i. unfold A. replace (dist2 d (X i) (X i)) with 0%R; [rewrite Rmult_0_r; apply exp_0|].
    unfold dist2. symmetry. apply rsum_zero. intros. ring. }
  pose proof (rsample_total _ n d X A HA) as Hnr.
  pose proof (rsample_matrix _ n d X A HA Hsym) as HM.
  destruct nrm.
  - rewrite (pf_C03_value (builtin (KGaussian sigma)) (valueOf (KGaussian sigma)) pre post
       (rsample n d X) n d OpFull A Hnr eq_refl (rsample_adm n d X) Hno (or_introl eq_refl) HM).
    + do 3 f_equal. apply rmat_ext. intros i j Hi Hj. rewrite !Hone, Rmult_1_l, sqrt_1. field.
    + intros i Hi. rewrite Hone. lra.
  - destruct Hcase as [Hf|[Hfs Hwi]]; [discriminate|].
    rewrite (pf_C04_full_partial xN (builtin (KGaussian sigma)) (valueOf (KGaussian sigma)) pre post
       (rsample n d X) None n n d Hnr eq_refl (rsample_adm n d X) Hno Hfs Hwi), HM. reflexivity.
Qed.

(*BEGIN PROP*)
Example C64_example : forall cast, psd_on (fun x y => kernel_call cast KLinear DFloat x DFloat y) 2 1
    (fun i _ => INR (1 + i)) /\
  exists r, kernel_call cast KLinear DFloat (fvec 1 (fun _ => 1%R)) DFloat (fvec 1 (fun _ => 1%R)) = Ok (Fin r)
            /\ (1/100000000 < r)%R.
Proof.
  intros cast. split; [apply pf_C28_linear|]. exists (1 * 1)%R. rewrite call_fvec. cbn.
  split; [|lra]. do 2 f_equal. ring.
Qed.
(*END PROP*)

(** ** The Frobenius norm *)

(** C61 (partial). [frob_norm] is the Frobenius norm of the (unnormalised) kernel matrix after any
    history without the two sparse accesses. Missing: those accesses, for which it is false
    (C61_refuted). *)
Lemma pf_C61_frob_partial :
  forall {E U} (K : kernel E xr) k nrm (pre post : list (op E U)) x y n m d,
    never_raises K k x y n m d -> kfmt K = true -> admissible x y n m d -> no_attach post ->
    no_full_sparse post -> no_whole_index n m post ->
    outcome xN OpFrobNorm (after xN K nrm pre x y post)
    = res_map OVal (frobenius_norm (mkArr Dense (kernel_matrix k n m d x y))).
Proof.
  intros E U K k nrm pre post x y n m d Hnr Hfmt Hadm Hno Hfs Hwi.
  assert (Hg := S1_good xN K k nrm pre post x y n m d Hadm Hno false false Hnr
                  (fun _ _ => Hfs) (fun _ => Hwi)).
  assert (H := frob_total xN K k nrm (stored n d x) (stored2 n m d x y) (is_some y) n m d _
                 (nr_stored K k x y n m d Hadm Hnr) eq_refl
                 (stored2_shape x y n m d Hadm) (stored2_one x y n m d Hadm) false false _ Hg).
  unfold holds in H. destruct H as (_ & a & Hc & Hr).
  assert (Ha : a = mkArr Dense (kernel_matrix k n m d x y)).
  { destruct Hc as [[Hf Ha]|[(Hx & _)|(Hx & _)]]; [|discriminate|discriminate].
    destruct a as [f A]; cbn in *. subst. rewrite <- (KMat_spec k x y n m d). reflexivity. }
  subst a. unfold outcome, step. rewrite outcome_fmap.
  destruct Hr as [->|[_ Hk]]; [reflexivity|congruence].
Qed.

(** C61: for a finite kernel matrix this is the square root of the sum of squared entries. *)
Lemma pf_C61_value_partial :
  forall {E U} (K : kernel E xr) k nrm (pre post : list (op E U)) x y n m d A,
    never_raises K k x y n m d -> kfmt K = true -> admissible x y n m d -> no_attach post ->
    no_full_sparse post -> no_whole_index n m post ->
    kernel_matrix k n m d x y = rmat n m A ->
    outcome xN OpFrobNorm (after xN K nrm pre x y post)
    = Ok (OVal (Fin (sqrt (rsum n (fun i => rsum m (fun j => A i j * A i j)%R))))).
Proof.
  intros E U K k nrm pre post x y n m d A Hnr Hfmt Hadm Hno Hfs Hwi HA.
  rewrite (pf_C61_frob_partial K k nrm pre post x y n m d Hnr Hfmt Hadm Hno Hfs Hwi), HA.
  destruct (pf_C22_values Dense Dense n m A A) as [_ ->]; [discriminate|discriminate|reflexivity].
Qed.

(** ** NaN *)

Lemma xsum_nan_at : forall n (f : nat -> xr) i, i < n -> f i = NaN -> xsum (map f (seq 0 n)) = NaN.
Proof.
  intros n f i Hi Hf. apply xsum_nan. rewrite <- Hf. apply in_map, in_seq. lia.
Qed.

Lemma scale_nan : forall u v A, mr A = length u -> mc A = length v ->
  forall p q, p < length u -> q < length v -> xget A p q = NaN ->
  forall i j, i < length u -> j < length v ->
    xget (matmul (matmul (diagflat u) A) (diagflat v)) i j = NaN.
Proof.
  intros u v A Hr Hc p q Hp Hq HN i j Hi Hj. unfold matmul at 1, xget at 1. cbn [mr mc diagflat tabulate matmul].
  rewrite mget_tabulate by assumption. rewrite Hc.
  apply xsum_nan_at with q; [assumption|].
  replace (xget (matmul (diagflat u) A) i q) with NaN; [reflexivity|].
  unfold matmul, xget at 1. rewrite mget_tabulate by (cbn; lia).
  symmetry. apply xsum_nan_at with p; [exact Hp|]. rewrite HN. apply xmul_nan_r.
Qed.

(** C62: one NaN in a square matrix makes every entry of the normalised matrix NaN, in any format. *)
Lemma pf_C62_nan_poisons : forall meth a B p q, normalize_km meth a = Ok B ->
  p < mr (amat a) -> q < mc (amat a) -> xget (amat a) p q = NaN ->
  forall i j, i < mr (amat a) -> j < mc (amat a) -> xget (amat B) i j = NaN.
Proof.
  intros meth a B p q HB Hp Hq HN i j Hi Hj.
  assert (HD : forall g, g <> Lil -> normalize_km meth (mkArr g (amat a)) = Ok B -> xget (amat B) i j = NaN).
  { clear HB. intros g Hg HB. unfold normalize_km in HB. cbn [amat] in HB.
    destruct (Nat.eqb_spec (mr (amat a)) (mc (amat a))) as [Hsq|]; [|discriminate]. cbn [negb] in HB.
    destruct (String.eqb (lower meth) "cosine"); [|discriminate].
    destruct (any_zero (diagonal_of (amat a))); [discriminate|]. injection HB as <-.
    assert (Hl : length (inv_sqrt (diagonal_of (amat a))) = mr (amat a)).
    { rewrite length_inv_sqrt, length_diagonal. lia. }
    replace (amat (scale_both _ _ (mkArr g (amat a)))) with
      (matmul (matmul (diagflat (inv_sqrt (diagonal_of (amat a)))) (amat a))
              (diagflat (inv_sqrt (diagonal_of (amat a)))))
      by (destruct g; [reflexivity|contradiction|reflexivity]).
    apply scale_nan with p q; rewrite ?Hl, ?Hsq; try assumption; try lia. }
  destruct a as [f A]. cbn [amat] in *. destruct f.
  - apply (HD Dense); [discriminate|exact HB].
  - rewrite normalize_sparse in HB. apply (HD Dense); [discriminate|exact HB].
  - apply (HD NpMatrix); [discriminate|exact HB].
Qed.

(** C62: hence one NaN kernel value makes every entry of a normalised KernelMatrix NaN, after every
    history, unless normalisation is refused. *)
Lemma pf_C62_nan_kernel_value :
  forall {E U} (K : kernel E xr) k (pre post : list (op E U)) x n d o p q,
    never_raises K k x None n n d -> kfmt K = true -> admissible x None n n d -> no_attach post ->
    (o = OpFull \/ o = OpFullSparse \/ o = OpNormedKM) ->
    p <= q < n -> k (row_of d x p) (row_of d x q) = NaN ->
    outcome xN o (after xN K true pre x None post) = Raise KMNormError \/
    exists B, outcome xN o (after xN K true pre x None post) = Ok (OArr B) /\
      forall i j, i < n -> j < n -> xget (amat B) i j = NaN.
Proof.
  intros E U K k pre post x n d o p q Hnr Hfmt Hadm Hno Ho [Hpq Hq] HN.
  rewrite (pf_C03_one_sample K k pre post x n d o Hnr Hfmt Hadm Hno Ho).
  destruct (normalize_km "cosine" _) as [B|e] eqn:HB.
  - right. exists B. split; [reflexivity|]. intros i j Hi Hj.
    apply (pf_C62_nan_poisons _ _ B p q HB); cbn [amat kernel_matrix tabulate mr mc]; try lia.
    unfold xget, kernel_matrix. rewrite mget_tabulate by lia. unfold entry.
    apply Nat.leb_le in Hpq. rewrite Hpq. exact HN.
  - left. cbn. destruct (pf_C20_otherwise_succeeds _ _ _ HB) as [[H _]|[(_ & H & _)|(_ & _ & ->)]].
    + destruct H. reflexivity.
    + destruct H. reflexivity.
    + reflexivity.
Qed.

(** ** Counterexamples with the library's LinearKernel and exact arithmetic *)
Tactic Notation "calc" := lazy -[Rplus Rmult Rdiv Rinv Ropp Rminus IZR INR Rabs sqrt Rle_dec Rlt_dec Req_EM_T].
Tactic Notation "calc" "in" hyp(H) := lazy -[Rplus Rmult Rdiv Rinv Ropp Rminus IZR INR Rabs sqrt Rle_dec Rlt_dec Req_EM_T] in H.

(** The sample [[1], [2]]. *)
Definition x12 : ndarray xr := mkNd [2; 1] [Fin 1; Fin 2].

Lemma linear_total : forall x y n m d, length (nd_data x) = n * d ->
  match y with None => n = m | Some y' => length (nd_data y') = m * d end ->
  never_raises (builtin KLinear) xdot x y n m d.
Proof.
  intros x y n m d Hx Hy t u v Hu Hv. cbn [builtin kf]. unfold kernel_rows.
  rewrite (is_row_length x y n m d u Hx Hy Hu), (is_row_length x y n m d v Hx Hy Hv), Nat.eqb_refl.
  reflexivity.
Qed.

Lemma interrupted_returns : forall t0 x y n m d, length (nd_data x) = n * d ->
  match y with None => n = m | Some y' => length (nd_data y') = m * d end ->
  returns_only (interrupted t0 KLinear) xdot x y n m d.
Proof.
  intros t0 x y n m d Hx Hy t u v Hu Hv. cbn [interrupted kf]. unfold kernel_rows.
  rewrite (is_row_length x y n m d u Hx Hy Hu), (is_row_length x y n m d v Hx Hy Hv), Nat.eqb_refl.
  destruct (t =? t0); [right; eauto|left; reflexivity].
Qed.

Lemma x12_ok : admissible x12 None 2 2 1.
Proof. split; [exists []; split; [reflexivity|constructor]|reflexivity]. Qed.
Lemma x12_x12_ok : admissible x12 (Some x12) 2 2 1.
Proof. split; exists []; (split; [reflexivity|constructor]). Qed.

Lemma Fin_neq : forall a b, a <> b -> Fin a <> Fin b.
Proof. intros a b H E. injection E. exact H. Qed.

(** C02 is false for two samples when the matrix is normalised: with LinearKernel, reading [full] of
    the normalised 2 x 2 matrix evaluates the kernel eight times. *)
Lemma pf_C02_two_samples_refuted :
  exists x y n m d (post : list (op xr unit)) new,
    never_raises (builtin KLinear) xdot x (Some y) n m d /\ admissible x (Some y) n m d /\ no_attach post /\
    g_calls (after xN (builtin KLinear) true [] x (Some y) post)
      = new ++ g_calls (before xN (builtin KLinear) true ([] : list (op xr unit))) /\
    n * m < length (returned (builtin KLinear)
              (length (g_calls (before xN (builtin KLinear) true ([] : list (op xr unit))))) new).
Proof.
  exists x12, x12, 2, 2, 1, [OpFull],
    (g_calls (after (U:=unit) xN (builtin KLinear) true [] x12 (Some x12) [OpFull])).
  split; [apply linear_total; reflexivity|]. split; [exact x12_x12_ok|]. split; [reflexivity|].
  split; [change (g_calls (before _ _ _ _)) with (@nil (call xr)); now rewrite app_nil_r|].
  assert (H : forall f,
    length (returned (builtin KLinear) 0 (g_calls (after (U:=unit)
      (mkNumops NaN (Fin 0) x_isfinite normalize_km f center_km frobenius_norm)
      (builtin KLinear) true [] x12 (Some x12) [OpFull]))) = 8).
  { intros f. calc.
    match goal with |- context [f ?a ?b ?c] => destruct (f a b c) as [[fm [r c' l]]|e] end; [|calc; reflexivity].
    calc. match goal with |- context [if ?b then _ else _] => generalize b end. intros [|]; reflexivity. }
  specialize (H (fun a dx dy => normalize_km_2sample "cosine" a dx dy)).
  change (mkNumops _ _ _ _ _ _ _) with xN in H.
  match goal with |- _ < ?t => change t with (length (returned (builtin KLinear) 0
    (g_calls (after (U:=unit) xN (builtin KLinear) true [] x12 (Some x12) [OpFull])))) end.
  rewrite H. lia.
Qed.

(** The samples [[0]] and [[1]]. *)
Definition x0 : ndarray xr := mkNd [1; 1] [Fin 0].
Definition x1 : ndarray xr := mkNd [1; 1] [Fin 1].

Lemma temp_x0 : forall tag (s : km xr xr unit), k_kernel s = builtin KLinear ->
  temp_diagonal tag x0 s = (log_calls (mkCall tag (0, 0) [Fin 0] [Fin 0] :: g_calls s) s, Ok [Fin (0 * 0 + 0)]).
Proof. intros tag s H. unfold temp_diagonal, bind at 1, get. rewrite H. calc. reflexivity. Qed.
Lemma temp_x1 : forall tag (s : km xr xr unit), k_kernel s = builtin KLinear ->
  temp_diagonal tag x1 s = (log_calls (mkCall tag (0, 0) [Fin 1] [Fin 1] :: g_calls s) s, Ok [Fin (1 * 1 + 0)]).
Proof. intros tag s H. unfold temp_diagonal, bind at 1, get. rewrite H. calc. reflexivity. Qed.

Definition stuck (s : km xr xr unit) : Prop :=
  k_kernel s = builtin KLinear /\ k_keep_normed s = true /\ k_two s = Some true /\ k_sample s = Some x0 /\
  k_sample_two s = Some x1 /\ k_populated s = true /\ k_is_normed s = false /\
  exists v, k_full s = Some (mkArr Dense (mkMat 1 1 [[v]])).

Lemma stuck_full : forall s, stuck s -> stuck (fst (step xN OpFull s)) /\
  g_calls (fst (step xN OpFull s)) = mkCall 2 (0, 0) [Fin 1] [Fin 1] :: mkCall 1 (0, 0) [Fin 0] [Fin 0] :: g_calls s.
Proof.
  intros s Hs. assert (Hs' := Hs). destruct Hs' as (H1 & H2 & H3 & H4 & H5 & H6 & H7 & v & H8).
  assert (E : step xN OpFull s = (log_calls (mkCall 2 (0, 0) [Fin 1] [Fin 1] :: mkCall 1 (0, 0) [Fin 0] [Fin 0] :: g_calls s) s,
                                   Raise KMNormError)).
  { unfold step, fmap, full. unfold bind, get, when. rewrite H4, H6, H2. cbn [negb ret]. unfold ret. rewrite H7. cbn [negb].
    unfold normalize. unfold bind, get, when. rewrite H6. cbn [negb]. unfold ret. rewrite H7. cbn [negb].
    unfold attr_or, bind, get. rewrite H3. unfold ret. cbn [negb]. rewrite H4, H5, H8.
    rewrite temp_x0 by exact H1. rewrite temp_x1 by exact H1. unfold lift.
    replace (op_normalize2 xN _ _ _) with (@Raise (arr xr) KMNormError); [reflexivity|].
    cbn [op_normalize2 xN]. unfold normalize_km_2sample. cbn [length amat mr mc Nat.eqb negb orb].
    change (String.eqb (lower "cosine") "cosine") with true. cbn iota.
    unfold any_zero. cbn [existsb]. rewrite isclose_zero. unfold Rleb. rewrite Rmult_0_l, Rplus_0_r, Rabs_R0.
    destruct (Rle_dec 0 (1 / 100000000)) as [_|Hn]; [reflexivity|]. exfalso. apply Hn. lra. }
  rewrite E. cbn [fst]. split; [|reflexivity]. destruct Hs as (_ & _ & _ & _ & _ & _ & _ & _).
  repeat split; try assumption. exists v. exact H8.
Qed.

Lemma after_cons : forall {E V U} (N : numops V) (K : kernel E V) nrm (pre : list (op E U)) x y o r,
  after N K nrm pre x y (o :: r) = run N r (after N K nrm pre x y [o]).
Proof.
  intros. unfold after. change (OpAttach x y :: o :: r) with ([OpAttach x y; o] ++ r). rewrite app_assoc, run_app. reflexivity.
Qed.
Definition s01 : km xr xr unit := after xN (builtin KLinear) true [] x0 (Some x1) [OpFrobNorm].
Lemma s01_stuck : stuck s01.
Proof. repeat split. exists (Fin (0 * 1 + 0)). lazy -[Rplus Rmult IZR Rdiv Rinv sqrt Rabs]. reflexivity. Qed.
Lemma s01_calls : length (returned (builtin KLinear) 0 (g_calls s01)) = 1.
Proof. lazy -[Rplus Rmult IZR Rdiv Rinv sqrt Rabs]. reflexivity. Qed.
Lemma s01_run : forall r, after xN (builtin KLinear) true [] x0 (Some x1) (OpFrobNorm :: r) = run xN r s01.
Proof. intros r. unfold s01. apply after_cons. Qed.

(** C02: with two samples there is no bound that depends only on the samples: with LinearKernel on the
    samples [[0]] and [[1]] and normalized=True, every [full] raises KMNormError and evaluates both
    self-similarities again. *)
Lemma pf_C02_unbounded_refuted :
  exists x y n m d,
    never_raises (builtin KLinear) xdot x (Some y) n m d /\ admissible x (Some y) n m d /\
    forall B, exists (post : list (op xr unit)) new, no_attach post /\
      g_calls (after xN (builtin KLinear) true [] x (Some y) post)
        = new ++ g_calls (before xN (builtin KLinear) true ([] : list (op xr unit))) /\
      B < length (returned (builtin KLinear)
              (length (g_calls (before xN (builtin KLinear) true ([] : list (op xr unit))))) new).
Proof.
  exists x0, x1, 1, 1, 1. split; [apply linear_total; reflexivity|].
  split; [split; exists []; (split; [reflexivity|constructor])|]. intros B.
  assert (Hrun : forall r s, stuck s -> 
            length (returned (builtin KLinear) 0 (g_calls (run xN (repeat OpFull r) s))) = 2 * r + length (returned (builtin KLinear) 0 (g_calls s))).
  { induction r as [|r IH]; intros s Hs; [reflexivity|]. cbn [repeat run]. destruct (stuck_full s Hs) as [S2 C2].
    rewrite (IH _ S2), C2. cbn [returned length builtin kf c_x c_y]. cbn [kernel_rows length Nat.eqb is_ok kernel_value]. cbn [length]. lia. }
  exists (OpFrobNorm :: repeat OpFull B), (g_calls (after (U:=unit) xN (builtin KLinear) true [] x0 (Some x1) (OpFrobNorm :: repeat OpFull B))).
  split.
  { unfold no_attach. cbn [forallb is_attach negb andb]. apply forallb_forall. intros o Ho. apply repeat_spec in Ho. subst o. reflexivity. }
  assert (Hb : g_calls (before xN (builtin KLinear) true ([] : list (op xr unit))) = []) by reflexivity.
  rewrite Hb. split; [now rewrite app_nil_r|]. cbn [length].
  rewrite s01_run, (Hrun B s01 s01_stuck), s01_calls. lia.
Qed.

(** C04 is false after full_sparse: [full] then returns the upper triangle only. *)
Lemma pf_C04_refuted_full_sparse :
  exists x n d (post : list (op xr unit)) a i j,
    never_raises (builtin KLinear) xdot x None n n d /\ admissible x None n n d /\ no_attach post /\
    no_whole_index n n post /\ i < n /\ j < n /\
    outcome xN OpFull (after xN (builtin KLinear) false [] x None post) = Ok (OArr a) /\
    xget (amat a) i j <> entry xdot d x None i j /\ afmt a <> Dense.
Proof.
  exists x12, 2, 1, [OpFullSparse]. eexists. exists 1, 0.
  split; [apply linear_total; reflexivity|]. split; [exact x12_ok|].
  split; [reflexivity|]. split; [intros ix [H|[]]; discriminate|].
  split; [lia|]. split; [lia|]. split; [calc; reflexivity|].
  split; [calc; apply Fin_neq; lra|discriminate].
Qed.

(** C04 is false after [km[:, :]]: [full] then returns a sparse matrix. *)
Lemma pf_C04_refuted_whole_index :
  exists x n d (post : list (op xr unit)) a,
    never_raises (builtin KLinear) xdot x None n n d /\ admissible x None n n d /\ no_attach post /\
    no_full_sparse post /\
    outcome xN OpFull (after xN (builtin KLinear) false [] x None post) = Ok (OArr a) /\ afmt a = Lil.
Proof.
  exists x12, 2, 1, [OpGetItem (IPair (ISlice None None None) (ISlice None None None))]. eexists.
  split; [apply linear_total; reflexivity|]. split; [exact x12_ok|].
  split; [reflexivity|]. split; [intros [H|[]]; discriminate|].
  split; calc; reflexivity.
Qed.

(** C05 is false for [full] after full_sparse. *)
Lemma pf_C05_full_refuted :
  exists x n d (post : list (op xr unit)) a i j,
    never_raises (builtin KLinear) xdot x None n n d /\ admissible x None n n d /\ no_attach post /\
    i < n /\ j < n /\
    outcome xN OpFull (after xN (builtin KLinear) false [] x None post) = Ok (OArr a) /\
    xget (amat a) i j <> xget (amat a) j i.
Proof.
  exists x12, 2, 1, [OpFullSparse]. eexists. exists 1, 0.
  split; [apply linear_total; reflexivity|]. split; [exact x12_ok|].
  split; [reflexivity|]. split; [lia|]. split; [lia|]. split; [calc; reflexivity|].
  calc. apply Fin_neq. lra.
Qed.

(** C07 is false: after a rejected second sample the matrix mixes the rejected first
    sample with the old data. *)
Lemma pf_C07_refuted :
  exists x x' y' n d (ix : idx) (a b : arr xr),
    let s := after xN (builtin KLinear) false ([] : list (op xr unit)) x None [] in
    never_raises (builtin KLinear) xdot x None n n d /\ admissible x None n n d /\
    outcome xN (OpAttach x' (Some y')) s = Raise ValueError /\
    outcome xN (OpGetItem ix) s = Ok (OArr a) /\
    outcome xN (OpGetItem ix) (fst (step xN (OpAttach x' (Some y')) s)) = Ok (OArr b) /\
    xget (amat a) 0 0 = Fin (2 * 2 + 0) /\ xget (amat b) 0 0 = Fin (6 * 2 + 0).
Proof.
  exists x12, (mkNd [2; 1] [Fin 5; Fin 6]), (mkNd [2] [Fin 7; Fin 8]), 2, 1, (IPair (IInt 1) (IInt 1)).
  eexists. eexists. cbv zeta.
  split; [apply linear_total; reflexivity|]. split; [exact x12_ok|].
  split; [calc; reflexivity|]. split; [calc; reflexivity|]. split; [calc; reflexivity|].
  split; calc; reflexivity.
Qed.

(** C08 is false: if one kernel call is interrupted while [full] is read, the second read returns NaN
    in place of kernel values that are not NaN. *)
Lemma pf_C08_refuted :
  exists t0 x n d a i j,
    let s := after xN (interrupted t0 KLinear) false ([] : list (op xr unit)) x None [] in
    returns_only (interrupted t0 KLinear) xdot x None n n d /\ admissible x None n n d /\ i < n /\ j < n /\
    outcome xN OpFull s = Raise RuntimeError /\
    outcome xN OpFull (fst (step xN OpFull s)) = Ok (OArr a) /\
    xget (amat a) i j = NaN /\ entry xdot d x None i j <> NaN.
Proof.
  exists 1, x12, 2, 1. eexists. exists 1, 1.
  split; [apply interrupted_returns; reflexivity|]. split; [exact x12_ok|]. split; [lia|]. split; [lia|].
  split; [calc; reflexivity|]. split; [calc; reflexivity|].
  split; [calc; reflexivity|]. calc. discriminate.
Qed.

(** C08 is false for [km[:, :]]: unevaluated entries appear as zeros. *)
Lemma pf_C08_refuted_sparse :
  exists t0 x n d a i j ix,
    let s := after xN (interrupted t0 KLinear) false ([] : list (op xr unit)) x None [] in
    returns_only (interrupted t0 KLinear) xdot x None n n d /\ admissible x None n n d /\
    i < n /\ j < n /\ selects_all n n ix /\
    outcome xN (OpGetItem ix) s = Raise RuntimeError /\
    outcome xN (OpGetItem ix) (fst (step xN (OpGetItem ix) s)) = Ok (OArr a) /\
    xget (amat a) i j = Fin 0 /\ entry xdot d x None i j <> Fin 0.
Proof.
  exists 1, x12, 2, 1. eexists. exists 1, 1, (IPair (IIter [EInt 0; EInt 1]) (IIter [EInt 1; EInt 0])).
  split; [apply interrupted_returns; reflexivity|]. split; [exact x12_ok|]. split; [lia|]. split; [lia|].
  split.
  { split; (split; [repeat constructor|]); intros q; cbn [In seq denotes];
      (split; [intros H; assert (H' : q = 0 \/ q = 1) by lia;
               destruct H' as [-> | ->]; cbn; tauto
              |intros H; destruct H as [H|[H|[]]]; injection H; lia]). }
  split; [calc; reflexivity|]. split; [calc; reflexivity|].
  split; [calc; reflexivity|]. calc. apply Fin_neq. lra.
Qed.

(** C10 is false for unsorted lists. *)
Lemma pf_C10_refuted_order :
  exists x n d li lj a,
    never_raises (builtin KLinear) xdot x None n n d /\ admissible x None n n d /\
    (forall i, In i (li ++ lj) -> i < n) /\ NoDup li /\ NoDup lj /\
    outcome xN (OpGetItem (IPair (IIter (map (fun i => EInt (Z.of_nat i)) li))
                                 (IIter (map (fun j => EInt (Z.of_nat j)) lj))))
            (after xN (builtin KLinear) false ([] : list (op xr unit)) x None []) = Ok (OArr a) /\
    amat a <> submatrix (entry xdot d x None) li lj.
Proof.
  exists x12, 2, 1, [1; 0], [1]. eexists.
  split; [apply linear_total; reflexivity|]. split; [exact x12_ok|].
  split; [intros i; cbn; lia|].
  split; [repeat constructor; cbn; lia|]. split; [repeat constructor; cbn; lia|].
  split; [calc; reflexivity|]. calc. intros H. injection H. intros; lra.
Qed.

(** C10 is false for repeated indices: they are returned once. *)
Lemma pf_C10_refuted_repetition :
  exists x n d li lj a,
    never_raises (builtin KLinear) xdot x None n n d /\ admissible x None n n d /\
    (forall i, In i (li ++ lj) -> i < n) /\ StronglySorted le li /\ StronglySorted le lj /\
    outcome xN (OpGetItem (IPair (IIter (map (fun i => EInt (Z.of_nat i)) li))
                                 (IIter (map (fun j => EInt (Z.of_nat j)) lj))))
            (after xN (builtin KLinear) false ([] : list (op xr unit)) x None []) = Ok (OArr a) /\
    mr (amat a) <> length li.
Proof.
  exists x12, 2, 1, [1; 1], [1]. eexists.
  split; [apply linear_total; reflexivity|]. split; [exact x12_ok|].
  split; [intros i; cbn; lia|].
  split; [repeat constructor; cbn; lia|]. split; [repeat constructor; cbn; lia|].
  split; [calc; reflexivity|]. calc. discriminate.
Qed.

(** C12 is false for two samples after full_sparse: [full] succeeds and the element below the
    diagonal that it left out is evaluated later. *)
Lemma pf_C12_refuted :
  exists x y n m d (post : list (op xr unit)) ix,
    never_raises (builtin KLinear) xdot x (Some y) n m d /\ admissible x (Some y) n m d /\ no_attach post /\
    is_ok (outcome xN OpFull (after xN (builtin KLinear) false [] x (Some y) post)) = true /\
    let s := fst (step xN OpFull (after xN (builtin KLinear) false [] x (Some y) post)) in
    length (g_calls (fst (step xN (OpGetItem ix) s))) = S (length (g_calls s)).
Proof.
  exists x12, x12, 2, 2, 1, [OpFullSparse], (IPair (IInt 1) (IInt 0)).
  split; [apply linear_total; reflexivity|]. split; [exact x12_x12_ok|]. split; [reflexivity|].
  split; calc; reflexivity.
Qed.

(** C14 is false after [km[:, :]]: [centered] then raises ValueError. *)
Lemma pf_C14_refuted :
  exists x n d (post : list (op xr unit)),
    never_raises (builtin KLinear) xdot x None n n d /\ admissible x None n n d /\ no_attach post /\
    is_ok (outcome xN OpCentered (after (U:=unit) xN (builtin KLinear) false [] x None [])) = true /\
    outcome xN OpCentered (after xN (builtin KLinear) false [] x None post) = Raise ValueError.
Proof.
  exists x12, 2, 1, [OpGetItem (IPair (ISlice None None None) (ISlice None None None))].
  split; [apply linear_total; reflexivity|]. split; [exact x12_ok|]. split; [reflexivity|].
  split; calc; reflexivity.
Qed.

(** C17 is false for user callables: reading [full] raises TypeError. *)
Lemma pf_C17_refuted :
  exists (K : kernel xr xr) k x n d,
    never_raises K k x None n n d /\ admissible x None n n d /\
    outcome xN OpFull (after xN K false ([] : list (op xr unit)) x None []) = Raise TypeError.
Proof.
  exists (mkKernel (fun _ _ _ => Ok NaN) false), (fun _ _ => NaN), x12, 2, 1.
  split; [intros t u v _ _; reflexivity|]. split; [exact x12_ok|]. calc. reflexivity.
Qed.

(** C03 is false for user callables (KernelFromCallable), which do not support format(): if a value
    is NaN, the first two reads of a normalised [full] raise TypeError and the third succeeds. *)
Lemma pf_C03_refuted_callable :
  exists (K : kernel xr xr) k x n d a,
    never_raises K k x None n n d /\ admissible x None n n d /\
    trace xN [OpFull; OpFull; OpFull] (after xN K true ([] : list (op xr unit)) x None [])
    = [Raise TypeError; Raise TypeError; Ok (OArr a)].
Proof.
  exists (mkKernel (fun _ _ _ => Ok NaN) false), (fun _ _ => NaN), x12, 2, 1. eexists.
  split; [intros t u v _ _; reflexivity|]. split; [exact x12_ok|]. calc. reflexivity.
Qed.

(** Decide comparisons between concrete reals. *)
Ltac rdec :=
  repeat (match goal with
  | |- context [Rle_dec ?a ?b] =>
      let HR := fresh "HR" in destruct (Rle_dec a b) as [HR|HR];
      [try (exfalso; revert HR; unfold Rabs; repeat destruct (Rcase_abs _); lra)
      |try (exfalso; apply HR; unfold Rabs; repeat destruct (Rcase_abs _); lra)]
  | |- context [Rlt_dec ?a ?b] =>
      let HR := fresh "HR" in destruct (Rlt_dec a b) as [HR|HR]; [try (exfalso; lra)|try (exfalso; lra)]
  | |- context [Req_EM_T (sqrt ?a) 0] =>
      let HR := fresh "HR" in destruct (Req_EM_T (sqrt a) 0) as [HR|HR];
      [exfalso; apply sqrt_eq_0 in HR; lra|]
  | |- context [Req_EM_T ?a ?b] =>
      let HR := fresh "HR" in destruct (Req_EM_T a b) as [HR|HR]; [try (exfalso; lra)|try (exfalso; lra)]
  end; calc).

(** C03 is false for two samples when a self-similarity is negative: PolyKernel(degree=1, gamma=1,
    b=-1) on x = 1/2, y = 2 has k(x,y) = 0 and k(x,x) = -3/4; [full] is NaN, but after
    [km[:, :]] it is 0. *)
Lemma pf_C03_refuted_two_samples :
  exists k x y n m d (post : list (op xr unit)),
    never_raises (builtin (KPoly 1 1 (-1))) k x (Some y) n m d /\ admissible x (Some y) n m d /\
    no_attach post /\
    (exists a, outcome xN OpFull (after (U:=unit) xN (builtin (KPoly 1 1 (-1))) true [] x (Some y) []) = Ok (OArr a)
               /\ xget (amat a) 0 0 = NaN) /\
    (exists a, outcome xN OpFull (after xN (builtin (KPoly 1 1 (-1))) true [] x (Some y) post) = Ok (OArr a)
               /\ xget (amat a) 0 0 = Fin 0).
Proof.
  exists (valueOf (KPoly 1 1 (-1))), (mkNd [1; 1] [Fin (1/2)]), (mkNd [1; 1] [Fin 2]), 1, 1, 1,
    [OpGetItem (IPair (ISlice None None None) (ISlice None None None))].
  split.
  { intros t u v Hu Hv. cbn [builtin kf]. unfold kernel_rows.
    apply is_row_length in Hu; [|reflexivity|reflexivity]. apply is_row_length in Hv; [|reflexivity|reflexivity].
    rewrite Hu, Hv. reflexivity. }
  split; [split; exists []; (split; [reflexivity|constructor])|]. split; [reflexivity|].
  assert (H : forall f o B, (o = [] \/ o = [OpGetItem (IPair (ISlice None None None) (ISlice None None None))]) ->
    f (mkArr (match o with [] => Dense | _ => Lil end) (mkMat 1 1 [[Fin (-1 + 1 * (1 / 2 * 2 + 0))]]))
      [Fin (-1 + 1 * (1 / 2 * (1 / 2) + 0))] [Fin (-1 + 1 * (2 * 2 + 0))] = Ok B ->
    outcome (U:=unit) (mkNumops NaN (Fin 0) x_isfinite normalize_km f center_km frobenius_norm) OpFull
      (after (mkNumops NaN (Fin 0) x_isfinite normalize_km f center_km frobenius_norm)
         (builtin (KPoly 1 1 (-1))) true [] (mkNd [1; 1] [Fin (1/2)]) (Some (mkNd [1; 1] [Fin 2])) o)
    = Ok (OArr B)).
  { intros f o B [-> | ->] HB; calc; calc in HB; rewrite HB; destruct B as [fm [r c l]]; calc;
      match goal with |- context [if ?b then false else true] => generalize b end; intros [|]; reflexivity. }
  specialize (H (fun a dx dy => normalize_km_2sample "cosine" a dx dy)).
  change (mkNumops _ _ _ _ _ _ _) with xN in H.
  split.
  - eexists. split; [apply (H []); [now left|calc; rdec; reflexivity]|calc; reflexivity].
  - eexists. split; [apply H; [now right|calc; rdec; reflexivity]|calc; f_equal; ring].
Qed.

(** C61 is false after [km[:, :]]: LinearKernel on the sample [[1], [-1]] has Frobenius norm 2, and
    0 is returned. *)
Lemma pf_C61_refuted :
  exists x n d (post : list (op xr unit)),
    never_raises (builtin KLinear) xdot x None n n d /\ admissible x None n n d /\ no_attach post /\
    no_full_sparse post /\
    outcome xN OpFrobNorm (after (U:=unit) xN (builtin KLinear) false [] x None []) = Ok (OVal (Fin 2)) /\
    outcome xN OpFrobNorm (after xN (builtin KLinear) false [] x None post) = Ok (OVal (Fin 0)).
Proof.
  exists (mkNd [2; 1] [Fin 1; Fin (-1)]), 2, 1,
    [OpGetItem (IPair (ISlice None None None) (ISlice None None None))].
  split; [apply linear_total; reflexivity|].
  split; [split; [exists []; split; [reflexivity|constructor]|reflexivity]|]. split; [reflexivity|].
  split; [intros [H|[]]; discriminate|].
  split.
  - calc. rdec. do 3 f_equal.
    match goal with |- sqrt ?t = _ => replace t with (2 * 2)%R by ring end. apply sqrt_square. lra.
  - calc. rdec. do 3 f_equal.
    match goal with |- sqrt ?t = _ => replace t with 0%R by ring end. apply sqrt_0.
Qed.

(*BEGIN PROP*)
(** The hypotheses of C03, C61 and C62 hold for non-trivial inputs. *)
Example C03_example :
  never_raises (builtin KLinear) xdot x12 None 2 2 1 /\ admissible x12 None 2 2 1 /\
  kernel_matrix xdot 2 2 1 x12 None = rmat 2 2 (fun i j => (INR (1 + i) * INR (1 + j))%R) /\
  (forall i, i < 2 -> (1/100000000 < INR (1 + i) * INR (1 + i))%R).
Proof.
  split; [apply linear_total; reflexivity|]. split; [exact x12_ok|]. split.
  - apply tabulate_ext. intros i j Hi Hj.
    destruct i as [|[|i]]; [| |lia]; (destruct j as [|[|j]]; [| |lia]);
      lazy -[Rplus Rmult IZR]; f_equal; ring.
  - intros [|[|i]] Hi; [| |lia]; cbn; lra.
Qed.
Example C03_two_samples_example :
  never_raises (builtin KLinear) xdot x12 (Some x12) 2 2 1 /\ admissible x12 (Some x12) 2 2 1 /\
  forall i, i < 2 -> match xdot (row_of 1 x12 i) (row_of 1 x12 i) with
                     | Fin r => (0 <= r)%R | PInf => True | _ => False end.
Proof.
  split; [apply linear_total; reflexivity|]. split; [exact x12_x12_ok|].
  intros [|[|i]] Hi; [| |lia]; lazy -[Rplus Rmult IZR Rle]; lra.
Qed.
Example C62_example :
  let K := mkKernel (fun _ u v => Ok (xadd (xdot u v) (Fin 1))) true in
  let k := fun u v => xadd (xdot u v) (Fin 1) in
  let x := mkNd [2; 1] [Fin 1; NaN] in
  never_raises K k x None 2 2 1 /\ admissible x None 2 2 1 /\ k (row_of 1 x 0) (row_of 1 x 1) = NaN /\
  exists B, normalize_km "cosine" (mkArr Dense (kernel_matrix k 2 2 1 x None)) = Ok B.
Proof.
  split; [intros t u v _ _; reflexivity|].
  split; [split; [exists []; split; [reflexivity|constructor]|reflexivity]|]. split; [reflexivity|].
  eexists. calc. rdec. reflexivity.
Qed.
(*END PROP*)
