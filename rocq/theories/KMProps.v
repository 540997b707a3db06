(** Properties C01 - C17 of KernelMatrix. *)
From Coq Require Import String List Arith ZArith Bool Lia Sorting.Sorted.
Import ListNotations.
From Verif Require Import Prelude MatModel MatFacts UtilsModel IndexModel KMModel SpecKM MFacts
  KMFacts KMInv KMOps KMIndex KMHist KMTotal KMGet KMTrack KMLog KMHist2 ToyModel.

Local Open Scope list_scope.
Local Open Scope nat_scope.

Lemma tf : forall {P : Prop}, true = false -> P.
Proof. discriminate. Qed.

Lemma gs : forall {E V U} {N : numops V} {K : kernel E V} {k nrm X Y two n m d base spi sps}
  {s : km E V U}, good N K k nrm X Y two n m d base spi sps s -> sane N K k nrm X Y two n m d base s.
Proof. intros. apply H. Qed.

(** C01. After any history, an index access that succeeds on a proper part of the matrix
    returns a dense matrix with the selected rows and columns, ascending and without
    repetition, holding the kernel values of the attached sample(s). The kernel may raise
    at any call of the history. *)
Lemma pf_C01_getitem_values :
  forall {E V U} (N : numops V) (K : kernel E V) k nrm (pre post : list (op E U))
         x y n m d ix rows cols a,
    returns_only K k x y n m d -> admissible x y n m d -> no_attach post ->
    selection2 n m ix rows cols -> ~ whole n m rows cols ->
    outcome N (OpGetItem ix) (after N K nrm pre x y post) = Ok (OArr a) ->
    a = mkArr Dense (submatrix (entry k d x y) rows cols).
Proof.
  intros E V U N K k nrm pre post x y n m d ix rows cols a Hret Hadm Hno Hsel Hpr Hok.
  assert (Hs := S1_sane N K k nrm pre post x y n m d Hadm Hno Hret).
  unfold outcome, step in Hok. rewrite outcome_fmap in Hok.
  destruct (valid_or_not n m ix) as [Hv|Hv].
  - assert (H := getitem_proper N K k nrm (stored n d x) (stored2 n m d x y) (is_some y) n m d _ eq_refl (stored2_shape x y n m d Hadm)
                (stored2_one x y n m d Hadm) (ret_stored K k x y n m d Hadm Hret) _ ix rows cols Hs Hv Hsel Hpr).
    unfold holds in H. destruct H as (_ & _ & _ & _ & H).
    destruct (snd (getitem N ix (after N K nrm pre x y post))) as [b|e]; [|discriminate].
    cbn in Hok. injection Hok as <-. rewrite H, (sub_spec k x y n m d). reflexivity.
  - destruct (getitem_invalid N K k nrm _ _ _ n m d _ _ ix Hs Hv) as (e & He & _).
    rewrite He in Hok. discriminate.
Qed.

(** C01, complement: with a symmetric kernel the mirrored entry is the kernel value. *)
Lemma pf_C01_symmetric_kernel :
  forall {E V} (k : list E -> list E -> V) d x i j,
    (forall u v, k u v = k v u) ->
    entry k d x None i j = k (row_of d x i) (row_of d x j).
Proof.
  intros E V k d x i j H. unfold entry. destruct (i <=? j); [reflexivity|apply H].
Qed.

(*BEGIN PROP*)
(** Hypotheses met: a kernel that raises on every third call, a failed full first. *)
Example C01_example :
  let o := OpGetItem (IPair (ISlice (Some 1%Z) None None) (IIter [EInt 2; EInt 0])) in
  let hist := after (U:=Z) toyN flaky_dot false [] toyX None [OpFull; OpNormedKM] in
  outcome toyN o hist = Raise RuntimeError /\
  outcome toyN o (fst (step toyN o hist))
  = Ok (OArr (mkArr Dense (mkMat 2 2 [[Some 11%Z; Some 39%Z]; [Some 17%Z; Some 61%Z]]))).
Proof. vm_compute. split; reflexivity. Qed.
Example C01_hypotheses : returns_only flaky_dot dotk toyX None 3 3 2 /\ admissible toyX None 3 3 2 /\
  is_ok (kf flaky_dot 2 [Some 1%Z] [Some 1%Z]) = false.
Proof. split; [apply flaky_returns|]. split; [exact toyX_ok|reflexivity]. Qed.
(*END PROP*)

(** C02. Each pair of rows is evaluated successfully at most once between two attach_to
    calls (calls for the entries of the object itself): [new] are all kernel calls since
    the attach_to, [successful K 0] the index pairs of those that returned a value. *)
Lemma pf_C02_pairs_once :
  forall {E V U} (N : numops V) (K : kernel E V) k nrm (pre post : list (op E U)) x y n m d,
    returns_only K k x y n m d -> admissible x y n m d -> no_attach post ->
    exists new,
      g_calls (after N K nrm pre x y post) = new ++ g_calls (before N K nrm pre) /\
      NoDup (successful K 0 (length (g_calls (before N K nrm pre))) new) /\
      forall p, In p (successful K 0 (length (g_calls (before N K nrm pre))) new) ->
        fst p < n /\ snd p < m /\ (y = None -> fst p <= snd p).
Proof.
  intros E V U N K k nrm pre post x y n m d Hret Hadm Hno.
  destruct (S1_sane N K k nrm pre post x y n m d Hadm Hno Hret) as [Hi _].
  destruct Hi as [_ Hm (new & Hnew & Hsucc & _)].
  exists new. split; [exact Hnew|]. rewrite Hsucc. split; [apply Hm|].
  intros p Hp. unfold keys in Hp. apply in_map_iff in Hp. destruct Hp as ([q v] & Hq & Hin).
  cbn in Hq. subst q. destruct (mo_sound _ _ _ _ _ _ _ _ Hm p v Hin) as (H1 & H2 & H3 & _).
  split; [exact H1|]. split; [exact H2|]. intros ->. unfold norm in H3. cbn in H3.
  destruct p as [i j]. cbn in *. inversion H3. lia.
Qed.

(** The pairs i <= j below n. *)
Definition upper_pairs (n : nat) : list (nat * nat) :=
  flat_map (fun j => map (fun i => (i, j)) (seq 0 (S j))) (seq 0 n).

Lemma upper_pairs_length : forall n, length (upper_pairs n) = n * (n + 1) / 2.
Proof.
  intros n. assert (H : 2 * length (upper_pairs n) = n * (n + 1)).
  { induction n as [|n IH]; [reflexivity|]. unfold upper_pairs in *.
    rewrite seq_S, flat_map_app, app_length. cbn [Nat.add flat_map].
    rewrite app_nil_r, map_length, seq_length. lia. }
  rewrite <- H, Nat.mul_comm, Nat.div_mul; lia.
Qed.

Lemma returned_own : forall {E V} (K : kernel E V) base (l : list (call E)),
  Forall (fun c => c_tag c = 0) l -> successful K 0 base l = map c_ix (returned K base l).
Proof.
  intros E V K base l H. induction H as [|c l Hc Hl IH]; [reflexivity|].
  cbn [successful returned]. rewrite Hc, IH. cbn [Nat.eqb andb].
  destruct (is_ok _); reflexivity.
Qed.

Lemma log_own : forall {E V U} (N : numops V) (K : kernel E V) nrm (pre post : list (op E U))
    x y n m d,
  admissible x y n m d -> no_attach post ->
  y = None \/ (nrm = false /\ no_normalisation post) ->
  exists new, g_calls (after N K nrm pre x y post) = new ++ g_calls (before N K nrm pre) /\
    Forall (fun c => c_tag c = 0) new.
Proof.
  intros E V U N K nrm pre post x y n m d Hadm Hno Hq.
  rewrite (after_split N K nrm pre post x y n m d Hadm).
  destruct (hist_attached N K nrm pre x y n m d Hadm) as (_ & _ & Hn & Ht).
  fold (before N K nrm pre) in *.
  destruct (R_run N post (attached (before N K nrm pre) x y n m d) Hno)
    as (_ & _ & _ & new & Hnew & Htag).
  exists new. split; [exact Hnew|].
  replace (g_tag (attached (before N K nrm pre) x y n m d)) with 0 in Htag
    by (symmetry; exact Ht).
  apply Htag. destruct Hq as [->|[Hf Hnn]].
  - left. discriminate.
  - right. split.
    + apply forallb_forall. intros o Ho. specialize (Hnn o Ho).
      destruct o; try reflexivity; destruct Hnn.
    + cbn. rewrite Hn. exact Hf.
Qed.

(** C02 for one sample: at most n(n+1)/2 successful kernel evaluations in all. *)
Lemma pf_C02_one_sample_bound :
  forall {E V U} (N : numops V) (K : kernel E V) k nrm (pre post : list (op E U)) x n d,
    returns_only K k x None n n d -> admissible x None n n d -> no_attach post ->
    exists new,
      g_calls (after N K nrm pre x None post) = new ++ g_calls (before N K nrm pre) /\
      length (returned K (length (g_calls (before N K nrm pre))) new) <= n * (n + 1) / 2.
Proof.
  intros E V U N K k nrm pre post x n d Hret Hadm Hno.
  destruct (pf_C02_pairs_once N K k nrm pre post x None n n d Hret Hadm Hno)
    as (new & Hnew & Hnd & Hr).
  destruct (log_own N K nrm pre post x None n n d Hadm Hno (or_introl eq_refl))
    as (new' & Hnew' & Htag).
  assert (new' = new) by (eapply app_inv_tail; rewrite <- Hnew; symmetry; exact Hnew'). subst new'.
  exists new. split; [exact Hnew|].
  rewrite (returned_own K _ new Htag) in Hnd, Hr.
  rewrite <- upper_pairs_length, <- (map_length c_ix).
  apply NoDup_incl_length; [exact Hnd|]. intros [i j] Hp.
  destruct (Hr _ Hp) as (H1 & H2 & H3). cbn in *. specialize (H3 eq_refl).
  unfold upper_pairs. apply in_flat_map. exists j. split; [apply in_seq; lia|].
  apply in_map_iff. exists i. split; [reflexivity|]. apply in_seq. lia.
Qed.

(** C02 for two samples, as long as nothing is normalised: at most n*m successful
    evaluations. Missing from the full statement: histories that normalise, for which the
    bound is false (C02_two_samples_refuted). *)
Lemma pf_C02_two_samples_partial :
  forall {E V U} (N : numops V) (K : kernel E V) k (pre post : list (op E U)) x y n m d,
    returns_only K k x y n m d -> admissible x y n m d -> no_attach post -> no_normalisation post ->
    exists new,
      g_calls (after N K false pre x y post) = new ++ g_calls (before N K false pre) /\
      length (returned K (length (g_calls (before N K false pre))) new) <= n * m.
Proof.
  intros E V U N K k pre post x y n m d Hret Hadm Hno Hnn.
  destruct (pf_C02_pairs_once N K k false pre post x y n m d Hret Hadm Hno)
    as (new & Hnew & Hnd & Hr).
  destruct (log_own N K false pre post x y n m d Hadm Hno (or_intror (conj eq_refl Hnn)))
    as (new' & Hnew' & Htag).
  assert (new' = new) by (eapply app_inv_tail; rewrite <- Hnew; symmetry; exact Hnew'). subst new'.
  exists new. split; [exact Hnew|].
  rewrite (returned_own K _ new Htag) in Hnd, Hr.
  replace (n * m) with (length (product (seq 0 n) (seq 0 m))).
  2:{ rewrite <- (seq_length n 0) at 2. rewrite <- (seq_length m 0) at 2.
      generalize (seq 0 n) as r. generalize (seq 0 m) as c. intros c r. unfold product.
      induction r as [|i r IH]; [reflexivity|]. cbn [flat_map length].
      rewrite app_length, IH, map_length. lia. }
  rewrite <- (map_length c_ix). apply NoDup_incl_length; [exact Hnd|]. intros [i j] Hp.
  destruct (Hr _ Hp) as (H1 & H2 & _). cbn in *.
  apply in_product. split; apply in_seq; lia.
Qed.

(*BEGIN PROP*)
Example C02_example :
  let s := after (U:=Z) toyN flaky_dot true [OpFull] toyX None
                 [OpFull; OpDiagonal; OpGetItem (IFlat 2); OpGetItem (IFlat 6); OpNormedKM;
                  OpGetItem (IFlat 5); OpGetItem (IFlat 7); OpDiagonal; OpFull] in
  length (returned flaky_dot 0 (g_calls s)) = 6 /\ length (g_calls s) = 8.
Proof. vm_compute. split; reflexivity. Qed.
(*END PROP*)

(** C04 (partial). With normalized=False and a kernel that never raises and supports
    format(), [full] is the complete dense kernel matrix after any history without
    full_sparse and without index accesses that select the whole matrix. Missing: those
    two accesses, after which the claim is false (C04_refuted_...). *)
Lemma pf_C04_full_partial :
  forall {E V U} (N : numops V) (K : kernel E V) k (pre post : list (op E U)) x y n m d,
    never_raises K k x y n m d -> kfmt K = true -> admissible x y n m d -> no_attach post ->
    no_full_sparse post -> no_whole_index n m post ->
    outcome N OpFull (after N K false pre x y post)
    = Ok (OArr (mkArr Dense (kernel_matrix k n m d x y))).
Proof.
  intros E V U N K k pre post x y n m d Hnr Hfmt Hadm Hno Hfs Hwi.
  assert (Hg := S1_good N K k false pre post x y n m d Hadm Hno false false Hnr
                  (fun _ _ => Hfs) (fun _ => Hwi)).
  assert (H := full_total N K k false (stored n d x) (stored2 n m d x y) (is_some y) n m d _ (nr_stored K k x y n m d Hadm Hnr) eq_refl (stored2_shape x y n m d Hadm)
                 (stored2_one x y n m d Hadm) false false _ Hg).
  unfold holds in H. destruct H as (_ & H & _). destruct (H eq_refl) as (a & _ & Hc & _ & Hr).
  unfold outcome, step. rewrite outcome_fmap.
  destruct Hr as [->|(_ & Hk & _)]; [|congruence]. cbn.
  destruct Hc as [[Hf Ha]|[(Hx & _)|(Hx & _)]]; [|discriminate|discriminate].
  destruct a as [f A]; cbn in *. subst. rewrite (KMat_spec k x y n m d). reflexivity.
Qed.

(** C04, contents: without full_sparse the contents are right in every case; only the
    format may be a sparse matrix. *)
Lemma pf_C04_contents_partial :
  forall {E V U} (N : numops V) (K : kernel E V) k (pre post : list (op E U)) x y n m d,
    never_raises K k x y n m d -> kfmt K = true -> admissible x y n m d -> no_attach post ->
    no_full_sparse post ->
    exists f, (f = Dense \/ f = Lil) /\
      outcome N OpFull (after N K false pre x y post)
      = Ok (OArr (mkArr f (kernel_matrix k n m d x y))).
Proof.
  intros E V U N K k pre post x y n m d Hnr Hfmt Hadm Hno Hfs.
  assert (Hg := S1_good N K k false pre post x y n m d Hadm Hno true false Hnr
                  (fun _ _ => Hfs) (fun H => tf H)).
  assert (H := full_total N K k false (stored n d x) (stored2 n m d x y) (is_some y) n m d _ (nr_stored K k x y n m d Hadm Hnr) eq_refl (stored2_shape x y n m d Hadm)
                 (stored2_one x y n m d Hadm) true false _ Hg).
  unfold holds in H. destruct H as (_ & H & _). destruct (H eq_refl) as (a & _ & Hc & _ & Hr).
  unfold outcome, step. rewrite outcome_fmap.
  destruct Hr as [->|(_ & Hk & _)]; [|congruence]. cbn. rewrite <- (KMat_spec k x y n m d).
  destruct a as [f A]; unfold cand in Hc; cbn [afmt amat] in Hc. exists f.
  destruct Hc as [[Hf Ha]|[(_ & Hf & Ha)|(Hx & _)]]; [| |discriminate]; subst f A; cbn;
    (split; [tauto|reflexivity]).
Qed.

(*BEGIN PROP*)
Example C04_example :
  outcome toyN OpFull
    (after (U:=Z) toyN dot false [OpAttach toyA None; OpFullSparse] toyX None
       [OpFrobNorm; OpGetItem (IPair (IInt 1) (ISlice None None None)); OpNormedKM; OpCentered])
  = Ok (OArr (mkArr Dense (mkMat 3 3
      [[Some 5; Some 11; Some 17]; [Some 11; Some 25; Some 39]; [Some 17; Some 39; Some 61]]%Z)))
  /\ no_whole_index 3 3 ([OpGetItem (IPair (IInt 1) (ISlice None None None))] : list (op (option Z) Z)).
Proof.
  split; [vm_compute; reflexivity|].
  intros ix [H|[]]. inversion H; subst. intros [[_ Hs] _].
  specialize (Hs 0). cbn in Hs. destruct Hs as [Hs _].
  specialize (Hs (or_introl eq_refl)). discriminate.
Qed.
(*END PROP*)

(** C05. Attached to one sample, km[i, j] and km[j, i] give the same value, at any two
    moments of any two histories since the attach_to, with any kernel, symmetric or not,
    raising or not. *)
Lemma pf_C05_elements_symmetric :
  forall {E V U} (N : numops V) (K : kernel E V) k nrm (pre post1 post2 : list (op E U))
         x n d i j a b,
    returns_only K k x None n n d -> admissible x None n n d -> no_attach post1 -> no_attach post2 ->
    i < n -> j < n -> i <> j ->
    outcome N (OpGetItem (IPair (IInt (Z.of_nat i)) (IInt (Z.of_nat j))))
            (after N K nrm pre x None post1) = Ok (OArr a) ->
    outcome N (OpGetItem (IPair (IInt (Z.of_nat j)) (IInt (Z.of_nat i))))
            (after N K nrm pre x None post2) = Ok (OArr b) ->
    exists v, amat a = mkMat 1 1 [[v]] /\ amat b = mkMat 1 1 [[v]].
Proof.
  intros E V U N K k nrm pre post1 post2 x n d i j a b Hret Hadm Hn1 Hn2 Hi Hj Hij Ha Hb.
  assert (Hw : forall p q : nat, p < n -> q < n -> p <> q -> ~ whole n n [p] [q]).
  { intros p q Hp Hq Hpq [H1 H2]. assert (n = 1) by (apply (f_equal (@length nat)) in H1;
      rewrite seq_length in H1; exact (eq_sym H1)). lia. }
  apply (pf_C01_getitem_values N K k nrm pre post1 x None n n d _ [i] [j]) in Ha; auto.
  2:{ split; apply selection_int. }
  apply (pf_C01_getitem_values N K k nrm pre post2 x None n n d _ [j] [i]) in Hb; auto.
  2:{ split; apply selection_int. }
  exists (entry k d x None i j). subst a b. split; [reflexivity|].
  replace (entry k d x None i j) with (entry k d x None j i); [reflexivity|]. unfold entry.
  destruct (i <=? j) eqn:H1; destruct (j <=? i) eqn:H2; try reflexivity.
  - apply Nat.leb_le in H1, H2. lia.
  - apply Nat.leb_gt in H1, H2. lia.
Qed.

(** C05, full matrix: with normalized=False, [full] equals its transpose after any history
    without full_sparse, whatever the kernel raised in between. *)
Lemma pf_C05_full_symmetric :
  forall {E V U} (N : numops V) (K : kernel E V) k (pre post : list (op E U)) x n d a,
    returns_only K k x None n n d -> admissible x None n n d -> no_attach post -> no_full_sparse post ->
    outcome N OpFull (after N K false pre x None post) = Ok (OArr a) ->
    forall i j, i < n -> j < n ->
      mget (v_nan N) (amat a) i j = mget (v_nan N) (amat a) j i.
Proof.
  intros E V U N K k pre post x n d a Hret Hadm Hno Hfs Hok i j Hi Hj.
  assert (Ht := S1_tidy N K k false pre (post ++ [OpFull]) x None n n d Hadm).
  assert (Hno' : no_attach (post ++ [OpFull])).
  { unfold no_attach in *. rewrite forallb_app, Hno. reflexivity. }
  specialize (Ht Hno' true false Hret).
  assert (Hfs' : no_full_sparse (post ++ [OpFull])).
  { intros H. apply in_app_or in H. destruct H as [H|[H|[]]]; [exact (Hfs H)|discriminate]. }
  specialize (Ht (fun _ _ => Hfs') (fun H => tf H)).
  assert (Hs0 := S1_sane N K k false pre post x None n n d Hadm Hno Hret).
  unfold after in Ht, Hok, Hs0.
  replace (pre ++ OpAttach x None :: post ++ [OpFull])
    with ((pre ++ OpAttach x None :: post) ++ [OpFull]) in Ht
    by (rewrite <- app_assoc; reflexivity).
  rewrite run_app in Ht. set (s := run N (pre ++ OpAttach x None :: post) (km_new K false [])) in *.
  change (run N [OpFull] s) with (fst (step N OpFull s)) in Ht.
  unfold step in Ht. rewrite (state_fmap _ (full N) s) in Ht.
  unfold outcome, step in Hok. rewrite outcome_fmap in Hok.
  assert (Hk : k_keep_normed s = false) by (destruct (sane_fixed _ _ _ _ _ _ _ _ _ _ _ _ Hs0); tauto).
  (* the returned matrix is the stored one, and full marks it as complete *)
  assert (Hend : k_full (fst (full N s)) = Some a /\ k_populated (fst (full N s)) = true \/
                 k_full (fst (full N s)) = Some a /\ k_lower (fst (full N s)) = true).
  { assert (Hf : holds (full N) s (fun s' r => forall a', r = Ok a' ->
       k_full s' = Some a' /\ (k_populated s' = true \/ k_lower s' = true))).
    { unfold full. apply holds_bind, holds_get. rewrite Hk.
      destruct (k_sample s); [|apply holds_raise; discriminate].
      apply holds_bind. destruct (k_populated s) eqn:Hp; cbn [negb when].
      - apply holds_ret. unfold holds, attr_or, bind, get, ret, raise.
        destruct (k_full s) as [f|] eqn:Hfu; cbn; [|discriminate]. intros a' Ha'. inversion Ha'.
        subst. auto.
      - apply holds_bind. eapply holds_conseq;
          [apply (populate_holds N K k false (stored n d x) (stored2 n n d x None) (@is_some (ndarray E) None) n n d _ (ret_stored K k x None n n d Hadm Hret) eq_refl
                    (stored2_shape x None n n d Hadm) (stored2_one x None n n d Hadm) true true s Hs0)|].
        intros s' [f|e] (_ & _ & _ & H & _); [|discriminate]. destruct H as [H1 H2].
        apply holds_ret. unfold holds, attr_or, bind, get, ret. rewrite H1. cbn.
        intros a' Ha'. inversion Ha'. subst. split; [exact H1|]. right. apply H2. reflexivity. }
    unfold holds in Hf. destruct (snd (full N s)) as [b|e]; [|discriminate].
    cbn in Hok. inversion Hok. subst b. destruct (Hf a eq_refl) as [H1 [H2|H2]]; auto. }
  destruct Ht as ([_ Hfull] & Hlow & _).
  assert (HH : k_full (fst (full N s)) = Some a /\ k_lower (fst (full N s)) = true).
  { destruct Hend as [[H1 H2]|H]; [|exact H]. split; [exact H1|].
    apply (Hlow eq_refl (or_introl eq_refl) H2). }
  destruct HH as [H1 H2]. unfold full_ok in Hfull. rewrite H1 in Hfull.
  destruct Hfull as (_ & _ & _ & Hsym). apply (Hsym H2 eq_refl i j Hi Hj).
Qed.

(*BEGIN PROP*)
(** An asymmetric kernel that raises on some calls; the second read returns a matrix with
    missing entries, symmetric all the same. *)
Example C05_example :
  let s := after (U:=Z) toyN flaky_asym false [] toyX None [OpFull] in
  outcome toyN OpFull (before (U:=Z) toyN flaky_asym false [OpAttach toyX None]) = Raise RuntimeError /\
  outcome toyN OpFull s
  = Ok (OArr (mkArr Dense (mkMat 3 3 [[Some 0; Some (-2); None]; [Some (-2); None; None];
                                       [None; None; None]]%Z))) /\
  returns_only flaky_asym asymk toyX None 3 3 2 /\ asymk [Some 1%Z] [Some 2%Z] <> asymk [Some 2%Z] [Some 1%Z].
Proof.
  split; [vm_compute; reflexivity|]. split; [vm_compute; reflexivity|].
  split; [apply flaky_asym_returns|]. vm_compute. discriminate.
Qed.
(*END PROP*)

(** C06. After an accepted attach_to, everything that can be observed later - results,
    exceptions, attributes, and the kernel calls made - is the same as for a newly
    constructed object attached to the same data at that moment, whatever came before. *)
Lemma pf_C06_fresh_slate :
  forall {E V U} (N : numops V) (K : kernel E V) nrm (pre post : list (op E U)) x y n m d,
    admissible x y n m d ->
    let old := after N K nrm pre x y [] in
    let new := run N [OpAttach x y] (km_new K nrm (g_calls (before N K nrm pre))) in
    trace N post old = trace N post new /\
    g_calls (run N post old) = g_calls (run N post new).
Proof.
  intros E V U N K nrm pre post x y n m d Hadm old new.
  destruct (hist_attached N K nrm pre x y n m d Hadm) as (Ho & HK & Hn & Ht).
  assert (Hold : old = attached (before N K nrm pre) x y n m d) by exact Ho.
  assert (Hnew : new = attached (km_new K nrm (g_calls (before N K nrm pre))) x y n m d).
  { unfold new. cbn [run step]. unfold fmap, bind. rewrite (attach_to_ok _ x y n m d Hadm).
    reflexivity. }
  rewrite Hold, Hnew.
  destruct (sim_trace N post _ _ (sim_attach K nrm (before N K nrm pre) x y n m d HK Hn Ht))
    as [H1 (c & H2 & _)].
  split; [exact H1|]. rewrite H2. reflexivity.
Qed.

(*BEGIN PROP*)
(** The earlier history leaves a centred matrix, attributes and a failed attach_to behind. *)
Example C06_example :
  trace toyN [OpGetAttr "a"%string; OpCentered; OpFull; OpShape]
    (after (U:=Z) toyN dot false [OpAttach toyA None; OpSetAttr "a"%string 7%Z; OpCentered; OpAttach toyA (Some toyX)]
           toyX None [])
  = trace toyN [OpGetAttr "a"%string; OpCentered; OpFull; OpShape]
      (run toyN [OpAttach toyX None] (km_new (U:=Z) dot false [])).
Proof. vm_compute. reflexivity. Qed.
(*END PROP*)

(** C07 (partial). If the first sample is not two-dimensional, attach_to raises ValueError
    and changes nothing. Missing: rejection because of the second sample, for which the
    claim is false (C07_refuted). *)
Lemma pf_C07_rejected_first_partial :
  forall {E V U} (N : numops V) (s : km E V U) x y,
    (forall n d, ~ is_sample x n d) ->
    step N (OpAttach x y) s = (s, Raise ValueError).
Proof.
  intros E V U N s x y Hx. unfold step, fmap, attach_to, bind, lift.
  destruct (ensure_2D_own x) as [a|e] eqn:He.
  - destruct (ensure_2D_own_inv x a He) as (n & d & H & _). destruct (Hx n d H).
  - rewrite (ensure_2D_own_raise x e He). reflexivity.
Qed.

(** C07: every rejection is a ValueError. *)
Lemma pf_C07_rejection_is_ValueError :
  forall {E V U} (N : numops V) (s : km E V U) x y,
    (forall n m d, ~ admissible x y n m d) ->
    outcome N (OpAttach x y) s = Raise ValueError.
Proof.
  intros E V U N s x y Hx. unfold outcome, step. rewrite outcome_fmap.
  destruct (attach_to x y s) as [s' [[]|e]] eqn:Ha; cbn.
  - destruct (attach_to_inv s s' x y Ha) as (n & m & d & H & _). destruct (Hx n m d H).
  - f_equal. unfold attach_to, bind, lift, modify in Ha.
    destruct (ensure_2D_own x) as [a|e1] eqn:He.
    + destruct y as [y|]; [|discriminate].
      destruct (ensure_2D_own y) as [b|e2] eqn:He2.
      * destruct (negb _); [|discriminate]. inversion Ha. reflexivity.
      * inversion Ha; subst. apply (ensure_2D_own_raise y e He2).
    + inversion Ha; subst. apply (ensure_2D_own_raise x e He).
Qed.

(*BEGIN PROP*)
Example C07_example : forall n d, ~ is_sample (mkNd [4] [Some 1; Some 2; Some 3; Some 4]%Z) n d.
Proof. intros n d (extra & H & _). discriminate. Qed.
(*END PROP*)

(** C08 (partial). Whatever the kernel raised before, every entry of a dense matrix that
    [full] (normalized=False) returns is the true kernel value or NaN, as long as the
    sparse accesses were not used; elements read by index are always true (C01). Missing:
    "never returns unevaluated entries", which is false (C08_refuted, C08_refuted_sparse). *)
Lemma pf_C08_true_or_nan_partial :
  forall {E V U} (N : numops V) (K : kernel E V) k (pre post : list (op E U)) x y n m d a,
    returns_only K k x y n m d -> admissible x y n m d -> no_attach post ->
    no_full_sparse post -> no_whole_index n m post ->
    outcome N OpFull (after N K false pre x y post) = Ok (OArr a) ->
    afmt a = Dense /\
    forall i j, i < n -> j < m ->
      mget (v_nan N) (amat a) i j = entry k d x y i j \/ mget (v_nan N) (amat a) i j = v_nan N.
Proof.
  intros E V U N K k pre post x y n m d a Hret Hadm Hno Hfs Hwi Hok.
  assert (Hno' : no_attach (post ++ [OpFull])).
  { unfold no_attach in *. rewrite forallb_app, Hno. reflexivity. }
  assert (Hfs' : no_full_sparse (post ++ [OpFull])).
  { intros H. apply in_app_or in H. destruct H as [H|[H|[]]]; [exact (Hfs H)|discriminate]. }
  assert (Hwi' : no_whole_index n m (post ++ [OpFull])).
  { intros ix H. apply in_app_or in H. destruct H as [H|[H|[]]]; [exact (Hwi ix H)|discriminate]. }
  assert (Ht := S1_tidy N K k false pre (post ++ [OpFull]) x y n m d Hadm Hno' false false Hret
                  (fun _ _ => Hfs') (fun _ => Hwi')).
  assert (Hs0 := S1_sane N K k false pre post x y n m d Hadm Hno Hret).
  unfold after in Ht, Hok, Hs0.
  replace (pre ++ OpAttach x y :: post ++ [OpFull])
    with ((pre ++ OpAttach x y :: post) ++ [OpFull]) in Ht
    by (rewrite <- app_assoc; reflexivity).
  rewrite run_app in Ht. set (s := run N (pre ++ OpAttach x y :: post) (km_new K false [])) in *.
  change (run N [OpFull] s) with (fst (step N OpFull s)) in Ht.
  unfold step in Ht. rewrite (state_fmap _ (full N) s) in Ht.
  unfold outcome, step in Hok. rewrite outcome_fmap in Hok.
  assert (Hk : k_keep_normed s = false) by (destruct (sane_fixed _ _ _ _ _ _ _ _ _ _ _ _ Hs0); tauto).
  assert (Hend : k_full (fst (full N s)) = Some a).
  { assert (Hf : holds (full N) s (fun s' r => forall a', r = Ok a' -> k_full s' = Some a')).
    { unfold full. apply holds_bind, holds_get. rewrite Hk.
      destruct (k_sample s); [|apply holds_raise; discriminate].
      apply holds_bind.
      unfold holds. destruct (when _ _ s) as [s' [u|e]]; cbn; [|discriminate].
      unfold attr_or, bind, get, ret, raise. destruct (k_full s') eqn:Hf'; cbn; [|discriminate].
      intros a' Ha'. inversion Ha'. subst. exact Hf'. }
    unfold holds in Hf. destruct (snd (full N s)) as [b|e]; [|discriminate].
    cbn in Hok. inversion Hok. subst b. apply Hf. reflexivity. }
  destruct Ht as ([_ Hfull] & _ & Hden). specialize (Hden eq_refl a Hend).
  split; [exact Hden|]. intros i j Hi Hj. unfold full_ok in Hfull. rewrite Hend in Hfull.
  destruct Hfull as (_ & Hval & _). destruct (Hval i j Hi Hj) as [H|[H|[_ H]]].
  - left. rewrite H. apply truev_entry.
  - right. exact H.
  - congruence.
Qed.

(** C09, rejection: an index that is not valid raises KMAccessError (ValueError for a slice with step 0 or a
    flat index out of range, TypeError for one beyond 64 bits, or what iterating over it raises), makes no
    kernel call and changes nothing. *)
Lemma pf_C09_invalid_rejected :
  forall {E V U} (N : numops V) (K : kernel E V) k nrm (pre post : list (op E U)) x y n m d ix,
    returns_only K k x y n m d -> admissible x y n m d -> no_attach post -> ~ valid n m ix ->
    exists e, rejection n m ix e /\
      step N (OpGetItem ix) (after N K nrm pre x y post)
      = (after N K nrm pre x y post, Raise e).
Proof.
  intros E V U N K k nrm pre post x y n m d ix Hret Hadm Hno Hv.
  assert (Hs := S1_sane N K k nrm pre post x y n m d Hadm Hno Hret).
  destruct (getitem_invalid N K k nrm _ _ _ n m d _ _ ix Hs Hv) as (e & He & Hor).
  exists e. split; [exact Hor|]. unfold step, fmap, bind. rewrite He. reflexivity.
Qed.

(** C09, acceptance: a valid index succeeds, with one row per selected row and one column
    per selected column (whole-matrix selections included), after every history. *)
Lemma pf_C09_valid_accepted :
  forall {E V U} (N : numops V) (K : kernel E V) k nrm (pre post : list (op E U)) x y n m d
         ix rows cols,
    never_raises K k x y n m d -> kfmt K = true -> admissible x y n m d -> no_attach post ->
    valid n m ix -> selection2 n m ix rows cols ->
    exists f, outcome N (OpGetItem ix) (after N K nrm pre x y post)
              = Ok (OArr (mkArr f (submatrix (entry k d x y) rows cols))) /\
              mr (submatrix (entry k d x y) rows cols) = length rows /\
              mc (submatrix (entry k d x y) rows cols) = length cols.
Proof.
  intros E V U N K k nrm pre post x y n m d ix rows cols Hnr Hfmt Hadm Hno Hv Hsel.
  assert (Hg := S1_good N K k nrm pre post x y n m d Hadm Hno true true Hnr
                  (fun _ H => tf H) (fun H => tf H)).
  assert (H := getitem_total N K k nrm (stored n d x) (stored2 n m d x y) (is_some y) n m d _ (nr_stored K k x y n m d Hadm Hnr) eq_refl (stored2_shape x y n m d Hadm)
                 (stored2_one x y n m d Hadm) true true _ ix rows cols Hg (fun _ => eq_refl) Hv Hsel).
  unfold holds in H. destruct H as (_ & [f A] & HA & _ & Hr). cbn in HA.
  unfold outcome, step. rewrite outcome_fmap.
  destruct Hr as [->|(_ & _ & Hk & _)]; [|congruence].
  exists f. cbn. rewrite HA, (sub_spec k x y n m d). auto.
Qed.

(** C09: every valid index has a selection. *)
Lemma pf_C09_selection_exists :
  forall n m ix, valid n m ix -> exists rows cols, selection2 n m ix rows cols /\
    rows <> [] /\ cols <> [].
Proof.
  intros n m ix Hv. destruct (resolve_valid n m ix Hv) as (rows & cols & _ & H & _ & _ & H1 & H2).
  eauto.
Qed.

(*BEGIN PROP*)
Example C09_example :
  valid 3 3 (IPair (ISlice (Some (-1)%Z) None (Some (-2)%Z)) (IIter [EInt 1; EInt 1])) /\
  selection2 3 3 (IPair (ISlice (Some (-1)%Z) None (Some (-2)%Z)) (IIter [EInt 1; EInt 1]))
             [0; 2] [1] /\
  ~ valid 3 3 (IPair (IInt 0) (IIter [EInt 3])) /\
  ~ valid 3 3 (IPair (IInt (-1)) (IInt 0)).
Proof.
  assert (Hs : forall z, denotes 3 (ISlice (Some (-1)%Z) None (Some (-2)%Z)) z <->
                         (z = 2 \/ z = 0)%Z).
  { intros z. change (denotes 3 (ISlice (Some (-1)%Z) None (Some (-2)%Z)) z)
      with (exists q : nat, z = (2 + Z.of_nat q * -2)%Z /\ (-1 < z)%Z). split.
    - intros (q & -> & H). lia.
    - intros [-> | ->]; [exists 0|exists 1]; lia. }
  assert (Hi : forall z, denotes 3 (IIter [EInt 1; EInt 1]) z <-> z = 1%Z).
  { intros z. cbn. split; [intros [H|[H|[]]]; congruence|intros ->; auto]. }
  split; [|split; [|split]].
  - split; (split; [|split]).
    + discriminate.
    + exists 0%Z. apply Hs. auto.
    + intros z Hz. apply Hs in Hz. lia.
    + cbn. intros [H|[H|[]]]; discriminate.
    + exists 1%Z. apply Hi. reflexivity.
    + intros z Hz. apply Hi in Hz. lia.
  - split; (split; [repeat constructor|]).
    + intros i. rewrite Hs. cbn. lia.
    + intros i. rewrite Hi. cbn. lia.
  - intros [_ (_ & _ & H)]. specialize (H 3%Z (or_introl eq_refl)). lia.
  - intros [(_ & _ & H) _]. specialize (H (-1)%Z eq_refl). lia.
Qed.
(*END PROP*)

(** C10 (partial). For strictly increasing index lists within range the result has shape
    (len(set_i), len(set_j)) with entry (a, b) the kernel between set_i[a] and set_j[b].
    Missing: lists that are not strictly increasing, for which it is false (C10_refuted_...). *)
Lemma pf_C10_increasing_partial :
  forall {E V U} (N : numops V) (K : kernel E V) k nrm (pre post : list (op E U)) x y n m d
         (li lj : list nat),
    never_raises K k x y n m d -> kfmt K = true -> admissible x y n m d -> no_attach post ->
    StronglySorted lt li -> StronglySorted lt lj -> li <> [] -> lj <> [] ->
    (forall i, In i li -> i < n) -> (forall j, In j lj -> j < m) ->
    exists f, outcome N (OpGetItem (IPair (IIter (map (fun i => EInt (Z.of_nat i)) li))
                                          (IIter (map (fun j => EInt (Z.of_nat j)) lj))))
                      (after N K nrm pre x y post)
              = Ok (OArr (mkArr f (mkMat (length li) (length lj)
                           (map (fun i => map (fun j => entry k d x y i j) lj) li)))).
Proof.
  intros E V U N K k nrm pre post x y n m d li lj Hnr Hfmt Hadm Hno Si Sj Ni Nj Ri Rj.
  assert (Hden : forall p l z, denotes p (IIter (map (fun i => EInt (Z.of_nat i)) l)) z <->
                               exists i, In i l /\ z = Z.of_nat i).
  { intros p l z. cbn. rewrite in_map_iff. split; intros (i & H1 & H2); exists i.
    - inversion H1. auto.
    - subst z. auto. }
  assert (Hval : forall p l, l <> [] -> (forall i, In i l -> i < p) ->
                 valid1 p (IIter (map (fun i => EInt (Z.of_nat i)) l))).
  { intros p l Hne Hr. split; [|split].
    - rewrite in_map_iff. intros (i & H & _). discriminate.
    - destruct l as [|i l]; [congruence|]. exists (Z.of_nat i). apply Hden. exists i. cbn. auto.
    - intros z Hz. apply Hden in Hz. destruct Hz as (i & Hi & ->). apply Hr in Hi. lia. }
  assert (Hsel : forall p l, StronglySorted lt l ->
                 selection p (IIter (map (fun i => EInt (Z.of_nat i)) l)) l).
  { intros p l Hs. split; [exact Hs|]. intros i. rewrite Hden. split.
    - intros H. exists i. auto.
    - intros (j & Hj & He). apply Nat2Z.inj in He. subst. exact Hj. }
  destruct (pf_C09_valid_accepted N K k nrm pre post x y n m d
              (IPair (IIter (map (fun i => EInt (Z.of_nat i)) li))
                     (IIter (map (fun j => EInt (Z.of_nat j)) lj))) li lj Hnr Hfmt Hadm Hno)
    as (f & H & _).
  - split; apply Hval; assumption.
  - split; apply Hsel; assumption.
  - exists f. exact H.
Qed.

(*BEGIN PROP*)
Example C10_example :
  outcome toyN (OpGetItem (IPair (IIter (map (fun i => EInt (Z.of_nat i)) [0; 2]))
                                 (IIter (map (fun j => EInt (Z.of_nat j)) [1; 2]))))
     (after (U:=Z) toyN dot true ([] : list (op (option Z) Z)) toyX None [OpFull])
  = Ok (OArr (mkArr Dense (mkMat 2 2 [[Some 11; Some 17]; [Some 39; Some 61]]%Z))).
Proof. vm_compute. reflexivity. Qed.
(*END PROP*)

(** C11. km[k] with one integer is km[k // c, k % c], in every attached state. *)
Lemma pf_C11_flat_is_row_major :
  forall {E V U} (N : numops V) (K : kernel E V) k nrm (pre post : list (op E U)) x y n m d q,
    returns_only K k x y n m d -> admissible x y n m d -> no_attach post ->
    (0 <= q < Z.of_nat (n * m))%Z ->
    step N (OpGetItem (IFlat q)) (after N K nrm pre x y post)
    = step N (OpGetItem (IPair (IInt (q / Z.of_nat m)) (IInt (q mod Z.of_nat m))))
           (after N K nrm pre x y post).
Proof.
  intros E V U N K k nrm pre post x y n m d q Hret Hadm Hno Hq.
  assert (Hs := S1_sane N K k nrm pre post x y n m d Hadm Hno Hret).
  assert (Hsh := sane_shape N K k nrm _ _ _ n m d _ _ Hs).
  destruct (flat_split q n m Hq) as (i & j & Hi & Hj & ->).
  assert (Hdm : (Z.of_nat (i * m + j) / Z.of_nat m = Z.of_nat i)%Z /\
                (Z.of_nat (i * m + j) mod Z.of_nat m = Z.of_nat j)%Z).
  { assert (H := unravel_ok i j n m Hi Hj). unfold unravel_index in H.
    destruct (_ || _); [discriminate|]. inversion H. auto. }
  destruct Hdm as [-> ->]. unfold step, fmap, bind.
  rewrite !(getitem_resolve N _ n m _ Hsh). cbn [resolve].
  rewrite (unravel_ok i j n m Hi Hj). cbn [rbind fst snd]. reflexivity.
Qed.

(** C11: the value is the kernel value of that row and column. *)
Lemma pf_C11_flat_value :
  forall {E V U} (N : numops V) (K : kernel E V) k nrm (pre post : list (op E U)) x y n m d i j,
    never_raises K k x y n m d -> kfmt K = true -> admissible x y n m d -> no_attach post ->
    i < n -> j < m ->
    exists f, outcome N (OpGetItem (IFlat (Z.of_nat (i * m + j)))) (after N K nrm pre x y post)
              = Ok (OArr (mkArr f (mkMat 1 1 [[entry k d x y i j]]))).
Proof.
  intros E V U N K k nrm pre post x y n m d i j Hnr Hfmt Hadm Hno Hi Hj.
  destruct (pf_C09_valid_accepted N K k nrm pre post x y n m d
              (IFlat (Z.of_nat (i * m + j))) [i] [j] Hnr Hfmt Hadm Hno) as (f & H & _).
  - cbn. assert (H := valid_bound i j n m Hi Hj). lia.
  - exists i, j. auto.
  - exists f. exact H.
Qed.

(** C11: any other integer raises ValueError, or TypeError if it does not fit in 64 bits, and changes nothing. *)
Lemma pf_C11_flat_out_of_range :
  forall {E V U} (N : numops V) (K : kernel E V) k nrm (pre post : list (op E U)) x y n m d q,
    returns_only K k x y n m d -> admissible x y n m d -> no_attach post ->
    ~ (0 <= q < Z.of_nat (n * m))%Z ->
    exists e, (if ((- 2 ^ 63 <=? q) && (q <? 2 ^ 64))%Z then e = ValueError else e = TypeError) /\
      step N (OpGetItem (IFlat q)) (after N K nrm pre x y post)
      = (after N K nrm pre x y post, Raise e).
Proof.
  intros E V U N K k nrm pre post x y n m d q Hret Hadm Hno Hq.
  assert (Hs := S1_sane N K k nrm pre post x y n m d Hadm Hno Hret).
  assert (Hsh := sane_shape N K k nrm _ _ _ n m d _ _ Hs).
  unfold step, fmap, bind. rewrite (getitem_resolve N _ n m _ Hsh).
  rewrite (resolve_flat_invalid n m q Hq). eexists. split; [|reflexivity]. unfold fits_64. now destruct (_ && _).
Qed.

(*BEGIN PROP*)
Example C11_example :
  outcome toyN (OpGetItem (IFlat 4)) (after (U:=Z) toyN dot false ([] : list (op (option Z) Z)) toyX (Some toyX2) [])
  = Ok (OArr (mkArr Dense (mkMat 1 1 [[Some 10%Z]]))) /\
  admissible toyX (Some toyX2) 3 2 2 /\ entry dotk 2 toyX (Some toyX2) 2 0 = Some 10%Z /\
  trace toyN [OpGetItem (IFlat 6); OpGetItem (IFlat (-1)); OpGetItem (IFlat (2 ^ 64)); OpGetItem (IPair (IInt 0) (IFails KeyError))]
        (after (U:=Z) toyN dot false ([] : list (op (option Z) Z)) toyX (Some toyX2) [])
  = [Raise ValueError; Raise ValueError; Raise TypeError; Raise KeyError].
Proof. vm_compute. split; [reflexivity|]. split; [exact toyXX2_ok|]. split; reflexivity. Qed.
(*END PROP*)

(** After a successful [full] every pair has been evaluated. *)
Lemma full_reads_back :
  forall {E V U} (N : numops V) (K : kernel E V) k nrm (pre post : list (op E U)) x y n m d,
    never_raises K k x y n m d -> admissible x y n m d -> no_attach post ->
    y = None \/ nrm = true \/ no_full_sparse post ->
    is_ok (outcome N OpFull (after N K nrm pre x y post)) = true ->
    let s := fst (step N OpFull (after N K nrm pre x y post)) in
    sane N K k nrm (stored n d x) (stored2 n m d x y) (is_some y) n m d
         (g_calls (before N K nrm pre)) s /\
    (forall i j, i < n -> j < m -> In (norm (is_some y) (i, j)) (keys s)) /\
    k_populated s = true /\ (nrm = true -> k_is_normed s = true).
Proof.
  intros E V U N K k nrm pre post x y n m d Hnr Hadm Hno Hcase Hok s.
  assert (Hret : returns_only K k x y n m d) by (intros t u v Hu Hv; left; apply Hnr; assumption).
  set (sps := match y with None => true | Some _ => false end).
  assert (Hfs : nrm = false -> sps = false -> no_full_sparse post).
  { intros Hn Hsp. destruct Hcase as [->|[H|H]]; [discriminate|congruence|exact H]. }
  set (s0 := after N K nrm pre x y post) in *.
  assert (Hg0 : good N K k nrm (stored n d x) (stored2 n m d x y) (is_some y) n m d
                  (g_calls (before N K nrm pre)) true sps s0).
  { apply S1_good; [exact Hadm|exact Hno|exact Hnr|exact Hfs|discriminate]. }
  assert (H := full_total N K k nrm (stored n d x) (stored2 n m d x y) (is_some y) n m d _ (nr_stored K k x y n m d Hadm Hnr) eq_refl
                 (stored2_shape x y n m d Hadm)
                 (stored2_one x y n m d Hadm) true sps _ Hg0).
  unfold holds in H. destruct H as (Hg & _ & Hnres & Hpop).
  assert (Ht0 : tidy N K k nrm (stored n d x) (stored2 n m d x y) (is_some y) n m d
                  (g_calls (before N K nrm pre)) true sps s0).
  { apply S1_tidy; [exact Hadm|exact Hno|exact Hret|exact Hfs|discriminate]. }
  assert (Ht := tidy_step N K k nrm (stored n d x) (stored2 n m d x y) (is_some y) n m d
                  (g_calls (before N K nrm pre)) (ret_stored K k x y n m d Hadm Hret) eq_refl (stored2_shape x y n m d Hadm)
                  (stored2_one x y n m d Hadm) true sps OpFull I s0 Ht0). fold s in Ht.
  unfold outcome, step in Hok. rewrite outcome_fmap in Hok.
  assert (Hok' : is_ok (snd (full N s0)) = true) by (destruct (snd (full N s0)); [reflexivity|discriminate]).
  specialize (Hpop Hok').
  assert (Hsdef : s = fst (full N s0)) by (unfold s, step; apply (state_fmap OArr (full N) s0)).
  rewrite <- Hsdef in *.
  assert (Hs := gs Hg). split; [exact Hs|].
  destruct (good_has_full N K k nrm _ _ _ n m d _ true sps s Hg Hpop) as [a Ha].
  split; [|split; [exact Hpop|]].
  - intros i j Hi Hj. destruct Hs as [_ Hfull]. unfold full_ok in Hfull. rewrite Ha in Hfull.
    destruct Hfull as (_ & _ & Hv & _). specialize (Hv Hpop).
    destruct Ht as (_ & Hlow & _). destruct y as [y|].
    + apply (Hv i j Hi Hj). right. apply Hlow; [reflexivity|right; exact Hnr|exact Hpop].
    + destruct Hadm as [_ Hmn]. destruct (Nat.le_gt_cases i j) as [Hij|Hij].
      * apply (Hv i j Hi Hj). left; exact Hij.
      * assert (H2 : norm (@is_some (ndarray E) None) (i, j) = norm (@is_some (ndarray E) None) (j, i)).
        { unfold norm. cbn. f_equal; lia. }
        rewrite H2. apply (Hv j i); lia.
  - intros Hn. rewrite Hsdef. clear - Hok' Hn Hg0.
    destruct (sane_fixed _ _ _ _ _ _ _ _ _ _ _ _ (gs Hg0)) as (_ & Hk & _).
    assert (H : holds (full N) s0 (fun s' r => is_ok r = true -> k_is_normed s' = true)).
    { unfold full. apply holds_bind, holds_get. rewrite Hk, Hn.
      destruct (k_sample s0); [|apply holds_raise; discriminate].
      apply holds_bind. unfold holds at 1. destruct (when _ _ s0) as [s1 [u|e]]; cbn; [|discriminate].
      apply holds_bind, holds_get. apply holds_bind.
      destruct (k_is_normed s1) eqn:Hn1; cbn [negb when].
      - apply holds_ret. unfold holds, attr_or, bind, get, ret, raise.
        destruct (k_normed s1); cbn; auto.
      - unfold normalize. apply holds_bind, holds_get. apply holds_bind. unfold holds at 1.
        destruct (when _ _ s1) as [s2 [u2|e2]]; cbn; [|discriminate].
        apply holds_bind, holds_get.
        destruct (k_is_normed s2) eqn:Hn2; cbn [negb when].
        + apply holds_ret. unfold holds, attr_or, bind, get, ret, raise.
          destruct (k_normed s2); cbn; auto.
        + apply holds_bind. unfold holds at 1.
          destruct (attr_or k_two s2) as [s3 [tw|e3]]; cbn [fst snd]; [|discriminate].
          apply holds_bind. unfold holds at 1.
          match goal with |- context [fst (?mm s3)] => destruct (mm s3) as [s4 [u4|e4]] end;
            cbn [fst snd]; [|discriminate].
          apply holds_bind, holds_modify. apply holds_bind.
          unfold holds, attr_or, bind, get, ret, raise, warn_if_nan_inf, bind, get, ret, raise. cbn.
          destruct (k_normed s4); cbn; [|discriminate].
          destruct (_ && _); cbn; [discriminate|]. destruct (k_normed s4); cbn; auto. }
    exact (H Hok').
Qed.

(** C12. attach_to, accepted or not, never calls the kernel. *)
Lemma pf_C12_attach_evaluates_nothing :
  forall {E V U} (N : numops V) (s : km E V U) x y,
    g_calls (fst (step N (OpAttach x y) s)) = g_calls s.
Proof.
  intros E V U N s x y. unfold step. rewrite (state_fmap (fun _ => OUnit) (attach_to x y) s).
  apply attach_log.
Qed.

(** C12. An index access to a proper part calls the kernel only for requested pairs (with
    one sample, in mirrored order) that were not evaluated before. *)
Lemma pf_C12_only_requested :
  forall {E V U} (N : numops V) (K : kernel E V) k nrm (pre post : list (op E U)) x y n m d
         ix rows cols,
    returns_only K k x y n m d -> admissible x y n m d -> no_attach post ->
    valid n m ix -> selection2 n m ix rows cols -> ~ whole n m rows cols ->
    let s := after N K nrm pre x y post in
    exists old added,
      g_calls s = old ++ g_calls (before N K nrm pre) /\
      g_calls (fst (step N (OpGetItem ix) s)) = added ++ g_calls s /\
      forall c, In c added ->
        ~ In (c_ix c) (successful K 0 (length (g_calls (before N K nrm pre))) old) /\
        exists i j, In i rows /\ In j cols /\
          (c_ix c = (i, j) \/ (y = None /\ c_ix c = (j, i))) /\
          c_x c = row_of d x (fst (c_ix c)) /\
          c_y c = row_of d (match y with Some y' => y' | None => x end) (snd (c_ix c)).
Proof.
  intros E V U N K k nrm pre post x y n m d ix rows cols Hret Hadm Hno Hv Hsel Hpr s.
  assert (Hs := S1_sane N K k nrm pre post x y n m d Hadm Hno Hret). fold s in Hs.
  assert (H := getitem_proper N K k nrm (stored n d x) (stored2 n m d x y) (is_some y) n m d _ eq_refl (stored2_shape x y n m d Hadm)
                (stored2_one x y n m d Hadm) (ret_stored K k x y n m d Hadm Hret) _ ix rows cols Hs Hv Hsel Hpr).
  unfold holds in H. destruct H as (Hs' & _ & _ & (_ & added & Hadd & Hc) & _).
  destruct Hs as [Hi _]. destruct (iv_ghost _ _ _ _ _ _ _ _ _ _ _ _ Hi) as (old & Hold & Hsucc & _).
  exists old, added. split; [exact Hold|].
  unfold step. rewrite (state_fmap OArr (getitem N ix) s). split; [exact Hadd|].
  intros c Hin. destruct (Hc c Hin) as (Ht & (i & j & Hri & Hcj & Hix) & Hnot).
  split; [rewrite Hsucc; exact Hnot|].
  destruct Hs' as [Hi' _]. destruct (iv_ghost _ _ _ _ _ _ _ _ _ _ _ _ Hi') as (new & Hnew & _ & Hall).
  rewrite Forall_forall in Hall.
  assert (Hin' : In c new).
  { rewrite Hadd, Hold, app_assoc in Hnew. apply app_inv_tail in Hnew. subst new.
    apply in_or_app. left; exact Hin. }
  destruct (Hall c Hin' Ht) as (_ & _ & _ & Hx & Hy).
  exists i, j. split; [exact Hri|]. split; [exact Hcj|].
  split; [|split].
  - rewrite Hix. unfold norm. destruct y as [y|]; cbn [is_some fst snd]; [left; reflexivity|].
    destruct (Nat.le_gt_cases i j).
    + left. f_equal; lia.
    + right. split; [reflexivity|]. f_equal; lia.
  - exact Hx.
  - rewrite Hy. destruct y; reflexivity.
Qed.

(** C12 (partial). Once [full] has been returned, index accesses and further reads of [full]
    evaluate nothing (kernel that does not raise; one sample, or normalized=True, or no
    full_sparse). Missing: the other cases, for which it is false (C12_refuted). *)
Lemma pf_C12_nothing_after_full_partial :
  forall {E V U} (N : numops V) (K : kernel E V) k nrm (pre post : list (op E U)) x y n m d o,
    never_raises K k x y n m d -> admissible x y n m d -> no_attach post ->
    y = None \/ nrm = true \/ no_full_sparse post ->
    is_ok (outcome N OpFull (after N K nrm pre x y post)) = true ->
    (o = OpFull \/ exists ix, o = OpGetItem ix) ->
    let s := fst (step N OpFull (after N K nrm pre x y post)) in
    g_calls (fst (step N o s)) = g_calls s.
Proof.
  intros E V U N K k nrm pre post x y n m d o Hnr Hadm Hno Hcase Hok Ho s.
  assert (Hret : returns_only K k x y n m d) by (intros t u v Hu Hv; left; apply Hnr; assumption).
  destruct (full_reads_back N K k nrm pre post x y n m d Hnr Hadm Hno Hcase Hok)
    as (Hs & Hcomplete & Hnormed). fold s in Hs, Hcomplete, Hnormed.
  assert (Hquiet : forall s' : km E V U,
    sane N K k nrm (stored n d x) (stored2 n m d x y) (is_some y) n m d
         (g_calls (before N K nrm pre)) s' ->
    (exists P, ext 0 P s s') -> g_calls s' = g_calls s).
  { intros s' [Hi' _] (P & _ & added & Hadd & Hc).
    destruct added as [|c added]; [exact Hadd|]. exfalso.
    destruct (Hc c (or_introl eq_refl)) as (Ht & _ & Hnot).
    destruct Hs as [Hi _].
    destruct (iv_ghost _ _ _ _ _ _ _ _ _ _ _ _ Hi) as (old & Hold & _ & _).
    destruct (iv_ghost _ _ _ _ _ _ _ _ _ _ _ _ Hi') as (new & Hnew & _ & Hall).
    rewrite Hadd, Hold, app_assoc in Hnew. apply app_inv_tail in Hnew. subst new.
    inversion Hall as [|? ? Hcok _]. destruct (Hcok Ht) as (H1 & H2 & H3 & _).
    apply Hnot. rewrite <- H3. destruct (c_ix c) as [i j]. apply Hcomplete; assumption. }
  destruct Ho as [->|[ix ->]]; unfold step.
  - rewrite (state_fmap OArr (full N) s). 
    destruct (sane_fixed _ _ _ _ _ _ _ _ _ _ _ _ Hs) as (_ & Hk & Hsa & _).
    unfold full, bind at 1, get. rewrite Hsa, Hk. destruct Hnormed as [Hp Hn].
    unfold bind. rewrite Hp. cbn. destruct nrm.
    + rewrite (Hn eq_refl). cbn. unfold attr_or, bind, get, ret, raise.
      destruct (k_normed s); reflexivity.
    + unfold attr_or, bind, get, ret, raise. destruct (k_full s); reflexivity.
  - rewrite (state_fmap OArr (getitem N ix) s).
    destruct (valid_or_not n m ix) as [Hv|Hv].
    + destruct (resolve_valid n m ix Hv) as (rows & cols & _ & Hsel & _).
      destruct (list_eq_dec Nat.eq_dec rows (seq 0 n)) as [Hr|Hr];
        [destruct (list_eq_dec Nat.eq_dec cols (seq 0 m)) as [Hc|Hc]|].
      * subst. rewrite (getitem_whole N K k nrm (stored n d x) (stored2 n m d x y) (is_some y) n m d _
                  (stored2_one x y n m d Hadm) s ix Hs Hv Hsel).
        assert (H := populate_holds N K k nrm (stored n d x) (stored2 n m d x y) (is_some y) n m d _
                  (ret_stored K k x y n m d Hadm Hret) eq_refl (stored2_shape x y n m d Hadm) (stored2_one x y n m d Hadm)
                  false true s Hs).
        destruct H as (H1 & _ & H2 & _). apply Hquiet; eauto.
      * assert (H := getitem_proper N K k nrm (stored n d x) (stored2 n m d x y) (is_some y) n m d _
             eq_refl (stored2_shape x y n m d Hadm) (stored2_one x y n m d Hadm) (ret_stored K k x y n m d Hadm Hret) s ix rows cols
             Hs Hv Hsel (fun w => Hc (proj2 w))).
        destruct H as (H1 & _ & _ & H2 & _). apply Hquiet; eauto.
      * assert (H := getitem_proper N K k nrm (stored n d x) (stored2 n m d x y) (is_some y) n m d _
             eq_refl (stored2_shape x y n m d Hadm) (stored2_one x y n m d Hadm) (ret_stored K k x y n m d Hadm Hret) s ix rows cols
             Hs Hv Hsel (fun w => Hr (proj1 w))).
        destruct H as (H1 & _ & _ & H2 & _). apply Hquiet; eauto.
    + destruct (getitem_invalid N K k nrm _ _ _ n m d _ _ ix Hs Hv) as (e & -> & _). reflexivity.
Qed.

(*BEGIN PROP*)
Example C12_example :
  let s := after (U:=Z) toyN dot false [] toyX None [OpGetItem (IFlat 1)] in
  map c_ix (g_calls s) = [(0, 1)] /\
  map c_ix (g_calls (fst (step toyN (OpGetItem (IPair (IIter [EInt 1; EInt 2]) (IInt 0))) s)))
    = [(0, 2); (0, 1)] /\
  is_ok (outcome toyN OpFull s) = true.
Proof. vm_compute. repeat split; reflexivity. Qed.
(*END PROP*)

(** C13. diagonal() on one sample, whatever happened before, if it succeeds; the kernel
    may raise at any call. *)
Lemma pf_C13_diagonal_values :
  forall {E V U} (N : numops V) (K : kernel E V) k nrm (pre post : list (op E U)) x n d vs,
    returns_only K k x None n n d -> admissible x None n n d -> no_attach post ->
    outcome N OpDiagonal (after N K nrm pre x None post) = Ok (OVec vs) ->
    vs = map (fun i => k (row_of d x i) (row_of d x i)) (seq 0 n).
Proof.
  intros E V U N K k nrm pre post x n d vs Hret Hadm Hno Hok.
  assert (Hs := S1_sane N K k nrm pre post x None n n d Hadm Hno Hret).
  assert (H := diagonal_holds N K k nrm (stored n d x) (stored2 n n d x None) (@is_some (ndarray E) None) n n d _ (ret_stored K k x None n n d Hadm Hret) eq_refl
                 (stored2_shape x None n n d Hadm) (stored2_one x None n n d Hadm) _ Hs).
  unfold holds in H. destruct H as [_ H]. destruct (H eq_refl) as (_ & _ & _ & _ & Hr).
  unfold outcome, step in Hok. rewrite outcome_fmap in Hok.
  destruct (snd (diagonal (after N K nrm pre x None post))) as [l|e]; [|discriminate].
  cbn in Hok. injection Hok as <-. rewrite Hr. apply map_ext. intros i.
  rewrite (truev_entry k x None n n d i i). unfold entry. rewrite Nat.leb_refl. reflexivity.
Qed.

(** C13. It succeeds whenever the kernel does not raise. *)
Lemma pf_C13_diagonal_total :
  forall {E V U} (N : numops V) (K : kernel E V) k nrm (pre post : list (op E U)) x n d,
    never_raises K k x None n n d -> admissible x None n n d -> no_attach post ->
    outcome N OpDiagonal (after N K nrm pre x None post)
    = Ok (OVec (map (fun i => k (row_of d x i) (row_of d x i)) (seq 0 n))).
Proof.
  intros E V U N K k nrm pre post x n d Hnr Hadm Hno.
  assert (Hg := S1_good N K k nrm pre post x None n n d Hadm Hno true true Hnr
                  (fun _ H => tf H) (fun H => tf H)).
  assert (H := diagonal_total N K k nrm (stored n d x) (stored2 n n d x None) (@is_some (ndarray E) None) n n d _ (nr_stored K k x None n n d Hadm Hnr) eq_refl
                 (stored2_shape x None n n d Hadm) (stored2_one x None n n d Hadm) true true _ Hg).
  unfold holds in H. destruct H as (_ & _ & Hr). unfold outcome, step. rewrite outcome_fmap, (Hr eq_refl).
  unfold res_map. do 2 f_equal. apply map_ext. intros i.
  rewrite (truev_entry k x None n n d i i). unfold entry. rewrite Nat.leb_refl. reflexivity.
Qed.

(** C13. On two samples it raises KMAccessError and changes nothing. *)
Lemma pf_C13_diagonal_two_samples :
  forall {E V U} (N : numops V) (K : kernel E V) k nrm (pre post : list (op E U)) x y n m d,
    returns_only K k x (Some y) n m d -> admissible x (Some y) n m d -> no_attach post ->
    step N OpDiagonal (after N K nrm pre x (Some y) post)
    = (after N K nrm pre x (Some y) post, Raise KMAccessError).
Proof.
  intros E V U N K k nrm pre post x y n m d Hret Hadm Hno.
  assert (Hs := S1_sane N K k nrm pre post x (Some y) n m d Hadm Hno Hret).
  destruct (sane_fixed _ _ _ _ _ _ _ _ _ _ _ _ Hs) as (_ & _ & _ & _ & H2 & _).
  unfold step, fmap, diagonal, bind, attr_or, bind, get, ret. rewrite H2. reflexivity.
Qed.

(*BEGIN PROP*)
Example C13_example :
  outcome toyN OpDiagonal (after (U:=Z) toyN dot true [] toyX None [OpFull; OpCentered])
  = Ok (OVec [Some 5; Some 25; Some 61]%Z).
Proof. vm_compute. reflexivity. Qed.
(*END PROP*)

(** C14 (partial). On one sample, [centered] is the centering of the raw kernel matrix, or
    raises what the centering raises, after any history without full_sparse and without
    whole-matrix index accesses. Missing: those accesses, after which it is false
    (C14_refuted). *)
Lemma pf_C14_centered_partial :
  forall {E V U} (N : numops V) (K : kernel E V) k nrm (pre post : list (op E U)) x n d,
    never_raises K k x None n n d -> kfmt K = true -> admissible x None n n d -> no_attach post ->
    no_full_sparse post -> no_whole_index n n post ->
    outcome N OpCentered (after N K nrm pre x None post)
    = res_map OArr (op_center N (mkArr Dense (kernel_matrix k n n d x None))).
Proof.
  intros E V U N K k nrm pre post x n d Hnr Hfmt Hadm Hno Hfs Hwi.
  assert (Hg := S1_good N K k nrm pre post x None n n d Hadm Hno false false Hnr
                  (fun _ _ => Hfs) (fun _ => Hwi)).
  assert (H := centered_total N K k nrm (stored n d x) (stored2 n n d x None) (@is_some (ndarray E) None) n n d _ (nr_stored K k x None n n d Hadm Hnr) eq_refl
                 (stored2_shape x None n n d Hadm) (stored2_one x None n n d Hadm) false false _ Hg eq_refl).
  unfold holds in H. destruct H as (_ & a & Hc & Hr).
  assert (Ha : a = mkArr Dense (kernel_matrix k n n d x None)).
  { destruct Hc as [[Hf Ha]|[(Hx & _)|(Hx & _)]]; [|discriminate|discriminate].
    destruct a as [f A]; cbn in *. subst. rewrite <- (KMat_spec k x None n n d). reflexivity. }
  subst a. unfold outcome, step. rewrite outcome_fmap.
  destruct Hr as [(c & -> & ->)|[[_ Hk]|(e & -> & ->)]]; [reflexivity|congruence|reflexivity].
Qed.

(** C14. On two samples [centered] raises KMAccessError and center() NotImplementedError;
    nothing changes. *)
Lemma pf_C14_two_samples :
  forall {E V U} (N : numops V) (K : kernel E V) k nrm (pre post : list (op E U)) x y n m d,
    returns_only K k x (Some y) n m d -> admissible x (Some y) n m d -> no_attach post ->
    let s := after N K nrm pre x (Some y) post in
    step N OpCentered s = (s, Raise KMAccessError) /\
    step N OpCenter s = (s, Raise NotImplementedErr).
Proof.
  intros E V U N K k nrm pre post x y n m d Hret Hadm Hno s.
  assert (Hs := S1_sane N K k nrm pre post x (Some y) n m d Hadm Hno Hret). fold s in Hs.
  destruct (sane_fixed _ _ _ _ _ _ _ _ _ _ _ _ Hs) as (_ & _ & _ & _ & H2 & _).
  unfold step, fmap, centered, center, bind, attr_or, bind, get, ret. rewrite H2. split; reflexivity.
Qed.

(*BEGIN PROP*)
Example C14_example :
  outcome toyN OpCentered (after (U:=Z) toyN dot true [] toyX None [OpFull; OpDiagonal])
  = Ok (OArr (mkArr Dense (mkMat 3 3
      [[Some 0; Some 6; Some 12]; [Some 6; Some 20; Some 34]; [Some 12; Some 34; Some 56]]%Z))).
Proof. vm_compute. reflexivity. Qed.
(*END PROP*)

Lemma sample_shape_iff : forall {E} (x : ndarray E) n d,
  sample_shape x = Some (n, d) <-> is_sample x n d.
Proof.
  intros E x n d. unfold sample_shape, is_sample.
  destruct (nd_shape x) as [|a [|b extra]].
  - split; [discriminate|intros (? & H & _); discriminate].
  - split; [discriminate|intros (? & H & _); discriminate].
  - assert (Hf : forallb (Nat.eqb 1) extra = true <-> Forall (fun s => s = 1) extra).
    { rewrite forallb_forall, Forall_forall. split; intros H q Hq; specialize (H q Hq).
      - apply Nat.eqb_eq in H. auto.
      - subst. reflexivity. }
    destruct (forallb (Nat.eqb 1) extra); split.
    + intros H. injection H as <- <-. exists extra. split; [reflexivity|apply Hf; reflexivity].
    + intros (ex & H & _). injection H as <- <- <-. reflexivity.
    + discriminate.
    + intros (ex & H & He). injection H as <- <- <-. apply Hf in He. discriminate.
Qed.

Lemma accepts_iff : forall {E} (x : ndarray E) y,
  accepts x y = true <-> exists n m d, admissible x y n m d.
Proof.
  intros E x y. unfold accepts, admissible. split.
  - destruct (sample_shape x) as [[n d]|] eqn:Hx; [|discriminate].
    apply (proj1 (sample_shape_iff x n d)) in Hx.
    destruct y as [y|].
    + destruct (sample_shape y) as [[m d']|] eqn:Hy; [|discriminate].
      apply (proj1 (sample_shape_iff y m d')) in Hy. intros He. apply Nat.eqb_eq in He. subst d'.
      eauto.
    + intros _. exists n, n, d. auto.
  - intros (n & m & d & Hx & Hy). apply (proj2 (sample_shape_iff x n d)) in Hx. rewrite Hx.
    destruct y as [y|]; [|reflexivity].
    apply (proj2 (sample_shape_iff y m d)) in Hy. rewrite Hy. apply Nat.eqb_refl.
Qed.

Lemma dict_get_set : forall {U} (l : list (string * U)) n v m,
  dict_get (dict_set l n v) m = if String.eqb n m then Some v else dict_get l m.
Proof.
  intros U l n v m. induction l as [|[q w] l IH]; cbn [dict_set dict_get].
  - rewrite String.eqb_sym. reflexivity.
  - destruct (String.eqb n q) eqn:Hq; cbn [dict_get].
    + apply String.eqb_eq in Hq. subst q. rewrite (String.eqb_sym m n).
      destruct (String.eqb n m); reflexivity.
    + rewrite IH. destruct (String.eqb m q) eqn:Hm; [|reflexivity].
      apply String.eqb_eq in Hm. subst q. rewrite Hq. reflexivity.
Qed.

Lemma attr_attach : forall {E V U} (s : km E V U) x y,
  k_attr (fst (attach_to x y s)) = if accepts x y then [] else k_attr s.
Proof.
  intros E V U s x y. destruct (accepts x y) eqn:Ha.
  - apply (proj1 (accepts_iff x y)) in Ha. destruct Ha as (n & m & d & H).
    rewrite (attach_to_ok s x y n m d H). reflexivity.
  - destruct (attach_to x y s) as [s' [[]|e]] eqn:Hr.
    + apply attach_to_inv in Hr. destruct Hr as (n & m & d & H & _).
      assert (Ht : accepts x y = true) by (apply accepts_iff; eauto). congruence.
    + cbn. unfold attach_to, bind, lift, modify in Hr.
      destruct (ensure_2D_own x) as [a|e1]; [|inversion Hr; reflexivity].
      destruct y as [y|]; [|discriminate].
      destruct (ensure_2D_own y) as [b|e2]; [|inversion Hr; reflexivity].
      destruct (negb _); inversion Hr; reflexivity.
Qed.

(** C15. After any sequence of operations (accepted or not), get_attr returns the value
    most recently set under that name since the last accepted attach_to, or the default
    ([None]) if there is none. *)
Lemma pf_C15_attributes :
  forall {E V U} (N : numops V) (K : kernel E V) nrm (ops : list (op E U)) name,
    outcome N (OpGetAttr name) (run N ops (km_new K nrm [])) = Ok (OAttr (last_value name ops None)).
Proof.
  intros E V U N K nrm ops name.
  assert (H : forall ops (s : km E V U),
    dict_get (k_attr (run N ops s)) name = last_value name ops (dict_get (k_attr s) name)).
  { clear. induction ops as [|o ops IH]; intros s; [reflexivity|]. cbn [run]. rewrite IH.
    destruct (is_attach o) eqn:Ha.
    - destruct o; try discriminate. cbn [last_value]. unfold step.
      rewrite (state_fmap (fun _ => OUnit) (attach_to x y) s), attr_attach.
      destruct (accepts x y); reflexivity.
    - destruct o as [| | | | | | | | | |q v| | | | |]; try discriminate;
        try (cbn [last_value]; f_equal; f_equal; exact (attr_step N _ Ha I s)).
      cbn [last_value]. unfold step. rewrite (state_fmap (fun _ => OUnit) (set_attr q v) s).
      cbn. rewrite dict_get_set. reflexivity. }
  unfold outcome, step. rewrite outcome_fmap. cbn. rewrite H. reflexivity.
Qed.

(*BEGIN PROP*)
Example C15_example :
  let ops := [OpSetAttr "a" 1%Z; OpAttach toyX None; OpSetAttr "b" 2%Z; OpSetAttr "a" 3%Z;
              OpAttach toyA (Some toyX); OpFull; OpSetAttr "b" 4%Z]%string in
  let s := run toyN ops (km_new dot true []) in
  outcome toyN (OpGetAttr "a"%string) s = Ok (OAttr (Some 3%Z)) /\
  outcome toyN (OpGetAttr "b"%string) s = Ok (OAttr (Some 4%Z)) /\
  outcome toyN (OpGetAttr "c"%string) s = Ok (OAttr None).
Proof. vm_compute. repeat split; reflexivity. Qed.
(*END PROP*)

(** C16. shape, num_samples and size/len after attach_to and any further accesses. *)
Lemma pf_C16_sizes :
  forall {E V U} (N : numops V) (K : kernel E V) nrm (pre post : list (op E U)) x y n m d,
    admissible x y n m d -> no_attach post ->
    let s := after N K nrm pre x y post in
    outcome N OpShape s = Ok (OPairNat (n, m)) /\
    outcome N OpNumSamples s = Ok (ONum (match y with None => NSOne n | Some _ => NSTwo n m end)) /\
    outcome N OpSize s = Ok (OInt (n * m)).
Proof.
  intros E V U N K nrm pre post x y n m d Hadm Hno s. unfold s.
  rewrite (after_split N K nrm pre post x y n m d Hadm).
  assert (Hf := frame_run N post (attached (before N K nrm pre) x y n m d) Hno).
  set (t := run N post _) in *.
  assert (H : k_shape t = Some (n, m) /\ k_two t = Some (is_some y) /\
    k_num_samples t = match y with None => NSOne n | Some _ => NSTwo n m end).
  { unfold frame in Hf. destruct y; inversion Hf; auto. }
  destruct H as (H1 & H2 & H3).
  unfold outcome, step, fmap, size, bind, attr_or, bind, get, ret. rewrite H1, H2, H3.
  split; [reflexivity|]. split; [reflexivity|]. destruct y; cbn; [reflexivity|].
  destruct Hadm as [_ ->]. reflexivity.
Qed.

(** C16. Every matrix returned by [full] or [full_sparse] (normalized=False) or by a
    whole-matrix index has n rows and m columns; the kernel may raise at any call. *)
Lemma pf_C16_shapes_of_matrices :
  forall {E V U} (N : numops V) (K : kernel E V) k (pre post : list (op E U)) x y n m d o a,
    returns_only K k x y n m d -> admissible x y n m d -> no_attach post ->
    (o = OpFull \/ o = OpFullSparse \/ exists ix, o = OpGetItem ix /\ valid n m ix /\ selects_all n m ix) ->
    outcome N o (after N K false pre x y post) = Ok (OArr a) ->
    mr (amat a) = n /\ mc (amat a) = m /\ length (md (amat a)) = n /\
    Forall (fun r => length r = m) (md (amat a)).
Proof.
  intros E V U N K k pre post x y n m d o a Hret Hadm Hno Ho Hok.
  assert (Hs := S1_sane N K k false pre post x y n m d Hadm Hno Hret).
  set (s := after N K false pre x y post) in *.
  assert (Hpop : forall dense low, holds (populate_fully N dense low) s (fun s' r =>
            forall b, r = Ok b -> mwf n m (amat b))).
  { intros dense low. eapply holds_conseq;
      [apply (populate_holds N K k false (stored n d x) (stored2 n m d x y) (is_some y) n m d _ (ret_stored K k x y n m d Hadm Hret) eq_refl
         (stored2_shape x y n m d Hadm) (stored2_one x y n m d Hadm) dense low s Hs)|].
    intros s' r (Hs' & _ & _ & Hr & _) b ->. destruct Hr as [Hf _].
    destruct Hs' as [_ Hfull]. unfold full_ok in Hfull. rewrite Hf in Hfull. apply Hfull. }
  assert (Hw : mwf n m (amat a)).
  { destruct (sane_fixed _ _ _ _ _ _ _ _ _ _ _ _ Hs) as (_ & Hk & Hsa & _).
    destruct Ho as [->|[->|(ix & -> & Hv & Hsel)]]; unfold outcome, step in Hok;
      rewrite outcome_fmap in Hok.
    - assert (Hfull : holds (full N) s (fun _ r => forall b, r = Ok b -> mwf n m (amat b))).
      { unfold full. apply holds_bind, holds_get. rewrite Hk, Hsa. apply holds_bind.
        destruct (k_populated s); cbn [negb when].
        - apply holds_ret. unfold holds, attr_or, bind, get, ret, raise.
          destruct Hs as [_ Hf]. unfold full_ok in Hf. destruct (k_full s) as [b|]; cbn; [|discriminate].
          intros b' Hb. inversion Hb. subst. apply Hf.
        - apply holds_bind. eapply holds_conseq;
            [apply (populate_holds N K k false (stored n d x) (stored2 n m d x y) (is_some y) n m d _ (ret_stored K k x y n m d Hadm Hret) eq_refl
               (stored2_shape x y n m d Hadm) (stored2_one x y n m d Hadm) true true s Hs)|].
          intros s' [f|e] (Hs' & _ & _ & Hr & _); [|discriminate]. apply holds_ret.
          unfold holds, attr_or, bind, get, ret, raise. destruct Hr as [Hr _]. rewrite Hr. cbn.
          destruct Hs' as [_ Hf]. unfold full_ok in Hf. rewrite Hr in Hf.
          intros b' Hb. inversion Hb. subst. apply Hf. }
      unfold holds in Hfull. destruct (snd (full N s)) as [b|e]; [|discriminate].
      cbn in Hok. inversion Hok. subst. apply Hfull. reflexivity.
    - assert (Hp := Hpop false false). unfold full_sparse, bind, get in Hok. rewrite Hk in Hok.
      unfold holds in Hp. destruct (snd (populate_fully N false false s)) as [b|e]; [|discriminate].
      cbn in Hok. inversion Hok. subst. apply Hp. reflexivity.
    - rewrite (getitem_whole N K k false (stored n d x) (stored2 n m d x y) (is_some y) n m d _
                  (stored2_one x y n m d Hadm) s ix Hs Hv Hsel) in Hok.
      assert (Hp := Hpop false true). unfold holds in Hp.
      destruct (snd (populate_fully N false true s)) as [b|e]; [|discriminate].
      cbn in Hok. inversion Hok. subst. apply Hp. reflexivity. }
  unfold mwf in Hw. destruct Hw as (W1 & W2 & W3 & W4). rewrite Forall_forall. auto.
Qed.

(*BEGIN PROP*)
Example C16_example :
  trace toyN [OpShape; OpNumSamples; OpSize]
        (after (U:=Z) toyN flaky_dot true [OpAttach toyA None] toyX (Some toyX2) [OpFull; OpFullSparse])
  = [Ok (OPairNat (3, 2)); Ok (ONum (NSTwo 3 2)); Ok (OInt 6)].
Proof. vm_compute. reflexivity. Qed.
(*END PROP*)

(** C17 (partial). With normalized=False and a kernel that supports format() (all built-in
    kernels do), [full] returns a matrix after every history, whatever values - NaN and
    infinities included - the kernel returns. Missing: user callables wrapped in
    KernelFromCallable, for which it is false (C17_refuted). *)
Lemma pf_C17_no_exception_partial :
  forall {E V U} (N : numops V) (K : kernel E V) k (pre post : list (op E U)) x y n m d,
    never_raises K k x y n m d -> kfmt K = true -> admissible x y n m d -> no_attach post ->
    exists a, outcome N OpFull (after N K false pre x y post) = Ok (OArr a) /\
      forall i j, i < n -> j < m -> i <= j ->
        mget (v_nan N) (amat a) i j = entry k d x y i j.
Proof.
  intros E V U N K k pre post x y n m d Hnr Hfmt Hadm Hno.
  assert (Hg := S1_good N K k false pre post x y n m d Hadm Hno true true Hnr
                  (fun _ H => tf H) (fun H => tf H)).
  assert (H := full_total N K k false (stored n d x) (stored2 n m d x y) (is_some y) n m d _ (nr_stored K k x y n m d Hadm Hnr) eq_refl
                 (stored2_shape x y n m d Hadm) (stored2_one x y n m d Hadm) true true _ Hg).
  unfold holds in H. destruct H as (_ & H & _). destruct (H eq_refl) as (a & _ & Hc & _ & Hr).
  exists a. unfold outcome, step. rewrite outcome_fmap.
  destruct Hr as [->|(_ & Hk & _)]; [|congruence]. split; [reflexivity|].
  intros i j Hi Hj Hij. rewrite <- (truev_entry k x y n m d i j).
  destruct Hc as [[_ ->]|[(_ & _ & ->)|(_ & _ & _ & ->)]].
  - apply mget_tabulate; assumption.
  - apply mget_tabulate; assumption.
  - unfold upperM. rewrite mget_tabulate by assumption.
    apply Nat.leb_le in Hij. rewrite Hij. reflexivity.
Qed.

(*BEGIN PROP*)
Example C17_example :
  outcome toyN OpFull
    (after (U:=Z) toyN (mkKernel (fun _ _ _ => Ok None) true) false [] toyA (Some toyB) [])
  = Ok (OArr (mkArr Dense (mkMat 1 1 [[None]]))).
Proof. vm_compute. reflexivity. Qed.
(*END PROP*)

(** With normalized=True: [full], [normed_km] and [full_sparse] all return the
    normalisation of the raw kernel matrix, whatever happened before, provided that
    normalisation depends neither on the storage format nor on the method name given to
    an explicit normalize() that succeeded. (Instantiated for the library's arithmetic in
    C03.) *)
Lemma normalised_history_free :
  forall {E V U} (N : numops V) (K : kernel E V) k (pre post : list (op E U)) x y n m d o,
    (forall meth a nk, op_normalize N meth a = Ok nk -> op_normalize N default_method a = Ok nk) ->
    (forall meth A, op_normalize N meth (mkArr Lil A) = op_normalize N meth (mkArr Dense A)) ->
    (forall y', y = Some y' ->
       let dx := map (fun i => k (row_of d x i) (row_of d x i)) (seq 0 n) in
       let dy := map (fun j => k (row_of d y' j) (row_of d y' j)) (seq 0 m) in
       op_normalize2 N (mkArr Lil (kernel_matrix k n m d x y)) dx dy
       = op_normalize2 N (mkArr Dense (kernel_matrix k n m d x y)) dx dy) ->
    never_raises K k x y n m d -> kfmt K = true -> admissible x y n m d -> no_attach post ->
    (o = OpFull \/ o = OpFullSparse \/ o = OpNormedKM) ->
    outcome N o (after N K true pre x y post)
    = res_map OArr
        (let A := mkArr Dense (kernel_matrix k n m d x y) in
         match y with
         | None => op_normalize N default_method A
         | Some y' => op_normalize2 N A
             (map (fun i => k (row_of d x i) (row_of d x i)) (seq 0 n))
             (map (fun j => k (row_of d y' j) (row_of d y' j)) (seq 0 m))
         end).
Proof.
  intros E V U N K k pre post x y n m d o Hmeth Hlil Hlil2 Hnr Hfmt Hadm Hno Ho.
  assert (Hg := S1_good N K k true pre post x y n m d Hadm Hno true true Hnr
                  (fun _ H => tf H) (fun H => tf H)).
  set (s := after N K true pre x y post) in *.
  destruct (sane_fixed _ _ _ _ _ _ _ _ _ _ _ _ (gs Hg)) as (_ & Hk & _).
  assert (Hr : exists r, outcome N o s = res_map OArr r /\
     normed_result N K k true (stored n d x) (stored2 n m d x y) (is_some y) n m d true true r).
  { assert (Hfs : full_sparse N s = normed_km N s).
    { unfold full_sparse, normed_km, bind, get. rewrite Hk. reflexivity. }
    assert (Hnk := normed_km_total N K k true (stored n d x) (stored2 n m d x y) (is_some y) n m d _ (nr_stored K k x y n m d Hadm Hnr) eq_refl
                 (stored2_shape x y n m d Hadm) (stored2_one x y n m d Hadm) true true _ Hg).
    destruct Ho as [Ho|[Ho|Ho]]; subst o; unfold outcome, step; rewrite outcome_fmap.
    - exists (snd (full N s)). split; [reflexivity|].
      assert (H := full_total N K k true (stored n d x) (stored2 n m d x y) (is_some y) n m d _ (nr_stored K k x y n m d Hadm Hnr) eq_refl
                 (stored2_shape x y n m d Hadm) (stored2_one x y n m d Hadm) true true _ Hg).
      unfold holds in H. destruct H as (_ & _ & H & _). exact (H eq_refl).
    - rewrite Hfs. eexists. split; [reflexivity|]. apply Hnk.
    - eexists. split; [reflexivity|]. apply Hnk. }
  destruct Hr as (r & -> & a & meth & Hc & Hr). f_equal.
  assert (Ha : afmt a = Dense \/ afmt a = Lil) by (destruct Hc as [[H _]|[(_ & H & _)|(_ & H & _)]];
    [auto|auto|discriminate]).
  assert (HA : amat a = kernel_matrix k n m d x y).
  { rewrite <- (KMat_spec k x y n m d). destruct Hc as [[_ H]|[(_ & _ & H)|(_ & H & _)]];
      [exact H|exact H|discriminate]. }
  assert (Hsub : forall mt, normF N k (stored n d x) (stored2 n m d x y) (is_some y) n m d mt a
     = normF N k (stored n d x) (stored2 n m d x y) (is_some y) n m d mt
             (mkArr Dense (kernel_matrix k n m d x y))).
  { intros mt. destruct a as [f A]. cbn in Ha, HA. subst A. unfold normF.
    destruct Ha as [Hf|Hf]; subst f; [reflexivity|]. destruct y as [y'|]; [apply (Hlil2 y' eq_refl)|apply Hlil]. }
  assert (Hgoal : normF N k (stored n d x) (stored2 n m d x y) (is_some y) n m d default_method
     (mkArr Dense (kernel_matrix k n m d x y)) =
     match y with
         | None => op_normalize N default_method (mkArr Dense (kernel_matrix k n m d x y))
         | Some y' => op_normalize2 N (mkArr Dense (kernel_matrix k n m d x y))
             (map (fun i => k (row_of d x i) (row_of d x i)) (seq 0 n))
             (map (fun j => k (row_of d y' j) (row_of d y' j)) (seq 0 m))
         end).
  { unfold normF. destruct y; reflexivity. }
  cbv zeta. rewrite <- Hgoal.
  destruct Hr as [(nk & -> & Hn)|[[_ H]|(e & -> & Hn)]]; [|congruence|].
  - rewrite Hsub in Hn. symmetry. unfold normF in *. destruct (is_some y); [exact Hn|].
    apply (Hmeth meth). exact Hn.
  - rewrite Hsub in Hn. symmetry. exact Hn.
Qed.
