(** What an interrupted computation leaves in the stored matrix (C08), and when the matrix of one sample is
    symmetric (C05). *)
From Coq Require Import String List Arith ZArith Bool Lia.
Import ListNotations.
From Verif Require Import Prelude MatModel MatFacts UtilsModel IndexModel KMModel SpecKM MFacts
  KMFacts KMInv KMOps KMIndex KMHist KMTotal KMGet KMTrack KMHist2 KMPart SpecRef RefProps ToyModel.

(*BEGIN PROP*)
(** The positions on and above the diagonal, row by row, and those below it. *)
Definition upper_positions (n m : nat) : list (nat * nat) :=
  filter (fun p => fst p <=? snd p) (list_prod (seq 0 n) (seq 0 m)).
Definition lower_positions (n m : nat) : list (nat * nat) :=
  filter (fun p => snd p <? fst p) (list_prod (seq 0 n) (seq 0 m)).
(** [a] has the kernel values at the positions [up] and, for two samples, [low]; for one sample it has
    at [low] the entries across the diagonal; and the value [z] at [missing]. *)
Definition computed {E V} (k : list E -> list E -> V) (d : nat) (x : ndarray E) (y : option (ndarray E))
           (na : V) (a : mat V) (up low missing : list (nat * nat)) (z : V) : Prop :=
  (forall i j, In (i, j) up -> mget na a i j = entry k d x y i j) /\
  (forall i j, In (i, j) low ->
     mget na a i j = match y with Some _ => entry k d x y i j | None => mget na a j i end) /\
  (forall i j, In (i, j) missing -> mget na a i j = z).
(*END PROP*)

Lemma filter_flat_map : forall {A B} (p : B -> bool) (f : A -> list B) l,
  filter p (flat_map f l) = flat_map (fun a => filter p (f a)) l.
Proof. intros A B p f l. induction l as [|a l IH]; [reflexivity|]. cbn. rewrite filter_app, IH. reflexivity. Qed.
Lemma list_prod_rows : forall {A B} (l : list A) (l' : list B), list_prod l l' = flat_map (fun a => map (pair a) l') l.
Proof. intros A B l l'. induction l as [|a l IH]; [reflexivity|]. cbn. rewrite IH. reflexivity. Qed.
Lemma filter_map_pair : forall (p : nat * nat -> bool) (i : nat) l,
  filter p (map (pair i) l) = map (pair i) (filter (fun j => p (i, j)) l).
Proof. intros p i l. induction l as [|a l IH]; [reflexivity|]. cbn. rewrite IH. destruct (p (i, a)); reflexivity. Qed.
Lemma filter_all : forall {A} (p : A -> bool) l, (forall a, In a l -> p a = true) -> filter p l = l.
Proof.
  intros A p l H. induction l as [|a l IH]; [reflexivity|]. cbn. rewrite (H a (or_introl eq_refl)), IH; [reflexivity|].
  intros b Hb. apply H. right. exact Hb.
Qed.
Lemma filter_none : forall {A} (p : A -> bool) l, (forall a, In a l -> p a = false) -> filter p l = [].
Proof.
  intros A p l H. induction l as [|a l IH]; [reflexivity|]. cbn. rewrite (H a (or_introl eq_refl)). apply IH.
  intros b Hb. apply H. right. exact Hb.
Qed.
Lemma seq_cut : forall i m, seq 0 m = seq 0 (Nat.min i m) ++ seq i (m - i).
Proof.
  intros i m. destruct (Nat.le_gt_cases m i) as [H|H].
  - rewrite Nat.min_r by lia. replace (m - i) with 0 by lia. symmetry. apply app_nil_r.
  - rewrite Nat.min_l by lia. rewrite <- (Nat.add_0_l i) at 2. rewrite <- seq_app. f_equal. lia.
Qed.
Lemma upper_triu : forall n m, upper_positions n m = triu_indices n m.
Proof.
  intros n m. unfold upper_positions, triu_indices. rewrite list_prod_rows, filter_flat_map.
  apply flat_map_ext. intros i. rewrite filter_map_pair. f_equal. rewrite (seq_cut i m), filter_app.
  rewrite filter_none, filter_all; [reflexivity|..]; intros j Hj; apply in_seq in Hj; cbn.
  - apply Nat.leb_le. lia.
  - apply Nat.leb_gt. lia.
Qed.
Lemma lower_tril : forall n m, lower_positions n m = tril_indices n m.
Proof.
  intros n m. unfold lower_positions, tril_indices. rewrite list_prod_rows, filter_flat_map.
  apply flat_map_ext. intros i. rewrite filter_map_pair. f_equal. rewrite (seq_cut i m), filter_app.
  rewrite filter_all, filter_none; [apply app_nil_r|..]; intros j Hj; apply in_seq in Hj; cbn.
  - apply Nat.ltb_ge. lia.
  - apply Nat.ltb_lt. lia.
Qed.
Lemma in_upper : forall n m i j, In (i, j) (upper_positions n m) <-> i < n /\ j < m /\ i <= j.
Proof.
  intros n m i j. unfold upper_positions. rewrite filter_In, in_prod_iff, !in_seq. cbn [fst snd].
  rewrite Nat.leb_le. lia.
Qed.
Lemma in_lower : forall n m i j, In (i, j) (lower_positions n m) <-> i < n /\ j < m /\ j < i.
Proof.
  intros n m i j. unfold lower_positions. rewrite filter_In, in_prod_iff, !in_seq. cbn [fst snd].
  rewrite Nat.ltb_lt. lia.
Qed.
Lemma nodup_cut : forall {A} (l l1 l2 : list A), NoDup l -> l = l1 ++ l2 -> forall a, In a l1 -> In a l2 -> False.
Proof.
  intros A l l1 l2 H -> a H1 H2. induction l1 as [|b l1 IH]; [destruct H1|].
  cbn in H. inversion H; subst. destruct H1 as [->|H1]; [|apply IH; assumption].
  apply H4. apply in_or_app. right. exact H2.
Qed.
Lemma nodup_grid : forall n m, NoDup (list_prod (seq 0 n) (seq 0 m)).
Proof.
  intros n m. rewrite list_prod_rows. assert (H := seq_NoDup n 0). revert H. generalize (seq 0 n) as l.
  assert (H0 := seq_NoDup m 0). revert H0. generalize (seq 0 m) as l'. intros l' Hl'.
  induction l as [|a l IH]; intros H; [constructor|]. inversion H; subst. cbn [flat_map].
  assert (Ha : NoDup (map (pair a) l')).
  { clear - Hl'. induction Hl' as [|b l' Hn _ IH]; cbn; constructor; [|exact IH].
    intros Hin. apply in_map_iff in Hin. destruct Hin as (c & Hc & Hin). injection Hc as ->. contradiction. }
  assert (Hd : forall p, In p (map (pair a) l') -> ~ In p (flat_map (fun a0 => map (pair a0) l') l)).
  { intros p Hp Hq. apply in_map_iff in Hp. destruct Hp as (b & <- & _).
    apply in_flat_map in Hq. destruct Hq as (c & Hc & Hq). apply in_map_iff in Hq.
    destruct Hq as (e & He & _). injection He as -> _. contradiction. }
  clear H2. specialize (IH H3). revert Ha Hd. generalize (map (pair a) l') as l1. clear - IH.
  induction l1 as [|p l1 IH1]; intros Ha Hd; [exact IH|]. cbn. inversion Ha; subst. constructor.
  - intros Hp. apply in_app_or in Hp. destruct Hp as [Hp|Hp]; [contradiction|].
    apply (Hd p (or_introl eq_refl) Hp).
  - apply IH1; [assumption|]. intros q Hq. apply Hd. right. exact Hq.
Qed.

(** A populated or just computed object returns its stored matrix. *)
Lemma full_returns : forall {E V U} (N : numops V) (s : km E V U) a, k_keep_normed s = false ->
  outcome N OpFull s = Ok (OArr a) ->
  k_full (fst (step N OpFull s)) = Some a /\
  (k_populated (fst (step N OpFull s)) = true \/ fst (step N OpFull s) = fst (populate_fully N true true s) /\
     is_ok (snd (populate_fully N true true s)) = true).
Proof.
  intros E V U N s a Hk Hok. unfold outcome, step in *. rewrite outcome_fmap in Hok. rewrite state_fmap.
  remember (full N s) as q eqn:Hq. unfold full in Hq. unfold bind at 1, get at 1 in Hq.
  rewrite Hk in Hq. destruct (k_sample s); [|subst q; discriminate].
  destruct (k_populated s) eqn:Hp; cbn [negb when] in Hq.
  - unfold bind, ret, attr_or, bind, get, raise in Hq. destruct (k_full s) eqn:Hf; subst q; [|discriminate].
    cbn in *. split; [congruence|left; exact Hp].
  - unfold bind, ret, attr_or, bind, get, raise in Hq.
    destruct (populate_fully N true true s) as [s1 [b|e]]; [|subst q; discriminate]. cbn [fst snd] in *.
    destruct (k_full s1) eqn:Hf; subst q; [|discriminate]. cbn in *. split; [congruence|right; auto].
Qed.

Section Both.
  Context {E V U : Type}.
  Variable N : numops V.
  Variable K : kernel E V.
  Variable k : list E -> list E -> V.
  Variables (pre post : list (op E U)) (x : ndarray E) (y : option (ndarray E)) (n m d : nat) (a : arr V).
  Hypothesis Hret : returns_only K k x y n m d.
  Hypothesis Hadm : admissible x y n m d.
  Hypothesis Hno : no_attach post.
  Hypothesis Hok : outcome N OpFull (after N K false pre x y post) = Ok (OArr a).
  Variables (spi sps : bool).
  Hypothesis Hfs : sps = false -> no_full_sparse post.
  Hypothesis Hwi : spi = false -> no_whole_index n m post.
  Notation XX := (stored n d x).
  Notation YY := (stored2 n m d x y).
  Notation two := (is_some y).
  Notation base := (g_calls (before N K false pre)).

  Lemma carry_full : forall strict (Q : km E V U -> Prop),
    (forall s s', k_populated s' = k_populated s -> k_lower s' = k_lower s -> k_full s' = k_full s -> Q s -> Q s') ->
    (forall dense low (s : km E V U), (low = false -> sps = true) -> (dense = false -> spi || sps = true) ->
       sane N K k false XX YY two n m d base s -> Q s ->
       fine strict (snd (populate_fully N dense low s)) -> Q (fst (populate_fully N dense low s))) ->
    (strict = true -> ~ In (Raise RuntimeError) (trace N post (after N K false pre x y []))) ->
    Q (attached (before N K false pre) x y n m d) ->
    let s := fst (step N OpFull (after N K false pre x y post)) in
    tidy N K k false XX YY two n m d base spi sps s /\ Q s.
  Proof.
    intros strict Q Q1 Q2 Ht Q0 s.
    assert (CR := carry_run N K k false XX YY two n m d base (ret_stored K k x y n m d Hadm Hret) eq_refl
             (stored2_shape x y n m d Hadm) (stored2_one x y n m d Hadm) spi sps strict Q Q1 Q2).
    assert (CS := carry_step N K k false XX YY two n m d base (ret_stored K k x y n m d Hadm Hret) eq_refl
             (stored2_shape x y n m d Hadm) (stored2_one x y n m d Hadm) spi sps strict Q Q1 Q2).
    unfold outcome in Hok.
    assert (H1 := CR post (attached (before N K false pre) x y n m d)).
    rewrite <- (after_split N K false pre post x y n m d Hadm) in H1.
    rewrite (after_split N K false pre [] x y n m d Hadm) in Ht. cbn [run] in Ht.
    destruct H1 as [H1 H2].
    - apply permitted_post; auto.
    - exact Ht.
    - split; [apply (attached_sane N K k false pre x y n m d Hadm)|]. split.
      + intros _ _ H. discriminate.
      + intros _ b H. discriminate.
    - exact Q0.
    - apply (CS OpFull I _ H1 H2). intros _. rewrite Hok. discriminate.
  Qed.

  Lemma part_exact :
    exists u u' l l' z, upper_positions n m = u ++ u' /\ lower_positions n m = l ++ l' /\
      (u' = [] \/ l' = []) /\ (y = None -> l = [] \/ l' = []) /\
      (z = v_nan N \/ (z = v_zero N /\ spi || sps = true)) /\
      computed k d x y (v_nan N) (amat a) u l (u' ++ l') z.
  Proof.
    set (Q := @shape E V U N k XX YY two n m d spi sps).
    destruct (carry_full false Q) as [Ht Hq].
    - apply shape_core.
    - intros dense low s _ Hd Hs HQ _.
      apply (shape_populate N K k false XX YY two n m d base (ret_stored K k x y n m d Hadm Hret) eq_refl
               (stored2_shape x y n m d Hadm) (stored2_one x y n m d Hadm) spi sps dense low s Hd Hs HQ).
    - discriminate.
    - intros b Hb. discriminate.
    - assert (Hs0 := S1_sane N K k false pre post x y n m d Hadm Hno Hret).
      assert (Hk : k_keep_normed (after N K false pre x y post) = false)
        by (destruct (sane_fixed _ _ _ _ _ _ _ _ _ _ _ _ Hs0); tauto).
      destruct (full_returns N _ a Hk Hok) as [Ha Hcase].
      destruct (Hq a Ha) as (u & u' & l & l' & z & Hu & Hl & Hz & Hpu & Hpl & Hat & HP).
      rewrite <- upper_triu in Hu. rewrite <- lower_tril in Hl.
      exists u, u', l, l', z. split; [exact Hu|]. split; [exact Hl|]. split.
      { destruct Hcase as [Hp|[Hf Hp]]; [left; apply Hpu, Hp|right; apply Hpl].
        assert (HH := populate_holds N K k false XX YY two n m d base (ret_stored K k x y n m d Hadm Hret) eq_refl
               (stored2_shape x y n m d Hadm) (stored2_one x y n m d Hadm) true true _ Hs0).
        unfold holds in HH. rewrite Hf.
        destruct (snd (populate_fully N true true (after N K false pre x y post))); [|discriminate].
        destruct HH as (_ & _ & _ & [_ HH] & _). apply HH. reflexivity. }
      split; [intros ->; apply Hat; reflexivity|]. split; [exact Hz|].
      assert (ND := nodup_grid n m).
      assert (NU := nodup_cut _ u u' (NoDup_filter _ ND) Hu).
      assert (NL := nodup_cut _ l l' (NoDup_filter _ ND) Hl).
      assert (IU : forall i j, In (i, j) u \/ In (i, j) u' -> i < n /\ j < m /\ i <= j).
      { intros i j H. apply in_upper. rewrite Hu. apply in_or_app. exact H. }
      assert (IL : forall i j, In (i, j) l \/ In (i, j) l' -> i < n /\ j < m /\ j < i).
      { intros i j H. apply in_lower. rewrite Hl. apply in_or_app. exact H. }
      assert (PN : forall p (q : list (nat * nat)), ~ In p q -> pmem p q = false).
      { intros p q H. destruct (pmem p q) eqn:E1; [apply pmem_in in E1; contradiction|reflexivity]. }
      unfold pict in HP. split; [|split].
      + intros i j H. destruct (IU i j (or_introl H)) as (H1 & H2 & _). rewrite HP by assumption.
        rewrite (proj2 (pmem_in _ _) H). apply truev_entry.
      + intros i j H. destruct (IL i j (or_introl H)) as (H1 & H2 & H3). rewrite HP by assumption.
        rewrite (PN (i, j) u) by (intros H4; destruct (IU i j (or_introl H4)); lia).
        rewrite (proj2 (pmem_in _ _) H). destruct y; cbn [is_some]; [|reflexivity].
        apply (truev_entry k x (Some n0)).
      + intros i j H. apply in_app_or in H. destruct H as [H|H].
        * destruct (IU i j (or_intror H)) as (H1 & H2 & H3). rewrite HP by assumption.
          rewrite (PN (i, j) u) by (intros H4; exact (NU _ H4 H)).
          rewrite (PN (i, j) l) by (intros H4; destruct (IL i j (or_introl H4)); lia). reflexivity.
        * destruct (IL i j (or_intror H)) as (H1 & H2 & H3). rewrite HP by assumption.
          rewrite (PN (i, j) u) by (intros H4; destruct (IU i j (or_introl H4)); lia).
          rewrite (PN (i, j) l) by (intros H4; exact (NL _ H4 H)). reflexivity.
  Qed.
End Both.

(** C08, exactly. With normalized=False and a kernel that may raise at any call: whenever [full] returns,
    after whatever failures, the entries on and above the diagonal are the kernel values up to some
    position, row by row, and all later ones are unevaluated; the same below the diagonal, where for one
    sample either all entries or none are copied from above it. One of the two parts is complete.
    Unevaluated entries are all NaN or all zero. *)
Lemma pf_C08_exact :
  forall {E V U} (N : numops V) (K : kernel E V) k (pre post : list (op E U)) x y n m d a,
    returns_only K k x y n m d -> admissible x y n m d -> no_attach post ->
    outcome N OpFull (after N K false pre x y post) = Ok (OArr a) ->
    exists u u' l l' z, upper_positions n m = u ++ u' /\ lower_positions n m = l ++ l' /\
      (u' = [] \/ l' = []) /\ (y = None -> l = [] \/ l' = []) /\ (z = v_nan N \/ z = v_zero N) /\
      computed k d x y (v_nan N) (amat a) u l (u' ++ l') z.
Proof.
  intros E V U N K k pre post x y n m d a Hret Hadm Hno Hok.
  destruct (part_exact N K k pre post x y n m d a Hret Hadm Hno Hok true true) as
    (u & u' & l & l' & z & H1 & H2 & H3 & H4 & H5 & H6); try discriminate.
  exists u, u', l, l', z. repeat (split; [assumption|]). split; [tauto|exact H6].
Qed.

(** C08, exactly, if nobody asked for a sparse matrix: unevaluated entries are NaN. *)
Lemma pf_C08_exact_dense :
  forall {E V U} (N : numops V) (K : kernel E V) k (pre post : list (op E U)) x y n m d a,
    returns_only K k x y n m d -> admissible x y n m d -> no_attach post ->
    no_full_sparse post -> no_whole_index n m post ->
    outcome N OpFull (after N K false pre x y post) = Ok (OArr a) ->
    exists u u' l l', upper_positions n m = u ++ u' /\ lower_positions n m = l ++ l' /\
      (u' = [] \/ l' = []) /\ (y = None -> l = [] \/ l' = []) /\
      computed k d x y (v_nan N) (amat a) u l (u' ++ l') (v_nan N).
Proof.
  intros E V U N K k pre post x y n m d a Hret Hadm Hno Hfs Hwi Hok.
  destruct (part_exact N K k pre post x y n m d a Hret Hadm Hno Hok false false) as
    (u & u' & l & l' & z & H1 & H2 & H3 & H4 & H5 & H6); auto.
  exists u, u', l, l'. repeat (split; [assumption|]). destruct H5 as [->|[_ H]]; [exact H6|discriminate].
Qed.

(** C08, the part that holds. If no operation since attach_to raised RuntimeError (the exception by which
    an interrupted computation of the matrix is reported) and full_sparse was not read, then [full], when it
    returns, returns the true kernel matrix, also for kernels that raise at other calls. *)
Lemma pf_C08_uninterrupted :
  forall {E V U} (N : numops V) (K : kernel E V) k (pre post : list (op E U)) x y n m d a,
    returns_only K k x y n m d -> admissible x y n m d -> no_attach post -> no_full_sparse post ->
    ~ In (Raise RuntimeError) (trace N post (after N K false pre x y [])) ->
    outcome N OpFull (after N K false pre x y post) = Ok (OArr a) ->
    amat a = kernel_matrix k n m d x y.
Proof.
  intros E V U N K k pre post x y n m d a Hret Hadm Hno Hfs Hrt Hok.
  destruct (carry_full N K k pre post x y n m d a Hret Hadm Hno Hok true false) with
    (strict := true) (Q := @done E V U false) as [([_ Ht] & _) Hq].
  - auto.
  - discriminate.
  - apply done_core.
  - intros dense low s Hl _ Hs HQ Hf.
    apply (done_populate N K k false (stored n d x) (stored2 n m d x y) (is_some y) n m d
             (g_calls (before N K false pre)) (ret_stored K k x y n m d Hadm Hret) eq_refl
             (stored2_shape x y n m d Hadm) (stored2_one x y n m d Hadm) false dense low s Hl Hs HQ).
    apply Hf. reflexivity.
  - intros _. exact Hrt.
  - intros H. destruct (H eq_refl).
  - assert (Hs0 := S1_sane N K k false pre post x y n m d Hadm Hno Hret).
    assert (Hk : k_keep_normed (after N K false pre x y post) = false)
      by (destruct (sane_fixed _ _ _ _ _ _ _ _ _ _ _ _ Hs0); tauto).
    destruct (full_returns N _ a Hk Hok) as [Ha _].
    destruct (Hq ltac:(rewrite Ha; discriminate)) as [Hp Hl]. specialize (Hl eq_refl).
    unfold full_ok in Ht. rewrite Ha in Ht. destruct Ht as (Hwf & _ & Hv & _).
    apply (mat_ext (v_nan N)); [exact Hwf|]. intros i j Hi Hj.
    destruct (Hv Hp i j Hi Hj (or_intror Hl)) as [-> _]. apply truev_entry.
Qed.

(** C05, exactly. On one sample with normalized=False, [full] is symmetric after every history, unless
    full_sparse was the first request and the whole matrix was never indexed: then all entries below the
    diagonal are zero. *)
Lemma pf_C05_exact :
  forall {E V U} (N : numops V) (K : kernel E V) k (pre post : list (op E U)) x n d a,
    never_raises K k x None n n d -> admissible x None n n d -> no_attach post ->
    outcome N OpFull (after N K false pre x None post) = Ok (OArr a) ->
    (leaves false false n n post LUpper ->
       forall i j, i < n -> j < n -> j < i -> mget (v_nan N) (amat a) i j = v_zero N) /\
    (~ leaves false false n n post LUpper ->
       forall i j, i < n -> j < n -> mget (v_nan N) (amat a) i j = mget (v_nan N) (amat a) j i).
Proof.
  intros E V U N K k pre post x n d a Hnr Hadm Hno Hok.
  destruct (pf_C04_exact N K k pre post x None n n d Hnr Hadm Hno) as (c & Hc & Hq). cbn [is_some] in Hc.
  rewrite Hok in Hq. destruct (first_fails N K k n n d x None c); [discriminate|]. injection Hq as ->.
  assert (Hsym : forall f i j, i < n -> j < n ->
    mget (v_nan N) (amat (mkArr f (kernel_matrix k n n d x None))) i j =
    mget (v_nan N) (amat (mkArr f (kernel_matrix k n n d x None))) j i).
  { intros f i j Hi Hj. cbn [amat]. unfold kernel_matrix. rewrite !mget_tabulate by assumption.
    unfold entry. destruct (i <=? j) eqn:E1, (j <=? i) eqn:E2; try reflexivity.
    - apply Nat.leb_le in E1, E2. replace j with i by lia. reflexivity.
    - apply Nat.leb_gt in E1, E2. lia. }
  split.
  - intros HU i j Hi Hj Hij. rewrite (leaves_unique false false n n post c LUpper Hc HU).
    cbn [left_matrix amat]. unfold upper_triangle. rewrite mget_tabulate by assumption.
    replace (i <=? j) with false by (symmetry; apply Nat.leb_gt; lia). reflexivity.
  - intros HU. destruct c; cbn [left_matrix]; try apply Hsym. contradiction.
Qed.

(*BEGIN PROP*)
(** The hypotheses are met: the kernel raises at every third call. The first [full] stops at (0, 2); the
    second returns only the first row without its last entry, copied to the first column. For two
    samples, the part below the diagonal is computed later, and (1, 1) stays NaN. *)
Example C08_exact_example :
  let full_of s := match outcome toyN OpFull s with Ok (OArr a) => Some (md (amat a)) | _ => None end in
  let s1 := after (U:=Z) toyN flaky_dot false [] toyX None [OpFull] in
  let s2 := after (U:=Z) toyN flaky_dot false [] toyX (Some toyX2) [OpFull; OpFull] in
  returns_only flaky_dot dotk toyX None 3 3 2 /\ admissible toyX None 3 3 2 /\
  full_of s1 = Some [[Some 5; Some 11; None]; [Some 11; None; None]; [None; None; None]]%Z /\
  upper_positions 3 3 = [(0, 0); (0, 1)] ++ [(0, 2); (1, 1); (1, 2); (2, 2)] /\
  lower_positions 3 3 = [(1, 0); (2, 0); (2, 1)] ++ [] /\
  outcome toyN OpFull (after (U:=Z) toyN flaky_dot false [] toyX (Some toyX2) []) = Raise RuntimeError /\
  outcome toyN OpFull (after (U:=Z) toyN flaky_dot false [] toyX (Some toyX2) [OpFull]) = Raise RuntimeError /\
  full_of s2 = Some [[Some 2; Some 2]; [Some 6; None]; [Some 10; Some 6]]%Z.
Proof.
  cbv zeta. split; [apply flaky_returns|]. split; [exact toyX_ok|]. vm_compute. repeat split; reflexivity.
Qed.

(** A kernel that raises at every third call, without an interrupted computation of the matrix. *)
Example C08_uninterrupted_example :
  let post := [OpGetItem (IPair (IInt 0) (IInt 0)); OpFull] in
  let x := mkNd [2; 1] [Some 2; Some 3]%Z in
  returns_only (mkKernel (fun t u v => if Nat.eqb (Nat.modulo t 4) 3 then Raise ValueError else Ok (dotk u v)) true)
               dotk x None 2 2 1 /\
  ~ In (Raise RuntimeError) (trace toyN post (after (U:=Z) toyN
      (mkKernel (fun t u v => if Nat.eqb (Nat.modulo t 4) 3 then Raise ValueError else Ok (dotk u v)) true)
      false [] x None [])).
Proof.
  cbv zeta. split.
  - intros t u v _ _. cbn [kf]. destruct (Nat.eqb _ _); eauto.
  - vm_compute. intros [H|[H|[]]]; discriminate.
Qed.

(** Both cases of C05 occur. *)
Example C05_exact_example :
  leaves (E:=option Z) (U:=Z) false false 3 3 [OpFrobNorm; OpFullSparse] LDense /\
  leaves (E:=option Z) (U:=Z) false false 3 3 [OpDiagonal; OpFullSparse; OpFrobNorm] LUpper /\
  outcome toyN OpFull (after (U:=Z) toyN dot false [] toyX None [OpDiagonal; OpFullSparse; OpFrobNorm])
  = Ok (OArr (mkArr Lil (mkMat 3 3 [[Some 5; Some 11; Some 17]; [Some 0; Some 25; Some 39]; [Some 0; Some 0; Some 61]])%Z)).
Proof.
  split; [|split; [|vm_compute; reflexivity]].
  - exists OpFrobNorm, [OpFullSparse]. split; [|exact I]. exists []. split; [reflexivity|constructor].
  - exists OpFullSparse, [OpFrobNorm]. split; [|split; [split; reflexivity|repeat constructor; intros []]].
    exists [OpDiagonal]. split; [reflexivity|]. constructor; [|constructor].
    split; [intros []|]. split; [intros [H _]; discriminate|intros []].
Qed.
(*END PROP*)
