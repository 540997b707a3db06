(** Which Hadamard kernel matrices are positive definite (C111), in exact arithmetic. *)
From Coq Require Import String List Arith ZArith Bool Reals Lra Lia Psatz.
Import ListNotations.
From Verif Require Import Prelude MatModel MatFacts UtilsModel XReal SpecLinAlg RSum PSDFacts OpsModel OpsFacts OpsProps KernelsModel
  SpecKernels KernelFacts KernelProps KMXModel IndexModel KMModel SpecKM SpecSample SampleXProps SpecKMX KMProps KMXProps
  PosDefProps DefiniteProps.
Local Open Scope R_scope.

Lemma quad_border : forall n A a c, 0 < a -> A n n = a -> (forall i, (i < n)%nat -> A i n = A n i) ->
  quad (S n) A c = quad n (fun i j => A i j - A i n * A j n / a) c
    + a * ((c n + rsum n (fun i => c i * A i n) / a) * (c n + rsum n (fun i => c i * A i n) / a)).
Proof.
  intros n A a c Ha Hnn Hsn. set (t := rsum n (fun i => c i * A i n)).
  unfold quad. simpl. rewrite rsum_plus.
  rewrite (rsum_ext n (fun i => rsum n (fun j => c i * (A i j - A i n * A j n / a) * c j))
     (fun i => rsum n (fun j => c i * A i j * c j) - (c i * A i n) * (t / a))).
  2:{ intros i Hi.
      rewrite (rsum_ext n _ (fun j => c i * A i j * c j - c i * A i n / a * (c j * A j n))).
      - rewrite rsum_minus, rsum_scal. fold t. field. lra.
      - intros; field; lra. }
  rewrite rsum_minus, rsum_scal_r. fold t. rewrite rsum_scal_r. fold t.
  rewrite (rsum_ext n (fun j => c n * A n j * c j) (fun j => c n * (c j * A j n))).
  - rewrite rsum_scal. fold t. rewrite Hnn. field. lra.
  - intros j Hj. rewrite (Hsn j Hj). ring.
Qed.

Lemma def_border : forall n A a, 0 < a -> A n n = a -> (forall i, (i < n)%nat -> A i n = A n i) ->
  pos_def n (fun i j => A i j - A i n * A j n / a) -> pos_def (S n) A.
Proof.
  intros n A a Ha Hnn Hsn HD. split.
  - apply (psd_border n A a Ha Hnn Hsn (def_psd _ _ HD)).
  - intros c (i & Hi & Hc). rewrite (quad_border n A a c Ha Hnn Hsn).
    set (t := rsum n (fun i => c i * A i n)).
    assert (Q : 0 <= (c n + t / a) * (c n + t / a)) by apply Rle_0_sqr.
    destruct (zero_or_not n c) as [Z|NZ].
    + assert (T : t = 0) by (unfold t; apply rsum_zero; intros k Hk; rewrite (Z k Hk); ring).
      assert (Hcn : c n <> 0).
      { destruct (Nat.eq_dec i n) as [->|N]; [exact Hc|]. exfalso. apply Hc, Z. lia. }
      assert (Q0 := proj2 (def_psd _ _ HD) c). rewrite T in *. replace (c n + 0 / a) with (c n) in * by (unfold Rdiv; ring).
      assert (0 < c n * c n) by nra. nra.
    + assert (P := proj2 HD c NZ). nra.
Qed.

Lemma def_cauchy : forall n (x : nat -> R), (forall i, (i < n)%nat -> 0 < x i) ->
  (forall i j, (i < n)%nat -> (j < n)%nat -> i <> j -> x i <> x j) -> pos_def n (fun i j => / (x i + x j)).
Proof.
  induction n as [|n IH]; intros x Hx HD.
  - split; [intros i j Hi; lia|]. intros c (i & Hi & _). lia.
  - assert (Hn := Hx n (Nat.lt_succ_diag_r n)). apply (def_border n _ (/ (x n + x n))).
    + apply Rinv_0_lt_compat. lra.
    + reflexivity.
    + intros i Hi. now rewrite Rplus_comm.
    + apply (pos_def_ext n (fun i j => (x i - x n) / (x i + x n) * / (x i + x j) * ((x j - x n) / (x j + x n)))).
      * intros i j Hi Hj. assert (H1 := Hx i ltac:(lia)). assert (H2 := Hx j ltac:(lia)). field. repeat split; lra.
      * apply (def_scale n (fun i => (x i - x n) / (x i + x n))).
        -- intros i Hi. assert (H1 := Hx i ltac:(lia)). assert (H2 := HD i n ltac:(lia) ltac:(lia) ltac:(lia)).
           apply Rmult_integral_contrapositive_currified; [lra|apply Rinv_neq_0_compat; lra].
        -- apply IH; [intros; apply Hx; lia|intros; apply HD; lia].
Qed.

Lemma def_harm : forall n (x : nat -> R), (forall i, (i < n)%nat -> 0 < x i) ->
  (forall i j, (i < n)%nat -> (j < n)%nat -> i <> j -> x i <> x j) -> pos_def n (fun i j => harm (x i) (x j)).
Proof.
  intros n x Hx HD. apply (pos_def_ext n (fun i j => x i * / (x i + x j) * x j)).
  - intros i j Hi Hj. assert (H1 := Hx i Hi). assert (H2 := Hx j Hj). unfold harm.
    destruct (Req_EM_T (x i + x j) 0); [lra|]. unfold Rdiv. ring.
  - apply (def_scale n x); [|now apply def_cauchy]. intros i Hi. specialize (Hx i Hi). lra.
Qed.

Lemma pw_pos : forall alpha r, r <> 0 -> 0 < pw alpha r.
Proof. intros alpha r H. unfold pw. destruct (Req_EM_T r 0); [contradiction|apply exp_pos]. Qed.
Lemma pw_inj : forall alpha r s, 0 < alpha -> r <> 0 -> s <> 0 -> pw alpha r = pw alpha s -> Rabs r = Rabs s.
Proof.
  intros alpha r s Ha Hr Hs H. unfold pw in H. destruct (Req_EM_T r 0); [contradiction|]. destruct (Req_EM_T s 0); [contradiction|].
  unfold Rpower in H. apply exp_inv in H. apply ln_inv; [now apply Rabs_pos_lt|now apply Rabs_pos_lt|]. nra.
Qed.
Lemma pw_abs : forall alpha r s, Rabs r = Rabs s -> pw alpha r = pw alpha s.
Proof.
  intros alpha r s H. unfold pw. rewrite H. destruct (Req_EM_T r 0) as [E|E], (Req_EM_T s 0) as [E'|E']; try reflexivity.
  - rewrite E, Rabs_R0 in H. exfalso. now apply (Rabs_no_R0 s).
  - rewrite E', Rabs_R0 in H. exfalso. now apply (Rabs_no_R0 r).
Qed.

(** C111, HadamardKernel (alpha > 0): if, in one of the features, no value is zero and no two have the same absolute
    value, the matrix is positive definite. *)
Lemma pf_C111_hadamard : forall cast alpha n d X k, 0 < alpha -> (k < d)%nat ->
  (forall i, (i < n)%nat -> X i k <> 0) ->
  (forall i j, (i < n)%nat -> (j < n)%nat -> i <> j -> Rabs (X i k) <> Rabs (X j k)) ->
  pos_def_on (fun x y => kernel_call cast (KHadamard alpha) DFloat x DFloat y) n d X.
Proof.
  intros cast alpha n d X k Ha Hk HZ HD.
  apply (on_iff _ n d X (fun i j => rsum d (fun k => harm (pw alpha (X i k)) (pw alpha (X j k)) / 2))).
  { intros i j _ _. rewrite call_fvec. now apply hadamard_fin. }
  assert (HP : forall q, psd n (fun i j => harm (pw alpha (X i q)) (pw alpha (X j q)) / 2)).
  { intros q. apply (psd_ext n (fun i j => / 2 * harm (pw alpha (X i q)) (pw alpha (X j q)))); [intros; lra|].
    apply psd_scal; [lra|]. apply (psd_harm n (fun i => pw alpha (X i q))). intros. apply pw_nonneg. }
  assert (HK : pos_def n (fun i j => harm (pw alpha (X i k)) (pw alpha (X j k)) / 2)).
  { apply (pos_def_ext n (fun i j => / 2 * harm (pw alpha (X i k)) (pw alpha (X j k)))); [intros; lra|].
    apply def_scal; [lra|]. apply (def_harm n (fun i => pw alpha (X i k))).
    - intros i Hi. now apply pw_pos, HZ.
    - intros i j Hi Hj N E. apply (HD i j Hi Hj N). apply (pw_inj alpha); auto. }
  induction d as [|d IH]; [lia|]. cbn [rsum]. destruct (Nat.eq_dec k d) as [->|N].
  - apply (pos_def_ext n (fun i j => harm (pw alpha (X i d)) (pw alpha (X j d)) / 2 + rsum d (fun k => harm (pw alpha (X i k)) (pw alpha (X j k)) / 2))).
    + intros; ring.
    + apply def_plus; [exact HK|apply psd_hadamard].
  - apply (def_plus n (fun i j => rsum d (fun k => harm (pw alpha (X i k)) (pw alpha (X j k)) / 2))); [apply IH; lia|apply HP].
Qed.

(** C111, HadamardKernel: a positive definite matrix requires that no point is zero and that no two points agree in the
    absolute values of all features. *)
Lemma pf_C111_hadamard_only : forall cast alpha n d X, 0 < alpha ->
  pos_def_on (fun x y => kernel_call cast (KHadamard alpha) DFloat x DFloat y) n d X ->
  (forall i, (i < n)%nat -> exists k, (k < d)%nat /\ X i k <> 0) /\ distinct n d (fun i k => Rabs (X i k)).
Proof.
  intros cast alpha n d X Ha H.
  apply (on_iff _ n d X (fun i j => rsum d (fun k => harm (pw alpha (X i k)) (pw alpha (X j k)) / 2))) in H;
    [|intros i j _ _; rewrite call_fvec; now apply hadamard_fin].
  split.
  - intros i Hi. destruct (zero_or_not d (X i)) as [Z|NZ]; [|exact NZ]. exfalso.
    assert (P := def_diag n _ i H Hi). cbv beta in P. rewrite rsum_zero in P; [lra|].
    intros k Hk. rewrite (Z k Hk). unfold pw, harm. destruct (Req_EM_T 0 0); [|lra]. destruct (Req_EM_T (0 + 0) 0); lra.
  - revert H. apply not_definite. intros i j Hi Hj E.
    assert (E' : forall k, (k < d)%nat -> pw alpha (X i k) = pw alpha (X j k)) by (intros k Hk; apply pw_abs, E, Hk).
    split; apply rsum_ext; intros k Hk; rewrite (E' k Hk); reflexivity.
Qed.

(** C111, HadamardKernel on numbers (one feature): positive definite exactly if none is zero and no two have the same
    absolute value. *)
Lemma pf_C111_hadamard_line : forall cast alpha n X, 0 < alpha ->
  (pos_def_on (fun x y => kernel_call cast (KHadamard alpha) DFloat x DFloat y) n 1 X
   <-> (forall i, (i < n)%nat -> X i 0%nat <> 0) /\
       (forall i j, (i < n)%nat -> (j < n)%nat -> i <> j -> Rabs (X i 0%nat) <> Rabs (X j 0%nat))).
Proof.
  intros cast alpha n X Ha. split.
  - intros H. destruct (pf_C111_hadamard_only cast alpha n 1 X Ha H) as [H1 H2]. split.
    + intros i Hi. destruct (H1 i Hi) as (k & Hk & E). replace k with 0%nat in E by lia. exact E.
    + intros i j Hi Hj N. destruct (H2 i j Hi Hj N) as (k & Hk & E). replace k with 0%nat in E by lia. exact E.
  - intros [H1 H2]. apply (pf_C111_hadamard cast alpha n 1 X 0%nat Ha); auto.
Qed.

(** C111: distinct points are not enough for HadamardKernel: on 1 and -1 its matrix is not positive definite; on 1 and
    -2 it is. *)
Lemma pf_C111_hadamard_refuted : forall cast,
  exists X, distinct 2 1 X /\
    ~ pos_def_on (fun x y => kernel_call cast (KHadamard 3) DFloat x DFloat y) 2 1 X /\
    pos_def_on (fun x y => kernel_call cast (KHadamard 3) DFloat x DFloat y) 2 1 (fun i _ => match i with O => 1 | _ => -2 end).
Proof.
  intros cast. exists (fun i _ => match i with O => 1 | _ => -1 end). split; [|split].
  - intros i j Hi Hj N. exists 0%nat. split; [lia|]. destruct i as [|[|i]], j as [|[|j]]; try lia; lra.
  - intros H. apply pf_C111_hadamard_line in H; [|lra]. destruct H as [_ H]. apply (H 0%nat 1%nat); [lia|lia|lia|].
    rewrite Rabs_R1. cbv beta iota. rewrite Rabs_left; lra.
  - apply pf_C111_hadamard_line; [lra|]. split.
    + intros i Hi. destruct i as [|i]; lra.
    + intros i j Hi Hj N. assert (E2 : Rabs (-2) = 2) by (rewrite Rabs_left; lra). assert (E1 : Rabs 1 = 1) by apply Rabs_R1.
      destruct i as [|[|i]], j as [|[|j]]; try lia; rewrite E1, E2; lra.
Qed.
