(** Exactly which Hadamard kernel matrices are positive definite (C111), in exact arithmetic. *)
From Coq Require Import String List Arith ZArith Bool Reals Lra Lia Psatz.
Import ListNotations.
From Verif Require Import Prelude MatModel MatFacts UtilsModel XReal SpecLinAlg RSum PSDFacts OpsModel OpsFacts OpsProps KernelsModel
  SpecKernels KernelFacts KernelProps PosDefProps DefiniteProps HadDefProps MatchDefProps.
Local Open Scope R_scope.

(*BEGIN PROP*)
(** The sum of the weights of the points whose feature k has absolute value v. *)
Definition abs_weight (n : nat) (X : nat -> nat -> R) (c : nat -> R) (k : nat) (v : R) : R :=
  rsum n (fun i => if Req_EM_T (Rabs (X i k)) v then c i else 0).
(*END PROP*)

Lemma values_exist : forall n (x : nat -> R), exists m (v : nat -> R),
  (forall l, (l < m)%nat -> 0 < v l) /\
  (forall l q, (l < m)%nat -> (q < m)%nat -> l <> q -> v l <> v q) /\
  (forall i, (i < n)%nat -> 0 < x i -> exists l, (l < m)%nat /\ x i = v l).
Proof.
  induction n as [|n IH]; intros x.
  - exists 0%nat, (fun _ => 0). repeat split; intros; lia.
  - destruct (IH x) as (m & v & H1 & H2 & H3).
    assert (K : (exists l, (l < m)%nat /\ x n = v l) \/ forall l, (l < m)%nat -> x n <> v l).
    { clear H1 H2 H3. induction m as [|m IHm]; [right; intros; lia|].
      destruct IHm as [(l & Hl & E)|N]; [left; exists l; split; [lia|exact E]|].
      destruct (Req_EM_T (x n) (v m)) as [E|E]; [left; exists m; split; [lia|exact E]|].
      right. intros l Hl. destruct (Nat.eq_dec l m) as [->|]; [exact E|apply N; lia]. }
    destruct (Rlt_dec 0 (x n)) as [P|P]; [destruct K as [K|K]|].
    + exists m, v. split; [exact H1|]. split; [exact H2|]. intros i Hi Hx.
      destruct (Nat.eq_dec i n) as [->|]; [exact K|apply H3; [lia|exact Hx]].
    + exists (S m), (fun l => if (l <? m)%nat then v l else x n). split; [|split].
      * intros l Hl. destruct (Nat.ltb_spec l m); [now apply H1|exact P].
      * intros l q Hl Hq N. destruct (Nat.ltb_spec l m), (Nat.ltb_spec q m); [now apply H2| | |lia].
        -- intros E. apply (K l); [assumption|now symmetry].
        -- now apply K.
      * intros i Hi Hx. destruct (Nat.eq_dec i n) as [->|].
        -- exists m. split; [lia|]. now rewrite Nat.ltb_irrefl.
        -- destruct (H3 i ltac:(lia) Hx) as (l & Hl & E). exists l. split; [lia|]. now apply Nat.ltb_lt in Hl as ->.
    + exists m, v. split; [exact H1|]. split; [exact H2|]. intros i Hi Hx.
      destruct (Nat.eq_dec i n) as [->|]; [contradiction|apply H3; [lia|exact Hx]].
Qed.

Lemma harm_zero : forall z, harm 0 z = 0.
Proof. intros z. unfold harm. destruct (Req_EM_T (0 + z) 0) as [E|E]; [reflexivity|]. unfold Rdiv. ring. Qed.

Definition cls (n : nat) (x c : nat -> R) (v : R) : R := rsum n (fun i => if Req_EM_T (x i) v then c i else 0).

Lemma regroup : forall n m (x v c : nat -> R) z, (forall i, (i < n)%nat -> 0 <= x i) ->
  (forall l q, (l < m)%nat -> (q < m)%nat -> l <> q -> v l <> v q) ->
  (forall l, (l < m)%nat -> 0 < v l) ->
  (forall i, (i < n)%nat -> 0 < x i -> exists l, (l < m)%nat /\ x i = v l) ->
  rsum n (fun i => c i * harm (x i) z) = rsum m (fun l => cls n x c (v l) * harm (v l) z).
Proof.
  intros n m x v c z H0 HD HP HC.
  transitivity (rsum n (fun i => rsum m (fun l => (if Req_EM_T (x i) (v l) then c i else 0) * harm (v l) z))).
  - apply rsum_ext. intros i Hi. destruct (Req_EM_T (x i) 0) as [E|E].
    + rewrite E, harm_zero, Rmult_0_r. symmetry. apply rsum_zero. intros l Hl.
      destruct (Req_EM_T 0 (v l)) as [E'|E']; [specialize (HP l Hl); lra|ring].
    + destruct (HC i Hi) as (l & Hl & E'); [specialize (H0 i Hi); lra|].
      rewrite (rsum_ext m _ (fun q => if Nat.eqb q l then c i * harm (x i) z else 0)).
      * now rewrite rsum_delta.
      * intros q Hq. destruct (Nat.eqb_spec q l) as [->|N].
        -- rewrite <- E'. destruct (Req_EM_T (x i) (x i)); [reflexivity|congruence].
        -- destruct (Req_EM_T (x i) (v q)) as [E2|E2]; [|ring]. exfalso. apply (HD q l Hq Hl N). congruence.
  - rewrite rsum_swap. apply rsum_ext. intros l _. unfold cls. now rewrite rsum_scal_r.
Qed.

Lemma harm_null : forall n (x c : nat -> R), (forall i, (i < n)%nat -> 0 <= x i) ->
  (quad n (fun i j => harm (x i) (x j)) c = 0 <-> forall v, 0 < v -> cls n x c v = 0).
Proof.
  intros n x c H0. destruct (values_exist n x) as (m & v & HP & HD & HC). split.
  - intros H.
    assert (Z : forall z, 0 <= z -> rsum n (fun i => c i * harm (x i) z) = 0).
    { intros z Hz. set (x' := fun i => if (i <? n)%nat then x i else z).
      assert (Hs : forall i, (i < n)%nat -> x' i = x i) by (intros i Hi; unfold x'; now apply Nat.ltb_lt in Hi as ->).
      assert (Hv : x' n = z) by (unfold x'; now rewrite Nat.ltb_irrefl).
      assert (HX : forall i, (i < S n)%nat -> 0 <= x' i).
      { intros i Hi. unfold x'. destruct (Nat.ltb_spec i n); [now apply H0|exact Hz]. }
      assert (N := null_vector n (fun i j => harm (x' i) (x' j)) c (psd_harm (S n) x' HX)).
      refine (eq_trans _ (N _)).
      - apply rsum_ext. intros i Hi. now rewrite Hv, (Hs i Hi).
      - refine (eq_trans _ H). apply quad_ext; [|reflexivity]. intros i j Hi Hj. now rewrite !Hs. }
    assert (V : forall l, (l < m)%nat -> cls n x c (v l) = 0).
    { intros l Hl. destruct (def_harm m v HP HD) as [_ HQ].
      destruct (Req_dec (cls n x c (v l)) 0) as [E|E]; [exact E|]. exfalso.
      assert (P := HQ (fun l => cls n x c (v l)) (ex_intro _ l (conj Hl E))).
      assert (Q : quad m (fun i j => harm (v i) (v j)) (fun l => cls n x c (v l)) = 0); [|lra].
      unfold quad. rewrite rsum_swap. apply rsum_zero. intros q Hq.
      transitivity (rsum m (fun i => (cls n x c (v i) * harm (v i) (v q)) * cls n x c (v q))); [apply rsum_ext; intros; ring|].
      rewrite rsum_scal_r, <- (regroup n m x v c (v q) H0 HD HP HC), Z; [ring|]. left. now apply HP. }
    intros w Hw.
    assert (K : (exists i, (i < n)%nat /\ x i = w) \/ forall i, (i < n)%nat -> x i <> w).
    { clear. induction n as [|n IH]; [right; intros; lia|].
      destruct IH as [(l & Hl & E)|N]; [left; exists l; split; [lia|exact E]|].
      destruct (Req_EM_T (x n) w) as [E|E]; [left; exists n; split; [lia|exact E]|].
      right. intros l Hl. destruct (Nat.eq_dec l n) as [->|]; [exact E|apply N; lia]. }
    destruct K as [(i & Hi & E)|K].
    + destruct (HC i Hi) as (l & Hl & E'); [lra|]. rewrite <- E, E'. now apply V.
    + unfold cls. apply rsum_zero. intros i Hi. destruct (Req_EM_T (x i) w) as [E|E]; [now apply K in E|reflexivity].
  - intros H. unfold quad. rewrite rsum_swap. apply rsum_zero. intros j Hj.
    transitivity (rsum n (fun i => (c i * harm (x i) (x j)) * c j)); [apply rsum_ext; intros; ring|].
    rewrite rsum_scal_r, (regroup n m x v c (x j) H0 HD HP HC). rewrite rsum_zero; [ring|].
    intros l Hl. rewrite (H (v l) (HP l Hl)). ring.
Qed.

Lemma pw_reach : forall alpha v, 0 < alpha -> 0 < v -> exists r, 0 < r /\ pw alpha r = v.
Proof.
  intros alpha v Ha Hv. exists (Rpower v (/ alpha)). assert (P : 0 < Rpower v (/ alpha)) by apply exp_pos. split; [exact P|].
  unfold pw. destruct (Req_EM_T (Rpower v (/ alpha)) 0); [lra|]. rewrite Rabs_right by lra.
  rewrite Rpower_mult, Rinv_l by lra. now apply Rpower_1.
Qed.

Lemma cls_pw : forall alpha n X c k r, 0 < alpha -> 0 < r ->
  cls n (fun i => pw alpha (X i k)) c (pw alpha r) = abs_weight n X c k r.
Proof.
  intros alpha n X c k r Ha Hr. apply rsum_ext. intros i Hi.
  assert (R0 : Rabs r = r) by (apply Rabs_right; lra).
  destruct (Req_EM_T (pw alpha (X i k)) (pw alpha r)) as [E|E], (Req_EM_T (Rabs (X i k)) r) as [E'|E']; try reflexivity; exfalso.
  - apply E'. rewrite <- R0. apply (pw_inj alpha); [exact Ha| |lra|exact E].
    intros Z. rewrite Z in E. unfold pw in E at 1. destruct (Req_EM_T 0 0); [|lra]. assert (P := pw_pos alpha r). lra.
  - apply E. apply pw_abs. congruence.
Qed.

(** C111, HadamardKernel (alpha > 0): the matrix is positive definite exactly if the points have no weights, other than
    zeros, with which in every feature the weights of the points sharing a non-zero absolute value sum to zero. *)
Lemma pf_C111_hadamard_exact : forall cast alpha n d X, 0 < alpha ->
  (pos_def_on (fun x y => kernel_call cast (KHadamard alpha) DFloat x DFloat y) n d X <->
   forall c, (forall k v, (k < d)%nat -> 0 < v -> abs_weight n X c k v = 0) -> forall i, (i < n)%nat -> c i = 0).
Proof.
  intros cast alpha n d X Ha.
  set (H := fun k i j => harm (pw alpha (X i k)) (pw alpha (X j k)) / 2).
  rewrite (on_iff _ n d X (fun i j => rsum d (fun k => H k i j)))
    by (intros i j _ _; rewrite call_fvec; now apply hadamard_fin).
  assert (HP : forall k, psd n (H k)).
  { intros q. apply (psd_ext n (fun i j => / 2 * harm (pw alpha (X i q)) (pw alpha (X j q)))); [intros; unfold H; lra|].
    apply psd_scal; [lra|]. apply (psd_harm n (fun i => pw alpha (X i q))). intros. apply pw_nonneg. }
  assert (HN : forall c, quad n (fun i j => rsum d (fun k => H k i j)) c = 0 <->
                         forall k v, (k < d)%nat -> 0 < v -> abs_weight n X c k v = 0).
  { intros c. rewrite (quad_rsum n d H c).
    assert (E : forall k, quad n (H k) c = 0 <-> forall v, 0 < v -> abs_weight n X c k v = 0).
    { intros k. assert (E : quad n (H k) c = / 2 * quad n (fun i j => harm (pw alpha (X i k)) (pw alpha (X j k))) c).
      { rewrite <- quad_scal. apply quad_ext; [|reflexivity]. intros. unfold H. lra. }
      assert (N := harm_null n (fun i => pw alpha (X i k)) c (fun i _ => pw_nonneg alpha (X i k))). cbv beta in N. split.
      - intros Z r Hr. rewrite <- (cls_pw alpha) by assumption. apply N; [lra|]. apply pw_pos. lra.
      - intros Z. rewrite E, (proj2 N); [ring|]. intros v Hv. destruct (pw_reach alpha v Ha Hv) as (r & Hr & <-).
        rewrite cls_pw by assumption. now apply Z. }
    split.
    - intros Z k v Hk. apply (E k). apply (rsum_nonneg_zero d _ (fun k _ => proj2 (HP k) c) Z k Hk).
    - intros Z. apply rsum_zero. intros k Hk. apply E. intros v. now apply Z. }
  split.
  - intros [_ HQ] c HC i Hi. destruct (Req_dec (c i) 0) as [E|E]; [exact E|]. exfalso.
    assert (P := HQ c (ex_intro _ i (conj Hi E))). apply HN in HC. lra.
  - intros HI. destruct (psd_rsum n d H (fun k _ => HP k)) as [HS HQ]. split; [exact HS|]. intros c (i & Hi & Hc).
    destruct (Rle_lt_or_eq_dec _ _ (HQ c)) as [L|E]; [exact L|]. exfalso. apply Hc. apply HI; [|exact Hi]. now apply HN.
Qed.

(** Three points with two features, no feature of which separates all: positive definite. *)
Lemma pf_C111_hadamard_exact_example : forall cast,
  pos_def_on (fun x y => kernel_call cast (KHadamard 2) DFloat x DFloat y) 3 2
    (fun i k => nth k (nth i [[1; 1]; [-1; 2]; [2; 0]] []) 0).
Proof.
  intros cast. apply pf_C111_hadamard_exact; [lra|]. intros c HC i Hi.
  assert (E2 := HC 0%nat 2 ltac:(lia) ltac:(lra)). assert (F1 := HC 1%nat 1 ltac:(lia) ltac:(lra)).
  assert (F2 := HC 1%nat 2 ltac:(lia) ltac:(lra)). unfold abs_weight in *. cbn [rsum nth] in *.
  assert (A1 : Rabs 1 = 1) by apply Rabs_R1. assert (A2 : Rabs 2 = 2) by (apply Rabs_right; lra).
  assert (A3 : Rabs (-1) = 1) by (rewrite Rabs_left; lra). assert (A4 : Rabs 0 = 0) by apply Rabs_R0.
  rewrite ?A1, ?A2, ?A3, ?A4 in *.
  destruct (Req_EM_T 1 2); [lra|]. destruct (Req_EM_T 2 2); [|lra]. destruct (Req_EM_T 1 1); [|lra].
  destruct (Req_EM_T 2 1); [lra|]. destruct (Req_EM_T 0 1); [lra|]. destruct (Req_EM_T 0 2); [lra|].
  do 3 (destruct i as [|i]; [lra|]). lia.
Qed.
