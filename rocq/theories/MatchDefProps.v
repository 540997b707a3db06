(** Which match-count matrices are positive definite (C111), in exact arithmetic. *)
From Coq Require Import String List Arith ZArith Bool Reals Lra Lia Psatz.
Import ListNotations.
From Verif Require Import Prelude MatModel MatFacts UtilsModel XReal SpecLinAlg RSum PSDFacts OpsModel OpsFacts OpsProps KernelsModel
  SpecKernels KernelFacts KernelProps PosDefProps DefiniteProps.
Local Open Scope R_scope.

(*BEGIN PROP*)
(** The matrix of a kernel on n vectors of strings is positive definite. *)
Definition pos_def_strings (call : ndarray string -> ndarray string -> res xr) (n : nat) (X : nat -> list string) : Prop :=
  exists K, pos_def n K /\
    forall i j, (i < n)%nat -> (j < n)%nat -> call (vec (X i)) (vec (X j)) = Ok (Fin (K i j)).
(** The sum of the weights of the points with value v in feature k. *)
Definition class_weight (n : nat) (X : nat -> list string) (c : nat -> R) (k : nat) (v : string) : R :=
  rsum n (fun i => if string_dec (nth k (X i) EmptyString) v then c i else 0).
(*END PROP*)

Lemma quad_rsum : forall n d (A : nat -> nat -> nat -> R) c,
  quad n (fun i j => rsum d (fun k => A k i j)) c = rsum d (fun k => quad n (A k) c).
Proof.
  intros n d A c. induction d as [|d IH]; cbn [rsum].
  - unfold quad. apply rsum_zero. intros i _. apply rsum_zero. intros j _. ring.
  - now rewrite quad_plus, IH.
Qed.

Lemma same_null : forall n (s : nat -> string) c,
  quad n (fun i j => if string_dec (s i) (s j) then 1 else 0) c = 0 <->
  forall v, rsum n (fun i => if string_dec (s i) v then c i else 0) = 0.
Proof.
  intros n s c. split.
  - intros H v. set (s' := fun i => if (i <? n)%nat then s i else v).
    assert (Hs : forall i, (i < n)%nat -> s' i = s i) by (intros i Hi; unfold s'; now apply Nat.ltb_lt in Hi as ->).
    assert (Hv : s' n = v) by (unfold s'; now rewrite Nat.ltb_irrefl).
    assert (N := null_vector n (fun i j => if string_dec (s' i) (s' j) then 1 else 0) c (psd_same string_dec (S n) s')).
    refine (eq_trans _ (N _)).
    + apply rsum_ext. intros i Hi. rewrite Hv, (Hs i Hi). destruct (string_dec (s i) v); ring.
    + refine (eq_trans _ H). apply quad_ext; [|reflexivity]. intros i j Hi Hj. now rewrite !Hs.
  - intros H. unfold quad. apply rsum_zero. intros i _.
    transitivity (c i * rsum n (fun j => if string_dec (s j) (s i) then c j else 0)); [|rewrite H; ring].
    rewrite <- rsum_scal. apply rsum_ext. intros j _.
    destruct (string_dec (s i) (s j)), (string_dec (s j) (s i)); try congruence; ring.
Qed.

Definition agree (d : nat) (X : nat -> list string) (i j : nat) : R :=
  rsum d (fun k => if string_dec (nth k (X i) EmptyString) (nth k (X j) EmptyString) then 1 else 0).

Lemma psd_agree : forall n d X, psd n (agree d X).
Proof.
  intros n d X. apply (psd_rsum n d (fun k i j => if string_dec (nth k (X i) EmptyString) (nth k (X j) EmptyString) then 1 else 0)).
  intros k _. apply (psd_same string_dec n (fun i => nth k (X i) EmptyString)).
Qed.

Lemma agree_null : forall n d X c, quad n (agree d X) c = 0 <-> forall k v, (k < d)%nat -> class_weight n X c k v = 0.
Proof.
  intros n d X c.
  assert (E := quad_rsum n d (fun k i j => if string_dec (nth k (X i) EmptyString) (nth k (X j) EmptyString) then 1 else 0) c).
  cbv beta in E. change (quad n (agree d X) c = rsum d (fun k =>
    quad n (fun i j => if string_dec (nth k (X i) EmptyString) (nth k (X j) EmptyString) then 1 else 0) c)) in E. rewrite E.
  split.
  - intros H k v Hk. apply (same_null n (fun i => nth k (X i) EmptyString) c).
    apply (rsum_nonneg_zero d _ (fun k _ => proj2 (psd_same string_dec n (fun i => nth k (X i) EmptyString)) c) H k Hk).
  - intros H. apply rsum_zero. intros k Hk. apply (same_null n (fun i => nth k (X i) EmptyString) c). intros v. now apply H.
Qed.

Lemma def_agree : forall n d X, pos_def n (agree d X) <->
  forall c, (forall k v, (k < d)%nat -> class_weight n X c k v = 0) -> forall i, (i < n)%nat -> c i = 0.
Proof.
  intros n d X. split.
  - intros [_ H] c HC i Hi. destruct (Req_dec (c i) 0) as [E|E]; [exact E|]. exfalso.
    assert (P := H c (ex_intro _ i (conj Hi E))). apply agree_null in HC. lra.
  - intros H. destruct (psd_agree n d X) as [HS HQ]. split; [exact HS|]. intros c (i & Hi & Hc).
    destruct (Rle_lt_or_eq_dec _ _ (HQ c)) as [L|E]; [exact L|]. exfalso. apply Hc. apply H; [|exact Hi].
    now apply agree_null.
Qed.

Lemma strings_iff : forall perc n d X, (1 <= d)%nat -> (forall i, (i < n)%nat -> length (X i) = d) ->
  (pos_def_strings (fun x y => match_call String.eqb perc DStr x DStr y) n X <-> pos_def n (agree d X)).
Proof.
  intros perc n d X Hd HX. assert (D : 0 < INR d) by (apply lt_0_INR; lia).
  assert (V : forall i j, (i < n)%nat -> (j < n)%nat -> match_call String.eqb perc DStr (vec (X i)) DStr (vec (X j))
     = Ok (Fin (if perc then / INR d * agree d X i j else agree d X i j))).
  { intros i j Hi Hj. destruct perc.
    - rewrite pf_C33_fraction; rewrite ?(HX i Hi), ?(HX j Hj); auto.
      rewrite (agreements_sum d) by auto. do 2 f_equal. unfold Rdiv. apply Rmult_comm.
    - rewrite pf_C33_count by now rewrite !HX. now rewrite (agreements_sum d) by auto. }
  split.
  - intros (K & HK & E). destruct perc.
    + apply (pos_def_ext n (fun i j => INR d * K i j)); [|now apply def_scal].
      intros i j Hi Hj. assert (E' := E i j Hi Hj). rewrite V in E' by assumption. injection E' as <-. field. lra.
    + apply (pos_def_ext n K); [|exact HK]. intros i j Hi Hj. assert (E' := E i j Hi Hj). rewrite V in E' by assumption.
      now injection E' as <-.
  - intros H. exists (fun i j => if perc then / INR d * agree d X i j else agree d X i j). split; [|exact V].
    destruct perc; [|exact H]. apply def_scal; [now apply Rinv_0_lt_compat|exact H].
Qed.

(** C111, MatchCountKernel, with or without return_perc: the matrix is positive definite exactly if the points have no
    weights, other than zeros, with which in every feature the weights of the points sharing a value sum to zero. *)
Lemma pf_C111_match : forall perc n d X, (1 <= d)%nat -> (forall i, (i < n)%nat -> length (X i) = d) ->
  (pos_def_strings (fun x y => match_call String.eqb perc DStr x DStr y) n X <->
   forall c, (forall k v, (k < d)%nat -> class_weight n X c k v = 0) -> forall i, (i < n)%nat -> c i = 0).
Proof. intros perc n d X Hd HX. now rewrite (strings_iff perc n d X Hd HX), def_agree. Qed.

(** C111, MatchCountKernel: it is if in one of the features all values are different. *)
Lemma pf_C111_match_feature : forall perc n d X k, (forall i, (i < n)%nat -> length (X i) = d) -> (k < d)%nat ->
  (forall i j, (i < n)%nat -> (j < n)%nat -> i <> j -> nth k (X i) EmptyString <> nth k (X j) EmptyString) ->
  pos_def_strings (fun x y => match_call String.eqb perc DStr x DStr y) n X.
Proof.
  intros perc n d X k HX Hk HD. apply (pf_C111_match perc n d X); [lia|exact HX|]. intros c HC i Hi.
  assert (E := HC k (nth k (X i) EmptyString) Hk). unfold class_weight in E.
  rewrite (rsum_ext n _ (fun l => if Nat.eqb l i then c l else 0)), rsum_delta in E; [exact E|exact Hi|]. clear E.
  intros l Hl. destruct (Nat.eqb_spec l i) as [->|N]; destruct (string_dec _ _) as [E|E]; try reflexivity; [congruence|].
  exfalso. now apply (HD l i Hl Hi N).
Qed.

(** C111, MatchCountKernel: it is not if two of the points are equal. *)
Lemma pf_C111_match_equal : forall perc n d X, (1 <= d)%nat -> (forall i, (i < n)%nat -> length (X i) = d) ->
  pos_def_strings (fun x y => match_call String.eqb perc DStr x DStr y) n X ->
  forall i j, (i < n)%nat -> (j < n)%nat -> i <> j -> X i <> X j.
Proof.
  intros perc n d X Hd HX H i j Hi Hj N E. apply (strings_iff perc n d X Hd HX) in H.
  destruct (two_points n (agree d X) i j Hi Hj N) as (c & Hc & Q). assert (P := proj2 H c Hc). rewrite Q in P.
  unfold agree in P. rewrite E in P. lra.
Qed.

(** C111: different points are not enough for MatchCountKernel: the four pairs of the letters a and b; three of them are. *)
Lemma pf_C111_match_refuted : forall perc, let X := fun i => nth i [["a"; "a"]; ["a"; "b"]; ["b"; "a"]; ["b"; "b"]]%string [] in
  (forall i j, (i < 4)%nat -> (j < 4)%nat -> i <> j -> X i <> X j) /\
  ~ pos_def_strings (fun x y => match_call String.eqb perc DStr x DStr y) 4 X /\
  pos_def_strings (fun x y => match_call String.eqb perc DStr x DStr y) 3 X.
Proof.
  intros perc X. split; [|split].
  - intros i j Hi Hj N. do 4 (destruct i as [|i]; [do 4 (destruct j as [|j]; [try contradiction; discriminate|]); lia|]). lia.
  - intros H.
    assert (HX : forall i, (i < 4)%nat -> length (X i) = 2%nat) by (intros i Hi; do 4 (destruct i as [|i]; [reflexivity|]); lia).
    assert (E := proj1 (pf_C111_match perc 4 2 X (le_S _ _ (le_n 1)) HX) H (fun i => match i with 0%nat | 3%nat => 1 | _ => -1 end)).
    assert (Z : (1 : R) = 0); [|lra]. apply (fun h => E h 0%nat (Nat.lt_0_succ 3)).
    intros k v Hk. unfold class_weight, X.
    destruct k as [|[|k]]; [| |lia]; cbn [rsum nth]; destruct (string_dec "a" v), (string_dec "b" v); lra.
  - apply (pf_C111_match perc 3 2 X); [lia| |].
    + intros i Hi. do 3 (destruct i as [|i]; [reflexivity|]). lia.
    + intros c HC i Hi.
      assert (E0 := HC 0%nat "b"%string ltac:(lia)). assert (E1 := HC 1%nat "b"%string ltac:(lia)).
      assert (E2 := HC 0%nat "a"%string ltac:(lia)). unfold class_weight, X in E0, E1, E2. cbn in E0, E1, E2.
      do 3 (destruct i as [|i]; [lra|]). lia.
Qed.
