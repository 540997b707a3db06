(** Exactly which linear and polynomial kernel matrices are positive definite (C111), in exact arithmetic. *)
From Coq Require Import String List Arith ZArith Bool Reals Lra Lia Psatz.
Import ListNotations.
From Verif Require Import Prelude MatModel MatFacts UtilsModel XReal SpecLinAlg RSum PSDFacts OpsModel OpsFacts OpsProps KernelsModel
  SpecKernels KernelFacts KernelProps PosDefProps DefiniteProps PolyDefProps MatchDefProps.
Local Open Scope R_scope.

(*BEGIN PROP*)
(** The value at x of a product of affine functions; l = (a, w) stands for the function a + w . x. *)
Fixpoint affine_product (d : nat) (ls : list (R * (nat -> R))) (x : nat -> R) : R :=
  match ls with
  | [] => 1
  | (a, w) :: ls' => (a + inner d w x) * affine_product d ls' x
  end.
(*END PROP*)

Lemma affine_forms : forall d ls x, affine_product d ls x = forms d ls x.
Proof. intros d ls x. induction ls as [|[a w] ls IH]; [reflexivity|]. cbn [affine_product]. rewrite IH. reflexivity. Qed.

Lemma exactly : forall n A (P : (nat -> R) -> Prop), psd n A -> (forall c, quad n A c = 0 <-> P c) ->
  (pos_def n A <-> forall c, P c -> forall i, (i < n)%nat -> c i = 0).
Proof.
  intros n A P HP HN. split.
  - intros [_ H] c HC i Hi. destruct (Req_dec (c i) 0) as [E|E]; [exact E|]. exfalso.
    assert (Q := H c (ex_intro _ i (conj Hi E))). apply HN in HC. lra.
  - intros H. destruct HP as [HS HQ]. split; [exact HS|]. intros c (i & Hi & Hc).
    destruct (Rle_lt_or_eq_dec _ _ (HQ c)) as [L|E]; [exact L|]. exfalso. apply Hc. apply H; [|exact Hi]. now apply HN.
Qed.

Lemma powers : forall d b g (y : nat -> R) p x,
  forms d (repeat (b, fun k => g * y k) p) x = (b + g * inner d x y) ^ p.
Proof.
  intros d b g y p x. unfold forms. induction p as [|p IH]; [reflexivity|]. cbn [repeat map fold_right pow]. rewrite IH. f_equal.
  unfold form. cbn [fst snd]. f_equal. unfold inner. rewrite <- rsum_scal. apply rsum_ext. intros; ring.
Qed.

(** C111, PolyKernel (gamma > 0, b > 0): the matrix is positive definite exactly if the points have no weights, other
    than zeros, with which every product of degree affine functions sums to zero over the points. *)
Lemma pf_C111_poly_exact : forall cast degree gamma b n d X, 0 < gamma -> 0 < b ->
  (pos_def_on (fun x y => kernel_call cast (KPoly degree gamma b) DFloat x DFloat y) n d X <->
   forall c, (forall ls, length ls = degree -> rsum n (fun i => c i * affine_product d ls (X i)) = 0) ->
     forall i, (i < n)%nat -> c i = 0).
Proof.
  intros cast degree gamma b n d X Hg Hb.
  rewrite (on_iff _ n d X (fun i j => pk b gamma d X i j ^ degree)).
  2:{ intros i j _ _. rewrite call_fvec. apply poly_value. }
  apply exactly; [apply psd_pk; lra|]. intros c. split.
  - intros H ls <-. rewrite <- (null_forms n d b gamma X ls c Hb Hg H). apply rsum_ext. intros i _. now rewrite affine_forms.
  - intros H. unfold quad. rewrite rsum_swap. apply rsum_zero. intros j _.
    transitivity (rsum n (fun i => (c i * affine_product d (repeat (b, fun k => gamma * X j k) degree) (X i)) * c j)).
    + apply rsum_ext. intros i _. rewrite affine_forms, powers. reflexivity.
    + rewrite rsum_scal_r, H by apply repeat_length. ring.
Qed.

(** C111, LinearKernel: the matrix is positive definite exactly if the points are linearly independent. *)
Lemma pf_C111_linear : forall cast n d X,
  (pos_def_on (fun x y => kernel_call cast KLinear DFloat x DFloat y) n d X <->
   forall c, (forall k, (k < d)%nat -> rsum n (fun i => c i * X i k) = 0) -> forall i, (i < n)%nat -> c i = 0).
Proof.
  intros cast n d X. rewrite (on_iff _ n d X (fun i j => inner d (X i) (X j))).
  2:{ intros i j _ _. rewrite call_fvec. cbn [kernel_value]. now rewrite xdot_fin. }
  apply exactly; [apply psd_inner|]. intros c.
  assert (E : quad n (fun i j => inner d (X i) (X j)) c
              = rsum d (fun k => rsum n (fun i => c i * X i k) * rsum n (fun i => c i * X i k))).
  { unfold inner. rewrite (quad_rsum n d (fun k i j => X i k * X j k) c). apply rsum_ext. intros k _. unfold quad.
    rewrite <- rsum_scal_r. apply rsum_ext. intros i _. rewrite <- rsum_scal. apply rsum_ext. intros; ring. }
  rewrite E. split.
  - intros H k Hk. assert (Z := rsum_nonneg_zero d _ (fun k _ => Rle_0_sqr (rsum n (fun i => c i * X i k))) H k Hk).
    now apply Rsqr_0_uniq.
  - intros H. apply rsum_zero. intros k Hk. rewrite (H k Hk). ring.
Qed.

(** Two independent points of the plane, and a dependent third. *)
Lemma pf_C111_linear_example : forall cast, let X := fun i k => nth k (nth i [[1; 2]; [3; 4]; [4; 6]] []) 0 in
  pos_def_on (fun x y => kernel_call cast KLinear DFloat x DFloat y) 2 2 X /\
  ~ pos_def_on (fun x y => kernel_call cast KLinear DFloat x DFloat y) 3 2 X.
Proof.
  intros cast X. split.
  - apply pf_C111_linear. intros c H i Hi. assert (H0 := H 0%nat ltac:(lia)). assert (H1 := H 1%nat ltac:(lia)).
    unfold X in H0, H1. cbn [rsum nth] in H0, H1. do 2 (destruct i as [|i]; [lra|]). lia.
  - intros H. assert (E := proj1 (pf_C111_linear cast 3 2 X) H (fun i => nth i [1; 1; -1] 0)).
    assert (Z : (1 : R) = 0); [|lra]. apply (fun h => E h 0%nat (Nat.lt_0_succ 2)).
    intros k Hk. unfold X. destruct k as [|[|k]]; [| |lia]; cbn [rsum nth]; ring.
Qed.
