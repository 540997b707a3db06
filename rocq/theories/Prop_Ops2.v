(** Properties C25, C26: linear combinations and the PSD test.
    Generated by tools/split_props.py from OpsProps2.v: statements only, each closed by [exact]. *)
From Coq Require Import String Reals List Bool Arith Lra Lia Psatz.
Import ListNotations.
From Verif Require Import Prelude MatModel MatFacts XReal OpsModel SpecLinAlg RSum PSDFacts OpsFacts OpsProps.
From Verif Require Import OpsProps2.
Local Open Scope R_scope.

(** C25: without weight normalisation the result is the entrywise weighted sum of the members'
    full matrices. *)
Theorem C25_weighted_sum : forall n m p w K,
  linear_combination n m (map (fun k => Ok (rmat n m (K k))) (seq 0 p))
      (map (fun k => Fin (w k)) (seq 0 p)) false
  = Ok (rmat n m (fun i j => rsum p (fun k => w k * K k i j))).
Proof. exact (@pf_C25_weighted_sum). Qed.
Print Assumptions C25_weighted_sum.

(** C25: with norm_weights=True the weights are divided by their sum, so that they sum to 1. *)
Theorem C25_normalised : forall n m p w K, 1/100000000 < Rabs (rsum p w) ->
  linear_combination n m (map (fun k => Ok (rmat n m (K k))) (seq 0 p))
      (map (fun k => Fin (w k)) (seq 0 p)) true
  = Ok (rmat n m (fun i j => rsum p (fun k => w k / rsum p w * K k i j)))
  /\ rsum p (fun k => w k / rsum p w) = 1.
Proof. exact (@pf_C25_normalised). Qed.
Print Assumptions C25_normalised.

(** C25: normalising weights whose sum is within 1e-8 of zero raises RuntimeError; so does nothing
    else in the function itself. *)
Theorem C25_zero_sum : forall n m fulls w,
  length fulls = length w -> xisclose (xsum w) (Fin 0) = true ->
  linear_combination n m fulls w true = Raise RuntimeError.
Proof. exact (@pf_C25_zero_sum). Qed.
Print Assumptions C25_zero_sum.

(** C25: a wrong number of weights raises ValueError before any member is evaluated. *)
Theorem C25_wrong_count : forall n m fulls w nw,
  length fulls <> length w -> linear_combination n m fulls w nw = Raise ValueError.
Proof. exact (@pf_C25_wrong_count). Qed.
Print Assumptions C25_wrong_count.

(** C25: if some member's full matrix cannot be computed, the first such member's exception is
    raised. *)
Theorem C25_member_failure : forall n m p K e rest w,
  length w = (p + S (length rest))%nat ->
  linear_combination n m (map (fun k => Ok (rmat n m (K k))) (seq 0 p) ++ Raise e :: rest) w false
  = Raise e.
Proof. exact (@pf_C25_member_failure). Qed.
Print Assumptions C25_member_failure.

(** C25: non-negative combinations of positive semidefinite matrices are positive semidefinite. *)
Theorem C25_psd : forall n p w K,
  (forall k, (k < p)%nat -> 0 <= w k) -> (forall k, (k < p)%nat -> psd n (K k)) ->
  exists B, linear_combination n n (map (fun k => Ok (rmat n n (K k))) (seq 0 p))
      (map (fun k => Fin (w k)) (seq 0 p)) false = Ok (rmat n n B) /\ psd n B.
Proof. exact (@pf_C25_psd). Qed.
Print Assumptions C25_psd.

(** C25 on two concrete 2x2 matrices, weights 1 and 3, normalised to 1/4 and 3/4. *)
Example C25_example :
  linear_combination 2 2 [Ok (rmat 2 2 exP); Ok (rmat 2 2 (fun _ _ => 1))] [Fin 1; Fin 3] true
  = Ok (rmat 2 2 (fun i j => match (i + j)%nat with 0%nat => 5/4 | _ => 1 end)).
Proof.
  destruct (pf_C25_normalised 2 2 2 (fun k => match k with 0%nat => 1 | _ => 3 end)
    (fun k => match k with 0%nat => exP | _ => fun _ _ => 1 end)) as [E _].
  - simpl. rewrite Rabs_pos_eq; lra.
  - simpl map in E. rewrite E. f_equal. apply rmat_ext.
    intros [|[|i]] [|[|j]] Hi Hj; try lia; simpl; field.
Qed.

(** C26: if the eigensolver answers correctly on A, then is_PSD(A, tol) is True exactly when A is
    symmetric within the isclose tolerance and x'Ax >= -tol x'x for all x, where A is read through
    its lower triangle; and it answers False otherwise. *)
Theorem C26_decides : forall eig f n A l tol, f <> Lil ->
  eig (rmat n n A) = Ok (map (fun k => Fin (l k)) (seq 0 n)) -> eigenvalues_of n A l ->
  exists b, is_PSD eig (mkArr f (rmat n n A)) tol = Ok b /\
  (b = true <->
    (forall i j, (i < n)%nat -> (j < n)%nat ->
        Rabs (A i j - A j i) <= 1/100000000 + 1/100000 * Rabs (A j i))
    /\ (forall x, - tol * rsum n (fun i => x i * x i) <= quad n (lowsym A) x)).
Proof. exact (@pf_C26_decides). Qed.
Print Assumptions C26_decides.

(** C26: a failing eigensolver gives False. *)
Theorem C26_solver_failure : forall eig a tol e, afmt a <> Lil ->
  eig (amat a) = Raise e -> is_PSD eig a tol = Ok false.
Proof. exact (@pf_C26_solver_failure). Qed.
Print Assumptions C26_solver_failure.

(** C26: non-square matrices are not PSD; is_PSD raises (TypeError) only on non-ndarrays. *)
Theorem C26_total : forall eig a tol,
  (afmt a <> Lil -> exists b, is_PSD eig a tol = Ok b)
  /\ (afmt a = Lil -> is_PSD eig a tol = Raise TypeError)
  /\ (afmt a <> Lil -> mr (amat a) <> mc (amat a) -> is_PSD eig a tol = Ok false).
Proof. exact (@pf_C26_total). Qed.
Print Assumptions C26_total.

(** C26: on exactly symmetric matrices with tolerance 0, is_PSD decides positive
    semidefiniteness. *)
Theorem C26_exact : forall eig f n A l, f <> Lil -> symmetric n A ->
  eig (rmat n n A) = Ok (map (fun k => Fin (l k)) (seq 0 n)) -> eigenvalues_of n A l ->
  (is_PSD eig (mkArr f (rmat n n A)) 0 = Ok true <-> psd n A).
Proof. exact (@pf_C26_exact). Qed.
Print Assumptions C26_exact.

(** C26: the hypothesis on eigenvalues is met by [[0,1],[1,0]] with eigenvalues 1 and -1. *)
Example C26_example :
  eigenvalues_of 2 (fun i j => if Nat.eqb i j then 0 else 1)
                   (fun k => match k with 0%nat => 1 | _ => -1 end).
Proof.
  exists (fun i k => match i, k with 1%nat, 1%nat => - / sqrt 2 | _, _ => / sqrt 2 end).
  assert (H : / sqrt 2 * / sqrt 2 = 1/2).
  { rewrite <- Rinv_mult, sqrt_sqrt by lra. lra. }
  split; [|split]; intros [|[|i]] [|[|j]] Hi Hj; try lia; unfold lowsym; simpl; nra.
Qed.
(** ... and [[0,1],[1,0]] is accordingly found not PSD. *)
Example C26_example_not_psd : forall eig,
  eig (rmat 2 2 (fun i j => if Nat.eqb i j then 0 else 1)) = Ok [Fin 1; Fin (-1)] ->
  is_PSD eig (mkArr Dense (rmat 2 2 (fun i j => if Nat.eqb i j then 0 else 1))) (1/1000000) = Ok false.
Proof.
  intros eig He.
  destruct (pf_C26_decides eig Dense 2 (fun i j => if Nat.eqb i j then 0 else 1)
     (fun k => match k with 0%nat => 1 | _ => -1 end) (1/1000000)) as (b & -> & Hb).
  - discriminate.
  - exact He.
  - exact C26_example.
  - f_equal. destruct b; [|reflexivity]. exfalso. destruct Hb as [Hb _].
    destruct (Hb eq_refl) as [_ H]. specialize (H (fun i => match i with 0%nat => 1 | _ => -1 end)).
    unfold quad, lowsym in H. simpl in H. lra.
Qed.
