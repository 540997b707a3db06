(** Which samples have a positive definite kernel matrix, and how kernel values order points (C100), in exact
    arithmetic. *)
From Coq Require Import String List Arith ZArith Bool Reals Lra Lia Psatz.
Import ListNotations.
From Verif Require Import Prelude MatModel MatFacts UtilsModel XReal SpecLinAlg RSum PSDFacts OpsModel OpsFacts KernelsModel
  SpecKernels KernelFacts KernelProps KMXModel IndexModel KMModel SpecKM SpecSample SampleXProps SpecKMX KMProps KMXProps.
Local Open Scope R_scope.

(*BEGIN PROP*)
(** Positive definite: symmetric, and the quadratic form of every non-zero vector is positive. *)
Definition pos_def (n : nat) (A : nat -> nat -> R) : Prop :=
  symmetric n A /\ forall c, (exists i, (i < n)%nat /\ c i <> 0) -> 0 < quad n A c.

(** No two of the [n] points are the same. *)
Definition distinct (n d : nat) (X : nat -> nat -> R) : Prop :=
  forall i j, (i < n)%nat -> (j < n)%nat -> i <> j -> exists k, (k < d)%nat /\ X i k <> X j k.

(** The function [call] produces a positive definite matrix on the [n] points. *)
Definition pos_def_on (call : ndarray xr -> ndarray xr -> res xr) (n d : nat) (X : nat -> nat -> R) : Prop :=
  exists K, pos_def n K /\
    forall i j, (i < n)%nat -> (j < n)%nat -> call (fvec d (X i)) (fvec d (X j)) = Ok (Fin (K i j)).
(*END PROP*)

(** A vector with quadratic form zero is orthogonal to every further column. *)
Lemma null_vector : forall n A c, psd (S n) A -> quad n A c = 0 -> rsum n (fun i => c i * A i n) = 0.
Proof.
  intros n A c HP H0. assert (Ha : 0 <= A n n) by (apply (psd_diag (S n)); [exact HP|lia]).
  destruct HP as [HS HQ].
  set (s := rsum n (fun i => c i * A i n)).
  set (t := - s / (A n n + 1)).
  set (c' := fun k => if Nat.eqb k n then t else c k).
  assert (Hc : forall k, (k < n)%nat -> c' k = c k).
  { intros k Hk. unfold c'. destruct (Nat.eqb_spec k n); [lia|reflexivity]. }
  assert (Hcn : c' n = t) by (unfold c'; now rewrite Nat.eqb_refl).
  assert (E : quad (S n) A c' = quad n A c + 2 * t * s + t * t * A n n).
  { unfold quad. cbn [rsum]. rewrite rsum_plus. rewrite Hcn.
    rewrite (rsum_ext n (fun i => rsum n (fun j => c' i * A i j * c' j)) (fun i => rsum n (fun j => c i * A i j * c j))).
    2:{ intros i Hi. apply rsum_ext. intros j Hj. now rewrite !Hc. }
    rewrite (rsum_ext n (fun i => c' i * A i n * t) (fun i => c i * A i n * t)).
    2:{ intros i Hi. now rewrite Hc. }
    rewrite rsum_scal_r. fold s.
    rewrite (rsum_ext n (fun j => t * A n j * c' j) (fun j => t * (c j * A j n))).
    2:{ intros j Hj. rewrite Hc by exact Hj. rewrite (HS n j) by lia. ring. }
    rewrite rsum_scal. fold s. ring. }
  assert (H := HQ c'). rewrite E, H0 in H.
  assert (Hd : A n n + 1 <> 0) by lra.
  replace (0 + 2 * t * s + t * t * A n n) with (- (s * s) * ((A n n + 2) / ((A n n + 1) * (A n n + 1)))) in H
    by (unfold t; field; exact Hd).
  assert (0 < (A n n + 2) / ((A n n + 1) * (A n n + 1))).
  { apply Rdiv_lt_0_compat; nra. }
  assert (s * s = 0) by (assert (0 <= s * s) by apply Rle_0_sqr; nra).
  now apply Rsqr_0_uniq.
Qed.

(** [z] as a further point. *)
Definition with_point (n : nat) (X : nat -> nat -> R) (z : nat -> R) (i : nat) : nat -> R :=
  if (i <? n)%nat then X i else z.

Lemma null_function : forall n X c (k : (nat -> R) -> (nat -> R) -> R) z,
  (forall Y, psd (S n) (fun i j => k (Y i) (Y j))) ->
  quad n (fun i j => k (X i) (X j)) c = 0 -> rsum n (fun i => c i * k (X i) z) = 0.
Proof.
  intros n X c k z HP H0.
  assert (W : forall i, (i < n)%nat -> with_point n X z i = X i).
  { intros i Hi. unfold with_point. apply Nat.ltb_lt in Hi. now rewrite Hi. }
  assert (Wn : with_point n X z n = z) by (unfold with_point; now rewrite Nat.ltb_irrefl).
  assert (H := null_vector n (fun i j => k (with_point n X z i) (with_point n X z j)) c (HP (with_point n X z))).
  cbv beta in H. rewrite Wn in H.
  rewrite <- H.
  - apply rsum_ext. intros i Hi. now rewrite W.
  - rewrite <- H0. apply quad_ext; [|reflexivity]. intros i j Hi Hj. now rewrite !W.
Qed.

(** ** Gaussian *)

Definition shifted (z : nat -> R) (k : nat) (l : nat) : R := if Nat.eqb l k then z l + 1 else z l.

Lemma dist2_shift : forall d x z k, (k < d)%nat ->
  dist2 d x (shifted z k) = dist2 d x z - 2 * x k + (2 * z k + 1).
Proof.
  intros d x z k Hk. unfold dist2.
  rewrite (rsum_ext d _ (fun l => (x l - z l) * (x l - z l) +
            (if Nat.eqb l k then - 2 * x l + (2 * z l + 1) else 0))).
  - rewrite rsum_plus, rsum_delta by exact Hk. ring.
  - intros l _. unfold shifted. destruct (Nat.eqb l k); ring.
Qed.

Section Gaussian.
  Variables (g : R) (n d : nat) (X : nat -> nat -> R) (c : nat -> R).
  Hypothesis g_pos : 0 < g.
  Let S (h : nat -> R) : Prop := forall z, rsum n (fun l => c l * h l * exp (- g * dist2 d (X l) z)) = 0.

  Lemma S_coordinate : forall h k, (k < d)%nat -> S h -> S (fun l => h l * exp (2 * g * X l k)).
  Proof.
    intros h k Hk H z. specialize (H (shifted z k)).
    rewrite (rsum_ext n _ (fun l => c l * (h l * exp (2 * g * X l k)) * exp (- g * dist2 d (X l) z)
                                     * exp (- g * (2 * z k + 1)))) in H.
    - rewrite rsum_scal_r in H. apply Rmult_integral in H. destruct H as [H|H]; [exact H|].
      exfalso. assert (P := exp_pos (- g * (2 * z k + 1))). lra.
    - intros l _. rewrite dist2_shift by exact Hk.
      replace (- g * (dist2 d (X l) z - 2 * X l k + (2 * z k + 1)))
        with (2 * g * X l k + - g * dist2 d (X l) z + - g * (2 * z k + 1)) by ring.
      rewrite !exp_plus. ring.
  Qed.

  Lemma S_factor : forall h k b, (k < d)%nat -> S h -> S (fun l => h l * (exp (2 * g * X l k) - b)).
  Proof.
    intros h k b Hk H z. assert (H1 := S_coordinate h k Hk H z). assert (H2 := H z).
    rewrite (rsum_ext n _ (fun l => c l * (h l * exp (2 * g * X l k)) * exp (- g * dist2 d (X l) z)
                                    - b * (c l * h l * exp (- g * dist2 d (X l) z)))) by (intros; ring).
    rewrite rsum_minus, rsum_scal, H1, H2. ring.
  Qed.

  Lemma separating : forall i m, (m <= n)%nat -> (i < n)%nat -> distinct n d X -> S (fun _ => 1) ->
    exists h, S h /\ h i <> 0 /\ forall l, (l < m)%nat -> l <> i -> h l = 0.
  Proof.
    intros i m Hm Hi HD H1. induction m as [|m IH].
    - exists (fun _ => 1). split; [exact H1|]. split; [lra|]. intros l Hl. lia.
    - destruct IH as (h & HS & Hhi & Hz); [lia|].
      destruct (Nat.eq_dec m i) as [->|Hmi].
      + exists h. split; [exact HS|]. split; [exact Hhi|]. intros l Hl Hli. apply Hz; lia.
      + destruct (HD i m) as (k & Hk & Hne); [lia|lia|auto|].
        exists (fun l => h l * (exp (2 * g * X l k) - exp (2 * g * X m k))).
        split; [now apply S_factor|]. split.
        * apply Rmult_integral_contrapositive_currified; [exact Hhi|].
          intros E. apply Rminus_diag_uniq in E. apply exp_inv in E. apply Hne. nra.
        * intros l Hl Hli. destruct (Nat.eq_dec l m) as [->|Hlm]; [ring|].
          rewrite Hz by lia. ring.
  Qed.
End Gaussian.

Lemma gaussian_independent : forall g n d X c, 0 < g -> distinct n d X ->
  (forall z, rsum n (fun l => c l * exp (- g * dist2 d (X l) z)) = 0) ->
  forall i, (i < n)%nat -> c i = 0.
Proof.
  intros g n d X c Hg HD H i Hi.
  destruct (separating g n d X c Hg i n (le_n n) Hi HD) as (h & HS & Hhi & Hz).
  - intros z. rewrite <- (H z). apply rsum_ext. intros; ring.
  - specialize (HS (fun _ => 0)).
    rewrite (rsum_ext n _ (fun l => if Nat.eqb l i then c l * h l * exp (- g * dist2 d (X l) (fun _ => 0)) else 0)) in HS.
    2:{ intros l Hl. destruct (Nat.eqb_spec l i) as [->|N]; [reflexivity|]. rewrite Hz by assumption. ring. }
    rewrite (rsum_delta n i (fun l => c l * h l * exp (- g * dist2 d (X l) (fun _ => 0)))) in HS by exact Hi.
    assert (P := exp_pos (- g * dist2 d (X i) (fun _ => 0))).
    apply Rmult_integral in HS. destruct HS as [HS|HS]; [|lra].
    apply Rmult_integral in HS. destruct HS as [HS|HS]; [exact HS|contradiction].
Qed.

(** ** Laplacian *)

Lemma gap : forall n (s : nat -> R), exists h, 0 < h /\ forall j, (j < n)%nat -> s j = 0 \/ h <= Rabs (s j).
Proof.
  induction n as [|n IH]; intros s; [exists 1; split; [lra|intros; lia]|].
  destruct (IH s) as (h & Hh & H).
  destruct (Req_dec (s n) 0) as [E|E].
  - exists h. split; [exact Hh|]. intros j Hj. destruct (Nat.eq_dec j n) as [->|]; [now left|]. apply H. lia.
  - exists (Rmin h (Rabs (s n))). split.
    + apply Rmin_glb_lt; [exact Hh|]. now apply Rabs_pos_lt.
    + intros j Hj. destruct (Nat.eq_dec j n) as [->|].
      * right. apply Rmin_r.
      * destruct (H j) as [Z|Z]; [lia|now left|]. right. eapply Rle_trans; [apply Rmin_l|exact Z].
Qed.

(** The second difference with step [h] at 0 of exp(-g|s - .|), corrected by 2 cosh(g h). *)
Definition kink (g h s : R) : R :=
  exp (- g * Rabs (s - h)) + exp (- g * Rabs (s + h)) - (exp (g * h) + exp (- g * h)) * exp (- g * Rabs s).

Lemma kink_far : forall g h s, 0 < h -> h <= Rabs s -> kink g h s = 0.
Proof.
  intros g h s Hh Hs. unfold kink.
  assert (E : Rabs (s - h) = Rabs s - h /\ Rabs (s + h) = Rabs s + h \/
              Rabs (s - h) = Rabs s + h /\ Rabs (s + h) = Rabs s - h).
  { unfold Rabs in *. destruct (Rcase_abs s), (Rcase_abs (s - h)), (Rcase_abs (s + h)); lra. }
  replace ((exp (g * h) + exp (- g * h)) * exp (- g * Rabs s))
    with (exp (g * h + - g * Rabs s) + exp (- g * h + - g * Rabs s)) by (rewrite !exp_plus; ring).
  destruct E as [[-> ->]|[-> ->]].
  - replace (- g * (Rabs s - h)) with (g * h + - g * Rabs s) by ring.
    replace (- g * (Rabs s + h)) with (- g * h + - g * Rabs s) by ring. ring.
  - replace (- g * (Rabs s - h)) with (g * h + - g * Rabs s) by ring.
    replace (- g * (Rabs s + h)) with (- g * h + - g * Rabs s) by ring. ring.
Qed.

Lemma kink_zero : forall g h, 0 < g -> 0 < h -> kink g h 0 < 0.
Proof.
  intros g h Hg Hh. unfold kink. rewrite Rabs_R0, Rmult_0_r, exp_0.
  replace (0 - h) with (- h) by ring. rewrite Rplus_0_l, Rabs_Ropp, Rabs_pos_eq by lra.
  assert (exp (- g * h) < exp (g * h)) by (apply exp_increasing; nra). lra.
Qed.

Definition placed (z : nat -> R) (k : nat) (v : R) (l : nat) : R := if Nat.eqb l k then v else z l.

Lemma dist1_placed : forall d x z v, dist1 (S d) x (placed z d v) = dist1 d x z + Rabs (x d - v).
Proof.
  intros d x z v. unfold dist1. cbn [rsum]. unfold placed at 2. rewrite Nat.eqb_refl. f_equal.
  apply rsum_ext. intros l Hl. unfold placed. destruct (Nat.eqb_spec l d); [lia|reflexivity].
Qed.

Lemma laplacian_independent : forall g n X i, 0 < g -> (i < n)%nat -> forall d w,
  (forall j, (j < n)%nat -> j <> i -> w j = 0 \/ exists k, (k < d)%nat /\ X j k <> X i k) ->
  (forall z, rsum n (fun j => w j * exp (- g * dist1 d (X j) z)) = 0) -> w i = 0.
Proof.
  intros g n X i Hg Hi d. induction d as [|d IH]; intros w HW H.
  - specialize (H (fun _ => 0)).
    rewrite (rsum_ext n _ (fun j => if Nat.eqb j i then w j else 0)) in H.
    + now rewrite rsum_delta in H by exact Hi.
    + intros j Hj. unfold dist1. cbn [rsum]. rewrite Rmult_0_r, exp_0, Rmult_1_r.
      destruct (Nat.eqb_spec j i) as [->|N]; [reflexivity|]. destruct (HW j Hj N) as [Z|(k & Hk & _)]; [exact Z|lia].
  - set (w' := fun j => if Req_EM_T (X j d) (X i d) then w j else 0).
    assert (Wi : w' i = w i) by (unfold w'; destruct (Req_EM_T (X i d) (X i d)); congruence).
    rewrite <- Wi. apply IH.
    + intros j Hj N. unfold w'. destruct (Req_EM_T (X j d) (X i d)) as [E|E]; [|now left].
      destruct (HW j Hj N) as [Z|(k & Hk & D)]; [now left|]. right. exists k. split; [|exact D].
      destruct (Nat.eq_dec k d) as [->|]; [contradiction|lia].
    + intros z. destruct (gap n (fun j => X j d - X i d)) as (h & Hh & Hgap).
      assert (H0 := H (placed z d (X i d))). assert (H1 := H (placed z d (X i d + h))).
      assert (H2 := H (placed z d (X i d - h))).
      assert (E : rsum n (fun j => w' j * exp (- g * dist1 d (X j) z) * kink g h 0) = 0).
      { rewrite (rsum_ext n _ (fun j => w j * exp (- g * dist1 (S d) (X j) (placed z d (X i d + h)))
                                 + w j * exp (- g * dist1 (S d) (X j) (placed z d (X i d - h)))
                                 - (exp (g * h) + exp (- g * h)) * (w j * exp (- g * dist1 (S d) (X j) (placed z d (X i d)))))).
        - rewrite rsum_minus, rsum_plus, rsum_scal, H0, H1, H2. ring.
        - intros j Hj. rewrite !dist1_placed, !Rmult_plus_distr_l, !exp_plus.
          replace (X j d - (X i d + h)) with ((X j d - X i d) - h) by ring.
          replace (X j d - (X i d - h)) with ((X j d - X i d) + h) by ring.
          unfold w'. destruct (Req_EM_T (X j d) (X i d)) as [E|E].
          + rewrite E. replace (X i d - X i d) with 0 by ring. unfold kink. ring.
          + destruct (Hgap j Hj) as [Z|Z]; [lra|]. cbv beta in Z.
            assert (K := kink_far g h (X j d - X i d) Hh Z). unfold kink in K.
            transitivity (w j * exp (- g * dist1 d (X j) z) * 0); [ring|]. rewrite <- K. ring. }
      rewrite rsum_scal_r in E. assert (K := kink_zero g h Hg Hh).
      apply Rmult_integral in E. destruct E as [E|E]; [exact E|lra].
Qed.

(** ** Positive definiteness *)

Lemma zero_or_not : forall n (c : nat -> R), (forall i, (i < n)%nat -> c i = 0) \/ exists i, (i < n)%nat /\ c i <> 0.
Proof.
  induction n as [|n IH]; intros c; [left; intros; lia|].
  destruct (IH c) as [H|(i & Hi & H)]; [|right; exists i; split; [lia|exact H]].
  destruct (Req_dec (c n) 0) as [E|E]; [|right; exists n; split; [lia|exact E]].
  left. intros i Hi. destruct (Nat.eq_dec i n) as [->|]; [exact E|apply H; lia].
Qed.

Lemma definite : forall n X (k : (nat -> R) -> (nat -> R) -> R),
  (forall m Y, psd m (fun i j => k (Y i) (Y j))) ->
  (forall c, (forall z, rsum n (fun i => c i * k (X i) z) = 0) -> forall i, (i < n)%nat -> c i = 0) ->
  pos_def n (fun i j => k (X i) (X j)).
Proof.
  intros n X k HP HI. destruct (HP n X) as [HS HQ]. split; [exact HS|].
  intros c (i & Hi & Hc). destruct (Rle_lt_or_eq_dec _ _ (HQ c)) as [L|E]; [exact L|].
  exfalso. apply Hc. apply HI; [|exact Hi]. intros z. apply null_function; [intros Y; apply HP|]. now symmetry.
Qed.

Lemma two_points : forall n A i j, (i < n)%nat -> (j < n)%nat -> i <> j ->
  exists c, (exists l, (l < n)%nat /\ c l <> 0) /\ quad n A c = A i i - A i j - A j i + A j j.
Proof.
  intros n A i j Hi Hj N.
  set (c := fun l => (if Nat.eqb l i then 1 else 0) - (if Nat.eqb l j then 1 else 0)).
  assert (D : forall f, rsum n (fun l => c l * f l) = f i - f j).
  { intros f. rewrite (rsum_ext n _ (fun l => (if Nat.eqb l i then f l else 0) - (if Nat.eqb l j then f l else 0))).
    - now rewrite rsum_minus, !rsum_delta by assumption.
    - intros l _. unfold c. destruct (Nat.eqb l i), (Nat.eqb l j); ring. }
  exists c. split.
  - exists i. split; [exact Hi|]. unfold c. rewrite Nat.eqb_refl. destruct (Nat.eqb_spec i j); [contradiction|lra].
  - unfold quad. rewrite (rsum_ext n _ (fun a => c a * (A a i - A a j))).
    + rewrite D. ring.
    + intros a _. rewrite <- (D (fun b => A a b)), <- rsum_scal. apply rsum_ext. intros; ring.
Qed.

Lemma not_definite : forall n d X A, (forall i j, (i < n)%nat -> (j < n)%nat ->
    (forall k, (k < d)%nat -> X i k = X j k) -> A i i = A i j /\ A j i = A j j) ->
  pos_def n A -> distinct n d X.
Proof.
  intros n d X A HA [HS HD] i j Hi Hj N.
  assert (F : forall m, (forall k, (k < m)%nat -> X i k = X j k) \/ exists k, (k < m)%nat /\ X i k <> X j k).
  { induction m as [|m IH]; [left; intros; lia|].
    destruct IH as [H|(k & Hk & H)]; [|right; exists k; split; [lia|exact H]].
    destruct (Req_dec (X i m) (X j m)) as [E|E]; [|right; exists m; split; [lia|exact E]].
    left. intros k Hk. destruct (Nat.eq_dec k m) as [->|]; [exact E|apply H; lia]. }
  destruct (F d) as [H|H]; [|exact H]. exfalso.
  destruct (HA i j Hi Hj H) as [E1 E2].
  destruct (two_points n A i j Hi Hj N) as (c & Hc & Q). specialize (HD c Hc). rewrite Q in HD. lra.
Qed.

Lemma dist2_same : forall d x y z, (forall k, (k < d)%nat -> x k = y k) -> dist2 d z x = dist2 d z y.
Proof. intros. apply rsum_ext. intros k Hk. now rewrite H. Qed.
Lemma dist1_same : forall d x y z, (forall k, (k < d)%nat -> x k = y k) -> dist1 d z x = dist1 d z y.
Proof. intros. apply rsum_ext. intros k Hk. now rewrite H. Qed.

Lemma gaussian_definite_iff : forall g n d X, 0 < g ->
  (pos_def n (fun i j => exp (- g * dist2 d (X i) (X j))) <-> distinct n d X).
Proof.
  intros g n d X Hg. split.
  - apply not_definite. intros i j Hi Hj H. split; do 2 f_equal; now apply dist2_same.
  - intros HD. apply (definite n X (fun x y => exp (- g * dist2 d x y))).
    + intros m Y. apply psd_gaussian. lra.
    + intros c H. now apply (gaussian_independent g n d X).
Qed.

Lemma laplacian_definite_iff : forall g n d X, 0 < g ->
  (pos_def n (fun i j => exp (- g * dist1 d (X i) (X j))) <-> distinct n d X).
Proof.
  intros g n d X Hg. split.
  - apply not_definite. intros i j Hi Hj H. split; do 2 f_equal; now apply dist1_same.
  - intros HD. apply (definite n X (fun x y => exp (- g * dist1 d x y))).
    + intros m Y. apply psd_laplacian. lra.
    + intros c H i Hi. apply (laplacian_independent g n X i Hg Hi d c); [|exact H].
      intros j Hj N. right. now apply HD.
Qed.

Lemma pos_def_ext : forall n A B, (forall i j, (i < n)%nat -> (j < n)%nat -> A i j = B i j) -> pos_def n A -> pos_def n B.
Proof.
  intros n A B H [HS HD]. split.
  - intros i j Hi Hj. rewrite <- !H by assumption. now apply HS.
  - intros c Hc. rewrite <- (quad_ext n A B c c); [now apply HD|exact H|reflexivity].
Qed.

Lemma on_iff : forall call n d X A,
  (forall i j, (i < n)%nat -> (j < n)%nat -> call (fvec d (X i)) (fvec d (X j)) = Ok (Fin (A i j))) ->
  (pos_def_on call n d X <-> pos_def n A).
Proof.
  intros call n d X A H. split.
  - intros (K & HP & HK). apply (pos_def_ext n K A); [|exact HP]. intros i j Hi Hj.
    assert (E := HK i j Hi Hj). rewrite H in E by assumption. now injection E as ->.
  - intros HP. exists A. now split.
Qed.

(** C100: the matrix of a GaussianKernel (of any bandwidth but NaN) is positive definite exactly if no two of
    the points are the same. *)
Lemma pf_C100_gaussian : forall cast sigma n d X, sigma <> NaN ->
  (pos_def_on (fun x y => kernel_call cast (KGaussian sigma) DFloat x DFloat y) n d X <-> distinct n d X).
Proof.
  intros cast sigma n d X Hs. destruct (gaussian_gamma_bounds sigma Hs) as (g & Hg & Hb & _).
  assert (Hpos : 0 < g) by (pose proof eps_pos; lra).
  rewrite (on_iff _ n d X (fun i j => exp (- g * dist2 d (X i) (X j)))).
  - now apply gaussian_definite_iff.
  - intros i j _ _. rewrite call_fvec. now apply gaussian_value.
Qed.

(** C100: so is that of a LaplacianKernel with gamma > 0. *)
Lemma pf_C100_laplacian : forall cast gamma n d X, 0 < gamma ->
  (pos_def_on (fun x y => kernel_call cast (KLaplacian gamma) DFloat x DFloat y) n d X <-> distinct n d X).
Proof.
  intros cast gamma n d X Hg. rewrite (on_iff _ n d X (fun i j => exp (- gamma * dist1 d (X i) (X j)))).
  - now apply laplacian_definite_iff.
  - intros i j _ _. rewrite call_fvec. apply laplacian_value.
Qed.

(** C100: the same for kernel matrices, normalised or not, after any history (without the two sparse accesses
    when not normalised): full is positive definite exactly if no two rows of the sample are the same. *)
Lemma pf_C100_matrix :
  forall {U} k nrm (pre post : list (op xr U)) n d X,
    (exists sigma, k = KGaussian sigma /\ sigma <> NaN) \/ (exists gamma, k = KLaplacian gamma /\ 0 < gamma) ->
    no_attach post -> (nrm = true \/ (no_full_sparse post /\ no_whole_index n n post)) ->
    exists B,
      outcome xN OpFull (after xN (builtin k) nrm pre (rsample n d X) None post)
      = Ok (OArr (mkArr Dense (rmat n n B))) /\ (pos_def n B <-> distinct n d X).
Proof.
  intros U k nrm pre post n d X Hk Hno Hcase.
  assert (HE : exists A, finite_on k d n n X X A /\ symmetric n A /\ (forall i, A i i = 1) /\
                 (pos_def n A <-> distinct n d X)).
  { destruct Hk as [(sigma & -> & Hs)|(gamma & -> & Hg)].
    - destruct (gaussian_gamma_bounds sigma Hs) as (g & Hg & Hb & _).
      assert (Hpos : 0 < g) by (pose proof eps_pos; lra).
      exists (fun i j => exp (- g * dist2 d (X i) (X j))). split; [|split; [|split]].
      + intros i j Hi Hj. apply (gaussian_value d (X i) (X j) sigma g Hg).
      + apply (psd_gaussian n d X g). lra.
      + intros i. now rewrite dist2_self, Rmult_0_r, exp_0.
      + now apply gaussian_definite_iff.
    - exists (fun i j => exp (- gamma * dist1 d (X i) (X j))). split; [|split; [|split]].
      + intros i j Hi Hj. apply laplacian_value.
      + apply (psd_laplacian n d X gamma). lra.
      + intros i. now rewrite dist1_self, Rmult_0_r, exp_0.
      + now apply laplacian_definite_iff. }
  destruct HE as (A & HA & Hsym & Hone & HD). exists A. split; [|exact HD].
  pose proof (rsample_total _ n d X A HA) as Hnr.
  pose proof (rsample_matrix _ n d X A HA Hsym) as HM.
  destruct nrm.
  - rewrite (pf_C03_value (builtin k) (valueOf k) pre post
       (rsample n d X) n d OpFull A Hnr eq_refl (rsample_adm n d X) Hno (or_introl eq_refl) HM).
    + do 3 f_equal. apply rmat_ext. intros i j Hi Hj. rewrite !Hone, Rmult_1_l, sqrt_1. field.
    + intros i Hi. rewrite Hone. lra.
  - destruct Hcase as [Hf|[Hfs Hwi]]; [discriminate|].
    rewrite (pf_C04_full_partial xN (builtin k) (valueOf k) pre post
       (rsample n d X) None n n d Hnr eq_refl (rsample_adm n d X) Hno Hfs Hwi), HM. reflexivity.
Qed.

(** More vectors than coordinates are linearly dependent. *)
Definition skip (p m i : nat) : nat := if Nat.eqb i p then m else i.

Lemma rsum_skip : forall m p F, (p <= m)%nat -> rsum (S m) F = rsum m (fun i => F (skip p m i)) + F p.
Proof.
  intros m p F Hp. cbn [rsum]. destruct (Nat.eq_dec p m) as [->|N].
  - f_equal. apply rsum_ext. intros i Hi. unfold skip. destruct (Nat.eqb_spec i m); [lia|reflexivity].
  - rewrite (rsum_ext m (fun i => F (skip p m i)) (fun i => F i + (if Nat.eqb i p then F m - F i else 0))).
    + rewrite rsum_plus, rsum_delta by lia. ring.
    + intros i Hi. unfold skip. destruct (Nat.eqb i p); ring.
Qed.

Lemma dependent : forall d n (X : nat -> nat -> R), (d < n)%nat ->
  exists c, (exists i, (i < n)%nat /\ c i <> 0) /\ forall k, (k < d)%nat -> rsum n (fun i => c i * X i k) = 0.
Proof.
  induction d as [|d IH]; intros n X Hd.
  - exists (fun _ => 1). split; [exists 0%nat; split; [lia|lra]|intros; lia].
  - destruct (zero_or_not n (fun i => X i d)) as [Z|(p & Hp & NZ)].
    + destruct (IH n X) as (c & Hc & H); [lia|]. exists c. split; [exact Hc|]. intros k Hk.
      destruct (Nat.eq_dec k d) as [->|]; [|apply H; lia].
      apply rsum_zero. intros i Hi. rewrite Z by exact Hi. ring.
    + destruct n as [|m]; [lia|].
      set (Y := fun i k => X (skip p m i) k - X (skip p m i) d / X p d * X p k).
      destruct (IH m Y) as (c & (q & Hq & Hcq) & H); [lia|].
      set (cp := - rsum m (fun i => c i * (X (skip p m i) d / X p d))).
      set (c' := fun i => if Nat.eqb i p then cp else if Nat.eqb i m then c p else c i).
      assert (E : forall i, (i < m)%nat -> c' (skip p m i) = c i).
      { intros i Hi. unfold c', skip. destruct (Nat.eqb_spec i p) as [->|N].
        - destruct (Nat.eqb_spec m p); [lia|]. now rewrite Nat.eqb_refl.
        - destruct (Nat.eqb_spec i p); [contradiction|]. destruct (Nat.eqb_spec i m); [lia|reflexivity]. }
      assert (Ep : c' p = cp) by (unfold c'; now rewrite Nat.eqb_refl).
      exists c'. split.
      * exists (skip p m q). split; [unfold skip; destruct (Nat.eqb q p); lia|]. now rewrite E.
      * intros k Hk. rewrite (rsum_skip m p) by lia. rewrite Ep.
        rewrite (rsum_ext m _ (fun i => c i * X (skip p m i) k)) by (intros i Hi; now rewrite E).
        destruct (Nat.eq_dec k d) as [->|N].
        -- unfold cp. rewrite <- Ropp_mult_distr_l. rewrite <- rsum_scal_r.
           rewrite (rsum_ext m (fun i => c i * (X (skip p m i) d / X p d) * X p d) (fun i => c i * X (skip p m i) d))
             by (intros i _; field; exact NZ). ring.
        -- assert (HY := H k ltac:(lia)). unfold Y in HY.
           rewrite (rsum_ext m _ (fun i => c i * X (skip p m i) k - c i * (X (skip p m i) d / X p d) * X p k)) in HY
             by (intros; ring).
           rewrite rsum_minus, rsum_scal_r in HY. unfold cp. lra.
Qed.

(** C100: not so a LinearKernel: on more points than features its matrix is never positive definite. *)
Lemma pf_C100_linear : forall cast n d X, (d < n)%nat ->
  ~ pos_def_on (fun x y => kernel_call cast KLinear DFloat x DFloat y) n d X.
Proof.
  intros cast n d X Hd H. apply (on_iff _ _ _ _ (fun i j => inner d (X i) (X j))) in H.
  - destruct H as [_ H]. destruct (dependent d n X Hd) as (c & Hc & Z). specialize (H c Hc).
    assert (Q : quad n (fun i j => inner d (X i) (X j)) c = 0); [|lra].
    unfold quad. apply rsum_zero. intros i Hi.
    rewrite (rsum_ext n _ (fun j => rsum d (fun k => c i * X i k * (c j * X j k)))).
    + rewrite rsum_swap. apply rsum_zero. intros k Hk. now rewrite rsum_scal, Z, Rmult_0_r.
    + intros j _. unfold inner. rewrite <- rsum_scal, <- rsum_scal_r. apply rsum_ext. intros; ring.
  - intros i j _ _. rewrite call_fvec. cbn [kernel_value]. now rewrite xdot_fin.
Qed.

(** ** Order *)

(*BEGIN PROP*)
(** Two results of kernels compared. *)
Definition res_le (a b : res xr) : Prop := exists r s, a = Ok (Fin r) /\ b = Ok (Fin s) /\ r <= s.
(*END PROP*)

Lemma res_le_fin : forall r s, res_le (Ok (Fin r)) (Ok (Fin s)) <-> r <= s.
Proof.
  intros r s. split; [|intros H; now exists r, s]. intros (r' & s' & E1 & E2 & H).
  injection E1 as ->. now injection E2 as ->.
Qed.

Lemma exp_le_iff : forall a b, exp a <= exp b <-> a <= b.
Proof.
  intros a b. split; intros H.
  - destruct (Rle_lt_dec a b) as [L|L]; [exact L|]. apply exp_increasing in L. lra.
  - destruct (Rle_lt_or_eq_dec a b H) as [L|L]; [left; now apply exp_increasing|now rewrite L; right].
Qed.

(** C100: the values of a GaussianKernel order pairs of points by their Euclidean distance, the closest
    first. *)
Lemma pf_C100_gaussian_order : forall cast sigma d x y x' y', sigma <> NaN ->
  (res_le (kernel_call cast (KGaussian sigma) DFloat (fvec d x) DFloat (fvec d y))
          (kernel_call cast (KGaussian sigma) DFloat (fvec d x') DFloat (fvec d y'))
   <-> dist2 d x' y' <= dist2 d x y).
Proof.
  intros cast sigma d x y x' y' Hs. destruct (gaussian_gamma_bounds sigma Hs) as (g & Hg & Hb & _).
  assert (Hpos : 0 < g) by (pose proof eps_pos; lra).
  rewrite !call_fvec, !(gaussian_value d _ _ sigma g Hg), res_le_fin, exp_le_iff. split; intros H; nra.
Qed.

(** C100: those of a LaplacianKernel by their Manhattan distance. *)
Lemma pf_C100_laplacian_order : forall cast gamma d x y x' y', 0 < gamma ->
  (res_le (kernel_call cast (KLaplacian gamma) DFloat (fvec d x) DFloat (fvec d y))
          (kernel_call cast (KLaplacian gamma) DFloat (fvec d x') DFloat (fvec d y'))
   <-> dist1 d x' y' <= dist1 d x y).
Proof.
  intros cast gamma d x y x' y' Hg.
  rewrite !call_fvec, !laplacian_value, res_le_fin, exp_le_iff. split; intros H; nra.
Qed.

(** C100: and those of a Chi2Kernel by the chi-squared statistic. *)
Lemma pf_C100_chi2_order : forall cast gamma d x y x' y', 0 < gamma ->
  (forall k, (k < d)%nat -> 0 <= x k /\ 0 <= y k /\ 0 <= x' k /\ 0 <= y' k) ->
  (res_le (kernel_call cast (KChi2 gamma) DFloat (fvec d x) DFloat (fvec d y))
          (kernel_call cast (KChi2 gamma) DFloat (fvec d x') DFloat (fvec d y'))
   <-> chi2stat d x' y' <= chi2stat d x y).
Proof.
  intros cast gamma d x y x' y' Hg HN.
  rewrite !pf_C30_value by (intros k Hk; apply HN; exact Hk).
  rewrite res_le_fin, exp_le_iff. split; intros H; nra.
Qed.

(** C100: LaplacianKernel (gamma > 0) gives 1 only for equal points, *)
Lemma pf_C100_laplacian_one : forall cast gamma d x y, 0 < gamma ->
  (kernel_call cast (KLaplacian gamma) DFloat (fvec d x) DFloat (fvec d y) = Ok (Fin 1)
   <-> forall k, (k < d)%nat -> x k = y k).
Proof.
  intros cast gamma d x y Hg. rewrite call_fvec, laplacian_value. split.
  - intros H. injection H as H. rewrite <- exp_0 in H. apply exp_inv in H.
    assert (D : dist1 d x y = 0) by nra. unfold dist1 in D. intros k Hk.
    assert (E := rsum_nonneg_zero d _ (fun i _ => Rabs_pos _) D k Hk). cbv beta in E.
    destruct (Req_dec (x k) (y k)) as [|N]; [assumption|]. exfalso.
    apply (Rabs_no_R0 (x k - y k)); [lra|exact E].
  - intros H. do 2 f_equal. replace (dist1 d x y) with 0; [now rewrite Rmult_0_r, exp_0|].
    symmetry. apply rsum_zero. intros k Hk. rewrite H by assumption. rewrite Rminus_diag_eq by reflexivity.
    apply Rabs_R0.
Qed.

(** C100: and so does Chi2Kernel. *)
Lemma pf_C100_chi2_one : forall cast gamma d x y, 0 < gamma ->
  (forall k, (k < d)%nat -> 0 <= x k /\ 0 <= y k) ->
  (kernel_call cast (KChi2 gamma) DFloat (fvec d x) DFloat (fvec d y) = Ok (Fin 1)
   <-> forall k, (k < d)%nat -> x k = y k).
Proof.
  intros cast gamma d x y Hg HN. rewrite pf_C30_value by (intros k Hk; apply HN; exact Hk).
  assert (T : forall k, (k < d)%nat ->
    0 <= (if Req_EM_T (x k + y k) 0 then 0 else (x k - y k) * (x k - y k) / (x k + y k))).
  { intros k Hk. destruct (HN k Hk). destruct (Req_EM_T (x k + y k) 0); [lra|].
    apply Rmult_le_pos; [apply Rle_0_sqr|]. left. apply Rinv_0_lt_compat. lra. }
  split.
  - intros H. injection H as H. rewrite <- exp_0 in H. apply exp_inv in H.
    assert (D : chi2stat d x y = 0) by nra. unfold chi2stat in D. intros k Hk.
    assert (E := rsum_nonneg_zero d _ T D k Hk). cbv beta in E. destruct (HN k Hk).
    destruct (Req_EM_T (x k + y k) 0) as [Z|Z]; [lra|].
    apply Rmult_integral in E. destruct E as [E|E].
    + apply Rmult_integral in E. lra.
    + exfalso. revert E. apply Rinv_neq_0_compat. exact Z.
  - intros H. do 2 f_equal. replace (chi2stat d x y) with 0; [now rewrite Rmult_0_r, exp_0|].
    symmetry. apply rsum_zero. intros k Hk. rewrite H by assumption.
    destruct (Req_EM_T (y k + y k) 0); [reflexivity|]. unfold Rdiv. ring.
Qed.

(** C100: a larger bandwidth never lowers a value of GaussianKernel. *)
Lemma pf_C100_bandwidth : forall cast s t d x y, s <= t ->
  res_le (kernel_call cast (KGaussian (Fin s)) DFloat (fvec d x) DFloat (fvec d y))
         (kernel_call cast (KGaussian (Fin t)) DFloat (fvec d x) DFloat (fvec d y)).
Proof.
  intros cast s t d x y H. assert (He := eps_pos).
  assert (Gs := gaussian_gamma_fin s). assert (Gt := gaussian_gamma_fin t).
  rewrite !call_fvec, (gaussian_value d x y _ _ Gs), (gaussian_value d x y _ _ Gt), res_le_fin, exp_le_iff.
  assert (D := dist2_nonneg d x y).
  set (a := Rmax float_eps s) in *. set (b := Rmax float_eps t) in *.
  assert (Ha : 0 < a) by (unfold a; assert (float_eps <= Rmax float_eps s) by apply Rmax_l; lra).
  assert (Hab : a <= b) by (apply Rle_max_compat_l; exact H).
  match goal with |- - ?u * _ <= - ?v * _ => assert (L : v <= u) end; [|nra].
  apply Rle_max_compat_l.
  apply Rmult_le_compat_l; [lra|]. apply Rinv_le_contravar; nra.
Qed.

(** C100: a larger gamma never raises one of LaplacianKernel or Chi2Kernel. *)
Lemma pf_C100_gamma : forall cast g h d x y, g <= h ->
  res_le (kernel_call cast (KLaplacian h) DFloat (fvec d x) DFloat (fvec d y))
         (kernel_call cast (KLaplacian g) DFloat (fvec d x) DFloat (fvec d y)) /\
  ((forall k, (k < d)%nat -> 0 <= x k /\ 0 <= y k) ->
   res_le (kernel_call cast (KChi2 h) DFloat (fvec d x) DFloat (fvec d y))
          (kernel_call cast (KChi2 g) DFloat (fvec d x) DFloat (fvec d y))).
Proof.
  intros cast g h d x y H. split.
  - rewrite !call_fvec, !laplacian_value, res_le_fin, exp_le_iff. assert (D := dist1_nonneg d x y). nra.
  - intros HN. rewrite !pf_C30_value by (intros k Hk; apply HN; exact Hk). rewrite res_le_fin, exp_le_iff.
    assert (D := chi2_nonneg d x y (fun k Hk => proj1 (HN k Hk)) (fun k Hk => proj2 (HN k Hk))). nra.
Qed.

Lemma tanh_le : forall a b, a <= b -> tanh a <= tanh b.
Proof.
  assert (F : forall r, tanh r = 1 - 2 / (exp (2 * r) + 1)).
  { intros r. unfold tanh, sinh, cosh. replace (2 * r) with (r + r) by ring. rewrite exp_plus, exp_Ropp.
    assert (P := exp_pos r). field. split; nra. }
  intros a b H. rewrite !F. assert (exp (2 * a) <= exp (2 * b)) by (apply exp_le_iff; lra).
  assert (P := exp_pos (2 * a)).
  assert (/ (exp (2 * b) + 1) <= / (exp (2 * a) + 1)) by (apply Rinv_le_contravar; lra). unfold Rdiv. lra.
Qed.

(** C100: SigmoidKernel with gamma >= 0 grows with the inner product, and so does PolyKernel with
    gamma, b >= 0 on points whose inner product is not negative. *)
Lemma pf_C100_inner : forall cast gamma b degree d x y x' y', 0 <= gamma -> inner d x y <= inner d x' y' ->
  res_le (kernel_call cast (KSigmoid gamma b) DFloat (fvec d x) DFloat (fvec d y))
         (kernel_call cast (KSigmoid gamma b) DFloat (fvec d x') DFloat (fvec d y')) /\
  (0 <= b -> 0 <= inner d x y ->
   res_le (kernel_call cast (KPoly degree gamma b) DFloat (fvec d x) DFloat (fvec d y))
          (kernel_call cast (KPoly degree gamma b) DFloat (fvec d x') DFloat (fvec d y'))).
Proof.
  intros cast gamma b degree d x y x' y' Hg H. rewrite !call_fvec, !poly_value. split.
  - cbn [kernel_value]. rewrite !xdot_fin. cbn [xmul xadd xtanh]. rewrite res_le_fin. apply tanh_le. nra.
  - intros Hb H0. rewrite res_le_fin. apply pow_incr. split; nra.
Qed.

(** C100: every kernel that is positive semidefinite on the points in question satisfies
    k(x,y)^2 <= k(x,x) k(y,y), and sqrt(k(x,x) + k(y,y) - 2 k(x,y)) satisfies the triangle inequality. *)
Lemma pf_C100_distance : forall call n d X K, psd_on call n d X ->
  (forall i j, (i < n)%nat -> (j < n)%nat -> call (fvec d (X i)) (fvec d (X j)) = Ok (Fin (K i j))) ->
  forall i j l, (i < n)%nat -> (j < n)%nat -> (l < n)%nat ->
    K i j * K i j <= K i i * K j j /\
    0 <= K i i + K j j - 2 * K i j /\
    sqrt (K i i + K l l - 2 * K i l) <= sqrt (K i i + K j j - 2 * K i j) + sqrt (K j j + K l l - 2 * K j l).
Proof.
  intros call n d X K (K' & HP & HK') HK i j l Hi Hj Hl.
  assert (HE : forall a b, (a < n)%nat -> (b < n)%nat -> K' a b = K a b).
  { intros a b Ha Hb. assert (E := HK' a b Ha Hb). rewrite HK in E by assumption. now injection E. }
  assert (HPK : psd n K) by (apply (psd_ext n K' K); [exact HE|exact HP]).
  split; [now apply (psd_minor n)|].
  assert (Q : forall u v w, 0 <= u * u * K i i + v * v * K j j + w * w * K l l
                             + 2 * u * v * K i j + 2 * v * w * K j l + 2 * u * w * K i l).
  { intros u v w.
    destruct (psd_sub n 3 K (fun k => match k with O => i | 1 => j | _ => l end)) as [HS HQ].
    - intros [|[|[|k]]] Hk; lia.
    - exact HPK.
    - specialize (HQ (fun k => match k with O => u | 1 => v | _ => w end)). unfold quad in HQ. cbn in HQ.
      destruct HPK as [Hs _]. rewrite (Hs j i), (Hs l i), (Hs l j) in HQ by assumption. nra. }
  assert (D1 : 0 <= K i i + K j j - 2 * K i j) by (specialize (Q 1 (-1) 0); nra).
  split; [exact D1|].
  assert (D2 : 0 <= K j j + K l l - 2 * K j l) by (specialize (Q 0 1 (-1)); nra).
  set (A := K i i + K j j - 2 * K i j) in *. set (B := K j j + K l l - 2 * K j l) in *.
  set (m := K i j + K j l - K i l - K j j).
  (* <i - j, j - l> = m *)
  assert (CS : forall s t, 0 <= s * s * A + 2 * s * t * m + t * t * B).
  { intros s t. specialize (Q s (t - s) (- t)). unfold A, B, m. nra. }
  assert (M : m <= sqrt A * sqrt B).
  { assert (SA := sqrt_pos A). assert (SB := sqrt_pos B).
    assert (EA := sqrt_sqrt A D1). assert (EB := sqrt_sqrt B D2).
    destruct (Rle_lt_dec m (sqrt A * sqrt B)) as [|L]; [assumption|]. exfalso.
    assert (m * m <= A * B).
    { destruct (Req_dec A 0) as [Z|Z].
      - destruct (Req_dec m 0) as [->|Zm]; [rewrite Z; lra|].
        exfalso. assert (C := CS (- (B + 1) / (2 * m)) 1). rewrite Z in C.
        replace (- (B + 1) / (2 * m) * (- (B + 1) / (2 * m)) * 0 + 2 * (- (B + 1) / (2 * m)) * 1 * m + 1 * 1 * B)
          with (-1) in C by (field; exact Zm). lra.
      - assert (C := CS (- m) A). assert (0 < A) by lra. nra. }
    assert (0 <= sqrt A * sqrt B) by nra.
    assert (m * m > (sqrt A * sqrt B) * (sqrt A * sqrt B)) by nra.
    replace ((sqrt A * sqrt B) * (sqrt A * sqrt B)) with ((sqrt A * sqrt A) * (sqrt B * sqrt B)) in * by ring.
    rewrite EA, EB in *. lra. }
  replace (K i i + K l l - 2 * K i l) with (A + B + 2 * m) by (unfold A, B, m; ring).
  rewrite <- (sqrt_square (sqrt A + sqrt B)) by (assert (S1 := sqrt_pos A); assert (S2 := sqrt_pos B); lra).
  apply sqrt_le_1_alt.
  replace ((sqrt A + sqrt B) * (sqrt A + sqrt B)) with (sqrt A * sqrt A + sqrt B * sqrt B + 2 * (sqrt A * sqrt B)) by ring.
  rewrite !sqrt_sqrt by assumption. lra.
Qed.

Lemma cosine_one : forall d x y s, 0 < inner d x x -> 0 < inner d y y -> s * s = 1 ->
  (inner d x y / sqrt (inner d x x * inner d y y) = s <->
   exists t, 0 < s * t /\ forall k, (k < d)%nat -> x k = t * y k).
Proof.
  intros d x y s Hx Hy Hs.
  set (a := sqrt (inner d x x)). set (b := sqrt (inner d y y)).
  assert (Ha : 0 < a) by now apply sqrt_lt_R0. assert (Hb : 0 < b) by now apply sqrt_lt_R0.
  assert (Ea : a * a = inner d x x) by (apply sqrt_sqrt; lra).
  assert (Eb : b * b = inner d y y) by (apply sqrt_sqrt; lra).
  rewrite sqrt_mult by lra. fold a b. split.
  - intros H. assert (E : inner d x y = s * (a * b)) by (rewrite <- H; field; lra).
    exists (s * a / b). split.
    + replace (s * (s * a / b)) with ((s * s) * (a / b)) by (field; lra). rewrite Hs, Rmult_1_l.
      apply Rdiv_lt_0_compat; assumption.
    + assert (D : rsum d (fun k => (b * x k - s * a * y k) * (b * x k - s * a * y k)) = 0).
      { rewrite (rsum_ext d _ (fun k => b * b * (x k * x k) - 2 * s * a * b * (x k * y k)
                                         + (s * s) * (a * a) * (y k * y k))) by (intros; ring).
        rewrite rsum_plus, rsum_minus, !rsum_scal. fold (inner d x x) (inner d x y) (inner d y y).
        rewrite <- Ea, <- Eb, E.
        replace (b * b * (a * a) - 2 * s * a * b * (s * (a * b)) + s * s * (a * a) * (b * b))
          with (a * a * (b * b) * (1 - s * s)) by ring. rewrite Hs. ring. }
      intros k Hk. assert (Z := rsum_nonneg_zero d _ (fun i _ => Rle_0_sqr _) D k Hk). cbv beta in Z.
      apply Rsqr_0_uniq in Z. apply (Rmult_eq_reg_l b); [|lra]. rewrite <- (Rplus_0_r (b * x k)).
      replace 0 with (- (b * x k - s * a * y k)) by lra. field. lra.
  - intros (t & Ht & H).
    assert (E1 : inner d x y = t * inner d y y).
    { unfold inner. rewrite <- rsum_scal. apply rsum_ext. intros k Hk. rewrite H by exact Hk. ring. }
    assert (E2 : inner d x x = t * t * inner d y y).
    { unfold inner. rewrite <- rsum_scal. apply rsum_ext. intros k Hk. rewrite H by exact Hk. ring. }
    assert (E3 : a = s * t * b).
    { assert (P : 0 < s * t * b) by (apply Rmult_lt_0_compat; assumption).
      assert (Q : a * a = (s * t * b) * (s * t * b)).
      { rewrite Ea, E2, <- Eb. replace (s * t * b * (s * t * b)) with ((s * s) * (t * t * (b * b))) by ring.
        rewrite Hs. ring. }
      nra. }
    assert (s <> 0) by (intros ->; lra). assert (t <> 0) by (intros ->; lra).
    rewrite E1, <- Eb, E3. replace (t * (b * b) / (s * t * b * b)) with (/ s) by (field; repeat split; lra || assumption).
    apply (Rmult_eq_reg_l s); [|assumption]. rewrite Rinv_r by assumption. now rewrite Hs.
Qed.

(** C100: a normalised KernelMatrix of the LinearKernel holds, after any history, the cosines of the angles
    between the points: 1 exactly for points in the same direction, -1 for opposite ones. *)
Lemma pf_C100_cosine :
  forall {U} (pre post : list (op xr U)) n d X, no_attach post ->
    (forall i, (i < n)%nat -> 1/100000000 < inner d (X i) (X i)) ->
    exists B,
      outcome xN OpFull (after xN (builtin KLinear) true pre (rsample n d X) None post)
      = Ok (OArr (mkArr Dense (rmat n n B))) /\
      forall i j, (i < n)%nat -> (j < n)%nat ->
        (B i j = 1 <-> exists t, 0 < t /\ forall k, (k < d)%nat -> X i k = t * X j k) /\
        (B i j = -1 <-> exists t, t < 0 /\ forall k, (k < d)%nat -> X i k = t * X j k).
Proof.
  intros U pre post n d X Hno Hp.
  set (A := fun i j => inner d (X i) (X j)).
  assert (HA : finite_on KLinear d n n X X A).
  { intros i j Hi Hj. unfold A. cbn [kernel_value]. now rewrite xdot_fin. }
  assert (Hsym : symmetric n A) by (intros i j _ _; apply inner_sym).
  pose proof (rsample_total _ n d X A HA) as Hnr.
  pose proof (rsample_matrix _ n d X A HA Hsym) as HM.
  exists (fun i j => A i j / sqrt (A i i * A j j)). split.
  - apply (pf_C03_value (builtin KLinear) (valueOf KLinear) pre post
       (rsample n d X) n d OpFull A Hnr eq_refl (rsample_adm n d X) Hno (or_introl eq_refl) HM).
    intros i Hi. unfold A. specialize (Hp i Hi). lra.
  - intros i j Hi Hj. assert (Hi' := Hp i Hi). assert (Hj' := Hp j Hj). unfold A.
    assert (C1 := cosine_one d (X i) (X j) 1 ltac:(lra) ltac:(lra) ltac:(lra)).
    assert (C2 := cosine_one d (X i) (X j) (-1) ltac:(lra) ltac:(lra) ltac:(lra)).
    rewrite C1, C2. split; split; intros (t & Ht & E); exists t; (split; [lra|exact E]).
Qed.

(** C100: the hypotheses are met by the points 0, 1, 2 (for definiteness), and by 1, 2, -1 (for directions). *)
Lemma pf_C100_example :
  distinct 3 1 (fun i _ => INR i) /\
  (forall cast, pos_def_on (fun x y => kernel_call cast (KGaussian (Fin 2)) DFloat x DFloat y) 3 1 (fun i _ => INR i)) /\
  ~ distinct 2 1 (fun _ _ => 5) /\
  (forall i, (i < 3)%nat -> 1/100000000 < inner 1 (fun _ => nth i [1; 2; -1] 0) (fun _ => nth i [1; 2; -1] 0)).
Proof.
  assert (D : distinct 3 1 (fun i _ => INR i)).
  { intros i j Hi Hj N. exists 0%nat. split; [lia|]. intros E. now apply INR_eq in E. }
  split; [exact D|]. split; [|split].
  - intros cast. apply pf_C100_gaussian; [discriminate|exact D].
  - intros H. destruct (H 0%nat 1%nat) as (k & _ & E); [lia|lia|lia|]. now apply E.
  - intros [|[|[|i]]] Hi; [| | |lia]; unfold inner; cbn; lra.
Qed.
