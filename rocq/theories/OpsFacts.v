(** Facts about the numerical operations on finite and arbitrary matrices. *)
From Coq Require Import String Reals List Bool Arith Lra Lia Psatz.
Import ListNotations.
From Verif Require Import Prelude MatModel MatFacts XReal OpsModel SpecLinAlg RSum PSDFacts.
Local Open Scope R_scope.

(** ** Finite matrices *)
Lemma xget_rmat : forall n m f i j, (i < n)%nat -> (j < m)%nat ->
  xget (rmat n m f) i j = Fin (f i j).
Proof. intros. unfold xget, rmat. now rewrite mget_tabulate. Qed.

Lemma rmat_ext : forall n m f g,
  (forall i j, (i < n)%nat -> (j < m)%nat -> f i j = g i j) -> rmat n m f = rmat n m g.
Proof. intros. apply tabulate_ext. intros. now rewrite H. Qed.

Lemma rmat_inj : forall n m f g, rmat n m f = rmat n m g ->
  forall i j, (i < n)%nat -> (j < m)%nat -> f i j = g i j.
Proof.
  intros n m f g H i j Hi Hj. assert (E : xget (rmat n m f) i j = xget (rmat n m g) i j) by now rewrite H.
  rewrite !xget_rmat in E by assumption. now injection E.
Qed.

Lemma matmul_rmat : forall n k m f g,
  matmul (rmat n k f) (rmat k m g) = rmat n m (fun i j => rsum k (fun l => f i l * g l j)).
Proof.
  intros n k m f g. unfold matmul. simpl mr. simpl mc. apply tabulate_ext. intros i j Hi Hj.
  apply xsum_fin_ext. intros l Hl. rewrite !xget_rmat by assumption. reflexivity.
Qed.

Lemma msum_rmat : forall n m f,
  msum (rmat n m f) = Fin (rsum n (fun i => rsum m (fun j => f i j))).
Proof.
  intros. unfold msum. simpl mr. simpl mc. apply xsum_fin_ext. intros i Hi.
  apply xsum_fin_ext. intros j Hj. now rewrite xget_rmat.
Qed.

(** ** Centering *)
Definition cI (n : nat) (i j : nat) : R := (if (i =? j)%nat then 1 else 0) - 1 / INR n.

Lemma center_matrix_rmat : forall n, center_matrix n = rmat n n (cI n).
Proof.
  intros n. apply tabulate_ext. intros i j Hi Hj.
  assert (INR n <> 0) by (apply not_0_INR; lia).
  unfold xdiv, cI. destruct (Req_EM_T (INR n) 0); [contradiction|].
  destruct (i =? j)%nat; simpl; f_equal; lra.
Qed.

Lemma cI_left : forall n f i, (i < n)%nat ->
  rsum n (fun k => cI n i k * f k) = f i - rsum n f / INR n.
Proof.
  intros n f i Hi. unfold cI.
  rewrite (rsum_ext n _ (fun k => (if (k =? i)%nat then f k else 0) - f k / INR n)).
  - rewrite rsum_minus, rsum_delta, rsum_div by assumption. reflexivity.
  - intros k _. rewrite (Nat.eqb_sym i k). destruct (k =? i)%nat; unfold Rdiv; ring.
Qed.

Lemma cI_sym : forall n i j, cI n i j = cI n j i.
Proof. intros. unfold cI. now rewrite Nat.eqb_sym. Qed.

Lemma cI_right : forall n f j, (j < n)%nat ->
  rsum n (fun k => f k * cI n k j) = f j - rsum n f / INR n.
Proof.
  intros n f j Hj. rewrite <- cI_left by assumption. apply rsum_ext. intros k _.
  rewrite cI_sym. ring.
Qed.

Lemma center_product : forall n A i j, (i < n)%nat -> (j < n)%nat ->
  rsum n (fun l => rsum n (fun k => cI n i k * A k l) * cI n l j) = centred n A i j.
Proof.
  intros n A i j Hi Hj.
  assert (Hn : INR n <> 0) by (apply not_0_INR; lia).
  rewrite (rsum_ext n _ (fun l => (A i l - colmean n A l) * cI n l j)).
  - rewrite (cI_right n (fun l => A i l - colmean n A l)) by assumption.
    rewrite rsum_minus. unfold centred, rowmean, allmean, colmean.
    rewrite (rsum_div n (INR n)).
    rewrite (rsum_swap n n (fun j0 i0 => A i0 j0)).
    change (rsum n (A i)) with (rsum n (fun j0 => A i j0)). field. assumption.
  - intros l _. rewrite (cI_left n (fun k => A k l)) by assumption. reflexivity.
Qed.

Lemma center_finite : forall f n A, f <> Lil ->
  center_km (mkArr f (rmat n n A)) = Ok (mkArr f (rmat n n (centred n A))).
Proof.
  intros f n A Hf. unfold center_km. cbn [amat afmt].
  replace (is_ndarray _) with true by (destruct f; [reflexivity|contradiction|reflexivity]).
  cbn [mr mc rmat tabulate]. rewrite Nat.eqb_refl. do 2 f_equal.
  change (tabulate n n (fun i j => Fin (A i j))) with (rmat n n A).
  rewrite center_matrix_rmat, !matmul_rmat. apply rmat_ext. intros. now apply center_product.
Qed.

Lemma centred_ext : forall n A B,
  (forall i j, (i < n)%nat -> (j < n)%nat -> A i j = B i j) ->
  forall i j, (i < n)%nat -> (j < n)%nat -> centred n A i j = centred n B i j.
Proof.
  intros n A B H i j Hi Hj. unfold centred, rowmean, colmean, allmean.
  rewrite H by assumption.
  rewrite (rsum_ext n (fun j0 => A i j0) (fun j0 => B i j0)) by auto.
  rewrite (rsum_ext n (fun i0 => A i0 j) (fun i0 => B i0 j)) by auto.
  rewrite (rsum_ext n (fun i0 => rsum n (fun j0 => A i0 j0)) (fun i0 => rsum n (fun j0 => B i0 j0))).
  - reflexivity.
  - intros. apply rsum_ext. auto.
Qed.

Lemma centred_row : forall n A i, (i < n)%nat -> rsum n (fun j => centred n A i j) = 0.
Proof.
  intros n A i Hi. assert (Hn : INR n <> 0) by (apply not_0_INR; lia).
  unfold centred. rewrite rsum_plus, !rsum_minus, !rsum_const.
  unfold rowmean, colmean, allmean. rewrite (rsum_div n (INR n)).
  rewrite (rsum_swap n n (fun j i => A i j)).
  change (rsum n (A i)) with (rsum n (fun j0 => A i j0)). field. assumption.
Qed.

Lemma centred_col : forall n A j, (j < n)%nat -> rsum n (fun i => centred n A i j) = 0.
Proof.
  intros n A j Hj. assert (Hn : INR n <> 0) by (apply not_0_INR; lia).
  unfold centred. rewrite rsum_plus, !rsum_minus, !rsum_const.
  unfold rowmean, colmean, allmean. rewrite (rsum_div n (INR n)). field. assumption.
Qed.

Lemma centred_idem : forall n A i j, (i < n)%nat -> (j < n)%nat ->
  centred n (centred n A) i j = centred n A i j.
Proof.
  intros n A i j Hi Hj. unfold centred at 1. unfold rowmean, colmean, allmean.
  rewrite centred_row, centred_col by assumption.
  rewrite rsum_zero; [unfold Rdiv; ring|]. intros; now apply centred_row.
Qed.

Lemma centred_shift : forall n A c i j, (i < n)%nat -> (j < n)%nat ->
  centred n (fun i j => A i j + c) i j = centred n A i j.
Proof.
  intros n A c i j Hi Hj. assert (Hn : INR n <> 0) by (apply not_0_INR; lia).
  unfold centred, rowmean, colmean, allmean.
  rewrite (rsum_plus n (fun j => A i j) (fun _ => c)), (rsum_plus n (fun i => A i j) (fun _ => c)).
  rewrite (rsum_ext n (fun i0 => rsum n (fun j0 => A i0 j0 + c))
            (fun i0 => rsum n (fun j0 => A i0 j0) + INR n * c)).
  - rewrite rsum_plus, !rsum_const. field. assumption.
  - intros. now rewrite rsum_plus, rsum_const.
Qed.

Lemma centred_scal : forall n A c i j,
  centred n (fun i j => c * A i j) i j = c * centred n A i j.
Proof.
  intros n A c i j. unfold centred, rowmean, colmean, allmean.
  rewrite (rsum_scal n c (fun j => A i j)), (rsum_scal n c (fun i => A i j)).
  rewrite (rsum_ext n (fun i0 => rsum n (fun j0 => c * A i0 j0))
            (fun i0 => c * rsum n (fun j0 => A i0 j0))).
  - rewrite rsum_scal. unfold Rdiv. ring.
  - intros. now rewrite rsum_scal.
Qed.

Lemma centred_sym : forall n A, symmetric n A -> symmetric n (centred n A).
Proof.
  intros n A H i j Hi Hj. unfold centred, rowmean, colmean.
  rewrite (H i j) by assumption.
  rewrite (rsum_ext n (fun j0 => A i j0) (fun j0 => A j0 i)) by auto.
  rewrite (rsum_ext n (fun i0 => A i0 j) (fun i0 => A j i0)) by auto. ring.
Qed.

Lemma centred_psd : forall n A, psd n A -> psd n (centred n A).
Proof.
  intros n A HA.
  apply (psd_ext n (fun i j => rsum n (fun k => rsum n (fun l => cI n k i * A k l * cI n l j)))).
  - intros i j Hi Hj. rewrite <- center_product by assumption. rewrite rsum_swap.
    apply rsum_ext. intros l _. rewrite <- rsum_scal_r. apply rsum_ext. intros k _.
    now rewrite (cI_sym n k i).
  - now apply psd_congr.
Qed.

(** ** Sums of arbitrary numbers *)
Lemma xadd_nan_r : forall a, xadd a NaN = NaN.
Proof. now destruct a. Qed.
Lemma xadd_0_l : forall a, xadd (Fin 0) a = a.
Proof. destruct a; simpl; try reflexivity. f_equal; ring. Qed.
Lemma xadd_0_r : forall a, xadd a (Fin 0) = a.
Proof. destruct a; simpl; try reflexivity. f_equal; ring. Qed.
Lemma xmul_nan_r : forall a, xmul a NaN = NaN.
Proof. now destruct a. Qed.
Lemma xmul_nan_l : forall a, xmul NaN a = NaN.
Proof. now destruct a. Qed.
Lemma xadd_comm : forall a b, xadd a b = xadd b a.
Proof. destruct a, b; simpl; try reflexivity. f_equal; ring. Qed.
Lemma xadd_assoc : forall a b c, xadd a (xadd b c) = xadd (xadd a b) c.
Proof. destruct a, b, c; simpl; try reflexivity. f_equal; ring. Qed.
Lemma xmul_comm : forall a b, xmul a b = xmul b a.
Proof. destruct a, b; simpl; try reflexivity. f_equal; ring. Qed.

Lemma xsum_nan : forall l, In NaN l -> xsum l = NaN.
Proof.
  induction l as [|a l IH]; [contradiction|]. intros [->|H]; unfold xsum; simpl.
  - reflexivity.
  - fold (xsum l). rewrite IH by assumption. apply xadd_nan_r.
Qed.

Lemma xsum_filter : forall {A} (p : A -> bool) (g : A -> xr) l,
  (forall a, In a l -> p a = false -> g a = Fin 0) ->
  xsum (map g (filter p l)) = xsum (map g l).
Proof.
  intros A p g. induction l as [|a l IH]; intros H; [reflexivity|]. simpl.
  destruct (p a) eqn:E; unfold xsum in *; simpl.
  - rewrite IH; auto. intros; apply H; simpl; auto.
  - rewrite (H a) by (simpl; auto). rewrite xadd_0_l. apply IH. intros; apply H; simpl; auto.
Qed.

Lemma nonzero_false : forall a, nonzero a = false -> a = Fin 0.
Proof.
  intros a H. unfold nonzero in H. apply negb_false_iff in H. destruct a; simpl in H; try discriminate.
  unfold Reqb in H. destruct (Req_EM_T r 0); [now subst|discriminate].
Qed.

(** A sum with at most one non-zero term. *)
Lemma xsum_single : forall n g i, (i < n)%nat ->
  (forall k, (k < n)%nat -> k <> i -> g k = Fin 0) ->
  xsum (map g (seq 0 n)) = g i.
Proof.
  assert (Z : forall l (g : nat -> xr), (forall k, In k l -> g k = Fin 0) -> xsum (map g l) = Fin 0).
  { induction l as [|a l IH]; intros g H; [reflexivity|]. unfold xsum in *. simpl.
    rewrite IH by (intros; apply H; simpl; auto). rewrite (H a) by (simpl; auto). apply xadd_0_l. }
  assert (G : forall l (g : nat -> xr) i, NoDup l -> In i l -> (forall k, In k l -> k <> i -> g k = Fin 0) ->
     xsum (map g l) = g i).
  { induction l as [|a l IH]; intros g i Hnd Hin H; [contradiction|].
    inversion Hnd as [|? ? Hna Hnd']; subst. change (xadd (g a) (xsum (map g l)) = g i).
    destruct Hin as [->|Hin].
    - rewrite Z; [apply xadd_0_r|]. intros k Hk. apply H; simpl; auto. now intros ->.
    - rewrite (H a); [|simpl; auto|now intros ->]. rewrite xadd_0_l. apply IH; auto.
      intros; apply H; simpl; auto. }
  intros n g i Hi H. apply G; [apply seq_NoDup|apply in_seq; lia|].
  intros k Hk. apply in_seq in Hk. apply H. lia.
Qed.

(** ** Scaling by diagonal matrices *)
Definition fin_or_nan (a : xr) : Prop := match a with Fin _ | NaN => True | _ => False end.

Lemma xget_diagflat : forall v i j, (i < length v)%nat -> (j < length v)%nat ->
  xget (diagflat v) i j = if (i =? j)%nat then nth i v NaN else Fin 0.
Proof. intros. unfold xget, diagflat. now rewrite mget_tabulate. Qed.

Lemma xmul_fin_0 : forall a, x_isfinite a = true -> xmul a (Fin 0) = Fin 0.
Proof. destruct a; simpl; intros; try discriminate. f_equal; ring. Qed.
Lemma xmul_0_fin : forall a, x_isfinite a = true -> xmul (Fin 0) a = Fin 0.
Proof. destruct a; simpl; intros; try discriminate. f_equal; ring. Qed.

(** Entries of [diagflat u @ A @ diagflat v] for finite [A]. *)
Lemma scale_finite : forall n m u v A, length u = n -> length v = m ->
  (forall i, (i < n)%nat -> fin_or_nan (nth i u NaN)) ->
  (forall i, (i < m)%nat -> fin_or_nan (nth i v NaN)) ->
  matmul (matmul (diagflat u) (rmat n m A)) (diagflat v)
  = tabulate n m (fun i j => xmul (xmul (nth i u NaN) (Fin (A i j))) (nth j v NaN)).
Proof.
  intros n m u v A Hu Hv Fu Fv.
  assert (Inner : forall i l, (i < n)%nat -> (l < m)%nat ->
    xget (matmul (diagflat u) (rmat n m A)) i l = xmul (nth i u NaN) (Fin (A i l))).
  { intros i l Hi Hl. unfold matmul. simpl mr. simpl mc. rewrite Hu.
    unfold xget at 1. rewrite mget_tabulate by assumption.
    rewrite (xsum_single n _ i Hi).
    - rewrite xget_diagflat, Nat.eqb_refl, xget_rmat by lia. reflexivity.
    - intros k Hk Hki. rewrite xget_diagflat, xget_rmat by lia.
      destruct (Nat.eqb_spec i k); [lia|]. simpl. f_equal; ring. }
  set (X := matmul (diagflat u) (rmat n m A)) in *.
  unfold matmul. change (mr X) with (length u). change (mc X) with m. change (mc (diagflat v)) with (length v).
  rewrite Hu, Hv. apply tabulate_ext. intros i j Hi Hj.
  assert (F := Fu i Hi). destruct (nth i u NaN) as [a| | |] eqn:Ei; try contradiction.
  - rewrite (xsum_single m _ j Hj).
    + rewrite Inner, Ei, xget_diagflat, Nat.eqb_refl by lia. reflexivity.
    + intros l Hl Hlj. rewrite Inner, Ei, xget_diagflat by lia.
      destruct (Nat.eqb_spec l j); [lia|]. apply xmul_fin_0. reflexivity.
  - rewrite xsum_nan; [reflexivity|]. apply in_map_iff. exists j. split.
    + rewrite Inner, Ei by lia. reflexivity.
    + apply in_seq. lia.
Qed.

Lemma length_inv_sqrt : forall v, length (inv_sqrt v) = length v.
Proof. intros. apply map_length. Qed.

(** Reciprocal square roots of numbers not close to zero. *)
Lemma isclose_zero : forall r, xisclose (Fin r) (Fin 0) = Rleb (Rabs r) (1/100000000).
Proof.
  intros r. simpl. rewrite Rminus_0_r, Rabs_R0. f_equal. lra.
Qed.

Lemma inv_sqrt_ok : forall x, xisclose x (Fin 0) = false -> fin_or_nan (xdiv (Fin 1) (xsqrt x)).
Proof.
  intros x H. destruct x; simpl; try exact I.
  rewrite isclose_zero in H. unfold Rleb in H. destruct (Rle_dec (Rabs r) (1/100000000)) as [|H']; [discriminate|].
  destruct (Rlt_dec r 0); simpl; [exact I|].
  destruct (Req_EM_T (sqrt r) 0) as [E|]; simpl; [|exact I].
  exfalso. apply H'. apply sqrt_eq_0 in E; [|lra]. subst. rewrite Rabs_R0. lra.
Qed.

Lemma any_zero_false : forall v, any_zero v = false ->
  forall i, (i < length v)%nat -> xisclose (nth i v NaN) (Fin 0) = false.
Proof.
  intros v H i Hi. unfold any_zero in H.
  destruct (xisclose (nth i v NaN) (Fin 0)) eqn:E; [|reflexivity].
  assert (T : existsb (fun x => xisclose x (Fin 0)) v = true).
  { apply existsb_exists. exists (nth i v NaN). split; [now apply nth_In|assumption]. }
  congruence.
Qed.

Lemma nth_inv_sqrt : forall v i, (i < length v)%nat ->
  nth i (inv_sqrt v) NaN = xdiv (Fin 1) (xsqrt (nth i v NaN)).
Proof.
  intros v i Hi. unfold inv_sqrt. rewrite (nth_indep _ NaN (xdiv (Fin 1) (xsqrt NaN))).
  - apply (map_nth (fun x => xdiv (Fin 1) (xsqrt x))).
  - now rewrite map_length.
Qed.

Lemma inv_sqrt_fin : forall v, any_zero v = false ->
  forall i, (i < length v)%nat -> fin_or_nan (nth i (inv_sqrt v) NaN).
Proof.
  intros v H i Hi. rewrite nth_inv_sqrt by assumption. apply inv_sqrt_ok.
  now apply any_zero_false.
Qed.

Lemma length_diagonal : forall A, length (diagonal_of A) = Nat.min (mr A) (mc A).
Proof. intros. unfold diagonal_of. now rewrite map_length, seq_length. Qed.

Lemma nth_diagonal : forall A i, (i < Nat.min (mr A) (mc A))%nat ->
  nth i (diagonal_of A) NaN = xget A i i.
Proof. intros A i Hi. unfold diagonal_of. now rewrite nth_map_seq. Qed.

(** Reciprocal square root of a finite non-zero number. *)
Definition invs (r : R) : xr := if Rlt_dec r 0 then NaN else Fin (/ sqrt r).

Lemma inv_sqrt_real : forall r, r <> 0 -> xdiv (Fin 1) (xsqrt (Fin r)) = invs r.
Proof.
  intros r H. unfold invs. simpl. destruct (Rlt_dec r 0); [reflexivity|]. simpl.
  destruct (Req_EM_T (sqrt r) 0) as [E|].
  - apply sqrt_eq_0 in E; [contradiction|lra].
  - f_equal. field. assumption.
Qed.

(** ** Sparse input makes no difference to one-sample normalisation *)
Lemma scale_sparse : forall u v S,
  (forall i, (i < length u)%nat ->
     x_isfinite (nth i u NaN) = true \/
     (nth i u NaN = NaN /\ (i < mc S)%nat /\ nonzero (xget S i i) = true)) ->
  matmul (matmul_sp (diagflat u) S) (diagflat v) = matmul (matmul (diagflat u) S) (diagflat v).
Proof.
  intros u v S H.
  set (X := matmul_sp (diagflat u) S). set (Y := matmul (diagflat u) S).
  unfold matmul at 1 2. change (mr X) with (length u). change (mr Y) with (length u).
  change (mc X) with (mc S). change (mc Y) with (mc S).
  apply tabulate_ext. intros i j Hi Hj.
  assert (HX : forall l, (l < mc S)%nat -> xget X i l = xsum (map (fun k => xmul (xget (diagflat u) i k) (xget S k l))
              (filter (fun k => nonzero (xget S k l)) (seq 0 (length u))))).
  { intros l Hl. unfold X, matmul_sp. unfold xget at 1. simpl mr. simpl mc.
    now rewrite mget_tabulate. }
  assert (HY : forall l, (l < mc S)%nat -> xget Y i l = xsum (map (fun k => xmul (xget (diagflat u) i k) (xget S k l))
              (seq 0 (length u)))).
  { intros l Hl. unfold Y, matmul. unfold xget at 1. simpl mr. simpl mc.
    now rewrite mget_tabulate. }
  destruct (H i Hi) as [F|[F [Hlm Hnz]]].
  - f_equal. apply map_ext_in. intros l Hl. apply in_seq in Hl. f_equal.
    rewrite HX, HY by lia. apply xsum_filter. intros k Hk Hz. apply in_seq in Hk.
    apply nonzero_false in Hz. rewrite Hz, xget_diagflat by lia.
    destruct (i =? k)%nat; [now apply xmul_fin_0|simpl; f_equal; ring].
  - assert (Hk : xmul (xget (diagflat u) i i) (xget S i i) = NaN).
    { rewrite xget_diagflat, Nat.eqb_refl, F by assumption. apply xmul_nan_l. }
    rewrite !xsum_nan; [reflexivity| |].
    + apply in_map_iff. exists i. split; [|apply in_seq; lia].
      rewrite HY by assumption. rewrite xsum_nan; [apply xmul_nan_l|].
      apply in_map_iff. exists i. split; [assumption|apply in_seq; lia].
    + apply in_map_iff. exists i. split; [|apply in_seq; lia].
      rewrite HX by assumption. rewrite xsum_nan; [apply xmul_nan_l|].
      apply in_map_iff. exists i. split; [assumption|].
      apply filter_In. split; [apply in_seq; lia|assumption].
Qed.

Lemma normalize_sparse : forall meth A,
  normalize_km meth (mkArr Lil A) = normalize_km meth (mkArr Dense A).
Proof.
  intros meth A. unfold normalize_km. cbn [amat].
  destruct (negb (mr A =? mc A)) eqn:Hsq; [reflexivity|].
  apply negb_false_iff, Nat.eqb_eq in Hsq.
  destruct (String.eqb (lower meth) "cosine"); [|reflexivity].
  destruct (any_zero (diagonal_of A)) eqn:Hz; [reflexivity|].
  unfold scale_both. cbn [afmt amat]. do 2 f_equal.
  apply scale_sparse. rewrite length_inv_sqrt. intros i Hi.
  rewrite nth_inv_sqrt by assumption.
  assert (Hc := any_zero_false _ Hz i Hi).
  assert (Hf := inv_sqrt_ok _ Hc).
  rewrite length_diagonal in Hi.
  rewrite nth_diagonal in * by assumption.
  destruct (xdiv (Fin 1) (xsqrt (xget A i i))); try contradiction; [left; reflexivity|].
  right. split; [reflexivity|]. split; [lia|].
  unfold nonzero. apply negb_true_iff.
  destruct (xget A i i); try reflexivity. rewrite isclose_zero in Hc. simpl. unfold Reqb.
  destruct (Req_EM_T r 0); [|reflexivity]. subst. unfold Rleb in Hc. rewrite Rabs_R0 in Hc.
  destruct (Rle_dec 0 (1/100000000)); [discriminate|lra].
Qed.

(** Two samples: the same if no self-similarity is negative or NaN. *)
Definition not_neg (a : xr) : Prop := match a with Fin r => 0 <= r | PInf => True | _ => False end.

Lemma normalize2_sparse : forall meth A dx dy,
  (forall a, In a dx -> not_neg a) ->
  normalize_km_2sample meth (mkArr Lil A) dx dy = normalize_km_2sample meth (mkArr Dense A) dx dy.
Proof.
  intros meth A dx dy Hn. unfold normalize_km_2sample. cbn [amat].
  destruct (negb (length dx =? mr A)%nat || negb (mc A =? length dy)%nat); [reflexivity|].
  destruct (String.eqb (lower meth) "cosine"); [|reflexivity].
  destruct (any_zero dx) eqn:Hz; [reflexivity|].
  destruct (any_zero dy); [reflexivity|]. simpl orb. cbn match.
  unfold scale_both. cbn [afmt amat]. do 2 f_equal.
  apply scale_sparse. rewrite length_inv_sqrt. intros i Hi. left.
  rewrite nth_inv_sqrt by assumption.
  assert (Hc := any_zero_false _ Hz i Hi).
  assert (H := Hn (nth i dx NaN) (nth_In _ _ Hi)).
  destruct (nth i dx NaN) as [r| | |]; try contradiction; [|reflexivity].
  assert (r <> 0).
  { intros ->. rewrite isclose_zero, Rabs_R0 in Hc. unfold Rleb in Hc.
    destruct (Rle_dec 0 (1/100000000)); [discriminate|lra]. }
  rewrite inv_sqrt_real by assumption. unfold invs. simpl in H.
  destruct (Rlt_dec r 0); [lra|reflexivity].
Qed.
