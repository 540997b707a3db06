(** Properties C18-C26: operations.py. *)
From Coq Require Import String Reals List Bool Arith Lra Lia Psatz.
Import ListNotations.
From Verif Require Import Prelude MatModel MatFacts XReal OpsModel SpecLinAlg RSum PSDFacts OpsFacts.

Local Open Scope R_scope.

(** C18: the entries of the centred matrix, for an ndarray or numpy.matrix of finite numbers. *)
Lemma pf_C18_entries : forall f n A, f <> Lil ->
  center_km (mkArr f (rmat n n A))
  = Ok (mkArr f (rmat n n (fun i j => A i j - rowmean n A i - colmean n A j + allmean n A))).
Proof. exact center_finite. Qed.

(** C18: every row and every column of the centred matrix sums to zero. *)
Lemma pf_C18_sums_zero : forall f n A B, center_km (mkArr f (rmat n n A)) = Ok B ->
  forall i, (i < n)%nat ->
    xsum (map (fun j => xget (amat B) i j) (seq 0 n)) = Fin 0
    /\ xsum (map (fun j => xget (amat B) j i) (seq 0 n)) = Fin 0.
Proof.
  intros f n A B H i Hi.
  assert (Hf : f <> Lil) by (intros ->; discriminate).
  rewrite center_finite in H by assumption. injection H as <-. cbn [amat]. split.
  - rewrite (xsum_fin_ext n _ (fun j => centred n A i j)).
    + now rewrite centred_row.
    + intros k Hk. now rewrite xget_rmat.
  - rewrite (xsum_fin_ext n _ (fun j => centred n A j i)).
    + now rewrite centred_col.
    + intros k Hk. now rewrite xget_rmat.
Qed.

(** C18: centering a centred matrix changes nothing. *)
Lemma pf_C18_idempotent : forall f n A B,
  center_km (mkArr f (rmat n n A)) = Ok B -> center_km B = Ok B.
Proof.
  intros f n A B H.
  assert (Hf : f <> Lil) by (intros ->; discriminate).
  rewrite center_finite in H by assumption. injection H as <-.
  rewrite center_finite by assumption. do 2 f_equal. apply rmat_ext. intros. now apply centred_idem.
Qed.

(** C18: adding a constant to all entries changes nothing. *)
Lemma pf_C18_shift : forall f n A c,
  center_km (mkArr f (rmat n n (fun i j => A i j + c))) = center_km (mkArr f (rmat n n A)).
Proof.
  intros f n A c. destruct f; try reflexivity.
  all: rewrite !center_finite by discriminate; do 2 f_equal; apply rmat_ext; intros; now apply centred_shift.
Qed.

(** C18: symmetry is preserved. *)
Lemma pf_C18_symmetric : forall f n A, f <> Lil -> symmetric n A ->
  exists B, center_km (mkArr f (rmat n n A)) = Ok (mkArr f (rmat n n B)) /\ symmetric n B.
Proof.
  intros f n A Hf HA. exists (centred n A). split; [now apply center_finite|now apply centred_sym].
Qed.

(** C18: positive semidefiniteness is preserved. *)
Lemma pf_C18_psd : forall f n A, f <> Lil -> psd n A ->
  exists B, center_km (mkArr f (rmat n n A)) = Ok (mkArr f (rmat n n B)) /\ psd n B.
Proof.
  intros f n A Hf HA. exists (centred n A). split; [now apply center_finite|now apply centred_psd].
Qed.

(** C18: for arbitrary entries (also infinite or NaN), center_km raises only ValueError, and
    exactly for non-square or non-ndarray (sparse) input. *)
Lemma pf_C18_rejects : forall a,
  (center_km a = Raise ValueError <-> mr (amat a) <> mc (amat a) \/ afmt a = Lil)
  /\ (forall e, center_km a = Raise e -> e = ValueError).
Proof.
  intros [f A]. unfold center_km. cbn [amat afmt].
  destruct f; cbn [is_ndarray afmt]; destruct (Nat.eqb_spec (mr A) (mc A)) as [H|H];
    (split; [split; [intros E|intros [E|E]]|intros e E]); try discriminate; try contradiction; auto;
    now injection E.
Qed.

(*BEGIN PROP*)
(** C18 on a concrete non-symmetric 2x2 matrix: [[1,2],[4,9]]. *)
Definition exA (i j : nat) : R :=
  match i, j with 0%nat, 0%nat => 1 | 0%nat, _ => 2 | _, 0%nat => 4 | _, _ => 9 end.
Example C18_example :
  center_km (mkArr Dense (rmat 2 2 exA))
  = Ok (mkArr Dense (rmat 2 2 (fun i j => if Nat.eqb i j then 1 else -1))).
Proof.
  rewrite center_finite by discriminate. do 2 f_equal. apply rmat_ext.
  intros [|[|i]] [|[|j]] Hi Hj; try lia;
    unfold centred, rowmean, colmean, allmean; simpl; lra.
Qed.
Example C18_example_rejected :
  center_km (mkArr Dense (rmat 2 3 (fun _ _ => 1))) = Raise ValueError.
Proof. reflexivity. Qed.
(** A symmetric PSD matrix which is not centred: [[2,1],[1,1]]. *)
Definition exP (i j : nat) : R :=
  match i, j with 0%nat, 0%nat => 2 | 0%nat, _ => 1 | _, 0%nat => 1 | _, _ => 1 end.
Example C18_example_psd : psd 2 exP.
Proof.
  split.
  - intros [|[|i]] [|[|j]] Hi Hj; try lia; reflexivity.
  - intros c. unfold quad; simpl.
    match goal with |- 0 <= ?x => replace x with ((c 0%nat)*(c 0%nat) + (c 0%nat + c 1%nat)*(c 0%nat + c 1%nat)) by ring end.
    assert (H := Rle_0_sqr (c 0%nat)). assert (H' := Rle_0_sqr (c 0%nat + c 1%nat)).
    unfold Rsqr in *. lra.
Qed.
(*END PROP*)

(** The diagonal of a finite matrix. *)
Lemma diag_rmat : forall n A, diagonal_of (rmat n n A) = map (fun i => Fin (A i i)) (seq 0 n).
Proof.
  intros. unfold diagonal_of. simpl mr. simpl mc. rewrite Nat.min_id. apply map_ext_in.
  intros i Hi. apply in_seq in Hi. rewrite xget_rmat by lia. reflexivity.
Qed.

Lemma any_zero_real : forall n d,
  (forall i, (i < n)%nat -> 1/100000000 < Rabs (d i)) ->
  any_zero (map (fun i => Fin (d i)) (seq 0 n)) = false.
Proof.
  intros n d H. unfold any_zero. destruct (existsb _ _) eqn:E; [|reflexivity].
  apply existsb_exists in E. destruct E as (x & Hx & Hc).
  apply in_map_iff in Hx. destruct Hx as (i & <- & Hi). apply in_seq in Hi.
  rewrite isclose_zero in Hc. unfold Rleb in Hc. specialize (H i).
  destruct (Rle_dec (Rabs (d i)) (1/100000000)); [|discriminate].
  assert (1 / 100000000 < Rabs (d i)) by (apply H; lia). lra.
Qed.

Lemma length_map_seq : forall {A} (f : nat -> A) n, length (map f (seq 0 n)) = n.
Proof. intros. now rewrite map_length, seq_length. Qed.

(** The format of a normalised matrix. *)
Lemma normalize2_finite : forall meth f n m A dx dy, lower meth = "cosine"%string ->
  f <> Lil ->
  (forall i, (i < n)%nat -> 1/100000000 < Rabs (dx i)) ->
  (forall j, (j < m)%nat -> 1/100000000 < Rabs (dy j)) ->
  normalize_km_2sample meth (mkArr f (rmat n m A))
     (map (fun i => Fin (dx i)) (seq 0 n)) (map (fun j => Fin (dy j)) (seq 0 m))
  = Ok (mkArr f (tabulate n m (fun i j => xmul (xmul (invs (dx i)) (Fin (A i j))) (invs (dy j))))).
Proof.
  intros meth f n m A dx dy Hm Hf Hx Hy. unfold normalize_km_2sample. cbn [amat].
  rewrite !length_map_seq. simpl mr. simpl mc. rewrite !Nat.eqb_refl. simpl negb. cbn [orb].
  rewrite Hm. simpl String.eqb. cbn match. rewrite !any_zero_real by assumption. cbn [orb].
  unfold scale_both. cbn [afmt amat].
  assert (E : matmul (matmul (diagflat (inv_sqrt (map (fun i => Fin (dx i)) (seq 0 n)))) (rmat n m A))
       (diagflat (inv_sqrt (map (fun j => Fin (dy j)) (seq 0 m))))
      = tabulate n m (fun i j => xmul (xmul (invs (dx i)) (Fin (A i j))) (invs (dy j)))).
  { rewrite scale_finite with (n := n) (m := m).
    - apply tabulate_ext. intros i j Hi Hj.
      rewrite !nth_inv_sqrt by (now rewrite length_map_seq). rewrite !nth_map_seq by assumption.
      rewrite !inv_sqrt_real; [reflexivity| |].
      + intros E. specialize (Hy j Hj). rewrite E, Rabs_R0 in Hy. lra.
      + intros E. specialize (Hx i Hi). rewrite E, Rabs_R0 in Hx. lra.
    - now rewrite length_inv_sqrt, length_map_seq.
    - now rewrite length_inv_sqrt, length_map_seq.
    - intros i Hi. apply inv_sqrt_fin; [now apply any_zero_real|now rewrite length_map_seq].
    - intros j Hj. apply inv_sqrt_fin; [now apply any_zero_real|now rewrite length_map_seq]. }
  rewrite E. destruct f; [reflexivity|contradiction|reflexivity].
Qed.

(** C21: with both samples equal, two-sample normalisation is one-sample normalisation, for
    every method name and arbitrary entries. *)
Lemma pf_C21_agrees_with_one_sample : forall meth a, mr (amat a) = mc (amat a) ->
  normalize_km_2sample meth a (diagonal_of (amat a)) (diagonal_of (amat a)) = normalize_km meth a.
Proof.
  intros meth [f A] Hsq. cbn [amat] in *. unfold normalize_km_2sample, normalize_km. cbn [amat].
  rewrite length_diagonal, <- Hsq, Nat.min_id, Nat.eqb_refl. simpl negb. cbn [orb].
  destruct (String.eqb (lower meth) "cosine"); [|reflexivity].
  destruct (any_zero (diagonal_of A)); reflexivity.
Qed.

Lemma normalize_finite : forall meth f n A, lower meth = "cosine"%string ->
  (forall i, (i < n)%nat -> 1/100000000 < Rabs (A i i)) ->
  normalize_km meth (mkArr f (rmat n n A))
  = Ok (mkArr (match f with Lil => Dense | _ => f end)
         (tabulate n n (fun i j => xmul (xmul (invs (A i i)) (Fin (A i j))) (invs (A j j))))).
Proof.
  intros meth f n A Hm Hd.
  assert (H : forall g, g <> Lil -> normalize_km meth (mkArr g (rmat n n A))
    = Ok (mkArr g (tabulate n n (fun i j => xmul (xmul (invs (A i i)) (Fin (A i j))) (invs (A j j)))))).
  { intros g Hg. rewrite <- pf_C21_agrees_with_one_sample by reflexivity. cbn [amat].
    rewrite diag_rmat. now apply normalize2_finite. }
  destruct f; [now apply H| |now apply H]. rewrite normalize_sparse. now apply H.
Qed.

Lemma sqrt_prod : forall a b, 0 < a -> 0 < b -> / sqrt a * / sqrt b = / sqrt (a * b).
Proof.
  intros a b Ha Hb. rewrite sqrt_mult by lra. rewrite Rinv_mult. reflexivity.
Qed.

Lemma invs_pos : forall a, 0 < a -> invs a = Fin (/ sqrt a).
Proof. intros a Ha. unfold invs. destruct (Rlt_dec a 0); [lra|reflexivity]. Qed.

(** C19: entries of the normalised matrix, for any storage format (a sparse matrix gives a
    dense result). *)
Lemma pf_C19_entries : forall meth f n A, lower meth = "cosine"%string ->
  (forall i, (i < n)%nat -> 1/100000000 < A i i) ->
  normalize_km meth (mkArr f (rmat n n A))
  = Ok (mkArr (match f with Lil => Dense | _ => f end)
              (rmat n n (fun i j => A i j / sqrt (A i i * A j j)))).
Proof.
  intros meth f n A Hm Hd. rewrite normalize_finite; auto.
  - do 2 f_equal. apply tabulate_ext. intros i j Hi Hj.
    assert (Hi' := Hd i Hi). assert (Hj' := Hd j Hj).
    rewrite !invs_pos by lra. simpl. f_equal.
    unfold Rdiv. rewrite <- sqrt_prod by lra. ring.
  - intros i Hi. specialize (Hd i Hi). rewrite Rabs_pos_eq; lra.
Qed.

(** C19: the normalised matrix has a unit diagonal. *)
Lemma pf_C19_unit_diagonal : forall meth f n A B, lower meth = "cosine"%string ->
  (forall i, (i < n)%nat -> 1/100000000 < A i i) ->
  normalize_km meth (mkArr f (rmat n n A)) = Ok B ->
  forall i, (i < n)%nat -> xget (amat B) i i = Fin 1.
Proof.
  intros meth f n A B Hm Hd H i Hi. rewrite pf_C19_entries in H by assumption.
  injection H as <-. cbn [amat]. rewrite xget_rmat by assumption. f_equal.
  specialize (Hd i Hi). rewrite sqrt_square by lra. field. lra.
Qed.

(** C19: symmetry is preserved. *)
Lemma pf_C19_symmetric : forall meth f n A, lower meth = "cosine"%string ->
  (forall i, (i < n)%nat -> 1/100000000 < A i i) -> symmetric n A ->
  exists g B, normalize_km meth (mkArr f (rmat n n A)) = Ok (mkArr g (rmat n n B)) /\ symmetric n B.
Proof.
  intros meth f n A Hm Hd HA. do 2 eexists. split; [now apply pf_C19_entries|].
  intros i j Hi Hj. cbv beta. rewrite (HA i j) by assumption. now rewrite (Rmult_comm (A j j)).
Qed.

Lemma normed_psd : forall n A, (forall i, (i < n)%nat -> 0 < A i i) -> psd n A ->
  psd n (fun i j => A i j / sqrt (A i i * A j j)).
Proof.
  intros n A Hd HA.
  apply (psd_ext n (fun i j => / sqrt (A i i) * A i j * / sqrt (A j j))).
  - intros i j Hi Hj. unfold Rdiv. rewrite <- sqrt_prod by auto. ring.
  - apply (psd_scale n (fun i => / sqrt (A i i))). assumption.
Qed.

(** C19: positive semidefiniteness is preserved and then all entries lie in [-1, 1]. *)
Lemma pf_C19_psd : forall meth f n A, lower meth = "cosine"%string ->
  (forall i, (i < n)%nat -> 1/100000000 < A i i) -> psd n A ->
  exists g B, normalize_km meth (mkArr f (rmat n n A)) = Ok (mkArr g (rmat n n B))
    /\ psd n B /\ forall i j, (i < n)%nat -> (j < n)%nat -> -1 <= B i j <= 1.
Proof.
  intros meth f n A Hm Hd HA. do 2 eexists. split; [now apply pf_C19_entries|].
  assert (HB : psd n (fun i j => A i j / sqrt (A i i * A j j))).
  { apply normed_psd; [|assumption]. intros i Hi. specialize (Hd i Hi). lra. }
  split; [exact HB|]. intros i j Hi Hj.
  assert (M := psd_minor n _ i j HB Hi Hj). cbv beta in M |- *.
  assert (D : forall k, (k < n)%nat -> A k k / sqrt (A k k * A k k) = 1).
  { intros k Hk. specialize (Hd k Hk). rewrite sqrt_square by lra. field. lra. }
  rewrite !D in M by assumption. nra.
Qed.

(** C19: normalising again changes nothing. *)
Lemma pf_C19_idempotent : forall meth f n A B, lower meth = "cosine"%string ->
  (forall i, (i < n)%nat -> 1/100000000 < A i i) ->
  normalize_km meth (mkArr f (rmat n n A)) = Ok B -> normalize_km meth B = Ok B.
Proof.
  intros meth f n A B Hm Hd H. rewrite pf_C19_entries in H by assumption. injection H as <-.
  assert (D : forall k, (k < n)%nat -> A k k / sqrt (A k k * A k k) = 1).
  { intros k Hk. specialize (Hd k Hk). rewrite sqrt_square by lra. field. lra. }
  rewrite pf_C19_entries.
  - destruct f; do 2 f_equal; apply rmat_ext; intros i j Hi Hj; rewrite !D by assumption;
      rewrite Rmult_1_r, sqrt_1; field; apply Rgt_not_eq; apply sqrt_lt_R0;
      assert (Hi' := Hd i Hi); assert (Hj' := Hd j Hj); apply Rmult_lt_0_compat; lra.
  - assumption.
  - intros i Hi. rewrite D by assumption. lra.
Qed.

(** C19: rescaling by a positive factor (diagonals staying above 1e-8) changes nothing. *)
Lemma pf_C19_scale_invariant : forall meth f n A c, lower meth = "cosine"%string -> 0 < c ->
  (forall i, (i < n)%nat -> 1/100000000 < A i i /\ 1/100000000 < c * A i i) ->
  normalize_km meth (mkArr f (rmat n n (fun i j => c * A i j)))
  = normalize_km meth (mkArr f (rmat n n A)).
Proof.
  intros meth f n A c Hm Hc Hd.
  rewrite !pf_C19_entries by (auto; intros i Hi; now destruct (Hd i Hi)).
  do 2 f_equal. apply rmat_ext. intros i j Hi Hj.
  destruct (Hd i Hi) as [Hi' _]. destruct (Hd j Hj) as [Hj' _].
  replace (c * A i i * (c * A j j)) with ((c * c) * (A i i * A j j)) by ring.
  assert (0 < A i i * A j j) by (apply Rmult_lt_0_compat; lra).
  rewrite sqrt_mult by nra. rewrite sqrt_square by lra. field. split; [|lra].
  apply Rgt_not_eq. now apply sqrt_lt_R0.
Qed.

(*BEGIN PROP*)
(** C19 on a concrete PSD matrix: [[2,1],[1,1]] given as a sparse matrix. *)
Example C19_example :
  normalize_km "Cosine" (mkArr Lil (rmat 2 2 exP))
  = Ok (mkArr Dense (rmat 2 2 (fun i j => if Nat.eqb i j then 1 else / sqrt 2))).
Proof.
  rewrite pf_C19_entries.
  - do 2 f_equal. apply rmat_ext. intros [|[|i]] [|[|j]] Hi Hj; try lia; simpl.
    + rewrite sqrt_square by lra. lra.
    + rewrite Rmult_1_r. lra.
    + rewrite Rmult_1_l. lra.
    + rewrite Rmult_1_l, sqrt_1. lra.
  - reflexivity.
  - intros [|[|i]] Hi; try lia; simpl; lra.
Qed.
(*END PROP*)

(** C20: non-square input raises ValueError whatever the method name and the entries. *)
Lemma pf_C20_nonsquare : forall meth a, mr (amat a) <> mc (amat a) ->
  normalize_km meth a = Raise ValueError.
Proof.
  intros meth a H. unfold normalize_km. destruct (Nat.eqb_spec (mr (amat a)) (mc (amat a))); [contradiction|].
  reflexivity.
Qed.

Lemma any_zero_iff : forall v, any_zero v = true <->
  exists i r, (i < length v)%nat /\ nth i v NaN = Fin r /\ Rabs r <= 1/100000000.
Proof.
  intros v. unfold any_zero. rewrite existsb_exists. split.
  - intros (x & Hx & Hc). destruct (In_nth _ _ NaN Hx) as (i & Hi & E).
    destruct x; try discriminate. exists i, r. rewrite isclose_zero in Hc. unfold Rleb in Hc.
    destruct (Rle_dec (Rabs r) (1/100000000)); [auto|discriminate].
  - intros (i & r & Hi & E & Hr). exists (Fin r). split; [rewrite <- E; now apply nth_In|].
    rewrite isclose_zero. unfold Rleb. destruct (Rle_dec (Rabs r) (1/100000000)); [reflexivity|contradiction].
Qed.

(** C20: on square input KMNormError is raised exactly when the method is cosine and some
    diagonal entry is within 1e-8 of zero. *)
Lemma pf_C20_norm_error_iff : forall meth a, mr (amat a) = mc (amat a) ->
  (normalize_km meth a = Raise KMNormError <->
   lower meth = "cosine"%string /\
   exists i r, (i < mr (amat a))%nat /\ xget (amat a) i i = Fin r /\ Rabs r <= 1/100000000).
Proof.
  intros meth [f A] Hsq. cbn [amat] in *. unfold normalize_km. cbn [amat].
  rewrite Hsq, Nat.eqb_refl. simpl negb. cbn match.
  destruct (String.eqb_spec (lower meth) "cosine") as [Hm|Hm].
  - assert (Z := any_zero_iff (diagonal_of A)). rewrite length_diagonal, Hsq, Nat.min_id in Z.
    destruct (any_zero (diagonal_of A)).
    + split; [|reflexivity]. intros _. split; [assumption|].
      destruct Z as [Z _]. destruct (Z eq_refl) as (i & r & Hi & E & Hr). exists i, r.
      rewrite nth_diagonal in E by (rewrite Hsq; lia). auto.
    + split; [discriminate|]. intros [_ (i & r & Hi & E & Hr)]. destruct Z as [_ Z].
      assert (false = true); [|discriminate]. apply Z. exists i, r.
      rewrite nth_diagonal by (rewrite Hsq; lia). auto.
  - split; [discriminate|]. now intros [H _].
Qed.

(** C20: any other method name raises NotImplementedError on square input. *)
Lemma pf_C20_other_method : forall meth a, mr (amat a) = mc (amat a) ->
  lower meth <> "cosine"%string -> normalize_km meth a = Raise NotImplementedErr.
Proof.
  intros meth a Hsq Hm. unfold normalize_km. rewrite Hsq, Nat.eqb_refl. simpl negb. cbn match.
  destruct (String.eqb_spec (lower meth) "cosine"); [contradiction|reflexivity].
Qed.

(** C20: these are the only failures, whatever the entries (also infinite or NaN). *)
Lemma pf_C20_otherwise_succeeds : forall meth a e, normalize_km meth a = Raise e ->
  (mr (amat a) <> mc (amat a) /\ e = ValueError)
  \/ (mr (amat a) = mc (amat a) /\ lower meth <> "cosine"%string /\ e = NotImplementedErr)
  \/ (mr (amat a) = mc (amat a) /\ lower meth = "cosine"%string /\ e = KMNormError).
Proof.
  intros meth a e. unfold normalize_km.
  destruct (Nat.eqb_spec (mr (amat a)) (mc (amat a))) as [Hsq|Hsq]; simpl negb; cbn match.
  - destruct (String.eqb_spec (lower meth) "cosine") as [Hm|Hm].
    + destruct (any_zero _); [|discriminate]. intros E. injection E as <-. auto.
    + intros E. injection E as <-. auto.
  - intros E. injection E as <-. auto.
Qed.

(** C20: a diagonal entry below -1e-8 makes exactly its row and its column NaN; all other
    entries are as usual. *)
Lemma pf_C20_negative_diagonal : forall meth f n A, lower meth = "cosine"%string ->
  (forall i, (i < n)%nat -> 1/100000000 < Rabs (A i i)) ->
  exists B, normalize_km meth (mkArr f (rmat n n A)) = Ok B /\
    forall i j, (i < n)%nat -> (j < n)%nat ->
      ((A i i < 0 \/ A j j < 0) /\ xget (amat B) i j = NaN)
      \/ (0 < A i i /\ 0 < A j j /\ xget (amat B) i j = Fin (A i j / sqrt (A i i * A j j))).
Proof.
  intros meth f n A Hm Hd. eexists. split; [now apply normalize_finite|].
  intros i j Hi Hj. cbn [amat]. unfold xget. rewrite mget_tabulate by assumption.
  assert (Ni : A i i <> 0) by (intros E; specialize (Hd i Hi); rewrite E, Rabs_R0 in Hd; lra).
  assert (Nj : A j j <> 0) by (intros E; specialize (Hd j Hj); rewrite E, Rabs_R0 in Hd; lra).
  unfold invs. destruct (Rlt_dec (A i i) 0) as [|Pi]; [left; auto|].
  destruct (Rlt_dec (A j j) 0) as [|Pj]; [left; auto|]. right.
  split; [lra|]. split; [lra|]. simpl. f_equal. unfold Rdiv. rewrite <- sqrt_prod by lra. ring.
Qed.

(*BEGIN PROP*)
(** C20: method names are compared case-insensitively. *)
Example C20_example_case : lower "CoSINE" = "cosine"%string.
Proof. reflexivity. Qed.
(** C20: a diagonal entry of 1e-9 is refused, even though 1/sqrt(1e-9) is a fine number. *)
Example C20_example_zero :
  normalize_km "cosine" (mkArr Dense (rmat 1 1 (fun _ _ => 1/1000000000))) = Raise KMNormError.
Proof.
  apply pf_C20_norm_error_iff; [reflexivity|]. split; [reflexivity|].
  exists 0%nat, (1/1000000000). split; [simpl; lia|]. split; [reflexivity|].
  rewrite Rabs_pos_eq; lra.
Qed.
(** C20: a matrix meeting the hypotheses with a negative diagonal entry. *)
Example C20_example_negative :
  exists B, normalize_km "cosine" (mkArr Dense (rmat 2 2
      (fun i j => if Nat.eqb (i + j) 0 then -4 else 1))) = Ok B
    /\ xget (amat B) 0 1 = NaN /\ xget (amat B) 1 1 = Fin (1 / sqrt (1 * 1)).
Proof.
  destruct (pf_C20_negative_diagonal "cosine" Dense 2 (fun i j => if Nat.eqb (i + j) 0 then -4 else 1))
    as (B & HB & H).
  - reflexivity.
  - intros [|[|i]] Hi; try lia; simpl.
    + rewrite Rabs_left by lra. lra.
    + rewrite Rabs_pos_eq by lra. lra.
  - exists B. split; [exact HB|]. split.
    + destruct (H 0%nat 1%nat) as [[_ E]|[E _]]; try lia; [exact E|simpl in E; lra].
    + destruct (H 1%nat 1%nat) as [[[E|E] _]|(_ & _ & E)]; try lia; try (simpl in E; lra). exact E.
Qed.
(*END PROP*)

(** C21: entries of the two-sample normalised matrix. *)
Lemma pf_C21_entries : forall meth f n m A dx dy, lower meth = "cosine"%string -> f <> Lil ->
  (forall i, (i < n)%nat -> 1/100000000 < dx i) ->
  (forall j, (j < m)%nat -> 1/100000000 < dy j) ->
  normalize_km_2sample meth (mkArr f (rmat n m A))
     (map (fun i => Fin (dx i)) (seq 0 n)) (map (fun j => Fin (dy j)) (seq 0 m))
  = Ok (mkArr f (rmat n m (fun i j => A i j / sqrt (dx i * dy j)))).
Proof.
  intros meth f n m A dx dy Hm Hf Hx Hy. rewrite normalize2_finite; auto.
  - do 2 f_equal. apply tabulate_ext. intros i j Hi Hj.
    assert (Hi' := Hx i Hi). assert (Hj' := Hy j Hj). rewrite !invs_pos by lra. simpl. f_equal.
    unfold Rdiv. rewrite <- sqrt_prod by lra. ring.
  - intros i Hi. specialize (Hx i Hi). rewrite Rabs_pos_eq; lra.
  - intros i Hi. specialize (Hy i Hi). rewrite Rabs_pos_eq; lra.
Qed.

(** C21: which inputs are refused, and how: wrong lengths (ValueError, checked first), an unknown
    method (NotImplementedError), a self-similarity within 1e-8 of zero (KMNormError); nothing
    else raises. *)
Lemma pf_C21_failures : forall meth a dx dy,
  let bad_shape := length dx <> mr (amat a) \/ length dy <> mc (amat a) in
  let zero v := exists i r, (i < length v)%nat /\ nth i v NaN = Fin r /\ Rabs r <= 1/100000000 in
  (normalize_km_2sample meth a dx dy = Raise ValueError <-> bad_shape) /\
  (normalize_km_2sample meth a dx dy = Raise NotImplementedErr
     <-> ~ bad_shape /\ lower meth <> "cosine"%string) /\
  (normalize_km_2sample meth a dx dy = Raise KMNormError
     <-> ~ bad_shape /\ lower meth = "cosine"%string /\ (zero dx \/ zero dy)) /\
  (forall e, normalize_km_2sample meth a dx dy = Raise e ->
     e = ValueError \/ e = NotImplementedErr \/ e = KMNormError).
Proof.
  intros meth a dx dy bad zero.
  assert (Zx := any_zero_iff dx : any_zero dx = true <-> zero dx).
  assert (Zy := any_zero_iff dy : any_zero dy = true <-> zero dy).
  assert (B : negb (length dx =? mr (amat a))%nat || negb (mc (amat a) =? length dy)%nat = true <-> bad).
  { unfold bad. rewrite orb_true_iff, !negb_true_iff, !Nat.eqb_neq. split; intros [H|H]; auto. }
  unfold normalize_km_2sample.
  destruct (negb (length dx =? mr (amat a))%nat || negb (mc (amat a) =? length dy)%nat).
  - assert (Hb : bad) by now apply B.
    split; [split; auto|]. split; [split; [discriminate|tauto]|]. split; [split; [discriminate|tauto]|].
    intros e E. injection E as <-. auto.
  - assert (Hb : ~ bad) by (intros H; apply B in H; discriminate).
    split; [split; [|tauto]; intros H|].
    + destruct (String.eqb (lower meth) "cosine"); [destruct (any_zero dx || any_zero dy)|]; discriminate.
    + destruct (String.eqb_spec (lower meth) "cosine") as [Hm|Hm].
      * destruct (any_zero dx || any_zero dy) eqn:Z.
        -- split; [split; [discriminate|tauto]|]. split; [split; [|reflexivity]|].
           ++ intros _. split; [assumption|]. split; [assumption|].
              apply orb_true_iff in Z. tauto.
           ++ intros e E. injection E as <-. auto.
        -- apply orb_false_iff in Z. destruct Z as [Z1 Z2].
           split; [split; [discriminate|tauto]|]. split; [split; [discriminate|]|discriminate].
           intros (_ & _ & [H|H]); [apply Zx in H|apply Zy in H]; congruence.
      * split; [split; auto|]. split; [split; [discriminate|tauto]|].
        intros e E. injection E as <-. auto.
Qed.

(*BEGIN PROP*)
(** C21 on a concrete 1x2 matrix. *)
Example C21_example :
  normalize_km_2sample "cosine" (mkArr Dense (rmat 1 2 (fun _ j => INR j + 1))) [Fin 4] [Fin 1; Fin 9]
  = Ok (mkArr Dense (rmat 1 2 (fun _ j => match j with 0%nat => 1/2 | _ => 1/3 end))).
Proof.
  assert (E := pf_C21_entries "cosine" Dense 1 2 (fun _ j => INR j + 1) (fun _ => 4)
      (fun j => match j with 0%nat => 1 | _ => 9 end)).
  simpl map in E. rewrite E; try reflexivity; try discriminate.
  - do 2 f_equal. apply rmat_ext. intros [|i] [|[|j]] Hi Hj; try lia; simpl.
    + replace (4 * 1) with (2 * 2) by ring. rewrite sqrt_square by lra. lra.
    + replace (4 * 9) with (6 * 6) by ring. rewrite sqrt_square by lra. lra.
  - intros; lra.
  - intros [|[|j]] Hj; lra.
Qed.
(*END PROP*)

(** ** Frobenius product and norm *)
Lemma frob_finite : forall f g n m A B, f <> Lil ->
  frobenius_product (mkArr f (rmat n m A)) (mkArr g (rmat n m B)) = Ok (Fin (fprod n m A B)).
Proof.
  intros f g n m A B Hf. unfold frobenius_product, same_shape. cbn [amat]. simpl mr. simpl mc.
  rewrite !Nat.eqb_refl. cbn [andb negb].
  replace (is_sparse (mkArr f (rmat n m A))) with false by (destruct f; [reflexivity|contradiction|reflexivity]).
  cbn [andb]. f_equal. unfold fprod.
  rewrite <- (msum_rmat n m (fun i j => A i j * B i j)). f_equal. apply tabulate_ext. intros i j Hi Hj.
  now rewrite !xget_rmat.
Qed.

Lemma fprod_self_nonneg : forall n m A, 0 <= fprod n m A A.
Proof. intros. apply rsum_nonneg. intros. apply rsum_sqr_nonneg. Qed.

Lemma norm_finite : forall f n m A, f <> Lil ->
  frobenius_norm (mkArr f (rmat n m A)) = Ok (Fin (fnorm n m A)).
Proof.
  intros f n m A Hf. unfold frobenius_norm. rewrite frob_finite by assumption. simpl.
  destruct (Rlt_dec (fprod n m A A) 0) as [H|]; [|reflexivity].
  assert (H' := fprod_self_nonneg n m A). lra.
Qed.

(** C22: for finite ndarrays (or numpy.matrix) of equal shape, the product is the sum of the
    entrywise products and the norm the root of the sum of squares. *)
Lemma pf_C22_values : forall f g n m A B, f <> Lil -> g <> Lil ->
  frobenius_product (mkArr f (rmat n m A)) (mkArr g (rmat n m B))
    = Ok (Fin (rsum n (fun i => rsum m (fun j => A i j * B i j))))
  /\ frobenius_norm (mkArr f (rmat n m A))
    = Ok (Fin (sqrt (rsum n (fun i => rsum m (fun j => A i j * A i j))))).
Proof. intros. split; [now apply frob_finite|now apply norm_finite]. Qed.

Lemma fprod_comm : forall n m A B, fprod n m A B = fprod n m B A.
Proof. intros. apply rsum_ext; intros; apply rsum_ext; intros; ring. Qed.

(** C22: symmetric, for arbitrary entries (also infinite or NaN). *)
Lemma pf_C22_symmetric : forall a b, afmt a <> Lil -> afmt b <> Lil ->
  frobenius_product a b = frobenius_product b a.
Proof.
  intros [f A] [g B] Hf Hg. cbn [afmt] in *. unfold frobenius_product, same_shape. cbn [amat].
  rewrite (Nat.eqb_sym (mr B)), (Nat.eqb_sym (mc B)).
  replace (is_sparse (mkArr f A)) with false by (destruct f; [reflexivity|contradiction|reflexivity]).
  replace (is_sparse (mkArr g B)) with false by (destruct g; [reflexivity|contradiction|reflexivity]).
  cbn [andb].
  destruct (Nat.eqb_spec (mr A) (mr B)) as [E1|]; [|reflexivity].
  destruct (Nat.eqb_spec (mc A) (mc B)) as [E2|]; [|reflexivity].
  cbn [andb negb]. do 2 f_equal. rewrite E1, E2. apply tabulate_ext. intros. apply xmul_comm.
Qed.

(** C22: linear in the first argument (hence, with symmetry, bilinear). *)
Lemma pf_C22_bilinear : forall n m A B C s t,
  exists p q, frobenius_product (mkArr Dense (rmat n m A)) (mkArr Dense (rmat n m C)) = Ok (Fin p)
  /\ frobenius_product (mkArr Dense (rmat n m B)) (mkArr Dense (rmat n m C)) = Ok (Fin q)
  /\ frobenius_product (mkArr Dense (rmat n m (fun i j => s * A i j + t * B i j)))
                       (mkArr Dense (rmat n m C)) = Ok (Fin (s * p + t * q)).
Proof.
  intros. do 2 eexists. rewrite !frob_finite by discriminate. split; [reflexivity|].
  split; [reflexivity|]. do 2 f_equal. unfold fprod. rewrite <- !rsum_scal, <- rsum_plus.
  apply rsum_ext. intros. rewrite <- !rsum_scal, <- rsum_plus. apply rsum_ext. intros; ring.
Qed.

Lemma fprod_cs_norm : forall n m A B, Rabs (fprod n m A B) <= fnorm n m A * fnorm n m B.
Proof.
  intros n m A B. unfold fnorm.
  assert (HA := fprod_self_nonneg n m A). assert (HB := fprod_self_nonneg n m B).
  rewrite <- sqrt_mult by assumption.
  rewrite <- (sqrt_square (Rabs (fprod n m A B))) by apply Rabs_pos.
  apply sqrt_le_1_alt. rewrite <- Rabs_mult, Rabs_pos_eq by apply Rle_0_sqr. apply fprod_cs.
Qed.

(** C22: Cauchy-Schwarz. *)
Lemma pf_C22_cauchy_schwarz : forall n m A B,
  exists p a b, frobenius_product (mkArr Dense (rmat n m A)) (mkArr Dense (rmat n m B)) = Ok (Fin p)
  /\ frobenius_norm (mkArr Dense (rmat n m A)) = Ok (Fin a)
  /\ frobenius_norm (mkArr Dense (rmat n m B)) = Ok (Fin b)
  /\ Rabs p <= a * b.
Proof.
  intros. do 3 eexists. rewrite frob_finite, !norm_finite by discriminate.
  repeat (split; [reflexivity|]). apply fprod_cs_norm.
Qed.

Lemma fnorm_zero : forall n m A, fnorm n m A = 0 ->
  forall i j, (i < n)%nat -> (j < m)%nat -> A i j = 0.
Proof.
  intros n m A H i j Hi Hj. unfold fnorm in H.
  apply sqrt_eq_0 in H; [|apply fprod_self_nonneg]. unfold fprod in H.
  assert (H1 := rsum_nonneg_zero n (fun i => rsum m (fun j => A i j * A i j))
     (fun i _ => rsum_sqr_nonneg m (A i)) H i Hi). cbv beta in H1.
  assert (H2 := rsum_nonneg_zero m (fun j => A i j * A i j) (fun j _ => Rle_0_sqr (A i j)) H1 j Hj).
  cbv beta in H2. nra.
Qed.

(** C22: the norm is non-negative, and zero only for the zero matrix. *)
Lemma pf_C22_norm_definite : forall n m A,
  exists v, frobenius_norm (mkArr Dense (rmat n m A)) = Ok (Fin v) /\ 0 <= v
  /\ (v = 0 <-> forall i j, (i < n)%nat -> (j < m)%nat -> A i j = 0).
Proof.
  intros n m A. exists (fnorm n m A). split; [now apply norm_finite|]. split; [apply sqrt_pos|].
  split; [apply fnorm_zero|]. intros H. unfold fnorm.
  replace (fprod n m A A) with 0; [apply sqrt_0|]. symmetry. unfold fprod.
  apply rsum_zero. intros i Hi. apply rsum_zero. intros j Hj. rewrite H by assumption. ring.
Qed.

(** C22: different shapes raise ValueError, and for ndarrays nothing else raises. *)
Lemma pf_C22_shapes : forall a b, afmt a <> Lil ->
  (frobenius_product a b = Raise ValueError
     <-> mr (amat a) <> mr (amat b) \/ mc (amat a) <> mc (amat b))
  /\ (forall e, frobenius_product a b = Raise e -> e = ValueError).
Proof.
  intros [f A] [g B] Hf. cbn [afmt amat] in *. unfold frobenius_product, same_shape. cbn [amat].
  replace (is_sparse (mkArr f A)) with false by (destruct f; [reflexivity|contradiction|reflexivity]).
  cbn [andb].
  destruct (Nat.eqb_spec (mr A) (mr B)) as [E1|E1], (Nat.eqb_spec (mc A) (mc B)) as [E2|E2]; cbn [andb negb];
    (split; [split; [intros H|intros [H|H]]|intros e H]); try discriminate; try contradiction; auto; now injection H.
Qed.

(** C22 fails for scipy.sparse input: the "norm" of a non-zero sparse matrix can be 0 (numpy
    multiplies sparse matrices as matrices, not entrywise). *)
Lemma pf_C22_refuted_sparse : exists n A,
  (exists i j, (i < n)%nat /\ (j < n)%nat /\ A i j <> 0)
  /\ frobenius_norm (mkArr Lil (rmat n n A)) = Ok (Fin 0)
  /\ frobenius_norm (mkArr Dense (rmat n n A)) = Ok (Fin 1).
Proof.
  exists 2%nat, (fun i j => if andb (i =? 0)%nat (j =? 1)%nat then 1 else 0).
  split; [exists 0%nat, 1%nat; simpl; lra || (repeat split; try lia; lra)|].
  assert (N1 : nonzero (Fin 1) = true).
  { unfold nonzero, xeqb, Reqb. destruct (Req_EM_T 1 0); [lra|reflexivity]. }
  assert (N0 : nonzero (Fin 0) = false).
  { unfold nonzero, xeqb, Reqb. destruct (Req_EM_T 0 0); [reflexivity|lra]. }
  split.
  - unfold frobenius_norm, frobenius_product. simpl. unfold matmul_spsp, msum. simpl.
    unfold xget, mget. simpl. rewrite N1, N0. simpl.
    match goal with |- context [Rlt_dec ?a 0] => replace a with 0 by ring end.
    destruct (Rlt_dec 0 0); [lra|]. now rewrite sqrt_0.
  - rewrite norm_finite by discriminate. do 2 f_equal. unfold fnorm, fprod. simpl.
    match goal with |- sqrt ?a = 1 => replace a with 1 by ring end. apply sqrt_1.
Qed.

(*BEGIN PROP*)
(** C22 on concrete matrices: <[[1,2],[4,9]], [[2,1],[1,1]]> = 2+2+4+9 = 17. *)
Example C22_example :
  frobenius_product (mkArr Dense (rmat 2 2 exA)) (mkArr NpMatrix (rmat 2 2 exP)) = Ok (Fin 17).
Proof. rewrite frob_finite by discriminate. unfold fprod; simpl. do 2 f_equal. lra. Qed.
(*END PROP*)

(** ** Centred alignment *)
Lemma not_small : forall v, 1/100000000 < v -> xisclose (Fin v) (Fin 0) = false.
Proof.
  intros v H. rewrite isclose_zero. unfold Rleb. destruct (Rle_dec (Rabs v) (1/100000000)) as [H'|]; [|reflexivity].
  rewrite Rabs_pos_eq in H' by lra. lra.
Qed.

Lemma small : forall v, 0 <= v -> v <= 1/100000000 -> xisclose (Fin v) (Fin 0) = true.
Proof.
  intros v H0 H. rewrite isclose_zero. unfold Rleb. destruct (Rle_dec (Rabs v) (1/100000000)) as [|H']; [reflexivity|].
  rewrite Rabs_pos_eq in H' by lra. lra.
Qed.

Lemma fnorm_pos : forall n m A, 0 <= fnorm n m A.
Proof. intros. apply sqrt_pos. Qed.

(** C23: the value of the centred alignment of two finite matrices whose centred norms exceed
    1e-8; the value_if_zero_division argument is then irrelevant. *)
Lemma pf_C23_value : forall f g n A B z, f <> Lil -> g <> Lil ->
  1/100000000 < fnorm n n (centred n A) -> 1/100000000 < fnorm n n (centred n B) ->
  alignment_centered (mkArr f (rmat n n A)) (mkArr g (rmat n n B)) z false
  = Ok (Fin (fprod n n (centred n A) (centred n B)
             / (fnorm n n (centred n A) * fnorm n n (centred n B)))).
Proof.
  intros f g n A B z Hf Hg HA HB. unfold alignment_centered, same_shape. cbn [amat].
  simpl mr. simpl mc. rewrite Nat.eqb_refl. cbn [andb negb].
  replace (is_ndarray (mkArr f (rmat n n A))) with true by (destruct f; [reflexivity|contradiction|reflexivity]).
  replace (is_ndarray (mkArr g (rmat n n B))) with true by (destruct g; [reflexivity|contradiction|reflexivity]).
  cbn [andb negb orb]. rewrite !center_finite by assumption. cbn [rbind].
  rewrite !norm_finite by assumption. cbn [rbind]. rewrite !not_small by assumption. cbn [orb].
  rewrite frob_finite by assumption. cbn [rbind xmul xdiv].
  destruct (Req_EM_T _ 0) as [E|]; [|reflexivity].
  exfalso. assert (0 < fnorm n n (centred n A) * fnorm n n (centred n B)) by (apply Rmult_lt_0_compat; lra).
  lra.
Qed.

(** C23: the alignment lies in [-1, 1]. *)
Lemma pf_C23_range : forall f g n A B z, f <> Lil -> g <> Lil ->
  1/100000000 < fnorm n n (centred n A) -> 1/100000000 < fnorm n n (centred n B) ->
  exists v, alignment_centered (mkArr f (rmat n n A)) (mkArr g (rmat n n B)) z false = Ok (Fin v)
    /\ -1 <= v <= 1.
Proof.
  intros f g n A B z Hf Hg HA HB. eexists. split; [now apply pf_C23_value|].
  assert (H := fprod_cs_norm n n (centred n A) (centred n B)).
  set (p := fprod n n (centred n A) (centred n B)) in *.
  set (q := fnorm n n (centred n A) * fnorm n n (centred n B)) in *.
  assert (Hq : 0 < q) by (unfold q; apply Rmult_lt_0_compat; lra).
  assert (H' : -q <= p <= q) by (unfold Rabs in H; destruct (Rcase_abs p); lra). split.
  - apply Rmult_le_reg_r with q; [assumption|]. unfold Rdiv. rewrite Rmult_assoc, Rinv_l by lra. lra.
  - apply Rmult_le_reg_r with q; [assumption|]. unfold Rdiv. rewrite Rmult_assoc, Rinv_l by lra. lra.
Qed.

(** C23: symmetric in its two matrices, for arbitrary input (any format, shape and entries). *)
Lemma pf_C23_symmetric : forall a b z already,
  alignment_centered a b z already = alignment_centered b a z already.
Proof.
  intros a b z already. unfold alignment_centered.
  replace (same_shape (amat b) (amat a)) with (same_shape (amat a) (amat b))
    by (unfold same_shape; now rewrite (Nat.eqb_sym (mr (amat b))), (Nat.eqb_sym (mc (amat b)))).
  destruct (negb (same_shape (amat a) (amat b))); [reflexivity|].
  rewrite (orb_comm (negb (is_ndarray b))).
  destruct (negb (is_ndarray a) || negb (is_ndarray b)) eqn:Hn; [reflexivity|].
  apply orb_false_iff in Hn. destruct Hn as [Ha Hb]. apply negb_false_iff in Ha, Hb.
  assert (N : forall c, is_ndarray c = true -> exists v, frobenius_norm c = Ok v).
  { intros [h C] Hc. unfold frobenius_norm, frobenius_product, same_shape. cbn [amat]. rewrite !Nat.eqb_refl.
    cbn [andb negb]. destruct h; try discriminate; eexists; reflexivity. }
  assert (F : forall c, is_ndarray c = true -> forall d, center_km c = Ok d -> is_ndarray d = true).
  { intros [h C] Hc d. unfold center_km. rewrite Hc. cbn [amat afmt].
    destruct (mr C =? mc C)%nat; [|discriminate]. intros E. injection E as <-. destruct h; auto. }
  assert (E : forall c e, center_km c = Raise e -> e = ValueError) by (intros c; apply pf_C18_rejects).
  assert (L : forall c : arr xr, is_ndarray c = true -> afmt c <> Lil) by (intros [[] C]; try discriminate; cbn; congruence).
  assert (G : forall ca cb, is_ndarray ca = true -> is_ndarray cb = true ->
    rbind (frobenius_norm ca) (fun na => rbind (frobenius_norm cb) (fun nb =>
         if xisclose na (Fin 0) || xisclose nb (Fin 0) then
           match z with ZRaise => Raise ValueError | ZValue v => Ok v end
         else rbind (frobenius_product ca cb) (fun p => Ok (xdiv p (xmul na nb)))))
    = rbind (frobenius_norm cb) (fun na => rbind (frobenius_norm ca) (fun nb =>
         if xisclose na (Fin 0) || xisclose nb (Fin 0) then
           match z with ZRaise => Raise ValueError | ZValue v => Ok v end
         else rbind (frobenius_product cb ca) (fun p => Ok (xdiv p (xmul na nb)))))).
  { intros ca cb Hca Hcb. destruct (N ca Hca) as [va ->]. destruct (N cb Hcb) as [vb ->]. cbn [rbind].
    rewrite (orb_comm (xisclose vb (Fin 0))), (pf_C22_symmetric cb ca) by auto.
    now rewrite (xmul_comm vb va). }
  destruct already; cbn [rbind]; [now apply G|].
  destruct (center_km a) as [ca|ea] eqn:Ea, (center_km b) as [cb|eb] eqn:Eb; cbn [rbind].
  - apply G; eauto.
  - reflexivity.
  - reflexivity.
  - rewrite (E _ _ Ea), (E _ _ Eb). reflexivity.
Qed.

Lemma fnorm_sq : forall n m A, fnorm n m A * fnorm n m A = fprod n m A A.
Proof. intros. unfold fnorm. apply sqrt_sqrt. apply fprod_self_nonneg. Qed.

(** C23: a matrix has alignment 1 with itself. *)
Lemma pf_C23_self : forall f n A z, f <> Lil -> 1/100000000 < fnorm n n (centred n A) ->
  alignment_centered (mkArr f (rmat n n A)) (mkArr f (rmat n n A)) z false = Ok (Fin 1).
Proof.
  intros f n A z Hf HA. rewrite pf_C23_value by assumption. rewrite fnorm_sq. do 2 f_equal.
  field. rewrite <- fnorm_sq. apply Rgt_not_eq. apply Rmult_lt_0_compat; lra.
Qed.

(** C23: adding a constant to all entries of one matrix changes nothing (whatever the norms;
    with symmetry, the same holds for the other matrix). *)
Lemma pf_C23_shift : forall f n A c b z,
  alignment_centered (mkArr f (rmat n n (fun i j => A i j + c))) b z false
  = alignment_centered (mkArr f (rmat n n A)) b z false.
Proof.
  intros f n A c b z. unfold alignment_centered. cbn [amat]. unfold same_shape. simpl mr. simpl mc.
  now rewrite pf_C18_shift.
Qed.

Lemma fprod_scal : forall n m A B c, fprod n m (fun i j => c * A i j) B = c * fprod n m A B.
Proof.
  intros. unfold fprod. rewrite <- rsum_scal. apply rsum_ext. intros. rewrite <- rsum_scal.
  apply rsum_ext. intros; ring.
Qed.

Lemma fprod_ext : forall n m A B A' B',
  (forall i j, (i < n)%nat -> (j < m)%nat -> A i j = A' i j) ->
  (forall i j, (i < n)%nat -> (j < m)%nat -> B i j = B' i j) ->
  fprod n m A B = fprod n m A' B'.
Proof. intros. apply rsum_ext; intros; apply rsum_ext; intros. now rewrite H, H0. Qed.

Lemma fnorm_scal : forall n m A c, 0 <= c -> fnorm n m (fun i j => c * A i j) = c * fnorm n m A.
Proof.
  intros n m A c Hc. unfold fnorm. rewrite fprod_scal, fprod_comm, fprod_scal, <- Rmult_assoc.
  rewrite sqrt_mult_alt by nra. now rewrite sqrt_square.
Qed.

(** C23: scaling one matrix by a positive factor changes nothing (norms staying above 1e-8). *)
Lemma pf_C23_scale : forall f g n A B c z, f <> Lil -> g <> Lil -> 0 < c ->
  1/100000000 < fnorm n n (centred n A) -> 1/100000000 < c * fnorm n n (centred n A) ->
  1/100000000 < fnorm n n (centred n B) ->
  alignment_centered (mkArr f (rmat n n (fun i j => c * A i j))) (mkArr g (rmat n n B)) z false
  = alignment_centered (mkArr f (rmat n n A)) (mkArr g (rmat n n B)) z false.
Proof.
  intros f g n A B c z Hf Hg Hc HA HcA HB.
  assert (N : fnorm n n (centred n (fun i j => c * A i j)) = c * fnorm n n (centred n A)).
  { rewrite <- fnorm_scal by lra. unfold fnorm. f_equal. apply fprod_ext; intros; apply centred_scal. }
  rewrite !pf_C23_value by (auto; now rewrite N). rewrite N.
  rewrite (fprod_ext n n (centred n (fun i j => c * A i j)) (centred n B)
     (fun i j => c * centred n A i j) (centred n B)) by (auto; intros; apply centred_scal).
  rewrite fprod_scal. do 2 f_equal. field. repeat split; lra.
Qed.

(** The Frobenius product of PSD matrices is non-negative. *)
Lemma fprod_psd : forall n A B, psd n A -> psd n B -> 0 <= fprod n n A B.
Proof.
  intros n A B HA HB. destruct (psd_schur n A B HA HB) as [_ H]. specialize (H (fun _ => 1)).
  replace (fprod n n A B) with (quad n (fun i j => A i j * B i j) (fun _ => 1)); [assumption|].
  unfold quad, fprod. apply rsum_ext; intros; apply rsum_ext; intros; ring.
Qed.

(** C23: the alignment of positive semidefinite matrices is non-negative. *)
Lemma pf_C23_psd : forall f g n A B z, f <> Lil -> g <> Lil -> psd n A -> psd n B ->
  1/100000000 < fnorm n n (centred n A) -> 1/100000000 < fnorm n n (centred n B) ->
  exists v, alignment_centered (mkArr f (rmat n n A)) (mkArr g (rmat n n B)) z false = Ok (Fin v)
    /\ 0 <= v.
Proof.
  intros f g n A B z Hf Hg PA PB HA HB. eexists. split; [now apply pf_C23_value|].
  unfold Rdiv. apply Rmult_le_pos.
  - apply fprod_psd; now apply centred_psd.
  - left. apply Rinv_0_lt_compat. apply Rmult_lt_0_compat; lra.
Qed.

(** C24: a vanishing centred norm (at most 1e-8) gives ValueError or exactly the caller's value. *)
Lemma pf_C24_vanishing : forall f g n A B z, f <> Lil -> g <> Lil ->
  fnorm n n (centred n A) <= 1/100000000 \/ fnorm n n (centred n B) <= 1/100000000 ->
  alignment_centered (mkArr f (rmat n n A)) (mkArr g (rmat n n B)) z false
  = match z with ZRaise => Raise ValueError | ZValue v => Ok v end.
Proof.
  intros f g n A B z Hf Hg H. unfold alignment_centered, same_shape. cbn [amat].
  simpl mr. simpl mc. rewrite Nat.eqb_refl. cbn [andb negb].
  replace (is_ndarray (mkArr f (rmat n n A))) with true by (destruct f; [reflexivity|contradiction|reflexivity]).
  replace (is_ndarray (mkArr g (rmat n n B))) with true by (destruct g; [reflexivity|contradiction|reflexivity]).
  cbn [andb negb orb]. rewrite !center_finite by assumption. cbn [rbind].
  rewrite !norm_finite by assumption. cbn [rbind].
  destruct H as [H|H]; rewrite (small _ (fnorm_pos _ _ _) H); [|rewrite orb_true_r]; reflexivity.
Qed.

(** C24: the same with centered_already=True, on the norms of the matrices as given. *)
Lemma pf_C24_already_centered : forall f g n m A B z, f <> Lil -> g <> Lil ->
  alignment_centered (mkArr f (rmat n m A)) (mkArr g (rmat n m B)) z true
  = if Rle_dec (fnorm n m A) (1/100000000) then match z with ZRaise => Raise ValueError | ZValue v => Ok v end
    else if Rle_dec (fnorm n m B) (1/100000000) then match z with ZRaise => Raise ValueError | ZValue v => Ok v end
    else Ok (Fin (fprod n m A B / (fnorm n m A * fnorm n m B))).
Proof.
  intros f g n m A B z Hf Hg. unfold alignment_centered, same_shape. cbn [amat].
  simpl mr. simpl mc. rewrite !Nat.eqb_refl. cbn [andb negb].
  replace (is_ndarray (mkArr f (rmat n m A))) with true by (destruct f; [reflexivity|contradiction|reflexivity]).
  replace (is_ndarray (mkArr g (rmat n m B))) with true by (destruct g; [reflexivity|contradiction|reflexivity]).
  cbn [andb negb orb rbind]. rewrite !norm_finite by assumption. cbn [rbind].
  destruct (Rle_dec (fnorm n m A) (1/100000000)) as [HA|HA].
  { rewrite (small _ (fnorm_pos _ _ _) HA). reflexivity. }
  destruct (Rle_dec (fnorm n m B) (1/100000000)) as [HB|HB].
  { rewrite (small _ (fnorm_pos _ _ _) HB), orb_true_r. reflexivity. }
  rewrite !not_small by lra. cbn [orb].
  rewrite frob_finite by assumption. cbn [rbind xmul xdiv].
  destruct (Req_EM_T _ 0) as [E|]; [|reflexivity].
  exfalso. assert (0 < fnorm n m A * fnorm n m B) by (apply Rmult_lt_0_compat; lra). lra.
Qed.

(** C24: unusable input: different shapes (ValueError), then sparse matrices (TypeError), then,
    unless centered_already, non-square matrices (ValueError); these and a vanishing norm are the
    only ways to raise. *)
Lemma pf_C24_rejects : forall a b z already,
  (mr (amat a) <> mr (amat b) \/ mc (amat a) <> mc (amat b) ->
     alignment_centered a b z already = Raise ValueError)
  /\ (mr (amat a) = mr (amat b) -> mc (amat a) = mc (amat b) -> afmt a = Lil \/ afmt b = Lil ->
     alignment_centered a b z already = Raise TypeError)
  /\ (mr (amat a) = mr (amat b) -> mc (amat a) = mc (amat b) -> afmt a <> Lil -> afmt b <> Lil ->
     mr (amat a) <> mc (amat a) -> already = false ->
     alignment_centered a b z already = Raise ValueError).
Proof.
  intros [f A] [g B] z already. cbn [afmt amat]. unfold alignment_centered, same_shape. cbn [amat].
  split; [|split].
  - intros H. replace ((mr A =? mr B)%nat && (mc A =? mc B)%nat) with false; [reflexivity|].
    symmetry. apply andb_false_iff. rewrite !Nat.eqb_neq. assumption.
  - intros -> -> H. rewrite !Nat.eqb_refl. cbn [andb negb].
    replace (negb (is_ndarray (mkArr f A)) || negb (is_ndarray (mkArr g B))) with true; [reflexivity|].
    destruct H as [->| ->]; [reflexivity|]. now destruct f.
  - intros E1 E2 Hf Hg Hsq ->. rewrite E1, E2, !Nat.eqb_refl. cbn [andb negb].
    replace (negb (is_ndarray (mkArr f A)) || negb (is_ndarray (mkArr g B))) with false
      by (destruct f, g; try reflexivity; contradiction).
    destruct (pf_C18_rejects (mkArr f A)) as [[_ R] _]. cbn [amat afmt] in R. rewrite R by auto. reflexivity.
Qed.

(*BEGIN PROP*)
(** C23: matrices meeting the hypotheses: exP centred is [[1/4,-1/4],[-1/4,1/4]], norm 1/2;
    exA centred is [[1,-1],[-1,1]], norm 2; both alignments are 1. *)
Lemma exP_norm : fnorm 2 2 (centred 2 exP) = 1/2.
Proof.
  unfold fnorm, fprod, centred, rowmean, colmean, allmean. simpl.
  match goal with |- sqrt ?a = _ => replace a with ((1/2) * (1/2)) by field end.
  apply sqrt_square. lra.
Qed.
Lemma exA_norm : fnorm 2 2 (centred 2 exA) = 2.
Proof.
  unfold fnorm, fprod, centred, rowmean, colmean, allmean. simpl.
  match goal with |- sqrt ?a = _ => replace a with (2 * 2) by field end.
  apply sqrt_square. lra.
Qed.
Example C23_example :
  alignment_centered (mkArr Dense (rmat 2 2 exP)) (mkArr Dense (rmat 2 2 exA)) ZRaise false = Ok (Fin 1).
Proof.
  rewrite pf_C23_value; try discriminate; rewrite ?exP_norm, ?exA_norm; try lra.
  do 2 f_equal. unfold fprod, centred, rowmean, colmean, allmean. simpl. field.
Qed.
(** C24: the constant matrix has centred norm 0. *)
Example C24_example :
  alignment_centered (mkArr Dense (rmat 2 2 exP)) (mkArr Dense (rmat 2 2 (fun _ _ => 7))) (ZValue (Fin 42)) false
  = Ok (Fin 42).
Proof.
  rewrite pf_C24_vanishing; try discriminate; [reflexivity|]. right.
  unfold fnorm, fprod, centred, rowmean, colmean, allmean. simpl.
  match goal with |- sqrt ?a <= _ => replace a with 0 by field end. rewrite sqrt_0. lra.
Qed.
(*END PROP*)
