(** Properties C18-C26: operations.py.
    Generated by tools/split_props.py from OpsProps.v: statements only, each closed by [exact]. *)
From Coq Require Import String Reals List Bool Arith Lra Lia Psatz.
Import ListNotations.
From Verif Require Import Prelude MatModel MatFacts XReal OpsModel SpecLinAlg RSum PSDFacts OpsFacts.
From Verif Require Import OpsProps.
Local Open Scope R_scope.

(** C18: the entries of the centred matrix, for an ndarray or numpy.matrix of finite numbers. *)
Theorem C18_entries : forall f n A, f <> Lil ->
  center_km (mkArr f (rmat n n A))
  = Ok (mkArr f (rmat n n (fun i j => A i j - rowmean n A i - colmean n A j + allmean n A))).
Proof. exact (@pf_C18_entries). Qed.
Print Assumptions C18_entries.

(** C18: every row and every column of the centred matrix sums to zero. *)
Theorem C18_sums_zero : forall f n A B, center_km (mkArr f (rmat n n A)) = Ok B ->
  forall i, (i < n)%nat ->
    xsum (map (fun j => xget (amat B) i j) (seq 0 n)) = Fin 0
    /\ xsum (map (fun j => xget (amat B) j i) (seq 0 n)) = Fin 0.
Proof. exact (@pf_C18_sums_zero). Qed.
Print Assumptions C18_sums_zero.

(** C18: centering a centred matrix changes nothing. *)
Theorem C18_idempotent : forall f n A B,
  center_km (mkArr f (rmat n n A)) = Ok B -> center_km B = Ok B.
Proof. exact (@pf_C18_idempotent). Qed.
Print Assumptions C18_idempotent.

(** C18: adding a constant to all entries changes nothing. *)
Theorem C18_shift : forall f n A c,
  center_km (mkArr f (rmat n n (fun i j => A i j + c))) = center_km (mkArr f (rmat n n A)).
Proof. exact (@pf_C18_shift). Qed.
Print Assumptions C18_shift.

(** C18: symmetry is preserved. *)
Theorem C18_symmetric : forall f n A, f <> Lil -> symmetric n A ->
  exists B, center_km (mkArr f (rmat n n A)) = Ok (mkArr f (rmat n n B)) /\ symmetric n B.
Proof. exact (@pf_C18_symmetric). Qed.
Print Assumptions C18_symmetric.

(** C18: positive semidefiniteness is preserved. *)
Theorem C18_psd : forall f n A, f <> Lil -> psd n A ->
  exists B, center_km (mkArr f (rmat n n A)) = Ok (mkArr f (rmat n n B)) /\ psd n B.
Proof. exact (@pf_C18_psd). Qed.
Print Assumptions C18_psd.

(** C18: for arbitrary entries (also infinite or NaN), center_km raises only ValueError, and
    exactly for non-square or non-ndarray (sparse) input. *)
Theorem C18_rejects : forall a,
  (center_km a = Raise ValueError <-> mr (amat a) <> mc (amat a) \/ afmt a = Lil)
  /\ (forall e, center_km a = Raise e -> e = ValueError).
Proof. exact (@pf_C18_rejects). Qed.
Print Assumptions C18_rejects.

(** C18 on a concrete non-symmetric 2x2 matrix: [[1,2],[4,9]]. *)
Definition exA (i j : nat) : R :=
  match i, j with 0%nat, 0%nat => 1 | 0%nat, _ => 2 | _, 0%nat => 4 | _, _ => 9 end.
Example C18_example :
  center_km (mkArr Dense (rmat 2 2 exA))
  = Ok (mkArr Dense (rmat 2 2 (fun i j => if Nat.eqb i j then 1 else -1))).
Proof.
  rewrite center_finite by discriminate. do 2 f_equal. apply rmat_ext.
  intros [|[|i]] [|[|j]] Hi Hj; try lia;
    unfold centred, rowmean, colmean, allmean; simpl; lra.
Qed.
Example C18_example_rejected :
  center_km (mkArr Dense (rmat 2 3 (fun _ _ => 1))) = Raise ValueError.
Proof. reflexivity. Qed.
(** A symmetric PSD matrix which is not centred: [[2,1],[1,1]]. *)
Definition exP (i j : nat) : R :=
  match i, j with 0%nat, 0%nat => 2 | 0%nat, _ => 1 | _, 0%nat => 1 | _, _ => 1 end.
Example C18_example_psd : psd 2 exP.
Proof.
  split.
  - intros [|[|i]] [|[|j]] Hi Hj; try lia; reflexivity.
  - intros c. unfold quad; simpl.
    match goal with |- 0 <= ?x => replace x with ((c 0%nat)*(c 0%nat) + (c 0%nat + c 1%nat)*(c 0%nat + c 1%nat)) by ring end.
    assert (H := Rle_0_sqr (c 0%nat)). assert (H' := Rle_0_sqr (c 0%nat + c 1%nat)).
    unfold Rsqr in *. lra.
Qed.

(** C21: with both samples equal, two-sample normalisation is one-sample normalisation, for
    every method name and arbitrary entries. *)
Theorem C21_agrees_with_one_sample : forall meth a, mr (amat a) = mc (amat a) ->
  normalize_km_2sample meth a (diagonal_of (amat a)) (diagonal_of (amat a)) = normalize_km meth a.
Proof. exact (@pf_C21_agrees_with_one_sample). Qed.
Print Assumptions C21_agrees_with_one_sample.

(** C19: entries of the normalised matrix, for any storage format (a sparse matrix gives a
    dense result). *)
Theorem C19_entries : forall meth f n A, lower meth = "cosine"%string ->
  (forall i, (i < n)%nat -> 1/100000000 < A i i) ->
  normalize_km meth (mkArr f (rmat n n A))
  = Ok (mkArr (match f with Lil => Dense | _ => f end)
              (rmat n n (fun i j => A i j / sqrt (A i i * A j j)))).
Proof. exact (@pf_C19_entries). Qed.
Print Assumptions C19_entries.

(** C19: the normalised matrix has a unit diagonal. *)
Theorem C19_unit_diagonal : forall meth f n A B, lower meth = "cosine"%string ->
  (forall i, (i < n)%nat -> 1/100000000 < A i i) ->
  normalize_km meth (mkArr f (rmat n n A)) = Ok B ->
  forall i, (i < n)%nat -> xget (amat B) i i = Fin 1.
Proof. exact (@pf_C19_unit_diagonal). Qed.
Print Assumptions C19_unit_diagonal.

(** C19: symmetry is preserved. *)
Theorem C19_symmetric : forall meth f n A, lower meth = "cosine"%string ->
  (forall i, (i < n)%nat -> 1/100000000 < A i i) -> symmetric n A ->
  exists g B, normalize_km meth (mkArr f (rmat n n A)) = Ok (mkArr g (rmat n n B)) /\ symmetric n B.
Proof. exact (@pf_C19_symmetric). Qed.
Print Assumptions C19_symmetric.

(** C19: positive semidefiniteness is preserved and then all entries lie in [-1, 1]. *)
Theorem C19_psd : forall meth f n A, lower meth = "cosine"%string ->
  (forall i, (i < n)%nat -> 1/100000000 < A i i) -> psd n A ->
  exists g B, normalize_km meth (mkArr f (rmat n n A)) = Ok (mkArr g (rmat n n B))
    /\ psd n B /\ forall i j, (i < n)%nat -> (j < n)%nat -> -1 <= B i j <= 1.
Proof. exact (@pf_C19_psd). Qed.
Print Assumptions C19_psd.

(** C19: normalising again changes nothing. *)
Theorem C19_idempotent : forall meth f n A B, lower meth = "cosine"%string ->
  (forall i, (i < n)%nat -> 1/100000000 < A i i) ->
  normalize_km meth (mkArr f (rmat n n A)) = Ok B -> normalize_km meth B = Ok B.
Proof. exact (@pf_C19_idempotent). Qed.
Print Assumptions C19_idempotent.

(** C19: rescaling by a positive factor (diagonals staying above 1e-8) changes nothing. *)
Theorem C19_scale_invariant : forall meth f n A c, lower meth = "cosine"%string -> 0 < c ->
  (forall i, (i < n)%nat -> 1/100000000 < A i i /\ 1/100000000 < c * A i i) ->
  normalize_km meth (mkArr f (rmat n n (fun i j => c * A i j)))
  = normalize_km meth (mkArr f (rmat n n A)).
Proof. exact (@pf_C19_scale_invariant). Qed.
Print Assumptions C19_scale_invariant.

(** C19 on a concrete PSD matrix: [[2,1],[1,1]] given as a sparse matrix. *)
Example C19_example :
  normalize_km "Cosine" (mkArr Lil (rmat 2 2 exP))
  = Ok (mkArr Dense (rmat 2 2 (fun i j => if Nat.eqb i j then 1 else / sqrt 2))).
Proof.
  rewrite pf_C19_entries.
  - do 2 f_equal. apply rmat_ext. intros [|[|i]] [|[|j]] Hi Hj; try lia; simpl.
    + rewrite sqrt_square by lra. lra.
    + rewrite Rmult_1_r. lra.
    + rewrite Rmult_1_l. lra.
    + rewrite Rmult_1_l, sqrt_1. lra.
  - reflexivity.
  - intros [|[|i]] Hi; try lia; simpl; lra.
Qed.

(** C20: non-square input raises ValueError whatever the method name and the entries. *)
Theorem C20_nonsquare : forall meth a, mr (amat a) <> mc (amat a) ->
  normalize_km meth a = Raise ValueError.
Proof. exact (@pf_C20_nonsquare). Qed.
Print Assumptions C20_nonsquare.

(** C20: on square input KMNormError is raised exactly when the method is cosine and some
    diagonal entry is within 1e-8 of zero. *)
Theorem C20_norm_error_iff : forall meth a, mr (amat a) = mc (amat a) ->
  (normalize_km meth a = Raise KMNormError <->
   lower meth = "cosine"%string /\
   exists i r, (i < mr (amat a))%nat /\ xget (amat a) i i = Fin r /\ Rabs r <= 1/100000000).
Proof. exact (@pf_C20_norm_error_iff). Qed.
Print Assumptions C20_norm_error_iff.

(** C20: any other method name raises NotImplementedError on square input. *)
Theorem C20_other_method : forall meth a, mr (amat a) = mc (amat a) ->
  lower meth <> "cosine"%string -> normalize_km meth a = Raise NotImplementedErr.
Proof. exact (@pf_C20_other_method). Qed.
Print Assumptions C20_other_method.

(** C20: these are the only failures, whatever the entries (also infinite or NaN). *)
Theorem C20_otherwise_succeeds : forall meth a e, normalize_km meth a = Raise e ->
  (mr (amat a) <> mc (amat a) /\ e = ValueError)
  \/ (mr (amat a) = mc (amat a) /\ lower meth <> "cosine"%string /\ e = NotImplementedErr)
  \/ (mr (amat a) = mc (amat a) /\ lower meth = "cosine"%string /\ e = KMNormError).
Proof. exact (@pf_C20_otherwise_succeeds). Qed.
Print Assumptions C20_otherwise_succeeds.

(** C20: a diagonal entry below -1e-8 makes exactly its row and its column NaN; all other
    entries are as usual. *)
Theorem C20_negative_diagonal : forall meth f n A, lower meth = "cosine"%string ->
  (forall i, (i < n)%nat -> 1/100000000 < Rabs (A i i)) ->
  exists B, normalize_km meth (mkArr f (rmat n n A)) = Ok B /\
    forall i j, (i < n)%nat -> (j < n)%nat ->
      ((A i i < 0 \/ A j j < 0) /\ xget (amat B) i j = NaN)
      \/ (0 < A i i /\ 0 < A j j /\ xget (amat B) i j = Fin (A i j / sqrt (A i i * A j j))).
Proof. exact (@pf_C20_negative_diagonal). Qed.
Print Assumptions C20_negative_diagonal.

(** C20: method names are compared case-insensitively. *)
Example C20_example_case : lower "CoSINE" = "cosine"%string.
Proof. reflexivity. Qed.
(** C20: a diagonal entry of 1e-9 is refused, even though 1/sqrt(1e-9) is a fine number. *)
Example C20_example_zero :
  normalize_km "cosine" (mkArr Dense (rmat 1 1 (fun _ _ => 1/1000000000))) = Raise KMNormError.
Proof.
  apply pf_C20_norm_error_iff; [reflexivity|]. split; [reflexivity|].
  exists 0%nat, (1/1000000000). split; [simpl; lia|]. split; [reflexivity|].
  rewrite Rabs_pos_eq; lra.
Qed.
(** C20: a matrix meeting the hypotheses with a negative diagonal entry. *)
Example C20_example_negative :
  exists B, normalize_km "cosine" (mkArr Dense (rmat 2 2
      (fun i j => if Nat.eqb (i + j) 0 then -4 else 1))) = Ok B
    /\ xget (amat B) 0 1 = NaN /\ xget (amat B) 1 1 = Fin (1 / sqrt (1 * 1)).
Proof.
  destruct (pf_C20_negative_diagonal "cosine" Dense 2 (fun i j => if Nat.eqb (i + j) 0 then -4 else 1))
    as (B & HB & H).
  - reflexivity.
  - intros [|[|i]] Hi; try lia; simpl.
    + rewrite Rabs_left by lra. lra.
    + rewrite Rabs_pos_eq by lra. lra.
  - exists B. split; [exact HB|]. split.
    + destruct (H 0%nat 1%nat) as [[_ E]|[E _]]; try lia; [exact E|simpl in E; lra].
    + destruct (H 1%nat 1%nat) as [[[E|E] _]|(_ & _ & E)]; try lia; try (simpl in E; lra). exact E.
Qed.

(** C21: entries of the two-sample normalised matrix. *)
Theorem C21_entries : forall meth f n m A dx dy, lower meth = "cosine"%string -> f <> Lil ->
  (forall i, (i < n)%nat -> 1/100000000 < dx i) ->
  (forall j, (j < m)%nat -> 1/100000000 < dy j) ->
  normalize_km_2sample meth (mkArr f (rmat n m A))
     (map (fun i => Fin (dx i)) (seq 0 n)) (map (fun j => Fin (dy j)) (seq 0 m))
  = Ok (mkArr f (rmat n m (fun i j => A i j / sqrt (dx i * dy j)))).
Proof. exact (@pf_C21_entries). Qed.
Print Assumptions C21_entries.

(** C21: which inputs are refused, and how: wrong lengths (ValueError, checked first), an unknown
    method (NotImplementedError), a self-similarity within 1e-8 of zero (KMNormError); nothing
    else raises. *)
Theorem C21_failures : forall meth a dx dy,
  let bad_shape := length dx <> mr (amat a) \/ length dy <> mc (amat a) in
  let zero v := exists i r, (i < length v)%nat /\ nth i v NaN = Fin r /\ Rabs r <= 1/100000000 in
  (normalize_km_2sample meth a dx dy = Raise ValueError <-> bad_shape) /\
  (normalize_km_2sample meth a dx dy = Raise NotImplementedErr
     <-> ~ bad_shape /\ lower meth <> "cosine"%string) /\
  (normalize_km_2sample meth a dx dy = Raise KMNormError
     <-> ~ bad_shape /\ lower meth = "cosine"%string /\ (zero dx \/ zero dy)) /\
  (forall e, normalize_km_2sample meth a dx dy = Raise e ->
     e = ValueError \/ e = NotImplementedErr \/ e = KMNormError).
Proof. exact (@pf_C21_failures). Qed.
Print Assumptions C21_failures.

(** C21 on a concrete 1x2 matrix. *)
Example C21_example :
  normalize_km_2sample "cosine" (mkArr Dense (rmat 1 2 (fun _ j => INR j + 1))) [Fin 4] [Fin 1; Fin 9]
  = Ok (mkArr Dense (rmat 1 2 (fun _ j => match j with 0%nat => 1/2 | _ => 1/3 end))).
Proof.
  assert (E := pf_C21_entries "cosine" Dense 1 2 (fun _ j => INR j + 1) (fun _ => 4)
      (fun j => match j with 0%nat => 1 | _ => 9 end)).
  simpl map in E. rewrite E; try reflexivity; try discriminate.
  - do 2 f_equal. apply rmat_ext. intros [|i] [|[|j]] Hi Hj; try lia; simpl.
    + replace (4 * 1) with (2 * 2) by ring. rewrite sqrt_square by lra. lra.
    + replace (4 * 9) with (6 * 6) by ring. rewrite sqrt_square by lra. lra.
  - intros; lra.
  - intros [|[|j]] Hj; lra.
Qed.

(** C22: for finite ndarrays (or numpy.matrix) of equal shape, the product is the sum of the
    entrywise products and the norm the root of the sum of squares. *)
Theorem C22_values : forall f g n m A B, f <> Lil -> g <> Lil ->
  frobenius_product (mkArr f (rmat n m A)) (mkArr g (rmat n m B))
    = Ok (Fin (rsum n (fun i => rsum m (fun j => A i j * B i j))))
  /\ frobenius_norm (mkArr f (rmat n m A))
    = Ok (Fin (sqrt (rsum n (fun i => rsum m (fun j => A i j * A i j))))).
Proof. exact (@pf_C22_values). Qed.
Print Assumptions C22_values.

(** C22: symmetric, for arbitrary entries (also infinite or NaN). *)
Theorem C22_symmetric : forall a b, afmt a <> Lil -> afmt b <> Lil ->
  frobenius_product a b = frobenius_product b a.
Proof. exact (@pf_C22_symmetric). Qed.
Print Assumptions C22_symmetric.

(** C22: linear in the first argument (hence, with symmetry, bilinear). *)
Theorem C22_bilinear : forall n m A B C s t,
  exists p q, frobenius_product (mkArr Dense (rmat n m A)) (mkArr Dense (rmat n m C)) = Ok (Fin p)
  /\ frobenius_product (mkArr Dense (rmat n m B)) (mkArr Dense (rmat n m C)) = Ok (Fin q)
  /\ frobenius_product (mkArr Dense (rmat n m (fun i j => s * A i j + t * B i j)))
                       (mkArr Dense (rmat n m C)) = Ok (Fin (s * p + t * q)).
Proof. exact (@pf_C22_bilinear). Qed.
Print Assumptions C22_bilinear.

(** C22: Cauchy-Schwarz. *)
Theorem C22_cauchy_schwarz : forall n m A B,
  exists p a b, frobenius_product (mkArr Dense (rmat n m A)) (mkArr Dense (rmat n m B)) = Ok (Fin p)
  /\ frobenius_norm (mkArr Dense (rmat n m A)) = Ok (Fin a)
  /\ frobenius_norm (mkArr Dense (rmat n m B)) = Ok (Fin b)
  /\ Rabs p <= a * b.
Proof. exact (@pf_C22_cauchy_schwarz). Qed.
Print Assumptions C22_cauchy_schwarz.

(** C22: the norm is non-negative, and zero only for the zero matrix. *)
Theorem C22_norm_definite : forall n m A,
  exists v, frobenius_norm (mkArr Dense (rmat n m A)) = Ok (Fin v) /\ 0 <= v
  /\ (v = 0 <-> forall i j, (i < n)%nat -> (j < m)%nat -> A i j = 0).
Proof. exact (@pf_C22_norm_definite). Qed.
Print Assumptions C22_norm_definite.

(** C22: different shapes raise ValueError, and for ndarrays nothing else raises. *)
Theorem C22_shapes : forall a b, afmt a <> Lil ->
  (frobenius_product a b = Raise ValueError
     <-> mr (amat a) <> mr (amat b) \/ mc (amat a) <> mc (amat b))
  /\ (forall e, frobenius_product a b = Raise e -> e = ValueError).
Proof. exact (@pf_C22_shapes). Qed.
Print Assumptions C22_shapes.

(** C22 fails for scipy.sparse input: the "norm" of a non-zero sparse matrix can be 0 (numpy
    multiplies sparse matrices as matrices, not entrywise). *)
Theorem C22_refuted_sparse : exists n A,
  (exists i j, (i < n)%nat /\ (j < n)%nat /\ A i j <> 0)
  /\ frobenius_norm (mkArr Lil (rmat n n A)) = Ok (Fin 0)
  /\ frobenius_norm (mkArr Dense (rmat n n A)) = Ok (Fin 1).
Proof. exact (@pf_C22_refuted_sparse). Qed.
Print Assumptions C22_refuted_sparse.

(** C22 on concrete matrices: <[[1,2],[4,9]], [[2,1],[1,1]]> = 2+2+4+9 = 17. *)
Example C22_example :
  frobenius_product (mkArr Dense (rmat 2 2 exA)) (mkArr NpMatrix (rmat 2 2 exP)) = Ok (Fin 17).
Proof. rewrite frob_finite by discriminate. unfold fprod; simpl. do 2 f_equal. lra. Qed.

(** C23: the value of the centred alignment of two finite matrices whose centred norms exceed
    1e-8; the value_if_zero_division argument is then irrelevant. *)
Theorem C23_value : forall f g n A B z, f <> Lil -> g <> Lil ->
  1/100000000 < fnorm n n (centred n A) -> 1/100000000 < fnorm n n (centred n B) ->
  alignment_centered (mkArr f (rmat n n A)) (mkArr g (rmat n n B)) z false
  = Ok (Fin (fprod n n (centred n A) (centred n B)
             / (fnorm n n (centred n A) * fnorm n n (centred n B)))).
Proof. exact (@pf_C23_value). Qed.
Print Assumptions C23_value.

(** C23: the alignment lies in [-1, 1]. *)
Theorem C23_range : forall f g n A B z, f <> Lil -> g <> Lil ->
  1/100000000 < fnorm n n (centred n A) -> 1/100000000 < fnorm n n (centred n B) ->
  exists v, alignment_centered (mkArr f (rmat n n A)) (mkArr g (rmat n n B)) z false = Ok (Fin v)
    /\ -1 <= v <= 1.
Proof. exact (@pf_C23_range). Qed.
Print Assumptions C23_range.

(** C23: symmetric in its two matrices, for arbitrary input (any format, shape and entries). *)
Theorem C23_symmetric : forall a b z already,
  alignment_centered a b z already = alignment_centered b a z already.
Proof. exact (@pf_C23_symmetric). Qed.
Print Assumptions C23_symmetric.

(** C23: a matrix has alignment 1 with itself. *)
Theorem C23_self : forall f n A z, f <> Lil -> 1/100000000 < fnorm n n (centred n A) ->
  alignment_centered (mkArr f (rmat n n A)) (mkArr f (rmat n n A)) z false = Ok (Fin 1).
Proof. exact (@pf_C23_self). Qed.
Print Assumptions C23_self.

(** C23: adding a constant to all entries of one matrix changes nothing (whatever the norms;
    with symmetry, the same holds for the other matrix). *)
Theorem C23_shift : forall f n A c b z,
  alignment_centered (mkArr f (rmat n n (fun i j => A i j + c))) b z false
  = alignment_centered (mkArr f (rmat n n A)) b z false.
Proof. exact (@pf_C23_shift). Qed.
Print Assumptions C23_shift.

(** C23: scaling one matrix by a positive factor changes nothing (norms staying above 1e-8). *)
Theorem C23_scale : forall f g n A B c z, f <> Lil -> g <> Lil -> 0 < c ->
  1/100000000 < fnorm n n (centred n A) -> 1/100000000 < c * fnorm n n (centred n A) ->
  1/100000000 < fnorm n n (centred n B) ->
  alignment_centered (mkArr f (rmat n n (fun i j => c * A i j))) (mkArr g (rmat n n B)) z false
  = alignment_centered (mkArr f (rmat n n A)) (mkArr g (rmat n n B)) z false.
Proof. exact (@pf_C23_scale). Qed.
Print Assumptions C23_scale.

(** C23: the alignment of positive semidefinite matrices is non-negative. *)
Theorem C23_psd : forall f g n A B z, f <> Lil -> g <> Lil -> psd n A -> psd n B ->
  1/100000000 < fnorm n n (centred n A) -> 1/100000000 < fnorm n n (centred n B) ->
  exists v, alignment_centered (mkArr f (rmat n n A)) (mkArr g (rmat n n B)) z false = Ok (Fin v)
    /\ 0 <= v.
Proof. exact (@pf_C23_psd). Qed.
Print Assumptions C23_psd.

(** C24: a vanishing centred norm (at most 1e-8) gives ValueError or exactly the caller's value. *)
Theorem C24_vanishing : forall f g n A B z, f <> Lil -> g <> Lil ->
  fnorm n n (centred n A) <= 1/100000000 \/ fnorm n n (centred n B) <= 1/100000000 ->
  alignment_centered (mkArr f (rmat n n A)) (mkArr g (rmat n n B)) z false
  = match z with ZRaise => Raise ValueError | ZValue v => Ok v end.
Proof. exact (@pf_C24_vanishing). Qed.
Print Assumptions C24_vanishing.

(** C24: the same with centered_already=True, on the norms of the matrices as given. *)
Theorem C24_already_centered : forall f g n m A B z, f <> Lil -> g <> Lil ->
  alignment_centered (mkArr f (rmat n m A)) (mkArr g (rmat n m B)) z true
  = if Rle_dec (fnorm n m A) (1/100000000) then match z with ZRaise => Raise ValueError | ZValue v => Ok v end
    else if Rle_dec (fnorm n m B) (1/100000000) then match z with ZRaise => Raise ValueError | ZValue v => Ok v end
    else Ok (Fin (fprod n m A B / (fnorm n m A * fnorm n m B))).
Proof. exact (@pf_C24_already_centered). Qed.
Print Assumptions C24_already_centered.

(** C24: unusable input: different shapes (ValueError), then sparse matrices (TypeError), then,
    unless centered_already, non-square matrices (ValueError); these and a vanishing norm are the
    only ways to raise. *)
Theorem C24_rejects : forall a b z already,
  (mr (amat a) <> mr (amat b) \/ mc (amat a) <> mc (amat b) ->
     alignment_centered a b z already = Raise ValueError)
  /\ (mr (amat a) = mr (amat b) -> mc (amat a) = mc (amat b) -> afmt a = Lil \/ afmt b = Lil ->
     alignment_centered a b z already = Raise TypeError)
  /\ (mr (amat a) = mr (amat b) -> mc (amat a) = mc (amat b) -> afmt a <> Lil -> afmt b <> Lil ->
     mr (amat a) <> mc (amat a) -> already = false ->
     alignment_centered a b z already = Raise ValueError).
Proof. exact (@pf_C24_rejects). Qed.
Print Assumptions C24_rejects.

(** C23: matrices meeting the hypotheses: exP centred is [[1/4,-1/4],[-1/4,1/4]], norm 1/2;
    exA centred is [[1,-1],[-1,1]], norm 2; both alignments are 1. *)
Lemma exP_norm : fnorm 2 2 (centred 2 exP) = 1/2.
Proof.
  unfold fnorm, fprod, centred, rowmean, colmean, allmean. simpl.
  match goal with |- sqrt ?a = _ => replace a with ((1/2) * (1/2)) by field end.
  apply sqrt_square. lra.
Qed.
Lemma exA_norm : fnorm 2 2 (centred 2 exA) = 2.
Proof.
  unfold fnorm, fprod, centred, rowmean, colmean, allmean. simpl.
  match goal with |- sqrt ?a = _ => replace a with (2 * 2) by field end.
  apply sqrt_square. lra.
Qed.
Example C23_example :
  alignment_centered (mkArr Dense (rmat 2 2 exP)) (mkArr Dense (rmat 2 2 exA)) ZRaise false = Ok (Fin 1).
Proof.
  rewrite pf_C23_value; try discriminate; rewrite ?exP_norm, ?exA_norm; try lra.
  do 2 f_equal. unfold fprod, centred, rowmean, colmean, allmean. simpl. field.
Qed.
(** C24: the constant matrix has centred norm 0. *)
Example C24_example :
  alignment_centered (mkArr Dense (rmat 2 2 exP)) (mkArr Dense (rmat 2 2 (fun _ _ => 7))) (ZValue (Fin 42)) false
  = Ok (Fin 42).
Proof.
  rewrite pf_C24_vanishing; try discriminate; [reflexivity|]. right.
  unfold fnorm, fprod, centred, rowmean, colmean, allmean. simpl.
  match goal with |- sqrt ?a <= _ => replace a with 0 by field end. rewrite sqrt_0. lra.
Qed.
