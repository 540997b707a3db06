(** Exact values where the other theorems assume finite or square input: sparse Frobenius products (C22), the
    diagonal of a precomputed row (C46), HadamardKernel on infinite and NaN features (C95). *)
From Coq Require Import String Reals List Bool Arith Lra Lia Psatz.
Import ListNotations.
From Verif Require Import Prelude MatModel MatFacts UtilsModel KMModel XReal OpsModel KMXModel SetModel SpecSet SpecLinAlg RSum PSDFacts OpsFacts.
From Verif Require Import KernelsModel KernelFacts ContProps.
Local Open Scope R_scope.

(** C22 for two scipy.sparse matrices: what is returned is the sum of the entries of their MATRIX product; it
    exists for square matrices only. *)
Lemma pf_C22_sparse : forall n m A B,
  frobenius_product (mkArr Lil (rmat n m A)) (mkArr Lil (rmat n m B)) =
  if (n =? m)%nat then Ok (Fin (rsum n (fun i => rsum n (fun j => rsum n (fun k => A i k * B k j)))))
  else Raise ValueError.
Proof.
  intros n m A B. unfold frobenius_product. cbn [amat rmat tabulate mr mc is_sparse afmt andb].
  unfold same_shape. cbn [mr mc]. rewrite !Nat.eqb_refl. cbn [andb negb].
  rewrite (Nat.eqb_sym m n). destruct (n =? m)%nat eqn:E; [|reflexivity]. apply Nat.eqb_eq in E. subst m.
  f_equal. rewrite <- msum_rmat. f_equal. apply tabulate_ext. intros i j Hi Hj. cbn [mc].
  rewrite xsum_filter_if. apply xsum_fin_ext. intros k Hk.
  change (tabulate n n (fun i j => Fin (A i j))) with (rmat n n A).
  change (tabulate n n (fun i j => Fin (B i j))) with (rmat n n B).
  rewrite !xget_rmat by assumption. unfold nonzero, xeqb, Reqb.
  destruct (Req_EM_T (A i k) 0) as [Ea|Ea]; [cbn [negb andb]; rewrite Ea; f_equal; ring|].
  destruct (Req_EM_T (B k j) 0) as [Eb|Eb]; [cbn [negb andb]; rewrite Eb; f_equal; ring|]. reflexivity.
Qed.

(** C46: whatever the shape of an accepted array (C46_one_row), full is the array, diag its diagonal, which
    ends with the shorter side, and size its number of rows. *)
Lemma pf_C46_observers_any : forall n m (f : nat -> nat -> xr) A,
  precomputed_new xC NaN (array2 n m f) = Ok A ->
  precomputed_full A = mkArr Dense (tabulate n m f) /\
  precomputed_diag NaN A = map (fun i => f i i) (seq 0 (Nat.min n m)) /\ precomputed_size A = n.
Proof.
  intros n m f A H.
  assert (HA : A = tabulate n m f).
  { rewrite precomputed_array2 in H.
    destruct (is_symmetric xC NaN (tabulate n m f)) as [b|e]; [|discriminate]. cbn [rbind] in H.
    destruct (negb b || _); [discriminate|]. congruence. }
  subst A. split; [reflexivity|]. split; [|reflexivity].
  unfold precomputed_diag. change (mr (tabulate n m f)) with n. change (mc (tabulate n m f)) with m.
  apply map_ext_in. intros i Hi. apply in_seq in Hi. apply mget_tabulate; lia.
Qed.

(*BEGIN PROP*)
(** |v|^alpha where it is a number: for alpha > 0 every finite v, for alpha < 0 every v but 0 (an infinite one
    counts 0). [None] where it is infinite. *)
Definition magnitude (alpha : R) (v : xr) : option R :=
  match v with
  | Fin r => if Req_EM_T r 0 then (if Rlt_dec 0 alpha then Some 0 else None) else Some (Rpower (Rabs r) alpha)
  | _ => if Rlt_dec 0 alpha then None else Some 0
  end.

(** What a feature adds: half the harmonic kernel of the magnitudes, nothing if both vanish or one value is
    NaN; no number if a magnitude is infinite. *)
Definition hadamard_term (alpha : R) (u v : xr) : option R :=
  match u, v with
  | NaN, _ | _, NaN => Some 0
  | _, _ =>
      match magnitude alpha u, magnitude alpha v with
      | Some a, Some b => Some (if Req_EM_T (a + b) 0 then 0 else a * b / (2 * (a + b)))
      | _, _ => None
      end
  end.
(*END PROP*)

Lemma xpower_magnitude : forall alpha v, alpha <> 0 -> v <> NaN ->
  xpower (xabs v) alpha = match magnitude alpha v with Some a => Fin a | None => PInf end.
Proof.
  intros alpha v Ha Hv. unfold xpower, magnitude. destruct (Req_EM_T alpha 0); [contradiction|].
  destruct v as [r| | |]; cbn [xabs].
  - destruct (Req_EM_T r 0) as [E|E].
    + subst r. rewrite Rabs_R0. destruct (Req_EM_T 0 0); [|lra].
      destruct (Rlt_dec alpha 0), (Rlt_dec 0 alpha); try lra; reflexivity.
    + destruct (Req_EM_T (Rabs r) 0) as [E'|E']; [|reflexivity]. exfalso. exact (Rabs_no_R0 r E E').
  - destruct (Rlt_dec alpha 0), (Rlt_dec 0 alpha); try lra; reflexivity.
  - destruct (Rlt_dec alpha 0), (Rlt_dec 0 alpha); try lra; reflexivity.
  - congruence.
Qed.

Lemma magnitude_nonneg : forall alpha v a, magnitude alpha v = Some a -> 0 <= a.
Proof.
  intros alpha v a H. unfold magnitude in H. destruct v as [r| | |].
  - destruct (Req_EM_T r 0); [destruct (Rlt_dec 0 alpha); inversion H; lra|].
    injection H as <-. left. apply exp_pos.
  - destruct (Rlt_dec 0 alpha); inversion H; lra.
  - destruct (Rlt_dec 0 alpha); inversion H; lra.
  - destruct (Rlt_dec 0 alpha); inversion H; lra.
Qed.

Lemma xpower_nan : forall alpha, alpha <> 0 -> xpower (xabs NaN) alpha = NaN.
Proof. intros alpha Ha. unfold xpower. destruct (Req_EM_T alpha 0); [contradiction|reflexivity]. Qed.

Lemma hadamard_term_model : forall alpha u v, alpha <> 0 ->
  let a := xpower (xabs u) alpha in let b := xpower (xabs v) alpha in
  (if xltb (Fin 0) (xmul (Fin 2) (xadd a b)) then xdiv (xmul a b) (xmul (Fin 2) (xadd a b)) else Fin 0) =
  match hadamard_term alpha u v with Some t => Fin t | None => NaN end.
Proof.
  intros alpha u v Ha. cbv zeta.
  assert (D : forall w : xr, {w = NaN} + {w <> NaN}) by (intros [r| | |]; [right|right|right|left]; congruence).
  destruct (D u) as [->|Hu].
  { rewrite xpower_nan by exact Ha. reflexivity. }
  destruct (D v) as [->|Hv].
  { rewrite xpower_nan by exact Ha. destruct (xpower (xabs u) alpha) as [r| | |], u; reflexivity. }
  rewrite !xpower_magnitude by assumption.
  replace (hadamard_term alpha u v) with
    (match magnitude alpha u, magnitude alpha v with
      | Some a, Some b => Some (if Req_EM_T (a + b) 0 then 0 else a * b / (2 * (a + b)))
      | _, _ => None
      end) by (destruct u, v; congruence || reflexivity).
  assert (S2 : signed_inf 2 = PInf) by (unfold signed_inf; destruct (Rlt_dec 0 2); [reflexivity|lra]).
  destruct (magnitude alpha u) as [a|] eqn:Ea, (magnitude alpha v) as [b|] eqn:Eb.
  - apply magnitude_nonneg in Ea. apply magnitude_nonneg in Eb. cbn [xadd xmul xltb]. unfold Rltb.
    destruct (Rlt_dec 0 (2 * (a + b))), (Req_EM_T (a + b) 0); try lra; [|reflexivity].
    cbn [xdiv]. destruct (Req_EM_T (2 * (a + b)) 0); [lra|reflexivity].
  - cbn [xadd xmul]. rewrite S2. cbn [xltb]. unfold signed_inf.
    destruct (Rlt_dec 0 a), (Rlt_dec a 0); reflexivity.
  - cbn [xadd xmul]. rewrite S2. cbn [xltb]. unfold signed_inf.
    destruct (Rlt_dec 0 b), (Rlt_dec b 0); reflexivity.
  - cbn [xadd xmul]. rewrite S2. reflexivity.
Qed.

(** HadamardKernel on any features, also infinite or NaN ones, for every alpha its constructor accepts and
    more: the sum of what the features add, NaN as soon as one of them has no number to add. *)
Lemma pf_C95_hadamard_exact : forall alpha d (x y : nat -> xr), alpha <> 0 ->
  ((forall k, (k < d)%nat -> hadamard_term alpha (x k) (y k) <> None) ->
     kernel_value (KHadamard alpha) (map x (seq 0 d)) (map y (seq 0 d)) =
     Ok (Fin (rsum d (fun k => match hadamard_term alpha (x k) (y k) with Some t => t | None => 0 end)))) /\
  ((exists k, (k < d)%nat /\ hadamard_term alpha (x k) (y k) = None) ->
     kernel_value (KHadamard alpha) (map x (seq 0 d)) (map y (seq 0 d)) = Ok NaN).
Proof.
  intros alpha d x y Ha.
  assert (HV : kernel_value (KHadamard alpha) (map x (seq 0 d)) (map y (seq 0 d)) =
    Ok (xsum (map (fun k => match hadamard_term alpha (x k) (y k) with Some t => Fin t | None => NaN end) (seq 0 d)))).
  { cbn [kernel_value]. f_equal. unfold hadamard_value. rewrite !map_map, zip_map, zip_seq, xsum_filter_if, map_map.
    f_equal. apply map_ext. intros k. cbn [fst snd]. apply hadamard_term_model. exact Ha. }
  rewrite HV. split.
  - intros H. f_equal. apply xsum_fin_ext. intros k Hk. specialize (H k Hk).
    destruct (hadamard_term alpha (x k) (y k)); [reflexivity|congruence].
  - intros (k & Hk & E). f_equal. apply xsum_nan. apply in_map_iff. exists k. rewrite E. split; [reflexivity|].
    apply in_seq. lia.
Qed.

(** With alpha = -1: an infinite feature adds nothing, a zero makes the value NaN, a NaN is left out;
    with alpha = 1 an infinite feature makes it NaN. *)
Lemma pf_C95_hadamard_example :
  hadamard_term (-1) PInf (Fin 2) = Some 0 /\ hadamard_term (-1) (Fin 0) (Fin 2) = None /\
  hadamard_term (-1) NaN (Fin 0) = Some 0 /\ hadamard_term 1 PInf (Fin 0) = None /\
  hadamard_term 1 (Fin 2) (Fin (-2)) = Some (1/2).
Proof.
  assert (P1 : ~ 0 < -1) by lra. assert (P2 : 0 < 1) by lra. assert (P3 : 2 <> 0) by lra. assert (P4 : -2 <> 0) by lra.
  unfold hadamard_term, magnitude.
  destruct (Rlt_dec 0 (-1)); [lra|]. destruct (Rlt_dec 0 1); [|lra].
  destruct (Req_EM_T 2 0); [lra|]. destruct (Req_EM_T (-2) 0); [lra|]. destruct (Req_EM_T 0 0); [|lra].
  repeat split; try reflexivity.
  - f_equal. destruct (Req_EM_T _ 0); [reflexivity|]. unfold Rdiv. rewrite Rmult_0_l, Rmult_0_l. reflexivity.
  - f_equal. replace (Rabs (-2)) with 2 by (rewrite Rabs_left; lra). rewrite !Rabs_pos_eq by lra. rewrite !Rpower_1 by lra.
    destruct (Req_EM_T (2 + 2) 0); lra.
Qed.
