(** KernelMatrixPrecomputed and ConstantKernelMatrix: properties C46 and C47. *)
From Coq Require Import String Reals List Arith ZArith Bool Lia Lra Sorting.Sorted.
Import ListNotations.
From Verif Require Import Prelude MatModel UtilsModel IndexModel KMModel SpecKM XReal SetModel SpecSet.
From Verif Require Import MatFacts KMIndex.

Local Open Scope list_scope.
Local Open Scope nat_scope.

(*BEGIN PROP*)
(** Comparison of numbers as in the library: np.isclose with its default tolerances. Real arrays
    only ([np.isreal] holds of every entry). *)
Definition xC : cmpops xr := mkCmp xisclose (fun _ => true).

(** The documented meaning: finite numbers within 1e-8 + 1e-5 |b|; equal infinities; never NaN. *)
Definition close (a b : xr) : Prop :=
  match a, b with
  | Fin r, Fin s => (Rabs (r - s) <= 1/100000000 + 1/100000 * Rabs s)%R
  | PInf, PInf | NInf, NInf => True
  | _, _ => False
  end.
(*END PROP*)

Lemma xisclose_close : forall a b, xisclose a b = true <-> close a b.
Proof.
  intros [r| | |] [s| | |]; cbn; try (split; [discriminate|tauto]); try tauto.
  unfold Rleb. destruct (Rle_dec _ _); split; intros; try assumption; try reflexivity; try discriminate.
  contradiction.
Qed.

Lemma close_dec : forall a b, {close a b} + {~ close a b}.
Proof.
  intros a b. destruct (xisclose a b) eqn:H; [left|right]; rewrite <- xisclose_close; congruence.
Qed.

Lemma reshape_array2 : forall {V} n m (f : nat -> nat -> V),
  mkMat n m (reshape n m (nd_data (array2 n m f))) = tabulate n m f.
Proof.
  intros V n m f. unfold tabulate, array2. cbn [nd_data]. f_equal.
  rewrite <- (seq_length n 0) at 1. generalize (seq 0 n) as rows. intros rows.
  induction rows as [|r rows IH]; [reflexivity|]. cbn [length reshape flat_map map].
  set (l := map (fun j => f r j) (seq 0 m)).
  assert (Hl : m = length l) by (unfold l; rewrite map_length, seq_length; reflexivity).
  f_equal.
  - rewrite Hl at 1. rewrite firstn_app, Nat.sub_diag, firstn_all. cbn [firstn]. apply app_nil_r.
  - rewrite <- IH. f_equal. rewrite Hl at 1. rewrite skipn_app, Nat.sub_diag, skipn_all. reflexivity.
Qed.

Lemma mall_true : forall {V} (A : mat V), mall (fun _ => true) A = true.
Proof.
  intros V A. unfold mall. apply forallb_forall. intros r _. apply forallb_forall. reflexivity.
Qed.

Lemma forallb2_spec : forall (p : nat -> nat -> bool) r c,
  forallb (fun i => forallb (fun j => p i j) (seq 0 c)) (seq 0 r) = true <->
  forall i j, i < r -> j < c -> p i j = true.
Proof.
  intros p r c. rewrite forallb_forall. split.
  - intros H i j Hi Hj. specialize (H i). rewrite forallb_forall in H.
    apply H; apply in_seq; lia.
  - intros H i Hi. apply forallb_forall. intros j Hj. apply in_seq in Hi, Hj. apply H; lia.
Qed.

(** The comparison after broadcasting, in each case of shapes. *)
Lemma is_symmetric_spec : forall n m (f : nat -> nat -> xr) r c g,
  bdim n m = Some r -> bdim m n = Some c ->
  (forall i j, i < r -> j < c ->
     (bget NaN (tabulate n m f) i j, bget NaN (transpose NaN (tabulate n m f)) i j) = g i j) ->
  (is_symmetric xC NaN (tabulate n m f) = Ok true <->
   forall i j, i < r -> j < c -> close (fst (g i j)) (snd (g i j))) /\
  (exists b, is_symmetric xC NaN (tabulate n m f) = Ok b).
Proof.
  intros n m f r c g Hr Hc Hg. unfold is_symmetric.
  change (mr (tabulate n m f)) with n. change (mc (tabulate n m f)) with m. rewrite Hr, Hc.
  split; [|eexists; reflexivity]. split.
  - intros H. inversion H as [H1]. intros i j Hi Hj.
    rewrite forallb2_spec in H1. specialize (H1 i j Hi Hj). rewrite <- (Hg i j Hi Hj).
    apply xisclose_close. exact H1.
  - intros H. f_equal. rewrite forallb2_spec. intros i j Hi Hj. apply xisclose_close.
    specialize (H i j Hi Hj). rewrite <- (Hg i j Hi Hj) in H. exact H.
Qed.

Lemma precomputed_array2 : forall n m f,
  precomputed_new xC NaN (array2 n m f) =
  rbind (is_symmetric xC NaN (tabulate n m f)) (fun b =>
    if negb b || negb (mall (c_real xC) (tabulate n m f)) then Raise ValueError else Ok (tabulate n m f)).
Proof.
  intros n m f. unfold precomputed_new. change (nd_shape (array2 n m f)) with [n; m].
  cbv beta iota zeta. rewrite reshape_array2. reflexivity.
Qed.

Lemma precomputed_by : forall n m f,
  (is_symmetric xC NaN (tabulate n m f) = Ok true ->
   precomputed_new xC NaN (array2 n m f) = Ok (tabulate n m f)) /\
  (is_symmetric xC NaN (tabulate n m f) <> Ok true -> (exists b, is_symmetric xC NaN (tabulate n m f) = Ok b) ->
   precomputed_new xC NaN (array2 n m f) = Raise ValueError).
Proof.
  intros n m f. rewrite precomputed_array2. split.
  - intros ->. cbn [rbind negb orb]. cbn [xC c_real]. rewrite mall_true. reflexivity.
  - intros Hn [b Hb]. rewrite Hb in *. destruct b; [congruence|]. reflexivity.
Qed.

(** C46 (partial: not for arrays with exactly one row or one column but not 1 x 1, see
    C46_one_row_refuted). A square array is accepted if and only if every entry is close to its
    mirror entry, otherwise ValueError; the object then holds exactly this matrix. *)
Lemma pf_C46_square_partial :
  forall n (f : nat -> nat -> xr),
    ((forall i j, i < n -> j < n -> close (f i j) (f j i)) ->
     precomputed_new xC NaN (array2 n n f) = Ok (tabulate n n f)) /\
    (~ (forall i j, i < n -> j < n -> close (f i j) (f j i)) ->
     precomputed_new xC NaN (array2 n n f) = Raise ValueError).
Proof.
  intros n f. assert (Hb : bdim n n = Some n) by (unfold bdim; rewrite Nat.eqb_refl; reflexivity).
  destruct (is_symmetric_spec n n f n n (fun i j => (f i j, f j i)) Hb Hb) as [Hiff Hex].
  { intros i j Hi Hj. unfold bget. cbn [transpose tabulate mr mc].
    assert (Hi' : (if n =? 1 then 0 else i) = i)
      by (destruct (n =? 1) eqn:H1; [apply Nat.eqb_eq in H1; lia|reflexivity]).
    assert (Hj' : (if n =? 1 then 0 else j) = j)
      by (destruct (n =? 1) eqn:H1; [apply Nat.eqb_eq in H1; lia|reflexivity]).
    rewrite Hi', Hj'. fold (tabulate n n f). unfold transpose.
    change (mr (tabulate n n f)) with n. change (mc (tabulate n n f)) with n.
    rewrite !mget_tabulate by assumption. reflexivity. }
  destruct (precomputed_by n n f) as [H1 H2]. split.
  - intros H. apply H1, Hiff. exact H.
  - intros H. apply H2; [|exact Hex]. intros Hs. apply H. apply Hiff. exact Hs.
Qed.

(** C46, arrays that are not square: ValueError, if no axis has length one. *)
Lemma pf_C46_not_square_partial :
  forall n m (f : nat -> nat -> xr), n <> m -> n <> 1 -> m <> 1 ->
    precomputed_new xC NaN (array2 n m f) = Raise ValueError.
Proof.
  intros n m f Hnm Hn Hm. rewrite precomputed_array2.
  unfold is_symmetric. cbn [tabulate mr mc]. unfold bdim.
  replace (n =? m) with false by (symmetry; apply Nat.eqb_neq; exact Hnm).
  replace (n =? 1) with false by (symmetry; apply Nat.eqb_neq; exact Hn).
  replace (m =? 1) with false by (symmetry; apply Nat.eqb_neq; exact Hm). reflexivity.
Qed.

(** C46, arrays that are not 2-dimensional: ValueError. *)
Lemma pf_C46_not_2D :
  forall {V} (C : cmpops V) d (a : ndarray V), length (nd_shape a) <> 2 ->
    precomputed_new C d a = Raise ValueError.
Proof.
  intros V C d a H. unfold precomputed_new. destruct (nd_shape a) as [|n [|m [|p l]]]; try reflexivity.
  cbn in H. lia.
Qed.

(** C46, what actually happens to arrays with one row or one column: they are accepted if and only
    if all pairs of entries are close, and rejected otherwise. *)
Lemma pf_C46_one_row :
  forall m (v : nat -> xr), m <> 1 ->
    ((forall i j, i < m -> j < m -> close (v i) (v j)) ->
     precomputed_new xC NaN (array2 1 m (fun _ j => v j)) = Ok (tabulate 1 m (fun _ j => v j)) /\
     precomputed_new xC NaN (array2 m 1 (fun i _ => v i)) = Ok (tabulate m 1 (fun i _ => v i))) /\
    (~ (forall i j, i < m -> j < m -> close (v i) (v j)) ->
     precomputed_new xC NaN (array2 1 m (fun _ j => v j)) = Raise ValueError /\
     precomputed_new xC NaN (array2 m 1 (fun i _ => v i)) = Raise ValueError).
Proof.
  intros m v Hm.
  assert (Hb1 : bdim 1 m = Some m) by (unfold bdim; destruct (1 =? m) eqn:H; [apply Nat.eqb_eq in H; congruence|reflexivity]).
  assert (Hb2 : bdim m 1 = Some m).
  { unfold bdim. destruct (m =? 1) eqn:H; [apply Nat.eqb_eq in H; congruence|reflexivity]. }
  assert (Hm1 : (m =? 1) = false) by (apply Nat.eqb_neq; exact Hm).
  destruct (is_symmetric_spec 1 m (fun _ j => v j) m m (fun i j => (v j, v i)) Hb1 Hb2) as [Hiff1 Hex1].
  { intros i j Hi Hj. unfold bget, transpose.
    change (mr (tabulate 1 m (fun _ j0 => v j0))) with 1. change (mc (tabulate 1 m (fun _ j0 => v j0))) with m.
    change (mr (tabulate m 1 (fun i0 j0 => mget NaN (tabulate 1 m (fun _ j1 => v j1)) j0 i0))) with m.
    change (mc (tabulate m 1 (fun i0 j0 => mget NaN (tabulate 1 m (fun _ j1 => v j1)) j0 i0))) with 1.
    rewrite Hm1. cbn [Nat.eqb]. rewrite !mget_tabulate by lia. reflexivity. }
  destruct (is_symmetric_spec m 1 (fun i _ => v i) m m (fun i j => (v i, v j)) Hb2 Hb1) as [Hiff2 Hex2].
  { intros i j Hi Hj. unfold bget, transpose.
    change (mr (tabulate m 1 (fun i0 _ => v i0))) with m. change (mc (tabulate m 1 (fun i0 _ => v i0))) with 1.
    change (mr (tabulate 1 m (fun i0 j0 => mget NaN (tabulate m 1 (fun i1 _ => v i1)) j0 i0))) with 1.
    change (mc (tabulate 1 m (fun i0 j0 => mget NaN (tabulate m 1 (fun i1 _ => v i1)) j0 i0))) with m.
    rewrite Hm1. cbn [Nat.eqb]. rewrite !mget_tabulate by lia. reflexivity. }
  destruct (precomputed_by 1 m (fun _ j => v j)) as [P1 Q1].
  destruct (precomputed_by m 1 (fun i _ => v i)) as [P2 Q2]. split.
  - intros H. split; [apply P1, Hiff1|apply P2, Hiff2]; intros i j Hi Hj; apply H; assumption.
  - intros H. split; [apply Q1|apply Q2]; try assumption.
    + intros Hs. apply H. intros i j Hi Hj. apply (proj1 Hiff1 Hs j i Hj Hi).
    + intros Hs. apply H. apply (proj1 Hiff2 Hs).
Qed.

(** C46 is false: a 1 x 2 array, not square, is accepted. *)
Lemma pf_C46_one_row_refuted :
  exists n m (f : nat -> nat -> xr) A, n <> m /\ precomputed_new xC NaN (array2 n m f) = Ok A.
Proof.
  exists 1, 2, (fun _ _ => Fin 3), (tabulate 1 2 (fun _ _ => Fin 3)). split; [lia|].
  destruct (pf_C46_one_row 2 (fun _ => Fin 3) ltac:(lia)) as [H _]. apply H. intros i j _ _. cbn.
  replace (3 - 3)%R with 0%R by lra. rewrite Rabs_R0, Rabs_pos_eq by lra. lra.
Qed.

(** C46, the observers: full is the matrix, diag its diagonal, size and num_samples its order. *)
Lemma pf_C46_observers :
  forall {E U} n (f : nat -> nat -> xr) A,
    precomputed_new xC NaN (array2 n n f) = Ok A ->
    precomputed_full A = mkArr Dense (tabulate n n f) /\
    precomputed_diag NaN A = map (fun i => f i i) (seq 0 n) /\
    precomputed_size A = n /\ obj_num (OPre A : kobj E xr U) = NSOne n.
Proof.
  intros E U n f A H.
  assert (HA : A = tabulate n n f).
  { destruct (precomputed_by n n f) as [H1 H2].
    rewrite precomputed_array2 in H.
    destruct (is_symmetric xC NaN (tabulate n n f)) as [b|e]; [|discriminate]. cbn [rbind] in H.
    destruct (negb b || _); [discriminate|]. congruence. }
  subst A. split; [reflexivity|]. split; [|split; reflexivity].
  unfold precomputed_diag. change (mr (tabulate n n f)) with n. change (mc (tabulate n n f)) with n.
  rewrite Nat.min_id. apply map_ext_in. intros i Hi. apply in_seq in Hi. apply mget_tabulate; lia.
Qed.

(*BEGIN PROP*)
(** Not exactly symmetric but within the tolerance: accepted as it is. *)
Example C46_example :
  let f i j := Fin (if Nat.ltb i j then 2 else if Nat.ltb j i then 2 + 1/1000000 else 1)%R in
  (forall i j, i < 2 -> j < 2 -> close (f i j) (f j i)) /\
  ~ (forall i j, i < 2 -> j < 2 -> close (Fin (INR i)) (Fin (INR j))).
Proof.
  cbv zeta. split.
  - intros i j Hi Hj. destruct i as [|[|i]]; [| |lia]; destruct j as [|[|j]]; try lia; cbn [Nat.ltb Nat.leb];
      unfold close.
    + rewrite Rminus_diag_eq, Rabs_R0 by reflexivity. pose proof (Rabs_pos 1). lra.
    + rewrite Rabs_left by lra. rewrite Rabs_pos_eq by lra. lra.
    + rewrite !Rabs_pos_eq by lra. lra.
    + rewrite Rminus_diag_eq, Rabs_R0 by reflexivity. pose proof (Rabs_pos 1). lra.
  - intros H. specialize (H 1 0 ltac:(lia) ltac:(lia)). cbn in H. rewrite Rminus_0_r, Rabs_R0 in H.
    rewrite Rabs_pos_eq in H by lra. lra.
Qed.
(*END PROP*)

(** ** ConstantKernelMatrix *)

(** C47, full and diag. *)
Lemma pf_C47_full_diag :
  forall {V} (c : cmatrix V),
    const_full c = tabulate (c_size c) (c_size c) (fun _ _ => c_value c) /\
    length (const_diag c) = c_size c /\ Forall (fun v => v = c_value c) (const_diag c).
Proof.
  intros V c. split; [|split].
  - unfold const_full. reflexivity.
  - apply repeat_length.
  - apply Forall_forall. intros v Hv. apply repeat_spec in Hv. exact Hv.
Qed.

Lemma celts_spec : forall l,
  (exists zs, celts l = Ok zs /\ (forall e, ~ In (CBad e) l) /\
     (forall z, In z zs <-> In (CInt z) l \/ In (CFloat z) l))
  \/ (exists e, celts l = Raise e /\ In (CBad e) l).
Proof.
  induction l as [|c l IH]; cbn [celts].
  - left. exists []. split; [reflexivity|]. split; [intros e []|]. cbn. tauto.
  - destruct c as [z|z|e].
    + destruct IH as [(zs & -> & Hb & Hin)|(e & -> & Hb)].
      * left. exists (z :: zs). split; [reflexivity|]. split.
        -- intros e [H|H]; [discriminate|apply (Hb e H)].
        -- intros w. cbn. rewrite Hin. split; intros H; intuition congruence.
      * right. exists e. split; [reflexivity|right; exact Hb].
    + destruct IH as [(zs & -> & Hb & Hin)|(e & -> & Hb)].
      * left. exists (z :: zs). split; [reflexivity|]. split.
        -- intros e [H|H]; [discriminate|apply (Hb e H)].
        -- intros w. cbn. rewrite Hin. split; intros H; intuition congruence.
      * right. exists e. split; [reflexivity|right; exact Hb].
    + right. exists e. split; [reflexivity|left; reflexivity].
Qed.

Definition cexpand (n : nat) (ix : cidx) : res (list Z) :=
  match ix with
  | CIStrNone => Raise KMAccessError
  | CIInt z => Ok [z]
  | CISlice a b st =>
      rbind (slice_indices a b st (Z.of_nat n)) (fun '(a', b', st') => Ok (py_range a' b' st'))
  | CIIter l => celts l
  | CIOther => Raise KMAccessError
  end.

Lemma cexpand_spec : forall n ix,
  (exists zs, cexpand n ix = Ok zs /\ creadable ix /\ forall z, In z zs <-> cdenotes n ix z)
  \/ ((ix = CIStrNone \/ ix = CIOther) /\ cexpand n ix = Raise KMAccessError)
  \/ (exists e, cexpand n ix = Raise e /\
        ((e = ValueError /\ exists a b, ix = CISlice a b (Some 0%Z)) \/ exists l, ix = CIIter l /\ In (CBad e) l)).
Proof.
  intros n ix. destruct ix as [z|a b st|l| |]; cbn [cexpand].
  - left. exists [z]. split; [reflexivity|]. split; [exact I|]. cbn. intros w.
    split; [intros [H|[]]; congruence|intros ->; auto].
  - destruct (expansion_spec n (ISlice a b st)) as [(elts & He & Hden & _ & Hst)|[(e & _ & [[H _]|H])|[He (a' & b' & H)]]].
    + cbn [expansion] in He.
      destruct (slice_indices a b st (Z.of_nat n)) as [[[a' b'] st']|e] eqn:Hs; [|discriminate].
      cbn [rbind] in *. inversion He; subst elts. left. eexists. split; [reflexivity|].
      split; [exact Hst|]. intros z. rewrite <- (Hden z). rewrite in_map_iff. split.
      * intros H. exists z. split; [reflexivity|exact H].
      * intros (w & Hw & H). inversion Hw; subst w. exact H.
    + discriminate.
    + discriminate.
    + right; right. inversion H; subst. cbn. exists ValueError. split; [reflexivity|].
      left. split; [reflexivity|]. eauto.
  - destruct (celts_spec l) as [(zs & Hz & Hb & Hin)|(e & He & Hb)].
    + left. exists zs. split; [exact Hz|]. split; [exact Hb|exact Hin].
    + right; right. exists e. split; [exact He|]. right. eauto.
  - right; left. auto.
  - right; left. auto.
Qed.

Lemma const_indices_eq : forall n ix, const_indices n ix =
  rbind (cexpand n ix) (fun zs =>
    if existsb (fun z => (Z.of_nat n <=? z) || (z <? 0))%Z zs then Raise KMAccessError
    else match zs with [] => Raise NameError | _ => Ok (sort_uniq zs) end).
Proof. intros n ix. destruct ix; reflexivity. Qed.

Lemma const_indices_valid : forall n ix, cvalid n ix ->
  exists zs sel, const_indices n ix = Ok zs /\ length zs = length sel /\ cselection n ix sel.
Proof.
  intros n ix (Hread & [z0 Hz0] & Hr). rewrite const_indices_eq.
  destruct (cexpand_spec n ix) as [(zs & He & _ & Hmem)|[[[-> | ->] _]|(e & _ & [[_ (a & b & ->)]|(l & -> & Hb)])]].
  2,3: destruct Hread.
  2: exfalso; apply Hread; reflexivity.
  2: exfalso; apply (Hread e Hb).
  rewrite He. cbn [rbind].
  assert (Hex : existsb (fun z => (Z.of_nat n <=? z) || (z <? 0))%Z zs = false).
  { apply not_true_is_false. intros Ht. apply existsb_exists in Ht.
    destruct Ht as (z & Hz & Hb). apply Hmem, Hr in Hz. lia. }
  rewrite Hex. destruct zs as [|z zs]; [apply Hmem in Hz0; destruct Hz0|].
  set (l := z :: zs) in *. exists (sort_uniq l), (map Z.to_nat (sort_uniq l)).
  split; [reflexivity|]. split; [symmetry; apply map_length|]. split.
  - apply to_nat_sorted; [apply sort_uniq_sorted|]. intros w Hw.
    apply (proj1 (sort_uniq_in _ _)) in Hw. apply Hmem, Hr in Hw. lia.
  - intros i. rewrite in_map_iff. split.
    + intros (w & <- & Hw). apply (proj1 (sort_uniq_in _ _)) in Hw.
      rewrite Z2Nat.id by (apply Hmem, Hr in Hw; lia). apply Hmem, Hw.
    + intros Hd. exists (Z.of_nat i). split; [apply Nat2Z.id|]. apply sort_uniq_in, Hmem, Hd.
Qed.

Lemma sorted_same : forall l1 l2 : list nat, StronglySorted lt l1 -> StronglySorted lt l2 ->
  (forall i, In i l1 <-> In i l2) -> l1 = l2.
Proof.
  induction l1 as [|a l1 IH]; intros l2 H1 H2 Hin.
  - destruct l2 as [|b l2]; [reflexivity|]. exfalso. apply (Hin b). left. reflexivity.
  - destruct l2 as [|b l2]; [exfalso; apply (Hin a); left; reflexivity|].
    inversion H1 as [|? ? H1' F1]; inversion H2 as [|? ? H2' F2]; subst.
    rewrite Forall_forall in F1, F2.
    assert (Hab : a = b).
    { destruct (proj1 (Hin a) (or_introl eq_refl)) as [Ha|Ha]; [congruence|].
      destruct (proj2 (Hin b) (or_introl eq_refl)) as [Hb|Hb]; [congruence|].
      specialize (F1 b Hb). specialize (F2 a Ha). lia. }
    subst b. f_equal. apply IH; [assumption|assumption|]. intros i. split; intros Hi.
    + destruct (proj1 (Hin i) (or_intror Hi)) as [->|H]; [|exact H]. specialize (F1 i Hi). lia.
    + destruct (proj2 (Hin i) (or_intror Hi)) as [->|H]; [|exact H]. specialize (F2 i Hi). lia.
Qed.

(** C47, valid index expressions (also with negative or omitted slice bounds, repeated indices,
    numbers truncated to integers): the constant matrix with one row per distinct selected row index
    and one column per distinct selected column index. *)
Lemma pf_C47_getitem :
  forall {V} (c : cmatrix V) a b rows cols,
    cvalid (c_size c) a -> cvalid (c_size c) b ->
    cselection (c_size c) a rows -> cselection (c_size c) b cols ->
    const_getitem c (Some (a, b))
    = Ok (tabulate (length rows) (length cols) (fun _ _ => c_value c)).
Proof.
  intros V c a b rows cols Ha Hb Hr Hc.
  destruct (const_indices_valid _ a Ha) as (za & sa & Hza & Hla & Hsa).
  destruct (const_indices_valid _ b Hb) as (zb & sb & Hzb & Hlb & Hsb).
  assert (Hra : sa = rows).
  { apply sorted_same; [apply Hsa|apply Hr|]. intros i. rewrite (proj2 Hsa), (proj2 Hr). tauto. }
  assert (Hcb : sb = cols).
  { apply sorted_same; [apply Hsb|apply Hc|]. intros i. rewrite (proj2 Hsb), (proj2 Hc). tauto. }
  unfold const_getitem. rewrite Hza, Hzb. cbn [rbind]. rewrite Hla, Hlb, Hra, Hcb. reflexivity.
Qed.

(** C47 (partial: see the refutations for empty selections, slices with step 0 and elements that
    are not numbers). Invalid expressions raise KMAccessError: an index out of range along either
    dimension (the other dimension being readable), a str, None or other object, brackets without
    exactly two expressions. *)
Lemma pf_C47_invalid_partial :
  forall {V} (c : cmatrix V),
    const_getitem c None = Raise KMAccessError /\
    (forall a b z, creadable a -> cdenotes (c_size c) a z -> ~ (0 <= z < Z.of_nat (c_size c))%Z ->
       const_getitem c (Some (a, b)) = Raise KMAccessError) /\
    (forall a b z, cvalid (c_size c) a ->
       creadable b -> cdenotes (c_size c) b z -> ~ (0 <= z < Z.of_nat (c_size c))%Z ->
       const_getitem c (Some (a, b)) = Raise KMAccessError) /\
    (forall a b, a = CIStrNone \/ a = CIOther -> const_getitem c (Some (a, b)) = Raise KMAccessError) /\
    (forall a b, cvalid (c_size c) a -> b = CIStrNone \/ b = CIOther ->
       const_getitem c (Some (a, b)) = Raise KMAccessError).
Proof.
  intros V c.
  assert (Hout : forall ix z, creadable ix -> cdenotes (c_size c) ix z -> ~ (0 <= z < Z.of_nat (c_size c))%Z ->
    const_indices (c_size c) ix = Raise KMAccessError).
  { intros ix z Hread Hz Hr. rewrite const_indices_eq.
    destruct (cexpand_spec (c_size c) ix) as [(zs & He & _ & Hmem)|[[[-> | ->] _]|(e & _ & [[_ (a & b & ->)]|(l & -> & Hb)])]].
    2,3: destruct Hread.
    2: exfalso; apply Hread; reflexivity.
    2: exfalso; apply (Hread e Hb).
    rewrite He. cbn [rbind].
    replace (existsb (fun z => (Z.of_nat (c_size c) <=? z) || (z <? 0))%Z zs) with true; [reflexivity|].
    symmetry. apply existsb_exists. exists z. split; [apply Hmem, Hz|]. lia. }
  assert (Hoth : forall ix, ix = CIStrNone \/ ix = CIOther -> const_indices (c_size c) ix = Raise KMAccessError).
  { intros ix [-> | ->]; reflexivity. }
  split; [reflexivity|]. split; [|split; [|split]].
  - intros a b z H1 H2 H3. unfold const_getitem. rewrite (Hout a z H1 H2 H3). reflexivity.
  - intros a b z H0 H1 H2 H3. unfold const_getitem. destruct (const_indices_valid _ a H0) as (za & sa & -> & _).
    cbn [rbind]. rewrite (Hout b z H1 H2 H3). reflexivity.
  - intros a b H. unfold const_getitem. rewrite (Hoth a H). reflexivity.
  - intros a b H0 H. unfold const_getitem. destruct (const_indices_valid _ a H0) as (za & sa & -> & _).
    cbn [rbind]. rewrite (Hoth b H). reflexivity.
Qed.

(** C47 is false for empty selections, all of them: NameError. *)
Lemma pf_C47_empty_refuted :
  (forall {V} (c : cmatrix V) a b, creadable a -> (forall z, ~ cdenotes (c_size c) a z) ->
     const_getitem c (Some (a, b)) = Raise NameError) /\
  exists c : cmatrix Z, const_getitem c (Some (CISlice (Some 2) (Some 2) None, CIInt 0))%Z = Raise NameError.
Proof.
  split.
  - intros V c a b Hread Hno. unfold const_getitem. rewrite const_indices_eq.
    destruct (cexpand_spec (c_size c) a) as [(zs & He & _ & Hmem)|[[[-> | ->] _]|(e & _ & [[_ (a' & b' & ->)]|(l & -> & Hb)])]].
    2,3: destruct Hread.
    2: exfalso; apply Hread; reflexivity.
    2: exfalso; apply (Hread e Hb).
    rewrite He. destruct zs as [|z zs]; [reflexivity|]. exfalso. apply (Hno z), Hmem. left. reflexivity.
  - exists (mkConst 4 7%Z). vm_compute. reflexivity.
Qed.

(** C47 is false for slices with step 0 (ValueError) and for elements that are not numbers (the
    exception of int()). *)
Lemma pf_C47_unreadable_refuted :
  exists c : cmatrix Z,
    const_getitem c (Some (CISlice None None (Some 0), CIInt 0))%Z = Raise ValueError /\
    const_getitem c (Some (CIIter [CInt 0; CBad TypeError], CIInt 0))%Z = Raise TypeError.
Proof. exists (mkConst 4 7%Z). split; vm_compute; reflexivity. Qed.

(*BEGIN PROP*)
Example C47_example :
  let c := mkConst 4 7%Z in
  const_getitem c (Some (CISlice (Some (-3)) None (Some 2), CIIter [CInt 3; CFloat 0; CInt 3]))%Z
  = Ok (mkMat 2 2 [[7; 7]; [7; 7]]%Z) /\
  const_getitem c (Some (CIInt 4, CIInt 0))%Z = Raise KMAccessError /\
  cvalid 4 (CIIter [CInt 3; CFloat 0; CInt 3])%Z /\ cselection 4 (CIIter [CInt 3; CFloat 0; CInt 3])%Z [0; 3].
Proof.
  cbv zeta. split; [vm_compute; reflexivity|]. split; [vm_compute; reflexivity|]. split; [split; [|split]|split].
  - intros e H. cbn in H. intuition discriminate.
  - exists 3%Z. left. left. reflexivity.
  - intros z H. cbn in H. intuition (match goal with H : _ = _ |- _ => inversion H end; lia).
  - repeat constructor; lia.
  - intros i. cbn. split.
    + intros [<-|[<-|[]]]; cbn; auto.
    + intros H. intuition (try discriminate);
        match goal with H : _ = _ |- _ => inversion H as [H1] end; lia.
Qed.
(*END PROP*)
