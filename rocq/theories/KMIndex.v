(** Index resolution agrees with the independent reading of index expressions. *)
From Coq Require Import List Arith ZArith Bool Lia Sorting.Sorted.
Import ListNotations.
From Verif Require Import Prelude MatModel IndexModel KMModel SpecKM.

(** ** Strictly sorted lists *)
Lemma ss_unique : forall l1 l2, StronglySorted lt l1 -> StronglySorted lt l2 ->
  (forall i, In i l1 <-> In i l2) -> l1 = l2.
Proof.
  induction l1 as [|a l1 IH]; intros l2 H1 H2 Heq.
  - destruct l2 as [|b l2]; [reflexivity|].
    destruct (proj2 (Heq b) (or_introl eq_refl)).
  - destruct l2 as [|b l2]; [destruct (proj1 (Heq a) (or_introl eq_refl))|].
    inversion H1 as [|? ? Hs1 Hf1]; subst. inversion H2 as [|? ? Hs2 Hf2]; subst.
    rewrite Forall_forall in Hf1, Hf2.
    assert (Hab : a = b).
    { destruct (proj1 (Heq a) (or_introl eq_refl)) as [->|Ha]; [reflexivity|].
      destruct (proj2 (Heq b) (or_introl eq_refl)) as [->|Hb]; [reflexivity|].
      specialize (Hf1 b Hb). specialize (Hf2 a Ha). lia. }
    subst b. f_equal. apply IH; [assumption|assumption|].
    intros i. split; intros Hi.
    + destruct (proj1 (Heq i) (or_intror Hi)) as [<-|H]; [|exact H].
      specialize (Hf1 a Hi). lia.
    + destruct (proj2 (Heq i) (or_intror Hi)) as [<-|H]; [|exact H].
      specialize (Hf2 a Hi). lia.
Qed.

Lemma selection_unique : forall n ix l1 l2,
  selection n ix l1 -> selection n ix l2 -> l1 = l2.
Proof.
  intros n ix l1 l2 [S1 H1] [S2 H2]. apply ss_unique; try assumption.
  intros i. rewrite H1, H2. tauto.
Qed.

Lemma ss_nodup : forall l, StronglySorted lt l -> NoDup l.
Proof.
  intros l H. induction H as [|a l Hs IH Hf]; constructor; [|exact IH].
  rewrite Forall_forall in Hf. intros Hin. specialize (Hf a Hin). lia.
Qed.

Lemma seq_ss : forall a n, StronglySorted lt (seq a n).
Proof.
  intros a n; revert a. induction n as [|n IH]; intros a; simpl; constructor.
  - apply IH.
  - apply Forall_forall. intros x Hx. apply in_seq in Hx. lia.
Qed.

Lemma ss_full : forall n l, StronglySorted lt l -> (forall i, In i l -> i < n) ->
  length l = n -> l = seq 0 n.
Proof.
  intros n l Hs Hr Hl. apply ss_unique; [exact Hs|apply seq_ss|].
  intros i. rewrite in_seq. split.
  - intros Hi. specialize (Hr i Hi). lia.
  - intros Hi. assert (Hincl : incl (seq 0 n) l).
    { apply NoDup_length_incl.
      - apply ss_nodup, Hs.
      - rewrite seq_length. lia.
      - intros j Hj. apply in_seq. specialize (Hr j Hj). lia. }
    apply Hincl, in_seq. lia.
Qed.

(** ** sorted(set(..)) *)
Lemma insert_uniq_in : forall z a l, In z (insert_uniq a l) <-> z = a \/ In z l.
Proof.
  intros z a l. induction l as [|b l IH]; simpl; [intuition|].
  destruct (a <? b)%Z; [simpl; intuition|].
  destruct (a =? b)%Z eqn:Hab.
  - apply Z.eqb_eq in Hab. subst b. simpl. intuition.
  - simpl. rewrite IH. intuition.
Qed.

Lemma sort_uniq_in : forall z l, In z (sort_uniq l) <-> In z l.
Proof.
  intros z l. unfold sort_uniq. induction l as [|y l IH]; [tauto|]. cbn [fold_right].
  rewrite insert_uniq_in, IH. simpl. intuition.
Qed.

Lemma insert_uniq_sorted : forall a l, StronglySorted Z.lt l ->
  StronglySorted Z.lt (insert_uniq a l).
Proof.
  intros a l H. induction H as [|b l Hs IH Hf]; simpl.
  - repeat constructor.
  - destruct (a <? b)%Z eqn:Hab.
    + apply Z.ltb_lt in Hab. constructor; [constructor; assumption|].
      constructor; [exact Hab|]. eapply Forall_impl; [|exact Hf]. cbv beta. lia.
    + apply Z.ltb_ge in Hab. destruct (a =? b)%Z eqn:Hab'.
      * constructor; assumption.
      * apply Z.eqb_neq in Hab'. constructor; [exact IH|].
        apply Forall_forall. intros x Hx. apply insert_uniq_in in Hx.
        rewrite Forall_forall in Hf. destruct Hx as [->|Hx]; [lia|apply Hf, Hx].
Qed.

Lemma sort_uniq_sorted : forall l, StronglySorted Z.lt (sort_uniq l).
Proof.
  intros l. unfold sort_uniq. induction l as [|a l IH]; simpl; [constructor|].
  apply insert_uniq_sorted, IH.
Qed.

Lemma to_nat_sorted : forall l, StronglySorted Z.lt l -> (forall z, In z l -> 0 <= z)%Z ->
  StronglySorted lt (map Z.to_nat l).
Proof.
  intros l H. induction H as [|a l Hs IH Hf]; intros Hp; simpl; constructor.
  - apply IH. intros z Hz. apply Hp. right; exact Hz.
  - apply Forall_forall. intros x Hx. apply in_map_iff in Hx. destruct Hx as (z & <- & Hz).
    rewrite Forall_forall in Hf. specialize (Hf z Hz).
    assert (0 <= a)%Z by (apply Hp; left; reflexivity). lia.
Qed.

(** ** Slices *)
Lemma py_range_in : forall a b st z, st <> 0%Z ->
  In z (py_range a b st) <->
  exists q : nat, z = (a + Z.of_nat q * st)%Z /\ (if (0 <? st)%Z then z < b else b < z)%Z.
Proof.
  intros a b st z Hst. unfold py_range. rewrite in_map_iff. split.
  - intros (q & Hz & Hq). apply in_seq in Hq. exists q. split; [auto|].
    subst z. unfold range_len in Hq. destruct (0 <? st)%Z eqn:Hpos.
    + apply Z.ltb_lt in Hpos. destruct (a <? b)%Z eqn:Hab; [|simpl in Hq; lia].
      apply Z.ltb_lt in Hab.
      assert (Hq' : (Z.of_nat q <= (b - a - 1) / st)%Z) by lia.
      assert (Hd := Z.mul_div_le (b - a - 1) st Hpos). nia.
    + apply Z.ltb_ge in Hpos. destruct (b <? a)%Z eqn:Hab; [|simpl in Hq; lia].
      apply Z.ltb_lt in Hab.
      assert (Hq' : (Z.of_nat q <= (a - b - 1) / (- st))%Z) by lia.
      assert (Hd := Z.mul_div_le (a - b - 1) (- st) ltac:(lia)). nia.
  - intros (q & Hz & Hq). exists q. split; [auto|]. apply in_seq. subst z.
    unfold range_len. destruct (0 <? st)%Z eqn:Hpos.
    + apply Z.ltb_lt in Hpos.
      assert (Hab : (a <? b)%Z = true) by (apply Z.ltb_lt; nia). rewrite Hab.
      assert (H : (Z.of_nat q <= (b - a - 1) / st)%Z)
        by (apply Z.div_le_lower_bound; nia).
      lia.
    + apply Z.ltb_ge in Hpos.
      assert (Hab : (b <? a)%Z = true) by (apply Z.ltb_lt; nia). rewrite Hab.
      assert (H : (Z.of_nat q <= (a - b - 1) / (- st))%Z)
        by (apply Z.div_le_lower_bound; nia).
      lia.
Qed.

Lemma slice_indices_spec : forall a b st n, 
  let step := match st with Some s => s | None => 1%Z end in
  slice_indices a b st (Z.of_nat n) =
  if (step =? 0)%Z then Raise ValueError
  else Ok (slice_first (Z.of_nat n) step a, slice_last (Z.of_nat n) step b, step).
Proof.
  intros a b st n step. unfold slice_indices. fold step.
  destruct (step =? 0)%Z eqn:H0; [reflexivity|]. apply Z.eqb_neq in H0.
  assert (Hclip : forall z,
    (if (z <? 0)%Z then Z.max (z + Z.of_nat n) (if (step <? 0)%Z then -1 else 0)%Z
     else Z.min z (if (step <? 0)%Z then Z.of_nat n - 1 else Z.of_nat n)%Z)
    = bound (Z.of_nat n) step z).
  { intros z. unfold bound. destruct (0 <? step)%Z eqn:Hp, (step <? 0)%Z eqn:Hq,
      (z <? 0)%Z eqn:Hz; lia. }
  assert (Hf : forall A B (a1 a2:A) (b1 b2:B), a1=a2 -> b1=b2 -> (a1,b1)=(a2,b2)) by (intros; congruence).
  f_equal. apply Hf; [apply Hf|reflexivity].
  - unfold slice_first. destruct a as [z|]; [apply Hclip|].
    destruct (0 <? step)%Z eqn:Hp, (step <? 0)%Z eqn:Hq; lia.
  - unfold slice_last. destruct b as [z|]; [apply Hclip|].
    destruct (0 <? step)%Z eqn:Hp, (step <? 0)%Z eqn:Hq; lia.
Qed.

(** ** Elements *)
Lemma int_elts_spec : forall l,
  (exists zs, int_elts l = Ok zs /\ ~ In ENonInt l /\ forall z, In z zs <-> In (EInt z) l)
  \/ (int_elts l = Raise KMAccessError /\ In ENonInt l).
Proof.
  induction l as [|e l IH]; simpl.
  - left. exists []. split; [reflexivity|]. simpl. tauto.
  - destruct e as [z|].
    + destruct IH as [(zs & -> & Hn & Hin)|[-> Hn]]; simpl.
      * left. exists (z :: zs). split; [reflexivity|]. split.
        -- intros [H|H]; [discriminate|exact (Hn H)].
        -- intros w. simpl. rewrite Hin. split; intros [H|H]; try (right; exact H); left;
             congruence.
      * right. split; [reflexivity|]. right; exact Hn.
    + right. split; [reflexivity|]. left; reflexivity.
Qed.

(** ** _get_indices_in_sample *)

(** The list of elements an index expression expands to. *)
Definition expansion (n : nat) (ix : idx1) : res (list ielt) :=
  match ix with
  | IInt z => Ok [EInt z]
  | ISlice a b st =>
      rbind (slice_indices a b st (Z.of_nat n)) (fun '(a', b', st') =>
        Ok (map EInt (py_range a' b' st')))
  | IIter l => Ok l
  | IFails e => Raise e
  | IOther => Raise KMAccessError
  end.

Lemma expansion_spec : forall n ix,
  (exists elts, expansion n ix = Ok elts /\
     (forall z, In (EInt z) elts <-> denotes n ix z) /\
     (In ENonInt elts <-> match ix with IIter l => In ENonInt l | _ => False end) /\
     match ix with ISlice _ _ st => st <> Some 0%Z | IFails _ | IOther => False | _ => True end)
  \/ (exists e, expansion n ix = Raise e /\ (ix = IOther /\ e = KMAccessError \/ ix = IFails e))
  \/ (expansion n ix = Raise ValueError /\ exists a b, ix = ISlice a b (Some 0%Z)).
Proof.
  intros n ix. destruct ix as [z|a b st|l|e|]; cbn [expansion denotes].
  - left. exists [EInt z]. split; [reflexivity|]. split; [|split; [|exact I]].
    + intros w. simpl. split; [intros [H|[]]; congruence|intros ->; auto].
    + simpl. split; [intros [H|[]]; discriminate|tauto].
  - rewrite slice_indices_spec. cbv zeta.
    set (step := match st with Some s => s | None => 1%Z end).
    destruct (step =? 0)%Z eqn:H0.
    + right; right. split; [reflexivity|]. apply Z.eqb_eq in H0. unfold step in H0.
      destruct st; [subst; eauto|discriminate].
    + left. apply Z.eqb_neq in H0. cbn [rbind]. eexists. split; [reflexivity|].
      split; [|split].
      * intros z. rewrite in_map_iff. split.
        -- intros (w & Hw & Hin). inversion Hw; subst w. apply py_range_in in Hin; assumption.
        -- intros H. exists z. split; [reflexivity|]. apply py_range_in; assumption.
      * rewrite in_map_iff. split; [intros (w & Hw & _); discriminate|tauto].
      * intros ->. apply H0. reflexivity.
  - left. exists l. split; [reflexivity|]. tauto.
  - right; left. eauto.
  - right; left. eauto.
Qed.

Lemma get_indices_expansion : forall n ix,
  get_indices_in_sample (Some n) ix =
  rbind (expansion n ix) (fun elts =>
  rbind (int_elts elts) (fun zs =>
    match zs with
    | [] => Raise KMAccessError
    | _ :: _ =>
        if existsb (fun z => (Z.of_nat n <=? z)%Z || (z <? 0)%Z) zs
        then Raise KMAccessError
        else let sel := map Z.to_nat (sort_uniq zs) in Ok (sel, Nat.eqb (length sel) n)
    end)).
Proof.
  intros n ix. unfold get_indices_in_sample, expansion.
  destruct ix; try reflexivity.
Qed.

(** Accepted index expressions. *)
Theorem get_indices_valid : forall n ix, valid1 n ix ->
  exists sel, get_indices_in_sample (Some n) ix = Ok (sel, length sel =? n) /\
              selection n ix sel /\ (forall i, In i sel -> i < n) /\ sel <> [].
Proof.
  intros n ix (Hform & [z0 Hz0] & Hrange). rewrite get_indices_expansion.
  destruct (expansion_spec n ix) as [(elts & He & Hden & Hnon & _)|[(e & _ & H)|[_ (a & b & H)]]].
  2:{ destruct H as [[-> _]| ->]; destruct Hform. }
  2:{ subst ix. destruct Hform. reflexivity. }
  rewrite He. cbn [rbind].
  destruct (int_elts_spec elts) as [(zs & Hi & _ & Hin)|[_ Hbad]].
  2:{ apply Hnon in Hbad. destruct ix; try destruct Hbad. destruct (Hform Hbad). }
  rewrite Hi. cbn [rbind].
  assert (Hmem : forall z, In z zs <-> denotes n ix z)
    by (intros z; rewrite Hin; apply Hden).
  assert (Hr : forall z, In z zs -> (0 <= z < Z.of_nat n)%Z)
    by (intros z Hz; apply Hrange, Hmem, Hz).
  assert (Hex : existsb (fun z => (Z.of_nat n <=? z)%Z || (z <? 0)%Z) zs = false).
  { apply not_true_is_false. intros Ht. apply existsb_exists in Ht.
    destruct Ht as (z & Hz & Hb). specialize (Hr z Hz). lia. }
  rewrite Hex.
  assert (Hsel : selection n ix (map Z.to_nat (sort_uniq zs)) /\
                 (forall i, In i (map Z.to_nat (sort_uniq zs)) -> i < n) /\
                 map Z.to_nat (sort_uniq zs) <> []).
  { split; [split|split].
    - apply to_nat_sorted; [apply sort_uniq_sorted|]. intros z Hz.
      apply (proj1 (sort_uniq_in _ _)) in Hz. apply Hr in Hz. lia.
    - intros i. rewrite in_map_iff. split.
      + intros (z & <- & Hz). apply (proj1 (sort_uniq_in _ _)) in Hz.
        rewrite Z2Nat.id by (apply Hr in Hz; lia). apply Hmem, Hz.
      + intros Hd. exists (Z.of_nat i). split; [apply Nat2Z.id|].
        apply sort_uniq_in, Hmem, Hd.
    - intros i Hi'. apply in_map_iff in Hi'. destruct Hi' as (z & <- & Hz).
      apply (proj1 (sort_uniq_in _ _)) in Hz. apply Hr in Hz. lia.
    - intros Hnil. apply map_eq_nil in Hnil. apply Hmem in Hz0. apply (proj2 (sort_uniq_in _ _)) in Hz0.
      rewrite Hnil in Hz0. destruct Hz0. }
  destruct zs as [|z zs]; [apply Hmem in Hz0; destruct Hz0|].
  eexists. split; [reflexivity|]. exact Hsel.
Qed.

(** Rejected index expressions. *)
Theorem get_indices_invalid : forall n ix, ~ valid1 n ix ->
  exists e, get_indices_in_sample (Some n) ix = Raise e /\
    rejection1 ix e.
Proof.
  intros n ix Hinv. rewrite get_indices_expansion.
  destruct (expansion_spec n ix) as [(elts & He & Hden & Hnon & Hform)|[(e & He & H)|[He (a & b & H)]]].
  2:{ rewrite He. exists e. split; [reflexivity|]. destruct H as [[-> ->]| ->]; reflexivity. }
  2:{ rewrite He. exists ValueError. split; [reflexivity|]. subst ix. reflexivity. }
  assert (Hr : rejection1 ix KMAccessError).
  { destruct ix as [| a b [[| |]|] | | |]; cbn; try reflexivity; destruct Hform. reflexivity. }
  rewrite He. cbn [rbind].
  destruct (int_elts_spec elts) as [(zs & Hi & Hno & Hin)|[Hi Hbad]].
  2:{ rewrite Hi. cbn. eauto. }
  rewrite Hi. cbn [rbind].
  destruct zs as [|z zs]; [eauto|].
  destruct (existsb (fun z0 => (Z.of_nat n <=? z0)%Z || (z0 <? 0)%Z) (z :: zs)) eqn:Hex;
    [eauto|].
  exfalso. apply Hinv.
  assert (Hmem : forall w, In w (z :: zs) <-> denotes n ix w)
    by (intros w; rewrite Hin; apply Hden).
  split; [|split].
  - destruct ix; try exact I; try exact Hform. intros H. apply Hno, Hnon, H.
  - exists z. apply Hmem. left; reflexivity.
  - intros w Hw. apply Hmem in Hw.
    destruct ((Z.of_nat n <=? w)%Z || (w <? 0)%Z) eqn:Hb; [|lia].
    assert (Ht : existsb (fun z0 => (Z.of_nat n <=? z0)%Z || (z0 <? 0)%Z) (z :: zs) = true)
      by (apply existsb_exists; exists w; split; [exact Hw|exact Hb]).
    congruence.
Qed.

Lemma valid1_int : forall n i, valid1 n (IInt (Z.of_nat i)) <-> i < n.
Proof.
  intros n i. unfold valid1; cbn. split.
  - intros (_ & _ & H). specialize (H _ eq_refl). lia.
  - intros H. split; [exact I|]. split; [eexists; reflexivity|]. intros z ->. lia.
Qed.

Lemma selection_int : forall n i, selection n (IInt (Z.of_nat i)) [i].
Proof.
  intros n i. split; [repeat constructor|]. intros j. cbn. split.
  - intros [->|[]]. reflexivity.
  - intros H. apply Nat2Z.inj in H. auto.
Qed.
