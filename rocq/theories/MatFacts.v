(** Facts about lists and matrices of MatModel.v. *)
From Coq Require Import List Arith Bool Lia.
Import ListNotations.
From Verif Require Import Prelude MatModel.

Lemma nth_map_seq : forall {A} (f : nat -> A) n i d,
  i < n -> nth i (map f (seq 0 n)) d = f i.
Proof.
  intros A f n i d Hi.
  rewrite nth_indep with (d' := f 0) by (rewrite map_length, seq_length; exact Hi).
  rewrite map_nth, seq_nth by exact Hi. reflexivity.
Qed.

Lemma list_ext : forall {A} (d : A) l l',
  length l = length l' -> (forall i, i < length l -> nth i l d = nth i l' d) -> l = l'.
Proof.
  intros A d l l' Hlen H. apply nth_ext with d d; assumption.
Qed.

Lemma list_upd_length : forall {A} (l : list A) i a, length (list_upd l i a) = length l.
Proof.
  intros A l; induction l as [|x l IH]; intros [|i] a; simpl; auto.
Qed.

Lemma list_upd_nth : forall {A} (l : list A) i a j d,
  nth j (list_upd l i a) d = if (j =? i) && (i <? length l) then a else nth j l d.
Proof.
  intros A l; induction l as [|x l IH]; intros i a j d.
  - simpl. destruct i; rewrite andb_false_r; destruct j; reflexivity.
  - destruct i as [|i], j as [|j]; simpl; try reflexivity.
    rewrite IH. reflexivity.
Qed.

Definition mwf {V} (n m : nat) (A : mat V) : Prop :=
  mr A = n /\ mc A = m /\ length (md A) = n /\
  (forall r, In r (md A) -> length r = m).

Lemma tabulate_wf : forall {V} n m (f : nat -> nat -> V), mwf n m (tabulate n m f).
Proof.
  intros V n m f. unfold mwf, tabulate; simpl.
  repeat split; try reflexivity.
  - rewrite map_length, seq_length. reflexivity.
  - intros r Hr. apply in_map_iff in Hr. destruct Hr as [i [Hi _]]. subst r.
    rewrite map_length, seq_length. reflexivity.
Qed.

Lemma mget_tabulate : forall {V} (d : V) n m f i j,
  i < n -> j < m -> mget d (tabulate n m f) i j = f i j.
Proof.
  intros V d n m f i j Hi Hj. unfold mget, tabulate; simpl.
  rewrite nth_map_seq by exact Hi. rewrite nth_map_seq by exact Hj. reflexivity.
Qed.

Lemma tabulate_ext : forall {V} n m (f g : nat -> nat -> V),
  (forall i j, i < n -> j < m -> f i j = g i j) -> tabulate n m f = tabulate n m g.
Proof.
  intros V n m f g H. unfold tabulate. f_equal.
  apply map_ext_in. intros i Hi. apply in_seq in Hi.
  apply map_ext_in. intros j Hj. apply in_seq in Hj. apply H; lia.
Qed.

Lemma mat_ext : forall {V} (d : V) n m A f,
  mwf n m A -> (forall i j, i < n -> j < m -> mget d A i j = f i j) ->
  A = tabulate n m f.
Proof.
  intros V d n m [r c rows] f (Hr & Hc & Hl & Hrows) H; simpl in *. subst r c.
  unfold tabulate. f_equal.
  apply list_ext with (d := []).
  - rewrite map_length, seq_length. exact Hl.
  - intros i Hi. rewrite nth_map_seq by lia.
    assert (Hli : length (nth i rows []) = m) by (apply Hrows, nth_In; lia).
    apply list_ext with (d := d).
    + rewrite map_length, seq_length. exact Hli.
    + intros j Hj. rewrite nth_map_seq by lia.
      apply (H i j); lia.
Qed.

Lemma mat_eq : forall {V} (d : V) n m A B,
  mwf n m A -> mwf n m B ->
  (forall i j, i < n -> j < m -> mget d A i j = mget d B i j) -> A = B.
Proof.
  intros V d n m A B HA HB H.
  rewrite (mat_ext d n m A (mget d A) HA) by reflexivity.
  rewrite (mat_ext d n m B (mget d B) HB) by reflexivity.
  apply tabulate_ext. exact H.
Qed.

Lemma mset_wf : forall {V} n m (A : mat V) i j v, mwf n m A -> mwf n m (mset A i j v).
Proof.
  intros V n m A i j v (Hr & Hc & Hl & Hrows). unfold mwf, mset; simpl.
  repeat split; try assumption.
  - rewrite list_upd_length. exact Hl.
  - intros r Hr'. apply In_nth with (d := []) in Hr'.
    destruct Hr' as [k [Hk <-]]. rewrite list_upd_length in Hk.
    rewrite list_upd_nth.
    destruct ((k =? i) && (i <? length (md A))) eqn:E.
    + rewrite list_upd_length. apply andb_true_iff in E. destruct E as [E1 E2].
      apply Nat.eqb_eq in E1. subst k. apply Hrows, nth_In. exact Hk.
    + apply Hrows, nth_In. exact Hk.
Qed.

Lemma mget_mset : forall {V} (d : V) n m A i j v a b,
  mwf n m A -> a < n -> b < m ->
  mget d (mset A i j v) a b = if (a =? i) && (b =? j) then v else mget d A a b.
Proof.
  intros V d n m A i j v a b (Hr & Hc & Hl & Hrows) Ha Hb.
  unfold mget, mset; simpl. rewrite list_upd_nth, Hl.
  destruct (a =? i) eqn:E1; simpl.
  - apply Nat.eqb_eq in E1. subst i.
    assert (Hlt : (a <? n) = true) by (apply Nat.ltb_lt; exact Ha).
    rewrite Hlt. rewrite list_upd_nth.
    assert (Hla : length (nth a (md A) []) = m) by (apply Hrows, nth_In; lia).
    rewrite Hla. destruct (b =? j) eqn:E2; simpl; [|reflexivity].
    apply Nat.eqb_eq in E2. subst j.
    assert (Hlt2 : (b <? m) = true) by (apply Nat.ltb_lt; exact Hb).
    rewrite Hlt2. reflexivity.
  - reflexivity.
Qed.

Lemma mall_tabulate : forall {V} (p : V -> bool) n m f,
  mall p (tabulate n m f) = true <-> (forall i j, i < n -> j < m -> p (f i j) = true).
Proof.
  intros V p n m f. unfold mall, tabulate; simpl. rewrite forallb_forall. split.
  - intros H i j Hi Hj.
    assert (H1 := H (map (f i) (seq 0 m))).
    rewrite forallb_forall in H1. apply H1.
    + apply in_map_iff. exists i. split; [reflexivity|]. apply in_seq; lia.
    + apply in_map_iff. exists j. split; [reflexivity|]. apply in_seq; lia.
  - intros H r Hr. apply in_map_iff in Hr. destruct Hr as [i [<- Hi]].
    apply in_seq in Hi. rewrite forallb_forall. intros v Hv.
    apply in_map_iff in Hv. destruct Hv as [j [<- Hj]]. apply in_seq in Hj.
    apply H; lia.
Qed.
