(** The table of similarities of a selection of the members of a KernelSet (C117). *)
From Coq Require Import String Reals List Arith ZArith Bool Permutation Lia Lra Classical.
Import ListNotations.
From Verif Require Import Prelude MatModel UtilsModel IndexModel KMModel SpecKM XReal OpsModel SpecLinAlg
  KernelsModel SpecKernels KMXModel SpecKMX SetModel SpecSet BucketModel SpecBucket CompositeModel SpecComposite RankModel SpecRank.
From Verif Require Import MatFacts RSum OpsFacts KMXProps ContProps SetProps CompositeProps RankProps OrderProps TakeOrderProps.
Local Open Scope list_scope.
Local Open Scope nat_scope.

(*BEGIN PROP*)
(** What the metric needs to be defined on the matrices [Ks], whose entries are the [As]: square matrices of
    numbers in any storage format but lil for 'align'; plain ndarrays of size 2 or more for 'corr'. *)
Definition metric_defined (metric : string) (n : nat) (Ks : list (arr xr)) (As : list (nat -> nat -> R)) : Prop :=
  metric = "align"%string /\ finite_matrices n Ks As \/
  metric = "corr"%string /\ 2 <= n /\ Forall2 (fun K A => K = mkArr Dense (rmat n n A)) Ks As.
(*END PROP*)

Section Pick.
  Context {A B : Type} (R : A -> B -> Prop).
  Lemma pick_list : forall (ms : list A) (Ks : list B) (d : B) ix ls, Forall2 R ms Ks ->
    Forall2 (fun z l => (0 <= z)%Z /\ nth_error ms (Z.to_nat z) = Some l) ix ls ->
    Forall2 R ls (map (fun z => nth (Z.to_nat z) Ks d) ix) /\ Forall (fun z => Z.to_nat z < length Ks) ix.
  Proof.
    intros ms Ks d ix ls H S. induction S as [|z l ix ls [_ E] S IH]; [split; constructor|].
    assert (P : forall i, nth_error ms i = Some l -> R l (nth i Ks d) /\ i < length Ks).
    { clear - H. induction H as [|m K ms Ks Hm H IH]; intros [|i] E; cbn in E |- *; try discriminate E.
      - injection E as <-. split; [exact Hm|lia].
      - destruct (IH i E). split; [assumption|lia]. }
    destruct (P _ E). destruct IH. split; constructor; assumption.
  Qed.
End Pick.

Lemma metric_values : forall {U} co (w : world xr xr U) k num ms Ks n As metric,
  set_is w k num ms -> fulls w ms Ks -> metric_defined metric n Ks As ->
  exists P, snd (pairwise_similarity co k metric w) = Ok P /\ mr P = length ms /\ mc P = length ms /\
    forall i j, i < length ms -> j < length ms ->
      let A := nth i As (fun _ _ => 0%R) in let B := nth j As (fun _ _ => 0%R) in
      metric = "align"%string /\ xget P i j = Fin (aligned n A B) \/
      metric = "corr"%string /\ (varies n n A -> varies n n B -> xget P i j = Fin (pearson n n A B)) /\
        (~ varies n n A \/ ~ varies n n B -> xget P i j = NaN).
Proof.
  intros U co w k num ms Ks n As metric S F [[-> D]|(-> & N & D)].
  - destruct (pf_C50_align co w k num ms Ks n As S F D) as (P & E & R & C & V). exists P. repeat split; try assumption.
    intros i j Hi Hj. left. split; [reflexivity|]. exact (proj1 (V i j Hi Hj)).
  - destruct (proj1 (pf_C50_corr_exact co w k num ms Ks n As S F D) N) as (P & E & R & C & V). exists P. repeat split; try assumption.
    intros i j Hi Hj. right. split; [reflexivity|]. exact (V i j Hi Hj).
Qed.

(** If the members of a second KernelSet are members of a first one, in any order and number, then entry (i, j) of
    its table of similarities is the entry of the first table at the positions of these two members. *)
Lemma pf_C117_selection :
  forall {U} co (w : world xr xr U) k num ms Ks n As k' num' ls ix metric,
    set_is w k num ms -> fulls w ms Ks -> metric_defined metric n Ks As ->
    set_is w k' num' ls -> selected ms ix ls ->
    exists P P', snd (pairwise_similarity co k metric w) = Ok P /\ snd (pairwise_similarity co k' metric w) = Ok P' /\
      mr P' = length ls /\ mc P' = length ls /\
      forall i j, i < length ls -> j < length ls ->
        xget P' i j = xget P (Z.to_nat (nth i ix 0%Z)) (Z.to_nat (nth j ix 0%Z)).
Proof.
  intros U co w k num ms Ks n As k' num' ls ix metric S F D S' Sel.
  set (zf := fun _ _ : nat => 0%R). set (dK := mkArr Dense (mkMat 0 0 []) : arr xr).
  set (Ks' := map (fun z => nth (Z.to_nat z) Ks dK) ix). set (As' := map (fun z => nth (Z.to_nat z) As zf) ix).
  assert (L : length ix = length ls) by (clear - Sel; induction Sel; cbn; congruence).
  destruct (pick_list _ ms Ks dK ix ls F Sel) as [F' I].
  assert (LM : length ms = length Ks) by (clear - F; induction F; cbn; congruence).
  assert (P2 : forall (Q : arr xr -> (nat -> nat -> R) -> Prop), Forall2 Q Ks As -> Forall2 Q Ks' As').
  { intros Q H. unfold Ks', As'. clear - H I. induction I as [|z ix Hz I IH]; [constructor|]. constructor; [|exact IH].
    clear - H Hz. revert Hz. generalize (Z.to_nat z) as i. induction H as [|K A Ks As HK H IH]; intros i Hi; [cbn in Hi; lia|].
    destruct i as [|i]; [exact HK|]. apply IH. cbn in Hi. lia. }
  assert (D' : metric_defined metric n Ks' As').
  { destruct D as [[-> D]|(-> & N & D)]; [left|right]; (split; [reflexivity|]); [exact (P2 _ D)|split; [exact N|exact (P2 _ D)]]. }
  destruct (metric_values co w k num ms Ks n As metric S F D) as (P & E & _ & _ & V).
  destruct (metric_values co w k' num' ls Ks' n As' metric S' F' D') as (P' & E' & R' & C' & V').
  exists P, P'. repeat split; try assumption. intros i j Hi Hj.
  assert (B : forall i, i < length ls -> Z.to_nat (nth i ix 0%Z) < length ms /\
                nth i As' zf = nth (Z.to_nat (nth i ix 0%Z)) As zf).
  { intros a Ha. rewrite Forall_forall in I. split.
    - rewrite LM. apply I, nth_In. lia.
    - unfold As'. rewrite (nth_indep _ zf (nth (Z.to_nat 0) As zf)) by (rewrite map_length; lia).
      exact (map_nth (fun z => nth (Z.to_nat z) As zf) ix 0%Z a). }
  destruct (B i Hi) as [Bi Ei], (B j Hj) as [Bj Ej]. specialize (V _ _ Bi Bj). specialize (V' i j Hi Hj). cbv zeta in V, V'.
  fold zf in V, V'. rewrite Ei, Ej in V'.
  set (A := nth (Z.to_nat (nth i ix 0%Z)) As zf) in *. set (A' := nth (Z.to_nat (nth j ix 0%Z)) As zf) in *.
  destruct V as [[-> V]|(-> & Va & Vb)], V' as [[M V']|(M & V'a & V'b)]; try discriminate M; [congruence|].
  destruct (classic (varies n n A)) as [Y|Y]; [|rewrite Vb, V'b by (left; exact Y); reflexivity].
  destruct (classic (varies n n A')) as [Y'|Y']; [|rewrite Vb, V'b by (right; exact Y'); reflexivity].
  rewrite Va, V'a by assumption. reflexivity.
Qed.

(** End to end: [take] of members by their positions, and the tables of the set and of what [take] returned. *)
Lemma pf_C117_take :
  forall {U} C numeric co (w : world xr xr U) k num ms Ks n As ix ls metric,
    set_is w k num ms -> consistent_set w k -> fulls w ms Ks -> metric_defined metric n Ks As -> selected ms ix ls ->
    exists w' k' P P', wstep xN C numeric (WTake k ix) w = (w', Ok (WSetRef k')) /\
      snd (pairwise_similarity co k metric w') = Ok P /\ snd (pairwise_similarity co k' metric w') = Ok P' /\
      mr P' = length ix /\ mc P' = length ix /\
      forall i j, i < length ix -> j < length ix ->
        xget P' i j = xget P (Z.to_nat (nth i ix 0%Z)) (Z.to_nat (nth j ix 0%Z)).
Proof.
  intros U C numeric co w k num ms Ks n As ix ls metric S Hc F D Sel.
  destruct (pf_C41_take xN C numeric w k num ms ix ls S Hc Sel) as (w' & k' & T & _ & S' & Ho & Hk).
  assert (L : length ix = length ls) by (clear - Sel; induction Sel; cbn; congruence).
  assert (S2 : set_is w' k num ms) by (destruct S as (b & x & S); exists b, x; apply Hk, S).
  destruct (pf_C117_selection co w' k num ms Ks n As k' _ ls ix metric S2 (fulls_objs w w' _ _ Ho F) D S' Sel)
    as (P & P' & E & E' & R & C' & V).
  exists w', k', P, P'. rewrite L. repeat split; assumption.
Qed.

(*BEGIN PROP*)
(** The number an entry is. *)
Definition numbers_of (K : arr xr) : nat -> nat -> R := fun i j => match xget (amat K) i j with Fin r => r | _ => 0%R end.

(** A case: the members 1, 0 and 1 again of the first set of [w_order] (Prop_Order.v), and both metrics. *)
Example C117_example :
  set_is w_order 0 (NSOne 2) [0; 1] /\ consistent_set w_order 0 /\ selected [0; 1] [1; 0; 1]%Z [1; 0; 1] /\
  exists K K', fulls w_order [0; 1] [K; K'] /\ numbers_of K 0 0 <> numbers_of K 1 1 /\
    metric_defined "align" 2 [K; K'] [numbers_of K; numbers_of K'] /\
    metric_defined "corr" 2 [K; K'] [numbers_of K; numbers_of K'].
Proof.
  destruct C115_take_example as (S & C & _). split; [exact S|]. split; [exact C|].
  split; [repeat constructor; discriminate|]. eexists. eexists. split; [|split; [|split]].
  - constructor; [calc; reflexivity|]. constructor; [calc; reflexivity|]. constructor.
  - unfold numbers_of. calc. lra.
  - left. split; [reflexivity|]. constructor; [split; [discriminate|reflexivity]|]. constructor; [split; [discriminate|reflexivity]|constructor].
  - right. split; [reflexivity|]. split; [lia|]. constructor; [reflexivity|]. constructor; [reflexivity|constructor].
Qed.
(*END PROP*)
