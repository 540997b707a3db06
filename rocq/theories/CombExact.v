(** linear_combination of arbitrary matrices and weights, exactly: property C25. *)
From Coq Require Import String Reals List Bool Arith Lia Lra.
Import ListNotations.
From Verif Require Import Prelude MatModel XReal OpsModel SpecLinAlg.
From Verif Require Import MatFacts OpsFacts OpsProps.
Local Open Scope list_scope.
Local Open Scope nat_scope.

(*BEGIN PROP*)
(** The full matrix of a member could be computed and has the shape of the set. *)
Definition fitting (n m : nat) (f : res (mat xr)) : Prop := exists K, f = Ok K /\ mr K = n /\ mc K = m.

(** It could not, or has another shape, and how that is announced. *)
Definition misfit (n m : nat) (f : res (mat xr)) (e : exn) : Prop :=
  f = Raise e \/ exists K, f = Ok K /\ (mr K <> n \/ mc K <> m) /\ e = ValueError.
(*END PROP*)

Lemma sum_raise : forall n m fulls w acc e, length w = length fulls ->
  (weighted_sum n m acc w fulls = Raise e <->
   exists pre f post, fulls = pre ++ f :: post /\ Forall (fitting n m) pre /\ misfit n m f e).
Proof.
  intros n m. induction fulls as [|f fulls IH]; intros [|x w] acc e L; try discriminate.
  - cbn. split; [discriminate|]. intros (pre & f & post & E & _). destruct pre; discriminate.
  - cbn [weighted_sum]. injection L as L. destruct f as [K|e']; cbn [rbind].
    + destruct ((mr K =? n) && (mc K =? m)) eqn:B.
      * apply andb_prop in B. destruct B as [B1 B2]. apply Nat.eqb_eq in B1, B2.
        rewrite (IH w _ e L). split.
        -- intros (pre & f & post & -> & F & M). exists (Ok K :: pre), f, post. split; [reflexivity|].
           split; [|exact M]. constructor; [|exact F]. now exists K.
        -- intros (pre & f & post & E & F & M). destruct pre as [|p pre].
           ++ injection E as <- <-. destruct M as [M|(K' & E' & N & _)]; [discriminate|].
              injection E' as <-. lia.
           ++ injection E as <- ->. exists pre, f, post. inversion F; now subst.
      * apply andb_false_iff in B. rewrite !Nat.eqb_neq in B. split.
        -- intros [= <-]. exists [], (Ok K), fulls. split; [reflexivity|]. split; [constructor|].
           right. now exists K.
        -- intros (pre & f & post & E & F & M). destruct pre as [|p pre].
           ++ injection E as <- <-. destruct M as [M|(K' & E' & N & ->)]; [discriminate|reflexivity].
           ++ injection E as <- ->. inversion F as [|? ? (K' & E' & H1 & H2)]. subst. injection E' as <-. lia.
    + split.
      * intros [= <-]. exists [], (Raise e'), fulls. split; [reflexivity|]. split; [constructor|]. now left.
      * intros (pre & f & post & E & F & M). destruct pre as [|p pre].
        -- injection E as <- <-. destruct M as [M|(K' & E' & _)]; [now rewrite M|discriminate].
        -- injection E as <- ->. inversion F as [|? ? (K' & E' & _)]. discriminate.
Qed.

Lemma normed_len : forall b w w', normed_weights b w = Ok w' -> length w' = length w.
Proof.
  intros [|] w w' H; unfold normed_weights in H.
  - destruct (xisclose (xsum w) (Fin 0)); [discriminate|]. injection H as <-. apply map_length.
  - now injection H as <-.
Qed.

(** C25: when linear_combination raises, exactly: a wrong number of weights; weights to be normalised whose
    sum is (nearly) zero; or the first member whose full matrix cannot be computed or has another shape, with
    the members before it all right. *)
Lemma pf_C25_raises_exact : forall n m fulls w norm e,
  linear_combination n m fulls w norm = Raise e <->
  length fulls <> length w /\ e = ValueError \/
  length fulls = length w /\
  (norm = true /\ xisclose (xsum w) (Fin 0) = true /\ e = RuntimeError \/
   (norm = false \/ xisclose (xsum w) (Fin 0) = false) /\
   exists pre f post, fulls = pre ++ f :: post /\ Forall (fitting n m) pre /\ misfit n m f e).
Proof.
  intros n m fulls w norm e. unfold linear_combination.
  destruct (length fulls =? length w) eqn:L; [apply Nat.eqb_eq in L|apply Nat.eqb_neq in L]; cbn [negb].
  - destruct (normed_weights norm w) as [w'|e'] eqn:W; cbn [rbind].
    + rewrite sum_raise by (rewrite (normed_len _ _ _ W); congruence).
      assert (G : norm = false \/ xisclose (xsum w) (Fin 0) = false).
      { unfold normed_weights in W. destruct norm; [|now left].
        destruct (xisclose (xsum w) (Fin 0)); [discriminate|now right]. }
      split.
      * intros H. right. split; [exact L|]. right. now split.
      * intros [[N _]|[_ [(-> & Z & _)|[_ H]]]]; [congruence| |exact H].
        destruct G as [G|G]; congruence.
    + unfold normed_weights in W. destruct norm; [|discriminate].
      destruct (xisclose (xsum w) (Fin 0)) eqn:Z; [|discriminate]. injection W as <-. split.
      * intros [= <-]. right. split; [exact L|]. now left.
      * intros [[N _]|[_ [(_ & _ & ->)|[[G|G] _]]]]; congruence.
  - split.
    + intros [= <-]. now left.
    + intros [[_ ->]|[N _]]; [reflexivity|contradiction].
Qed.

Lemma sum_value : forall n m Ks w acc, length w = length Ks ->
  Forall (fun K => mr K = n /\ mc K = m) Ks ->
  exists R, weighted_sum n m (tabulate n m acc) w (map Ok Ks) = Ok R /\ mwf n m R /\
    forall i j, i < n -> j < m ->
      xget R i j = fold_left (fun s p => xadd s (xmul (fst p) (xget (snd p) i j))) (combine w Ks) (acc i j).
Proof.
  intros n m. induction Ks as [|K Ks IH]; intros [|x w] acc L F; try discriminate.
  - exists (tabulate n m acc). split; [reflexivity|]. split; [apply tabulate_wf|].
    intros i j Hi Hj. cbn. now apply mget_tabulate.
  - injection L as L. inversion F as [|? ? [H1 H2] F']. subst. cbn [map weighted_sum rbind].
    rewrite !Nat.eqb_refl. cbn [andb].
    destruct (IH w (fun i j => xadd (xget (tabulate (mr K) (mc K) acc) i j) (xmul x (xget K i j))) L F')
      as (R & E & W & V).
    exists R. split; [exact E|]. split; [exact W|]. intros i j Hi Hj. rewrite V by assumption.
    cbn [combine fold_left fst snd]. f_equal. f_equal. now apply mget_tabulate.
Qed.

(** C25: and otherwise the entries of the result, for arbitrary entries and weights (infinite, NaN): the
    members' entries times the weights, added up in order from zero. *)
Lemma pf_C25_value_exact : forall n m Ks w norm,
  length Ks = length w -> Forall (fun K => mr K = n /\ mc K = m) Ks ->
  norm = false \/ xisclose (xsum w) (Fin 0) = false ->
  exists R, linear_combination n m (map Ok Ks) w norm = Ok R /\ mr R = n /\ mc R = m /\
    forall i j, i < n -> j < m ->
      xget R i j = fold_left (fun s p => xadd s (xmul (fst p) (xget (snd p) i j)))
                     (combine (if norm then map (fun x => xdiv x (xsum w)) w else w) Ks) (Fin 0).
Proof.
  intros n m Ks w norm L F H. unfold linear_combination. rewrite map_length, L, Nat.eqb_refl. cbn [negb].
  assert (W : normed_weights norm w = Ok (if norm then map (fun x => xdiv x (xsum w)) w else w)).
  { unfold normed_weights. destruct norm; [|reflexivity]. destruct H as [H|H]; [discriminate|now rewrite H]. }
  rewrite W. cbn [rbind].
  destruct (sum_value n m Ks (if norm then map (fun x => xdiv x (xsum w)) w else w) (fun _ _ => Fin 0))
    as (R & E & (R1 & R2 & _) & V); [destruct norm; rewrite ?map_length; congruence|exact F|].
  exists R. auto.
Qed.

(** C25: the hypotheses are met: a member of another shape after one that fits; and two members of which one
    has an infinite entry. *)
Lemma pf_C25_exact_example :
  let A := mkMat 1 1 [[Fin 2]] in
  let B := mkMat 1 1 [[PInf]] in
  let D := mkMat 2 1 [[Fin 1]; [Fin 1]] in
  linear_combination 1 1 [Ok A; Ok D] [Fin 1; Fin 1] false = Raise ValueError /\
  exists R, linear_combination 1 1 [Ok A; Ok B] [Fin 1; Fin 0] false = Ok R /\ xget R 0 0 = NaN.
Proof.
  cbv zeta. split.
  - apply pf_C25_raises_exact. right. split; [reflexivity|]. right. split; [now left|].
    exists [Ok (mkMat 1 1 [[Fin 2]])], (Ok (mkMat 2 1 [[Fin 1]; [Fin 1]])), []. split; [reflexivity|]. split.
    + repeat constructor. now exists (mkMat 1 1 [[Fin 2]]).
    + right. exists (mkMat 2 1 [[Fin 1]; [Fin 1]]). cbn. repeat split. left. lia.
  - destruct (pf_C25_value_exact 1 1 [mkMat 1 1 [[Fin 2]]; mkMat 1 1 [[PInf]]] [Fin 1; Fin 0] false)
      as (R & E & _ & _ & V); [reflexivity|repeat constructor|now left|].
    exists R. split; [exact E|]. rewrite V by lia. cbn.
    assert (Z : signed_inf 0 = NaN).
    { unfold signed_inf. repeat match goal with |- context [if ?b then _ else _] => destruct b end;
        try reflexivity; exfalso; lra. }
    now rewrite Z.
Qed.
