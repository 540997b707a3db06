(** KernelSet.set_attr, and attach_to of a subset, in full generality: properties C42 and C44. *)
From Coq Require Import String List Arith ZArith Bool Lia.
Import ListNotations.
From Verif Require Import Prelude MatModel UtilsModel IndexModel KMModel SpecKM ToyModel SetModel SpecSet.
From Verif Require Import MatFacts MFacts KMFacts KMInv KMHist KMProps SetFacts SetFacts2 SetProps.
Local Open Scope list_scope.
Local Open Scope nat_scope.

Section Attr.
  Context {E V U : Type}.
  Variable N : numops V.
  Notation World := (world E V U).

  (** The value of the last pair for [l]. *)
  Fixpoint last_value (ps : list (nat * U)) (l : nat) : option U :=
    match ps with
    | [] => None
    | (l', v) :: ps' => match last_value ps' l with
                        | Some u => Some u
                        | None => if l' =? l then Some v else None
                        end
    end.

  Definition given_value (name : string) (o : option U) (s : km E V U) : km E V U :=
    match o with Some v => with_attr N name v s | None => s end.

  Lemma dict_set_twice : forall (d : list (string * U)) n u v, dict_set (dict_set d n u) n v = dict_set d n v.
  Proof.
    intros d n u v. induction d as [|[m w] d IH]; cbn.
    - rewrite String.eqb_refl. reflexivity.
    - destruct (String.eqb n m) eqn:H; cbn.
      + rewrite String.eqb_refl. reflexivity.
      + rewrite H, IH. reflexivity.
  Qed.

  Lemma with_attr_twice : forall name u v (s : km E V U),
    with_attr N name v (with_attr N name u s) = with_attr N name v s.
  Proof.
    intros name u v s. unfold with_attr. cbn [step]. unfold fmap, bind, set_attr, modify, ret. cbn [fst].
    unfold set_attrs. cbn. rewrite dict_set_twice. reflexivity.
  Qed.

  Lemma attr_loop : forall name ps (w : World), (forall l v, In (l, v) ps -> is_km w l) ->
    exists w', for_each ps (fun p => on_km (fst p) (set_attr name (snd p))) w = (w', Ok tt) /\
      w_sets w' = w_sets w /\
      forall l, nth_error (w_objs w') l =
        match nth_error (w_objs w) l with
        | Some (OKM s) => Some (OKM (given_value name (last_value ps l) s))
        | r => r
        end.
  Proof.
    intros name ps. induction ps as [|[l v] ps IH]; intros w Hkm.
    - exists w. split; [reflexivity|]. split; [reflexivity|]. intros l. cbn.
      destruct (nth_error (w_objs w) l) as [[s|A]|]; reflexivity.
    - destruct (Hkm l v (or_introl eq_refl)) as [t Ht].
      set (w1 := set_objs (list_upd (w_objs w) l (OKM (with_attr N name v t))) w).
      assert (H1 : on_km l (set_attr name v) w = (w1, Ok tt)) by (unfold on_km; rewrite Ht; reflexivity).
      destruct (IH w1) as (w2 & H2 & Hs2 & Ho2).
      + intros l' v' Hl'. destruct (Hkm l' v' (or_intror Hl')) as [t' Ht'].
        destruct (Nat.eq_dec l' l) as [->|Hne].
        * exists (with_attr N name v t). cbn [w1 set_objs w_objs]. eapply nth_error_upd_same. exact Ht.
        * exists t'. cbn [w1 set_objs w_objs]. rewrite nth_error_upd_other by assumption. exact Ht'.
      + exists w2. split; [|split].
        * cbn [for_each fst snd]. unfold bind. rewrite H1. exact H2.
        * rewrite Hs2. reflexivity.
        * intros l'. rewrite Ho2. cbn [last_value w1 set_objs w_objs]. destruct (Nat.eq_dec l' l) as [->|Hne].
          -- rewrite (nth_error_upd_same _ _ _ _ Ht), Ht. rewrite Nat.eqb_refl.
             destruct (last_value ps l) as [u|]; cbn [given_value]; [rewrite with_attr_twice|]; reflexivity.
          -- rewrite nth_error_upd_other by assumption.
             destruct (nth_error (w_objs w) l') as [[s|A]|]; try reflexivity.
             replace (l =? l') with false by (symmetry; apply Nat.eqb_neq; congruence).
             destruct (last_value ps l'); reflexivity.
  Qed.

  Lemma last_value_in : forall ps l, last_value ps l = None <-> ~ In l (map fst ps).
  Proof.
    intros ps l. induction ps as [|[l' v] ps IH]; cbn; [tauto|].
    destruct (last_value ps l) as [u|].
    - split; [discriminate|]. intros H. exfalso. assert (HN := proj2 IH). assert (Hn : ~ In l (map fst ps)) by tauto. discriminate (HN Hn).
    - destruct (l' =? l) eqn:He.
      + apply Nat.eqb_eq in He. split; [discriminate|]. tauto.
      + apply Nat.eqb_neq in He. split; [|reflexivity]. intros _ [H|H]; [contradiction|]. tauto.
  Qed.

  Lemma last_value_at : forall ms vs i l v, nth_error ms i = Some l -> nth_error vs i = Some v ->
    (forall j, i < j -> nth_error ms j <> Some l) -> last_value (combine ms vs) l = Some v.
  Proof.
    intros ms. induction ms as [|m ms IH]; intros [|u vs] [|i] l v Hl Hv Hj; try discriminate.
    - cbn in Hl, Hv |- *. inversion Hl; inversion Hv; subst.
      assert (H : last_value (combine ms vs) l = None).
      { apply last_value_in. intros Hin. apply in_map_iff in Hin. destruct Hin as ([l' v'] & He & Hin).
        cbn in He. subst l'. apply in_combine_l in Hin. apply In_nth_error in Hin. destruct Hin as [j Hin].
        apply (Hj (S j)); [lia|exact Hin]. }
      rewrite H, Nat.eqb_refl. reflexivity.
    - cbn in Hl, Hv |- *. rewrite (IH vs i l v Hl Hv); [reflexivity|].
      intros j Hji. apply (Hj (S j)). lia.
  Qed.

  Lemma map_fst_firstn : forall (ms : list nat) (vs : list U) p, length vs = length ms ->
    map fst (firstn p (combine ms vs)) = firstn p ms.
  Proof.
    intros ms. induction ms as [|m ms IH]; intros [|u vs] [|p] H; try discriminate; try reflexivity.
    cbn. f_equal. apply IH. cbn in H. lia.
  Qed.
  Lemma firstn_combine : forall (ms : list nat) (vs : list U) p,
    firstn p (combine ms vs) = combine (firstn p ms) (firstn p vs).
  Proof.
    intros ms. induction ms as [|m ms IH]; intros [|u vs] [|p]; try reflexivity. cbn. f_equal. apply IH.
  Qed.
End Attr.

Lemma nth_firstn : forall {A} (l : list A) p i, nth_error (firstn p l) i = if i <? p then nth_error l i else None.
Proof.
  intros A l. induction l as [|a l IH]; intros [|p] [|i]; try reflexivity.
  - cbn [firstn]. destruct (S i <? S p); reflexivity.
  - cbn [firstn nth_error]. rewrite IH. reflexivity.
Qed.

(** C44, exactly: let [vs] be one value per member (or the scalar, repeated), and [p] the number of
    members before the first KernelMatrixPrecomputed. set_attr sets the values of these [p] members,
    in their order (a member that is repeated keeps its last value), changes nothing else, and then
    raises AttributeError unless that were all members. *)
Lemma pf_C44_exact :
  forall {E V U} (N : numops V) (C : cmpops V) (numeric : list E -> bool)
         (w : world E V U) k n ms name vals vs p,
    set_is w k n ms ->
    (exists u, vals = AScalar u /\ vs = repeat u (length ms)) \/ vals = ASeq vs /\ length vs = length ms ->
    (forall l, In l (firstn p ms) -> is_km w l) ->
    p = length ms \/ (exists l A, nth_error ms p = Some l /\ nth_error (w_objs w) l = Some (OPre A)) ->
    exists w',
      wstep N C numeric (WSetAttr k name vals) w
        = (w', if p =? length ms then Ok WUnit else Raise AttributeError) /\
      w_sets w' = w_sets w /\
      (forall i l v s, i < p -> nth_error ms i = Some l -> nth_error vs i = Some v ->
         (forall j, i < j < p -> nth_error ms j <> Some l) ->
         nth_error (w_objs w) l = Some (OKM s) ->
         nth_error (w_objs w') l = Some (OKM (with_attr N name v s))) /\
      (forall l, ~ In l (firstn p ms) -> nth_error (w_objs w') l = nth_error (w_objs w) l).
Proof.
  intros E V U N C numeric w k n ms name vals vs p Hk Hvals Hkm Hp.
  destruct (set_is_eq w k n ms Hk) as (s & Hs & Hn & Hms).
  assert (Hlen : length vs = length ms).
  { destruct Hvals as [(u & -> & ->)|[-> H]]; [apply repeat_length|exact H]. }
  assert (Hstep : forall w' (r : res unit),
    for_each (combine ms vs) (fun p => on_km (fst p) (set_attr name (snd p))) w = (w', r) ->
    wstep N C numeric (WSetAttr k name vals) w = (w', res_map (fun _ => WUnit) r)).
  { intros w' r H. cbn [wstep]. unfold wfmap, set_set_attr, bind, get_set. rewrite Hs, Hms.
    destruct Hvals as [(u & -> & ->)|[-> H0]].
    - unfold ret at 1. cbv beta iota. rewrite H. destruct r as [[]|]; reflexivity.
    - rewrite H0, Nat.eqb_refl. cbn [negb]. unfold ret at 1. cbv beta iota. rewrite H.
      destruct r as [[]|]; reflexivity. }
  set (ps := combine ms vs) in *.
  destruct (attr_loop N name (firstn p ps) w) as (w' & H1 & H2 & H3).
  { intros l v Hl. apply Hkm. rewrite <- (map_fst_firstn ms vs p Hlen). apply (in_map fst) in Hl. exact Hl. }
  assert (Hloop : for_each ps (fun p => on_km (fst p) (set_attr name (snd p))) w
    = (w', if p =? length ms then Ok tt else Raise AttributeError)).
  { destruct Hp as [->|(l & A & Hl & HA)].
    - rewrite Nat.eqb_refl. rewrite <- H1. f_equal. symmetry. apply firstn_all2.
      unfold ps. rewrite combine_length. lia.
    - assert (Hlt : p < length ms) by (apply nth_error_Some; congruence).
      replace (p =? length ms) with false by (symmetry; apply Nat.eqb_neq; lia).
      rewrite <- (firstn_skipn p ps), for_each_app. unfold bind. rewrite H1.
      assert (Hn1 : exists v rest, skipn p ps = (l, v) :: rest).
      { unfold ps. clear -Hl Hlen. revert vs p Hlen Hl. induction ms as [|m ms IH]; intros [|u vs] [|p] Hlen Hl; try discriminate.
        - cbn in Hl. inversion Hl; subst. eexists. eexists. reflexivity.
        - cbn. apply IH; [cbn in Hlen; lia|exact Hl]. }
      destruct Hn1 as (v & rest & ->). cbn [for_each fst snd]. unfold bind, on_km. rewrite H3, HA. reflexivity. }
  exists w'. split; [|split; [exact H2|split]].
  - rewrite (Hstep w' _ Hloop). destruct (p =? length ms); reflexivity.
  - intros i l v t Hi Hl Hv Hj Ht. rewrite H3, Ht. unfold ps.
    rewrite firstn_combine, (last_value_at (firstn p ms) (firstn p vs) i l v); [reflexivity| | |].
    + rewrite nth_firstn. replace (i <? p) with true by (symmetry; apply Nat.ltb_lt; exact Hi). exact Hl.
    + rewrite nth_firstn. replace (i <? p) with true by (symmetry; apply Nat.ltb_lt; exact Hi). exact Hv.
    + intros j Hij. rewrite nth_firstn. destruct (j <? p) eqn:Hjp; [|discriminate].
      apply Nat.ltb_lt in Hjp. apply Hj. lia.
  - intros l Hl. rewrite H3. assert (HN : last_value (firstn p ps) l = None).
    { apply last_value_in. unfold ps. rewrite (map_fst_firstn ms vs p Hlen). exact Hl. }
    rewrite HN. destruct (nth_error (w_objs w) l) as [[t|A]|]; reflexivity.
Qed.

(** The hypotheses are met with a repeated member and a precomputed one: the set of the objects
    0, 1, 0, 2, of which 2 is precomputed. After set_attr of 1, 2, 3, 4 the objects 0 and 1 have the
    values 3 and 2. *)
Lemma pf_C44_exact_example :
  exists ops w',
    set_is (wtoy ops) 0 (NSOne 2) [0; 1; 0; 2] /\
    (forall l, In l (firstn 3 [0; 1; 0; 2]) -> is_km (wtoy ops) l) /\
    (exists A, nth_error (w_objs (wtoy ops)) 2 = Some (OPre A)) /\
    wstep toyN toyC anynum (WSetAttr 0 "a" (ASeq [1; 2; 3; 4]%Z)) (wtoy ops) = (w', Raise AttributeError) /\
    attr_of w' 0 "a" (Some 3%Z) /\ attr_of w' 1 "a" (Some 2%Z).
Proof.
  exists [WNewKM dot false; WNewKM dot false; WObj 0 (OpAttach toyX2 None); WObj 1 (OpAttach toyX2 None);
          WSetNew (KLIter [ARef 0; ARef 1; ARef 0; AArray (Ok sym2)]) None].
  eexists. split; [eexists; eexists; vm_compute; reflexivity|].
  split; [intros l [<-|[<-|[<-|[]]]]; eexists; vm_compute; reflexivity|].
  split; [eexists; vm_compute; reflexivity|].
  split; [vm_compute; reflexivity|]. split; eexists; split; vm_compute; reflexivity.
Qed.

(** C42, exactly: if a subset obtained by take is attached to a sample, the original set keeps its
    members and its num_samples; its members that were taken are attached to the new sample, as by
    their own attach_to, and given the attribute, if any; every other kernel matrix is unchanged. *)
Lemma pf_C42_exact :
  forall {E V U} (N : numops V) (C : cmpops V) (numeric : list E -> bool)
         (w w1 w' : world E V U) k n ms ix k' x attr,
    set_is w k n ms -> wstep N C numeric (WTake k ix) w = (w1, Ok (WSetRef k')) ->
    wstep N C numeric (WAttach k' x attr) w1 = (w', Ok WUnit) ->
    set_is w' k n ms /\
    (forall z l, In z ix -> nth_error ms (Z.to_nat z) = Some l ->
       exists s, nth_error (w_objs w) l = Some (OKM s) /\
         nth_error (w_objs w') l
         = Some (OKM (run N (OpAttach x None :: match attr with
                                                | None => []
                                                | Some (name, u) => [OpSetAttr name u]
                                                end) s))) /\
    (forall l, (forall z, In z ix -> nth_error ms (Z.to_nat z) <> Some l) ->
       nth_error (w_objs w') l = nth_error (w_objs w) l).
Proof.
  intros E V U N C numeric w w1 w' k n ms ix k' x attr Hk Ht Ha.
  destruct (pf_C41_take_selects N C numeric w w1 k n ms ix k' Hk Ht) as (ls & n' & Hsel & Hnew & Hk' & Hobjs & Hsets).
  destruct (pf_C43_attach N C numeric w1 w' k' x attr n' ls Hk' Ha) as (m & _ & _ & _ & Hin & Hout & Hoth).
  rewrite Hobjs in Hin, Hout. destruct Hk as (b & y & Hk).
  assert (Hfwd : forall l, In l ls -> exists z, In z ix /\ nth_error ms (Z.to_nat z) = Some l).
  { clear -Hsel. intros l Hl. induction Hsel as [|z l' ix ls [H0 H1] _ IH]; [destruct Hl|].
    destruct Hl as [<-|Hl]; [exists z; split; [left; reflexivity|exact H1]|].
    destruct (IH Hl) as (z' & Hz & H'). exists z'. split; [right; exact Hz|exact H']. }
  split; [|split].
  - exists b, y. apply Hoth; [|apply Hsets; exact Hk]. intros ->. congruence.
  - intros z l Hz Hl. apply Hin. clear -Hsel Hz Hl. induction Hsel as [|z' l' ix ls [H0 H1] _ IH]; [destruct Hz|].
    destruct Hz as [->|Hz]; [left; congruence|right; apply IH; exact Hz].
  - intros l Hl. apply Hout. intros Hi. destruct (Hfwd l Hi) as (z & Hz & H). exact (Hl z Hz H).
Qed.

(** The hypotheses are met: of a set of two kernel matrices on three points the second one is taken and
    attached to another sample of three points; the first keeps its elements, the second does not. *)
Lemma pf_C42_exact_example :
  exists w1 w' y,
    set_is (wtoy toy_sets) 0 (NSOne 3) [0; 1] /\
    wstep toyN toyC anynum (WTake 0 [1]%Z) (wtoy toy_sets) = (w1, Ok (WSetRef 3)) /\
    wstep toyN toyC anynum (WAttach 3 y None) w1 = (w', Ok WUnit) /\
    nth_error (w_objs w') 0 = nth_error (w_objs (wtoy toy_sets)) 0 /\
    nth_error (w_objs w') 1 <> nth_error (w_objs (wtoy toy_sets)) 1.
Proof.
  eexists. eexists. exists (mkNd [3; 1] [Some 7; Some 8; Some 9]%Z).
  split; [eexists; eexists; vm_compute; reflexivity|].
  split; [vm_compute; reflexivity|]. split; [vm_compute; reflexivity|].
  split; [vm_compute; reflexivity|]. vm_compute. intros H. discriminate H.
Qed.
