(** C103: iterating over kernel matrices and sets, membership and truth value. *)
From Coq Require Import String List Arith ZArith Bool Lia.
From Verif Require Import Prelude MatModel MatFacts UtilsModel IndexModel KMModel SpecKM SetModel SpecSet IterModel MFacts KMFacts KMInv KMHist KMHist2 KMProps CostProps SetFacts ToyModel SetProps.
Import ListNotations.
Local Open Scope km_scope.

(** C103: what a loop or a search does is determined. *)
Lemma pf_C103_deterministic :
  forall {St A} (g : Z -> M St A) (hit : A -> bool) i s,
    (forall l s' r l2 s2 r2, loop g i s l s' r -> loop g i s l2 s2 r2 -> l2 = l /\ s2 = s' /\ r2 = r) /\
    (forall s' r s2 r2, search g hit i s s' r -> search g hit i s s2 r2 -> s2 = s' /\ r2 = r).
Proof.
  intros St A g hit i s. split.
  - intros l s' r l2 s2 r2 H. revert l2 s2 r2. induction H as [i s s' H|i s s' e H He|i s s1 a l s' r H Hl IH]; intros l2 s2 r2 H2;
      inversion H2 as [? ? ? G|? ? ? ? G Ge|? ? ? ? ? ? ? G Gl]; subst; rewrite H in G; inversion G; subst; try congruence; auto.
    destruct (IH _ _ _ Gl) as (-> & -> & ->). auto.
  - intros s' r s2 r2 H. revert s2 r2.
    induction H as [i s s' H|i s s' e H He|i s s' a H Hh|i s s1 a s' r H Hh Hl IH]; intros s2 r2 H2;
      inversion H2 as [? ? ? G|? ? ? ? G Ge|? ? ? ? G Gh|? ? ? ? ? ? G Gh Gl]; subst; rewrite H in G; inversion G; subst; try congruence; auto.
Qed.

Section KMLoop.
  Context {E V U : Type}.
  Variables (N : numops V) (K : kernel E V) (k : list E -> list E -> V) (nrm : bool) (pre : list (op E U)).
  Variables (x : ndarray E) (y : option (ndarray E)) (n m d : nat).
  Hypothesis Hnr : never_raises K k x y n m d.
  Hypothesis Hf : kfmt K = true.
  Hypothesis Hadm : admissible x y n m d.
  Hypothesis Hbig : (Z.of_nat (n * m) < 2 ^ 64)%Z.

  Definition flat (q : nat) : op E U := OpGetItem (IFlat (Z.of_nat q)).
  Definition km_item (i : Z) : M (km E V U) (arr V) := getitem N (IFlat i).
  Definition cell (q : nat) : V := entry k d x y (q / m) (q mod m).

  Lemma item_in : forall post q, no_attach post -> q < n * m ->
    exists f, km_item (Z.of_nat q) (after N K nrm pre x y post) =
      (after N K nrm pre x y (post ++ [flat q]), Ok (mkArr f (mkMat 1 1 [[cell q]]))).
  Proof.
    intros post q Hno Hq.
    assert (Hm : m <> 0) by (intros ->; rewrite Nat.mul_0_r in Hq; lia).
    destruct (pf_C11_flat_value N K k nrm pre post x y n m d (q / m) (q mod m) Hnr Hf Hadm Hno) as [f Hv].
    { apply Nat.div_lt_upper_bound; [exact Hm|]. rewrite Nat.mul_comm. exact Hq. }
    { apply Nat.mod_upper_bound, Hm. }
    replace (q / m * m + q mod m) with q in Hv by (rewrite Nat.mul_comm; apply Nat.div_mod; exact Hm).
    exists f. rewrite after_snoc. unfold outcome, flat, step in *. unfold fmap, bind in *. fold (km_item (Z.of_nat q)) in *.
    destruct (km_item (Z.of_nat q) (after N K nrm pre x y post)) as [s' [a|e]]; cbn in *; [|discriminate]. inversion Hv. reflexivity.
  Qed.
  Lemma item_out : forall post, no_attach post ->
    km_item (Z.of_nat (n * m)) (after N K nrm pre x y post) = (after N K nrm pre x y post, Raise ValueError).
  Proof.
    intros post Hno.
    assert (Hret : returns_only K k x y n m d) by (intros t u v Hu Hv; left; apply Hnr; assumption).
    destruct (pf_C11_flat_out_of_range N K k nrm pre post x y n m d (Z.of_nat (n * m)) Hret Hadm Hno ltac:(lia)) as (e & He & Hs).
    replace ((- 2 ^ 63 <=? Z.of_nat (n * m)) && (Z.of_nat (n * m) <? 2 ^ 64))%Z with true in He by (symmetry; apply andb_true_iff; split; [apply Z.leb_le|apply Z.ltb_lt]; lia).
    subst e. unfold step, fmap, bind in Hs. fold (km_item (Z.of_nat (n * m))) in Hs.
    destruct (km_item (Z.of_nat (n * m)) (after N K nrm pre x y post)) as [s' [a|e]]; cbn in *; inversion Hs. reflexivity.
  Qed.

  Lemma loop_from : forall c q post, no_attach post -> q + c = n * m ->
    exists l, loop km_item (Z.of_nat q) (after N K nrm pre x y post) l
                (after N K nrm pre x y (post ++ map flat (seq q c))) (Some ValueError) /\
      map amat l = map (fun q => mkMat 1 1 [[cell q]]) (seq q c).
  Proof.
    induction c as [|c IH]; intros q post Hno Hq.
    - exists []. split; [|reflexivity]. cbn [seq map]. rewrite app_nil_r. replace q with (n * m) by lia.
      apply loop_leave; [apply item_out; exact Hno|discriminate].
    - destruct (item_in post q Hno ltac:(lia)) as [f Hi].
      assert (Hno' : no_attach (post ++ [flat q])) by (unfold no_attach in *; rewrite forallb_app, Hno; reflexivity).
      destruct (IH (S q) (post ++ [flat q]) Hno' ltac:(lia)) as (l & Hl & Hml).
      exists (mkArr f (mkMat 1 1 [[cell q]]) :: l). cbn [seq map]. split.
      + eapply loop_next; [exact Hi|]. replace (Z.of_nat q + 1)%Z with (Z.of_nat (S q)) by lia.
        rewrite <- app_assoc in Hl. exact Hl.
      + rewrite Hml. reflexivity.
  Qed.

  Lemma search_from : forall eqb v c q post, no_attach post -> q + c = n * m ->
    exists s', search km_item (item_equals eqb v) (Z.of_nat q) (after N K nrm pre x y post) s'
                 (if existsb (fun q => eqb (cell q) v) (seq q c) then Ok true else Raise ValueError).
  Proof.
    intros eqb v. induction c as [|c IH]; intros q post Hno Hq.
    - eexists. cbn [seq existsb]. replace q with (n * m) by lia.
      apply search_leave; [apply item_out; exact Hno|discriminate].
    - destruct (item_in post q Hno ltac:(lia)) as [f Hi]. cbn [seq existsb].
      destruct (eqb (cell q) v) eqn:He; cbn [orb].
      + eexists. eapply search_hit; [exact Hi|]. unfold item_equals. cbn. exact He.
      + assert (Hno' : no_attach (post ++ [flat q])) by (unfold no_attach in *; rewrite forallb_app, Hno; reflexivity).
        destruct (IH (S q) (post ++ [flat q]) Hno' ltac:(lia)) as (s' & Hs).
        exists s'. eapply search_next; [exact Hi|unfold item_equals; cbn; exact He|].
        replace (Z.of_nat q + 1)%Z with (Z.of_nat (S q)) by lia. exact Hs.
  Qed.
End KMLoop.

Lemma product_seq_q : forall {A} (f : nat -> nat -> A) n m, m <> 0 ->
  map (fun q => f (q / m) (q mod m)) (seq 0 (n * m)) = map (fun p => f (fst p) (snd p)) (product (seq 0 n) (seq 0 m)).
Proof.
  intros A f n m Hm. induction n as [|n IH]; [reflexivity|].
  replace (S n * m) with (n * m + m) by lia. rewrite seq_app, map_app, IH. cbn [Nat.add].
  rewrite seq_S. unfold product. rewrite flat_map_app, map_app. f_equal. cbn [flat_map]. rewrite app_nil_r, map_map. cbn [fst snd Nat.add].
  replace (seq (n * m) m) with (map (fun j => n * m + j) (seq 0 m)).
  - rewrite map_map. apply map_ext_in. intros j Hj. apply in_seq in Hj. f_equal.
    + rewrite Nat.add_comm, Nat.div_add by exact Hm. rewrite Nat.div_small by lia. lia.
    + rewrite Nat.add_comm, Nat.mod_add by exact Hm. apply Nat.mod_small. lia.
  - assert (G : forall c a b, map (fun j => a + j) (seq b c) = seq (a + b) c).
    { induction c as [|c IHc]; intros a b; [reflexivity|]. cbn [seq map]. f_equal. rewrite IHc. f_equal. lia. }
    rewrite G. f_equal. lia.
Qed.

(** C103: a loop over an attached KernelMatrix goes through its entries row by row, each as a 1 x 1
    matrix and with the object doing just what indexing does, and then always raises ValueError instead of
    ending (IndexError, which __getitem__ never raises by itself, would end it). *)
Lemma pf_C103_loop :
  forall {E V U} (N : numops V) (K : kernel E V) k nrm (pre post : list (op E U)) x y n m d,
    never_raises K k x y n m d -> kfmt K = true -> admissible x y n m d -> no_attach post ->
    (Z.of_nat (n * m) < 2 ^ 64)%Z ->
    exists l,
      loop (fun i => getitem N (IFlat i)) 0 (after N K nrm pre x y post) l
           (after N K nrm pre x y (post ++ map (fun q => OpGetItem (IFlat (Z.of_nat q))) (seq 0 (n * m))))
           (Some ValueError) /\
      map amat l = map (fun p => mkMat 1 1 [[entry k d x y (fst p) (snd p)]]) (product (seq 0 n) (seq 0 m)).
Proof.
  intros E V U N K k nrm pre post x y n m d Hnr Hf Hadm Hno Hbig.
  destruct (loop_from N K k nrm pre x y n m d Hnr Hf Hadm Hbig (n * m) 0 post Hno eq_refl) as (l & Hl & Hml).
  exists l. split; [exact Hl|]. rewrite Hml. unfold cell. destruct m as [|m'].
  - rewrite Nat.mul_0_r. clear. induction (seq 0 n) as [|a r IH]; [reflexivity|]. exact IH.
  - rewrite <- (product_seq_q (fun i j => mkMat 1 1 [[entry k d x y i j]]) n (S m')) by discriminate. reflexivity.
Qed.

(** C103: v in km is True if v is an entry and otherwise raises ValueError; it is never False. *)
Lemma pf_C103_contains :
  forall {E V U} (N : numops V) (K : kernel E V) k nrm (pre post : list (op E U)) x y n m d (eqb : V -> V -> bool) v,
    never_raises K k x y n m d -> kfmt K = true -> admissible x y n m d -> no_attach post ->
    (Z.of_nat (n * m) < 2 ^ 64)%Z ->
    exists s', search (fun i => getitem N (IFlat i)) (item_equals eqb v) 0 (after N K nrm pre x y post) s'
      (if existsb (fun p => eqb (entry k d x y (fst p) (snd p)) v) (product (seq 0 n) (seq 0 m))
       then Ok true else Raise ValueError).
Proof.
  intros E V U N K k nrm pre post x y n m d eqb v Hnr Hf Hadm Hno Hbig.
  destruct (search_from N K k nrm pre x y n m d Hnr Hf Hadm Hbig eqb v (n * m) 0 post Hno eq_refl) as (s' & Hs).
  exists s'. assert (Hex : forall {A} (f : A -> bool) l, existsb f l = existsb (fun b => b) (map f l)).
  { intros A f l. induction l as [|a l IH]; [reflexivity|]. cbn. rewrite IH. reflexivity. }
  rewrite Hex in Hs |- *. unfold cell in Hs. destruct m as [|m'].
  - replace (product (seq 0 n) (seq 0 0)) with (@nil (nat * nat)); [rewrite Nat.mul_0_r in Hs; exact Hs|].
    clear. induction (seq 0 n) as [|a r IH]; [reflexivity|]. exact IH.
  - rewrite (product_seq_q (fun i j => eqb (entry k d x y i j) v) n (S m')) in Hs by discriminate. exact Hs.
Qed.

(** C103: the truth value is whether there are entries, also if the kernel raises, and asking for it changes
    nothing; before attach_to it raises AttributeError. *)
Lemma pf_C103_truth :
  forall {E V U} (N : numops V) (K : kernel E V) nrm (pre post : list (op E U)) x y n m d,
    admissible x y n m d -> no_attach post ->
    km_truth (after N K nrm pre x y post) = (after N K nrm pre x y post, Ok (negb (n * m =? 0))) /\
    (no_attach pre -> km_truth (before N K nrm pre) = (before N K nrm pre, Raise AttributeError)).
Proof.
  intros E V U N K nrm pre post x y n m d Hadm Hno. split.
  - rewrite (after_split N K nrm pre post x y n m d Hadm).
    assert (Hf := frame_run N post (attached (before N K nrm pre) x y n m d) Hno).
    set (t := run N post _) in *.
    assert (H : k_two t = Some (is_some y) /\
      k_num_samples t = match y with None => NSOne n | Some _ => NSTwo n m end).
    { unfold frame in Hf. destruct y; inversion Hf; auto. }
    destruct H as (H2 & H3). unfold km_truth, size, bind, attr_or, bind, get, ret. rewrite H2, H3.
    destruct y; cbn; [reflexivity|]. destruct Hadm as [_ ->]. reflexivity.
  - intros Hpre. unfold before. assert (Hf := frame_run N pre (km_new K nrm []) Hpre).
    set (t := run N pre _) in *. assert (H : k_two t = None) by (unfold frame in Hf; inversion Hf; auto).
    unfold km_truth, size, bind, attr_or, bind, get, ret. rewrite H. reflexivity.
Qed.

Lemma reshape_length : forall {V} n m (l : list V), length (reshape n m l) = n.
Proof. intros V n. induction n as [|n IH]; intros m l; [reflexivity|]. cbn. f_equal. apply IH. Qed.

(** C103: a loop over a KernelMatrixPrecomputed goes through its rows and then raises KMAccessError; one over a
    ConstantKernelMatrix raises it at once. *)
Lemma pf_C103_other_classes :
  forall {V} (C : cmpops V) d (a : ndarray V) A (c : cmatrix V),
    precomputed_new C d a = Ok A ->
    loop (precomputed_item A) 0 tt (md A) tt (Some KMAccessError) /\
    length (md A) = mr A /\
    loop (constant_item c) 0 tt [] tt (Some KMAccessError).
Proof.
  intros V C d a A c H. unfold precomputed_new in H.
  destruct (nd_shape a) as [|n [|m [|]]]; try discriminate.
  assert (HA : A = mkMat n m (reshape n m (nd_data a))).
  { destruct (is_symmetric C d (mkMat n m (reshape n m (nd_data a)))) as [b|e]; [|discriminate]. cbn [rbind] in H.
    destruct (negb b || _); [discriminate|]. congruence. }
  clear H. assert (Hlen : length (md A) = mr A) by (subst A; cbn; apply reshape_length).
  split; [|split; [exact Hlen|]].
  - assert (G : forall l q, (forall j, nth_error (md A) (q + j) = nth_error l j) -> q + length l = mr A ->
              loop (precomputed_item A) (Z.of_nat q) tt l tt (Some KMAccessError)).
    { induction l as [|r l IH]; intros q Hq Hl.
      - apply loop_leave; [|discriminate]. unfold precomputed_item. cbn in Hl.
        destruct (Z.ltb_spec (Z.of_nat q) (Z.of_nat (mr A))) as [?|?]; [lia|]. rewrite andb_false_r. reflexivity.
      - cbn in Hl. apply (loop_next _ _ _ tt r).
        + unfold precomputed_item. destruct (Z.leb_spec 0 (Z.of_nat q)) as [?|?]; [|lia].
          destruct (Z.ltb_spec (Z.of_nat q) (Z.of_nat (mr A))) as [?|?]; [|lia]. cbn [andb]. rewrite Nat2Z.id.
          specialize (Hq 0). rewrite Nat.add_0_r in Hq. rewrite Hq. reflexivity.
        + replace (Z.of_nat q + 1)%Z with (Z.of_nat (S q)) by lia. apply IH; [|lia].
          intros j. specialize (Hq (S j)). cbn [nth_error] in Hq. rewrite <- Hq. f_equal. lia. }
    apply (G (md A) 0); [reflexivity|exact Hlen].
  - apply loop_leave; [reflexivity|discriminate].
Qed.

(** Members are only ever added, at the end. *)
Section Grow.
  Context {E V U : Type}.
  Variable N : numops V.
  Variable C : cmpops V.
  Variable numeric : list E -> bool.
  Notation World := (world E V U).

  Definition grow (w w' : World) : Prop := forall k s, nth_error (w_sets w) k = Some s ->
    exists s' t, nth_error (w_sets w') k = Some s' /\ s_members s' = s_members s ++ t.
  Lemma grow_refl : forall w, grow w w.
  Proof. intros w k s H. exists s, []. rewrite app_nil_r. auto. Qed.
  Lemma grow_trans : forall a b c, grow a b -> grow b c -> grow a c.
  Proof.
    intros a b c H1 H2 k s H. destruct (H1 k s H) as (s1 & t1 & A1 & B1). destruct (H2 k s1 A1) as (s2 & t2 & A2 & B2).
    exists s2, (t1 ++ t2). split; [exact A2|]. rewrite B2, B1, app_assoc. reflexivity.
  Qed.
  Lemma grow_same : forall w w', w_sets w' = w_sets w -> grow w w'.
  Proof. intros w w' H k s Hk. exists s, []. rewrite H, app_nil_r. auto. Qed.
  Definition gr {A} (m : M World A) : Prop := forall w, grow w (fst (m w)).
  Lemma gr_bind : forall {A B} (m : M World A) (f : A -> M World B), gr m -> (forall a, gr (f a)) -> gr (bind m f).
  Proof.
    intros A B m f Hm Hf w. unfold bind. specialize (Hm w). destruct (m w) as [w' [a|e]]; cbn in *; [|exact Hm].
    eapply grow_trans; [exact Hm|apply Hf].
  Qed.
  Lemma gr_id : forall {A} (m : M World A), (forall w, w_sets (fst (m w)) = w_sets w) -> gr m.
  Proof. intros A m H w. apply grow_same, H. Qed.
  Lemma gr_for_each : forall {A} (l : list A) f, (forall a, gr (f a)) -> gr (for_each l f).
  Proof.
    intros A l f H. induction l as [|a l IH]; cbn [for_each]; [apply gr_id; reflexivity|].
    apply gr_bind; [apply H|intros; exact IH].
  Qed.
  Lemma gr_map_each : forall {A B} (l : list A) (f : A -> M World B), (forall a, gr (f a)) -> gr (map_each l f).
  Proof.
    intros A B l f H. induction l as [|a l IH]; cbn [map_each]; [apply gr_id; reflexivity|].
    apply gr_bind; [apply H|intros]. apply gr_bind; [exact IH|intros; apply gr_id; reflexivity].
  Qed.
  Lemma gr_on_km : forall {A} l (m : M (km E V U) A), gr (on_km l m).
  Proof. intros A l m. apply gr_id. intros w. apply on_km_sets. Qed.
  Lemma gr_get_set : forall k, gr (get_set k).
  Proof. intros k. apply gr_id. intros w. unfold get_set. destruct (nth_error (w_sets w) k); reflexivity. Qed.
  Lemma gr_get_obj : forall l, gr (get_obj (E:=E) (V:=V) (U:=U) l).
  Proof. intros k. apply gr_id. intros w. unfold get_obj. destruct (nth_error (w_objs w) k); reflexivity. Qed.

  (** Reading a set and writing it back with more members. *)
  Lemma gr_update : forall {A} k (F : kset E -> M World A),
    (forall w s, nth_error (w_sets w) k = Some s -> grow w (fst (F s w))) -> gr (bind (get_set k) F).
  Proof.
    intros A k F H w. unfold bind, get_set. destruct (nth_error (w_sets w) k) as [s|] eqn:Hk; [|apply grow_refl].
    apply H, Hk.
  Qed.
  Lemma grow_put : forall k s t s' (w : World), nth_error (w_sets w) k = Some s -> s_members s' = s_members s ++ t ->
    grow w (fst (put_set k s' w)).
  Proof.
    intros k s t s' w Hk Hm k2 s2 Hk2. cbn. destruct (Nat.eq_dec k2 k) as [->|Hne].
    - rewrite (nth_error_upd_same _ _ _ _ Hk). exists s', t. split; [reflexivity|]. congruence.
    - rewrite nth_error_upd_other by exact Hne. exists s2, []. rewrite app_nil_r. auto.
  Qed.

  Lemma grow_put_then : forall {A} k s s' (m : M World A) w, nth_error (w_sets w) k = Some s -> s_members s' = s_members s ->
    (forall w1, nth_error (w_sets w1) k = Some s' -> grow w1 (fst (m w1))) ->
    grow w (fst ((put_set k s' ;;; m) w)).
  Proof.
    intros A k s s' m w Hk Hm H. assert (H1 : grow w (fst (put_set k s' w))).
    { apply (grow_put k s []); [exact Hk|]. rewrite app_nil_r. exact Hm. }
    eapply grow_trans; [exact H1|]. cbn. apply H. cbn. apply (nth_error_upd_same _ _ _ _ Hk).
  Qed.

  Lemma gr_append : forall k a, gr (append N C k a).
  Proof.
    intros k a. unfold append. apply gr_bind.
    { destruct a as [l| |r]; try (apply gr_id; reflexivity).
      apply gr_bind; [apply gr_id; reflexivity|]. intros x. apply gr_bind; [apply gr_id; reflexivity|]. intros A.
      apply gr_id. reflexivity. }
    intros l. apply gr_bind; [apply gr_get_obj|]. intros o. apply gr_update. intros w s Hk.
    unfold bind at 1.
    assert (H1 : grow w (fst ((if negb (s_init s) && numsamp_eqb (s_num s) NSNone
       then put_set k (mkSet (obj_num o) true (s_members s) (s_sample s)) else ret tt) w))).
    { destruct (negb (s_init s) && numsamp_eqb (s_num s) NSNone); [|apply grow_refl].
      apply (grow_put k s []); [exact Hk|]. cbn. rewrite app_nil_r. reflexivity. }
    destruct (_ w) as [w1 [u|e]]; cbn [fst] in *; [|exact H1]. eapply grow_trans; [exact H1|].
    match goal with |- grow w1 (fst (?mm w1)) => assert (H2 : gr mm) end; [|apply H2].
    apply gr_update. intros w2 s2 Hk2. destruct (negb (numsamp_eqb (s_num s2) (obj_num o))); [apply grow_refl|].
    apply (grow_put k s2 [l]); [exact Hk2|reflexivity].
  Qed.
  Lemma gr_new_set : forall s, gr (new_set (V:=V) (U:=U) s).
  Proof.
    intros s w k s0 Hk. cbn. exists s0, []. rewrite app_nil_r. split; [|reflexivity].
    rewrite nth_error_app1; [exact Hk|]. apply nth_error_Some. congruence.
  Qed.
  Lemma gr_set_new : forall kl num, gr (set_new N C kl num).
  Proof.
    intros kl num. unfold set_new. apply gr_bind; [apply gr_new_set|]. intros k. apply gr_bind; [|intros; apply gr_id; reflexivity].
    destruct kl as [|l|a|l|]; try (apply gr_id; reflexivity).
    - apply gr_for_each. intros; apply gr_append.
    - apply gr_bind; [apply gr_id; reflexivity|]. intros l. apply gr_for_each. intros; apply gr_append.
    - apply gr_append.
  Qed.

  Lemma gr_step : forall o, gr (wstep N C numeric o).
  Proof.
    assert (Hm : forall {A B} (f : A -> B) (m : M World A), gr m -> gr (wfmap f m)).
    { intros A B f m H. apply gr_bind; [exact H|intros; apply gr_id; reflexivity]. }
    intros o. destruct o; cbn [wstep]; apply Hm.
    - apply gr_id; reflexivity.
    - apply gr_bind; [apply gr_id; reflexivity|]. intros x. apply gr_bind; [apply gr_id; reflexivity|]. intros A. apply gr_id. reflexivity.
    - apply gr_on_km.
    - apply gr_set_new.
    - apply gr_append.
    - unfold extend. destruct other as [k'|]; [|apply gr_id; reflexivity].
      apply gr_bind; [apply gr_get_set|]. intros s. apply gr_bind; [apply gr_get_set|]. intros s'.
      destruct (negb _); [apply gr_id; reflexivity|]. apply gr_for_each. intros; apply gr_append.
    - unfold take. apply gr_bind; [apply gr_get_set|]. intros s. apply gr_bind; [apply gr_id; reflexivity|]. intros ns.
      apply gr_bind; [apply gr_set_new|]. intros k'. apply gr_bind; [|intros; apply gr_id; reflexivity].
      apply gr_for_each. intros i. destruct (nth_error (s_members s) i); [apply gr_append|apply gr_id; reflexivity].
    - unfold set_getitem. apply gr_bind; [apply gr_get_set|]. intros s. apply gr_id. intros w.
      destruct ix as [z|]; [|reflexivity]. destruct (_ || _); [reflexivity|]. destruct (nth_error _ _); reflexivity.
    - unfold get_kernel_funcs. apply gr_bind; [apply gr_get_set|]. intros s. apply gr_bind; [apply gr_id; reflexivity|]. intros ns.
      apply gr_map_each. intros i. destruct (nth_error (s_members s) i); [apply gr_on_km|apply gr_id; reflexivity].
    - unfold set_iter. apply gr_bind; [apply gr_get_set|]. intros s. apply gr_id; reflexivity.
    - unfold set_attach. apply gr_update. intros w s Hk. cbn zeta.
      unfold bind at 1, lift at 1. match goal with |- context [if ?c then Raise ValueError else ?t] => destruct (if c then Raise ValueError else t) as [a|e] end; [|apply grow_refl].
      apply (grow_put_then k s (mkSet (s_num s) (s_init s) (s_members s) (Some a))); [exact Hk|reflexivity|].
      intros w1 Hk1. match goal with |- context [if ?c then _ else _] => destruct c end; [apply grow_refl|].
      apply (grow_put_then k (mkSet (s_num s) (s_init s) (s_members s) (Some a))); [exact Hk1|reflexivity|].
      intros w2 _.
      match goal with |- grow w2 (fst (?mm w2)) => assert (H4 : gr mm) end; [|apply H4].
      apply gr_bind; [apply gr_for_each; intros; apply gr_on_km|]. intros _. destruct attr as [[nm u]|]; [|apply gr_id; reflexivity].
      apply gr_for_each. intros; apply gr_on_km.
    - unfold set_set_attr. apply gr_bind; [apply gr_get_set|]. intros s. apply gr_bind.
      { apply gr_id. intros w. destruct vals as [u|l]; [reflexivity|]. destruct (negb _); reflexivity. }
      intros vs. apply gr_for_each. intros; apply gr_on_km.
    - unfold set_get_attr. apply gr_bind; [apply gr_get_set|]. intros s. apply gr_map_each. intros; apply gr_on_km.
    - apply gr_get_set.
    - apply gr_get_set.
  Qed.
  Lemma grow_run : forall ops w, grow w (wrun N C numeric ops w).
  Proof.
    induction ops as [|o ops IH]; intros w; [apply grow_refl|]. cbn [wrun]. eapply grow_trans; [apply gr_step|apply IH].
  Qed.
  Lemma wrun_app : forall a b (w : World), wrun N C numeric (a ++ b) w = wrun N C numeric b (wrun N C numeric a w).
  Proof. induction a as [|o a IH]; intros b w; [reflexivity|]. apply IH. Qed.

  Lemma rounds : forall bodies k n ms c q (w : World), n = length ms -> q + c = n ->
    (exists s t, nth_error (w_sets w) k = Some s /\ s_members s = ms ++ t) ->
    set_rounds N C numeric bodies k (seq q c) w = (wrun N C numeric (flat_map bodies (seq q c)) w, Ok (skipn q ms)).
  Proof.
    intros bodies k n ms. induction c as [|c IH]; intros q w Hn Hq (s & t & Hs & Hm).
    - cbn. rewrite skipn_all2 by lia. reflexivity.
    - cbn [seq set_rounds flat_map]. rewrite Hs, Hm.
      destruct (nth_error ms q) as [l|] eqn:Hl; [|apply nth_error_None in Hl; lia].
      rewrite nth_error_app1, Hl by lia.
      assert (Hg := grow_run (bodies q) w k s Hs). destruct Hg as (s' & t' & Hs' & Hm').
      rewrite (IH (S q) (wrun N C numeric (bodies q) w) Hn ltac:(lia)).
      2:{ exists s', (t ++ t'). split; [exact Hs'|]. rewrite Hm', Hm, app_assoc. reflexivity. }
      cbn [fst snd rbind]. rewrite wrun_app. f_equal. f_equal.
      clear - Hl. revert q Hl. induction ms as [|b ms IH]; intros [|q] Hl; try discriminate; cbn in *; [congruence|apply IH, Hl].
  Qed.
End Grow.

(** C103: a loop over a KernelSet visits exactly the members it had when the loop began, in order, whatever the
    rounds do - also if they append to this very set -, and ends normally. *)
Lemma pf_C103_set_loop :
  forall {E V U} (N : numops V) (C : cmpops V) (numeric : list E -> bool) (bodies : nat -> list (wop E V U)) k n ms w,
    set_is w k n ms ->
    set_for N C numeric bodies k w =
      (wrun N C numeric (flat_map bodies (seq 0 (length ms))) w, Ok ms).
Proof.
  intros E V U N C numeric bodies k n ms w Hk. destruct Hk as (b & x & Hs).
  unfold set_for. rewrite Hs. cbn [s_members]. rewrite (rounds N C numeric bodies k (length ms) ms _ 0 w eq_refl eq_refl).
  - reflexivity.
  - exists (mkSet n b ms x), []. rewrite app_nil_r. auto.
Qed.

(*BEGIN PROP*)
Definition oeqb (a b : option Z) : bool :=
  match a, b with Some u, Some v => Z.eqb u v | None, None => true | _, _ => false end.

(** The loop of C103 on three samples: the matrix has nine entries, 39 is among them, 18 is not; the loop and the search with their hypotheses met. *)
Example C103_example :
  (map (fun p => entry dotk 2 toyX None (fst p) (snd p)) (product (seq 0 3) (seq 0 3))) =
    [Some 5; Some 11; Some 17; Some 11; Some 25; Some 39; Some 17; Some 39; Some 61]%Z.
Proof. vm_compute. reflexivity. Qed.

Example C103_example_loop :
  let s := after toyN dot false ([] : list (op (option Z) Z)) toyX None [OpDiagonal] in
  (exists l s', loop (fun i => getitem toyN (IFlat i)) 0 s l s' (Some ValueError) /\ length l = 9) /\
  (exists s', search (fun i => getitem toyN (IFlat i)) (item_equals oeqb (Some 39%Z)) 0 s s' (Ok true)) /\
  (exists s', search (fun i => getitem toyN (IFlat i)) (item_equals oeqb (Some 18%Z)) 0 s s' (Raise ValueError)) /\
  snd (km_truth s) = Ok true.
Proof.
  cbn zeta. split; [|split; [|split]].
  - destruct (pf_C103_loop toyN dot dotk false ([] : list (op (option Z) Z)) [OpDiagonal] toyX None 3 3 2
      (dot_total _ _ _ _ _) eq_refl toyX_ok eq_refl eq_refl) as (l & Hl & Hm).
    exists l. eexists. split; [exact Hl|]. rewrite <- (map_length (@amat (option Z))), Hm. reflexivity.
  - exact (pf_C103_contains toyN dot dotk false ([] : list (op (option Z) Z)) [OpDiagonal] toyX None 3 3 2 oeqb (Some 39%Z)
      (dot_total _ _ _ _ _) eq_refl toyX_ok eq_refl eq_refl).
  - exact (pf_C103_contains toyN dot dotk false ([] : list (op (option Z) Z)) [OpDiagonal] toyX None 3 3 2 oeqb (Some 18%Z)
      (dot_total _ _ _ _ _) eq_refl toyX_ok eq_refl eq_refl).
  - vm_compute. reflexivity.
Qed.

(** A kernel that raises IndexError ends the loop early and silently. *)
Example C103_silent_end :
  let K := mkKernel (fun c u v => if c =? 2 then Raise IndexError else Ok (dotk u v)) true in
  let s := after toyN K false ([] : list (op (option Z) Z)) toyX None [] in
  exists l s', loop (fun i => getitem toyN (IFlat i)) 0 s l s' None /\ length l = 2.
Proof.
  cbn zeta. eexists. eexists. split.
  - eapply loop_next; [vm_compute; reflexivity|]. eapply loop_next; [vm_compute; reflexivity|].
    apply loop_end. vm_compute. reflexivity.
  - reflexivity.
Qed.

(** Every round appends the first kernel matrix to the set gone through: two rounds, four members at the end. *)
Example C103_example_set :
  let w := wtoy [WNewKM dot false; WNewKM dot false; WSetNew (KLIter [ARef 0; ARef 1]) None] in
  let r := set_for toyN toyC anynum (fun _ => [WAppend 0 (ARef 0)]) 0 w in
  set_is w 0 NSNone [0; 1] /\ snd r = Ok [0; 1] /\ set_is (fst r) 0 NSNone [0; 1; 0; 0].
Proof. cbn zeta. split; [eexists; eexists; vm_compute; reflexivity|]. split; [vm_compute; reflexivity|]. eexists; eexists; vm_compute; reflexivity. Qed.

(** Two rows, then KMAccessError. *)
Example C103_example_precomputed :
  precomputed_new toyC None sym2 = Ok (mkMat 2 2 [[Some 1; Some 2]; [Some 2; Some 5]]%Z).
Proof. vm_compute. reflexivity. Qed.
(*END PROP*)
