(** C102: exactly how many kernel evaluations a kernel matrix costs. *)
From Coq Require Import String List Arith ZArith Bool Lia.
From Verif Require Import Prelude MatModel MatFacts UtilsModel IndexModel KMModel SpecKM SpecEval SpecCost MFacts KMFacts KMLog KMInv KMHist KMHist2 KMProps KMGet KMEval KMEvalProps KMCount ToyModel.
Import ListNotations.

Definition own {E} (l : list (call E)) : list (call E) := filter (fun c => c_tag c =? 0) l.

Lemma own_foreign_length : forall {E} (l : list (call E)), length l = length (own l) + foreign l.
Proof.
  intros E l. unfold own, foreign. induction l as [|c l IH]; [reflexivity|]. cbn [filter].
  destruct (c_tag c =? 0); cbn [negb length]; lia.
Qed.

Lemma all_successful : forall {E V} (K : kernel E V) k X Y two n m d base (l : list (call E)),
  never_raises K k X (Some Y) n m d ->
  Forall (call_ok X Y two n m d 0) l ->
  successful K 0 base l = map c_ix (own l).
Proof.
  intros E V K k X Y two n m d base l Hnr Hl. unfold own. induction Hl as [|c l Hc Hl IH]; [reflexivity|].
  cbn [successful filter]. destruct (c_tag c =? 0) eqn:Ht; cbn [andb]; [|exact IH].
  apply Nat.eqb_eq in Ht. destruct (Hc Ht) as (H1 & H2 & _ & Hx & Hy).
  rewrite Hx, Hy, (Hnr _ _ _).
  - cbn. rewrite IH. reflexivity.
  - exists (fst (c_ix c)). left. split; [exact H1|reflexivity].
  - exists (snd (c_ix c)). right. split; [exact H2|reflexivity].
Qed.

Lemma after_snoc : forall {E V U} (N : numops V) (K : kernel E V) nrm (pre post : list (op E U)) x y o,
  after N K nrm pre x y (post ++ [o]) = fst (step N o (after N K nrm pre x y post)).
Proof.
  intros E V U N K nrm pre post x y o. unfold after. change (OpAttach x y :: post ++ [o]) with ((OpAttach x y :: post) ++ [o]).
  rewrite app_assoc, run_app. reflexivity.
Qed.

Lemma trace_app : forall {E V U} (N : numops V) (a b : list (op E U)) (s : km E V U),
  trace N (a ++ b) s = trace N a s ++ trace N b (run N a s).
Proof. induction a as [|o a IH]; intros b s; [reflexivity|]. cbn. rewrite IH. reflexivity. Qed.
Lemma trace_len : forall {E V U} (N : numops V) (a : list (op E U)) (s : km E V U), length (trace N a s) = length a.
Proof. induction a as [|o a IH]; intros s; [reflexivity|]. cbn. rewrite IH. reflexivity. Qed.
Lemma combine_app : forall {A B} (a a' : list A) (b b' : list B), length a = length b ->
  combine (a ++ a') (b ++ b') = combine a b ++ combine a' b'.
Proof.
  induction a as [|x a IH]; intros a' [|y b] b' Hl; try discriminate; [reflexivity|]. cbn. rewrite IH; [reflexivity|].
  cbn in Hl. lia.
Qed.

Lemma nodup_flat_map : forall {A B} (f : A -> list B) (g : B -> A) l, NoDup l ->
  (forall a, NoDup (f a)) -> (forall a b, In b (f a) -> g b = a) -> NoDup (flat_map f l).
Proof.
  intros A B f g l Hl Hf Hg. induction Hl as [|a l Ha Hl IH]; [constructor|]. cbn [flat_map].
  assert (Hd : forall b, In b (f a) -> ~ In b (flat_map f l)).
  { intros b Hb Hin. apply in_flat_map in Hin. destruct Hin as (a' & Ha' & Hb'). apply Ha.
    rewrite <- (Hg a b Hb), (Hg a' b Hb'). exact Ha'. }
  clear Ha Hl. specialize (Hf a). revert Hf Hd. generalize (f a) as q. induction q as [|b q IHq]; intros Hq Hd; [exact IH|].
  cbn [app]. inversion Hq as [|? ? Hb Hq']. subst. constructor.
  - intros Hin. apply in_app_or in Hin. destruct Hin as [Hin|Hin]; [contradiction|]. exact (Hd b (or_introl eq_refl) Hin).
  - apply IHq; [exact Hq'|]. intros b' Hb'. apply Hd. right. exact Hb'.
Qed.
Lemma nodup_map_pair : forall {A B} (f : A -> B) (g : B -> A) l, (forall a, g (f a) = a) -> NoDup l -> NoDup (map f l).
Proof.
  intros A B f g l Hg Hl. induction Hl as [|a l Ha Hl IH]; cbn; constructor; [|exact IH].
  intros Hin. apply in_map_iff in Hin. destruct Hin as (a' & Heq & Ha'). apply Ha.
  rewrite <- (Hg a), <- Heq, Hg. exact Ha'.
Qed.
Lemma nodup_product : forall r c : list nat, NoDup r -> NoDup c -> NoDup (product r c).
Proof.
  intros r c Hr Hc. unfold product. apply (nodup_flat_map _ fst); [exact Hr| |].
  - intros i. apply (nodup_map_pair _ snd); [reflexivity|exact Hc].
  - intros i p Hp. apply in_map_iff in Hp. destruct Hp as (j & <- & _). reflexivity.
Qed.
Lemma upper_nodup : forall n, NoDup (upper_pairs n).
Proof.
  intros n. unfold upper_pairs. apply (nodup_flat_map _ snd); [apply seq_NoDup| |].
  - intros j. apply (nodup_map_pair _ fst); [reflexivity|apply seq_NoDup].
  - intros j p Hp. apply in_map_iff in Hp. destruct Hp as (i & <- & _). reflexivity.
Qed.

Section Main.
  Context {E V U : Type}.
  Variables (N : numops V) (K : kernel E V) (k : list E -> list E -> V) (nrm : bool) (pre post : list (op E U)).
  Variables (x : ndarray E) (y : option (ndarray E)) (n m d : nat).
  Hypothesis Hnr : never_raises K k x y n m d.
  Hypothesis Hadm : admissible x y n m d.
  Hypothesis Hno : no_attach post.
  Hypothesis Hcase : y = None \/ nrm = true \/ no_full_sparse post.
  Hypothesis Hok : is_ok (outcome N OpFull (after N K nrm pre x y post)) = true.

  Lemma full_own : exists new,
    g_calls (after N K nrm pre x y (post ++ [OpFull])) = new ++ g_calls (before N K nrm pre) /\
    NoDup (map c_ix (own new)) /\
    (forall p, In p (map c_ix (own new)) <-> fst p < n /\ snd p < m /\ (y = None -> fst p <= snd p)) /\
    Forall (call_ok (stored n d x) (stored2 n m d x y) (is_some y) n m d 0) new.
  Proof.
    rewrite after_snoc.
    destruct (full_reads_back N K k nrm pre post x y n m d Hnr Hadm Hno Hcase Hok) as (Hs & Hc & _).
    set (s := fst (step N OpFull (after N K nrm pre x y post))) in *. destruct Hs as [Hi _].
    destruct Hi as [_ Hm (new & Hnew & Hsucc & Hall)].
    exists new. split; [exact Hnew|].
    rewrite (all_successful K k _ _ _ n m d _ new (nr_stored K k x y n m d Hadm Hnr) Hall) in Hsucc.
    rewrite Hsucc. split; [apply Hm|]. split; [|exact Hall]. intros [i j]. cbn [fst snd]. split.
    - intros Hp. unfold keys in Hp. apply in_map_iff in Hp. destruct Hp as ([q v] & Hq & Hin).
      cbn in Hq. subst q. destruct (mo_sound _ _ _ _ _ _ _ _ Hm (i, j) v Hin) as (H1 & H2 & H3 & _).
      split; [exact H1|]. split; [exact H2|]. intros ->. unfold norm in H3. cbn in H3. inversion H3. lia.
    - intros (H1 & H2 & H3). replace (i, j) with (norm (is_some y) (i, j)); [apply Hc; assumption|].
      unfold norm. destruct y as [y'|]; cbn; [reflexivity|]. f_equal; specialize (H3 eq_refl); lia.
  Qed.

  Lemma own_count : forall l : list (nat * nat), NoDup l ->
    (forall p, In p l <-> fst p < n /\ snd p < m /\ (y = None -> fst p <= snd p)) ->
    length l = row_pairs (is_some y) n m.
  Proof.
    intros l Hnd Hl. clear Hnr Hno Hcase Hok. destruct y as [y'|]; cbn [row_pairs is_some].
    - rewrite <- product_length. apply Nat.le_antisymm.
      + apply NoDup_incl_length; [exact Hnd|]. intros [i j] Hp. apply Hl in Hp. cbn in Hp.
        apply in_product. split; apply in_seq; lia.
      + apply NoDup_incl_length.
        * apply nodup_product; apply seq_NoDup.
        * intros [i j] Hp. apply in_product in Hp. destruct Hp as [Hp1 Hp2]. apply in_seq in Hp1. apply in_seq in Hp2.
          apply Hl. cbn. repeat split; try lia. discriminate.
    - destruct Hadm as [_ Hmn]. cbn in Hmn. subst m.
      rewrite <- upper_pairs_length. apply Nat.le_antisymm.
      + apply NoDup_incl_length; [exact Hnd|]. intros [i j] Hp. apply Hl in Hp. cbn in Hp. destruct Hp as (H1 & H2 & H3).
        specialize (H3 eq_refl). unfold upper_pairs. apply in_flat_map. exists j. split; [apply in_seq; lia|].
        apply in_map_iff. exists i. split; [reflexivity|apply in_seq; lia].
      + apply NoDup_incl_length; [apply upper_nodup|]. intros [i j] Hp. unfold upper_pairs in Hp. apply in_flat_map in Hp.
        destruct Hp as (j' & Hj & Hp). apply in_map_iff in Hp. destruct Hp as (i' & Heq & Hi). inversion Heq. subst.
        apply in_seq in Hj. apply in_seq in Hi. apply Hl. cbn. lia.
  Qed.
End Main.

(** C102: which evaluations. After a successful [full] every pair of rows that makes up the matrix has been
    given to the kernel exactly once since attach_to, whatever was accessed before: for one sample the
    pairs (i, j) with i <= j, for two samples all pairs. *)
Lemma pf_C102_each_pair_once :
  forall {E V U} (N : numops V) (K : kernel E V) k nrm (pre post : list (op E U)) x y n m d,
    never_raises K k x y n m d -> admissible x y n m d -> no_attach post ->
    y = None \/ nrm = true \/ no_full_sparse post ->
    is_ok (outcome N OpFull (after N K nrm pre x y post)) = true ->
    exists new,
      g_calls (after N K nrm pre x y (post ++ [OpFull])) = new ++ g_calls (before N K nrm pre) /\
      forall i j, i < n -> j < m -> (y = None -> i <= j) ->
        exists c, filter (fun c => (c_tag c =? 0) && (fst (c_ix c) =? i) && (snd (c_ix c) =? j)) new = [c] /\
          c_x c = row_of d x i /\ c_y c = row_of d (match y with Some y' => y' | None => x end) j.
Proof.
  intros E V U N K k nrm pre post x y n m d Hnr Hadm Hno Hcase Hok.
  destruct (full_own N K k nrm pre post x y n m d Hnr Hadm Hno Hcase Hok) as (new & Hnew & Hnd & Hin & Hall).
  exists new. split; [exact Hnew|]. intros i j Hi Hj Hij.
  assert (Hp : In (i, j) (map c_ix (own new))) by (apply Hin; repeat split; assumption).
  assert (Hf : filter (fun c : call E => (c_tag c =? 0) && (fst (c_ix c) =? i) && (snd (c_ix c) =? j)) new =
               filter (fun c => (fst (c_ix c) =? i) && (snd (c_ix c) =? j)) (own new)).
  { clear. unfold own. induction new as [|c l IH]; [reflexivity|]. cbn [filter]. destruct (c_tag c =? 0); cbn [andb filter].
    - destruct ((fst (c_ix c) =? i) && (snd (c_ix c) =? j)); rewrite IH; reflexivity.
    - exact IH. }
  assert (Hone : exists c, filter (fun c : call E => (fst (c_ix c) =? i) && (snd (c_ix c) =? j)) (own new) = [c]).
  { clear - Hnd Hp. induction (own new) as [|c l IH]; [destruct Hp|]. cbn [map] in *. inversion Hnd as [|? ? Hc Hnd']. subst.
    cbn [filter]. destruct ((fst (c_ix c) =? i) && (snd (c_ix c) =? j)) eqn:Heq.
    - apply andb_true_iff in Heq. destruct Heq as [H1 H2]. apply Nat.eqb_eq in H1. apply Nat.eqb_eq in H2.
      assert (Hcij : c_ix c = (i, j)) by (destruct (c_ix c); cbn in *; subst; reflexivity). rewrite Hcij in Hc.
      exists c. f_equal. clear - Hc. induction l as [|c' l IH]; [reflexivity|]. cbn [filter map] in *.
      destruct ((fst (c_ix c') =? i) && (snd (c_ix c') =? j)) eqn:Heq.
      + apply andb_true_iff in Heq. destruct Heq as [H1 H2]. apply Nat.eqb_eq in H1. apply Nat.eqb_eq in H2.
        exfalso. apply Hc. left. destruct (c_ix c'); cbn in *; subst; reflexivity.
      + apply IH. intros H. apply Hc. right. exact H.
    - apply IH; [exact Hnd'|]. destruct Hp as [Hp|Hp]; [|exact Hp]. rewrite Hp in Heq. cbn in Heq.
      rewrite !Nat.eqb_refl in Heq. discriminate. }
  rewrite Hf. destruct Hone as [c Hc]. exists c. split; [exact Hc|].
  assert (Hcin : In c (filter (fun c : call E => (fst (c_ix c) =? i) && (snd (c_ix c) =? j)) (own new)))
    by (rewrite Hc; left; reflexivity).
  apply filter_In in Hcin. destruct Hcin as [Hcin Heq]. apply andb_true_iff in Heq. destruct Heq as [H1 H2].
  apply Nat.eqb_eq in H1. apply Nat.eqb_eq in H2.
  unfold own in Hcin. apply filter_In in Hcin. destruct Hcin as [Hcin Ht]. apply Nat.eqb_eq in Ht.
  rewrite Forall_forall in Hall. destruct (Hall c Hcin Ht) as (_ & _ & _ & Hx & Hy).
  rewrite Hx, Hy, H1, H2. split; [reflexivity|]. destruct y as [y'|]; reflexivity.
Qed.

(** C102: how many. A successful [full] brings the number of kernel calls since attach_to to
    n (n + 1) / 2 for one sample and to n m for two samples, whatever was accessed before; if anything
    asked for normalised values, two samples cost n + m calls more. (An operation that failed while
    normalising two samples may have cost more calls: C02.) *)
Lemma pf_C102_count :
  forall {E V U} (N : numops V) (K : kernel E V) k nrm (pre post : list (op E U)) x y n m d,
    never_raises K k x y n m d -> admissible x y n m d -> no_attach post ->
    y = None \/ nrm = true \/ no_full_sparse post ->
    is_ok (outcome N OpFull (after N K nrm pre x y post)) = true ->
    y = None \/ normalised_well nrm post (trace N post (after N K nrm pre x y [])) ->
    exists new,
      g_calls (after N K nrm pre x y (post ++ [OpFull])) = new ++ g_calls (before N K nrm pre) /\
      length new = row_pairs (is_some y) n m +
        (if is_some y && existsb (wants_normalised nrm) (post ++ [OpFull]) then n + m else 0).
Proof.
  intros E V U N K k nrm pre post x y n m d Hnr Hadm Hno Hcase Hok Hwell.
  destruct (full_own N K k nrm pre post x y n m d Hnr Hadm Hno Hcase Hok) as (new & Hnew & Hnd & Hin & Hall).
  exists new. split; [exact Hnew|]. rewrite own_foreign_length. f_equal.
  { rewrite <- (map_length c_ix). apply (own_count x y n m d Hadm); assumption. }
  assert (Hno' : no_attach (post ++ [OpFull])).
  { unfold no_attach in *. rewrite forallb_app, Hno. reflexivity. }
  destruct y as [y|].
  - destruct Hwell as [|Hwell]; [discriminate|].
    destruct (hist_attached N K nrm pre x (Some y) n m d Hadm) as (_ & _ & Hk & Ht). fold (before N K nrm pre) in *.
    assert (Hs0 : after N K nrm pre x (Some y) [] = attached (before N K nrm pre) x (Some y) n m d).
    { rewrite (after_split N K nrm pre [] x (Some y) n m d Hadm). reflexivity. }
    set (s0 := attached (before N K nrm pre) x (Some y) n m d) in *.
    assert (Hk0 : k_keep_normed s0 = nrm) by exact Hk.
    assert (Hw : normalised_well nrm (post ++ [OpFull]) (trace N (post ++ [OpFull]) s0)).
    { unfold normalised_well in *. rewrite trace_app, combine_app by (rewrite trace_len; reflexivity).
      apply Forall_app. split; [rewrite <- Hs0; exact Hwell|]. cbn [trace combine]. constructor; [|constructor].
      cbn [fst snd]. intros _. rewrite (after_split N K nrm pre post x (Some y) n m d Hadm) in Hok. exact Hok. }
    rewrite <- Hk0 in Hw.
    destruct (run_exact N (post ++ [OpFull]) s0 Hno' Ht eq_refl Hw) as (added & Ha & Hb).
    assert (Hfl := run_flag N (post ++ [OpFull]) s0 Hno' Ht eq_refl Hw).
    rewrite (after_split N K nrm pre (post ++ [OpFull]) x (Some y) n m d Hadm) in Hnew. fold s0 in Hnew.
    change (g_calls s0) with (g_calls (before N K nrm pre)) in Ha.
    assert (added = new) by (eapply app_inv_tail; rewrite <- Ha; exact Hnew). subst added.
    rewrite Hk0 in Hfl. change (k_is_normed s0) with false in Hfl. cbn [orb] in Hfl.
    unfold nb in Hb. change (k_is_normed s0) with false in Hb. rewrite Hfl in Hb.
    assert (HB : budget s0 = n + m) by reflexivity. rewrite HB in Hb.
    cbn [is_some andb]. destruct (existsb (wants_normalised nrm) (post ++ [OpFull])); lia.
  - cbn [is_some andb].
    destruct (log_own N K nrm pre (post ++ [OpFull]) x None n m d Hadm Hno' (or_introl eq_refl)) as (new' & Hnew' & Htag).
    assert (new' = new) by (eapply app_inv_tail; rewrite <- Hnew; symmetry; exact Hnew'). subst new'.
    apply own_foreign, Htag.
Qed.

(** C102: after it nothing more is paid for: every further access that is not attach_to and does not ask
    for normalised values for the first time makes no call. *)
Lemma pf_C102_nothing_more :
  forall {E V U} (N : numops V) (K : kernel E V) k nrm (pre post more : list (op E U)) x y n m d,
    never_raises K k x y n m d -> admissible x y n m d -> no_attach (post ++ [OpFull] ++ more) ->
    y = None \/ nrm = true \/ no_full_sparse post ->
    is_ok (outcome N OpFull (after N K nrm pre x y post)) = true ->
    y = None \/ nrm = true \/ forallb (fun o => negb (wants_normalised nrm o)) more = true ->
    g_calls (after N K nrm pre x y (post ++ [OpFull] ++ more)) = g_calls (after N K nrm pre x y (post ++ [OpFull])).
Proof.
  intros E V U N K k nrm pre post more x y n m d Hnr Hadm Hno Hcase Hok Hq.
  assert (Hno1 : no_attach post /\ no_attach more /\ no_attach (post ++ [OpFull])).
  { unfold no_attach in *. rewrite !forallb_app in Hno. apply andb_true_iff in Hno. destruct Hno as [H1 H2].
    apply andb_true_iff in H2. rewrite forallb_app, H1. repeat split; apply H2. }
  destruct Hno1 as (Hnop & Hnom & Hnof).
  destruct (full_own N K k nrm pre post x y n m d Hnr Hadm Hnop Hcase Hok) as (new & Hnew & Hnd & Hin & Hall).
  assert (Hret : returns_only K k x y n m d) by (intros t u v Hu Hv; left; apply Hnr; assumption).
  destruct (S1_sane N K k nrm pre (post ++ [OpFull] ++ more) x y n m d Hadm Hno Hret) as [Hi _].
  destruct Hi as [_ Hm (new2 & Hnew2 & Hsucc & Hall2)].
  rewrite (all_successful K k _ _ _ n m d _ new2 (nr_stored K k x y n m d Hadm Hnr) Hall2) in Hsucc.
  set (s1 := after N K nrm pre x y (post ++ [OpFull])) in *.
  assert (Hs2 : after N K nrm pre x y (post ++ [OpFull] ++ more) = run N more s1).
  { unfold s1, after. rewrite app_assoc.
    change (OpAttach x y :: (post ++ [OpFull]) ++ more) with ((OpAttach x y :: post ++ [OpFull]) ++ more).
    rewrite app_assoc, run_app. reflexivity. }
  rewrite Hs2 in *.
  destruct (hist_attached N K nrm pre x y n m d Hadm) as (_ & _ & Hk & Ht). fold (before N K nrm pre) in *.
  assert (Hs1 : s1 = run N (post ++ [OpFull]) (attached (before N K nrm pre) x y n m d))
    by (apply (after_split N K nrm pre (post ++ [OpFull]) x y n m d Hadm)).
  assert (Hfr := ident_run N (post ++ [OpFull]) (attached (before N K nrm pre) x y n m d)).
  rewrite <- Hs1 in Hfr. unfold ident in Hfr. cbn in Hfr. injection Hfr as _ Hf2 Hf3.
  assert (Hadd : exists added, g_calls (run N more s1) = added ++ g_calls s1 /\ foreign added = 0).
  { assert (Hy : y = None \/ y <> None) by (destruct y; [right; discriminate|left; reflexivity]). destruct Hy as [->|Hy].
    - destruct (log_own N K nrm pre (post ++ [OpFull] ++ more) x None n m d Hadm Hno (or_introl eq_refl)) as (w & Hw & Htag).
      rewrite Hs2 in Hw. destruct (run_count N more s1 Hnom ltac:(congruence)) as (added & Ha & _).
      exists added. split; [exact Ha|]. rewrite Ha, Hnew, app_assoc in Hw. apply app_inv_tail in Hw. subst w.
      apply Forall_app in Htag. apply own_foreign, Htag.
    - assert (Hq' : nrm = true \/ forallb (fun o => negb (wants_normalised nrm o)) more = true)
        by (destruct Hq as [|Hq]; [contradiction|exact Hq]). destruct Hq' as [Hn|Hn].
      + assert (Hn1 : k_is_normed s1 = true).
        { destruct (full_reads_back N K k nrm pre post x y n m d Hnr Hadm Hnop Hcase Hok) as (_ & _ & _ & H).
          unfold s1. rewrite after_snoc. exact (H Hn). }
        assert (Ht1 : g_tag s1 = 0) by congruence. clear - Hn1 Hnom Ht1. revert Hn1 Ht1. generalize s1 as s. clear s1.
        induction more as [|o more IH]; intros s Hn1 Ht1; [exists []; split; reflexivity|].
        unfold no_attach in Hnom. cbn [forallb] in Hnom. apply andb_true_iff in Hnom. destruct Hnom as [Ho Hnom].
        apply negb_true_iff in Ho.
        destruct (gt_step N o Ho s Ht1) as (T & _ & _ & Nm & l1 & C1 & _ & P1).
        destruct (IH Hnom (fst (step N o s)) (Nm Hn1) T) as (l2 & C2 & F2). cbn [run].
        exists (l2 ++ l1). rewrite C2, C1, app_assoc, foreign_app, F2. split; [reflexivity|].
        destruct (foreign l1) as [|f] eqn:F1; [reflexivity|]. destruct (P1 ltac:(lia)) as [Q _]. congruence.
      + assert (Hw : normalised_well (k_keep_normed s1) more (trace N more s1)).
        { apply Forall_forall. intros [o r] Hor Hask. exfalso. apply in_combine_l in Hor.
          rewrite forallb_forall in Hn. specialize (Hn o Hor). cbn [fst] in Hask. rewrite Hf2, Hk in Hask. rewrite Hask in Hn. discriminate. }
        assert (Htw : k_two s1 = Some true).
        { assert (Hfr := frame_run N (post ++ [OpFull]) (attached (before N K nrm pre) x y n m d) Hnof).
          rewrite <- Hs1 in Hfr. unfold frame in Hfr. destruct y as [y|]; [|contradiction]. cbn in Hfr. congruence. }
        assert (Ht1 : g_tag s1 = 0) by congruence.
        destruct (run_exact N more s1 Hnom Ht1 Htw Hw) as (added & Ha & Hb). exists added. split; [exact Ha|].
        assert (Hfl := run_flag N more s1 Hnom Ht1 Htw Hw).
        assert (Hex : existsb (wants_normalised (k_keep_normed s1)) more = false).
        { destruct (existsb (wants_normalised (k_keep_normed s1)) more) eqn:Hex; [|reflexivity]. apply existsb_exists in Hex.
          destruct Hex as (o & Ho & Hask). rewrite forallb_forall in Hn. specialize (Hn o Ho).
          rewrite Hf2, Hk in Hask. rewrite Hask in Hn. discriminate. }
        rewrite Hex, orb_false_r in Hfl. unfold nb in Hb. rewrite Hfl in Hb. lia. }
  destruct Hadd as (added & Ha & Hfor). rewrite Ha. enough (added = []) by (subst; reflexivity).
  rewrite Ha, Hnew, app_assoc in Hnew2. apply app_inv_tail in Hnew2. subst new2.
  assert (Hown : own added = []).
  { unfold own in *. rewrite filter_app, map_app in Hsucc.
    assert (Hnd2 := mo_nodup _ _ _ _ _ _ _ _ Hm). rewrite <- Hsucc in Hnd2.
    destruct (filter (fun c : call E => c_tag c =? 0) added) as [|c l] eqn:Hfl; [reflexivity|]. exfalso.
    cbn [map app] in Hnd2. inversion Hnd2 as [|? ? Hc _]. apply Hc. apply in_or_app. right.
    assert (Hcin : In c added /\ (c_tag c =? 0) = true) by (apply (filter_In (fun c : call E => c_tag c =? 0)); rewrite Hfl; left; reflexivity).
    destruct Hcin as [Hcin Htc]. apply Nat.eqb_eq in Htc. apply Forall_app in Hall2. destruct Hall2 as [Hall2 _].
    rewrite Forall_forall in Hall2. destruct (Hall2 c Hcin Htc) as (H1 & H2 & H3 & _).
    apply Hin. split; [exact H1|]. split; [exact H2|]. intros ->. unfold norm in H3. destruct (c_ix c) as [i j].
    cbn in H3. inversion H3. cbn. lia. }
  assert (Hlen := own_foreign_length added). rewrite Hown, Hfor in Hlen. destruct added; [reflexivity|discriminate].
Qed.

(*BEGIN PROP*)
(** C102 applies: two samples of three rows, with accesses before [full] that repeat each other and one
    that raises; 3 * 3 + 3 + 3 calls. One sample: 6 calls. *)
Example C102_example :
  let post := [OpDiagonal; OpGetItem (IFlat 2); OpCenter; OpGetItem (IFlat 5); OpNormedKM; OpFrobNorm; OpFull] in
  length (g_calls (after (U:=Z) toyN dot false [] toyX (Some toyX) (post ++ [OpFull]))) = 3 * 3 + (3 + 3) /\
  length (g_calls (after (U:=Z) toyN dot false [] toyX (Some toyX) ([OpDiagonal; OpFrobNorm] ++ [OpFull]))) = 3 * 3 /\
  length (g_calls (after (U:=Z) toyN dot true [] toyX None (post ++ [OpFull]))) = 6 /\
  map is_ok (trace toyN post (after (U:=Z) toyN dot false [] toyX (Some toyX) [])) =
    [false; true; false; true; true; true; true] /\
  is_ok (outcome toyN OpFull (after (U:=Z) toyN dot false [] toyX (Some toyX) post)) = true.
Proof. vm_compute. repeat split. Qed.
(*END PROP*)
