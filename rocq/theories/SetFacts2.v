(** Proofs about KernelSets on the heap, continued: attach_to, attributes, whole programs. *)
From Coq Require Import String List Arith ZArith Bool Lia.
Import ListNotations.
From Verif Require Import Prelude MatModel MatFacts UtilsModel IndexModel KMModel SpecKM MFacts
  KMFacts KMInv KMHist SetModel SpecSet SetFacts.

Lemma dict_set_idem : forall {U} (d : list (string * U)) n u,
  dict_set (dict_set d n u) n u = dict_set d n u.
Proof.
  intros U d n u. induction d as [|[m v] d IH]; simpl.
  - rewrite String.eqb_refl. reflexivity.
  - destruct (String.eqb n m) eqn:Hm; simpl.
    + rewrite String.eqb_refl. reflexivity.
    + rewrite Hm, IH. reflexivity.
Qed.

Lemma dict_get_set : forall {U} (d : list (string * U)) n u n',
  dict_get (dict_set d n u) n' = if String.eqb n' n then Some u else dict_get d n'.
Proof.
  intros U d n u n'. induction d as [|[m v] d IH]; simpl.
  - reflexivity.
  - destruct (String.eqb n m) eqn:Hm; simpl.
    + apply String.eqb_eq in Hm. subst m. destruct (String.eqb n' n); reflexivity.
    + destruct (String.eqb n' m) eqn:Hm'.
      * apply String.eqb_eq in Hm'. subst m. rewrite String.eqb_sym, Hm. reflexivity.
      * exact IH.
Qed.

Section Facts2.
  Context {E V U : Type}.
  Variable N : numops V.
  Variable C : cmpops V.
  Variable numeric : list E -> bool.
  Notation World := (world E V U).
  Notation KM := (km E V U).
  Notation WSTEP := (wstep (E:=E) (V:=V) (U:=U) N C numeric).

  Lemma attached_idem : forall (s : KM) x n d,
    attached (attached s x None n n d) x None n n d = attached s x None n n d.
  Proof. reflexivity. Qed.

  (** Apply a total idempotent method to every KernelMatrix in a list of references. *)
  Lemma on_all : forall (m : M KM unit) (f : KM -> KM), (forall s, m s = (f s, Ok tt)) ->
    (forall s, f (f s) = f s) ->
    forall ms (w : World), (forall l, In l ms -> is_km w l) ->
    exists w', for_each ms (fun l => on_km l m) w = (w', Ok tt) /\ w_sets w' = w_sets w /\
      length (w_objs w') = length (w_objs w) /\
      (forall l, In l ms -> forall s, nth_error (w_objs w) l = Some (OKM s) ->
                           nth_error (w_objs w') l = Some (OKM (f s))) /\
      (forall l, ~ In l ms -> nth_error (w_objs w') l = nth_error (w_objs w) l).
  Proof.
    intros m f Hm Hf ms. induction ms as [|l ms IH]; intros w Hk.
    - exists w. repeat split; try reflexivity. intros l [].
    - destruct (Hk l (or_introl eq_refl)) as [s Hs].
      set (w1 := set_objs (list_upd (w_objs w) l (OKM (f s))) w).
      assert (H1 : on_km l m w = (w1, Ok tt)).
      { unfold on_km. rewrite Hs, Hm. reflexivity. }
      assert (Hl1 : nth_error (w_objs w1) l = Some (OKM (f s)))
        by (cbn; eapply nth_error_upd_same; exact Hs).
      assert (Ho1 : forall l', l' <> l -> nth_error (w_objs w1) l' = nth_error (w_objs w) l')
        by (intros; cbn; apply nth_error_upd_other; assumption).
      destruct (IH w1) as (w2 & H2 & Hsets & Hlen & Hin & Hout).
      { intros l' Hl'. destruct (Nat.eq_dec l' l) as [->|Hne].
        - exists (f s). exact Hl1.
        - destruct (Hk l' (or_intror Hl')) as [s' Hs']. exists s'. rewrite Ho1; assumption. }
      exists w2. split; [|split; [|split; [|split]]].
      + cbn [for_each]. unfold bind. rewrite H1. exact H2.
      + rewrite Hsets. reflexivity.
      + rewrite Hlen. cbn. apply list_upd_length.
      + intros l' Hl' s' Hs'. destruct (Nat.eq_dec l' l) as [->|Hne].
        * rewrite Hs in Hs'. inversion Hs'; subst s'.
          destruct (in_dec Nat.eq_dec l ms) as [Hi|Hi].
          -- rewrite (Hin l Hi _ Hl1). rewrite Hf. reflexivity.
          -- rewrite (Hout l Hi). exact Hl1.
        * destruct Hl' as [->|Hl']; [congruence|]. apply Hin; [exact Hl'|].
          rewrite Ho1; assumption.
      + intros l' Hl'. rewrite Hout by (intros Hi; apply Hl'; right; exact Hi).
        apply Ho1. intros ->. apply Hl'. left. reflexivity.
  Qed.

  (** ** attach_to of a set *)
  Lemma set_attach_eq : forall k x attr (w : World) s n d,
    nth_error (w_sets w) k = Some s -> is_sample x n d -> numeric (nd_data x) = true ->
    set_attach numeric k x attr w =
    if negb (numsamp_eqb (s_num s) NSNone) && negb (numsamp_eqb (s_num s) (NSOne n))
    then (set_sets (list_upd (w_sets w) k
                      (mkSet (s_num s) (s_init s) (s_members s) (Some (stored n d x)))) w,
          Raise ValueError)
    else (for_each (s_members s) (fun l => on_km l (attach_to x None)) ;;;
          match attr with
          | None => ret tt
          | Some (name, u) => for_each (s_members s) (fun l => on_km l (set_attr name u))
          end)
         (set_sets (list_upd (w_sets w) k
                      (mkSet (NSOne n) (s_init s) (s_members s) (Some (stored n d x)))) w).
  Proof.
    intros k x attr w s n d Hk Hx Hn. unfold set_attach, bind, get_set, lift, put_set, modify.
    rewrite Hk, Hn. cbn [negb andb]. rewrite (ensure_2D_own_ok x n d Hx).
    replace (nth 0 (nd_shape x) 0) with n by (destruct Hx as (ex & -> & _); reflexivity).
    destruct (negb (numsamp_eqb (s_num s) NSNone) && negb (numsamp_eqb (s_num s) (NSOne n))).
    - reflexivity.
    - unfold set_sets at 2. cbn [w_sets w_objs]. unfold set_sets. cbn [w_sets w_objs].
      rewrite list_upd_upd. reflexivity.
  Qed.

  Lemma set_attach_bad : forall k x attr (w : World) s,
    nth_error (w_sets w) k = Some s -> (forall n, ~ numeric_sample numeric x n) ->
    set_attach numeric k x attr w = (w, Raise ValueError).
  Proof.
    intros k x attr w s Hk Hx. unfold set_attach, bind, get_set, lift. rewrite Hk.
    destruct (numeric (nd_data x)) eqn:Hn; cbn [negb andb].
    - destruct (ensure_2D_own x) as [a|e] eqn:He.
      + destruct (ensure_2D_own_inv x a He) as (n & d & Hs & _). exfalso. apply (Hx n).
        split; [exists d; exact Hs|exact Hn].
      + rewrite (ensure_2D_own_raise x e He). reflexivity.
    - destruct (nd_ndim (squeeze_from 2 x) =? 2) eqn:Hd; [reflexivity|].
      destruct (ensure_2D_own x) as [a|e] eqn:He.
      + exfalso. unfold ensure_2D_own, ensure_ndarray_2D, ensure_ndarray_size in He.
        rewrite Hd in He. discriminate.
      + rewrite (ensure_2D_own_raise x e He). reflexivity.
  Qed.

  Lemma numeric_sample_dec : forall (x : ndarray E),
    (exists n d, is_sample x n d /\ numeric (nd_data x) = true) \/ (forall n, ~ numeric_sample numeric x n).
  Proof.
    intros x. destruct (ensure_2D_own x) as [a|e] eqn:He.
    - destruct (ensure_2D_own_inv x a He) as (n & d & Hs & _).
      destruct (numeric (nd_data x)) eqn:Hn.
      + left. exists n, d. split; [exact Hs|reflexivity].
      + right. intros m [_ Hm]. congruence.
    - right. intros n [[d Hs] _]. rewrite (ensure_2D_own_ok x n d Hs) in He. discriminate.
  Qed.

  Definition attrs_after (attr : option (string * U)) (s : KM) : KM :=
    match attr with
    | None => s
    | Some (name, u) => set_attrs (dict_set (k_attr s) name u) s
    end.

  (** All members KernelMatrix objects, sample of the right size. *)
  Lemma set_attach_ok : forall k x attr (w : World) s n d,
    nth_error (w_sets w) k = Some s -> is_sample x n d -> numeric (nd_data x) = true ->
    s_num s = NSNone \/ s_num s = NSOne n ->
    (forall l, In l (s_members s) -> is_km w l) ->
    exists w', set_attach numeric k x attr w = (w', Ok tt) /\
      w_sets w' = list_upd (w_sets w) k
                    (mkSet (NSOne n) (s_init s) (s_members s) (Some (stored n d x))) /\
      (forall l, In l (s_members s) -> forall t, nth_error (w_objs w) l = Some (OKM t) ->
         nth_error (w_objs w') l = Some (OKM (attrs_after attr (attached t x None n n d)))) /\
      (forall l, ~ In l (s_members s) -> nth_error (w_objs w') l = nth_error (w_objs w) l).
  Proof.
    intros k x attr w s n d Hk Hx Hn Hnum Hkm. rewrite (set_attach_eq k x attr w s n d Hk Hx Hn).
    assert (Hc : negb (numsamp_eqb (s_num s) NSNone) && negb (numsamp_eqb (s_num s) (NSOne n)) = false).
    { destruct Hnum as [-> | ->]; [reflexivity|]. rewrite andb_false_iff. right.
      apply negb_false_iff, numsamp_eqb_eq. reflexivity. }
    rewrite Hc. set (w0 := set_sets _ w).
    assert (Hm : forall t : KM, attach_to x None t = (attached t x None n n d, Ok tt)).
    { intros t. apply attach_to_ok. split; [exact Hx|reflexivity]. }
    destruct (on_all (attach_to x None) (fun t => attached t x None n n d) Hm
                (fun t => attached_idem t x n d) (s_members s) w0 Hkm)
      as (w1 & H1 & Hs1 & Hlen1 & Hin1 & Hout1).
    unfold bind. rewrite H1. destruct attr as [[name u]|]; cbn [attrs_after].
    - destruct (on_all (set_attr name u) (fun t => set_attrs (dict_set (k_attr t) name u) t)
                  (fun t => eq_refl)) with (ms := s_members s) (w := w1)
        as (w2 & H2 & Hs2 & Hlen2 & Hin2 & Hout2).
      + intros t. unfold set_attrs. cbn. rewrite dict_set_idem. reflexivity.
      + intros l Hl. destruct (Hkm l Hl) as [t Ht].
        exists (attached t x None n n d). apply Hin1; assumption.
      + exists w2. split; [exact H2|]. split; [rewrite Hs2, Hs1; reflexivity|]. split.
        * intros l Hl t Ht. rewrite (Hin2 l Hl _ (Hin1 l Hl t Ht)). reflexivity.
        * intros l Hl. rewrite (Hout2 l Hl), (Hout1 l Hl). reflexivity.
    - exists w1. split; [reflexivity|]. split; [exact Hs1|]. split; [exact Hin1|exact Hout1].
  Qed.

  (** ** Programs *)
  Lemma has_num_dec : forall (w : World) l n, {has_num w l n} + {~ has_num w l n}.
  Proof.
    intros w l n. destruct (nth_error (w_objs w) l) as [o|] eqn:Ho.
    - destruct (numsamp_dec (obj_num o) n) as [He|He].
      + left. exists o. split; assumption.
      + right. intros (o' & Ho' & Hn). congruence.
    - right. intros (o' & Ho' & _). congruence.
  Qed.

  Lemma num_attach_one : forall (x : ndarray E) (s : KM) n d, is_sample x n d ->
    k_num_samples (fst (attach_to x None s)) = NSOne n.
  Proof.
    intros x s n d Hx. rewrite (attach_to_ok s x None n n d); [reflexivity|].
    split; [exact Hx|reflexivity].
  Qed.

  Lemma on_km_num : forall {A} l (m : M KM A) (w : World) n,
    (forall s, k_num_samples (fst (m s)) = n) ->
    forall l', has_num w l' n -> has_num (fst (on_km l m w)) l' n.
  Proof.
    intros A l m w n Hm l' (o & Ho & Hn). unfold on_km.
    destruct (nth_error (w_objs w) l) as [[s|]|] eqn:Hl; try (exists o; split; assumption).
    specialize (Hm s). destruct (m s) as [s' r]. unfold has_num. cbn [fst set_objs w_objs].
    rewrite nth_error_upd. destruct ((l' =? l) && (l <? length (w_objs w))).
    - exists (OKM s'). split; [reflexivity|exact Hm].
    - exists o. split; assumption.
  Qed.

  (** Whatever happens in attach_to of a consistent set, its members end up with its size. *)
  Lemma set_attach_good : forall k x attr (w : World) s, good w ->
    nth_error (w_sets w) k = Some s ->
    exists s', w_sets (fst (set_attach numeric k x attr w)) = list_upd (w_sets w) k s' /\
      s_members s' = s_members s /\
      good_set (fst (set_attach numeric k x attr w)) s'.
  Proof.
    intros k x attr w s Hg Hk. destruct (numeric_sample_dec x) as [(n & d & Hx & Hn)|Hbad].
    - rewrite (set_attach_eq k x attr w s n d Hk Hx Hn).
      destruct (Hg k s Hk) as [Hm Hi].
      destruct (negb (numsamp_eqb (s_num s) NSNone) && negb (numsamp_eqb (s_num s) (NSOne n))) eqn:Hc.
      + eexists. split; [reflexivity|]. split; [reflexivity|]. split; [exact Hm|exact Hi].
      + set (s1 := mkSet (NSOne n) (s_init s) (s_members s) (Some (stored n d x))).
        set (w0 := set_sets _ w).
        match goal with |- context [fst ?t] => assert (Hgoal :
          w_sets (fst t) = w_sets w0 /\ (forall l, In l (s_members s) -> has_num (fst t) l (NSOne n))) end.
        { assert (Hattr : forall w1 : World, let P := fun w2 : World => w_sets w2 = w_sets w0 /\
              (forall l, In l (s_members s) -> has_num w2 l (NSOne n)) in
              P w1 -> P (fst ((match attr with None => ret tt | Some (name, u) =>
                 for_each (s_members s) (fun l => on_km l (set_attr name u)) end) w1))).
          { intros w1 P HP. destruct attr as [[name u]|]; [|exact HP].
            apply (for_each_pres P); [|exact HP]. intros l w2 [H1 H2]. split.
            - rewrite on_km_sets. exact H1.
            - intros l' Hl'. apply (nums_kept_on_km l (set_attr name u) w2); [reflexivity|].
              apply H2, Hl'. }
          assert (Hloop : w_sets (fst (for_each (s_members s) (fun l => on_km l (attach_to x None)) w0)) = w_sets w0 /\
             (forall l, In l (s_members s) ->
                has_num (fst (for_each (s_members s) (fun l => on_km l (attach_to x None)) w0)) l (NSOne n))).
          { destruct (numsamp_eqb (s_num s) NSNone) eqn:Hs.
            - apply numsamp_eqb_eq in Hs.
              assert (Hkm : forall l, In l (s_members s) -> is_km w0 l).
              { intros l Hl. destruct (Hm l Hl) as ([t|A] & Ho & Hob).
                - exists t. exact Ho.
                - rewrite Hs in Hob. discriminate. }
              destruct (on_all (attach_to x None) (fun t => attached t x None n n d)) with (ms := s_members s) (w := w0)
                as (w1 & H1 & Hs1 & Hlen1 & Hin1 & Hout1).
              + intros t. apply attach_to_ok. split; [exact Hx|reflexivity].
              + intros t. reflexivity.
              + exact Hkm.
              + rewrite H1. cbn [fst]. split; [exact Hs1|]. intros l Hl.
                destruct (Hkm l Hl) as [t Ht]. eexists. split; [apply Hin1; eassumption|reflexivity].
            - cbn [negb andb] in Hc. apply negb_false_iff, numsamp_eqb_eq in Hc.
              apply (for_each_pres (fun w2 : World => w_sets w2 = w_sets w0 /\
                 (forall l, In l (s_members s) -> has_num w2 l (NSOne n)))).
              + intros l w2 [H1 H2]. split; [rewrite on_km_sets; exact H1|].
                intros l' Hl'. apply (on_km_num l (attach_to x None) w2 (NSOne n)); [|apply H2, Hl'].
                intros t. apply (num_attach_one x t n d Hx).
              + split; [reflexivity|]. intros l Hl. rewrite <- Hc.
                destruct (Hm l Hl) as (o & Ho & Hon). exists o. split; assumption. }
          unfold bind. destruct (for_each (s_members s) (fun l => on_km l (attach_to x None)) w0) as [w1 [u|e]].
          - apply Hattr. exact Hloop.
          - exact Hloop. }
        destruct Hgoal as [H1 H2]. exists s1. split; [rewrite H1; reflexivity|].
        split; [reflexivity|]. split; [exact H2|]. cbn. discriminate.
    - rewrite (set_attach_bad k x attr w s Hk Hbad). exists s. cbn [fst].
      rewrite (list_upd_same _ _ _ Hk). split; [reflexivity|]. split; [reflexivity|]. apply (Hg k). exact Hk.
  Qed.

  Lemma good_attach : forall k x attr (w : World), good w ->
    (forall j, ~ behind_back N C numeric (WAttach k x attr) w j) ->
    good (fst (set_attach numeric k x attr w)).
  Proof.
    intros k x attr w Hg Hb. destruct (nth_error (w_sets w) k) as [s|] eqn:Hk.
    - destruct (set_attach_good k x attr w s Hg Hk) as (s' & Hs' & Hms & Hgs).
      intros j t Hj. rewrite Hs', nth_error_upd in Hj.
      destruct ((j =? k) && (k <? length (w_sets w))) eqn:Hjk.
      + inversion Hj; subst t. exact Hgs.
      + destruct (Nat.eq_dec j k) as [->|Hne].
        { rewrite Nat.eqb_refl in Hjk. cbn in Hjk. apply Nat.ltb_ge in Hjk.
          assert (k < length (w_sets w)) by (apply nth_error_Some; congruence). lia. }
        destruct (Hg j t Hj) as [H1 H2]. split; [|exact H2].
        intros l Hl. specialize (H1 l Hl).
        destruct (has_num_dec (fst (set_attach numeric k x attr w)) l (s_num t)) as [Hy|Hn]; [exact Hy|].
        exfalso. apply (Hb j). split; [intros x' attr' He; inversion He; congruence|].
        exists (s_num t), (s_members t), l, (s_num t). split; [|split; [exact Hl|split; [exact H1|]]].
        * exists (s_init t), (s_sample t). destruct t; exact Hj.
        * cbn [wstep]. rewrite fst_wfmap. exact Hn.
    - unfold set_attach, bind, get_set. rewrite Hk. exact Hg.
  Qed.

  (** Operations that keep sets and sizes. *)
  Lemma good_on_km_kept : forall {A} l (m : M KM A) (w : World),
    (forall s, k_num_samples (fst (m s)) = k_num_samples s) -> good w -> good (fst (on_km l m w)).
  Proof.
    intros A l m w Hm Hg. apply (good_same w); [exact Hg|apply nums_kept_on_km, Hm|apply on_km_sets].
  Qed.

  Lemma good_step : forall o (w : World), good w -> (forall k, ~ behind_back N C numeric o w k) ->
    good (fst (WSTEP o w)).
  Proof.
    intros o w Hg Hb. destruct o; cbn [wstep]; rewrite fst_wfmap.
    - apply (good_same w); [exact Hg|apply nums_kept_new_obj|reflexivity].
    - unfold bind, lift, new_obj. destruct a as [a|e]; [|exact Hg].
      destruct (precomputed_new C (v_nan N) a); [|exact Hg].
      apply (good_same w); [exact Hg|apply nums_kept_new_obj|reflexivity].
    - intros j t Hj. rewrite on_km_sets in Hj. destruct (Hg j t Hj) as [H1 H2].
      split; [|exact H2]. intros l' Hl'. specialize (H1 l' Hl').
      destruct (has_num_dec (fst (on_km l (step N o) w)) l' (s_num t)) as [Hy|Hn]; [exact Hy|].
      exfalso. apply (Hb j). split; [intros; discriminate|].
      exists (s_num t), (s_members t), l', (s_num t). split; [|split; [exact Hl'|split; [exact H1|]]].
      + exists (s_init t), (s_sample t). destruct t; exact Hj.
      + cbn [wstep]. rewrite fst_wfmap. exact Hn.
    - apply good_set_new, Hg.
    - apply good_append, Hg.
    - apply good_extend, Hg.
    - apply good_take, Hg.
    - unfold set_getitem, bind, get_set. destruct (nth_error (w_sets w) k); [|exact Hg].
      destruct ix; [|exact Hg].
      destruct ((z <? 0)%Z || (Z.of_nat (length (s_members k0)) <=? z)%Z); [exact Hg|].
      destruct (nth_error (s_members k0) (Z.to_nat z)); exact Hg.
    - unfold get_kernel_funcs, bind, get_set, lift. destruct (nth_error (w_sets w) k); [|exact Hg].
      destruct (check_indices k0 ix); [|exact Hg]. apply map_each_pres; [|exact Hg].
      intros i w' Hw. destruct (nth_error (s_members k0) i); [|exact Hw].
      apply good_on_km_kept; [reflexivity|exact Hw].
    - unfold set_iter, bind, get_set. destruct (nth_error (w_sets w) k); exact Hg.
    - apply good_attach; assumption.
    - unfold set_set_attr, bind, get_set. destruct (nth_error (w_sets w) k); [|exact Hg].
      destruct vals as [u|vs]; unfold ret, raise; cbn beta iota.
      + apply for_each_pres; [|exact Hg]. intros; apply good_on_km_kept; [reflexivity|assumption].
      + destruct (negb (length vs =? length (s_members k0))); [exact Hg|].
        apply for_each_pres; [|exact Hg]. intros; apply good_on_km_kept; [reflexivity|assumption].
    - unfold set_get_attr, bind, get_set. destruct (nth_error (w_sets w) k); [|exact Hg].
      apply map_each_pres; [|exact Hg]. intros; apply good_on_km_kept; [reflexivity|assumption].
    - unfold get_set. destruct (nth_error (w_sets w) k); exact Hg.
    - unfold get_set. destruct (nth_error (w_sets w) k); exact Hg.
  Qed.

  Lemma good_run : forall ops (w : World), good w -> considerate N C numeric ops w ->
    good (wrun N C numeric ops w).
  Proof.
    induction ops as [|o ops IH]; intros w Hg Hc; [exact Hg|]. destruct Hc as [H1 H2].
    cbn [wrun]. apply IH; [apply good_step; assumption|exact H2].
  Qed.

  Lemma good_empty : good (w_empty : World).
  Proof. intros k s H. destruct k; discriminate. Qed.

  (** ** Exchanging samples of the same size is considerate *)
  Lemma nums_kept_set_new : forall kl num (w : World), nums_kept w (fst (set_new N C kl num w)).
  Proof.
    intros kl num w. unfold set_new, bind, new_set.
    set (s0 := match num with Some n => _ | None => _ end).
    set (w0 := set_sets (w_sets w ++ [s0]) w).
    assert (H0 : nums_kept w w0) by (apply objs_nums_kept; reflexivity).
    destruct kl; cbn beta iota.
    - exact H0.
    - match goal with |- nums_kept _ (fst (let (_, _) := ?t in _)) =>
        assert (H1 : nums_kept w (fst t)) by (apply (for_each_pres (nums_kept w)); [|exact H0]; intros;
          eapply nums_kept_trans; [eassumption|apply nums_kept_append]);
        destruct t as [w' [u|e]]; exact H1 end.
    - unfold lift. destruct (subarrays a) as [l|e]; [|exact H0].
      match goal with |- nums_kept _ (fst (let (_, _) := ?t in _)) =>
        assert (H1 : nums_kept w (fst t)) by (apply (for_each_pres (nums_kept w)); [|exact H0]; intros;
          eapply nums_kept_trans; [eassumption|apply nums_kept_append]);
        destruct t as [w' [u|e]]; exact H1 end.
    - match goal with |- nums_kept _ (fst (let (_, _) := ?t in _)) =>
        assert (H1 : nums_kept w (fst t)) by
          (eapply nums_kept_trans; [exact H0|apply nums_kept_append]);
        destruct t as [w' [u|e]]; exact H1 end.
    - exact H0.
  Qed.

  Lemma nums_kept_step : forall o (w : World),
    match o with WObj _ (OpAttach _ _) | WAttach _ _ _ => False | _ => True end ->
    nums_kept w (fst (WSTEP o w)).
  Proof.
    intros o w Ho. destruct o; cbn [wstep]; rewrite fst_wfmap; try (destruct Ho; fail).
    - apply nums_kept_new_obj.
    - unfold bind, lift, new_obj. destruct a as [a|e]; [|apply nums_kept_refl].
      destruct (precomputed_new C (v_nan N) a); [apply nums_kept_new_obj|apply nums_kept_refl].
    - apply nums_kept_on_km. intros s. apply num_step. destruct o; try reflexivity. destruct Ho.
    - apply nums_kept_set_new.
    - apply nums_kept_append.
    - unfold extend. destruct other as [k'|]; [|apply nums_kept_refl]. unfold bind, get_set.
      destruct (nth_error (w_sets w) k) as [s|]; [|apply nums_kept_refl].
      destruct (nth_error (w_sets w) k') as [s'|]; [|apply nums_kept_refl].
      destruct (negb (numsamp_eqb (s_num s') (s_num s))); [apply nums_kept_refl|].
      apply (for_each_pres (nums_kept w)); [|apply nums_kept_refl].
      intros; eapply nums_kept_trans; [eassumption|apply nums_kept_append].
    - unfold take, bind, get_set. destruct (nth_error (w_sets w) k) as [s|]; [|apply nums_kept_refl].
      unfold lift. destruct (check_indices s ix) as [ns|e]; [|apply nums_kept_refl].
      assert (H0 := nums_kept_set_new KLNone None w).
      destruct (set_new N C KLNone None w) as [w' [k'|e]]; [|exact H0].
      match goal with |- nums_kept _ (fst (let (_, _) := ?t in _)) => assert (H1 : nums_kept w (fst t)) end.
      { apply (for_each_pres (nums_kept w)); [|exact H0]. intros i w'' Hw.
        destruct (nth_error (s_members s) i); [|exact Hw].
        eapply nums_kept_trans; [exact Hw|apply nums_kept_append]. }
      destruct (for_each _ _ w') as [w'' [u|e]]; exact H1.
    - unfold set_getitem, bind, get_set. destruct (nth_error (w_sets w) k); [|apply nums_kept_refl].
      destruct ix; [|apply nums_kept_refl].
      destruct ((z <? 0)%Z || (Z.of_nat (length (s_members k0)) <=? z)%Z); [apply nums_kept_refl|].
      destruct (nth_error (s_members k0) (Z.to_nat z)); apply nums_kept_refl.
    - unfold get_kernel_funcs, bind, get_set, lift. destruct (nth_error (w_sets w) k); [|apply nums_kept_refl].
      destruct (check_indices k0 ix); [|apply nums_kept_refl].
      apply (map_each_pres (nums_kept w)); [|apply nums_kept_refl].
      intros i w' Hw. destruct (nth_error (s_members k0) i); [|exact Hw].
      eapply nums_kept_trans; [exact Hw|]. apply nums_kept_on_km. reflexivity.
    - unfold set_iter, bind, get_set. destruct (nth_error (w_sets w) k); apply nums_kept_refl.
    - unfold set_set_attr, bind, get_set. destruct (nth_error (w_sets w) k); [|apply nums_kept_refl].
      destruct vals as [u|vs]; unfold ret, raise; cbn beta iota.
      + apply (for_each_pres (nums_kept w)); [|apply nums_kept_refl].
        intros; eapply nums_kept_trans; [eassumption|]. apply nums_kept_on_km. reflexivity.
      + destruct (negb (length vs =? length (s_members k0))); [apply nums_kept_refl|].
        apply (for_each_pres (nums_kept w)); [|apply nums_kept_refl].
        intros; eapply nums_kept_trans; [eassumption|]. apply nums_kept_on_km. reflexivity.
    - unfold set_get_attr, bind, get_set. destruct (nth_error (w_sets w) k); [|apply nums_kept_refl].
      apply (map_each_pres (nums_kept w)); [|apply nums_kept_refl].
      intros; eapply nums_kept_trans; [eassumption|]. apply nums_kept_on_km. reflexivity.
    - unfold get_set. destruct (nth_error (w_sets w) k); apply nums_kept_refl.
    - unfold get_set. destruct (nth_error (w_sets w) k); apply nums_kept_refl.
  Qed.

  Lemma nums_kept_attach : forall k x attr (w : World), good w ->
    (forall ms, ~ set_is w k NSNone ms) -> nums_kept w (fst (set_attach numeric k x attr w)).
  Proof.
    intros k x attr w Hg Hs. destruct (nth_error (w_sets w) k) as [s|] eqn:Hk.
    - destruct (numeric_sample_dec x) as [(n & d & Hx & Hn)|Hbad].
      + rewrite (set_attach_eq k x attr w s n d Hk Hx Hn).
        assert (Hnum : numsamp_eqb (s_num s) NSNone = false).
        { apply numsamp_eqb_neq. intros He. apply (Hs (s_members s)).
          exists (s_init s), (s_sample s). rewrite <- He. destruct s; exact Hk. }
        rewrite Hnum. cbn [negb andb].
        destruct (numsamp_eqb (s_num s) (NSOne n)) eqn:Hsn; cbn [negb];
          [|apply objs_nums_kept; reflexivity].
        apply numsamp_eqb_eq in Hsn. destruct (Hg k s Hk) as [Hm _].
        set (w0 := set_sets _ w).
        assert (H0 : nums_kept w w0) by (apply objs_nums_kept; reflexivity).
        assert (H1 : nums_kept w (fst (for_each (s_members s) (fun l => on_km l (attach_to x None)) w0))).
        { assert (Hstep : forall ms w1, incl ms (s_members s) -> nums_kept w w1 ->
            nums_kept w (fst (for_each ms (fun l => on_km l (attach_to x None)) w1))).
          { induction ms as [|l ms IH]; intros w1 Hi Hw1; [exact Hw1|]. cbn [for_each]. unfold bind.
            assert (H2 : nums_kept w (fst (on_km l (attach_to x None) w1))).
            { intros l' m Hl'. assert (Hw1' := Hw1 _ _ Hl'). destruct (Nat.eq_dec l' l) as [->|Hne].
              - assert (Hlm := Hm l (Hi l (or_introl eq_refl))). rewrite Hsn in Hlm.
                assert (m = NSOne n).
                { destruct Hlm as (o1 & Ho1 & Hn1), Hl' as (o2 & Ho2 & Hn2). congruence. }
                subst m. apply on_km_num; [|exact Hw1']. intros t. apply (num_attach_one x t n d Hx).
              - unfold has_num in *. rewrite on_km_other by exact Hne. exact Hw1'. }
            destruct (on_km l (attach_to x None) w1) as [w2 [u|e]]; [|exact H2].
            apply IH; [intros q Hq; apply Hi; right; exact Hq|exact H2]. }
          apply Hstep; [apply incl_refl|exact H0]. }
        unfold bind. destruct (for_each (s_members s) (fun l => on_km l (attach_to x None)) w0) as [w1 [u|e]];
          [|exact H1].
        destruct attr as [[name v]|]; [|exact H1].
        apply (for_each_pres (nums_kept w)); [|exact H1].
        intros; eapply nums_kept_trans; [eassumption|]. apply nums_kept_on_km. reflexivity.
      + rewrite (set_attach_bad k x attr w s Hk Hbad). apply nums_kept_refl.
    - unfold set_attach, bind, get_set. rewrite Hk. apply nums_kept_refl.
  Qed.

  Lemma nums_kept_considerate : forall o (w : World), nums_kept w (fst (WSTEP o w)) ->
    forall k, ~ behind_back N C numeric o w k.
  Proof. intros o w H k (_ & n & ms & l & m & _ & _ & H1 & H2). apply H2, H, H1. Qed.

  Lemma sized_considerate : forall ops (w : World), good w -> sized_attach N C numeric ops w ->
    considerate N C numeric ops w.
  Proof.
    induction ops as [|o ops IH]; intros w Hg Hs; [exact I|]. destruct Hs as [H1 H2].
    assert (Hk : nums_kept w (fst (WSTEP o w))).
    { destruct o; try (apply nums_kept_step; exact H1).
      cbn [wstep]. rewrite fst_wfmap. apply nums_kept_attach; assumption. }
    split; [apply nums_kept_considerate, Hk|]. apply IH; [|exact H2].
    apply good_step; [exact Hg|apply nums_kept_considerate, Hk].
  Qed.

  (** ** Kernel matrices on the heap have ordinary histories *)
  Definition ordinary (o : kobj E V U) : Prop :=
    match o with
    | OKM s => exists K nrm pre, s = before N K nrm pre
    | OPre _ => True
    end.
  Definition all_ordinary (w : World) : Prop :=
    forall l o, nth_error (w_objs w) l = Some o -> ordinary o.

  Lemma ordinary_new : forall (w : World) o, all_ordinary w -> ordinary o ->
    all_ordinary (set_objs (w_objs w ++ [o]) w).
  Proof.
    intros w o Hw Ho l o' Hl. cbn in Hl. rewrite nth_error_snoc in Hl.
    destruct (l =? length (w_objs w)); [inversion Hl; subst; exact Ho|]. apply (Hw l _ Hl).
  Qed.

  Lemma ordinary_on_km : forall {A} l (m : M KM A) (w : World),
    (forall s, exists ops, fst (m s) = run N ops s) ->
    all_ordinary w -> all_ordinary (fst (on_km l m w)).
  Proof.
    intros A l m w Hm Hw l' o' Hl'. destruct (Nat.eq_dec l' l) as [->|Hne].
    - unfold on_km in Hl'. destruct (nth_error (w_objs w) l) as [[s|B]|] eqn:Hl.
      + specialize (Hm s). destruct (m s) as [s' r]. cbn [fst set_objs w_objs] in *.
        rewrite (nth_error_upd_same _ _ _ _ Hl) in Hl'. inversion Hl'; subst o'.
        destruct Hm as [ops ->]. destruct (Hw l _ Hl) as (K & nrm & pre & ->).
        exists K, nrm, (pre ++ ops). unfold before. rewrite run_app. reflexivity.
      + cbn [fst] in Hl'. apply (Hw l). exact Hl'.
      + cbn [fst] in Hl'. apply (Hw l). exact Hl'.
    - rewrite on_km_other in Hl' by exact Hne. apply (Hw l' _ Hl').
  Qed.

  Lemma ordinary_append : forall k a (w : World), all_ordinary w -> all_ordinary (fst (append N C k a w)).
  Proof.
    assert (Hr : forall k l (w : World), all_ordinary w -> all_ordinary (fst (append N C k (ARef l) w))).
    { intros k l w Hw. rewrite append_ref. destruct (nth_error (w_objs w) l); [|exact Hw].
      destruct (nth_error (w_sets w) k); [|exact Hw]. destruct (joins k1 k0); exact Hw. }
    intros k [l| |r] w Hw; [apply Hr, Hw|exact Hw|]. rewrite append_array.
    destruct (rbind r (precomputed_new C (v_nan N))) as [A|e]; [|exact Hw]. apply Hr.
    apply ordinary_new; [exact Hw|exact I].
  Qed.

  Lemma ordinary_set_new : forall kl num (w : World), all_ordinary w ->
    all_ordinary (fst (set_new N C kl num w)).
  Proof.
    intros kl num w Hw. unfold set_new, bind, new_set.
    set (s0 := match num with Some n => _ | None => _ end).
    set (w0 := set_sets (w_sets w ++ [s0]) w).
    assert (H0 : all_ordinary w0) by exact Hw.
    destruct kl; cbn beta iota.
    - exact H0.
    - match goal with |- all_ordinary (fst (let (_, _) := ?t in _)) =>
        assert (H1 : all_ordinary (fst t)) by (apply (for_each_pres all_ordinary); [|exact H0]; intros;
          apply ordinary_append; assumption);
        destruct t as [w' [u|e]]; exact H1 end.
    - unfold lift. destruct (subarrays a) as [l|e]; [|exact H0].
      match goal with |- all_ordinary (fst (let (_, _) := ?t in _)) =>
        assert (H1 : all_ordinary (fst t)) by (apply (for_each_pres all_ordinary); [|exact H0]; intros;
          apply ordinary_append; assumption);
        destruct t as [w' [u|e]]; exact H1 end.
    - match goal with |- all_ordinary (fst (let (_, _) := ?t in _)) =>
        assert (H1 : all_ordinary (fst t)) by (apply ordinary_append; assumption);
        destruct t as [w' [u|e]]; exact H1 end.
    - exact H0.
  Qed.

  Lemma op_attach : forall x (s : KM), exists ops, fst (attach_to x None s) = run N ops s.
  Proof. 
    intros x s. exists [OpAttach x None]. cbn [run step]. unfold fmap, bind.
    destruct (attach_to x None s) as [s' [u|e]]; reflexivity.
  Qed.
  Lemma op_set_attr : forall name u (s : KM), exists ops, fst (set_attr name u s) = run N ops s.
  Proof. intros name u s. exists [OpSetAttr name u]. reflexivity. Qed.
  Lemma op_none : forall {A} (f : KM -> res A) (s : KM), exists ops, fst ((fun t => (t, f t)) s) = run N ops s.
  Proof. intros A f s. exists []. reflexivity. Qed.
  Lemma op_step : forall o (s : KM), exists ops, fst (step N o s) = run N ops s.
  Proof. intros o s. exists [o]. reflexivity. Qed.

  Lemma ordinary_step : forall o (w : World), all_ordinary w -> all_ordinary (fst (WSTEP o w)).
  Proof.
    intros o w Hw. destruct o; cbn [wstep]; rewrite fst_wfmap.
    - apply ordinary_new; [exact Hw|]. exists K, nrm, []. reflexivity.
    - unfold bind, lift, new_obj. destruct a as [a|e]; [|exact Hw].
      destruct (precomputed_new C (v_nan N) a); [|exact Hw]. apply ordinary_new; [exact Hw|exact I].
    - apply ordinary_on_km; [|exact Hw]. apply op_step.
    - apply ordinary_set_new, Hw.
    - apply ordinary_append, Hw.
    - unfold extend. destruct other as [k'|]; [|exact Hw]. unfold bind, get_set.
      destruct (nth_error (w_sets w) k) as [s|]; [|exact Hw].
      destruct (nth_error (w_sets w) k') as [s'|]; [|exact Hw].
      destruct (negb (numsamp_eqb (s_num s') (s_num s))); [exact Hw|].
      apply (for_each_pres all_ordinary); [|exact Hw]. intros; apply ordinary_append; assumption.
    - unfold take, bind, get_set. destruct (nth_error (w_sets w) k) as [s|]; [|exact Hw].
      unfold lift. destruct (check_indices s ix) as [ns|e]; [|exact Hw].
      assert (H0 := ordinary_set_new KLNone None w Hw).
      destruct (set_new N C KLNone None w) as [w' [k'|e]]; [|exact H0].
      match goal with |- all_ordinary (fst (let (_, _) := ?t in _)) => assert (H1 : all_ordinary (fst t)) end.
      { apply (for_each_pres all_ordinary); [|exact H0]. intros i w'' Hw'.
        destruct (nth_error (s_members s) i); [|exact Hw']. apply ordinary_append, Hw'. }
      destruct (for_each _ _ w') as [w'' [u|e]]; exact H1.
    - unfold set_getitem, bind, get_set. destruct (nth_error (w_sets w) k); [|exact Hw].
      destruct ix; [|exact Hw].
      destruct ((z <? 0)%Z || (Z.of_nat (length (s_members k0)) <=? z)%Z); [exact Hw|].
      destruct (nth_error (s_members k0) (Z.to_nat z)); exact Hw.
    - unfold get_kernel_funcs, bind, get_set, lift. destruct (nth_error (w_sets w) k); [|exact Hw].
      destruct (check_indices k0 ix); [|exact Hw].
      apply (map_each_pres all_ordinary); [|exact Hw].
      intros i w' Hw'. destruct (nth_error (s_members k0) i); [|exact Hw'].
      apply ordinary_on_km; [|exact Hw']. intros s. exists []. reflexivity.
    - unfold set_iter, bind, get_set. destruct (nth_error (w_sets w) k); exact Hw.
    - unfold set_attach, bind, get_set, lift, put_set, modify.
      destruct (nth_error (w_sets w) k) as [s|]; [|exact Hw].
      destruct (if _ : bool then Raise ValueError else ensure_2D_own x) as [a|e]; [|exact Hw].
      destruct (negb (numsamp_eqb (s_num s) NSNone) && _); [exact Hw|].
      set (w0 := set_sets _ _).
      assert (H0 : all_ordinary w0) by exact Hw. 
      match goal with |- all_ordinary (fst (let (_, _) := ?t in _)) => assert (H1 : all_ordinary (fst t)) end.
      { apply (for_each_pres all_ordinary); [|exact H0]. intros.
        apply ordinary_on_km; [|assumption]. apply op_attach. }
      destruct (for_each _ _ w0) as [w1 [u|e]]; [|exact H1].
      destruct attr as [[name v]|]; [|exact H1].
      apply (for_each_pres all_ordinary); [|exact H1]. intros.
      apply ordinary_on_km; [|assumption]. apply op_set_attr.
    - unfold set_set_attr, bind, get_set. destruct (nth_error (w_sets w) k); [|exact Hw].
      destruct vals as [u|vs]; unfold ret, raise; cbn beta iota.
      + apply (for_each_pres all_ordinary); [|exact Hw].
        intros; apply ordinary_on_km; [|assumption]. apply op_set_attr.
      + destruct (negb (length vs =? length (s_members k0))); [exact Hw|].
        apply (for_each_pres all_ordinary); [|exact Hw].
        intros; apply ordinary_on_km; [|assumption]. apply op_set_attr.
    - unfold set_get_attr, bind, get_set. destruct (nth_error (w_sets w) k); [|exact Hw].
      apply (map_each_pres all_ordinary); [|exact Hw].
      intros; apply ordinary_on_km; [|assumption]. intros s. exists []. reflexivity.
    - unfold get_set. destruct (nth_error (w_sets w) k); exact Hw.
    - unfold get_set. destruct (nth_error (w_sets w) k); exact Hw.
  Qed.

  Lemma ordinary_run : forall ops (w : World), all_ordinary w -> all_ordinary (wrun N C numeric ops w).
  Proof.
    induction ops as [|o ops IH]; intros w Hw; [exact Hw|]. cbn [wrun]. apply IH, ordinary_step, Hw.
  Qed.
End Facts2.
