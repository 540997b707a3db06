(** KernelSet: properties C39 - C45 and C65. *)
From Coq Require Import String List Arith ZArith Bool Lia.
Import ListNotations.
From Verif Require Import Prelude MatModel UtilsModel IndexModel KMModel SpecKM ToyModel SetModel SpecSet.
From Verif Require Import MatFacts MFacts KMFacts KMInv KMHist KMProps SetFacts SetFacts2.

Local Open Scope list_scope.
Local Open Scope nat_scope.

(** ** Loops over append *)
Section Loops.
  Context {E V U : Type}.
  Variable N : numops V.
  Variable C : cmpops V.
  Variable numeric : list E -> bool.
  Notation World := (world E V U).

  Lemma set_is_eq : forall (w : World) k n ms, set_is w k n ms ->
    exists s, nth_error (w_sets w) k = Some s /\ s_num s = n /\ s_members s = ms.
  Proof. intros w k n ms (b & x & H). eexists. split; [exact H|]. split; reflexivity. Qed.

  Lemma eq_set_is : forall (w : World) k s, nth_error (w_sets w) k = Some s ->
    set_is w k (s_num s) (s_members s).
  Proof. intros w k s H. exists (s_init s), (s_sample s). destruct s; exact H. Qed.

  Lemma append_all_same : forall ls (w : World) k s,
    nth_error (w_sets w) k = Some s -> (forall l, In l ls -> has_num w l (s_num s)) ->
    exists b, for_each ls (fun l => append N C k (ARef l)) w
      = (set_sets (list_upd (w_sets w) k (mkSet (s_num s) b (s_members s ++ ls) (s_sample s))) w, Ok tt).
  Proof.
    induction ls as [|l ls IH]; intros w k s Hk Hn.
    - exists (s_init s). cbn [for_each]. rewrite app_nil_r.
      replace (mkSet (s_num s) (s_init s) (s_members s) (s_sample s)) with s by (destruct s; reflexivity).
      rewrite (list_upd_same _ _ _ Hk). destruct w; reflexivity.
    - destruct (Hn l (or_introl eq_refl)) as (o & Ho & Hon).
      cbn [for_each]. unfold bind. rewrite append_ref, Ho, Hk.
      assert (Hj : joins s o = true).
      { unfold joins. rewrite Hon. replace (numsamp_eqb (s_num s) (s_num s)) with true.
        - apply orb_true_r.
        - symmetry. apply numsamp_eqb_eq. reflexivity. }
      rewrite Hj. set (w1 := set_sets _ w).
      destruct (IH w1 k (joined s o l)) as [b Hb].
      + cbn [w1 set_sets w_sets]. eapply nth_error_upd_same. exact Hk.
      + intros l' Hl'. cbn [joined s_num]. rewrite Hon. apply Hn. right. exact Hl'.
      + exists b. rewrite Hb. cbn [w1 set_sets w_sets w_objs joined s_num s_members s_sample].
        unfold set_sets. cbn [w_objs w_sets]. rewrite list_upd_upd, Hon, <- app_assoc. reflexivity.
  Qed.

  Lemma append_all_inv : forall ls (w w' : World) k s,
    nth_error (w_sets w) k = Some s ->
    for_each ls (fun l => append N C k (ARef l)) w = (w', Ok tt) ->
    exists s', w' = set_sets (list_upd (w_sets w) k s') w /\ s_members s' = s_members s ++ ls.
  Proof.
    induction ls as [|l ls IH]; intros w w' k s Hk H.
    - cbn [for_each] in H. inversion H; subst w'. exists s. rewrite app_nil_r.
      rewrite (list_upd_same _ _ _ Hk). split; [destruct w; reflexivity|reflexivity].
    - cbn [for_each] in H. unfold bind in H. rewrite append_ref, Hk in H.
      destruct (nth_error (w_objs w) l) as [o|]; [|discriminate].
      destruct (joins s o); [|discriminate].
      assert (Hk' : nth_error (w_sets (set_sets (list_upd (w_sets w) k (joined s o l)) w)) k
                    = Some (joined s o l)).
      { cbn [set_sets w_sets]. eapply nth_error_upd_same. exact Hk. }
      destruct (IH _ _ k (joined s o l) Hk' H) as (s' & -> & Hs').
      + exists s'. cbn [set_sets w_sets w_objs]. unfold set_sets. cbn [w_sets w_objs].
        rewrite list_upd_upd. split; [reflexivity|]. rewrite Hs'. cbn [joined s_members].
        rewrite <- app_assoc. reflexivity.
  Qed.

  Lemma for_each_selected : forall ms ns ls (f : nat -> M World unit),
    Forall2 (fun i l => nth_error ms i = Some l) ns ls -> forall w,
    for_each ns (fun i => match nth_error ms i with Some l => f l | None => raise IndexError end) w
    = for_each ls f w.
  Proof.
    intros ms ns ls f H. induction H as [|i l ns ls Hi H IH]; intros w; [reflexivity|].
    cbn [for_each]. unfold bind. rewrite Hi. destruct (f l w) as [w' [u|e]]; [apply IH|reflexivity].
  Qed.

  Lemma selected_check : forall (s : kset E) ix ls, selected (s_members s) ix ls ->
    check_indices s ix = Ok (map Z.to_nat ix) /\
    Forall2 (fun i l => nth_error (s_members s) i = Some l) (map Z.to_nat ix) ls.
  Proof.
    intros s ix ls H. unfold check_indices.
    assert (H1 : existsb (fun z => z <? 0)%Z ix = false /\
                 existsb (fun z => Z.of_nat (length (s_members s)) <=? z)%Z ix = false /\
                 Forall2 (fun i l => nth_error (s_members s) i = Some l) (map Z.to_nat ix) ls).
    { induction H as [|z l ix ls [Hz Hl] H (IH1 & IH2 & IH3)]; cbn [existsb map].
      - repeat split. constructor.
      - rewrite IH1, IH2. repeat split.
        + replace (z <? 0)%Z with false by (symmetry; apply Z.ltb_ge; lia). reflexivity.
        + assert (Z.to_nat z < length (s_members s)) by (apply nth_error_Some; congruence).
          replace (Z.of_nat (length (s_members s)) <=? z)%Z with false by (symmetry; apply Z.leb_gt; lia).
          reflexivity.
        + constructor; assumption. }
    destruct H1 as (-> & -> & H3). split; [reflexivity|exact H3].
  Qed.

  Lemma check_selected : forall (s : kset E) ix ns, check_indices s ix = Ok ns ->
    exists ls, selected (s_members s) ix ls.
  Proof.
    intros s ix ns H. unfold check_indices in H.
    destruct (existsb (fun z => z <? 0)%Z ix) eqn:H1; [discriminate|]. cbn [orb] in H.
    destruct (existsb (fun z => Z.of_nat (length (s_members s)) <=? z)%Z ix) eqn:H2; [discriminate|].
    clear H. induction ix as [|z ix IH]; [exists []; constructor|].
    cbn [existsb] in H1, H2. apply orb_false_iff in H1, H2. destruct H1 as [H1 H1'], H2 as [H2 H2'].
    destruct (IH H1' H2') as [ls Hls]. apply Z.ltb_ge in H1. apply Z.leb_gt in H2.
    destruct (nth_error (s_members s) (Z.to_nat z)) as [l|] eqn:Hl.
    - exists (l :: ls). constructor; [split; assumption|exact Hls].
    - apply nth_error_None in Hl. lia.
  Qed.

  Lemma selected_in : forall ms ix ls, selected ms ix ls -> forall l, In l ls -> In l ms.
  Proof.
    intros ms ix ls H. induction H as [|z l' ix ls [_ Hz] H IH]; intros l Hl; [destruct Hl|].
    destruct Hl as [<-|Hl]; [eapply nth_error_In; exact Hz|apply IH, Hl].
  Qed.

  Lemma on_km_read : forall {A} (w : World) l (f : km E V U -> A) s,
    nth_error (w_objs w) l = Some (OKM s) -> on_km l (fun t => (t, Ok (f t))) w = (w, Ok (f s)).
  Proof.
    intros A w l f s Hl. unfold on_km. rewrite Hl, (list_upd_same _ _ _ Hl). destruct w; reflexivity.
  Qed.

End Loops.

(** C39. Whatever the program does - constructing kernel matrices and sets, append, extend, take,
    attach_to, attributes, any method of any kernel matrix, failing or not - every member of every
    set has the num_samples of the set, as long as no operation changes the num_samples of a
    member of a set without being an attach_to of that set. *)
Lemma pf_C39_members_size_compatible :
  forall {E V U} (N : numops V) (C : cmpops V) (numeric : list E -> bool) (ops : list (wop E V U)),
    considerate N C numeric ops w_empty -> consistent (wrun N C numeric ops w_empty).
Proof.
  intros E V U N C numeric ops H. apply good_consistent, good_run; [apply good_empty|exact H].
Qed.

(** C39, for programs that do not call attach_to of a kernel matrix directly and attach a set only
    when it already has a num_samples. *)
Lemma pf_C39_same_size_samples :
  forall {E V U} (N : numops V) (C : cmpops V) (numeric : list E -> bool) (ops : list (wop E V U)),
    sized_attach N C numeric ops w_empty -> consistent (wrun N C numeric ops w_empty).
Proof.
  intros E V U N C numeric ops H. apply good_consistent, good_run; [apply good_empty|].
  apply sized_considerate; [apply good_empty|exact H].
Qed.

(*BEGIN PROP*)
(** Toy instance for the examples: exact comparison of integers. *)
Definition toyC : cmpops (option Z) :=
  mkCmp (fun a b => match a, b with Some x, Some y => Z.eqb x y | _, _ => false end) (fun _ => true).
Definition anynum (l : list (option Z)) : bool := true.
Definition wtoy (ops : list (wop (option Z) (option Z) Z)) : world (option Z) (option Z) Z :=
  wrun toyN toyC anynum ops w_empty.
Definition sym2 : ndarray (option Z) := mkNd [2; 2] [Some 1; Some 2; Some 2; Some 5]%Z.

(** Two kernel matrices attached to three points in a set with num_samples = 3; a precomputed
    2 x 2 matrix is refused; then the set is attached to another sample of three points. *)
Definition toy_program : list (wop (option Z) (option Z) Z) :=
  [WNewKM dot false; WNewKM dot true; WObj 0 OpFull; WSetNew KLNone (Some 3);
   WAppend 0 (AArray (Ok sym2)); WAttach 0 toyX None; WSetNew (KLOne 0) None;
   WTake 1 [0; 0]%Z; WExtend 1 (Some 2)].

Example C39_example :
  sized_attach toyN toyC anynum toy_program w_empty /\
  set_is (wtoy toy_program) 1 NSNone [0; 0; 0] /\ set_is (wtoy toy_program) 2 NSNone [0; 0] /\
  set_is (wtoy toy_program) 0 (NSOne 3) [].
Proof.
  split; [|repeat split; eexists; eexists; vm_compute; reflexivity].
  cbn [toy_program sized_attach]. repeat split. intros ms (b & x & H). vm_compute in H. discriminate.
Qed.
(*END PROP*)

(** Without the proviso C39 is false, with set operations alone: take shares the kernel matrices,
    so attaching the subset re-attaches members of the original set. *)
Lemma pf_C39_shared_members_refuted :
  exists ops : list (wop (option Z) (option Z) Z),
    (forall l o, ~ In (WObj l o) ops) /\ ~ consistent (wtoy ops).
Proof.
  exists [WNewKM dot false; WNewKM dot false; WSetNew (KLIter [ARef 0; ARef 1]) None;
          WTake 0 [1]%Z; WAttach 1 toyX None].
  split.
  - intros l o H. repeat (destruct H as [H|H]; [discriminate H|]). destruct H.
  - intros H. assert (Hn : has_num (wtoy [WNewKM dot false; WNewKM dot false;
      WSetNew (KLIter [ARef 0; ARef 1]) None; WTake 0 [1]%Z; WAttach 1 toyX None]) 1 NSNone).
    { apply (H 0 NSNone [0; 1]); [|right; left; reflexivity].
      exists true, None. vm_compute. reflexivity. }
    destruct Hn as (o & Ho & Hn). vm_compute in Ho. inversion Ho; subst o. vm_compute in Hn. discriminate.
Qed.

(** C40, append of a kernel matrix: accepted exactly if the set is uninitialised or has the same
    num_samples; it is then the last member and nothing else changes. *)
Lemma pf_C40_append :
  forall {E V U} (N : numops V) (C : cmpops V) (numeric : list E -> bool)
         (w : world E V U) k l n ms m,
    set_is w k n ms -> has_num w l m -> uninitialised w k \/ n = m ->
    exists w', wstep N C numeric (WAppend k (ARef l)) w = (w', Ok WUnit) /\
      set_is w' k m (ms ++ [l]) /\ w_objs w' = w_objs w /\ other_sets_kept k w w'.
Proof.
  intros E V U N C numeric w k l n ms m Hk (o & Ho & Hm) Hc.
  destruct (set_is_eq w k n ms Hk) as (s & Hs & Hn & Hms).
  cbn [wstep]. unfold wfmap, bind. rewrite append_ref, Ho, Hs.
  assert (Hj : joins s o = true).
  { unfold joins. destruct Hc as [(ms' & x & Hu)|He].
    - rewrite Hs in Hu. inversion Hu; subst s. reflexivity.
    - apply orb_true_iff. right. apply numsamp_eqb_eq. congruence. }
  rewrite Hj. eexists. split; [reflexivity|]. split; [|split; [reflexivity|]].
  - exists (s_init s || numsamp_eqb (s_num s) NSNone), (s_sample s). cbn [set_sets w_sets].
    rewrite (nth_error_upd_same _ _ _ _ Hs). unfold joined. rewrite Hms, Hm. reflexivity.
  - intros j t Hj' Ht. cbn [set_sets w_sets]. rewrite nth_error_upd_other by exact Hj'. exact Ht.
Qed.

(** C40, append of a kernel matrix of another size: KMSetAdditionError, nothing changes. *)
Lemma pf_C40_append_mismatch :
  forall {E V U} (N : numops V) (C : cmpops V) (numeric : list E -> bool)
         (w : world E V U) k l n ms m,
    set_is w k n ms -> has_num w l m -> ~ uninitialised w k -> n <> m ->
    wstep N C numeric (WAppend k (ARef l)) w = (w, Raise KMSetAdditionError).
Proof.
  intros E V U N C numeric w k l n ms m Hk (o & Ho & Hm) Hu Hne.
  destruct (set_is_eq w k n ms Hk) as (s & Hs & Hn & Hms).
  cbn [wstep]. unfold wfmap, bind. rewrite append_ref, Ho, Hs.
  assert (Hj : joins s o = false).
  { unfold joins. apply orb_false_iff. split.
    - destruct (s_init s) eqn:Hi; [reflexivity|]. cbn [negb andb].
      destruct (numsamp_eqb (s_num s) NSNone) eqn:He; [|reflexivity]. apply numsamp_eqb_eq in He.
      exfalso. apply Hu. exists (s_members s), (s_sample s). rewrite Hs. destruct s. cbn in *. congruence.
    - apply numsamp_eqb_neq. congruence. }
  rewrite Hj. reflexivity.
Qed.

(** C40, append of an array accepted by KernelMatrixPrecomputed: a new kernel matrix holding it is
    the last member. *)
Lemma pf_C40_append_array :
  forall {E V U} (N : numops V) (C : cmpops V) (numeric : list E -> bool)
         (w : world E V U) k a A n ms,
    set_is w k n ms -> precomputed_new C (v_nan N) a = Ok A ->
    uninitialised w k \/ n = NSOne (precomputed_size A) ->
    exists w' l, wstep N C numeric (WAppend k (AArray (Ok a))) w = (w', Ok WUnit) /\
      nth_error (w_objs w) l = None /\ nth_error (w_objs w') l = Some (OPre A) /\
      set_is w' k (NSOne (precomputed_size A)) (ms ++ [l]) /\
      objects_kept w w' /\ other_sets_kept k w w'.
Proof.
  intros E V U N C numeric w k a A n ms Hk HA Hc.
  set (w1 := set_objs (w_objs w ++ [OPre A]) w).
  assert (Hl : nth_error (w_objs w1) (length (w_objs w)) = Some (OPre A)).
  { cbn [w1 set_objs w_objs]. rewrite nth_error_snoc, Nat.eqb_refl. reflexivity. }
  destruct (pf_C40_append N C numeric w1 k (length (w_objs w)) n ms (NSOne (precomputed_size A)))
    as (w' & Hstep & Hset & Hobj & Hother).
  - exact Hk.
  - exists (OPre A). split; [exact Hl|reflexivity].
  - destruct Hc as [Hc|Hc]; [left|right]; exact Hc.
  - exists w', (length (w_objs w)). split; [|split; [|split; [|split; [|split]]]].
    + cbn [wstep] in *. unfold wfmap, bind in *. rewrite append_array. cbn [rbind]. rewrite HA. exact Hstep.
    + apply nth_error_None. lia.
    + rewrite Hobj. exact Hl.
    + exact Hset.
    + intros l o Ho. rewrite Hobj. cbn [w1 set_objs w_objs]. rewrite nth_error_app1; [exact Ho|].
      apply nth_error_Some. congruence.
    + intros j s Hj Hs. apply Hother; [exact Hj|exact Hs].
Qed.

(** C40, append never changes the set when it raises, whatever the argument and the set. *)
Lemma pf_C40_append_raises :
  forall {E V U} (N : numops V) (C : cmpops V) (numeric : list E -> bool)
         (w w' : world E V U) k a e,
    wstep N C numeric (WAppend k a) w = (w', Raise e) -> w_sets w' = w_sets w /\ objects_kept w w'.
Proof.
  intros E V U N C numeric w w' k a e H.
  assert (Hr : forall l (w0 : world E V U) r, wfmap (fun _ => @WUnit E V U) (append N C k (ARef l)) w0 = (w', r) ->
    r = Raise e -> w' = w0).
  { intros l w0 r H0 Hr. unfold wfmap, bind in H0. rewrite append_ref in H0.
    destruct (nth_error (w_objs w0) l); [|congruence].
    destruct (nth_error (w_sets w0) k); [|congruence].
    destruct (joins k1 k0); cbn [ret] in H0; [inversion H0; subst; discriminate|congruence]. }
  cbn [wstep] in H. destruct a as [l| |r].
  - rewrite (Hr l w _ H eq_refl). split; [reflexivity|]. intros j o Hj. exact Hj.
  - unfold wfmap, bind in H. rewrite append_func in H. inversion H; subst w'. split; [reflexivity|].
    intros j o Hj. exact Hj.
  - unfold wfmap, bind in H. rewrite append_array in H.
    destruct (rbind r (precomputed_new C (v_nan N))) as [A|e'].
    + assert (Hw := Hr (length (w_objs w)) (set_objs (w_objs w ++ [OPre A]) w) _ H eq_refl). subst w'.
      split; [reflexivity|]. intros j o Hj. cbn [set_objs w_objs].
      rewrite nth_error_app1; [exact Hj|]. apply nth_error_Some. congruence.
    + inversion H; subst w'. split; [reflexivity|]. intros j o Hj. exact Hj.
Qed.

(** C40, extend by a set whose members have its num_samples: all its members are appended in
    order, also when a set is extended by itself. *)
Lemma pf_C40_extend :
  forall {E V U} (N : numops V) (C : cmpops V) (numeric : list E -> bool)
         (w : world E V U) k k' n ms ms',
    set_is w k n ms -> set_is w k' n ms' -> consistent_set w k' ->
    exists w', wstep N C numeric (WExtend k (Some k')) w = (w', Ok WUnit) /\
      set_is w' k n (ms ++ ms') /\ w_objs w' = w_objs w /\ other_sets_kept k w w'.
Proof.
  intros E V U N C numeric w k k' n ms ms' Hk Hk' Hc.
  destruct (set_is_eq w k n ms Hk) as (s & Hs & Hn & Hms).
  destruct (set_is_eq w k' n ms' Hk') as (s' & Hs' & Hn' & Hms').
  destruct (append_all_same N C ms' w k s Hs) as [b Hb].
  { intros l Hl. rewrite Hn. apply (Hc n ms' Hk' l Hl). }
  eexists. split; [|split; [|split]].
  - cbn [wstep]. unfold wfmap, extend, bind, get_set. rewrite Hs, Hs'.
    replace (numsamp_eqb (s_num s') (s_num s)) with true
      by (symmetry; apply numsamp_eqb_eq; congruence).
    cbn [negb]. rewrite Hms', Hb. reflexivity.
  - exists b, (s_sample s). cbn [set_sets w_sets]. rewrite (nth_error_upd_same _ _ _ _ Hs).
    rewrite Hn, Hms. reflexivity.
  - reflexivity.
  - intros j t Hj Ht. cbn [set_sets w_sets]. rewrite nth_error_upd_other by exact Hj. exact Ht.
Qed.

(** C40, extend by a set with another num_samples (also: an uninitialised empty set by a set with a
    num_samples) or by something that is not a set: KMSetAdditionError, nothing changes. *)
Lemma pf_C40_extend_mismatch :
  forall {E V U} (N : numops V) (C : cmpops V) (numeric : list E -> bool) (w : world E V U) k,
    (forall k' n n' ms ms', set_is w k n ms -> set_is w k' n' ms' -> n <> n' ->
       wstep N C numeric (WExtend k (Some k')) w = (w, Raise KMSetAdditionError)) /\
    wstep N C numeric (WExtend k None) w = (w, Raise KMSetAdditionError).
Proof.
  intros E V U N C numeric w k. split; [|reflexivity]. intros k' n n' ms ms' Hk Hk' Hne.
  destruct (set_is_eq w k n ms Hk) as (s & Hs & Hn & Hms).
  destruct (set_is_eq w k' n' ms' Hk') as (s' & Hs' & Hn' & Hms').
  cbn [wstep]. unfold wfmap, extend, bind, get_set. rewrite Hs, Hs'.
  replace (numsamp_eqb (s_num s') (s_num s)) with false
    by (symmetry; apply numsamp_eqb_neq; congruence).
  reflexivity.
Qed.

(** C40, after any program that does not re-attach members behind the back of a set, an extend
    that raises changes nothing. *)
Lemma pf_C40_extend_raises :
  forall {E V U} (N : numops V) (C : cmpops V) (numeric : list E -> bool) (ops : list (wop E V U))
         k other w' e,
    considerate N C numeric ops w_empty ->
    wstep N C numeric (WExtend k other) (wrun N C numeric ops w_empty) = (w', Raise e) ->
    w' = wrun N C numeric ops w_empty.
Proof.
  intros E V U N C numeric ops k other w' e Hc H.
  assert (Hcons := pf_C39_members_size_compatible N C numeric ops Hc).
  set (w := wrun N C numeric ops w_empty) in *.
  destruct other as [k'|]; [|inversion H; reflexivity].
  destruct (nth_error (w_sets w) k) as [s|] eqn:Hs.
  - destruct (nth_error (w_sets w) k') as [s'|] eqn:Hs'.
    + destruct (numsamp_dec (s_num s) (s_num s')) as [He|He].
      * destruct (pf_C40_extend N C numeric w k k' (s_num s) (s_members s) (s_members s'))
          as (w2 & H2 & _).
        -- apply eq_set_is, Hs.
        -- rewrite He. apply eq_set_is, Hs'.
        -- apply Hcons.
        -- rewrite H2 in H. discriminate.
      * destruct (pf_C40_extend_mismatch N C numeric w k) as [Hm _].
        rewrite (Hm k' _ _ _ _ (eq_set_is w k s Hs) (eq_set_is w k' s' Hs') He) in H.
        inversion H. reflexivity.
    + cbn [wstep] in H. unfold wfmap, extend, bind, get_set in H. rewrite Hs, Hs' in H.
      inversion H. reflexivity.
  - cbn [wstep] in H. unfold wfmap, extend, bind, get_set in H. rewrite Hs in H.
    inversion H. reflexivity.
Qed.

(*BEGIN PROP*)
(** Two sets of two kernel matrices on three points; a precomputed 2 x 2 matrix is refused by
    both append and extend; extending by the other set and by itself. *)
Definition toy_sets : list (wop (option Z) (option Z) Z) :=
  [WNewKM dot false; WNewKM dot true; WObj 0 (OpAttach toyX None); WObj 1 (OpAttach toyX None);
   WSetNew (KLIter [ARef 0; ARef 1]) None; WSetNew (KLOne 1) None;
   WSetNew (KLIter [AArray (Ok sym2)]) None].

Example C40_example :
  let w := wtoy toy_sets in
  considerate toyN toyC anynum toy_sets w_empty /\
  set_is w 0 (NSOne 3) [0; 1] /\ set_is w 1 (NSOne 3) [1] /\ set_is w 2 (NSOne 2) [2] /\
  has_num w 2 (NSOne 2) /\ ~ uninitialised w 0 /\
  set_is (wrun toyN toyC anynum [WExtend 0 (Some 1); WExtend 0 (Some 2); WExtend 0 (Some 0)] w)
    0 (NSOne 3) [0; 1; 1; 0; 1; 1].
Proof.
  cbv zeta. split; [|repeat split].
  - cbn [toy_sets considerate]. repeat split; try exact I;
      try (apply nums_kept_considerate, nums_kept_step; exact I);
      intros k (_ & n & ms & l & m & (b & x & Hset) & _); destruct k; vm_compute in Hset; discriminate.
  - eexists; eexists; vm_compute; reflexivity.
  - eexists; eexists; vm_compute; reflexivity.
  - eexists; eexists; vm_compute; reflexivity.
  - eexists; split; vm_compute; reflexivity.
  - intros (ms & x & H). vm_compute in H. discriminate.
  - eexists; eexists; vm_compute; reflexivity.
Qed.
(*END PROP*)

(** C40 is false for a set with members re-attached behind its back: extend adds some members and
    then raises. *)
Lemma pf_C40_extend_refuted :
  exists (ops : list (wop (option Z) (option Z) Z)) w',
    wstep toyN toyC anynum (WExtend 1 (Some 0)) (wtoy ops) = (w', Raise KMSetAdditionError) /\
    set_is (wtoy ops) 1 (NSOne 3) [2] /\ set_is w' 1 (NSOne 3) [2; 0].
Proof.
  exists [WNewKM dot false; WNewKM dot true; WNewKM dot false; WObj 0 (OpAttach toyX None);
          WObj 1 (OpAttach toyX None); WObj 2 (OpAttach toyX None);
          WSetNew (KLIter [ARef 0; ARef 1]) None; WSetNew (KLOne 2) None; WObj 1 (OpAttach toyX2 None)].
  eexists. split; [vm_compute; reflexivity|].
  split; eexists; eexists; vm_compute; reflexivity.
Qed.

(** C41, indexing: kset[i] is the i-th member for 0 <= i < size, IndexError for every other integer
    (also negative), ValueError for anything that is not an integer; nothing changes. *)
Lemma pf_C41_getitem :
  forall {E V U} (N : numops V) (C : cmpops V) (numeric : list E -> bool)
         (w : world E V U) k n ms,
    set_is w k n ms ->
    (forall i l, nth_error ms i = Some l ->
       wstep N C numeric (WGetItem k (Some (Z.of_nat i))) w = (w, Ok (WRef l))) /\
    (forall z, (z < 0 \/ Z.of_nat (length ms) <= z)%Z ->
       wstep N C numeric (WGetItem k (Some z)) w = (w, Raise IndexError)) /\
    wstep N C numeric (WGetItem k None) w = (w, Raise ValueError).
Proof.
  intros E V U N C numeric w k n ms Hk.
  destruct (set_is_eq w k n ms Hk) as (s & Hs & Hn & Hms).
  cbn [wstep]. unfold wfmap, set_getitem, bind, get_set. rewrite Hs, Hms. split; [|split].
  - intros i l Hi. assert (i < length ms) by (apply nth_error_Some; congruence).
    replace (Z.of_nat i <? 0)%Z with false by (symmetry; apply Z.ltb_ge; lia).
    replace (Z.of_nat (length ms) <=? Z.of_nat i)%Z with false by (symmetry; apply Z.leb_gt; lia).
    cbn [orb]. rewrite Nat2Z.id, Hi. reflexivity.
  - intros z Hz. replace ((z <? 0) || (Z.of_nat (length ms) <=? z))%Z with true; [reflexivity|].
    symmetry. apply orb_true_iff. destruct Hz; [left; apply Z.ltb_lt|right; apply Z.leb_le]; lia.
  - reflexivity.
Qed.

(** C41, take on a set whose members have its num_samples: a new set with exactly the selected
    members in the requested order, with the num_samples of the set if any member is selected; the
    existing sets and kernel matrices are unchanged. *)
Lemma pf_C41_take :
  forall {E V U} (N : numops V) (C : cmpops V) (numeric : list E -> bool)
         (w : world E V U) k n ms ix ls,
    set_is w k n ms -> consistent_set w k -> selected ms ix ls ->
    exists w' k', wstep N C numeric (WTake k ix) w = (w', Ok (WSetRef k')) /\
      nth_error (w_sets w) k' = None /\
      set_is w' k' (match ls with [] => NSNone | _ => n end) ls /\
      w_objs w' = w_objs w /\ sets_kept w w'.
Proof.
  intros E V U N C numeric w k n ms ix ls Hk Hc Hsel.
  destruct (set_is_eq w k n ms Hk) as (s & Hs & Hn & Hms). subst ms.
  destruct (selected_check s ix ls Hsel) as [Hci Hf2].
  set (s0 := mkSet NSNone false [] None : kset E).
  set (w0 := set_sets (w_sets w ++ [s0]) w). set (k' := length (w_sets w)).
  assert (Hk0 : nth_error (w_sets w0) k' = Some s0).
  { cbn [w0 set_sets w_sets]. rewrite nth_error_snoc. unfold k'. rewrite Nat.eqb_refl. reflexivity. }
  assert (Hkept : forall s', sets_kept w (set_sets (list_upd (w_sets w0) k' s') w0)).
  { intros s' j t Hj. assert (j < length (w_sets w)) by (apply nth_error_Some; congruence).
    cbn [set_sets w_sets]. rewrite nth_error_upd_other by (unfold k'; lia).
    cbn [w0 set_sets w_sets]. rewrite nth_error_app1 by assumption. exact Hj. }
  assert (Hloop : exists b, for_each ls (fun l => append N C k' (ARef l)) w0
    = (set_sets (list_upd (w_sets w0) k' (mkSet (match ls with [] => NSNone | _ => n end) b ls None)) w0, Ok tt)).
  { destruct ls as [|l ls].
    - exists false. cbn [for_each].
      assert (Hu : list_upd (w_sets w0) k' (mkSet NSNone false [] None) = w_sets w0)
        by exact (list_upd_same _ _ _ Hk0).
      rewrite Hu. reflexivity.
    - assert (Hin : forall l', In l' (l :: ls) -> has_num w l' n).
      { intros l' Hl'. apply (Hc n _ Hk). eapply selected_in; eassumption. }
      destruct (Hin l (or_introl eq_refl)) as (o & Ho & Hon).
      cbn [for_each]. unfold bind at 1. rewrite append_ref. cbn [w0 set_sets w_objs].
      rewrite Ho. fold w0. rewrite Hk0. cbn [joins s0 s_init s_num negb andb orb numsamp_eqb].
      set (w1 := set_sets _ w0).
      destruct (append_all_same N C ls w1 k' (joined s0 o l)) as [b Hb].
      + cbn [w1 set_sets w_sets]. eapply nth_error_upd_same. exact Hk0.
      + intros l' Hl'. cbn [joined s_num]. rewrite Hon. apply Hin. right. exact Hl'.
      + exists b. rewrite Hb. cbn [w1 set_sets w_sets w_objs joined s_num s_members s_sample s0 app].
        unfold set_sets. cbn [w_objs w_sets]. rewrite list_upd_upd, Hon. reflexivity. }
  destruct Hloop as [b Hloop]. eexists. exists k'.
  split; [|split; [|split; [|split]]].
  - cbn [wstep]. unfold wfmap, take, bind, get_set, lift. rewrite Hs, Hci.
    unfold set_new, bind, new_set, ret. fold s0. fold w0. cbv beta iota.
    rewrite (for_each_selected _ _ _ (fun l => append N C (length (w_sets w)) (ARef l)) Hf2).
    fold k'. rewrite Hloop. reflexivity.
  - apply nth_error_None. unfold k'. lia.
  - exists b, None. cbn [set_sets w_sets]. rewrite (nth_error_upd_same _ _ _ _ Hk0). reflexivity.
  - reflexivity.
  - apply Hkept.
Qed.

(** C41, take whatever the state of the set: if it succeeds the result is a new set with exactly
    the selected members in the requested order. *)
Lemma pf_C41_take_selects :
  forall {E V U} (N : numops V) (C : cmpops V) (numeric : list E -> bool)
         (w w' : world E V U) k n ms ix k',
    set_is w k n ms -> wstep N C numeric (WTake k ix) w = (w', Ok (WSetRef k')) ->
    exists ls n', selected ms ix ls /\ nth_error (w_sets w) k' = None /\ set_is w' k' n' ls /\
      w_objs w' = w_objs w /\ sets_kept w w'.
Proof.
  intros E V U N C numeric w w' k n ms ix k' Hk H.
  destruct (set_is_eq w k n ms Hk) as (s & Hs & Hn & Hms). subst ms.
  cbn [wstep] in H. unfold wfmap, take, bind, get_set, lift in H. rewrite Hs in H.
  destruct (check_indices s ix) as [ns|e] eqn:Hci; [|discriminate].
  destruct (check_selected s ix ns Hci) as [ls Hls]. 
  destruct (selected_check s ix ls Hls) as [Hci' Hf2]. rewrite Hci in Hci'. inversion Hci'; subst ns.
  unfold set_new, bind, new_set, ret in H. cbv beta iota in H.
  rewrite (for_each_selected _ _ _ (fun l => append N C (length (w_sets w)) (ARef l)) Hf2) in H.
  set (s0 := mkSet NSNone false [] None : kset E) in *.
  set (w0 := set_sets (w_sets w ++ [s0]) w) in *.
  assert (Hk0 : nth_error (w_sets w0) (length (w_sets w)) = Some s0).
  { cbn [w0 set_sets w_sets]. rewrite nth_error_snoc, Nat.eqb_refl. reflexivity. }
  destruct (for_each ls (fun l => append N C (length (w_sets w)) (ARef l)) w0) as [w1 [u|e]] eqn:Hloop;
    [|discriminate].
  destruct u. destruct (append_all_inv N C ls w0 w1 _ s0 Hk0 Hloop) as (s' & Hw1 & Hs').
  inversion H; subst w' k'. exists ls, (s_num s').
  split; [exact Hls|]. split; [apply nth_error_None; lia|]. split; [|split].
  - rewrite Hw1. exists (s_init s'), (s_sample s'). cbn [set_sets w_sets].
    rewrite (nth_error_upd_same _ _ _ _ Hk0). destruct s'. cbn in Hs'. subst. reflexivity.
  - rewrite Hw1. reflexivity.
  - rewrite Hw1. intros j t Hj. assert (j < length (w_sets w)) by (apply nth_error_Some; congruence).
    cbn [set_sets w_sets]. rewrite nth_error_upd_other by lia.
    cbn [w0 set_sets w_sets]. rewrite nth_error_app1 by assumption. exact Hj.
Qed.

(** C41, an index out of range: take and get_kernel_funcs raise IndexError and change nothing. *)
Lemma pf_C41_take_out_of_range :
  forall {E V U} (N : numops V) (C : cmpops V) (numeric : list E -> bool)
         (w : world E V U) k n ms ix z,
    set_is w k n ms -> In z ix -> (z < 0 \/ Z.of_nat (length ms) <= z)%Z ->
    wstep N C numeric (WTake k ix) w = (w, Raise IndexError) /\
    wstep N C numeric (WKernels k ix) w = (w, Raise IndexError).
Proof.
  intros E V U N C numeric w k n ms ix z Hk Hz Hr.
  destruct (set_is_eq w k n ms Hk) as (s & Hs & Hn & Hms). subst ms.
  assert (Hci : check_indices s ix = Raise IndexError).
  { unfold check_indices. destruct Hr as [Hr|Hr].
    - replace (existsb (fun z => z <? 0)%Z ix) with true; [reflexivity|].
      symmetry. apply existsb_exists. exists z. split; [exact Hz|]. apply Z.ltb_lt. lia.
    - replace (existsb (fun z => Z.of_nat (length (s_members s)) <=? z)%Z ix) with true.
      + rewrite orb_true_r. reflexivity.
      + symmetry. apply existsb_exists. exists z. split; [exact Hz|]. apply Z.leb_le. lia. }
  split; cbn [wstep]; unfold wfmap, take, get_kernel_funcs, bind, get_set, lift; rewrite Hs, Hci;
    reflexivity.
Qed.

(** C41, iteration yields the members in order, len their number, get_kernel_funcs the kernels of
    the selected members in the requested order; nothing changes. *)
Lemma pf_C41_iter :
  forall {E V U} (N : numops V) (C : cmpops V) (numeric : list E -> bool)
         (w : world E V U) k n ms,
    set_is w k n ms ->
    wstep N C numeric (WIter k) w = (w, Ok (WRefs ms)) /\
    wstep N C numeric (WLen k) w = (w, Ok (WInt (length ms))) /\
    wstep N C numeric (WNum k) w = (w, Ok (WNumS n)) /\
    (forall ix ls ks, selected ms ix ls ->
       Forall2 (fun l K => exists s, nth_error (w_objs w) l = Some (OKM s) /\ k_kernel s = K) ls ks ->
       wstep N C numeric (WKernels k ix) w = (w, Ok (WKers ks))).
Proof.
  intros E V U N C numeric w k n ms Hk.
  destruct (set_is_eq w k n ms Hk) as (s & Hs & Hn & Hms). subst ms n.
  cbn [wstep]. unfold wfmap, set_iter, get_kernel_funcs, bind, get_set, lift. rewrite Hs.
  split; [reflexivity|]. split; [reflexivity|]. split; [reflexivity|].
  intros ix ls ks Hsel Hks. destruct (selected_check s ix ls Hsel) as [Hci Hf2]. rewrite Hci.
  match goal with |- (let (_, _) := ?t in _) = _ => assert (Ht : t = (w, Ok ks)) end.
  { clear Hci Hsel. revert ks Hks. induction Hf2 as [|i l ns ls' Hi Hf2 IH]; intros ks Hks; inversion Hks; subst.
    - reflexivity.
    - destruct H1 as (t & Ht & HK). cbn [map_each]. unfold bind. rewrite Hi.
      assert (Hr : on_km l (fun t0 => let (s', r) := get t0 in
                     match r with Ok a => ret (k_kernel a) s' | Raise e => (s', Raise e) end) w
                   = (w, Ok (k_kernel t))) by exact (on_km_read w l (fun t0 => k_kernel t0) t Ht).
      rewrite Hr, HK. specialize (IH _ H3).
      rewrite IH. reflexivity. }
  rewrite Ht. reflexivity.
Qed.

(*BEGIN PROP*)
Example C41_example :
  let w := wtoy toy_sets in
  consistent_set w 0 /\ selected [0; 1] [1; 0; 1]%Z [1; 0; 1] /\
  wstep toyN toyC anynum (WGetItem 0 (Some (-1))%Z) w = (w, Raise IndexError) /\
  set_is (fst (wstep toyN toyC anynum (WTake 0 [1; 0; 1]%Z) w)) 3 (NSOne 3) [1; 0; 1].
Proof.
  cbv zeta. split; [|split; [|split]].
  - intros n ms (b & x & H) l Hl. vm_compute in H. inversion H; subst.
    destruct Hl as [<-|[<-|[]]]; eexists; split; vm_compute; reflexivity.
  - repeat constructor; try lia.
  - vm_compute. reflexivity.
  - eexists; eexists; vm_compute; reflexivity.
Qed.
(*END PROP*)

(** C42, for everything but attach_to and set_attr: constructing kernel matrices or sets, taking
    subsets, indexing, iterating, reading attributes, and append/extend of another set never change
    the set [k] or any kernel matrix. *)
Lemma pf_C42_partial :
  forall {E V U} (N : numops V) (C : cmpops V) (numeric : list E -> bool)
         (w : world E V U) o k s,
    ~ may_change o k -> nth_error (w_sets w) k = Some s ->
    nth_error (w_sets (fst (wstep N C numeric o w))) k = Some s /\
    objects_kept w (fst (wstep N C numeric o w)).
Proof.
  intros E V U N C numeric w o k s Ho Hs.
  set (I := fun w' : world E V U => nth_error (w_sets w') k = Some s /\ objects_kept w w').
  assert (HI : I w) by (split; [exact Hs|intros l t Hl; exact Hl]).
  assert (Hobj : forall w' o', I w' -> I (set_objs (w_objs w' ++ [o']) w')).
  { intros w' o' [H1 H2]. split; [exact H1|]. intros l t Hl. cbn [set_objs w_objs].
    specialize (H2 l t Hl). rewrite nth_error_app1; [exact H2|]. apply nth_error_Some. congruence. }
  assert (Happ : forall j a w', j <> k -> I w' -> I (fst (append N C j a w'))).
  { assert (Hr : forall j l w', j <> k -> I w' -> I (fst (append N C j (ARef l) w'))).
    { intros j l w' Hj [H1 H2]. rewrite append_ref. destruct (nth_error (w_objs w') l); [|split; assumption].
      destruct (nth_error (w_sets w') j); [|split; assumption].
      destruct (joins k1 k0); [|split; assumption]. split.
      - cbn [fst set_sets w_sets]. rewrite nth_error_upd_other; [exact H1|congruence].
      - exact H2. }
    intros j [l| |r] w' Hj HI'; [apply Hr; assumption|exact HI'|]. rewrite append_array.
    destruct (rbind r (precomputed_new C (v_nan N))); [|exact HI']. apply Hr; [exact Hj|].
    apply Hobj, HI'. }
  assert (Hnew : forall kl num, I (fst (set_new N C kl num w))).
  { intros kl num. unfold set_new, bind, new_set.
    set (s0 := match num with Some n => _ | None => _ end).
    set (w0 := set_sets (w_sets w ++ [s0]) w).
    assert (Hlt : k < length (w_sets w)) by (apply nth_error_Some; congruence).
    assert (H0 : I w0).
    { split; [|intros l t Hl; exact Hl]. cbn [w0 set_sets w_sets].
      rewrite nth_error_app1 by exact Hlt. exact Hs. }
    destruct kl; cbn beta iota; [exact H0| | | |exact H0].
    - match goal with |- I (fst (let (_, _) := ?t in _)) =>
        assert (H1 : I (fst t)) by (apply (for_each_pres I); [|exact H0]; intros; apply Happ; [lia|assumption]);
        destruct t as [w' [u|e]]; exact H1 end.
    - unfold lift. destruct (subarrays a) as [l|e]; [|exact H0].
      match goal with |- I (fst (let (_, _) := ?t in _)) =>
        assert (H1 : I (fst t)) by (apply (for_each_pres I); [|exact H0]; intros; apply Happ; [lia|assumption]);
        destruct t as [w' [u|e]]; exact H1 end.
    - match goal with |- I (fst (let (_, _) := ?t in _)) =>
        assert (H1 : I (fst t)) by (apply Happ; [lia|assumption]);
        destruct t as [w' [u|e]]; exact H1 end. }
  assert (Hread : forall {A} l (f : km E V U -> A) w', I w' -> I (fst (on_km l (fun t => (t, Ok (f t))) w'))).
  { intros A l f w' HI'. destruct (nth_error (w_objs w') l) as [[t|B]|] eqn:Hl.
    - rewrite (on_km_read w' l f t Hl). exact HI'.
    - unfold on_km. rewrite Hl. exact HI'.
    - unfold on_km. rewrite Hl. exact HI'. }
  change (I (fst (wstep N C numeric o w))).
  destruct o; cbn [wstep may_change] in *; rewrite fst_wfmap; try (exfalso; apply Ho; exact Logic.I).
  - apply Hobj, HI.
  - unfold bind, lift, new_obj. destruct a as [a|e]; [|exact HI].
    destruct (precomputed_new C (v_nan N) a); [|exact HI]. apply Hobj, HI.
  - apply Hnew.
  - apply Happ; [exact Ho|exact HI].
  - unfold extend. destruct other as [k'|]; [|exact HI]. unfold bind, get_set.
    destruct (nth_error (w_sets w) k0) as [t|]; [|exact HI].
    destruct (nth_error (w_sets w) k') as [t'|]; [|exact HI].
    destruct (negb (numsamp_eqb (s_num t') (s_num t))); [exact HI|].
    apply (for_each_pres I); [|exact HI]. intros; apply Happ; assumption.
  - unfold take, bind, get_set. destruct (nth_error (w_sets w) k0) as [t|]; [|exact HI].
    unfold lift. destruct (check_indices t ix) as [ns|e]; [|exact HI].
    assert (H0 := Hnew KLNone None). 
    assert (Hk' : snd (set_new N C KLNone None w) = Ok (length (w_sets w))) by reflexivity.
    destruct (set_new N C KLNone None w) as [w' [k'|e]]; [|exact H0].
    assert (Hlt : k < length (w_sets w)) by (apply nth_error_Some; congruence).
    cbn [snd] in Hk'. inversion Hk'; subst k'.
    match goal with |- I (fst (let (_, _) := ?t in _)) => assert (H1 : I (fst t)) end.
    { apply (for_each_pres I); [|exact H0]. intros i w'' Hw'.
      destruct (nth_error (s_members t) i); [|exact Hw']. apply Happ; [lia|exact Hw']. }
    destruct (for_each _ _ w') as [w'' [u|e]]; exact H1.
  - unfold set_getitem, bind, get_set. destruct (nth_error (w_sets w) k0) as [t|]; [|exact HI].
    destruct ix; [|exact HI].
    destruct ((z <? 0)%Z || (Z.of_nat (length (s_members t)) <=? z)%Z); [exact HI|].
    destruct (nth_error (s_members t) (Z.to_nat z)); exact HI.
  - unfold get_kernel_funcs, bind, get_set, lift. destruct (nth_error (w_sets w) k0) as [t|]; [|exact HI].
    destruct (check_indices t ix); [|exact HI].
    apply (map_each_pres I); [|exact HI]. intros i w' Hw'.
    destruct (nth_error (s_members t) i); [|exact Hw']. apply (Hread _ n (fun t0 => k_kernel t0) w' Hw').
  - unfold set_iter, bind, get_set. destruct (nth_error (w_sets w) k0); exact HI.
  - unfold set_get_attr, bind, get_set. destruct (nth_error (w_sets w) k0) as [t|]; [|exact HI].
    apply (map_each_pres I); [|exact HI]. intros l w' Hw'.
    apply (Hread _ l (fun t0 => dict_get (k_attr t0) name) w' Hw').
  - unfold get_set. destruct (nth_error (w_sets w) k0); exact HI.
  - unfold get_set. destruct (nth_error (w_sets w) k0); exact HI.
Qed.

(** C42, attach_to and set_attr of a set, succeeding or not: every kernel matrix that is not a
    member of it is unchanged, and so is every other set. Together with C42_partial: operations on
    one set cannot affect another with which it shares no member. *)
Lemma pf_C42_disjoint :
  forall {E V U} (N : numops V) (C : cmpops V) (numeric : list E -> bool)
         (w : world E V U) o k n ms,
    set_is w k n ms ->
    (exists x attr, o = WAttach k x attr) \/ (exists name vals, o = WSetAttr k name vals) ->
    (forall l, ~ In l ms -> nth_error (w_objs (fst (wstep N C numeric o w))) l = nth_error (w_objs w) l) /\
    other_sets_kept k w (fst (wstep N C numeric o w)).
Proof.
  intros E V U N C numeric w o k n ms Hk Ho.
  destruct (set_is_eq w k n ms Hk) as (s & Hs & Hn & Hms). subst n ms.
  set (I := fun w' : world E V U =>
    (forall l, ~ In l (s_members s) -> nth_error (w_objs w') l = nth_error (w_objs w) l) /\
    other_sets_kept k w w').
  change (I (fst (wstep N C numeric o w))).
  assert (HI : I w) by (split; [reflexivity|intros j t Hj Ht; exact Ht]).
  assert (Hput : forall w' s', I w' -> I (set_sets (list_upd (w_sets w') k s') w')).
  { intros w' s' [H1 H2]. split; [exact H1|]. intros j t Hj Ht. cbn [set_sets w_sets].
    rewrite nth_error_upd_other by exact Hj. apply H2; assumption. }
  assert (Hon : forall (m : M (km E V U) unit) l w', In l (s_members s) -> I w' -> I (fst (on_km l m w'))).
  { intros m l w' Hl [H1 H2]. split.
    - intros l' Hl'. rewrite on_km_other by (intros ->; contradiction). apply H1, Hl'.
    - intros j t Hj Ht. rewrite on_km_sets. apply H2; assumption. }
  assert (Hfor : forall {A} (f : A -> nat) (m : A -> M (km E V U) unit) (ls : list A) w',
    (forall a, In a ls -> In (f a) (s_members s)) -> I w' ->
    I (fst (for_each ls (fun a => on_km (f a) (m a)) w'))).
  { intros A f m ls. induction ls as [|a ls IH]; intros w' Hin Hw'; [exact Hw'|].
    cbn [for_each]. unfold bind. assert (H1 := Hon (m a) (f a) w' (Hin a (or_introl eq_refl)) Hw').
    destruct (on_km (f a) (m a) w') as [w1 [u|e]]; [|exact H1].
    apply IH; [intros b Hb; apply Hin; right; exact Hb|exact H1]. }
  destruct Ho as [(x & attr & ->)|(name & vals & ->)]; cbn [wstep]; rewrite fst_wfmap.
  - unfold set_attach, bind, get_set, lift, put_set, modify. rewrite Hs.
    destruct (if _ : bool then Raise ValueError else ensure_2D_own x) as [a|e]; [|exact HI].
    destruct (negb (numsamp_eqb (s_num s) NSNone) && _); [apply Hput, HI|].
    set (w0 := set_sets _ _).
    assert (H0 : I w0) by (apply Hput, Hput, HI).
    assert (H1 := Hfor nat (fun l => l) (fun _ => attach_to x None) (s_members s) w0 (fun a Ha => Ha) H0).
    cbv beta in H1.
    destruct (for_each (s_members s) (fun l => on_km l (attach_to x None)) w0) as [w1 [u|e]]; [|exact H1].
    destruct attr as [[name v]|]; [|exact H1].
    exact (Hfor nat (fun l => l) (fun _ => set_attr name v) (s_members s) w1 (fun a Ha => Ha) H1).
  - unfold set_set_attr, bind, get_set. rewrite Hs.
    assert (Hc : forall vs : list U, I (fst (for_each (combine (s_members s) vs)
                   (fun p => on_km (fst p) (set_attr name (snd p))) w))).
    { intros vs. apply (Hfor (nat * U)%type fst (fun p => set_attr name (snd p))); [|exact HI].
      intros [l v] Hp. eapply in_combine_l. exact Hp. }
    destruct vals as [u|vs]; unfold ret, raise; cbn beta iota; [apply Hc|].
    destruct (negb (length vs =? length (s_members s))); [exact HI|apply Hc].
Qed.

(** C42 is false: attaching a subset obtained by take re-attaches the kernel matrices of the
    original set. *)
Lemma pf_C42_attach_subset_refuted :
  exists (ops : list (wop (option Z) (option Z) Z)) w' l,
    set_is (wtoy ops) 0 (NSOne 3) [0; 1] /\ In l [0; 1] /\
    wstep toyN toyC anynum (WAttach 3 toyX None) (wtoy (ops ++ [WTake 0 [1]%Z])) = (w', Ok WUnit) /\
    nth_error (w_objs w') l <> nth_error (w_objs (wtoy ops)) l.
Proof.
  exists (toy_sets ++ [WObj 1 (OpSetAttr "a" 5%Z)]). eexists. exists 1.
  split; [eexists; eexists; vm_compute; reflexivity|]. split; [right; left; reflexivity|].
  split; [vm_compute; reflexivity|]. vm_compute. discriminate.
Qed.

(** C43. If attach_to of a set succeeds, the argument is a numeric sample, every member is a
    KernelMatrix and has been attached to it, exactly as by its own attach_to (see C06), and then
    given the attribute, if any; the set has num_samples = len(x) and the same members; nothing
    else changes. *)
Lemma pf_C43_attach :
  forall {E V U} (N : numops V) (C : cmpops V) (numeric : list E -> bool)
         (w w' : world E V U) k x attr n ms,
    set_is w k n ms -> wstep N C numeric (WAttach k x attr) w = (w', Ok WUnit) ->
    exists m, numeric_sample numeric x m /\ (n = NSNone \/ n = NSOne m) /\
      set_is w' k (NSOne m) ms /\
      (forall l, In l ms -> exists s, nth_error (w_objs w) l = Some (OKM s) /\
         nth_error (w_objs w') l
         = Some (OKM (run N (OpAttach x None :: match attr with
                                                | None => []
                                                | Some (name, u) => [OpSetAttr name u]
                                                end) s))) /\
      (forall l, ~ In l ms -> nth_error (w_objs w') l = nth_error (w_objs w) l) /\
      other_sets_kept k w w'.
Proof.
  intros E V U N C numeric w w' k x attr n ms Hk H.
  destruct (pf_C42_disjoint N C numeric w (WAttach k x attr) k n ms Hk) as [Hout Hoth];
    [left; eexists; eexists; reflexivity|]. rewrite H in Hout, Hoth. cbn [fst] in Hout, Hoth.
  destruct (set_is_eq w k n ms Hk) as (s & Hs & Hn & Hms). subst n ms.
  destruct (numeric_sample_dec numeric x) as [(m & d & Hx & Hnum)|Hbad].
  2:{ cbn [wstep] in H. unfold wfmap, bind in H. rewrite (set_attach_bad numeric k x attr w s Hs Hbad) in H.
      discriminate. }
  assert (Hsz : s_num s = NSNone \/ s_num s = NSOne m).
  { cbn [wstep] in H. unfold wfmap, bind at 1 in H. rewrite (set_attach_eq numeric k x attr w s m d Hs Hx Hnum) in H.
    destruct (negb (numsamp_eqb (s_num s) NSNone) && negb (numsamp_eqb (s_num s) (NSOne m))) eqn:Hc;
      [discriminate|].
    apply andb_false_iff in Hc. destruct Hc as [Hc|Hc]; apply negb_false_iff, numsamp_eqb_eq in Hc; auto. }
  assert (Hkm : forall l, In l (s_members s) -> is_km w l).
  { cbn [wstep] in H. unfold wfmap, bind at 1 in H. rewrite (set_attach_eq numeric k x attr w s m d Hs Hx Hnum) in H.
    destruct (negb (numsamp_eqb (s_num s) NSNone) && negb (numsamp_eqb (s_num s) (NSOne m))); [discriminate|].
    set (w0 := set_sets _ w) in H. unfold bind in H.
    destruct (for_each (s_members s) (fun l => on_km l (attach_to x None)) w0) as [w1 [u|e]] eqn:Hf; [|discriminate].
    clear H. destruct u.
    change (forall l, In l (s_members s) -> is_km w0 l). clearbody w0. clear Hk Hout. revert w0 w1 Hf.
    induction (s_members s) as [|l ls IH]; intros w0 w1 Hf l' Hl'; [destruct Hl'|].
    cbn [for_each] in Hf. unfold bind in Hf.
    destruct (nth_error (w_objs w0) l) as [[t|B]|] eqn:Hl.
    - destruct Hl' as [<-|Hl']; [exists t; exact Hl|].
      assert (Ho := fun j Hj => @on_km_other E V U unit l (attach_to x None) w0 j Hj).
      destruct (on_km l (attach_to x None) w0) as [w2 [u|e]] eqn:Hon; [|discriminate].
      destruct (Nat.eq_dec l' l) as [->|Hne]; [exists t; exact Hl|].
      destruct (IH w2 w1 Hf l' Hl') as [t' Ht']. exists t'. rewrite <- (Ho l' Hne). exact Ht'.
    - unfold on_km in Hf. rewrite Hl in Hf. discriminate.
    - unfold on_km in Hf. rewrite Hl in Hf. discriminate. }
  destruct (set_attach_ok numeric k x attr w s m d Hs Hx Hnum Hsz Hkm) as (w1 & H1 & Hsets & Hin & Hnin).
  cbn [wstep] in H. unfold wfmap, bind in H. rewrite H1 in H. inversion H; subst w'.
  exists m. split; [split; [exists d; exact Hx|exact Hnum]|]. split; [exact Hsz|].
  split; [|split; [|split; [exact Hout|exact Hoth]]].
  - exists (s_init s), (Some (stored m d x)). rewrite Hsets. eapply nth_error_upd_same. exact Hs.
  - intros l Hl. destruct (Hkm l Hl) as [t Ht]. exists t. split; [exact Ht|].
    rewrite (Hin l Hl t Ht).
    assert (Ha : fst (step N (OpAttach x None) t) = attached t x None m m d).
    { cbn [step]. unfold fmap, bind. rewrite (attach_to_ok t x None m m d); [reflexivity|].
      split; [exact Hx|reflexivity]. }
    destruct attr as [[name u]|]; cbn [run attrs_after]; rewrite Ha; reflexivity.
Qed.

(** C43, when it succeeds: a numeric sample, a set of KernelMatrix objects (or an empty one), with
    no num_samples yet or that of the sample. *)
Lemma pf_C43_succeeds :
  forall {E V U} (N : numops V) (C : cmpops V) (numeric : list E -> bool)
         (w : world E V U) k x attr n ms m,
    set_is w k n ms -> numeric_sample numeric x m -> n = NSNone \/ n = NSOne m ->
    (forall l, In l ms -> is_km w l) ->
    exists w', wstep N C numeric (WAttach k x attr) w = (w', Ok WUnit).
Proof.
  intros E V U N C numeric w k x attr n ms m Hk [[d Hx] Hn] Hnum Hkm.
  destruct (set_is_eq w k n ms Hk) as (s & Hs & Hn' & Hms). subst n ms.
  destruct (set_attach_ok numeric k x attr w s m d Hs Hx Hn Hnum Hkm) as (w1 & H1 & _).
  exists w1. cbn [wstep]. unfold wfmap, bind. rewrite H1. reflexivity.
Qed.

(** C43, the wrong length, or something that is not a numeric sample: ValueError; all kernel
    matrices, num_samples and members are unchanged. *)
Lemma pf_C43_wrong_sample :
  forall {E V U} (N : numops V) (C : cmpops V) (numeric : list E -> bool)
         (w : world E V U) k x attr n ms,
    set_is w k n ms ->
    (forall m, ~ numeric_sample numeric x m) \/
    (exists m, numeric_sample numeric x m /\ n <> NSNone /\ n <> NSOne m) ->
    exists w', wstep N C numeric (WAttach k x attr) w = (w', Raise ValueError) /\
      w_objs w' = w_objs w /\ set_is w' k n ms /\ other_sets_kept k w w'.
Proof.
  intros E V U N C numeric w k x attr n ms Hk Hx.
  destruct (set_is_eq w k n ms Hk) as (s & Hs & Hn & Hms).
  cbn [wstep]. unfold wfmap, bind at 1. destruct Hx as [Hbad|(m & [[d Hx] Hnum] & Hn1 & Hn2)].
  - rewrite (set_attach_bad numeric k x attr w s Hs Hbad). exists w. split; [reflexivity|].
    split; [reflexivity|]. split; [exact Hk|]. intros j t Hj Ht. exact Ht.
  - rewrite (set_attach_eq numeric k x attr w s m d Hs Hx Hnum).
    replace (numsamp_eqb (s_num s) NSNone) with false by (symmetry; apply numsamp_eqb_neq; congruence).
    replace (numsamp_eqb (s_num s) (NSOne m)) with false by (symmetry; apply numsamp_eqb_neq; congruence).
    cbn [negb andb]. eexists. split; [reflexivity|]. split; [reflexivity|]. split.
    + eexists; eexists. cbn [set_sets w_sets]. rewrite (nth_error_upd_same _ _ _ _ Hs), Hn, Hms. reflexivity.
    + intros j t Hj Ht. cbn [set_sets w_sets]. rewrite nth_error_upd_other by exact Hj. exact Ht.
Qed.

(** C43, a set with a KernelMatrixPrecomputed member (which has no attach_to): AttributeError at the
    first such member. The members before it are attached to the new sample (without the attribute),
    it and those after it are not, and the set has the num_samples of the new sample. *)
Lemma pf_C43_precomputed :
  forall {E V U} (N : numops V) (C : cmpops V) (numeric : list E -> bool)
         (w : world E V U) k x attr n before l after A m,
    set_is w k n (before ++ l :: after) -> numeric_sample numeric x m -> n = NSNone \/ n = NSOne m ->
    (forall j, In j before -> is_km w j) -> nth_error (w_objs w) l = Some (OPre A) ->
    exists w', wstep N C numeric (WAttach k x attr) w = (w', Raise AttributeError) /\
      set_is w' k (NSOne m) (before ++ l :: after) /\
      (forall j, In j before -> exists s, nth_error (w_objs w) j = Some (OKM s) /\
         nth_error (w_objs w') j = Some (OKM (run N [OpAttach x None] s))) /\
      (forall j, ~ In j before -> nth_error (w_objs w') j = nth_error (w_objs w) j) /\
      other_sets_kept k w w'.
Proof.
  intros E V U N C numeric w k x attr n before l after A m Hk [[d Hx] Hnum] Hn Hkm Hl.
  destruct (set_is_eq w k n _ Hk) as (s & Hs & Hn' & Hms). subst n.
  cbn [wstep]. unfold wfmap, bind at 1. rewrite (set_attach_eq numeric k x attr w s m d Hs Hx Hnum).
  assert (Hc : negb (numsamp_eqb (s_num s) NSNone) && negb (numsamp_eqb (s_num s) (NSOne m)) = false).
  { destruct Hn as [-> | ->]; [reflexivity|]. rewrite andb_false_iff. right.
    apply negb_false_iff, numsamp_eqb_eq. reflexivity. }
  rewrite Hc, Hms. set (w0 := set_sets _ w).
  assert (Hm : forall t : km E V U, attach_to x None t = (attached t x None m m d, Ok tt)).
  { intros t. apply attach_to_ok. split; [exact Hx|reflexivity]. }
  destruct (on_all (attach_to x None) (fun t => attached t x None m m d) Hm
              (fun t => attached_idem t x m d) before w0 Hkm)
    as (w1 & H1 & Hs1 & Hlen1 & Hin1 & Hout1).
  assert (Hnot : ~ In l before).
  { intros Hi. destruct (Hkm l Hi) as [t Ht]. congruence. }
  assert (Hl1 : nth_error (w_objs w1) l = Some (OPre A)).
  { rewrite (Hout1 l Hnot). exact Hl. }
  assert (Hall : for_each (before ++ l :: after) (fun j => on_km j (attach_to x None)) w0
                 = (w1, Raise AttributeError)).
  { rewrite for_each_app. unfold bind. rewrite H1. cbn [for_each]. unfold bind, on_km. rewrite Hl1.
    reflexivity. }
  unfold bind. rewrite Hall. exists w1. split; [reflexivity|]. split.
  { exists (s_init s), (Some (stored m d x)). rewrite Hs1. eapply nth_error_upd_same. exact Hs. }
  split; [|split; [exact Hout1|]].
  - intros j Hj. destruct (Hkm j Hj) as [t Ht]. exists t. split; [exact Ht|]. rewrite (Hin1 j Hj t Ht).
    cbn [run step]. unfold fmap, bind. rewrite Hm. reflexivity.
  - intros j t Hj Ht. rewrite Hs1. cbn [w0 set_sets w_sets].
    unfold w0, set_sets. cbn [w_sets]. rewrite nth_error_upd_other by exact Hj. exact Ht.
Qed.

(*BEGIN PROP*)
(** A set of two KernelMatrix objects with computed entries, attached to another sample of three
    points with an attribute; a sample of two points is refused. *)
Definition toyY : ndarray (option Z) :=
  mkNd [3; 2] [Some 0; Some 1; Some 1; Some 1; Some 2; Some 0]%Z.
Example C43_example :
  let w := wtoy (toy_sets ++ [WObj 0 OpFull; WObj 1 OpFull]) in
  set_is w 0 (NSOne 3) [0; 1] /\ numeric_sample anynum toyY 3 /\ numeric_sample anynum toyX2 2 /\
  (forall l, In l [0; 1] -> is_km w l) /\
  (exists w', wstep toyN toyC anynum (WAttach 0 toyY (Some ("a"%string, 7%Z))) w = (w', Ok WUnit) /\
     attr_of w' 1 "a" (Some 7%Z) /\
     snd (wstep toyN toyC anynum (WObj 0 OpFull) w')
     = Ok (WOut (OArr (mkArr Dense (mkMat 3 3 [[Some 1; Some 1; Some 0]; [Some 1; Some 2; Some 2];
                                                [Some 0; Some 2; Some 4]]%Z))))) /\
  snd (wstep toyN toyC anynum (WAttach 0 toyX2 None) w) = Raise ValueError.
Proof.
  cbv zeta. split; [|split; [|split; [|split; [|split]]]].
  - eexists; eexists; vm_compute; reflexivity.
  - split; [|reflexivity]. exists 2, []. split; [reflexivity|constructor].
  - split; [|reflexivity]. exists 2, []. split; [reflexivity|constructor].
  - intros l [<-|[<-|[]]]; eexists; vm_compute; reflexivity.
  - eexists. split; [vm_compute; reflexivity|]. split; [|vm_compute; reflexivity].
    eexists. split; vm_compute; reflexivity.
  - vm_compute. reflexivity.
Qed.
(*END PROP*)

(*BEGIN PROP*)
Definition sym3 : ndarray (option Z) :=
  mkNd [3; 3] [Some 1; Some 2; Some 0; Some 2; Some 1; Some 0; Some 0; Some 0; Some 1]%Z.
(*END PROP*)

(** Nothing like all-or-nothing holds there: a set of a KernelMatrix and a precomputed 3 x 3 matrix,
    with the entries of the first computed. After the failed attach_to they are those of the other
    sample. *)
Lemma pf_C43_atomic_refuted :
  exists (ops : list (wop (option Z) (option Z) Z)) x e w',
    wstep toyN toyC anynum (WAttach 0 x None) (wtoy ops) = (w', Raise e) /\
    set_is (wtoy ops) 0 (NSOne 3) [0; 1] /\ set_is w' 0 (NSOne 3) [0; 1] /\
    snd (wstep toyN toyC anynum (WObj 0 OpFull) w')
    <> snd (wstep toyN toyC anynum (WObj 0 OpFull) (wtoy ops)).
Proof.
  exists [WNewKM dot false; WObj 0 (OpAttach toyX None);
          WSetNew (KLIter [ARef 0; AArray (Ok sym3)]) None; WObj 0 OpFull], toyY.
  eexists; eexists. split; [vm_compute; reflexivity|]. split; [|split].
  - eexists; eexists; vm_compute; reflexivity.
  - eexists; eexists; vm_compute; reflexivity.
  - vm_compute. intros H. discriminate H.
Qed.


Lemma set_attr_loop : forall {E V U} (N : numops V) name ps (w : world E V U),
  (forall l v, In (l, v) ps -> is_km w l) -> NoDup (map fst ps) ->
  exists w', for_each ps (fun p => on_km (fst p) (set_attr name (snd p))) w = (w', Ok tt) /\
    w_sets w' = w_sets w /\
    (forall l v s, In (l, v) ps -> nth_error (w_objs w) l = Some (OKM s) ->
       nth_error (w_objs w') l = Some (OKM (with_attr N name v s))) /\
    (forall l, ~ In l (map fst ps) -> nth_error (w_objs w') l = nth_error (w_objs w) l).
Proof.
  intros E V U N name ps. induction ps as [|[l v] ps IH]; intros w Hkm Hnd.
  - exists w. split; [reflexivity|]. split; [reflexivity|]. split; [intros l v s []|reflexivity].
  - cbn [map fst] in Hnd. inversion Hnd as [|? ? Hnin Hnd']; subst.
    destruct (Hkm l v (or_introl eq_refl)) as [t Ht].
    set (w1 := set_objs (list_upd (w_objs w) l (OKM (with_attr N name v t))) w).
    assert (H1 : on_km l (set_attr name v) w = (w1, Ok tt)) by (unfold on_km; rewrite Ht; reflexivity).
    assert (Ho : forall l', l' <> l -> nth_error (w_objs w1) l' = nth_error (w_objs w) l')
      by (intros; cbn [w1 set_objs w_objs]; apply nth_error_upd_other; assumption).
    assert (Hne : forall l' v', In (l', v') ps -> l' <> l).
    { intros l' v' Hl' ->. apply Hnin. apply (in_map fst) in Hl'. exact Hl'. }
    destruct (IH w1) as (w2 & H2 & Hs2 & Hin2 & Hout2).
    + intros l' v' Hl'. destruct (Hkm l' v' (or_intror Hl')) as [t' Ht']. exists t'.
      rewrite Ho by (eapply Hne; exact Hl'). exact Ht'.
    + exact Hnd'.
    + exists w2. split; [|split; [|split]].
      * cbn [for_each fst snd]. unfold bind. rewrite H1. exact H2.
      * rewrite Hs2. reflexivity.
      * intros l' v' s [He|Hl'] Hs.
        -- inversion He; subst l' v'. rewrite Ht in Hs. inversion Hs; subst s.
           rewrite Hout2 by exact Hnin. cbn [w1 set_objs w_objs]. eapply nth_error_upd_same. exact Ht.
        -- apply (Hin2 l' v' s Hl'). rewrite Ho by (eapply Hne; exact Hl'). exact Hs.
      * intros l' Hl'. cbn [map fst] in Hl'. rewrite Hout2 by (intros Hi; apply Hl'; right; exact Hi).
        apply Ho. intros ->. apply Hl'. left. reflexivity.
Qed.

(** C44 (partial: a sequence of length 1 is not broadcast, and members must be KernelMatrix
    objects, see the refutations), a sequence of one value per member: member i gets value i,
    nothing else changes. The members must be distinct: with repetitions the last value wins. *)
Lemma pf_C44_sequence_partial :
  forall {E V U} (N : numops V) (C : cmpops V) (numeric : list E -> bool)
         (w : world E V U) k n ms name vs,
    set_is w k n ms -> (forall l, In l ms -> is_km w l) -> NoDup ms -> length vs = length ms ->
    exists w', wstep N C numeric (WSetAttr k name (ASeq vs)) w = (w', Ok WUnit) /\
      w_sets w' = w_sets w /\
      (forall i l v s, nth_error ms i = Some l -> nth_error vs i = Some v ->
         nth_error (w_objs w) l = Some (OKM s) ->
         nth_error (w_objs w') l = Some (OKM (with_attr N name v s))) /\
      (forall l, ~ In l ms -> nth_error (w_objs w') l = nth_error (w_objs w) l).
Proof.
  intros E V U N C numeric w k n ms name vs Hk Hkm Hnd Hlen.
  destruct (set_is_eq w k n ms Hk) as (s & Hs & Hn & Hms).
  assert (Hmap : map fst (combine ms vs) = ms).
  { clear - Hlen. revert vs Hlen. induction ms as [|l ms IH]; intros [|v vs] H; try discriminate; [reflexivity|].
    cbn. f_equal. apply IH. cbn in H. lia. }
  destruct (set_attr_loop N name (combine ms vs) w) as (w' & H1 & H2 & H3 & H4).
  - intros l v Hl. apply Hkm. eapply in_combine_l. exact Hl.
  - rewrite Hmap. exact Hnd.
  - exists w'. split; [|split; [exact H2|split]].
    + cbn [wstep]. unfold wfmap, set_set_attr, bind, get_set. rewrite Hs, Hms, Hlen, Nat.eqb_refl.
      cbn [negb]. unfold ret at 1. cbv beta iota. rewrite H1. reflexivity.
    + intros i l v t Hl Hv Ht. apply (H3 l v t); [|exact Ht].
      clear - Hl Hv. revert i vs Hl Hv. induction ms as [|l' ms IH]; intros [|i] [|v' vs] Hl Hv; try discriminate.
      * cbn in *. left. congruence.
      * cbn in *. right. eapply IH; eassumption.
    + intros l Hl. apply H4. rewrite Hmap. exact Hl.
Qed.

(** C44, a scalar or a str: every member gets the value. *)
Lemma pf_C44_scalar :
  forall {E V U} (N : numops V) (C : cmpops V) (numeric : list E -> bool)
         (w : world E V U) k n ms name u,
    set_is w k n ms -> (forall l, In l ms -> is_km w l) ->
    exists w', wstep N C numeric (WSetAttr k name (AScalar u)) w = (w', Ok WUnit) /\
      w_sets w' = w_sets w /\
      (forall l s, In l ms -> nth_error (w_objs w) l = Some (OKM s) ->
         nth_error (w_objs w') l = Some (OKM (with_attr N name u s))) /\
      (forall l, ~ In l ms -> nth_error (w_objs w') l = nth_error (w_objs w) l).
Proof.
  intros E V U N C numeric w k n ms name u Hk Hkm.
  destruct (set_is_eq w k n ms Hk) as (s & Hs & Hn & Hms).
  destruct (on_all (set_attr name u) (fun t : km E V U => set_attrs (dict_set (k_attr t) name u) t)
              (fun t => eq_refl)) with (ms := ms) (w := w)
    as (w' & H1 & H2 & _ & H3 & H4).
  - intros t. unfold set_attrs. cbn. rewrite dict_set_idem. reflexivity.
  - exact Hkm.
  - exists w'. split; [|split; [exact H2|split; [|exact H4]]].
    + cbn [wstep]. unfold wfmap, set_set_attr, bind, get_set. rewrite Hs, Hms. unfold ret at 1. cbv beta iota.
      assert (Hc : forall (ls : list nat) (w0 : world E V U), for_each (combine ls (repeat u (length ls)))
                 (fun p => on_km (fst p) (set_attr name (snd p))) w0
                 = for_each ls (fun l => on_km l (set_attr name u)) w0).
      { induction ls as [|l ls IH]; intros w0; [reflexivity|]. cbn [length repeat combine for_each fst snd].
        unfold bind. destruct (on_km l (set_attr name u) w0) as [w1 [v|e]]; [apply IH|reflexivity]. }
      rewrite Hc, H1. reflexivity.
    + intros l t Hl Ht. exact (H3 l Hl t Ht).
Qed.

(** C44, a sequence of another length: ValueError and nothing is set, whatever the members. *)
Lemma pf_C44_wrong_length :
  forall {E V U} (N : numops V) (C : cmpops V) (numeric : list E -> bool)
         (w : world E V U) k n ms name vs,
    set_is w k n ms -> length vs <> length ms ->
    wstep N C numeric (WSetAttr k name (ASeq vs)) w = (w, Raise ValueError).
Proof.
  intros E V U N C numeric w k n ms name vs Hk Hlen.
  destruct (set_is_eq w k n ms Hk) as (s & Hs & Hn & Hms).
  cbn [wstep]. unfold wfmap, set_set_attr, bind, get_set. rewrite Hs, Hms.
  replace (length vs =? length ms) with false by (symmetry; apply Nat.eqb_neq; exact Hlen).
  reflexivity.
Qed.

(** C44, get_attr: the attribute of every member, in order (None: value_if_not_found), changing
    nothing. *)
Lemma pf_C44_get_attr :
  forall {E V U} (N : numops V) (C : cmpops V) (numeric : list E -> bool)
         (w : world E V U) k n ms name vs,
    set_is w k n ms -> Forall2 (fun l v => attr_of w l name v) ms vs ->
    wstep N C numeric (WGetAttr k name) w = (w, Ok (WAttrs vs)).
Proof.
  intros E V U N C numeric w k n ms name vs Hk Hvs.
  destruct (set_is_eq w k n ms Hk) as (s & Hs & Hn & Hms).
  cbn [wstep]. unfold wfmap, set_get_attr, bind at 1. unfold bind at 1. unfold get_set. rewrite Hs, Hms.
  assert (H : map_each ms (fun l => on_km l (get_attr name)) w = (w, Ok vs)).
  { clear - Hvs. induction Hvs as [|l v ms vs (t & Ht & Hv) Hvs IH]; [reflexivity|].
    cbn [map_each]. unfold bind.
    assert (H1 : on_km l (get_attr name) w = (w, Ok (dict_get (k_attr t) name)))
      by exact (on_km_read w l (fun t0 => dict_get (k_attr t0) name) t Ht).
    rewrite H1, IH, Hv. reflexivity. }
  rewrite H. reflexivity.
Qed.

(** C44, set_attr as seen by get_attr, of this or any other name. *)
Lemma pf_C44_attr_value :
  forall {E V U} (N : numops V) name (u : U) (s : km E V U) name',
    dict_get (k_attr (with_attr N name u s)) name'
    = if String.eqb name' name then Some u else dict_get (k_attr s) name'.
Proof. intros E V U N name u s name'. apply dict_get_set. Qed.

(*BEGIN PROP*)
Example C44_example :
  let w := wtoy toy_sets in
  set_is w 0 (NSOne 3) [0; 1] /\ (forall l, In l [0; 1] -> is_km w l) /\ NoDup [0; 1] /\
  snd (wstep toyN toyC anynum (WGetAttr 0 "a")
        (fst (wstep toyN toyC anynum (WSetAttr 0 "a" (ASeq [4; 9]%Z)) w)))
  = Ok (WAttrs [Some 4; Some 9]%Z).
Proof.
  cbv zeta. split; [|split; [|split]].
  - eexists; eexists; vm_compute; reflexivity.
  - intros l [<-|[<-|[]]]; eexists; vm_compute; reflexivity.
  - repeat constructor; cbn; intuition; discriminate.
  - vm_compute. reflexivity.
Qed.
(*END PROP*)

(** C44 is false for a sequence of length 1, which is documented to be broadcast: for every set
    with another number of members it raises ValueError. *)
Lemma pf_C44_length_one_refuted :
  exists (w : world (option Z) (option Z) Z) k n ms v,
    set_is w k n ms /\ ms <> [] /\ (forall l, In l ms -> is_km w l) /\
    wstep toyN toyC anynum (WSetAttr k "a" (ASeq [v])) w = (w, Raise ValueError).
Proof.
  exists (wtoy toy_sets), 0, (NSOne 3), [0; 1], 4%Z.
  split; [eexists; eexists; vm_compute; reflexivity|]. split; [discriminate|].
  split; [intros l [<-|[<-|[]]]; eexists; vm_compute; reflexivity|]. vm_compute. reflexivity.
Qed.

(** C44 is false for sets with a KernelMatrixPrecomputed, which has no set_attr: the members before
    it are changed, then AttributeError is raised. *)
Lemma pf_C44_precomputed_refuted :
  exists (ops : list (wop (option Z) (option Z) Z)) w',
    set_is (wtoy ops) 0 (NSOne 2) [0; 1] /\
    wstep toyN toyC anynum (WSetAttr 0 "a" (AScalar 4%Z)) (wtoy ops) = (w', Raise AttributeError) /\
    attr_of (wtoy ops) 0 "a" None /\ attr_of w' 0 "a" (Some 4%Z).
Proof.
  exists [WNewKM dot false; WObj 0 (OpAttach toyX2 None);
          WSetNew (KLIter [ARef 0; AArray (Ok sym2)]) None].
  eexists. split; [eexists; eexists; vm_compute; reflexivity|].
  split; [vm_compute; reflexivity|]. split; eexists; split; vm_compute; reflexivity.
Qed.

(** C45 (partial: KernelMatrix and KernelMatrixPrecomputed objects). KernelSet(km_list=K) has the
    single member K and its num_samples; a given num_samples must agree. *)
Lemma pf_C45_one_matrix_partial :
  forall {E V U} (N : numops V) (C : cmpops V) (numeric : list E -> bool)
         (w : world E V U) l m num,
    has_num w l m -> num = None \/ (exists n, num = Some n /\ m = NSOne n) ->
    exists w' k, wstep N C numeric (WSetNew (KLOne l) num) w = (w', Ok (WSetRef k)) /\
      nth_error (w_sets w) k = None /\ set_is w' k m [l] /\ w_objs w' = w_objs w /\ sets_kept w w'.
Proof.
  intros E V U N C numeric w l m num (o & Ho & Hm) Hnum.
  set (s0 := match num with Some n => mkSet (NSOne n) true [] None
                          | None => mkSet NSNone false [] None end : kset E).
  set (w0 := set_sets (w_sets w ++ [s0]) w).
  assert (Hk0 : nth_error (w_sets w0) (length (w_sets w)) = Some s0).
  { cbn [w0 set_sets w_sets]. rewrite nth_error_snoc, Nat.eqb_refl. reflexivity. }
  assert (Hj : joins s0 o = true).
  { unfold joins, s0. destruct Hnum as [->|(n & -> & He)]; [reflexivity|]. cbn [s_init s_num negb andb orb].
    apply numsamp_eqb_eq. congruence. }
  eexists. exists (length (w_sets w)). split; [|split; [|split; [|split]]].
  - cbn [wstep]. unfold wfmap, set_new, bind, new_set, ret. fold s0. fold w0. cbv beta iota.
    rewrite append_ref. cbn [w0 set_sets w_objs]. rewrite Ho. fold w0. rewrite Hk0, Hj. reflexivity.
  - apply nth_error_None. lia.
  - eexists; eexists. cbn [set_sets w_sets]. rewrite (nth_error_upd_same _ _ _ _ Hk0). unfold joined.
    rewrite Hm. replace (s_members s0) with (@nil nat) by (unfold s0; destruct num; reflexivity). reflexivity.
  - reflexivity.
  - intros j t Hj'. assert (j < length (w_sets w)) by (apply nth_error_Some; congruence).
    cbn [set_sets w_sets]. rewrite nth_error_upd_other by lia.
    cbn [w0 set_sets w_sets]. rewrite nth_error_app1 by assumption. exact Hj'.
Qed.

(** C45, several kernel matrices: KernelSet(km_list=[K1, K2, ...]) has exactly these members, in
    order, and their num_samples. *)
Lemma pf_C45_list :
  forall {E V U} (N : numops V) (C : cmpops V) (numeric : list E -> bool)
         (w : world E V U) ls m num,
    (forall l, In l ls -> has_num w l m) -> ls <> [] ->
    num = None \/ (exists n, num = Some n /\ m = NSOne n) ->
    exists w' k, wstep N C numeric (WSetNew (KLIter (map ARef ls)) num) w = (w', Ok (WSetRef k)) /\
      nth_error (w_sets w) k = None /\ set_is w' k m ls /\ w_objs w' = w_objs w /\ sets_kept w w'.
Proof.
  intros E V U N C numeric w ls m num Hm Hne Hnum.
  set (s0 := match num with Some n => mkSet (NSOne n) true [] None
                          | None => mkSet NSNone false [] None end : kset E).
  set (w0 := set_sets (w_sets w ++ [s0]) w).
  assert (Hk0 : nth_error (w_sets w0) (length (w_sets w)) = Some s0).
  { cbn [w0 set_sets w_sets]. rewrite nth_error_snoc, Nat.eqb_refl. reflexivity. }
  destruct ls as [|l ls]; [contradiction|].
  destruct (Hm l (or_introl eq_refl)) as (o & Ho & Hom).
  assert (Hj : joins s0 o = true).
  { unfold joins, s0. destruct Hnum as [->|(n & -> & He)]; [reflexivity|]. cbn [s_init s_num negb andb orb].
    apply numsamp_eqb_eq. congruence. }
  assert (Hm0 : s_members s0 = []) by (unfold s0; destruct num; reflexivity).
  set (w1 := set_sets (list_upd (w_sets w0) (length (w_sets w)) (joined s0 o l)) w0).
  assert (Hk1 : nth_error (w_sets w1) (length (w_sets w)) = Some (joined s0 o l)).
  { cbn [w1 set_sets w_sets]. apply (nth_error_upd_same _ _ _ _ Hk0). }
  destruct (append_all_same N C ls w1 (length (w_sets w)) (joined s0 o l) Hk1) as [b Hb].
  { intros l' Hl'. cbn [joined s_num]. rewrite Hom. apply Hm. right. exact Hl'. }
  assert (Hrun : for_each (map ARef (l :: ls)) (append N C (length (w_sets w))) w0
    = for_each ls (fun l => append N C (length (w_sets w)) (ARef l)) w1).
  { cbn [map for_each]. unfold bind. rewrite append_ref. cbn [w0 set_sets w_objs]. rewrite Ho. fold w0.
    rewrite Hk0, Hj. fold w1. generalize w1. clear. induction ls as [|l ls IH]; intros w1; [reflexivity|].
    cbn [map for_each]. unfold bind. destruct (append N C (length (w_sets w)) (ARef l) w1) as [w2 [[]|e]];
      [apply IH|reflexivity]. }
  eexists. exists (length (w_sets w)). split; [|split; [|split; [|split]]].
  - cbn [wstep]. unfold wfmap, set_new, bind, new_set, ret. fold s0. fold w0. cbv beta iota.
    rewrite Hrun, Hb. reflexivity.
  - apply nth_error_None. lia.
  - eexists; eexists. cbn [set_sets w_sets]. rewrite (nth_error_upd_same _ _ _ _ Hk1).
    cbn [joined s_num s_members s_sample]. rewrite Hom, Hm0. reflexivity.
  - reflexivity.
  - intros j t Hj'. assert (j < length (w_sets w)) by (apply nth_error_Some; congruence).
    cbn [set_sets w_sets]. rewrite nth_error_upd_other by lia.
    cbn [w1 set_sets w_sets]. rewrite nth_error_upd_other by lia.
    cbn [w0 set_sets w_sets]. rewrite nth_error_app1 by assumption. exact Hj'.
Qed.

(** C45, anything else (a string, a number, a kernel function, ...) is refused with TypeError, and
    no kernel matrix or set changes. *)
Lemma pf_C45_other_types :
  forall {E V U} (N : numops V) (C : cmpops V) (numeric : list E -> bool) (w : world E V U) num,
    snd (wstep N C numeric (WSetNew KLOther num) w) = Raise TypeError /\
    w_objs (fst (wstep N C numeric (WSetNew KLOther num) w)) = w_objs w /\
    sets_kept w (fst (wstep N C numeric (WSetNew KLOther num) w)).
Proof.
  intros E V U N C numeric w num. split; [reflexivity|]. split; [reflexivity|].
  intros j t Hj. cbn [wstep]. unfold wfmap, set_new, bind, new_set, raise. cbn [fst set_sets w_sets].
  rewrite nth_error_app1 by (apply nth_error_Some; congruence). exact Hj.
Qed.

(** C45 is false for 2-dimensional arrays, every one with at least one row: the array is iterated
    row by row, and a row is not a matrix (ValueError). *)
Lemma pf_C45_ndarray_refuted :
  (forall {E V U} (N : numops V) (C : cmpops V) (numeric : list E -> bool)
          (w : world E V U) (a : ndarray V) n m num,
     nd_shape a = [S n; m] -> length (nd_data a) = S n * m ->
     snd (wstep N C numeric (WSetNew (KLArray a) num) w) = Raise ValueError) /\
  exists (a : ndarray (option Z)) A, precomputed_new toyC None a = Ok A /\
    snd (wstep toyN toyC anynum (WSetNew (KLArray a) None) (w_empty : world _ _ Z)) = Raise ValueError.
Proof.
  split.
  - intros E V U N C numeric w a n m num Hsh Hlen. cbn [wstep]. unfold wfmap, set_new, bind, new_set.
    set (s0 := match num with Some n => _ | None => _ end). cbv beta iota. unfold lift, subarrays.
    rewrite Hsh. cbn [prod_list reshape map for_each]. unfold bind at 1. rewrite append_array.
    cbn [rbind]. unfold precomputed_new at 1. cbn [nd_shape]. reflexivity.
  - exists sym2, (mkMat 2 2 [[Some 1; Some 2]; [Some 2; Some 5]]%Z). split; vm_compute; reflexivity.
Qed.

(*BEGIN PROP*)
Example C45_example :
  has_num (wtoy toy_sets) 2 (NSOne 2) /\ has_num (wtoy toy_sets) 0 (NSOne 3) /\
  set_is (fst (wstep toyN toyC anynum (WSetNew (KLOne 2) (Some 2)) (wtoy toy_sets))) 3 (NSOne 2) [2].
Proof.
  split; [|split].
  - eexists; split; vm_compute; reflexivity.
  - eexists; split; vm_compute; reflexivity.
  - eexists; eexists; vm_compute; reflexivity.
Qed.
(*END PROP*)

(** C65. Being a member of sets does not matter to a kernel matrix: in every state a program can
    reach, each KernelMatrix is in a state it could also have reached by calls of its own methods,
    so that everything said of single KernelMatrix objects (C01 - C17, C61 - C64) holds of it. *)
Lemma pf_C65_ordinary_members :
  forall {E V U} (N : numops V) (C : cmpops V) (numeric : list E -> bool) (ops : list (wop E V U)) l s,
    nth_error (w_objs (wrun N C numeric ops w_empty)) l = Some (OKM s) ->
    exists K nrm pre, s = before N K nrm pre.
Proof.
  intros E V U N C numeric ops l s H.
  assert (Ho := ordinary_run N C numeric ops w_empty).
  refine (Ho _ l (OKM s) H). intros j o Hj. destruct j; discriminate.
Qed.

(** C65, and a kernel matrix that was a member of an attached set is afterwards a KernelMatrix
    attached to the set's sample: it has a history of the form used by those properties. *)
Lemma pf_C65_after_attach :
  forall {E V U} (N : numops V) (C : cmpops V) (numeric : list E -> bool) (ops : list (wop E V U))
         k x n ms l w',
    set_is (wrun N C numeric ops w_empty) k n ms -> In l ms ->
    wstep N C numeric (WAttach k x None) (wrun N C numeric ops w_empty) = (w', Ok WUnit) ->
    exists K nrm pre m d, admissible x None m m d /\
      nth_error (w_objs w') l = Some (OKM (after N K nrm pre x None [])).
Proof.
  intros E V U N C numeric ops k x n ms l w' Hk Hl H.
  destruct (pf_C43_attach N C numeric _ w' k x None n ms Hk H) as (m & [[d Hx] _] & _ & _ & Hin & _).
  destruct (Hin l Hl) as (s & Hs & Hs').
  destruct (pf_C65_ordinary_members N C numeric ops l s Hs) as (K & nrm & pre & ->).
  exists K, nrm, pre, m, d. split; [split; [exact Hx|reflexivity]|]. rewrite Hs'.
  unfold after, before. rewrite run_app. reflexivity.
Qed.

(*BEGIN PROP*)
Example C65_example :
  let w := wtoy (toy_sets ++ [WObj 0 OpFull]) in
  exists s w', nth_error (w_objs w) 0 = Some (OKM s) /\ set_is w 0 (NSOne 3) [0; 1] /\
    wstep toyN toyC anynum (WAttach 0 toyY None) w = (w', Ok WUnit).
Proof.
  eexists; eexists. split; [vm_compute; reflexivity|].
  split; [eexists; eexists; vm_compute; reflexivity|]. vm_compute. reflexivity.
Qed.
(*END PROP*)
