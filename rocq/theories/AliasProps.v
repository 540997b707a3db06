(** Arrays shared with the caller: what writes into returned matrices (C78) and into the
    attached sample (C79) can and cannot change. *)
From Coq Require Import String List Arith ZArith Bool Lia.
Import ListNotations.
From Verif Require Import Prelude MatModel MatFacts UtilsModel IndexModel KMModel SpecKM MFacts
  KMFacts KMInv KMOps KMIndex KMHist KMTotal KMGet KMTrack KMLog KMHist2 AliasModel SpecAlias
  AliasFacts ToyModel.

Section Use.
  Context {E V U : Type}.
  Variable N : numops V.
  Variable K : kernel E V.
  Variable k : list E -> list E -> V.
  Variable nrm : bool.
  Variables (pre : list (op E U)) (acts : list (cact E V U)) (x : ndarray E)
            (y : option (ndarray E)) (n m d : nat).
  Hypothesis Hadm : admissible x y n m d.
  Hypothesis Hret : returns_only K k x y n m d.
  Hypothesis Hsame : same_sample acts.
  Hypothesis Hleave : leaves_sample acts.
  Notation S0 := (before N K nrm pre).
  Notation XX := (stored n d x).
  Notation YY := (stored2 n m d x y).
  Notation two := (is_some y).
  Notation invA := (@inv E V U K k nrm XX YY two n m d 0 (g_calls S0)).

  Lemma crun_inv : invA (crun N acts (after N K nrm pre x y [])).
  Proof.
    assert (H0 : invA (after N K nrm pre x y [])).
    { assert (H := S1_sane N K k nrm pre [] x y n m d Hadm eq_refl Hret). apply H. }
    revert H0. generalize (after N K nrm pre x y ([] : list (op E U))).
    revert Hsame Hleave. unfold same_sample, leaves_sample.
    induction acts as [|a l IH]; intros H1 H2 s Hs; [exact Hs|].
    cbn [forallb] in H1, H2. apply andb_true_iff in H1, H2.
    destruct H1 as [H1 H1'], H2 as [H2 H2']. cbn [crun]. apply (IH H1' H2'). clear IH.
    destruct a as [o|i j v|i j v|i j v|nm u|q e|q e]; cbn [cstep]; try discriminate.
    - apply negb_true_iff in H1. cbn [c_attach] in H1.
      apply (ki_step N K k nrm XX YY two n m d _ (ret_stored K k x y n m d Hadm Hret) eq_refl
               (stored2_shape x y n m d Hadm) (stored2_one x y n m d Hadm) o H1 s Hs).
    - apply ki_full, Hs.
    - apply ki_normed, Hs.
    - apply ki_centered, Hs.
    - apply ki_attrs, Hs.
  Qed.
End Use.

(** A populated object just hands out its matrix. *)
Lemma full_kept : forall {E V U} (N : numops V) (s : km E V U),
  is_some (k_sample s) = true -> k_populated s = true -> k_keep_normed s = false ->
  snd (full N s) = match k_full s with Some a => Ok a | None => Raise AttributeError end.
Proof.
  intros E V U N s H1 H2 H3. unfold full, bind, get. rewrite H2, H3.
  destruct (k_sample s); [|discriminate]. cbn [negb when ret].
  unfold attr_or, bind, get, ret. destruct (k_full s); reflexivity.
Qed.

(** C78, part that holds. Whatever the caller has written into the matrices and the dict the
    object returned, indexing any proper part of the matrix still returns the kernel values of
    the attached sample, for kernels that may raise. Missing from the full statement: the
    results that are such shared arrays themselves (full, full_sparse, normed_km, centered,
    whole-matrix indexing), for which it is false (C78_refuted). *)
Lemma pf_C78_indexing_partial :
  forall {E V U} (N : numops V) (K : kernel E V) k nrm (pre : list (op E U)) acts
         x y n m d ix rows cols,
    returns_only K k x y n m d -> admissible x y n m d -> same_sample acts -> leaves_sample acts ->
    valid n m ix -> selection2 n m ix rows cols -> ~ whole n m rows cols ->
    outcome N (OpGetItem ix) (crun N acts (after N K nrm pre x y []))
    = Ok (OArr (mkArr Dense (submatrix (entry k d x y) rows cols))) \/
    exists e t u v, is_row x y n m d u /\ is_row x y n m d v /\ kf K t u v = Raise e /\
      outcome N (OpGetItem ix) (crun N acts (after N K nrm pre x y [])) = Raise e.
Proof.
  intros E V U N K k nrm pre acts x y n m d ix rows cols Hret Hadm H1 H2 Hv Hsel Hpr.
  assert (Hs := crun_inv N K k nrm pre acts x y n m d Hadm Hret H1 H2).
  assert (H := getitemI N K k nrm _ _ _ n m d _ (ret_stored K k x y n m d Hadm Hret) eq_refl
                 (stored2_shape x y n m d Hadm) (stored2_one x y n m d Hadm) _ ix rows cols Hs Hv Hsel Hpr).
  unfold holds in H. destruct H as [_ H]. unfold outcome, step. rewrite outcome_fmap.
  destruct (snd (getitem N ix (crun N acts (after N K nrm pre x y [])))) as [b|e].
  - left. rewrite H, (sub_spec k x y n m d). reflexivity.
  - right. destruct H as (t & u & v & Hu & Hw & He). exists e, t, u, v.
    split; [|split; [|auto]]; apply (row_stored x y n m d _ Hadm); assumption.
Qed.

(** C78, the same for the diagonal of a one-sample matrix. *)
Lemma pf_C78_diagonal_partial :
  forall {E V U} (N : numops V) (K : kernel E V) k nrm (pre : list (op E U)) acts x n d,
    never_raises K k x None n n d -> admissible x None n n d -> same_sample acts ->
    leaves_sample acts ->
    outcome N OpDiagonal (crun N acts (after N K nrm pre x None []))
    = Ok (OVec (map (fun i => k (row_of d x i) (row_of d x i)) (seq 0 n))).
Proof.
  intros E V U N K k nrm pre acts x n d Hnr Hadm H1 H2.
  assert (Hret : returns_only K k x None n n d) by (intros t u v Hu Hv; left; auto).
  assert (Hs := crun_inv N K k nrm pre acts x None n n d Hadm Hret H1 H2).
  assert (H := diagonalI K k nrm _ _ _ n n d _ (ret_stored K k x None n n d Hadm Hret) eq_refl
                 (stored2_shape x None n n d Hadm) (stored2_one x None n n d Hadm) _ Hs).
  unfold holds in H. destruct H as [_ H]. unfold outcome, step. rewrite outcome_fmap.
  destruct (snd (diagonal (crun N acts (after N K nrm pre x None [])))) as [l|e].
  - destruct H as [_ ->]. cbn [res_map]. do 2 f_equal. apply map_ext. intros i.
    unfold truev, norm. cbn. rewrite Nat.min_id, Nat.max_id. reflexivity.
  - exfalso. destruct H as [[H _]|[_ (t & u & v & Hu & Hw & He)]]; [discriminate|].
    rewrite (Hnr t u v) in He; [discriminate|..];
      apply (row_stored x None n n d _ Hadm); assumption.
Qed.

(** C78, the number of kernel evaluations: still at most one successful evaluation per pair. *)
Lemma pf_C78_pairs_once :
  forall {E V U} (N : numops V) (K : kernel E V) k nrm (pre : list (op E U)) acts x y n m d,
    returns_only K k x y n m d -> admissible x y n m d -> same_sample acts -> leaves_sample acts ->
    exists new,
      g_calls (crun N acts (after N K nrm pre x y [])) = new ++ g_calls (before N K nrm pre) /\
      NoDup (successful K 0 (length (g_calls (before N K nrm pre))) new).
Proof.
  intros E V U N K k nrm pre acts x y n m d Hret Hadm H1 H2.
  assert (Hs := crun_inv N K k nrm pre acts x y n m d Hadm Hret H1 H2).
  destruct (iv_ghost _ _ _ _ _ _ _ _ _ _ _ _ Hs) as (new & E1 & E2 & _).
  exists new. split; [exact E1|]. rewrite E2. apply (mo_nodup _ _ _ _ _ _ _ _ (iv_memo _ _ _ _ _ _ _ _ _ _ _ _ Hs)).
Qed.

(** C78, what goes wrong, for all inputs: the array returned by [full] is the object's own, so
    a value written into it is what [full] returns from then on. *)
Lemma pf_C78_write_persists :
  forall {E V U} (N : numops V) (K : kernel E V) k (pre post : list (op E U)) x y n m d a i j v,
    never_raises K k x y n m d -> admissible x y n m d -> no_attach post ->
    outcome N OpFull (after N K false pre x y post) = Ok (OArr a) -> i < n -> j < m ->
    outcome N OpFull (crun N [Call OpFull; WFull i j v] (after N K false pre x y post))
    = Ok (OArr (mkArr (afmt a) (mset (amat a) i j v))).
Proof.
  intros E V U N K k pre post x y n m d a i j v Hnr Hadm Hno Hok Hi Hj.
  assert (Hg := S1_good N K k false pre post x y n m d Hadm Hno true true Hnr
                  (fun _ H => False_ind _ (diff_true_false H))
                  (fun H => False_ind _ (diff_true_false H))).
  assert (H := full_total N K k false _ _ _ n m d _
                 (nr_stored K k x y n m d Hadm Hnr) eq_refl (stored2_shape x y n m d Hadm)
                 (stored2_one x y n m d Hadm) true true _ Hg).
  unfold holds in H. unfold outcome, step in *. rewrite outcome_fmap in *. cbn [crun cstep step].
  rewrite ?state_fmap.
  destruct (full N (after N K false pre x y post)) as [s1 r] eqn:Hf. cbn [fst snd] in *.
  destruct r as [b|e]; [|discriminate]. cbn in Hok. injection Hok as ->.
  destruct H as (Hg1 & H2 & _ & H4). destruct (H2 eq_refl) as (a' & Ha' & _ & _ & [Hr|[Hr _]]);
    [|discriminate]. injection Hr as <-.
  assert (Hp := H4 eq_refl).
  assert (Hsane := gd_sane _ _ _ _ _ _ _ _ _ _ _ _ _ _ Hg1).
  destruct (sane_fixed N K k false _ _ _ n m d _ s1 Hsane) as (_ & Fn & FX & _).
  assert (Hw : mr (amat a) = n /\ mc (amat a) = m).
  { destruct Hsane as [_ Hfo]. unfold full_ok in Hfo. rewrite Ha' in Hfo.
    destruct Hfo as [[? [? _]] _]. auto. }
  destruct Hw as [Hw1 Hw2].
  rewrite (full_kept N).
  - cbn [set_full k_full]. rewrite Ha'. cbn [write_arr].
    rewrite Hw1, Hw2. apply Nat.ltb_lt in Hi, Hj. rewrite Hi, Hj. reflexivity.
  - cbn [set_full k_sample]. rewrite FX. reflexivity.
  - exact Hp.
  - exact Fn.
Qed.

(*BEGIN PROP*)
(** Hypotheses of C78_indexing_partial met: every cell of the returned matrix overwritten. *)
Example C78_example :
  let acts := [Call OpFull; WFull 0 0 (Some 77%Z); WFull 0 1 (Some 78%Z); WFull 1 0 None;
               Call OpNormedKM; WNormed 0 1 (Some 79%Z); Call OpCentered; WCentered 1 1 None] in
  let s := crun toyN acts (after (U:=Z) toyN dot false [] toyX2 None []) in
  same_sample acts /\ leaves_sample acts /\
  outcome toyN OpFull s = Ok (OArr (mkArr Dense (mkMat 2 2 [[Some 77%Z; Some 78%Z]; [None; Some 1%Z]]))) /\
  outcome toyN (OpGetItem (IFlat 0)) s = Ok (OArr (mkArr Dense (mkMat 1 1 [[Some 4%Z]]))) /\
  outcome toyN OpDiagonal s = Ok (OVec [Some 4%Z; Some 1%Z]).
Proof. vm_compute. repeat split; reflexivity. Qed.
(*END PROP*)

(** C78 is false as stated: [A = km.full; A[0, 0] = 9; km.full] (and the same with [normed_km],
    [centered] and whole-matrix indexing) returns the caller's value. *)
Lemma pf_C78_refuted :
  exists (V : Type) (N : numops V) (K : kernel V V) k x n d v,
    never_raises K k x None n n d /\ admissible x None n n d /\
  (forall o, In o [OpFull; OpGetItem (IPair (ISlice None None None) (ISlice None None None))] ->
      outcome N o (crun N [Call OpFull; WFull 0 0 v] (after (U:=Z) N K false [] x None []))
      <> outcome N o (crun N [Call OpFull] (after (U:=Z) N K false [] x None []))) /\
  outcome N OpNormedKM (crun N [Call OpNormedKM; WNormed 0 0 v] (after (U:=Z) N K false [] x None []))
      <> outcome N OpNormedKM (after (U:=Z) N K false [] x None []) /\
  outcome N OpCentered (crun N [Call OpCentered; WCentered 0 0 v] (after (U:=Z) N K false [] x None []))
      <> outcome N OpCentered (after (U:=Z) N K false [] x None []).
Proof.
  exists (option Z), toyN, dot, dotk, toyX2, 2, 2, (Some 9%Z).
  split; [apply dot_total|]. split.
  { split; [exists []; split; [reflexivity|constructor]|reflexivity]. }
  split.
  { intros o [<-|[<-|[]]]; vm_compute; discriminate. }
  split; vm_compute; discriminate.
Qed.

Lemma memo_find_key : forall {V} (l : list ((nat * nat) * V)) p,
  In p (map fst l) -> exists v, memo_find l p = Some v.
Proof.
  intros V l p. induction l as [|[q v] l IH]; [intros []|]. cbn [map fst In memo_find].
  intros [->|H].
  - exists v. unfold pair_eqb. rewrite !Nat.eqb_refl. reflexivity.
  - destruct (pair_eqb p q); [eauto|apply IH, H].
Qed.

(** Writes into the sample and everything else on a completely evaluated object. *)
Lemma swap_complete : forall {E V U} n P Q (s : km E V U), complete n s -> complete n (swap P Q s).
Proof. intros E V U n P Q s [H1 H2 H3 H4 H5]. constructor; auto. Qed.

Lemma sample_write_swap : forall {E V U} (N : numops V) n (a : cact E V U) s,
  to_sample a = true -> complete n s -> exists P Q, cstep N a s = swap P Q s.
Proof.
  intros E V U N n a s Ht Hs. assert (H3 := cp_one n s Hs). assert (H4 := cp_second n s Hs).
  destruct (k_sample s) as [A|] eqn:HA; [|discriminate].
  destruct (k_sample_two s) as [B|] eqn:HB; [|discriminate].
  destruct a; try discriminate; cbn [cstep]; rewrite (cp_two n s Hs).
  - unfold write_sample_two, write_sample_one. rewrite HA.
    change (k_sample_two (set_sample (write_nd q e A) s)) with (k_sample_two s). rewrite HB.
    eexists _, _. reflexivity.
  - exists A, B. destruct s; cbn in *; subst; reflexivity.
Qed.

Lemma ctrace_blind : forall {E V U} (N : numops V) n (acts : list (cact E V U)) s P Q,
  same_sample acts -> complete n s ->
  ctrace N acts (swap P Q s) = ctrace N (without_sample_writes acts) s.
Proof.
  intros E V U N n acts. unfold same_sample.
  induction acts as [|a l IH]; intros s P Q Hat Hs; [reflexivity|].
  cbn [forallb] in Hat. apply andb_true_iff in Hat. destruct Hat as [Ha Hl].
  apply negb_true_iff in Ha.
  destruct (to_sample a) eqn:Ht.
  - destruct (sample_write_swap N n a (swap P Q s) Ht (swap_complete n P Q s Hs)) as (P' & Q' & Hw).
    unfold without_sample_writes. cbn [filter]. rewrite Ht. cbn [negb].
    replace (ctrace N (a :: l) (swap P Q s)) with (ctrace N l (cstep N a (swap P Q s)))
      by (destruct a; try discriminate; reflexivity).
    rewrite Hw. apply (IH s P' Q' Hl Hs).
  - unfold without_sample_writes. cbn [filter]. rewrite Ht. cbn [negb].
    destruct a as [o|i j v|i j v|i j v|nm u|q e|q e]; try discriminate.
    + cbn [ctrace]. destruct (blind_step N n o Ha s P Q Hs) as [H1 H2]. rewrite H1. cbn [fst snd].
      f_equal. apply (IH _ P Q Hl H2).
    + apply (IH _ P Q Hl (cp_full n (write_arr i j v (k_full s)) s Hs)).
    + apply (IH _ P Q Hl (cp_normed n (write_arr i j v (k_normed s)) s Hs)).
    + apply (IH _ P Q Hl (cp_centered n (write_arr i j v (k_centered s)) s Hs)).
    + apply (IH _ P Q Hl (cp_attrs n (dict_set (k_attr s) nm u) s Hs)).
Qed.

Lemma full_complete :
  forall {E V U} (N : numops V) (K : kernel E V) k nrm (pre post : list (op E U)) x n d,
    never_raises K k x None n n d -> admissible x None n n d -> no_attach post ->
    is_ok (outcome N OpFull (after N K nrm pre x None post)) = true ->
    complete n (after N K nrm pre x None (post ++ [OpFull])).
Proof.
  intros E V U N K k nrm pre post x n d Hnr Hadm Hno Hok. set (s := after N K nrm pre x None (post ++ [OpFull])).
    assert (Hg := S1_good N K k nrm pre post x None n n d Hadm Hno true true Hnr
                  (fun _ H => False_ind _ (diff_true_false H))
                  (fun H => False_ind _ (diff_true_false H))).
    assert (H := full_total N K k nrm _ _ _ n n d _
                 (nr_stored K k x None n n d Hadm Hnr) eq_refl (stored2_shape x None n n d Hadm)
                 (stored2_one x None n n d Hadm) true true _ Hg).
    assert (Es : s = fst (full N (after N K nrm pre x None post))).
    { unfold s, after. change (OpAttach x None :: post ++ [OpFull])
        with ((OpAttach x None :: post) ++ [OpFull]).
      rewrite app_assoc, run_app. cbn [run step]. apply state_fmap. }
    unfold holds in H. destruct H as (Hg' & _ & _ & Hp). rewrite <- Es in Hg', Hp.
    unfold outcome, step in Hok. rewrite outcome_fmap in Hok.
    assert (Hpop : k_populated s = true).
    { apply Hp. destruct (snd (full N (after N K nrm pre x None post))); [reflexivity|discriminate]. }
    assert (Hsane := gd_sane _ _ _ _ _ _ _ _ _ _ _ _ _ _ Hg').
    destruct (sane_fixed N K k nrm _ _ _ n n d _ s Hsane) as (_ & _ & FX & FY & F2 & Fs & _).
    constructor; [exact F2|exact Fs|rewrite FX; reflexivity|rewrite FY; reflexivity|].
    intros i j Hij Hj. apply memo_find_key.
    destruct Hsane as [_ Hfo]. unfold full_ok in Hfo. destruct (k_full s) as [a|].
    - destruct Hfo as (_ & _ & H3 & _).
      destruct (H3 Hpop i j ltac:(lia) Hj (or_introl Hij)) as [_ Hin].
      unfold norm in Hin. cbn in Hin. rewrite Nat.min_l, Nat.max_r in Hin by exact Hij. exact Hin.
    - destruct Hfo. congruence.
Qed.

(** C79, part that holds. Once [full] has returned for one sample, writing into the sample
    array changes no later outcome of any operation, whatever else the caller does.
    Missing from the full statement: sample arrays modified before that, and two samples,
    where it is false (C79_refuted, C79_two_samples_refuted). *)
Lemma pf_C79_after_full_partial :
  forall {E V U} (N : numops V) (K : kernel E V) k nrm (pre post : list (op E U)) acts x n d,
    never_raises K k x None n n d -> admissible x None n n d -> no_attach post ->
    is_ok (outcome N OpFull (after N K nrm pre x None post)) = true -> same_sample acts ->
    let s := after N K nrm pre x None (post ++ [OpFull]) in
    ctrace N acts s = ctrace N (without_sample_writes acts) s.
Proof.
  intros E V U N K k nrm pre post acts x n d Hnr Hadm Hno Hok Hat s.
  assert (Hs : complete n s) by (apply (full_complete N K k nrm pre post x n d); assumption).
  destruct (k_sample s) as [A|] eqn:HA; [|destruct Hs as [_ _ H _ _]; rewrite HA in H; discriminate].
  destruct (k_sample_two s) as [B|] eqn:HB; [|destruct Hs as [_ _ _ H _]; rewrite HB in H; discriminate].
  rewrite <- (ctrace_blind N n acts s A B Hat Hs). f_equal. clearbody s. clear - HA HB.
  destruct s; cbn in *; subst; reflexivity.
Qed.

(*BEGIN PROP*)
(** Hypotheses met, with writes on both sides of a centring and an indexing. *)
Example C79_example :
  let acts := [WSample 0 (Some 50%Z); Call OpNormedKM; WSample 3 None; Call OpCentered;
               Call (OpGetItem (IFlat 1)); WFull 0 0 None; Call OpFull] in
  let s := after (U:=Z) toyN dot false [] toyX2 None [OpFull] in
  same_sample acts /\ is_ok (outcome toyN OpFull (after (U:=Z) toyN dot false [] toyX2 None [])) = true /\
  length (ctrace toyN acts s) = 4 /\
  k_sample (crun toyN acts s) = Some (mkNd [2; 2] [Some 50%Z; Some 0%Z; Some 0%Z; None]).
Proof. vm_compute. repeat split; reflexivity. Qed.
(*END PROP*)

(** C79, before anything was computed: writing into a sample array after [attach_to] is the same as
    having attached the modified array, for every later action of the caller. *)
Lemma pf_C79_before :
  forall {E V U} (N : numops V) (K : kernel E V) nrm (pre : list (op E U)) acts x y n m d q e,
    admissible x y n m d ->
    ctrace N acts (crun N [WSample q e] (after N K nrm pre x y []))
    = ctrace N acts (after N K nrm pre (write_nd q e x) y []) /\
    forall y', y = Some y' ->
      ctrace N acts (crun N [WSampleTwo q e] (after N K nrm pre x y []))
      = ctrace N acts (after N K nrm pre x (Some (write_nd q e y')) []).
Proof.
  intros E V U N K nrm pre acts x y n m d q e Hadm.
  assert (W : forall (z : ndarray E) a b, is_sample z a b -> is_sample (write_nd q e z) a b).
  { intros z a b H. exact H. }
  assert (Hadm' : admissible (write_nd q e x) y n m d).
  { destruct Hadm as [Hx Hy]. split; [apply W, Hx|exact Hy]. }
  assert (A : forall (x : ndarray E) y n m d, admissible x y n m d ->
    after N K nrm pre x y [] = attached (before N K nrm pre) x y n m d).
  { clear. intros x y n m d H. unfold after. rewrite run_app. cbn [run step]. rewrite state_fmap.
    change (run N pre (km_new K nrm [])) with (before N K nrm pre).
    rewrite (attach_to_ok _ x y n m d H). reflexivity. }
  split.
  - rewrite (A _ _ _ _ _ Hadm), (A _ _ _ _ _ Hadm'). f_equal. cbn [crun cstep].
    destruct y as [y|]; reflexivity.
  - intros y' ->.
    assert (Hadm2 : admissible x (Some (write_nd q e y')) n m d).
    { destruct Hadm as [Hx Hy]. split; [exact Hx|apply W, Hy]. }
    rewrite (A _ _ _ _ _ Hadm), (A _ _ _ _ _ Hadm2). reflexivity.
Qed.

(** C79 is false as stated: after [km.attach_to(X); km[0, 1]], modifying X makes [km.full] mix
    values from before and after: it is the kernel matrix neither of the old nor of the new X. *)
Lemma pf_C79_refuted :
  exists (V : Type) (N : numops V) (K : kernel V V) k x n d q e a,
    (forall x', never_raises K k x' None n n d) /\ admissible x None n n d /\
  outcome N OpFull (crun N [Call (OpGetItem (IFlat 1)); WSample q e]
                           (after (U:=Z) N K false [] x None [])) = Ok (OArr a) /\
  amat a <> kernel_matrix k n n d x None /\
  amat a <> kernel_matrix k n n d (write_nd q e x) None.
Proof.
  exists (option Z), toyN, dot, dotk, toyX, 3, 2, 0, (Some 7%Z).
  eexists. split; [intros; apply dot_total|]. split; [apply toyX_ok|].
  split; [vm_compute; reflexivity|]. split; vm_compute; discriminate.
Qed.

(** For two samples even the results computed after [full] are affected: the normalised matrix
    divides the old kernel values by the diagonals of the modified sample. *)
Lemma pf_C79_two_samples_refuted :
  exists (V : Type) (N : numops V) (K : kernel V V) k x y n m d q e,
    (forall x' y', never_raises K k x' y' n m d) /\ admissible x (Some y) n m d /\
  let s := after (U:=Z) N K false [] x (Some y) [OpFull] in
    is_ok (outcome N OpFull s) = true /\
  outcome N OpNormedKM (crun N [WSample q e] s) <> outcome N OpNormedKM s.
Proof.
  exists (option Z), (mkNumops (v_nan toyN) (v_zero toyN) (v_finite toyN) (op_normalize toyN)
    (fun a dx _ => Ok (mkArr Dense (mkMat 1 1 [[nth 0 dx None]]))) (op_center toyN) (op_frob toyN)),
    dot, dotk, toyA, toyB, 1, 1, 1, 0, (Some 5%Z).
  split; [intros; apply dot_total|]. split; [apply toyAB_ok|].
  split; [reflexivity|]. vm_compute. discriminate.
Qed.
