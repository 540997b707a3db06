(** C75: a KernelMatrix to which no sample could be attached. *)
From Coq Require Import String List Arith ZArith Bool Lia.
Import ListNotations.
From Verif Require Import Prelude MatModel UtilsModel IndexModel KMModel SpecKM KMInv KMProps.

(*BEGIN PROP*)
(** No attach_to in the history was accepted (there may have been attempts). *)
Definition never_attached {E U} (ops : list (op E U)) : Prop :=
  forall x y, In (OpAttach x y) ops -> accepts x y = false.

(** Operations that report about the kernel matrix, i.e. all but attach_to, the user attributes and
    num_samples. *)
Definition reports {E U} (o : op E U) : bool :=
  match o with
  | OpAttach _ _ | OpSetAttr _ _ | OpGetAttr _ | OpAttributes | OpNumSamples => false
  | _ => true
  end.
(*END PROP*)

Section Fresh.
  Context {E V U : Type}.
  Variable N : numops V.
  Variable K : kernel E V.
  Variable nrm : bool.

  (** States reachable without an accepted attach_to. *)
  Definition blank (one two : option (ndarray E)) (at_ : list (string * U)) : km E V U :=
    mkKM K nrm NSNone one two None None None None None None false false false false [] at_ 0 [] 0.

  Lemma blank_indices : forall ix, exists e, get_indices_in_sample None ix = Raise e.
  Proof.
    intros ix. unfold get_indices_in_sample. destruct ix as [z | a b st | l | e | ]; cbn; eauto.
    destruct (int_elts l) as [zs | e]; cbn; eauto. destruct zs; cbn; eauto.
  Qed.

  Lemma blank_attach : forall x y one two at_, accepts x y = false ->
    exists one' two' e, attach_to x y (blank one two at_) = (blank one' two' at_, Raise e).
  Proof.
    intros x y one two at_ Hacc.
    destruct (attach_to x y (blank one two at_)) as [s' [[]|e]] eqn:Hr.
    - apply attach_to_inv in Hr. destruct Hr as (n & m & d & H & _).
      assert (Ht : accepts x y = true) by (apply accepts_iff; eauto). congruence.
    - unfold attach_to, bind, lift, modify in Hr.
      destruct (ensure_2D_own x) as [a|e1]; [|inversion Hr; subst; eauto].
      destruct y as [y|]; [|discriminate].
      destruct (ensure_2D_own y) as [b|e2].
      + destruct (negb _); [| discriminate]. inversion Hr; subst. exists (Some a), (Some b), ValueError. reflexivity.
      + inversion Hr; subst. exists (Some a), two, e. reflexivity.
  Qed.

  Lemma blank_getitem : forall ix one two at_, exists e,
    getitem N ix (blank one two at_) = (blank one two at_, Raise e).
  Proof.
    intros ix one two at_. destruct ix as [a b | k |].
    - destruct (blank_indices a) as [e He]. exists e. unfold getitem, getitem_pair, bind, get, lift.
      cbn [k_shape blank option_map]. rewrite He. reflexivity.
    - eexists; reflexivity.
    - eexists; reflexivity.
  Qed.

  Lemma blank_report : forall o one two at_, reports o = true -> exists e,
    step N o (blank one two at_) = (blank one two at_, Raise e).
  Proof.
    intros o one two at_ Ho. destruct o; try discriminate Ho; unfold step, fmap.
    all: try (unfold bind; destruct (blank_getitem ix one two at_) as [e He]; rewrite He; eauto; fail).
    - destruct one; eexists; reflexivity.
    - unfold full_sparse, bind, get. cbn [k_keep_normed blank]. destruct nrm; eexists; reflexivity.
    - eexists; reflexivity.
    - eexists; reflexivity.
    - eexists; reflexivity.
    - eexists; reflexivity.
    - eexists; reflexivity.
    - eexists; reflexivity.
    - eexists; reflexivity.
    - eexists; reflexivity.
  Qed.

  Lemma blank_step : forall o one two at_, (forall x y, o = OpAttach x y -> accepts x y = false) ->
    exists one' two' at', fst (step N o (blank one two at_)) = blank one' two' at' /\
      (is_attach o = false -> one' = one).
  Proof.
    intros o one two at_ Ho. destruct (reports o) eqn:Hr.
    { destruct (blank_report o one two at_ Hr) as [e He]. rewrite He. cbn. eauto. }
    destruct o; try discriminate Hr.
    - destruct (blank_attach x y one two at_ (Ho x y eq_refl)) as (o' & t' & e & He).
      unfold step, fmap, bind. rewrite He. exists o', t', at_. split; [reflexivity | discriminate].
    - exists one, two, (dict_set at_ name value). split; reflexivity.
    - exists one, two, at_. split; reflexivity.
    - exists one, two, at_. split; reflexivity.
    - exists one, two, at_. split; reflexivity.
  Qed.

  Lemma blank_run : forall ops one two at_, never_attached ops ->
    exists one' two' at', run N ops (blank one two at_) = blank one' two' at' /\
      (no_attach ops -> one' = one).
  Proof.
    induction ops as [|o ops IH]; intros one two at_ Hn; [exists one, two, at_; split; reflexivity |].
    cbn [run].
    destruct (blank_step o one two at_) as (o1 & t1 & a1 & He & H1).
    { intros x y ->. apply Hn. left. reflexivity. }
    rewrite He. destruct (IH o1 t1 a1) as (o2 & t2 & a2 & He2 & H2).
    { intros x y Hi. apply Hn. right. exact Hi. }
    exists o2, t2, a2. split; [exact He2 |]. intros Hno. unfold no_attach in Hno.
    cbn [forallb] in Hno. apply andb_true_iff in Hno. destruct Hno as [Ha Hb].
    rewrite (H2 Hb). apply H1. destruct (is_attach o); [discriminate | reflexivity].
  Qed.

  Lemma no_attach_never : forall ops : list (op E U), no_attach ops -> never_attached ops.
  Proof.
    intros ops H x y Hi. unfold no_attach in H. rewrite forallb_forall in H.
    specialize (H _ Hi). discriminate.
  Qed.
End Fresh.

(** C75. As long as no attach_to has been accepted (rejected attempts, attributes and failed reads may
    have come before), every operation that reports about the kernel matrix raises an exception, the
    kernel is never called, and num_samples is None. *)
Lemma pf_C75_reports :
  forall {E V U} (N : numops V) (K : kernel E V) nrm (ops : list (op E U)) o,
    never_attached ops -> reports o = true ->
    exists e, outcome N o (before N K nrm ops) = Raise e.
Proof.
  intros E V U N K nrm ops o Hn Ho.
  destruct (blank_run N K nrm ops None None [] Hn) as (o1 & t1 & a1 & He & _).
  unfold outcome, before. change (km_new K nrm []) with (blank (U:=U) K nrm None None []). rewrite He.
  destruct (blank_report N K nrm o o1 t1 a1 Ho) as [e H]. exists e. rewrite H. reflexivity.
Qed.

(** C75. No kernel call is made, not even by the operations that raise. *)
Lemma pf_C75_no_calls :
  forall {E V U} (N : numops V) (K : kernel E V) nrm (ops : list (op E U)),
    never_attached ops -> g_calls (before N K nrm ops) = [].
Proof.
  intros E V U N K nrm ops Hn.
  destruct (blank_run N K nrm ops None None [] Hn) as (o1 & t1 & a1 & He & _).
  unfold before. change (km_new K nrm []) with (blank (U:=U) K nrm None None []). rewrite He. reflexivity.
Qed.

(** C75. num_samples is None. *)
Lemma pf_C75_num_samples :
  forall {E V U} (N : numops V) (K : kernel E V) nrm (ops : list (op E U)),
    never_attached ops -> outcome N OpNumSamples (before N K nrm ops) = Ok (ONum NSNone).
Proof.
  intros E V U N K nrm ops Hn.
  destruct (blank_run N K nrm ops None None [] Hn) as (o1 & t1 & a1 & He & _).
  unfold outcome, before. change (km_new K nrm []) with (blank (U:=U) K nrm None None []). rewrite He. reflexivity.
Qed.

(** C75. Before any attempt to attach a sample, full raises ValueError; a malformed index raises
    KMAccessError; everything else that reports about the matrix raises AttributeError, except that an
    index pair may be refused for its own sake first. *)
Lemma pf_C75_exceptions :
  forall {E V U} (N : numops V) (K : kernel E V) nrm (ops : list (op E U)) o,
    no_attach ops -> reports o = true ->
    outcome N o (before N K nrm ops) =
      Raise (match o with
             | OpFull => ValueError
             | OpGetItem IInvalid => KMAccessError
             | OpGetItem (IPair (IFails e) _) => e
             | OpGetItem (IPair (IIter l) _) =>
                 if forallb (fun e => match e with EInt _ => true | ENonInt => false end) l
                    && negb (Nat.eqb (length l) 0)
                 then AttributeError else KMAccessError
             | _ => AttributeError
             end).
Proof.
  intros E V U N K nrm ops o Hno Ho.
  destruct (blank_run N K nrm ops None None [] (no_attach_never ops Hno)) as (o1 & t1 & a1 & He & H1).
  unfold outcome, before. change (km_new K nrm []) with (blank (U:=U) K nrm None None []). rewrite He.
  rewrite (H1 Hno). clear - Ho.
  destruct o; try discriminate Ho; try reflexivity.
  - destruct nrm; reflexivity.
  - destruct ix as [a b | k |]; try reflexivity. destruct a as [z | p q st | l | e |]; try reflexivity.
    unfold step, fmap, getitem, getitem_pair. unfold bind at 1. unfold bind at 1, get.
    cbn [k_shape blank option_map].
    assert (Hg : get_indices_in_sample None (IIter l) =
      Raise (if forallb (fun e => match e with EInt _ => true | ENonInt => false end) l
                    && negb (Nat.eqb (length l) 0)
                 then AttributeError else KMAccessError)).
    { unfold get_indices_in_sample. cbn [rbind].
      assert (Hi : int_elts l = if forallb (fun e => match e with EInt _ => true | ENonInt => false end) l
        then Ok (map (fun e => match e with EInt z => z | ENonInt => 0%Z end) l) else Raise KMAccessError).
      { clear Ho. induction l as [|[z|] l IH]; [reflexivity | | reflexivity].
        cbn [int_elts forallb]. rewrite IH. destruct (forallb _ l); reflexivity. }
      rewrite Hi. destruct (forallb _ l); [| reflexivity]. destruct l; reflexivity. }
    rewrite Hg. reflexivity.
Qed.

(** C75 with rejected attempts: the ValueError of full is lost once attach_to(x, y) has stored x and then
    refused y; full then raises AttributeError. *)
Lemma pf_C75_rejected :
  forall {E V U} (N : numops V) (K : kernel E V) nrm (pre : list (op E U)) x y n d m d',
    never_attached pre -> is_sample x n d -> is_sample y m d' -> d <> d' ->
    outcome N OpFull (before N K nrm (pre ++ [OpAttach x (Some y)])) = Raise AttributeError.
Proof.
  intros E V U N K nrm pre x y n d m d' Hn Hx Hy Hd.
  unfold outcome, before. change (km_new K nrm []) with (blank (U:=U) K nrm None None []).
  destruct (blank_run N K nrm pre None None [] Hn) as (o1 & t1 & a1 & He & _).
  assert (Hr : forall ops' (s : km E V U), run N (pre ++ ops') s = run N ops' (run N pre s)).
  { clear. induction pre as [|o pre IH]; intros ops' s; [reflexivity | cbn; apply IH]. }
  rewrite Hr, He. cbn [run]. unfold step at 2. unfold fmap, attach_to.
  rewrite (ensure_2D_own_ok x n d Hx), (ensure_2D_own_ok y m d' Hy). cbn [nd_shape nth].
  apply Nat.eqb_neq in Hd. unfold bind, lift, modify. cbn [nd_shape nth]. rewrite Hd. reflexivity.
Qed.

(*BEGIN PROP*)
(** C75 applies: a failed read, a rejected sample (one axis), an attribute. *)
Example C75_example : forall {V} (N : numops V) (K : kernel nat V) nrm,
  never_attached (U:=nat) [OpFull; OpAttach (mkNd [3] [1; 2; 3]) None; OpSetAttr "a"%string 1] /\
  outcome (U:=nat) N OpFull
    (before N K nrm [OpFull; OpAttach (mkNd [3] [1; 2; 3]) None; OpSetAttr "a"%string 1]) = Raise ValueError.
Proof.
  intros V N K nrm. split; [| reflexivity].
  intros x y [H | [H | [H | []]]]; inversion H; reflexivity.
Qed.
(*END PROP*)
