(** C85: an attached KernelMatrix behaves like its reference object; C04: exactly what [full] is. *)
From Coq Require Import String List Arith ZArith Bool Lia.
Import ListNotations.
From Verif Require Import Prelude MatModel MatFacts UtilsModel IndexModel KMModel SpecKM SpecRef MFacts
  KMFacts KMInv KMOps KMIndex KMHist KMTotal KMGet KMTrack KMLog KMHist2 RefFacts ToyModel.

Local Open Scope list_scope.
Local Open Scope nat_scope.

Definition second {E} (x : ndarray E) (y : option (ndarray E)) : ndarray E :=
  match y with Some y' => y' | None => x end.

Lemma attached_abs : forall {E V U} (N : numops V) (K : kernel E V) k nrm (pre : list (op E U)) x y n m d,
  never_raises K k x y n m d -> admissible x y n m d ->
  abs N K k nrm (stored n d x) (stored2 n m d x y) (is_some y) n m d (g_calls (before N K nrm pre))
    (entry k d x y) (after N K nrm pre x y []) ref_new.
Proof.
  intros E V U N K k nrm pre x y n m d Hnr Hadm.
  rewrite (after_split N K nrm pre [] x y n m d Hadm). cbn [run].
  constructor; cbn.
  - apply attached_sane, Hadm.
  - exact I.
  - auto.
  - reflexivity.
  - discriminate.
  - reflexivity.
  - discriminate.
  - reflexivity.
  - reflexivity.
Qed.

Lemma self_second : forall {E V} (k : list E -> list E -> V) x y n m d, admissible x y n m d ->
  self_similarities k m d (second x y) = dY k (stored2 n m d x y) m d.
Proof.
  intros E V k x y n m d [_ H]. unfold self_similarities, dY, second, stored2, stored, row_of.
  destruct y as [y'|]; reflexivity.
Qed.

(** C85. After any history [pre] and an accepted attach_to, every further sequence of operations has
    exactly the outcomes of the reference object: for every kernel that never raises, with or without
    format(), symmetric or not, one or two samples, both values of normalized, any arithmetic. *)
Lemma pf_C85_reference :
  forall {E V U} (N : numops V) (K : kernel E V) k nrm (pre post : list (op E U)) x y n m d,
    never_raises K k x y n m d -> admissible x y n m d -> no_attach post ->
    ref_behaves N n m (entry k d x y) (self_similarities k n d x)
      (self_similarities k m d (match y with Some y' => y' | None => x end))
      (is_some y) nrm (kfmt K) post ref_new (trace N post (after N K nrm pre x y [])).
Proof.
  intros E V U N K k nrm pre post x y n m d Hnr Hadm Hno.
  assert (HA := attached_abs N K k nrm pre x y n m d Hnr Hadm).
  assert (T := trace_sim N K k nrm (stored n d x) (stored2 n m d x y) (is_some y) n m d _
                 (nr_stored K k x y n m d Hadm Hnr) eq_refl (stored2_shape x y n m d Hadm)
                 (stored2_one x y n m d Hadm) (entry k d x y) (truev_entry k x y n m d) post _ _ Hno HA).
  fold (second x y). rewrite (self_second k x y n m d Hadm). exact T.
Qed.

(** ** What the reference object keeps *)
Section Evolve.
  Context {E V U : Type}.
  Variables (N : numops V) (n m : nat) (F : nat -> nat -> V) (dx dy : list V) (two nrm fm : bool).
  Hypothesis Hone : two = false -> m = n.
  Notation does := (@ref_does E V U N n m F dx dy two nrm fm).
  Notation cur := (fun r : ref V U => Some (match r_mat r with None => (Dense, true) | Some c => c end)).

  Lemma request_mat : forall f low (r : ref V U),
    r_mat (fst (request N n m F fm f low r)) =
    Some (match r_mat r with None => (f, low) | Some (f', low') => (f', low' || low) end).
  Proof.
    intros f low r. unfold request, reported, bind, get, modify, raise, ret.
    destruct (_ && _); reflexivity.
  Qed.
  Lemma current_mat : forall r : ref V U, r_mat (fst (current N n m F fm r)) = cur r.
  Proof.
    intros r. unfold current. unfold bind, get. destruct (r_mat r) as [c|] eqn:Em; [exact Em|].
    rewrite request_mat, Em. reflexivity.
  Qed.

  (** Computations that do not touch the matrix. *)
  Definition calm {A} (a : M (ref V U) A) : Prop := forall r, r_mat (fst (a r)) = r_mat r.
  Lemma calm_bind : forall {A B} (a : M (ref V U) A) (f : A -> M (ref V U) B),
    calm a -> (forall v, calm (f v)) -> calm (bind a f).
  Proof.
    intros A B a f Ha Hf r. unfold bind. specialize (Ha r). destruct (a r) as [r' [v|e]]; cbn in *; [|exact Ha].
    rewrite Hf. exact Ha.
  Qed.
  Lemma calm_ret : forall {A} (v : A), calm (ret v).
  Proof. intros A v r. reflexivity. Qed.
  Lemma calm_get : calm get.
  Proof. intros r. reflexivity. Qed.
  Lemma calm_lift : forall {A} (v : res A), calm (lift v).
  Proof. intros A v r. reflexivity. Qed.
  Lemma calm_reported : forall a, calm (reported N fm a).
  Proof. intros a r. unfold reported. destruct (_ && _); reflexivity. Qed.
  Lemma after_current : forall {B} (g : arr V -> M (ref V U) B) r, (forall a, calm (g a)) ->
    r_mat (fst (bind (current N n m F fm) g r)) = cur r.
  Proof.
    intros B g r Hg. unfold bind. assert (H := current_mat r).
    destruct (current N n m F fm r) as [r' [a|e]]; cbn in *; [|exact H]. rewrite Hg. exact H.
  Qed.
  Lemma giving_mat : forall {A B} (f : A -> B) (a : M (ref V U) A) r,
    r_mat (fst (giving f a r)) = r_mat (fst (a r)).
  Proof. intros A B f a r. unfold giving, bind, ret. destruct (a r) as [r' [v|e]]; reflexivity. Qed.

  Lemma normalize_mat : forall meth (r : ref V U),
    r_mat (fst (ref_normalize N n m F dx dy two fm meth r)) = cur r.
  Proof.
    intros meth r. unfold ref_normalize. apply after_current. intros a.
    apply calm_bind; [apply calm_get|]. intros r0. destruct (r_norm r0); [apply calm_ret|].
    apply calm_bind; [apply calm_lift|]. intros nk. apply calm_bind; [intros r1; reflexivity|]. intros _.
    apply calm_bind; [apply calm_reported|]. intros _. apply calm_ret.
  Qed.
  (** Nothing has been computed from a matrix that is not there; a centred matrix comes from what is
      there, if only dense matrices can be centred. *)
  Definition ok_ref (r : ref V U) : Prop :=
    (r_norm r <> None -> r_mat r <> None) /\ (r_cent r <> None -> r_mat r <> None) /\
    (r_frob r <> None -> r_mat r <> None).

  Lemma normed_mat : forall (r : ref V U), ok_ref r ->
    r_mat (fst (ref_normed_km N n m F dx dy two fm r)) = cur r.
  Proof.
    intros r [Hr _]. unfold ref_normed_km. unfold bind at 1, get at 1.
    destruct (r_norm r) as [nk|] eqn:En.
    - cbn. destruct (r_mat r); [reflexivity|]. destruct (Hr ltac:(discriminate) eq_refl).
    - unfold bind at 1. assert (H := normalize_mat "cosine" r).
      destruct (ref_normalize N n m F dx dy two fm "cosine" r) as [r' [[]|e]]; cbn [fst snd] in *; [|exact H].
      unfold bind, get. destruct (r_norm r'); exact H.
  Qed.

  Lemma does_op : forall o r r' q, (forall ix, o <> OpGetItem ix) -> does o r r' q ->
    (r', q) = ref_op N n m F dx dy two nrm fm o r.
  Proof. intros o r r' q Ho H. destruct o; try exact H; [destruct H|destruct (Ho ix eq_refl)]. Qed.

  Lemma center_mat : forall r, r_mat (fst (ref_center N n m F fm r)) = cur r.
  Proof.
    intros r. unfold ref_center. apply after_current. intros a.
    apply calm_bind; [apply calm_lift|]. intros c. apply calm_bind; [intros r1; reflexivity|]. intros _. apply calm_ret.
  Qed.
  Lemma frob_mat : forall r, r_mat (fst (ref_frob_norm N n m F fm r)) = cur r.
  Proof.
    intros r. unfold ref_frob_norm. apply after_current. intros a.
    apply calm_bind; [apply calm_get|]. intros r0. destruct (r_frob r0); [apply calm_ret|].
    apply calm_bind; [apply calm_lift|]. intros c. apply calm_bind; [intros r1; reflexivity|]. intros _. apply calm_ret.
  Qed.
  Lemma full_mat : forall r, ok_ref r -> r_mat (fst (ref_full N n m F dx dy two nrm fm r)) = cur r.
  Proof.
    intros r Hok. unfold ref_full. destruct nrm.
    - unfold bind. assert (H := current_mat r).
      assert (Hk : ok_ref (fst (current N n m F fm r))).
      { destruct Hok as (H1 & H2 & H3). unfold current, request, reported, bind, get, modify, raise, ret.
        destruct (r_mat r) eqn:Em; cbn; [repeat split; cbn; rewrite Em; discriminate|].
        destruct (_ && _); cbn; repeat split; cbn; discriminate. }
      destruct (current N n m F fm r) as [r' [a|e]]; cbn [fst snd] in *; [|exact H].
      rewrite (normed_mat _ Hk), H. reflexivity.
    - apply after_current. intros a. apply calm_ret.
  Qed.

  Lemma dense_mat : forall o r r' q, ok_ref r -> asks_dense two nrm o -> does o r r' q -> r_mat r' = cur r.
  Proof.
    intros o r r' q Hok Ha Hd.
    apply does_op in Hd; [|intros ix ->; exact Ha].
    replace r' with (fst (ref_op N n m F dx dy two nrm fm o r)) by (rewrite <- Hd; reflexivity).
    clear Hd. destruct o; cbn in Ha; try contradiction; cbn [ref_op].
    - rewrite giving_mat. apply full_mat, Hok.
    - rewrite Ha, giving_mat. apply normed_mat, Hok.
    - rewrite Ha, giving_mat. apply center_mat.
    - rewrite Ha, giving_mat. unfold ref_centered. unfold bind at 1, get.
      destruct (r_cent r) as [c|] eqn:Ec; [|apply center_mat].
      destruct Hok as (_ & H2 & _). cbn. destruct (r_mat r); [reflexivity|]. destruct (H2 ltac:(congruence) eq_refl).
    - rewrite giving_mat. apply normalize_mat.
    - rewrite giving_mat. apply normed_mat, Hok.
    - rewrite giving_mat. apply frob_mat.
  Qed.

  Lemma sparse_mat : forall o r r' q, asks_sparse nrm o -> does o r r' q ->
    r_mat r' = Some (match r_mat r with None => (Lil, false) | Some c => c end).
  Proof.
    intros o r r' q [-> Hn] H. apply does_op in H; [|discriminate].
    replace r' with (fst (ref_op N n m F dx dy two nrm fm (@OpFullSparse E U) r)) by (rewrite <- H; reflexivity).
    cbn [ref_op]. rewrite giving_mat. unfold ref_full_sparse. rewrite Hn, request_mat.
    destruct (r_mat r) as [[f l]|]; [rewrite orb_false_r|]; reflexivity.
  Qed.

  Lemma whole_mat : forall o r r' q, asks_whole n m o -> does o r r' q ->
    r_mat r' = Some (match r_mat r with None => (Lil, true) | Some (f, _) => (f, true) end).
  Proof.
    intros o r r' q Ha H. destruct o; cbn in Ha; try contradiction. destruct Ha as [Hv Hs].
    cbn [ref_does] in H. destruct H as [(_ & _ & H)|[(rows & cols & _ & H1 & H2 & _)|(H & _)]].
    - replace r' with (fst (giving (@OArr V U) (request N n m F fm Lil true) r)) by (rewrite <- H; reflexivity).
      rewrite giving_mat, request_mat. destruct (r_mat r) as [[f l]|]; [rewrite orb_true_r|]; reflexivity.
    - destruct H2. 
      destruct (selection2_unique (mkNd [n] (repeat tt n)) (mkNd [n] (repeat tt n)) two n m
                  (fun Ht => conj eq_refl (Hone Ht)) ix _ _ _ _ Hs H1) as [<- <-].
      split; reflexivity.
    - contradiction.
  Qed.

  Lemma nothing_mat : forall o r r' q, asks_nothing two nrm n m o -> does o r r' q -> r_mat r' = r_mat r.
  Proof.
    intros o r r' q (H1 & H2 & H3) H. unfold asks_sparse in H2.
    destruct o; cbn in H1, H3; try tauto; cbn [ref_does ref_op] in H; try contradiction.
    - destruct nrm; tauto.
    - destruct two; [|contradiction H1; reflexivity]. injection H as -> _. reflexivity.
    - destruct two; [|contradiction H1; reflexivity]. injection H as -> _. reflexivity.
    - destruct two; injection H as -> _; reflexivity.
    - destruct H as [(A & B & _)|[(rows & cols & _ & _ & _ & -> & _)|(_ & -> & _)]]; [tauto|reflexivity|reflexivity].
    - injection H as -> _. reflexivity.
    - injection H as -> _. reflexivity.
    - injection H as -> _. reflexivity.
    - injection H as -> _. reflexivity.
    - injection H as -> _. reflexivity.
    - injection H as -> _. reflexivity.
  Qed.

  (** The reference object classifies the operations. *)
  Lemma classify : forall o r r' q, does o r r' q ->
    asks_dense two nrm o \/ asks_sparse nrm o \/ asks_whole n m o \/ asks_nothing two nrm n m o.
  Proof.
    intros o r r' q H. unfold asks_nothing, asks_sparse.
    destruct o; cbn; try tauto;
      try solve [right; right; right; repeat split; [tauto|intros [? _]; discriminate|tauto]].
    - destruct nrm; auto.
    - destruct two; [right; right; right|]; repeat split; auto; intros [? ?] || intros ?; discriminate.
    - destruct two; [right; right; right|]; repeat split; auto; intros [? ?] || intros ?; discriminate.
    - destruct H as [(A & B & _)|[(rows & cols & _ & H1 & H2 & _)|(H & _)]].
      + tauto.
      + right. right. right. repeat split; [tauto|intros [? _]; discriminate|]. intros [_ Hs]. destruct H2.
        destruct (selection2_unique (mkNd [n] (repeat tt n)) (mkNd [n] (repeat tt n)) two n m
                  (fun Ht => conj eq_refl (Hone Ht)) ix _ _ _ _ Hs H1) as [<- <-].
        split; reflexivity.
      + right. right. right. repeat split; [tauto|intros [? _]; discriminate|]. tauto.
  Qed.

  (** ** What was computed, and from what *)
  Notation st := (stored_as N n m F).
  Definition older (c0 c : fmt * bool) : Prop :=
    fst c0 = fst c /\ (snd c0 = true -> snd c = true) /\ (fst c0 = Dense \/ nrm = true -> snd c0 = true).
  Definition from (op : arr V -> res (arr V)) (r : ref V U) (v : arr V) : Prop :=
    exists c c0, r_mat r = Some c /\ older c0 c /\ op (st c0) = Ok v.
  Definition inv (r : ref V U) : Prop :=
    (forall c, r_mat r = Some c -> fst c = Dense \/ nrm = true -> snd c = true) /\
    (r_norm r <> None -> r_mat r <> None) /\
    (forall v, two = true -> r_norm r = Some v -> from (fun a => op_normalize2 N a dx dy) r v) /\
    (forall v, r_cent r = Some v -> from (op_center N) r v) /\
    (forall v, r_frob r = Some v -> exists c c0, r_mat r = Some c /\ older c0 c /\ op_frob N (st c0) = Ok v).
  Definition keeps_inv {A} (a : M (ref V U) A) : Prop := forall r, inv r -> inv (fst (a r)).

  Lemma older_refl : forall c, (fst c = Dense \/ nrm = true -> snd c = true) -> older c c.
  Proof. intros c H. split; auto. Qed.
  Lemma older_trans : forall a b c, older a b -> older b c -> older a c.
  Proof. intros a b c (H1 & H2 & H5) (H3 & H4 & H6). split; [congruence|split; auto]. Qed.

  Lemma inv_ok : forall r, inv r -> ok_ref r.
  Proof.
    intros r (_ & H1 & _ & H2 & H3). repeat split; [exact H1| |].
    - destruct (r_cent r) as [v|] eqn:E0; [|congruence]. destruct (H2 v eq_refl) as (c & c0 & -> & _). discriminate.
    - destruct (r_frob r) as [v|] eqn:E0; [|congruence]. destruct (H3 v eq_refl) as (c & c0 & -> & _). discriminate.
  Qed.

  (** The matrix may only grow. *)
  Lemma from_grow : forall op r c v, (forall c0, r_mat r = Some c0 -> older c0 c) -> from op r v ->
    from op (keep_mat c r) v.
  Proof.
    intros op r c v Hg (c1 & c0 & Hc & Ho & Hop). exists c, c0. split; [reflexivity|]. split; [|exact Hop].
    eapply older_trans; [exact Ho|auto].
  Qed.
  Lemma inv_grow : forall r c, (fst c = Dense \/ nrm = true -> snd c = true) -> (forall c0, r_mat r = Some c0 -> older c0 c) ->
    inv r -> inv (keep_mat c r).
  Proof.
    intros r c Hd Hg (H0 & H1 & Hn & H2 & H3). split; [|split; [|split; [|split]]]; cbn.
    - intros c0 Hc. injection Hc as <-. exact Hd.
    - discriminate.
    - intros v Ht Hv. apply from_grow; auto.
    - intros v Hv. apply from_grow; auto.
    - intros v Hv. destruct (H3 v Hv) as (c1 & c0 & Hc & Ho & Hop). exists c, c0. split; [reflexivity|].
      split; [|exact Hop]. eapply older_trans; [exact Ho|auto].
  Qed.

  Lemma request_inv : forall f low, (f = Dense \/ nrm = true -> low = true) -> keeps_inv (request N n m F fm f low).
  Proof.
    intros f low Hf r Hr.
    assert (HG : inv (keep_mat (match r_mat r with None => (f, low) | Some (f', low') => (f', low' || low) end) r)).
    { apply inv_grow; [| |exact Hr].
      - destruct Hr as (H0 & _). destruct (r_mat r) as [[f0 l0]|]; cbn; [|exact Hf].
        intros Hd. rewrite (H0 _ eq_refl Hd : l0 = true). reflexivity.
      - intros c0 Hc. assert (H0 := proj1 Hr _ Hc). rewrite Hc. destruct c0 as [f0 l0].
        split; cbn in *; [reflexivity|]. split; [intros ->; reflexivity|exact H0]. }
    unfold request, reported, bind, get, modify, raise, ret. destruct (_ && _); exact HG.
  Qed.

  Lemma current_inv : forall r, inv r ->
    let r1 := fst (current N n m F fm r) in
    inv r1 /\ r_norm r1 = r_norm r /\ r_cent r1 = r_cent r /\ r_frob r1 = r_frob r /\ r_attr r1 = r_attr r /\
    (forall a, snd (current N n m F fm r) = Ok a -> exists c, r_mat r1 = Some c /\ a = st c).
  Proof.
    intros r Hr. cbv zeta.
    assert (HC : current N n m F fm r =
                 match r_mat r with Some c => (r, Ok (st c)) | None => request N n m F fm Dense true r end).
    { unfold current, bind, get. destruct (r_mat r); reflexivity. }
    rewrite HC. clear HC. destruct (r_mat r) as [c|] eqn:Em.
    - cbn [fst snd ret]. split; [exact Hr|]. do 4 (split; [reflexivity|]).
      intros a Ha. injection Ha as <-. exists c. split; [exact Em|reflexivity].
    - split; [apply (request_inv Dense true (fun _ => eq_refl) r Hr)|].
      unfold request, reported, bind, get, modify, raise, ret; rewrite Em;
        destruct (_ && _); cbn; do 4 (split; [reflexivity|]); intros a Ha; inversion Ha; eexists; split; reflexivity.
  Qed.

  Lemma normalize_inv : forall meth, keeps_inv (ref_normalize N n m F dx dy two fm meth).
  Proof.
    intros meth r Hr. unfold ref_normalize. unfold bind at 1.
    destruct (current_inv r Hr) as (HI & _ & _ & _ & _ & Ha). cbv zeta in *.
    destruct (current N n m F fm r) as [r1 [a|e]]; cbn [fst snd] in *; [|exact HI].
    destruct (Ha a eq_refl) as (c & Hc & ->).
    unfold bind at 1, get. destruct (r_norm r1) eqn:En; [exact HI|].
    unfold bind at 1, lift.
    destruct (if two then op_normalize2 N (st c) dx dy else op_normalize N meth (st c)) as [nk|e] eqn:Eo; [|exact HI].
    assert (HJ : inv (mkRef (r_mat r1) (Some nk) (r_cent r1) (r_frob r1) (r_attr r1))).
    { destruct HI as (H0 & H1 & Hn & H2 & H3). split; [exact H0|]. split; [cbn; rewrite Hc; discriminate|].
      split; [|split; [exact H2|exact H3]]. intros v Ht Hv. injection Hv as <-. rewrite Ht in Eo.
      exists c, c. split; [exact Hc|]. split; [apply older_refl, (H0 _ Hc)|exact Eo]. }
    unfold bind, modify, reported, raise, ret. destruct (_ && _); exact HJ.
  Qed.
  Lemma normed_inv : keeps_inv (ref_normed_km N n m F dx dy two fm).
  Proof.
    intros r Hr. unfold ref_normed_km. unfold bind at 1, get at 1.
    destruct (r_norm r) as [nk|] eqn:En; [exact Hr|].
    unfold bind at 1. assert (H := normalize_inv "cosine" r Hr).
    destruct (ref_normalize N n m F dx dy two fm "cosine" r) as [r' [[]|e]]; cbn [fst snd] in *; [|exact H].
    unfold bind, get. destruct (r_norm r'); exact H.
  Qed.
  Lemma center_inv : keeps_inv (ref_center N n m F fm).
  Proof.
    intros r Hr. unfold ref_center. unfold bind at 1.
    destruct (current_inv r Hr) as (HI & _ & _ & _ & _ & Ha). cbv zeta in *.
    destruct (current N n m F fm r) as [r1 [a|e]]; cbn [fst snd] in *; [|exact HI].
    destruct (Ha a eq_refl) as (c & Hc & ->).
    unfold bind, lift, modify, ret. destruct (op_center N (st c)) as [v|e] eqn:Hop; [|exact HI].
    destruct HI as (H0 & H1 & Hn & H2 & H3). split; [exact H0|]. split; [exact H1|]. split; [exact Hn|]. split; [|exact H3].
    cbn. intros v0 Hv. injection Hv as <-. exists c, c. split; [exact Hc|]. split; [apply older_refl, (H0 _ Hc)|exact Hop].
  Qed.
  Lemma centered_inv : keeps_inv (ref_centered N n m F fm).
  Proof.
    intros r Hr. unfold ref_centered, bind, get. destruct (r_cent r); [exact Hr|]. apply center_inv, Hr.
  Qed.
  Lemma frob_inv : keeps_inv (ref_frob_norm N n m F fm).
  Proof.
    intros r Hr. unfold ref_frob_norm. unfold bind at 1.
    destruct (current_inv r Hr) as (HI & _ & _ & _ & _ & Ha). cbv zeta in *.
    destruct (current N n m F fm r) as [r1 [a|e]]; cbn [fst snd] in *; [|exact HI].
    destruct (Ha a eq_refl) as (c & Hc & ->).
    unfold bind at 1, get. destruct (r_frob r1); [exact HI|].
    unfold bind, lift, modify, ret. destruct (op_frob N (st c)) as [v|e] eqn:Hop; [|exact HI].
    destruct HI as (H0 & H1 & Hn & H2 & H3). split; [exact H0|]. split; [exact H1|]. split; [exact Hn|]. split; [exact H2|].
    cbn. intros v0 Hv. injection Hv as <-. exists c, c. split; [exact Hc|]. split; [apply older_refl, (H0 _ Hc)|exact Hop].
  Qed.
  Lemma full_inv : keeps_inv (ref_full N n m F dx dy two nrm fm).
  Proof.
    intros r Hr. unfold ref_full. unfold bind at 1.
    destruct (current_inv r Hr) as (HI & _). cbv zeta in *.
    destruct (current N n m F fm r) as [r1 [a|e]]; cbn [fst snd] in *; [|exact HI].
    destruct nrm; [apply normed_inv, HI|exact HI].
  Qed.
  Lemma giving_inv : forall {A B} (f : A -> B) (a : M (ref V U) A), keeps_inv a -> keeps_inv (giving f a).
  Proof.
    intros A B f a Ha r Hr. specialize (Ha r Hr). unfold giving, bind, ret. destruct (a r) as [r' [v|e]]; exact Ha.
  Qed.

  Lemma does_inv : forall o r r' q, does o r r' q -> inv r -> inv r'.
  Proof.
    intros o r r' q H Hr.
    assert (HO : (forall ix, o <> OpGetItem ix) -> inv r').
    { intros Ho. apply does_op in H; [|exact Ho].
      replace r' with (fst (ref_op N n m F dx dy two nrm fm o r)) by (rewrite <- H; reflexivity). clear H.
      destruct o; cbn [ref_op]; try exact Hr.
      - apply giving_inv; [apply full_inv|exact Hr].
      - apply giving_inv; [|exact Hr]. unfold ref_full_sparse. destruct nrm eqn:Hq; [apply normed_inv|apply request_inv; rewrite Hq; intros [?|?]; discriminate].
      - destruct two; [exact Hr|]. apply giving_inv; [apply center_inv|exact Hr].
      - destruct two; [exact Hr|]. apply giving_inv; [apply centered_inv|exact Hr].
      - apply giving_inv; [apply normalize_inv|exact Hr].
      - apply giving_inv; [apply normed_inv|exact Hr].
      - apply giving_inv; [apply frob_inv|exact Hr].
      - destruct two; exact Hr. }
    destruct o; try (apply HO; discriminate).
    cbn [ref_does] in H. destruct H as [(_ & _ & H)|[(rows & cols & _ & H1 & H2 & -> & _)|(_ & -> & _)]]; try exact Hr.
    replace r' with (fst (giving (@OArr V U) (request N n m F fm Lil true) r)) by (rewrite <- H; reflexivity).
    apply giving_inv; [apply request_inv; reflexivity|exact Hr].
  Qed.

  (** ** The runs of the reference object *)
  Inductive rrun : list (op E U) -> ref V U -> ref V U -> Prop :=
  | rr_nil : forall r, rrun [] r r
  | rr_cons : forall o ops r r' r'' q, does o r r' q -> rrun ops r' r'' -> rrun (o :: ops) r r''.

  Definition as_mat (c : left_behind) : option (fmt * bool) :=
    match c with LNothing => None | LDense => Some (Dense, true) | LWhole => Some (Lil, true) | LUpper => Some (Lil, false) end.

  Lemma rrun_inv : forall ops r r', rrun ops r r' -> inv r -> inv r'.
  Proof. intros ops r r' H. induction H; [auto|]. intros Hr. eapply IHrrun, does_inv; eassumption. Qed.

  (** Once there is a complete or a dense matrix it stays. *)
  Lemma rrun_full : forall ops r r', rrun ops r r' -> inv r -> forall f, r_mat r = Some (f, true) -> r_mat r' = Some (f, true).
  Proof.
    intros ops r r' H. induction H as [|o ops r r' r'' q Hd Hrun IH]; [auto|]. intros Hr f Hf.
    apply IH; [eapply does_inv; eassumption|].
    destruct (classify _ _ _ _ Hd) as [A|[A|[A|A]]].
    - rewrite (dense_mat _ _ _ _ (inv_ok _ Hr) A Hd), Hf. reflexivity.
    - rewrite (sparse_mat _ _ _ _ A Hd), Hf. reflexivity.
    - rewrite (whole_mat _ _ _ _ A Hd), Hf. reflexivity.
    - rewrite (nothing_mat _ _ _ _ A Hd), Hf. reflexivity.
  Qed.
  Lemma asks_nothing_whole : forall o : op E U, asks_nothing two nrm n m o -> ~ asks_whole n m o.
  Proof. intros o (_ & _ & H). exact H. Qed.
  Lemma dense_not_whole : forall o : op E U, asks_dense two nrm o -> ~ asks_whole n m o.
  Proof. intros o H. destruct o; cbn in *; tauto. Qed.
  Lemma sparse_not_whole : forall o : op E U, asks_sparse nrm o -> ~ asks_whole n m o.
  Proof. intros o [-> _]. cbn. tauto. Qed.
  Lemma rrun_upper : forall ops r r', rrun ops r r' -> inv r -> r_mat r = Some (Lil, false) ->
    (Exists (asks_whole n m) ops /\ r_mat r' = Some (Lil, true)) \/
    (Forall (fun o => ~ asks_whole n m o) ops /\ r_mat r' = Some (Lil, false)).
  Proof.
    intros ops r r' H. induction H as [|o ops r r' r'' q Hd Hrun IH]; [auto|]. intros Hr Hf.
    assert (Hr' := does_inv _ _ _ _ Hd Hr).
    destruct (classify _ _ _ _ Hd) as [A|[A|[A|A]]].
    - assert (H1 := dense_mat _ _ _ _ (inv_ok _ Hr) A Hd). cbv beta in H1. rewrite Hf in H1.
      destruct (IH Hr' H1) as [[? ?]|[? ?]]; [left|right]; split; auto. constructor; [apply dense_not_whole|]; auto.
    - assert (H1 := sparse_mat _ _ _ _ A Hd). rewrite Hf in H1.
      destruct (IH Hr' H1) as [[? ?]|[? ?]]; [left|right]; split; auto. constructor; [apply sparse_not_whole|]; auto.
    - left. split; [constructor; exact A|]. assert (H1 := whole_mat _ _ _ _ A Hd). rewrite Hf in H1.
      eapply rrun_full; eassumption.
    - assert (H1 := nothing_mat _ _ _ _ A Hd). rewrite Hf in H1.
      destruct (IH Hr' H1) as [[? ?]|[? ?]]; [left|right]; split; auto. constructor; [apply asks_nothing_whole|]; auto.
  Qed.

  Lemma first_cons : forall o rest (ops : list (op E U)) o', asks_nothing two nrm n m o' ->
    first_request two nrm n m ops o rest -> first_request two nrm n m (o' :: ops) o rest.
  Proof. intros o rest ops o' Ho (idle & -> & HF). exists (o' :: idle). split; [reflexivity|]. constructor; assumption. Qed.
  Lemma first_here : forall (o : op E U) rest, first_request two nrm n m (o :: rest) o rest.
  Proof. intros o rest. exists []. split; [reflexivity|constructor]. Qed.

  Lemma rrun_leaves : forall ops r r', rrun ops r r' -> inv r -> r_mat r = None ->
    exists c, leaves two nrm n m ops c /\ r_mat r' = as_mat c.
  Proof.
    intros ops r r' H. induction H as [|o ops r r' r'' q Hd Hrun IH].
    { intros _ Hf. exists LNothing. split; [constructor|exact Hf]. }
    intros Hr Hf.
    assert (Hr' := does_inv _ _ _ _ Hd Hr).
    destruct (classify _ _ _ _ Hd) as [A|[A|[A|A]]].
    - assert (H1 := dense_mat _ _ _ _ (inv_ok _ Hr) A Hd). cbv beta in H1. rewrite Hf in H1.
      exists LDense. split; [exists o, ops; split; [apply first_here|exact A]|]. eapply rrun_full; eassumption.
    - assert (H1 := sparse_mat _ _ _ _ A Hd). rewrite Hf in H1.
      destruct (rrun_upper _ _ _ Hrun Hr' H1) as [[H2 H3]|[H2 H3]].
      + exists LWhole. split; [|exact H3]. exists o, ops. split; [apply first_here|auto].
      + exists LUpper. split; [|exact H3]. exists o, ops. split; [apply first_here|auto].
    - assert (H1 := whole_mat _ _ _ _ A Hd). rewrite Hf in H1.
      exists LWhole. split; [exists o, ops; split; [apply first_here|auto]|]. eapply rrun_full; eassumption.
    - assert (H1 := nothing_mat _ _ _ _ A Hd). rewrite Hf in H1.
      destruct (IH Hr' H1) as (c & Hc & Hm). exists c. split; [|exact Hm].
      destruct c; cbn in *.
      + constructor; assumption.
      + destruct Hc as (o1 & rest & Hq & Hx). exists o1, rest. split; [apply first_cons; assumption|exact Hx].
      + destruct Hc as (o1 & rest & Hq & Hx). exists o1, rest. split; [apply first_cons; assumption|exact Hx].
      + destruct Hc as (o1 & rest & Hq & Hx). exists o1, rest. split; [apply first_cons; assumption|exact Hx].
  Qed.

  (** The norm is computed by frob_norm only. *)
  Lemma request_frob : forall f low (r : ref V U), r_frob (fst (request N n m F fm f low r)) = r_frob r.
  Proof. intros f low r. unfold request, reported, bind, get, modify, raise, ret. destruct (_ && _); reflexivity. Qed.
  Lemma current_frob : forall (r : ref V U), r_frob (fst (current N n m F fm r)) = r_frob r.
  Proof. intros r. unfold current, bind, get. destruct (r_mat r); [reflexivity|]. apply request_frob. Qed.
  Lemma normalize_frob : forall meth (r : ref V U), r_frob (fst (ref_normalize N n m F dx dy two fm meth r)) = r_frob r.
  Proof.
    intros meth r. unfold ref_normalize. unfold bind at 1. assert (H := current_frob r).
    destruct (current N n m F fm r) as [r1 [a|e]]; cbn [fst snd] in *; [|exact H].
    unfold bind at 1, get. destruct (r_norm r1) eqn:En; [exact H|].
    unfold bind at 1, lift. destruct (if two then _ else _) as [nk|e]; [|exact H].
    unfold bind, modify, reported, raise, ret. destruct (_ && _); exact H.
  Qed.
  Lemma normed_frob : forall (r : ref V U), r_frob (fst (ref_normed_km N n m F dx dy two fm r)) = r_frob r.
  Proof.
    intros r. unfold ref_normed_km. unfold bind at 1, get at 1.
    destruct (r_norm r) as [nk|] eqn:En; [reflexivity|].
    unfold bind at 1. assert (H := normalize_frob "cosine" r).
    destruct (ref_normalize N n m F dx dy two fm "cosine" r) as [r' [[]|e]]; cbn [fst snd] in *; [|exact H].
    unfold bind, get. destruct (r_norm r'); exact H.
  Qed.
  Lemma center_frob : forall (r : ref V U), r_frob (fst (ref_center N n m F fm r)) = r_frob r.
  Proof.
    intros r. unfold ref_center. unfold bind at 1. assert (H := current_frob r).
    destruct (current N n m F fm r) as [r1 [a|e]]; cbn [fst snd] in *; [|exact H].
    unfold bind, lift, modify, ret. destruct (op_center N a); exact H.
  Qed.
  Lemma giving_frob : forall {A B} (f : A -> B) (a : M (ref V U) A) r,
    r_frob (fst (giving f a r)) = r_frob (fst (a r)).
  Proof. intros A B f a r. unfold giving, bind, ret. destruct (a r) as [r' [v|e]]; reflexivity. Qed.
  Lemma does_frob : forall o r r' q, does o r r' q -> o <> OpFrobNorm -> r_frob r' = r_frob r.
  Proof.
    intros o r r' q H Hn.
    assert (HO : (forall ix, o <> OpGetItem ix) -> r_frob r' = r_frob r).
    { intros Ho. apply does_op in H; [|exact Ho].
      replace r' with (fst (ref_op N n m F dx dy two nrm fm o r)) by (rewrite <- H; reflexivity). clear H.
      destruct o; cbn [ref_op]; try reflexivity; try (rewrite giving_frob).
      - unfold ref_full. unfold bind at 1. assert (H := current_frob r).
        destruct (current N n m F fm r) as [r1 [a|e]]; cbn [fst snd] in *; [|exact H].
        destruct nrm; [rewrite normed_frob; exact H|exact H].
      - unfold ref_full_sparse. destruct nrm; [apply normed_frob|apply request_frob].
      - destruct two; [reflexivity|]. rewrite giving_frob. apply center_frob.
      - destruct two; [reflexivity|]. rewrite giving_frob. unfold ref_centered, bind, get.
        destruct (r_cent r); [reflexivity|]. apply center_frob.
      - apply normalize_frob.
      - apply normed_frob.
      - contradiction.
      - destruct two; reflexivity. }
    destruct o; try (apply HO; discriminate).
    cbn [ref_does] in H. destruct H as [(_ & _ & H)|[(rows & cols & _ & H1 & H2 & -> & _)|(_ & -> & _)]]; try reflexivity.
    replace r' with (fst (giving (@OArr V U) (request N n m F fm Lil true) r)) by (rewrite <- H; reflexivity).
    rewrite giving_frob. apply request_frob.
  Qed.
  Lemma rrun_frob : forall ops r r', rrun ops r r' -> ~ In OpFrobNorm ops -> r_frob r' = r_frob r.
  Proof.
    intros ops r r' H. induction H as [|o ops r r' r'' q Hd Hrun IH]; [reflexivity|]. intros Hn.
    rewrite IH; [|intros Hi; apply Hn; right; exact Hi].
    apply (does_frob _ _ _ _ Hd). intros ->. apply Hn. left. reflexivity.
  Qed.
  (** Once computed it stays. *)
  Lemma does_frob_some : forall o r r' q v, does o r r' q -> r_mat r <> None -> r_frob r = Some v -> r_frob r' = Some v.
  Proof.
    intros o r r' q v H Hm Hv.
    destruct o; try (rewrite (does_frob _ _ _ _ H); [exact Hv|discriminate]).
    apply does_op in H; [|discriminate]. cbn [ref_op] in H.
    replace r' with (fst (giving (@OVal V U) (ref_frob_norm N n m F fm) r)) by (rewrite <- H; reflexivity).
    rewrite giving_frob. unfold ref_frob_norm, current. unfold bind, get, ret.
    destruct (r_mat r); [|contradiction]. rewrite Hv. exact Hv.
  Qed.
  Lemma rrun_frob_some : forall ops r r', rrun ops r r' -> inv r -> forall v, r_frob r = Some v -> r_frob r' = Some v.
  Proof.
    intros ops r r' H. induction H as [|o ops r r' r'' q Hd Hrun IH]; [auto|]. intros Hr v Hv.
    apply IH; [eapply does_inv; eassumption|]. eapply does_frob_some; [exact Hd| |exact Hv].
    destruct Hr as (_ & _ & _ & _ & H3). destruct (H3 v Hv) as (c & c0 & -> & _). discriminate.
  Qed.
End Evolve.

(** ** An attached KernelMatrix is in a state of the reference object *)
Lemma attached_run : forall {E V U} (N : numops V) (K : kernel E V) k nrm (pre post : list (op E U)) x y n m d,
  never_raises K k x y n m d -> admissible x y n m d -> no_attach post ->
  let X := stored n d x in let Y := stored2 n m d x y in
  exists r, abs N K k nrm X Y (is_some y) n m d (g_calls (before N K nrm pre)) (entry k d x y)
              (after N K nrm pre x y post) r /\
            rrun N n m (entry k d x y) (dX k X n d) (dY k Y m d) (is_some y) nrm (kfmt K) post ref_new r.
Proof.
  intros E V U N K k nrm pre post x y n m d Hnr Hadm Hno X Y.
  assert (HA := attached_abs N K k nrm pre x y n m d Hnr Hadm).
  assert (HR : after N K nrm pre x y post = run N post (after N K nrm pre x y [])).
  { rewrite (after_split N K nrm pre post x y n m d Hadm), (after_split N K nrm pre [] x y n m d Hadm).
    reflexivity. }
  rewrite HR. clear HR. fold X Y in HA.
  revert HA. generalize (@ref_new V U) as r0. generalize (after N K nrm pre x y []) as s.
  induction post as [|o post IH]; intros s r0 HA.
  - exists r0. split; [exact HA|constructor].
  - unfold no_attach in Hno. cbn [forallb] in Hno. apply andb_true_iff in Hno. destruct Hno as [Ho Hno].
    apply negb_true_iff in Ho.
    destruct (step_sim N K k nrm X Y (is_some y) n m d _ (nr_stored K k x y n m d Hadm Hnr) eq_refl
                (stored2_shape x y n m d Hadm) (stored2_one x y n m d Hadm) (entry k d x y)
                (truev_entry k x y n m d) o s r0 Ho HA) as (r1 & Hd & HA1).
    destruct (IH Hno _ _ HA1) as (r & HAr & Hrun).
    exists r. split; [exact HAr|]. econstructor; eassumption.
Qed.

Lemma inv_new : forall {V U} (N : numops V) n m F dx dy two nrm, inv N n m F dx dy two nrm (@ref_new V U).
Proof.
  intros V U N n m F dx dy two nrm. split; [discriminate|]. split; [cbn; congruence|]. split; [discriminate|].
  split; discriminate.
Qed.

(** One more operation, on the reference object. *)
Lemma attached_step : forall {E V U} (N : numops V) (K : kernel E V) k nrm (pre post : list (op E U)) x y n m d o,
  never_raises K k x y n m d -> admissible x y n m d -> no_attach post -> is_attach o = false ->
  let F := entry k d x y in let dx := self_similarities k n d x in
  let dy := self_similarities k m d (second x y) in
  exists c r r', leaves (is_some y) nrm n m post c /\ r_mat r = as_mat c /\ inv N n m F dx dy (is_some y) nrm r /\
    rrun N n m F dx dy (is_some y) nrm (kfmt K) post ref_new r /\
    ref_does N n m F dx dy (is_some y) nrm (kfmt K) o r r' (outcome N o (after N K nrm pre x y post)).
Proof.
  intros E V U N K k nrm pre post x y n m d o Hnr Hadm Hno Ho F dx dy.
  unfold dy. rewrite (self_second k x y n m d Hadm).
  destruct (attached_run N K k nrm pre post x y n m d Hnr Hadm Hno) as (r & HA & Hrun).
  destruct (step_sim N K k nrm _ _ (is_some y) n m d _ (nr_stored K k x y n m d Hadm Hnr) eq_refl
              (stored2_shape x y n m d Hadm) (stored2_one x y n m d Hadm) (entry k d x y)
              (truev_entry k x y n m d) o _ r Ho HA) as (r' & Hd & _).
  assert (Hone : is_some y = false -> m = n) by (intros H; apply (stored2_one x y n m d Hadm H)).
  destruct (rrun_leaves N n m _ _ _ (is_some y) nrm (kfmt K) Hone post ref_new r Hrun (inv_new N _ _ _ _ _ _ _) eq_refl)
    as (c & Hc & Hm).
  exists c, r, r'. split; [exact Hc|]. split; [exact Hm|]. split; [|split; [exact Hrun|exact Hd]].
  exact (rrun_inv N n m _ _ _ (is_some y) nrm (kfmt K) Hone post ref_new r Hrun (inv_new N _ _ _ _ _ _ _)).
Qed.

Lemma current_left : forall {E V U} (N : numops V) (K : kernel E V) k n m d x y c (r : ref V U),
  r_mat r = as_mat c ->
  exists r', r_frob r' = r_frob r /\ r_cent r' = r_cent r /\ r_norm r' = r_norm r /\
  current N n m (entry k d x y) (kfmt K) r =
  (r', if first_fails N K k n m d x y c then Raise TypeError else Ok (left_matrix N k n m d x y c)).
Proof.
  intros E V U N K k n m d x y c r Hm. unfold current, request, reported, bind, get, modify.
  destruct c; cbn [as_mat] in Hm; rewrite Hm; cbn [first_fails left_matrix].
  - exists (keep_mat (Dense, true) r). do 3 (split; [reflexivity|]). rewrite Hm.
    change (stored_as N n m (entry k d x y) (Dense, true)) with (mkArr Dense (kernel_matrix k n m d x y)).
    unfold unreportable. cbn [amat].
    destruct (negb (kfmt K) && negb (mall (v_finite N) (kernel_matrix k n m d x y))); reflexivity.
  - exists r. do 3 (split; [reflexivity|]). reflexivity.
  - exists r. do 3 (split; [reflexivity|]). reflexivity.
  - exists r. do 3 (split; [reflexivity|]). reflexivity.
Qed.

(** C04, exactly. With normalized=False, [full] is, after every history, the matrix that the history
    left behind: the whole matrix as a dense array if the first request was for a dense one (or there
    was none), the whole matrix in sparse format if km[:, :] came first or followed full_sparse, and
    only its upper triangle if full_sparse came first and km[:, :] never. *)
Lemma pf_C04_exact :
  forall {E V U} (N : numops V) (K : kernel E V) k (pre post : list (op E U)) x y n m d,
    never_raises K k x y n m d -> admissible x y n m d -> no_attach post ->
    exists c, leaves (is_some y) false n m post c /\
      outcome N OpFull (after N K false pre x y post) =
      (if first_fails N K k n m d x y c then Raise TypeError
       else Ok (OArr (left_matrix N k n m d x y c))).
Proof.
  intros E V U N K k pre post x y n m d Hnr Hadm Hno.
  destruct (attached_step N K k false pre post x y n m d OpFull Hnr Hadm Hno eq_refl)
    as (c & r & r' & Hc & Hm & HI & Hrun & Hd).
  exists c. split; [exact Hc|]. cbv zeta in Hd. cbn [ref_does ref_op] in Hd.
  destruct (current_left N K k n m d x y c r Hm) as (r1 & _ & _ & _ & Hcur).
  unfold giving, ref_full, bind in Hd. rewrite Hcur in Hd.
  destruct (first_fails N K k n m d x y c); injection Hd as _ Hq; exact Hq.
Qed.

(** C61, exactly. The first frob_norm is the norm of what the history left behind. *)
Lemma pf_C61_exact :
  forall {E V U} (N : numops V) (K : kernel E V) k nrm (pre post : list (op E U)) x y n m d,
    never_raises K k x y n m d -> admissible x y n m d -> no_attach post -> ~ In OpFrobNorm post ->
    exists c, leaves (is_some y) nrm n m post c /\
      outcome N OpFrobNorm (after N K nrm pre x y post) =
      (if first_fails N K k n m d x y c then Raise TypeError
       else res_map OVal (op_frob N (left_matrix N k n m d x y c))).
Proof.
  intros E V U N K k nrm pre post x y n m d Hnr Hadm Hno Hni.
  destruct (attached_step N K k nrm pre post x y n m d OpFrobNorm Hnr Hadm Hno eq_refl)
    as (c & r & r' & Hc & Hm & HI & Hrun & Hd).
  exists c. split; [exact Hc|]. cbv zeta in Hd. cbn [ref_does ref_op] in Hd.
  destruct (current_left N K k n m d x y c r Hm) as (r1 & Hf & _ & _ & Hcur).
  assert (Hone : is_some y = false -> m = n) by (intros H; apply (stored2_one x y n m d Hadm H)).
  assert (Hfn := rrun_frob N n m _ _ _ (is_some y) nrm (kfmt K) Hone post ref_new r Hrun Hni). cbn in Hfn.
  unfold giving, ref_frob_norm, bind in Hd. rewrite Hcur in Hd.
  destruct (first_fails N K k n m d x y c); [injection Hd as _ Hq; exact Hq|].
  unfold get, lift, modify, ret in Hd. rewrite Hf, Hfn in Hd.
  destruct (op_frob N (left_matrix N k n m d x y c)); injection Hd as _ Hq; exact Hq.
Qed.

(** C61. A norm that was returned once is returned ever after, until the next attach_to. *)
Lemma pf_C61_steady :
  forall {E V U} (N : numops V) (K : kernel E V) k nrm (pre post post2 : list (op E U)) x y n m d v,
    never_raises K k x y n m d -> admissible x y n m d -> no_attach post -> no_attach post2 ->
    outcome N OpFrobNorm (after N K nrm pre x y post) = Ok (OVal v) ->
    outcome N OpFrobNorm (after N K nrm pre x y (post ++ OpFrobNorm :: post2)) = Ok (OVal v).
Proof.
  intros E V U N K k nrm pre post post2 x y n m d v Hnr Hadm Hno Hno2 Hv.
  assert (HnA : no_attach (post ++ OpFrobNorm :: post2)).
  { unfold no_attach in *. rewrite forallb_app, Hno. exact Hno2. }
  set (X := stored n d x). set (Y := stored2 n m d x y).
  destruct (attached_run N K k nrm pre post x y n m d Hnr Hadm Hno) as (r & HA & Hrun).
  assert (SS := fun (o : op E U) s r => step_sim N K k nrm X Y (is_some y) n m d (g_calls (before N K nrm pre))
              (nr_stored K k x y n m d Hadm Hnr) eq_refl
              (stored2_shape x y n m d Hadm) (stored2_one x y n m d Hadm) (entry k d x y)
              (truev_entry k x y n m d) o s r).
  assert (Hone : is_some y = false -> m = n) by (intros H; apply (stored2_one x y n m d Hadm H)).
  assert (HI := rrun_inv N n m _ _ _ (is_some y) nrm (kfmt K) Hone post ref_new r Hrun (inv_new N _ _ _ _ _ _ _)).
  destruct (SS OpFrobNorm _ r eq_refl HA) as (r1 & Hd1 & HA1).
  change (snd (step N OpFrobNorm (after N K nrm pre x y post))) with (outcome N OpFrobNorm (after N K nrm pre x y post)) in Hd1.
  rewrite Hv in Hd1.
  assert (Hf1 : r_frob r1 = Some v /\ r_mat r1 <> None).
  { cbn [ref_does ref_op] in Hd1. unfold giving, ref_frob_norm in Hd1. unfold bind at 1 2 in Hd1.
    destruct (current_inv N n m _ (dX k X n d) (dY k Y m d) (is_some y) nrm (kfmt K) r HI) as (_ & _ & _ & _ & _ & Ha).
    cbv zeta in Ha.
    destruct (current N n m (entry k d x y) (kfmt K) r) as [r0 [a|e]]; cbn [fst snd] in *; [|discriminate].
    destruct (Ha a eq_refl) as (c & Hc & ->). 
    unfold bind, get, lift, modify, ret in Hd1. destruct (r_frob r0) as [v0|] eqn:E0.
    - injection Hd1 as -> ->. split; [exact E0|rewrite Hc; discriminate].
    - destruct (op_frob N _); [|discriminate]. injection Hd1 as -> ->. split; [reflexivity|cbn; rewrite Hc; discriminate]. }
  assert (HI1 := does_inv N n m _ _ _ (is_some y) nrm (kfmt K) Hone OpFrobNorm _ _ _ Hd1 HI).
  assert (HR : after N K nrm pre x y (post ++ OpFrobNorm :: post2)
               = run N post2 (fst (step N OpFrobNorm (after N K nrm pre x y post)))).
  { rewrite (after_split N K nrm pre _ x y n m d Hadm), (after_split N K nrm pre post x y n m d Hadm).
    rewrite run_app. reflexivity. }
  rewrite HR. clear HR. revert HA1. generalize (fst (step N OpFrobNorm (after N K nrm pre x y post))) as s.
  destruct Hf1 as [Hf1 _]. clear Hd1. revert r1 Hf1 HI1.
  induction post2 as [|o post2 IH]; intros r1 Hf1 HI1 s HA1.
  - cbn [run]. destruct (SS OpFrobNorm _ r1 eq_refl HA1) as (r2 & Hd2 & _).
    unfold outcome. cbn [ref_does ref_op] in Hd2. unfold giving, ref_frob_norm, current, bind, get in Hd2.
    destruct HI1 as (_ & _ & _ & _ & H3). destruct (H3 v Hf1) as (c & c0 & Hc & _).
    rewrite Hc in Hd2. cbn [ret] in Hd2. unfold ret in Hd2. rewrite Hf1 in Hd2. injection Hd2 as _ Hq. exact Hq.
  - unfold no_attach in Hno2. cbn [forallb is_attach negb andb] in Hno2. apply andb_true_iff in Hno2.
    destruct Hno2 as [Ho Hno2]. apply negb_true_iff in Ho.
    destruct (SS o s r1 Ho HA1) as (r2 & Hd2 & HA2).
    apply (IH Hno2) with (r1 := r2).
    + unfold no_attach in *. rewrite forallb_app in *. cbn [forallb] in *.
      apply andb_true_iff in HnA. destruct HnA as [-> _]. exact Hno2.
    + eapply does_frob_some; [exact Hone|exact Hd2| |exact Hf1]. destruct HI1 as (_ & _ & _ & _ & H3).
      destruct (H3 v Hf1) as (c & c0 & -> & _). discriminate.
    + eapply does_inv; eassumption.
    + exact HA2.
Qed.

Lemma centered_generic :
  forall {E V U} (N : numops V) (K : kernel E V) k nrm (pre post : list (op E U)) x n d err,
    (forall M, op_center N (mkArr Lil M) = Raise err) ->
    never_raises K k x None n n d -> admissible x None n n d -> no_attach post ->
    exists c, leaves false nrm n n post c /\
      outcome N OpCentered (after N K nrm pre x None post) =
      (if first_fails N K k n n d x None c then Raise TypeError
       else res_map OArr (op_center N (left_matrix N k n n d x None c))).
Proof.
  intros E V U N K k nrm pre post x n d err Hlil Hnr Hadm Hno.
  destruct (attached_step N K k nrm pre post x None n n d OpCentered Hnr Hadm Hno eq_refl)
    as (c & r & r' & Hc & Hm & HI & Hrun & Hd).
  exists c. split; [exact Hc|]. cbv zeta in Hd. cbn [ref_does ref_op is_some] in Hd.
  destruct (current_left N K k n n d x None c r Hm) as (r1 & _ & _ & _ & Hcur).
  unfold giving, ref_centered in Hd. unfold bind at 1 2, get in Hd.
  destruct (r_cent r) as [v|] eqn:Ec.
  - destruct HI as (_ & _ & _ & H2 & _). destruct (H2 v Ec) as (c1 & c0 & H3 & (H4 & _ & H5) & Hop).
    rewrite Hm in H3. destruct c0 as [f0 l0]. cbn [fst snd] in *.
    injection Hd as _ Hq.
    destruct c; cbn in H3; [discriminate| | |]; injection H3 as <-; cbn in H4; subst f0.
    + rewrite (H5 (or_introl eq_refl)) in Hop.
      change (stored_as N n n (entry k d x None) (Dense, true)) with (mkArr Dense (kernel_matrix k n n d x None)) in Hop.
      cbn [first_fails left_matrix]. rewrite Hop. exact Hq.
    + unfold stored_as in Hop. cbn [fst] in Hop. rewrite Hlil in Hop. discriminate.
    + unfold stored_as in Hop. cbn [fst] in Hop. rewrite Hlil in Hop. discriminate.
  - unfold ref_center, bind in Hd. rewrite Hcur in Hd.
    destruct (first_fails N K k n n d x None c); [injection Hd as _ Hq; exact Hq|].
    unfold lift, modify, ret in Hd.
    destruct (op_center N (left_matrix N k n n d x None c)); injection Hd as _ Hq; exact Hq.
Qed.

(** ** The four cases exclude each other *)
Section Cases.
  Context {E U : Type}.
  Variables (two nrm : bool) (n m : nat).
  Notation idle := (@asks_nothing E U two nrm n m).
  Lemma first_unique : forall (ops : list (op E U)) o1 r1 o2 r2, ~ idle o1 -> ~ idle o2 ->
    first_request two nrm n m ops o1 r1 -> first_request two nrm n m ops o2 r2 -> o1 = o2 /\ r1 = r2.
  Proof.
    intros ops o1 r1 o2 r2 H1 H2 (i1 & -> & F1) (i2 & He & F2). revert i2 He F2.
    induction i1 as [|a i1 IH]; intros [|b i2] He F2; cbn in He; injection He as He He2.
    - auto.
    - subst b. inversion F2. contradiction.
    - subst a. inversion F1. contradiction.
    - subst b. inversion F1. inversion F2. eapply IH; eassumption.
  Qed.
  Lemma busy_dense : forall o, asks_dense two nrm o -> ~ idle o.
  Proof. intros o H (A & _). contradiction. Qed.
  Lemma busy_sparse : forall o, asks_sparse nrm o -> ~ idle o.
  Proof. intros o H (_ & A & _). contradiction. Qed.
  Lemma busy_whole : forall o, asks_whole n m o -> ~ idle o.
  Proof. intros o H (_ & _ & A). contradiction. Qed.
  Lemma idle_none : forall (ops : list (op E U)) o r, Forall idle ops -> first_request two nrm n m ops o r -> idle o.
  Proof.
    intros ops o r HF (i & -> & _). apply Forall_app in HF. destruct HF as [_ HF]. inversion HF. assumption.
  Qed.
  Lemma dense_sparse : forall o : op E U, asks_dense two nrm o -> asks_sparse nrm o -> False.
  Proof. intros o H [-> Hn]. cbn in H. congruence. Qed.
  Lemma dense_whole : forall o : op E U, asks_dense two nrm o -> asks_whole n m o -> False.
  Proof. intros o H1 H2. destruct o; cbn in *; tauto. Qed.
  Lemma sparse_whole : forall o : op E U, asks_sparse nrm o -> asks_whole n m o -> False.
  Proof. intros o [-> _] H2. exact H2. Qed.
  Lemma exists_forall : forall (P : op E U -> Prop) l, Exists P l -> Forall (fun o => ~ P o) l -> False.
  Proof. intros P l H. induction H; intros HF; inversion HF; auto. Qed.

  Definition busy_case (c : left_behind) (o : op E U) (rest : list (op E U)) : Prop :=
    match c with
    | LNothing => False
    | LDense => asks_dense two nrm o
    | LWhole => asks_whole n m o \/ (asks_sparse nrm o /\ Exists (asks_whole n m) rest)
    | LUpper => asks_sparse nrm o /\ Forall (fun o' => ~ asks_whole n m o') rest
    end.
  Lemma leaves_case : forall (ops : list (op E U)) c, leaves two nrm n m ops c ->
    (c = LNothing /\ Forall idle ops) \/ (exists o rest, first_request two nrm n m ops o rest /\ busy_case c o rest).
  Proof.
    intros ops [| | |] H; cbn in *; [left; auto| | |]; right; destruct H as (o & rest & H1 & H2); exists o, rest; auto.
  Qed.
  Lemma busy_busy : forall c o rest, busy_case c o rest -> ~ idle o.
  Proof.
    intros [| | |] o rest H; cbn in H; [contradiction|apply busy_dense, H| |apply busy_sparse, H].
    destruct H as [H|[H _]]; [apply busy_whole, H|apply busy_sparse, H].
  Qed.
  Lemma busy_unique : forall c1 c2 o rest, busy_case c1 o rest -> busy_case c2 o rest -> c1 = c2.
  Proof.
    intros c1 c2 o rest H1 H2.
    assert (A1 := dense_sparse o). assert (A2 := dense_whole o). assert (A3 := sparse_whole o).
    assert (A4 := exists_forall (asks_whole n m) rest).
    destruct c1, c2; cbn in *; try contradiction; try reflexivity; exfalso; tauto.
  Qed.
  Lemma leaves_unique : forall (ops : list (op E U)) c1 c2,
    leaves two nrm n m ops c1 -> leaves two nrm n m ops c2 -> c1 = c2.
  Proof.
    intros ops c1 c2 H1 H2.
    destruct (leaves_case _ _ H1) as [[-> F1]|(o1 & r1 & Q1 & B1)];
      destruct (leaves_case _ _ H2) as [[-> F2]|(o2 & r2 & Q2 & B2)].
    - reflexivity.
    - destruct (busy_busy _ _ _ B2). eapply idle_none; eassumption.
    - destruct (busy_busy _ _ _ B1). eapply idle_none; eassumption.
    - destruct (first_unique _ _ _ _ _ (busy_busy _ _ _ B1) (busy_busy _ _ _ B2) Q1 Q2) as [-> ->].
      eapply busy_unique; eassumption.
  Qed.
End Cases.

(** C85. A history leaves exactly one of the four cases behind. *)
Lemma pf_C85_one_case : forall {E U} two nrm n m (ops : list (op E U)) c1 c2,
  leaves two nrm n m ops c1 -> leaves two nrm n m ops c2 -> c1 = c2.
Proof. intros E U. exact (@leaves_unique E U). Qed.

(** km[:, :] selects everything. *)
Lemma colon_all : forall n, selection n (ISlice None None None) (seq 0 n).
Proof.
  intros n. split.
  - generalize 0 as a. induction n as [|n IH]; intros a; cbn; constructor; [apply IH|].
    apply Forall_forall. intros b Hb. apply in_seq in Hb. lia.
  - intros i. rewrite in_seq. cbn. split.
    + intros H. exists i. lia.
    + intros (q & H1 & H2). lia.
Qed.
Lemma colon_valid : forall n, 0 < n -> valid1 n (ISlice None None None).
Proof.
  intros n Hn. split; [discriminate|]. split.
  - exists 0%Z. exists 0. cbn. lia.
  - intros z (q & H1 & H2). cbn in *. lia.
Qed.
Lemma colon_whole : forall {E U} n m, 0 < n -> 0 < m ->
  @asks_whole E U n m (OpGetItem colons).
Proof. intros E U n m Hn Hm. split; split; auto using colon_valid, colon_all. Qed.

Lemma leaves_toy :
  leaves false false 3 3 ([OpSize; OpDiagonal] : list (op (option Z) Z)) LNothing /\
  leaves false false 3 3 ([OpSize; OpFrobNorm; OpFullSparse; OpGetItem colons] : list (op (option Z) Z)) LDense /\
  leaves false false 3 3 ([OpSize; OpFullSparse; OpFrobNorm; OpGetItem colons] : list (op (option Z) Z)) LWhole /\
  leaves false false 3 3 ([OpGetItem colons; OpFull] : list (op (option Z) Z)) LWhole /\
  leaves false false 3 3 ([OpSize; OpFullSparse; OpFull; OpDiagonal] : list (op (option Z) Z)) LUpper.
Proof.
  assert (HS : forall o : op (option Z) Z, o = OpSize \/ o = OpDiagonal -> asks_nothing false false 3 3 o).
  { intros o [->| ->]; split; [|split| |split]; cbn; try tauto; intros [H _]; discriminate. }
  split; [|split; [|split; [|split]]].
  - cbn. constructor; [|constructor; [|constructor]]; apply HS; auto.
  - exists OpFrobNorm, [OpFullSparse; OpGetItem colons]. split; [|exact I].
    exists [OpSize]. split; [reflexivity|]. constructor; [apply HS; auto|constructor].
  - exists OpFullSparse, [OpFrobNorm; OpGetItem colons]. split.
    + exists [OpSize]. split; [reflexivity|]. constructor; [apply HS; auto|constructor].
    + right. split; [split; reflexivity|]. right. left. apply colon_whole; lia.
  - exists (OpGetItem colons), [OpFull]. split; [exists []; split; [reflexivity|constructor]|].
    left. apply colon_whole; lia.
  - exists OpFullSparse, [OpFull; OpDiagonal]. split.
    + exists [OpSize]. split; [reflexivity|]. constructor; [apply HS; auto|constructor].
    + split; [split; reflexivity|]. repeat constructor; cbn; tauto.
Qed.

(*BEGIN PROP*)
(** Histories of all four kinds. *)
Example C04_exact_example :
  never_raises dot dotk toyX None 3 3 2 /\ admissible toyX None 3 3 2 /\
  (leaves false false 3 3 ([OpSize; OpDiagonal] : list (op (option Z) Z)) LNothing /\
   leaves false false 3 3 ([OpSize; OpFrobNorm; OpFullSparse; OpGetItem colons] : list (op (option Z) Z)) LDense /\
   leaves false false 3 3 ([OpSize; OpFullSparse; OpFrobNorm; OpGetItem colons] : list (op (option Z) Z)) LWhole /\
   leaves false false 3 3 ([OpGetItem colons; OpFull] : list (op (option Z) Z)) LWhole /\
   leaves false false 3 3 ([OpSize; OpFullSparse; OpFull; OpDiagonal] : list (op (option Z) Z)) LUpper) /\
  left_matrix toyN dotk 3 3 2 toyX None LUpper =
  mkArr Lil (mkMat 3 3 [[Some 5; Some 11; Some 17]; [Some 0; Some 25; Some 39]; [Some 0; Some 0; Some 61]]%Z).
Proof.
  split; [apply dot_total|]. split; [exact toyX_ok|]. split; [exact leaves_toy|reflexivity].
Qed.

(** The reference object at work: full_sparse, full, [centered] (refused), km[:, :], full. *)
Example C85_example :
  trace toyN [OpFullSparse; OpFull; OpCentered; OpGetItem colons; OpFull]
    (after (U:=Z) toyN dot false [] toyX None []) =
  (let up := mkArr Lil (mkMat 3 3 [[Some 5; Some 11; Some 17]; [Some 0; Some 25; Some 39]; [Some 0; Some 0; Some 61]]%Z) in
   let km := mkArr Lil (mkMat 3 3 [[Some 5; Some 11; Some 17]; [Some 11; Some 25; Some 39]; [Some 17; Some 39; Some 61]]%Z) in
   [Ok (OArr up); Ok (OArr up); Raise ValueError; Ok (OArr km); Ok (OArr km)]).
Proof. vm_compute. reflexivity. Qed.

(** The norm of the upper triangle is kept although the whole matrix is known later. *)
Example C61_exact_example :
  outcome toyN OpFrobNorm (after (U:=Z) toyN dot false [] toyX None [OpFullSparse]) = Ok (OVal (Some 91%Z)) /\
  ~ In OpFrobNorm ([OpFullSparse] : list (op (option Z) Z)).
Proof. split; [vm_compute; reflexivity|]. intros [H|[]]. discriminate. Qed.
(*END PROP*)
