(** C79 exactly: an object whose samples are written into is an object over a table
    of values, each of them a kernel value of the samples as they were at some moment. *)
From Coq Require Import String List Arith ZArith Bool Lia.
Import ListNotations.
From Verif Require Import Prelude MatModel MatFacts UtilsModel IndexModel KMModel SpecKM MFacts
  KMFacts KMInv KMHist AliasModel SpecAlias SpecTable TableFacts ToyModel.

Section Acts.
  Context {E V U : Type}.
  Variable N : numops V.
  Variable K : kernel E V.
  Variable k : list E -> list E -> V.
  Variables (two : bool) (n m d : nat).
  Hypothesis Hnr : forall a b, (two = false -> b = a /\ m = n) -> never_raises K k a (Some b) n m d.
  Notation KM := (km E V U).
  Notation onA := (on K two n m d).

  (** The second sample after some actions. *)
  Definition second (p : list (cact E V U)) (a b : ndarray E) : ndarray E :=
    if two then written_two p b else written p a.

  Lemma on_fields : forall a b (s s' : KM), onA a b s -> k_kernel s' = k_kernel s -> k_sample s' = k_sample s ->
    k_sample_two s' = k_sample_two s -> k_two s' = k_two s -> k_shape s' = k_shape s -> onA a b s'.
  Proof.
    intros a b s s' (H1 & H2 & H3 & H4 & H5 & H6 & H7 & H8) A1 A2 A3 A4 A5.
    split; [exact H1|]. split; [exact H2|]. split; [exact H3|]. repeat split; congruence.
  Qed.

  (** One action. *)
  Lemma act_grows : forall (c : cact E V U) a b (s : KM), c_attach c = false -> onA a b s ->
    onA (written [c] a) (second [c] a b) (cstep N c s) /\ ext s (cstep N c s) /\
    from k two d a b s (cstep N c s).
  Proof.
    intros c a b s Hc Hs.
    assert (Hsec : second [] a b = b).
    { unfold second. cbn. destruct Hs as (_ & _ & H & _). destruct two; [reflexivity|]. destruct H; auto. }
    assert (Hsame : forall t, onA a b t -> k_memo t = k_memo s -> onA a b t /\ ext s t /\ from k two d a b s t).
    { intros t Ht Hm. split; [exact Ht|]. unfold ext, from. rewrite Hm. auto. }
    destruct c; unfold second in *; cbn [written written_two cstep] in *; try rewrite Hsec.
    - apply (gr_step N K k two n m d Hnr o Hc). exact Hs.
    - apply Hsame; [eapply on_fields; [exact Hs|..]|]; reflexivity.
    - apply Hsame; [eapply on_fields; [exact Hs|..]|]; reflexivity.
    - apply Hsame; [eapply on_fields; [exact Hs|..]|]; reflexivity.
    - apply Hsame; [eapply on_fields; [exact Hs|..]|]; reflexivity.
    - destruct Hs as (H1 & H2 & H3 & H4 & H5 & H6 & H7 & H8). rewrite H7. unfold write_sample_one. rewrite H5.
      unfold write_sample_two. cbn [set_sample k_sample_two]. rewrite H6.
      destruct two eqn:Ht.
      + split; [|unfold ext, from; cbn; auto].
        split; [exact H1|]. split; [exact H2|]. split; [discriminate|]. repeat split; assumption.
      + destruct (H3 eq_refl) as [-> Hm]. split; [|unfold ext, from; cbn; auto].
        split; [exact H1|]. split; [exact H2|]. split; [auto|]. repeat split; assumption.
    - destruct Hs as (H1 & H2 & H3 & H4 & H5 & H6 & H7 & H8). rewrite H7.
      destruct two eqn:Ht.
      + unfold write_sample_two. rewrite H6. split; [|unfold ext, from; cbn; auto].
        split; [exact H1|]. split; [exact H2|]. split; [discriminate|]. repeat split; assumption.
      + destruct (H3 eq_refl) as [-> Hm]. apply Hsame; [|reflexivity].
        split; [exact H1|]. split; [exact H2|]. split; [auto|]. repeat split; assumption.
  Qed.

  Lemma second_cons : forall c p a b, (two = false -> b = a) ->
    second (c :: p) a b = second p (written [c] a) (second [c] a b).
  Proof.
    intros c p a b H. unfold second. destruct two; [destruct c; reflexivity|]. destruct c; reflexivity.
  Qed.

  Lemma acts_grow : forall (acts : list (cact E V U)) a b (s : KM), same_sample acts -> onA a b s ->
    ext s (crun N acts s) /\
    forall i j v, canon two i j -> memo_find (k_memo (crun N acts s)) (i, j) = Some v ->
      memo_find (k_memo s) (i, j) = Some v \/
      exists p q, acts = p ++ q /\ v = kv k d (written p a) (second p a b) i j.
  Proof.
    induction acts as [|c acts IH]; intros a b s Hn Hs; cbn [crun].
    - split; [intros p v; auto|intros i j v _ H; auto].
    - unfold same_sample in Hn. cbn [forallb] in Hn. apply andb_true_iff in Hn. destruct Hn as [Hc Hn].
      apply negb_true_iff in Hc. destruct (act_grows c a b s Hc Hs) as (O & X & F).
      assert (Hab : two = false -> b = a) by (intros H; apply Hs, H).
      destruct (IH _ _ _ Hn O) as [X' F']. split; [intros p v H; apply X', X, H|].
      intros i j v Hij H. destruct (F' i j v Hij H) as [H'|(p & q & -> & H')].
      + destruct (F i j v Hij H') as [H''|H'']; [auto|]. right. exists [], (c :: acts). split; [reflexivity|].
        rewrite H''. unfold second. cbn. destruct two; [reflexivity|]. rewrite Hab; reflexivity.
      + right. exists (c :: p), q. split; [reflexivity|]. rewrite H', (second_cons c p a b Hab). f_equal.
        destruct c; reflexivity.
  Qed.

  Variable T : nat -> nat -> V.
  Notation RelT := (@Rel E V U K two n m d T).
  Notation fitsT := (@fits E V U two n m T).

  Lemma acts_sim : forall (acts : list (cact E V U)) s t, same_sample acts -> (two = true -> no_normalising acts) ->
    RelT s t -> fitsT (crun N acts s) -> ctrace N acts s = ctrace N (same_acts acts) t.
  Proof.
    induction acts as [|c acts IH]; intros s t Hn Hno R F; [reflexivity|].
    unfold same_sample in Hn. cbn [forallb] in Hn. apply andb_true_iff in Hn. destruct Hn as [Hc Hn].
    apply negb_true_iff in Hc. cbn [crun] in F.
    assert (Hno' : two = true -> no_normalising acts) by (intros H o Ho; apply (Hno H); right; exact Ho).
    destruct (r_on K two n m d T s t R) as (a & b & Ha). destruct (act_grows c a b s Hc Ha) as (O & X & _).
    destruct (acts_grow acts _ _ _ Hn O) as [X' _].
    destruct c; cbn [ctrace same_acts cstep] in *.
    - destruct (sim_step N K k two n m d Hnr T o Hc) as [_ H]; [intros H; apply (Hno H); left; reflexivity|].
      destruct (H s t R) as [H1 H2]; [apply (fits_ext two n m T _ _ X' F)|]. rewrite H1. f_equal. apply IH; assumption.
    - apply IH; [exact Hn|exact Hno'| |exact F]. destruct R. constructor; try assumption; try (cbn; congruence).
    - apply IH; [exact Hn|exact Hno'| |exact F]. destruct R. constructor; try assumption; try (cbn; congruence).
    - apply IH; [exact Hn|exact Hno'| |exact F]. destruct R. constructor; try assumption.
      cbn. intros Hi. rewrite r_cen by exact Hi. reflexivity.
    - apply IH; [exact Hn|exact Hno'| |exact F]. destruct R. constructor; try assumption; try (cbn; congruence).
    - apply IH; [exact Hn|exact Hno'| |exact F].
      assert (Ht : k_two s = Some two) by apply Ha. assert (Hs1 : k_sample s = Some a) by apply Ha.
      assert (Hs2 : k_sample_two s = Some b) by apply Ha.
      revert O. rewrite Ht. unfold write_sample_one. rewrite Hs1. unfold write_sample_two.
      cbn [set_sample k_sample_two]. rewrite Hs2. intros O.
      destruct R, two; (constructor; try assumption; eexists; eexists; exact O).
    - apply IH; [exact Hn|exact Hno'| |exact F].
      assert (Ht : k_two s = Some two) by apply Ha. assert (Hs2 : k_sample_two s = Some b) by apply Ha.
      revert O. rewrite Ht. unfold write_sample_two. rewrite Hs2. intros O.
      destruct R, two; (constructor; try assumption; eexists; eexists; exact O).
  Qed.

  (** The object after the actions, over the table of the values it has stored. *)
  Lemma table_of : forall (acts : list (cact E V U)) a b (s : KM), same_sample acts ->
    (two = true -> no_normalising acts) -> (two = true -> k_keep_normed s = false) -> onA a b s ->
    k_memo s = [] -> k_is_centered s = false ->
    exists T' : nat -> nat -> V,
      (forall i j, canon two i j -> exists p q, acts = p ++ q /\ T' i j = kv k d (written p a) (second p a b) i j) /\
      forall t : km nat V U,
        on (lookup T' (kfmt K)) two n m 1 (row_numbers n) (row_numbers m) t ->
        k_keep_normed t = k_keep_normed s -> k_num_samples t = k_num_samples s -> k_full t = k_full s ->
        k_normed t = k_normed s -> k_frob t = k_frob s -> k_populated t = k_populated s -> k_lower t = k_lower s ->
        k_is_centered t = k_is_centered s -> k_is_normed t = k_is_normed s -> k_memo t = k_memo s ->
        k_attr t = k_attr s ->
        (forall s0 t0, @Rel E V U K two n m d T' s0 t0 -> @fits E V U two n m T' (crun N acts s0) ->
           ctrace N acts s0 = ctrace N (same_acts acts) t0) ->
        ctrace N acts s = ctrace N (same_acts acts) t.
  Proof.
    intros acts a b s Hn Hno Hk Hon Hmemo Hcen. destruct (acts_grow acts a b s Hn Hon) as [_ F].
    exists (fun i j => match memo_find (k_memo (crun N acts s)) (i, j) with
                       | Some v => v | None => kv k d (written acts a) (second acts a b) i j end).
    split.
    - intros i j Hij. destruct (memo_find (k_memo (crun N acts s)) (i, j)) as [v|] eqn:Hm.
      + destruct (F i j v Hij Hm) as [H|(p & q & Hpq & Hv)]; [rewrite Hmemo in H; discriminate|].
        exists p, q. auto.
      + exists acts, []. rewrite app_nil_r. auto.
    - intros t Ht E1 E2 E3 E4 E5 E6 E7 E8 E9 E10 E11 Hsim. apply Hsim.
      + constructor; try assumption.
        * exists a, b. exact Hon.
        * destruct Ht as (_ & _ & _ & _ & _ & _ & Ht & _), Hon as (_ & _ & _ & _ & _ & _ & Hs & _). congruence.
        * destruct Ht as (_ & _ & _ & _ & _ & _ & _ & Ht), Hon as (_ & _ & _ & _ & _ & _ & _ & Hs). congruence.
        * rewrite Hcen. discriminate.
      + intros i j v Hij Hi Hj Hm. rewrite Hm. reflexivity.
  Qed.
End Acts.

Lemma written_data : forall {E V U} (p : list (cact E V U)) (a b : ndarray E), nd_data a = nd_data b ->
  nd_data (written p a) = nd_data (written p b).
Proof.
  intros E V U p. induction p as [|c p IH]; intros a b H; [exact H|].
  destruct c; cbn [written]; apply IH; try exact H. cbn. rewrite H. reflexivity.
Qed.
Lemma entry_data : forall {E V} (k : list E -> list E -> V) d (a b : ndarray E) i j, nd_data a = nd_data b ->
  entry k d a None i j = entry k d b None i j.
Proof. intros E V k d a b i j H. unfold entry, row_of. rewrite H. reflexivity. Qed.

Lemma written_two_data : forall {E V U} (p : list (cact E V U)) (a b : ndarray E), nd_data a = nd_data b ->
  nd_data (written_two p a) = nd_data (written_two p b).
Proof.
  intros E V U p. induction p as [|c p IH]; intros a b H; [exact H|].
  destruct c; cbn [written_two]; apply IH; try exact H. cbn. rewrite H. reflexivity.
Qed.

Lemma table_attached : forall {E V U} (N : numops V) (K : kernel E V) k nrm (pre : list (op E U)) acts x y n m d,
  (forall a b, (y = None -> b = a /\ m = n) -> never_raises K k a (Some b) n m d) ->
  admissible x y n m d -> same_sample acts -> (is_some y = true -> no_normalising acts /\ nrm = false) ->
  exists T : nat -> nat -> V,
    (forall i j, canon (is_some y) i j -> exists p q, acts = p ++ q /\
       T i j = kv k d (written p (stored n d x)) (second (is_some y) p (stored n d x) (stored2 n m d x y)) i j) /\
    forall pre', ctrace N acts (after N K nrm pre x y [])
                 = ctrace N (same_acts acts)
                     (after N (lookup T (kfmt K)) nrm pre' (row_numbers n)
                        (if is_some y then Some (row_numbers m) else None) []).
Proof.
  intros E V U N K k nrm pre acts x y n m d Hnr Hadm Hn Hno.
  destruct (hist_attached N K nrm pre x y n m d Hadm) as (Hs & HK & Hk & _).
  unfold after. rewrite Hs. set (s0 := run N pre (km_new K nrm [])) in *.
  set (s := attached s0 x y n m d).
  assert (Hone : is_some y = false -> stored2 n m d x y = stored n d x /\ m = n)
    by (intros H; apply (stored2_one x y n m d Hadm H)).
  assert (Hon : on K (is_some y) n m d (stored n d x) (stored2 n m d x y) s).
  { split; [reflexivity|]. split; [apply (stored2_shape x y n m d Hadm)|]. split; [exact Hone|].
    repeat split; assumption. }
  assert (Hnr' : forall a b, (is_some y = false -> b = a /\ m = n) -> never_raises K k a (Some b) n m d).
  { intros a b H. apply Hnr. intros ->. apply H. reflexivity. }
  destruct (table_of N K k (is_some y) n m d Hnr' acts (stored n d x) (stored2 n m d x y) s Hn) as (T & HT & Hsim); try assumption; try reflexivity.
  { intros H. apply Hno, H. }
  { intros H. cbn. rewrite Hk. apply Hno, H. }
  exists T. split; [exact HT|]. intros pre'.
  assert (Hadm' : admissible (row_numbers n) (if is_some y then Some (row_numbers m) else None) n m 1).
  { split; [exists []; split; [reflexivity|constructor]|]. destruct y; [|apply Hadm].
    exists []. split; [reflexivity|constructor]. }
  destruct (hist_attached N (lookup T (kfmt K)) nrm pre' (row_numbers n) _ n m 1 Hadm') as (Ht & HK' & Hk' & _).
  rewrite Ht. apply Hsim; try reflexivity; try (cbn; congruence).
  - split; [reflexivity|]. split; [reflexivity|]. split.
    { intros H. destruct (Hone H) as [_ ->]. auto. }
    split; [exact HK'|]. split; [reflexivity|]. split.
    { cbn. destruct y; [reflexivity|]. destruct (Hone eq_refl) as [_ ->]. reflexivity. }
    split; cbn; destruct y; reflexivity.
  - cbn. destruct y; [reflexivity|]. reflexivity.
  - intros s1 t1 R F. apply (acts_sim N K k (is_some y) n m d Hnr' T acts s1 t1 Hn); try assumption.
    intros H. apply Hno, H.
Qed.

(** C79, for one sample and exactly: whatever the caller writes into the sample, into the matrices
    the object returned, and calls in between, the outcomes of all calls are those of an object
    whose sample nobody writes into and whose kernel looks its values up in a table [T]. Each
    value of the table is the kernel value of the sample as it was at some moment. *)
Lemma pf_C79_exact :
  forall {E V U} (N : numops V) (K : kernel E V) k nrm (pre : list (op E U)) acts x n d,
    (forall x', never_raises K k x' None n n d) -> admissible x None n n d -> same_sample acts ->
    exists T : nat -> nat -> V,
      (forall i j, i <= j < n -> exists p q, acts = p ++ q /\ T i j = entry k d (written p x) None i j) /\
      forall pre', ctrace N acts (after N K nrm pre x None [])
                   = ctrace N (same_acts acts)
                       (after N (lookup T (kfmt K)) nrm pre' (row_numbers n) None []).
Proof.
  intros E V U N K k nrm pre acts x n d Hnr Hadm Hn.
  destruct (table_attached N K k nrm pre acts x None n n d) as (T & HT & Hsim); try assumption.
  - intros a b H. destruct (H eq_refl) as [-> _]. intros t u v [i Hu] [j Hv].
    apply (Hnr a); [exists i|exists j]; assumption.
  - cbn. discriminate.
  - exists T. split; [|exact Hsim]. intros i j [Hij _]. destruct (HT i j (or_intror Hij)) as (p & q & Hpq & Hv).
    exists p, q. split; [exact Hpq|]. rewrite Hv. unfold second, kv, is_some.
    rewrite <- (entry_data k d (written p (stored n d x)) (written p x) i j (written_data p (stored n d x) x eq_refl)).
    unfold entry. destruct (Nat.leb_spec i j) as [_|L]; [reflexivity|lia].
Qed.

(** The same for two samples, for an object made with [normalized=False] as long as the caller
    does not ask for the normalised matrix. (With it the statement is false,
    C79_two_samples_refuted: the norms are taken from the samples as they are at that moment.) *)
Lemma pf_C79_exact_two :
  forall {E V U} (N : numops V) (K : kernel E V) k (pre : list (op E U)) acts x y n m d,
    (forall x' y', never_raises K k x' (Some y') n m d) -> admissible x (Some y) n m d ->
    same_sample acts -> no_normalising acts ->
    exists T : nat -> nat -> V,
      (forall i j, i < n -> j < m -> exists p q, acts = p ++ q /\
         T i j = entry k d (written p x) (Some (written_two p y)) i j) /\
      forall pre', ctrace N acts (after N K false pre x (Some y) [])
                   = ctrace N (same_acts acts)
                       (after N (lookup T (kfmt K)) false pre' (row_numbers n) (Some (row_numbers m)) []).
Proof.
  intros E V U N K k pre acts x y n m d Hnr Hadm Hn Hno.
  destruct (table_attached N K k false pre acts x (Some y) n m d) as (T & HT & Hsim); try assumption.
  - intros a b _. apply Hnr.
  - auto.
  - exists T. split; [|exact Hsim]. intros i j _ _. destruct (HT i j (or_introl eq_refl)) as (p & q & Hpq & Hv).
    exists p, q. split; [exact Hpq|]. rewrite Hv. unfold second, kv, entry, is_some, row_of, stored2.
    rewrite (written_data p (stored n d x) x eq_refl), (written_two_data p (stored m d y) y eq_refl). reflexivity.
Qed.

(*BEGIN PROP*)
(** Hypotheses met: [km.attach_to(X); km[0, 1]; X[1, 1] = 7; km.full] over X = [[2, 1], [0, 1]].
    Entry (0, 1) is a value of the old sample, the rest are values of the new one. *)
Example C79_exact_example :
  let x := mkNd [2; 2] [Some 2%Z; Some 1%Z; Some 0%Z; Some 1%Z] in
  let acts := [Call (OpGetItem (IFlat 1)); WSample 3 (Some 7%Z); Call OpFull] in
  let T := fun i j => match i, j with 0, 0 => Some 5%Z | 0, 1 => Some 1%Z | _, _ => Some 49%Z end in
  (forall x', never_raises dot dotk x' None 2 2 2) /\ admissible x None 2 2 2 /\ same_sample (U:=Z) acts /\
  T 0 1 = entry dotk 2 x None 0 1 /\ T 0 0 = entry dotk 2 (written (U:=Z) acts x) None 0 0 /\
  T 1 1 = entry dotk 2 (written (U:=Z) acts x) None 1 1 /\ T 0 1 <> entry dotk 2 (written (U:=Z) acts x) None 0 1 /\
  ctrace toyN acts (after (U:=Z) toyN dot false [] x None [])
  = ctrace toyN (same_acts acts) (after (U:=Z) toyN (lookup T true) false [] (row_numbers 2) None []).
Proof.
  cbv zeta. split; [intros; apply dot_total|]. split; [split; [exists []; split; [reflexivity|constructor]|reflexivity]|].
  split; [reflexivity|]. repeat split; try reflexivity. vm_compute. discriminate.
Qed.

(** Hypotheses of the two-sample form met: [km.attach_to(X, Y); km[0, 1]; Y[1, 0] = 9; km.full]. *)
Example C79_exact_two_example :
  let x := mkNd [1; 1] [Some 2%Z] in let y := mkNd [2; 1] [Some 3%Z; Some 4%Z] in
  let acts := [Call (OpGetItem (IFlat 1)); WSampleTwo 1 (Some 9%Z); WSample 0 (Some 5%Z); Call OpFull] in
  let T := fun i j => match j with 0 => Some 15%Z | _ => Some 8%Z end in
  (forall x' y', never_raises dot dotk x' (Some y') 1 2 1) /\ admissible x (Some y) 1 2 1 /\
  same_sample (U:=Z) acts /\ no_normalising (U:=Z) acts /\
  T 0 1 = entry dotk 1 x (Some y) 0 1 /\
  T 0 0 = entry dotk 1 (written (U:=Z) acts x) (Some (written_two (U:=Z) acts y)) 0 0 /\
  T 0 1 <> entry dotk 1 (written (U:=Z) acts x) (Some (written_two (U:=Z) acts y)) 0 1 /\
  ctrace toyN acts (after (U:=Z) toyN dot false [] x (Some y) [])
  = ctrace toyN (same_acts acts) (after (U:=Z) toyN (lookup T true) false [] (row_numbers 1) (Some (row_numbers 2)) []).
Proof.
  cbv zeta. split; [intros; apply dot_total|].
  split; [split; exists []; (split; [reflexivity|constructor])|].
  split; [reflexivity|]. split; [|repeat split; try reflexivity; vm_compute; discriminate].
  intros o Ho. cbn in Ho. repeat (destruct Ho as [Ho|Ho]; [inversion Ho; exact I|]); destruct Ho.
Qed.
(*END PROP*)
