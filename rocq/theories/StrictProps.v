(** A KernelMatrix while warnings are turned into exceptions. *)
From Coq Require Import String List Arith ZArith Bool Lia.
Import ListNotations.
From Verif Require Import Prelude MatModel MatFacts UtilsModel IndexModel KMModel SpecKM SpecRef WarnModel
  SpecWarn StrictModel SpecStrict MFacts KMFacts KMIndex KMInv KMOps KMTotal KMGet KMProps KMHist KMHist2 RefFacts RefProps
  WarnFacts WarnExact WarnProps StrictFacts StrictRef ToyModel.
Local Open Scope list_scope.

(** C106. In every state, under every filter: an operation that issues no warning the filter is about does
    what it always does; otherwise it raises the first such warning. *)
Lemma pf_C106_warning :
  forall {E V U} (N : numops V) wexn (f : filter) (o : op E U) (s : km E V U),
    match find f (warns N o s) with
    | None => step_e N wexn f o s = step N o s
    | Some w => outcome_e N wexn f o s = Raise (wexn w)
    end.
Proof. intros E V U N wexn f o s. exact (step_stops N wexn f o s). Qed.

Lemma find_lenient : forall l, find lenient l = None.
Proof. induction l as [|w l IH]; [reflexivity|exact IH]. Qed.

(** C106. Without filter nothing changes, whatever the history. *)
Lemma pf_C106_lenient :
  forall {E V U} (N : numops V) wexn (ops : list (op E U)) (s : km E V U),
    run_e N wexn (map (fun o => (lenient, o)) ops) s = run N ops s.
Proof.
  intros E V U N wexn ops. induction ops as [|o ops IH]; intros s; [reflexivity|]. cbn [map run_e run fst snd].
  assert (H := pf_C106_warning N wexn lenient o s). rewrite find_lenient in H. rewrite H. apply IH.
Qed.

Section Resolve.
  Context {E V U : Type}.
  Variable N : numops V.
  Variable wexn : warning -> exn.
  Hypothesis Hown : own_exceptions wexn.
  Variables (K : kernel E V) (f : filter).

  (** Outcomes of the ordinary operation, and of the operation of an object without format(). *)
  Lemma resolve : forall (o : op E U) (s : km E V U) q' a,
    same_out wexn f (kfmt K) (outcome_e N wexn f o s) q' ->
    q' = (if negb (kfmt K && negb (f WKernelMatrix)) && negb (mall (v_finite N) (amat a)) then Raise TypeError else Ok (OArr a)) ->
    outcome N o s = (if negb (kfmt K) && negb (mall (v_finite N) (amat a)) then Raise TypeError else Ok (OArr a)) ->
    outcome_e N wexn f o s = first_outcome N wexn f (kfmt K) a.
  Proof.
    intros o s q' a HS -> H0. unfold first_outcome.
    assert (HW := pf_C106_warning N wexn f o s).
    assert (HQ : outcome_e N wexn f o s = outcome N o s \/ exists w, outcome_e N wexn f o s = Raise (wexn w)).
    { destruct (find f (warns N o s)) as [w|]; [right; eauto|left]. unfold outcome_e, outcome. rewrite HW. reflexivity. }
    rewrite H0 in HQ. clear H0 HW.
    destruct (mall (v_finite N) (amat a)), (kfmt K) eqn:HK, (f WKernelMatrix) eqn:Hf; cbn in HS, HQ |- *;
      destruct HS as [HS|(S1 & S2 & S3 & S4)]; try discriminate; try assumption.
    destruct HQ as [HQ|[w HQ]]; [congruence|]. rewrite HS in HQ. injection HQ as HQ. destruct (Hown w). symmetry. exact HQ.
  Qed.
End Resolve.

(** C106. The matrix of an unnormalised object. After any history in which every operation had its own
    filter, [full] returns the matrix that the history left behind, whatever values the kernel returns.
    Only the first request of a matrix with an entry that is not finite raises, the warning if the filter
    says so. *)
Lemma pf_C106_full :
  forall {E V U} (N : numops V) wexn (K : kernel E V) k (pre post : list (filter * op E U)) x y n m d f,
    own_exceptions wexn -> never_raises K k x y n m d -> admissible x y n m d -> no_attach (map snd post) ->
    exists c, leaves (is_some y) false n m (map snd post) c /\
      outcome_e N wexn f OpFull (after_e N wexn K false pre x y post) =
        match c with
        | LNothing => first_outcome N wexn f (kfmt K) (left_matrix N k n m d x y c)
        | _ => Ok (OArr (left_matrix N k n m d x y c))
        end.
Proof.
  intros E V U N wexn K k pre post x y n m d f Hown Hnr Hadm Hno.
  destruct (attached_e N wexn K k false pre post x y n m d Hnr Hadm Hno) as (base & r & HA & Hrun).
  assert (Hone : is_some y = false -> m = n) by (intros H; apply (stored2_one x y n m d Hadm H)).
  destruct (mrun_leaves N wexn K n m _ _ _ (is_some y) false Hone post ref_new r Hrun (inv_new N _ _ _ _ _ _ _) eq_refl)
    as (c & Hc & Hm).
  exists c. split; [exact Hc|].
  destruct (estep_sim N wexn K k false _ _ (is_some y) n m d base (entry k d x y) (nr_stored K k x y n m d Hadm Hnr) eq_refl
              (stored2_shape x y n m d Hadm) (stored2_one x y n m d Hadm) (truev_entry k x y n m d) f OpFull _ r eq_refl HA)
    as (r1 & q1 & Hd1 & HS & _).
  destruct (step_sim N K k false _ _ (is_some y) n m d base (nr_stored K k x y n m d Hadm Hnr) eq_refl
              (stored2_shape x y n m d Hadm) (stored2_one x y n m d Hadm) (entry k d x y) (truev_entry k x y n m d) OpFull _ r eq_refl HA)
    as (r0 & Hd0 & _).
  cbn [ref_does ref_op] in Hd0, Hd1. unfold giving, ref_full, bind in Hd0, Hd1.
  destruct (current_left N K k n m d x y c r Hm) as (r2 & _ & _ & _ & Hcur).
  destruct (current_left (strict_ops N wexn f) (tame f K) k n m d x y c r Hm) as (r3 & _ & _ & _ & Hcur').
  cbn [tame kfmt] in Hcur'. rewrite Hcur in Hd0. rewrite Hcur' in Hd1. clear Hcur Hcur'.
  assert (Q1 : q1 = if first_fails (strict_ops N wexn f) (tame f K) k n m d x y c then Raise TypeError
                    else Ok (OArr (left_matrix N k n m d x y c))).
  { destruct (first_fails (strict_ops N wexn f) (tame f K) k n m d x y c); injection Hd1 as _ H; exact H. }
  assert (Q0 : outcome N OpFull (after_e N wexn K false pre x y post) =
               if first_fails N K k n m d x y c then Raise TypeError else Ok (OArr (left_matrix N k n m d x y c))).
  { destruct (first_fails N K k n m d x y c); injection Hd0 as _ H; exact H. }
  clear Hd0 Hd1.
  destruct c; cbn [first_fails] in Q0, Q1.
  - apply (resolve N wexn Hown K f OpFull _ q1); [exact HS|exact Q1|exact Q0].
  - subst q1. destruct HS as [HS|(_ & _ & _ & HS)]; [exact HS|discriminate].
  - subst q1. destruct HS as [HS|(_ & _ & _ & HS)]; [exact HS|discriminate].
  - subst q1. destruct HS as [HS|(_ & _ & _ & HS)]; [exact HS|discriminate].
Qed.

(** C106. Parts of the matrix, and the diagonal, are read as always, after any such history and under any
    filter; this holds for normalised objects as well. *)
Lemma pf_C106_parts :
  forall {E V U} (N : numops V) wexn (K : kernel E V) k nrm (pre post : list (filter * op E U)) x y n m d f,
    never_raises K k x y n m d -> admissible x y n m d -> no_attach (map snd post) ->
    let s := after_e N wexn K nrm pre x y post in
    (forall ix, valid n m ix -> ~ selects_all n m ix ->
       exists rows cols, selection2 n m ix rows cols /\
         outcome_e N wexn f (OpGetItem ix) s = Ok (OArr (mkArr Dense (submatrix (entry k d x y) rows cols)))) /\
    (y = None -> outcome_e N wexn f OpDiagonal s = Ok (OVec (self_similarities k n d x))).
Proof.
  intros E V U N wexn K k nrm pre post x y n m d f Hnr Hadm Hno s.
  destruct (attached_e N wexn K k nrm pre post x y n m d Hnr Hadm Hno) as (base & r & HA & Hrun). fold s in HA.
  assert (ST := @estep_sim E V U N wexn K k nrm _ _ (is_some y) n m d base (entry k d x y) (nr_stored K k x y n m d Hadm Hnr) eq_refl
              (stored2_shape x y n m d Hadm) (stored2_one x y n m d Hadm) (truev_entry k x y n m d) f).
  split.
  - intros ix Hv Hs. destruct (ST (OpGetItem ix) s r eq_refl HA) as (r1 & q1 & Hd1 & HS & _).
    cbn [ref_does] in Hd1. destruct Hd1 as [(_ & H & _)|[(rows & cols & _ & H1 & _ & _ & ->)|(H & _)]]; try contradiction.
    exists rows, cols. split; [exact H1|]. destruct HS as [HS|(_ & _ & _ & HS)]; [exact HS|discriminate].
  - intros ->. destruct (ST OpDiagonal s r eq_refl HA) as (r1 & q1 & Hd1 & HS & _).
    cbn [ref_does ref_op is_some] in Hd1. unfold ret in Hd1. injection Hd1 as _ ->.
    destruct HS as [HS|(_ & _ & _ & HS)]; [|discriminate]. rewrite HS. do 2 f_equal. apply map_ext. intros i.
    unfold entry. rewrite Nat.leb_refl. reflexivity.
Qed.

(** The matrix is left behind in one of three ways. *)
Lemma left_st : forall {E V} (N : numops V) k n m d (x : ndarray E) y c b, as_mat c = Some b ->
  stored_as N n m (entry k d x y) b = left_matrix N k n m d x y c.
Proof. intros E V N k n m d x y c b H. destruct c; cbn in H; try discriminate; injection H as <-; reflexivity. Qed.
Lemma m_as_mat : forall {E V U} (N : numops V) wexn (K : kernel E V) n m F dx dy two nrm (Hone : two = false -> m = n) f (o : op E U) r r' q,
  ref_does (strict_ops N wexn f) n m F dx dy two nrm (kfmt K && negb (f WKernelMatrix)) o r r' q ->
  RefProps.inv N n m F dx dy two nrm r -> (exists c, r_mat r = as_mat c) -> exists c, r_mat r' = as_mat c.
Proof.
  intros E V U N wexn K n m F dx dy two nrm Hone f o r r' q Hd Hi [c Hc].
  destruct (m_mat N wexn K n m F dx dy two nrm Hone f o r r' q Hd Hi) as [[_ ->]|[[_ ->]|[[_ ->]|[_ ->]]]]; rewrite Hc;
    destruct c; cbn; solve [exists LNothing; reflexivity|exists LDense; reflexivity|exists LWhole; reflexivity|exists LUpper; reflexivity].
Qed.

Lemma op_normalize_e_ok : forall {V} (N : numops V) wexn f meth a v, op_normalize_e N wexn f meth a = Ok v ->
  op_normalize N meth a = Ok v /\ (mr (amat a) = mc (amat a) -> f WNormalization = true -> mall (v_finite N) (amat v) = true).
Proof.
  intros V N wexn f meth a v H. unfold op_normalize_e, contains_nan_inf in H. destruct (mr (amat a) =? mc (amat a)) eqn:S; cbn [negb] in H.
  - destruct (op_normalize N meth a) as [nk|e].
    + destruct (mall (v_finite N) (amat nk)) eqn:Q, (f WNormalization) eqn:Hf; cbn in H; try discriminate; injection H as <-;
        (split; [reflexivity|]); intros; congruence.
    + destruct e, (f WUnableToNormalize); discriminate.
  - split; [exact H|]. apply Nat.eqb_neq in S. intros; contradiction.
Qed.

(** C106. If the normalised matrix has an entry that is not finite, an object with one sample never
    normalises while the warning of normalize_km is turned into an exception: every operation that
    normalises raises, however often it is called. *)
Lemma pf_C106_forever :
  forall {E V U} (N : numops V) wexn (K : kernel E V) k nrm (pre post : list (filter * op E U)) x n d f o method,
    never_raises K k x None n n d -> admissible x None n n d -> no_attach (map snd post) ->
    Forall (fun fo => fst fo WNormalization = true) post -> f WNormalization = true ->
    (forall meth c v, op_normalize N meth (left_matrix N k n n d x None c) = Ok v -> ~ all_finite N v) ->
    normalising nrm o method ->
    exists e, outcome_e N wexn f o (after_e N wexn K nrm pre x None post) = Raise e.
Proof.
  intros E V U N wexn K k nrm pre post x n d f o method Hnr Hadm Hno Hp Hf Hbad Ho.
  destruct (attached_e N wexn K k nrm pre post x None n n d Hnr Hadm Hno) as (base & r & HA & Hrun).
  set (dx := dX k (stored n d x) n d) in *. set (dy := dY k (stored2 n n d x None) n d) in *.
  assert (Hone : is_some (@None (ndarray E)) = false -> n = n) by reflexivity.
  assert (STEP : forall g (o' : op E U) r1 r2 q, g WNormalization = true ->
     ref_does (strict_ops N wexn g) n n (entry k d x None) dx dy (is_some (@None (ndarray E))) nrm (kfmt K && negb (g WKernelMatrix)) o' r1 r2 q ->
     (exists c, r_mat r2 = as_mat c) -> r_norm r1 = None -> r_norm r2 = None).
  { intros g o' r1 r2 q Hg Hd [c Hc] H0. cbn [is_some] in Hd. destruct (does_sets _ n n _ dx dy nrm _ o' r1 r2 q Hd) as [H|(meth & v & b & _ & H1 & H2 & H3)]; [congruence|].
    destruct (op_normalize_e_ok N wexn g meth _ v H3) as [H4 H5].
    rewrite Hc in H2. change (stored_as (strict_ops N wexn g) n n (entry k d x None) b) with (stored_as N n n (entry k d x None) b) in H4, H5.
    rewrite (left_st N k n n d x None c b H2) in H4. destruct (Hbad _ _ _ H4). apply H5; [reflexivity|exact Hg]. }
  assert (HN : forall ops (r0 r1 : ref V U), mrun N wexn K n n (entry k d x None) dx dy (is_some (@None (ndarray E))) nrm ops r0 r1 ->
     Forall (fun fo => fst fo WNormalization = true) ops ->
     r_norm r0 = None /\ (exists c, r_mat r0 = as_mat c) /\ RefProps.inv N n n (entry k d x None) dx dy (is_some (@None (ndarray E))) nrm r0 ->
     r_norm r1 = None /\ (exists c, r_mat r1 = as_mat c) /\ RefProps.inv N n n (entry k d x None) dx dy (is_some (@None (ndarray E))) nrm r1).
  { clear - STEP Hone. intros ops r0 r1 Hrun. induction Hrun as [r|g o' ops r1 r2 r3 q Hd Hrun IH]; intros Hp H0; [exact H0|].
    inversion Hp as [|? ? P1 P2]; subst. apply IH; [exact P2|]. destruct H0 as (A1 & A2 & A3).
    assert (B := m_as_mat N wexn K n n _ dx dy _ nrm Hone g o' r1 r2 q Hd A3 A2).
    split; [exact (STEP g o' r1 r2 q P1 Hd B A1)|]. split; [exact B|]. eapply mdoes_inv; eassumption. }
  specialize (HN post ref_new r Hrun Hp (conj eq_refl (conj (ex_intro _ LNothing eq_refl) (inv_new N _ _ _ _ _ _ _)))).
  destruct HN as (A1 & A2 & A3).
  assert (Hat : is_attach o = false) by (destruct o; cbn in Ho; try contradiction; reflexivity).
  destruct (estep_sim N wexn K k nrm _ _ _ n n d base (entry k d x None) (nr_stored K k x None n n d Hadm Hnr) eq_refl
              (stored2_shape x None n n d Hadm) (stored2_one x None n n d Hadm) (truev_entry k x None n n d) f o _ r Hat HA)
    as (r1 & q1 & Hd1 & HS & _).
  fold dx dy in Hd1.
  assert (B := m_as_mat N wexn K n n _ dx dy _ nrm Hone f o r r1 q1 Hd1 A3 A2).
  assert (C := STEP f o r r1 q1 Hf Hd1 B A1).
  destruct (does_norm _ n n _ dx dy _ nrm _ o r r1 q1 Hd1) as [(meth & _ & _ & H)|[H _]]; [|destruct (H method Ho)].
  destruct q1 as [v|e]; [destruct (H v eq_refl C)|].
  destruct HS as [HS|(_ & _ & HS & _)]; rewrite HS; eauto.
Qed.

(** C106. When the filter is lifted, a normalised object with one sample gives what it would have given:
    the normalisation of the matrix left behind, whatever was raised before. *)
Lemma pf_C106_lifted :
  forall {E V U} (N : numops V) wexn (K : kernel E V) k (pre post : list (filter * op E U)) x n d,
    never_raises K k x None n n d -> admissible x None n n d -> no_attach (map snd post) -> kfmt K = true ->
    Forall (fun fo => forall meth, normalising true (snd fo) meth -> meth = default_method) post ->
    exists c, leaves false true n n (map snd post) c /\
      outcome_e N wexn lenient OpFull (after_e N wexn K true pre x None post) =
        res_map OArr (op_normalize N default_method (left_matrix N k n n d x None c)).
Proof.
  intros E V U N wexn K k pre post x n d Hnr Hadm Hno HK Hp.
  destruct (attached_e N wexn K k true pre post x None n n d Hnr Hadm Hno) as (base & r & HA & Hrun). cbn [is_some] in *.
  set (dx := dX k (stored n d x) n d) in *. set (dy := dY k (stored2 n n d x None) n d) in *.
  assert (Hone : false = false -> n = n) by reflexivity.
  destruct (mrun_leaves N wexn K n n _ _ _ false true Hone post ref_new r Hrun (inv_new N _ _ _ _ _ _ _) eq_refl)
    as (c & Hc & Hm).
  exists c. split; [exact Hc|].
  set (F := entry k d x None) in *.
  assert (HN : forall v, r_norm r = Some v -> op_normalize N default_method (left_matrix N k n n d x None c) = Ok v).
  { assert (HR : forall ops (r0 r1 : ref V U), mrun N wexn K n n F dx dy false true ops r0 r1 ->
               Forall (fun fo => forall meth, normalising true (snd fo) meth -> meth = default_method) ops ->
               RefProps.inv N n n F dx dy false true r0 /\ (forall v, r_norm r0 = Some v ->
               exists b, r_mat r0 = Some (b, true) /\ op_normalize N default_method (stored_as N n n F (b, true)) = Ok v) ->
               RefProps.inv N n n F dx dy false true r1 /\ (forall v, r_norm r1 = Some v ->
               exists b, r_mat r1 = Some (b, true) /\ op_normalize N default_method (stored_as N n n F (b, true)) = Ok v)).
    { clear - Hone. intros ops r0 r1 Hrun. induction Hrun as [r|g o' ops r1 r2 r3 q Hd Hrun IH]; intros Hp H0; [exact H0|].
      inversion Hp as [|? ? P1 P2]; subst. cbn [snd] in P1. apply IH; [exact P2|]. destruct H0 as [I0 H0].
      assert (I1 := mdoes_inv N wexn K n n F dx dy false true Hone g o' r1 r2 q Hd I0). split; [exact I1|].
      intros v Hv. destruct (does_sets _ n n _ dx dy true _ o' r1 r2 q Hd) as [H|(meth & v' & b & Hn & H1 & H2 & H3)].
      - rewrite H in Hv. destruct (H0 v Hv) as (b & B1 & B2). exists b. split; [|exact B2].
        exact (m_full N wexn K n n F dx dy false true Hone g o' r1 r2 q Hd I0 b B1).
      - rewrite (P1 meth Hn) in H3. destruct b as [b l].
        assert (Hl : l = true) by (apply (proj1 I1 (b, l) H2); right; reflexivity). subst l.
        exists b. split; [exact H2|]. rewrite H1 in Hv. injection Hv as <-. apply (op_normalize_e_ok N wexn g default_method), H3. }
    assert (H0 : RefProps.inv N n n F dx dy false true (@ref_new V U)) by apply inv_new.
    specialize (HR post ref_new r Hrun Hp (conj H0 (fun v (G : r_norm (@ref_new V U) = Some v) => ltac:(discriminate G)))).
    intros v Hv. destruct HR as [_ HR]. destruct (HR v Hv) as (b & B1 & B2). rewrite Hm in B1.
    rewrite <- (left_st N k n n d x None c (b, true) B1). exact B2. }
  assert (HL := pf_C106_warning N wexn lenient OpFull (after_e N wexn K true pre x None post)). rewrite find_lenient in HL.
  unfold outcome_e. rewrite HL.
  destruct (step_sim N K k true _ _ false n n d base (nr_stored K k x None n n d Hadm Hnr) eq_refl
              (stored2_shape x None n n d Hadm) (stored2_one x None n n d Hadm) (entry k d x None) (truev_entry k x None n n d) OpFull _ r eq_refl HA)
    as (r0 & Hd0 & _).
  cbn [ref_does ref_op] in Hd0. fold dx dy F in Hd0. rewrite HK in Hd0.
  destruct (snd (step N OpFull (after_e N wexn K true pre x None post))) as [v|e] eqn:Ev; clear Ev HL HA Hrun;
    destruct r as [mt nm ct fr at_]; cbn [r_mat r_norm] in Hm, HN; subst mt;
    unfold giving, ref_full, ref_normed_km, ref_normalize, current, request, reported, bind, get, modify, lift, ret, keep_mat in Hd0;
    (destruct nm as [nk|];
     [rewrite (HN nk eq_refl); destruct c; cbn in Hd0 |- *; congruence|]);
    clear HN; destruct c; cbn [as_mat left_matrix] in *; cbn in Hd0;
    try change (stored_as N n n F (Dense, true)) with (mkArr Dense (kernel_matrix k n n d x None)) in Hd0;
    try change (stored_as N n n F (Lil, true)) with (mkArr Lil (kernel_matrix k n n d x None)) in Hd0;
    try change (stored_as N n n F (Lil, false)) with (mkArr Lil (upper_triangle N k n n d x None)) in Hd0;
    unfold default_method; destruct (op_normalize N "cosine" _) as [nk|e']; cbn in Hd0 |- *; congruence.
Qed.

(** C106. An index expression that selects everything is reported every time: it raises the warning
    whenever the filter says so and some entry is not finite, also if the matrix was returned before. *)
Lemma pf_C106_whole :
  forall {E V U} (N : numops V) wexn (K : kernel E V) k nrm (pre post : list (filter * op E U)) x y n m d f o,
    own_exceptions wexn -> never_raises K k x y n m d -> admissible x y n m d -> no_attach (map snd post) ->
    asks_whole n m o ->
    exists c, leaves (is_some y) nrm n m (map snd post) c /\
      outcome_e N wexn f o (after_e N wexn K nrm pre x y post) =
        first_outcome N wexn f (kfmt K)
          (mkArr (match c with LDense => Dense | _ => Lil end) (kernel_matrix k n m d x y)).
Proof.
  intros E V U N wexn K k nrm pre post x y n m d f o Hown Hnr Hadm Hno Ho.
  destruct (attached_e N wexn K k nrm pre post x y n m d Hnr Hadm Hno) as (base & r & HA & Hrun).
  assert (Hone : is_some y = false -> m = n) by (intros H; apply (stored2_one x y n m d Hadm H)).
  destruct (mrun_leaves N wexn K n m _ _ _ (is_some y) nrm Hone post ref_new r Hrun (inv_new N _ _ _ _ _ _ _) eq_refl)
    as (c & Hc & Hm).
  exists c. split; [exact Hc|].
  destruct o as [| | | | | | | | |ix| | | | | |]; cbn in Ho; try contradiction. destruct Ho as [Hv Hs].
  destruct (estep_sim N wexn K k nrm _ _ (is_some y) n m d base (entry k d x y) (nr_stored K k x y n m d Hadm Hnr) eq_refl
              (stored2_shape x y n m d Hadm) (stored2_one x y n m d Hadm) (truev_entry k x y n m d) f (OpGetItem ix) _ r eq_refl HA)
    as (r1 & q1 & Hd1 & HS & _).
  destruct (step_sim N K k nrm _ _ (is_some y) n m d base (nr_stored K k x y n m d Hadm Hnr) eq_refl
              (stored2_shape x y n m d Hadm) (stored2_one x y n m d Hadm) (entry k d x y) (truev_entry k x y n m d) (OpGetItem ix) _ r eq_refl HA)
    as (r0 & Hd0 & _).
  assert (UN : forall rows cols, selection2 n m ix rows cols -> whole n m rows cols).
  { intros rows cols H1.
    destruct (selection2_unique (mkNd [n] (repeat tt n)) (mkNd [n] (repeat tt n)) (is_some y) n m
                  (fun Ht => conj eq_refl (Hone Ht)) ix _ _ _ _ Hs H1) as [<- <-]. split; reflexivity. }
  cbn [ref_does] in Hd0, Hd1.
  destruct Hd0 as [(_ & _ & Hd0)|[(rows & cols & _ & H1 & H2 & _)|(H & _)]]; [|destruct (H2 (UN _ _ H1))|contradiction].
  destruct Hd1 as [(_ & _ & Hd1)|[(rows & cols & _ & H1 & H2 & _)|(H & _)]]; [|destruct (H2 (UN _ _ H1))|contradiction].
  set (a := mkArr _ (kernel_matrix k n m d x y)).
  assert (RQ : forall fm0, snd (request (U:=U) N n m (entry k d x y) fm0 Lil true r) =
                 if negb fm0 && negb (mall (v_finite N) (amat a)) then Raise TypeError else Ok a).
  { intros fm0. unfold request, reported, bind, get, modify, raise, ret. rewrite Hm. subst a.
    destruct c; cbn [as_mat orb fst snd amat];
      change (stored_as N n m (entry k d x y) (?b, true)) with (mkArr b (kernel_matrix k n m d x y));
      match goal with |- snd ((if ?B then _ else _) _) = _ => 
        unfold stored_as; cbn [fst snd orb amat]; 
        change (tabulate n m (fun i j => entry k d x y i j)) with (kernel_matrix k n m d x y) end;
      destruct (negb fm0 && negb (mall (v_finite N) (kernel_matrix k n m d x y))); reflexivity. }
  apply (resolve N wexn Hown K f (OpGetItem ix) _ q1); [exact HS| |].
  - unfold giving, bind, ret in Hd1. assert (R := RQ (kfmt K && negb (f WKernelMatrix))).
    change (request (strict_ops N wexn f)) with (@request V U N) in Hd1.
    destruct (request N n m (entry k d x y) (kfmt K && negb (f WKernelMatrix)) Lil true r) as [r2 q2]. cbn [snd] in R. rewrite R in Hd1.
    destruct (negb _ && negb _); injection Hd1 as _ ->; reflexivity.
  - unfold giving, bind, ret in Hd0. assert (R := RQ (kfmt K)).
    destruct (request N n m (entry k d x y) (kfmt K) Lil true r) as [r2 q2]. cbn [snd] in R. rewrite R in Hd0.
    unfold outcome. destruct (negb _ && negb _); injection Hd0 as _ H; exact H.
Qed.

(*BEGIN PROP*)
(** The exceptions of the examples, and the filter of one warning. *)
Definition as_exception (w : warning) : exn :=
  match w with WKernelMatrix => Custom 1 | WNormalization => Custom 2 | _ => Custom 3 end.
Definition kernel_only : filter := fun w => match w with WKernelMatrix => true | _ => false end.
Definition normalization_only : filter := fun w => match w with WNormalization => true | _ => false end.

(** The hypotheses of [C106_full] and [C106_whole] are met by a matrix with two entries that are not finite. The first
    request raises the warning; the second returns the matrix; [km[:, :]] raises each time, and a column
    never does. Without the filter everything is returned. *)
Example C106_full_case :
  own_exceptions as_exception /\ never_raises gap gapk toyX1 None 2 2 2 /\ admissible toyX1 None 2 2 2 /\
  asks_whole 2 2 (OpGetItem colons : op (option Z) Z) /\
  (let K := mkMat 2 2 [[Some 5%Z; None]; [None; Some 25%Z]] in
   let col := Ok (OArr (mkArr Dense (mkMat 2 1 [[None]; [Some 25%Z]]))) in
   let out f := map (fun h => outcome_e toyN as_exception f (snd h) (after_e (U:=Z) toyN as_exception gap false [] toyX1 None (fst h)))
     [([], OpFull); ([(f, OpFull)], OpFull); ([], OpGetItem colons); ([(f, OpGetItem colons)], OpGetItem colons);
      ([(f, OpFull); (f, OpGetItem colons)], OpGetItem colons);
      ([], OpGetItem (IPair (ISlice None None None) (IInt 1)))] in
   out severe = [Raise (Custom 1); Ok (OArr (mkArr Dense K)); Raise (Custom 1); Raise (Custom 1); Raise (Custom 1); col] /\
   out kernel_only = out severe /\
   out lenient = [Ok (OArr (mkArr Dense K)); Ok (OArr (mkArr Dense K)); Ok (OArr (mkArr Lil K)); Ok (OArr (mkArr Lil K));
                  Ok (OArr (mkArr Dense K)); col]).
Proof.
  split; [intros w; destruct w; discriminate|].
  split; [intros t u v _ _; reflexivity|].
  split; [split; [exists []; split; [reflexivity|constructor]|reflexivity]|].
  split; [apply colon_whole; lia|].
  cbv zeta. split; [vm_compute; reflexivity|]. split; vm_compute; reflexivity.
Qed.

(** The hypotheses of [C106_forever] are met: every normalisation of the matrix has entries that are not
    finite. *)
Example C106_forever_case :
  never_raises gap gapk toyX1 None 2 2 2 /\ admissible toyX1 None 2 2 2 /\
  (forall meth c v, op_normalize toyN meth (left_matrix toyN gapk 2 2 2 toyX1 None c) = Ok v -> ~ all_finite toyN v) /\
  map (fun post => outcome_e toyN as_exception severe OpNormedKM (after_e (U:=Z) toyN as_exception gap false [] toyX1 None post))
    [[]; [(severe, OpFull)]; [(severe, OpNormedKM); (severe, OpNormedKM)];
     [(normalization_only, OpNormalize "cosine"); (normalization_only, OpFull)]]
  = [Raise (Custom 1); Raise (Custom 2); Raise (Custom 2); Raise (Custom 2)].
Proof.
  split; [intros t u v _ _; reflexivity|].
  split; [split; [exists []; split; [reflexivity|constructor]|reflexivity]|].
  split; [|vm_compute; reflexivity].
  intros meth c v H. cbn [op_normalize toyN] in H. destruct (String.eqb (lower meth) "cosine"); [|discriminate].
  injection H as <-. destruct c; vm_compute; discriminate.
Qed.

(** The hypotheses of [C106_lifted] are met: a normalised object raises under the filter, and gives the
    normalised matrix when the filter is lifted. *)
Example C106_lifted_case :
  let post := [(severe, OpFull); (normalization_only, OpGetItem colons); (severe, OpNormedKM); (severe, OpNormalize default_method)]
     : list (filter * op (option Z) Z) in
  never_raises gap gapk toyX1 None 2 2 2 /\ admissible toyX1 None 2 2 2 /\ no_attach (map snd post) /\
  Forall (fun fo => forall meth, normalising true (snd fo) meth -> meth = default_method) post /\
  outcome_e toyN as_exception severe OpFull (after_e toyN as_exception gap true [] toyX1 None post) = Raise (Custom 2) /\
  outcome_e toyN as_exception lenient OpFull (after_e toyN as_exception gap true [] toyX1 None post) =
    Ok (OArr (mkArr Dense (mkMat 2 2 [[Some 5%Z; None]; [None; Some 25%Z]]))).
Proof.
  cbv zeta. split; [intros t u v _ _; reflexivity|].
  split; [split; [exists []; split; [reflexivity|constructor]|reflexivity]|].
  split; [repeat constructor|].
  split; [|split; vm_compute; reflexivity].
  repeat constructor; cbn; intros meth H; try contradiction; try congruence; try (destruct H; congruence).
Qed.
(*END PROP*)

(** C106. Expected: an operation that raised because of the filter leaves the object as the same operation
    does without the filter, so that catching the warning is harmless. It does not: normed_km returns the
    normalised matrix after an ordinary first call, and raises again after one under the filter. *)
Lemma pf_C106_same_state_refuted :
  exists (K : kernel (option Z) (option Z)) k x n d (o : op (option Z) Z),
    never_raises K k x None n n d /\ admissible x None n n d /\
    let s := after_e toyN as_exception K false [] x None [(lenient, OpFull)] in
    exists a, outcome_e toyN as_exception severe o (run_e toyN as_exception [(lenient, o)] s) = Ok (OArr a) /\
    outcome_e toyN as_exception severe o (run_e toyN as_exception [(severe, o)] s) = Raise (as_exception WNormalization).
Proof.
  exists gap, gapk, toyX1, 2, 2, OpNormedKM.
  split; [intros t u v _ _; reflexivity|].
  split; [split; [exists []; split; [reflexivity|constructor]|reflexivity]|].
  eexists. split; vm_compute; reflexivity.
Qed.
