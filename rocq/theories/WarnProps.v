(** The warnings of a KernelMatrix. *)
From Coq Require Import String List Arith ZArith Bool Lia.
Import ListNotations.
From Verif Require Import Prelude MatModel MatFacts UtilsModel IndexModel KMModel SpecKM SpecRef WarnModel
  SpecWarn MFacts KMFacts KMIndex KMInv KMOps KMTotal KMGet KMProps RefFacts RefProps KMHist KMHist2 WarnFacts
  WarnSilent WarnExact ToyModel.
Local Open Scope list_scope.

(** C97. Recording the warnings changes nothing else: state and outcome of every operation are those of
    the model without them. *)
Lemma pf_C97_recorded : forall {E V U} (N : numops V) (o : op E U) (s : km E V U) w,
  step_w N o (s, w) = ((fst (step N o s), w ++ warns N o s), outcome N o s).
Proof. intros E V U N o s w. apply step_w_eq. Qed.

Lemma good_after : forall {E V U} (N : numops V) (K : kernel E V) nrm (pre : list (op E U)) x y n m d,
  kfmt K = true -> admissible x y n m d -> good N (after N K nrm pre x y []).
Proof.
  intros E V U N K nrm pre x y n m d Hf Hadm. unfold after.
  destruct (hist_attached N K nrm pre x y n m d Hadm) as (-> & HK & _ & _).
  constructor; cbn; try discriminate; try congruence; auto.
Qed.
Lemma after_run : forall {E V U} (N : numops V) (K : kernel E V) nrm (pre post : list (op E U)) x y,
  after N K nrm pre x y post = run N post (after N K nrm pre x y []).
Proof. intros E V U N K nrm pre post x y. unfold after. rewrite <- run_app, <- app_assoc. reflexivity. Qed.

(** C97. Silence means finite: whatever was asked of the object since samples were accepted (samples
    may even be attached again), if no warning was issued and no computation was interrupted by an
    exception of the kernel, then every whole matrix it returns has finite entries only. *)
Lemma pf_C97_silent :
  forall {E V U} (N : numops V) (K : kernel E V) nrm (pre ops : list (op E U)) x y n m d o a,
    kfmt K = true -> admissible x y n m d -> gives_matrix o ->
    let s := after N K nrm pre x y [] in
    all_warns N (ops ++ [o]) s = [] -> ~ In (Raise RuntimeError) (trace N (ops ++ [o]) s) ->
    outcome N o (after N K nrm pre x y ops) = Ok (OArr a) -> all_finite N a.
Proof.
  intros E V U N K nrm pre ops x y n m d o a Hf Hadm Hg s W R Ho. rewrite after_run in Ho.
  exact (silent_finite N ops o s a (good_after N K nrm pre x y n m d Hf Hadm) W R Hg Ho).
Qed.

Lemma attached_warn : forall {E V U} (N : numops V) (K : kernel E V) k nrm (pre post : list (op E U)) x y n m d,
  never_raises K k x y n m d -> admissible x y n m d -> no_attach post ->
  let X := stored n d x in let Y := stored2 n m d x y in
  exists c r, leaves (is_some y) nrm n m post c /\ r_mat r = as_mat c /\ ok_r r /\
    abs N K k nrm X Y (is_some y) n m d (g_calls (before N K nrm pre)) (entry k d x y) (after N K nrm pre x y post) r /\
    rrun N n m (entry k d x y) (dX k X n d) (dY k Y m d) (is_some y) nrm (kfmt K) post ref_new r.
Proof.
  intros E V U N K k nrm pre post x y n m d Hnr Hadm Hno X Y.
  destruct (attached_run N K k nrm pre post x y n m d Hnr Hadm Hno) as (r & HA & Hrun). fold X Y in HA, Hrun.
  assert (Hone : is_some y = false -> m = n) by (intros H; apply (stored2_one x y n m d Hadm H)).
  destruct (rrun_leaves N n m _ _ _ (is_some y) nrm (kfmt K) Hone post ref_new r Hrun (inv_new N _ _ _ _ _ _ _) eq_refl)
    as (c & Hc & Hm).
  assert (Hi := rrun_inv N n m _ _ _ (is_some y) nrm (kfmt K) Hone post ref_new r Hrun (inv_new N _ _ _ _ _ _ _)).
  apply inv_ok in Hi. destruct Hi as (H1 & H2 & _).
  exists c, r. repeat (split; [assumption|]). split; [split; assumption|]. split; assumption.
Qed.

(** The announcement of the first request. *)
(*BEGIN PROP*)
(** The announcement made by the first request of the matrix. *)
Definition first_warning {E V} (N : numops V) (K : kernel E V) (k : list E -> list E -> V) (n m d : nat)
    (x : ndarray E) (y : option (ndarray E)) (c : left_behind) : list warning :=
  match c with LNothing => announced N (kfmt K) (kernel_matrix k n m d x y) | _ => [] end.
(*END PROP*)

Lemma first_eq : forall {E V U} (N : numops V) (K : kernel E V) k n m d x y c (r : ref V U), r_mat r = as_mat c ->
  firstw N K n m (entry k d x y) r = first_warning N K k n m d x y c.
Proof. intros E V U N K k n m d x y c r H. unfold firstw. rewrite H. destruct c; reflexivity. Qed.

(** C97. What each operation announces, for kernels that return: the operations that work on the whole
    matrix announce non-finite entries if they are the first to ask for it, and never again; full_sparse
    and whole-matrix indexing announce them every time; nothing else announces anything. *)
Lemma pf_C97_exact :
  forall {E V U} (N : numops V) (K : kernel E V) k nrm (pre post : list (op E U)) x y n m d,
    never_raises K k x y n m d -> admissible x y n m d -> no_attach post ->
    let s := after N K nrm pre x y post in
    let A := kernel_matrix k n m d x y in
    exists c, leaves (is_some y) nrm n m post c /\
      (nrm = false -> warns N OpFull s = first_warning N K k n m d x y c) /\
      warns N OpFrobNorm s = first_warning N K k n m d x y c /\
      (y = None -> warns N OpCenter s = first_warning N K k n m d x y c /\
                   warns N OpCentered s = first_warning N K k n m d x y c) /\
      (nrm = false -> warns N OpFullSparse s =
         announced N (kfmt K) (match c with LNothing | LUpper => upper_triangle N k n m d x y | _ => A end)) /\
      (forall o, asks_whole n m o -> warns N o s = announced N (kfmt K) A) /\
      (forall o, asks_nothing (is_some y) nrm n m o -> warns N o s = []).
Proof.
  intros E V U N K k nrm pre post x y n m d Hnr Hadm Hno s A.
  destruct (attached_warn N K k nrm pre post x y n m d Hnr Hadm Hno) as (c & r & Hc & Hm & [Hn Hi] & HA & _).
  fold s in HA. exists c. split; [exact Hc|].
  assert (Hs := nr_stored K k x y n m d Hadm Hnr).
  assert (HY := stored2_shape x y n m d Hadm). assert (H1 := stored2_one x y n m d Hadm).
  assert (HF := truev_entry k x y n m d).
  assert (Fi := first_eq N K k n m d x y c r Hm).
  assert (W : forall o, warns N o s = em (step_w N o) s) by reflexivity.
  split; [|split; [|split; [|split; [|split]]]].
  - intros Hnrm. rewrite W. cbn [step_w]. rewrite (em_fmap _ _ (full N)) by apply logs_full.
    rewrite <- Fi. eapply full_em; eassumption || reflexivity.
  - rewrite W. cbn [step_w]. rewrite (em_fmap _ _ (frob_norm N)) by apply logs_frob.
    rewrite <- Fi. eapply frob_em; eassumption || reflexivity.
  - intros Hy. assert (Ht : is_some y = false) by (rewrite Hy; reflexivity). split.
    + rewrite W. cbn [step_w]. rewrite (em_fmap _ _ (center N)) by apply logs_center.
      rewrite <- Fi. eapply center_em; eassumption || reflexivity.
    + rewrite W. cbn [step_w]. rewrite (em_fmap _ _ (centered N)) by apply logs_centered.
      rewrite <- Fi. eapply centered_em; eassumption || reflexivity.
  - intros Hnrm. rewrite W. cbn [step_w]. rewrite (em_fmap _ _ (full_sparse N)) by apply logs_full_sparse.
    erewrite sparse_em; try eassumption; try reflexivity. unfold cell. rewrite Hm. destruct c; reflexivity.
  - intros o Ho. rewrite W.
    erewrite whole_em; try eassumption; try reflexivity. unfold cell. rewrite Hm. destruct c; reflexivity.
  - intros o (Ho1 & Ho2 & Ho3). rewrite W.
    destruct o; cbn [asks_dense] in Ho1; try (destruct (Ho1 I)); try apply em_silent.
    + unfold asks_sparse in Ho2. destruct nrm; [destruct (Ho1 eq_refl)|destruct (Ho2 (conj eq_refl eq_refl))].
    + destruct (ab_facts _ _ _ _ _ _ _ _ _ _ _ _ s r HA) as (_ & _ & _ & _ & F2 & _).
      destruct (is_some y); [|destruct (Ho1 eq_refl)]. cbn [step_w]. rewrite (em_fmap _ _ (center N)) by apply logs_center.
      unfold center_w, em. unfold bind at 1, silent at 1, attr_or at 1, bind at 1, get at 1. cbn [fst]. rewrite F2. reflexivity.
    + destruct (ab_facts _ _ _ _ _ _ _ _ _ _ _ _ s r HA) as (_ & _ & _ & _ & F2 & _).
      destruct (is_some y); [|destruct (Ho1 eq_refl)]. cbn [step_w]. rewrite (em_fmap _ _ (centered N)) by apply logs_centered.
      unfold centered_w, em. unfold bind at 1, silent at 1, attr_or at 1, bind at 1, get at 1. cbn [fst]. rewrite F2. reflexivity.
    + eapply part_em; eassumption.
Qed.

Lemma curc_left : forall {E V U} (N : numops V) (k : list E -> list E -> V) n m d x y c (r : ref V U), r_mat r = as_mat c ->
  stored_as N n m (entry k d x y) (curc r) = left_matrix N k n m d x y c.
Proof. intros E V U N k n m d x y c r H. unfold curc. rewrite H. destruct c; reflexivity. Qed.

(** The warnings of a normalisation of what the history left behind. *)
(*BEGIN PROP*)
(** What a normalisation of the left-behind matrix announces; nothing if the request of the matrix
    already failed. *)
Definition norm_warnings {E V} (N : numops V) (K : kernel E V) (k : list E -> list E -> V) (n m d : nat)
    (x : ndarray E) (y : option (ndarray E)) (method : string) (c : left_behind) : list warning :=
  if first_fails N K k n m d x y c then []
  else match y with
       | None => normalisation_warns N (kfmt K) method (left_matrix N k n m d x y c)
       | Some y' => match op_normalize2 N (left_matrix N k n m d x y c) (self_similarities k n d x)
                            (self_similarities k m d y') with
                    | Ok nk => announced N (kfmt K) (amat nk)
                    | Raise _ => []
                    end
       end.
(*END PROP*)

Lemma norm_eq : forall {E V U} (N : numops V) (K : kernel E V) k n m d x y c (r : ref V U) meth, admissible x y n m d ->
  r_mat r = as_mat c -> r_norm r = None ->
  currentw N K n m (entry k d x y) r (normw N K k (stored n d x) (stored2 n m d x y) (is_some y) n m d (entry k d x y) meth r)
  = first_warning N K k n m d x y c ++ norm_warnings N K k n m d x y meth c.
Proof.
  intros E V U N K k n m d x y c r meth Hadm Hm Hn. unfold currentw. rewrite (first_eq N K k n m d x y c r Hm).
  destruct (current_left N K k n m d x y c r Hm) as (r' & _ & _ & _ & ->). cbn [snd]. f_equal.
  unfold norm_warnings. destruct (first_fails N K k n m d x y c); [reflexivity|].
  unfold normw. rewrite Hn, (curc_left N k n m d x y c r Hm).
  rewrite <- (self_second k x y n m d Hadm). destruct y; reflexivity.
Qed.

(** C97. The first normalisation announces what the matrix itself has to announce, and then: for one
    sample non-finite results twice (once by normalize_km and once by the object), unknown methods and
    other unexpected exceptions by 'Unable to normalize'; for two samples non-finite results once. *)
Lemma pf_C97_normalisation :
  forall {E V U} (N : numops V) (K : kernel E V) k nrm (pre post : list (op E U)) x y n m d o method,
    never_raises K k x y n m d -> admissible x y n m d -> no_attach post ->
    Forall (fun o' => forall meth, ~ normalising nrm o' meth) post -> normalising nrm o method ->
    exists c, leaves (is_some y) nrm n m post c /\
      warns N o (after N K nrm pre x y post) =
        first_warning N K k n m d x y c ++ norm_warnings N K k n m d x y method c.
Proof.
  intros E V U N K k nrm pre post x y n m d o method Hnr Hadm Hno Hp Ho.
  destruct (attached_warn N K k nrm pre post x y n m d Hnr Hadm Hno) as (c & r & Hc & Hm & Hok & HA & Hrun).
  exists c. split; [exact Hc|].
  erewrite (warns_normalising N K k nrm (stored n d x) (stored2 n m d x y) (is_some y) n m d _
              (nr_stored K k x y n m d Hadm Hnr) eq_refl (stored2_shape x y n m d Hadm) (stored2_one x y n m d Hadm)
              (entry k d x y) (truev_entry k x y n m d) _ r o method HA Hok Ho).
  apply (norm_eq N K k n m d x y c r method Hadm Hm).
  clear - Hrun Hp. assert (H0 : r_norm (@ref_new V U) = None) by reflexivity. revert Hp H0.
  induction Hrun as [r|o' ops r r' r'' q Hd Hrun IH]; intros Hp H0; [exact H0|]. inversion Hp as [|? ? P1 P2]; subst.
  apply IH; [exact P2|]. destruct (does_norm N n m _ _ _ _ _ _ _ _ _ _ Hd) as [(meth & Hm & _)|[_ Hm]].
  - destruct (P1 meth Hm).
  - congruence.
Qed.

Lemma rest_run : forall {E V U} (N : numops V) (K : kernel E V) k nrm (post : list (op E U)) x y n m d base s r0,
  never_raises K k x y n m d -> admissible x y n m d -> no_attach post ->
  let X := stored n d x in let Y := stored2 n m d x y in
  abs N K k nrm X Y (is_some y) n m d base (entry k d x y) s r0 ->
  exists r, abs N K k nrm X Y (is_some y) n m d base (entry k d x y) (run N post s) r /\
            rrun N n m (entry k d x y) (dX k X n d) (dY k Y m d) (is_some y) nrm (kfmt K) post r0 r.
Proof.
  intros E V U N K k nrm post x y n m d base s r0 Hnr Hadm Hno X Y HA. revert s r0 HA.
  induction post as [|o post IH]; intros s r0 HA.
  - exists r0. split; [exact HA|constructor].
  - unfold no_attach in Hno. cbn [forallb] in Hno. apply andb_true_iff in Hno. destruct Hno as [Ho Hno].
    apply negb_true_iff in Ho.
    destruct (step_sim N K k nrm X Y (is_some y) n m d _ (nr_stored K k x y n m d Hadm Hnr) eq_refl
                (stored2_shape x y n m d Hadm) (stored2_one x y n m d Hadm) (entry k d x y)
                (truev_entry k x y n m d) o s r0 Ho HA) as (r1 & Hd & HA1).
    destruct (IH Hno _ _ HA1) as (r & HAr & Hrun).
    exists r. split; [exact HAr|]. econstructor; eassumption.
Qed.

(** C97. Once an operation that normalises has returned, no such operation announces anything. *)
Lemma pf_C97_once :
  forall {E V U} (N : numops V) (K : kernel E V) k nrm (pre prev post : list (op E U)) x y n m d o method o' method' v,
    never_raises K k x y n m d -> admissible x y n m d -> no_attach (prev ++ o' :: post) ->
    normalising nrm o' method' -> outcome N o' (after N K nrm pre x y prev) = Ok v ->
    normalising nrm o method -> warns N o (after N K nrm pre x y (prev ++ o' :: post)) = [].
Proof.
  intros E V U N K k nrm pre prev post x y n m d o method o' method' v Hnr Hadm Hno Ho' Hv Ho.
  assert (Hno' := Hno). unfold no_attach in Hno. rewrite forallb_app in Hno. cbn [forallb] in Hno.
  apply andb_true_iff in Hno. destruct Hno as [Hn1 Hno]. apply andb_true_iff in Hno. destruct Hno as [Hn2 Hn3].
  apply negb_true_iff in Hn2.
  destruct (attached_warn N K k nrm pre prev x y n m d Hnr Hadm Hn1) as (c & r & Hc & Hm & Hok & HA & Hrun).
  destruct (step_sim N K k nrm _ _ (is_some y) n m d _ (nr_stored K k x y n m d Hadm Hnr) eq_refl
              (stored2_shape x y n m d Hadm) (stored2_one x y n m d Hadm) (entry k d x y)
              (truev_entry k x y n m d) o' _ r Hn2 HA) as (r' & Hd & HA').
  assert (Hs : r_norm r' <> None).
  { destruct (does_norm N n m _ _ _ _ _ _ _ _ _ _ Hd) as [(meth & Hm' & _ & H)|[H _]].
    - exact (H v Hv).
    - destruct (H method' Ho'). }
  destruct (rest_run N K k nrm post x y n m d _ _ r' Hnr Hadm Hn3 HA') as (r2 & HA2 & Hrun2).
  assert (E2 : run N post (fst (step N o' (after N K nrm pre x y prev))) = after N K nrm pre x y (prev ++ o' :: post)).
  { rewrite (after_run N K nrm pre (prev ++ _)), run_app, <- after_run. reflexivity. }
  rewrite E2 in HA2. clear E2.
  assert (Hone : is_some y = false -> m = n) by (intros H; apply (stored2_one x y n m d Hadm H)).
  assert (I0 := rrun_inv N n m _ _ _ (is_some y) nrm (kfmt K) Hone prev ref_new r Hrun (inv_new N _ _ _ _ _ _ _)).
  assert (I1 := does_inv N n m _ _ _ (is_some y) nrm (kfmt K) Hone _ _ _ _ Hd I0).
  assert (I2 := rrun_inv N n m _ _ _ (is_some y) nrm (kfmt K) Hone post r' r2 Hrun2 I1).
  apply inv_ok in I2. destruct I2 as (J1 & J2 & _).
  assert (Hs2 : r_norm r2 <> None).
  { clear - Hrun2 Hs. revert Hs. induction Hrun2 as [r|o' ops r r' r'' q Hd Hrun IH]; intros Hs; [exact Hs|].
    apply IH. destruct (does_norm N n m _ _ _ _ _ _ _ _ _ _ Hd) as [(meth & _ & H & _)|[_ H]].
    - rewrite (H Hs). exact Hs.
    - rewrite H. exact Hs. }
  erewrite (warns_normalising N K k nrm (stored n d x) (stored2 n m d x y) (is_some y) n m d _
              (nr_stored K k x y n m d Hadm Hnr) eq_refl (stored2_shape x y n m d Hadm) (stored2_one x y n m d Hadm)
              (entry k d x y) (truev_entry k x y n m d) _ r2 o method HA2 (conj J1 J2) Ho).
  destruct (r_mat r2) as [cm|] eqn:Em; [|destruct (J1 Hs2 eq_refl)].
  rewrite (currentw_some N K n m (entry k d x y) r2 _ cm Em). unfold normw.
  destruct (r_norm r2); [reflexivity|destruct (Hs2 eq_refl)].
Qed.

(** C17, exactly. With normalized=False, [full] returns the matrix that the history left behind,
    whatever values the kernel returns; it raises (a TypeError) exactly if it is the first request of
    the matrix, some entry is not finite and the kernel does not support format(). If the kernel does,
    the first request of a matrix with such an entry is announced by a warning. *)
Lemma pf_C17_exact :
  forall {E V U} (N : numops V) (K : kernel E V) k (pre post : list (op E U)) x y n m d,
    never_raises K k x y n m d -> admissible x y n m d -> no_attach post ->
    let s := after N K false pre x y post in
    exists c, leaves (is_some y) false n m post c /\
      outcome N OpFull s = (if first_fails N K k n m d x y c then Raise TypeError
                            else Ok (OArr (left_matrix N k n m d x y c))) /\
      warns N OpFull s = first_warning N K k n m d x y c.
Proof.
  intros E V U N K k pre post x y n m d Hnr Hadm Hno s.
  destruct (attached_warn N K k false pre post x y n m d Hnr Hadm Hno) as (c & r & Hc & Hm & Hok & HA & Hrun).
  exists c. split; [exact Hc|]. split.
  - destruct (step_sim N K k false _ _ (is_some y) n m d _ (nr_stored K k x y n m d Hadm Hnr) eq_refl
              (stored2_shape x y n m d Hadm) (stored2_one x y n m d Hadm) (entry k d x y)
              (truev_entry k x y n m d) OpFull _ r eq_refl HA) as (r' & Hd & _).
    fold s in Hd. unfold outcome. revert Hd. cbn [ref_does ref_op]. unfold giving, ref_full, bind.
    destruct (current_left N K k n m d x y c r Hm) as (r1 & _ & _ & _ & E1). rewrite E1.
    destruct (first_fails N K k n m d x y c); intros Hd; apply (f_equal snd) in Hd; exact Hd.
  - rewrite <- (first_eq N K k n m d x y c r Hm).
    change (em (step_w N OpFull) s = firstw N K n m (entry k d x y) r). cbn [step_w].
    rewrite (em_fmap _ _ (full N)) by apply logs_full.
    exact (full_em N K k false (stored n d x) (stored2 n m d x y) (is_some y) n m d _
              (nr_stored K k x y n m d Hadm Hnr) eq_refl (stored2_shape x y n m d Hadm) (stored2_one x y n m d Hadm)
              (entry k d x y) (truev_entry k x y n m d) s r HA eq_refl).
Qed.

(*BEGIN PROP*)
(** A kernel with an undefined value for the pair of the first and the second point. *)
Definition gapk (u v : list (option Z)) : option Z :=
  match dotk u v with Some 11%Z => None | r => r end.
Definition gap : kernel (option Z) (option Z) := mkKernel (fun _ u v => Ok (gapk u v)) true.
(** It raises at its fourth call, the first one below the diagonal. *)
Definition gap_once : kernel (option Z) (option Z) :=
  mkKernel (fun t u v => if Nat.eqb t 3 then Raise RuntimeError else Ok (gapk u v)) true.
Definition toyX1 : ndarray (option Z) := mkNd [2; 2]%nat [Some 1%Z; Some 2%Z; Some 3%Z; Some 4%Z].

Example C97_example :
  never_raises gap gapk toyX1 None 2 2 2 /\ admissible toyX1 None 2 2 2 /\
  no_attach ([OpGetItem (IPair (IInt 0) (IInt 1)); OpFull; OpFullSparse] : list (op (option Z) Z)) /\
  map (fun ops => all_warns toyN ops (after (U:=Z) toyN gap false [] toyX1 None []))
    [[OpGetItem (IPair (IInt 0) (IInt 1))]; [OpFull]; [OpFull; OpFull]; [OpFullSparse; OpFullSparse];
     [OpGetItem colons; OpFrobNorm]; [OpNormalize "cosine"]; [OpNormedKM; OpNormedKM]; [OpNormalize "other"; OpCentered]]
  = [[]; [WKernelMatrix]; [WKernelMatrix]; [WKernelMatrix; WKernelMatrix];
     [WKernelMatrix]; [WKernelMatrix; WNormalization; WKernelMatrix]; [WKernelMatrix; WNormalization; WKernelMatrix];
     [WKernelMatrix; WUnableToNormalize]].
Proof.
  split; [intros t u v _ _; reflexivity|].
  split; [split; [exists []; split; [reflexivity|constructor]|reflexivity]|]. split; vm_compute; reflexivity.
Qed.

(** The hypotheses of C97_silent are met by an object that is attached again and has everything
    requested. *)
Example C97_silent_example :
  let ops := [OpFull; OpAttach toyX2 None; OpCenter; OpNormedKM] : list (op (option Z) Z) in
  all_warns toyN (ops ++ [OpFull]) (after toyN dot true [] toyX None []) = [] /\
  ~ In (Raise RuntimeError) (trace toyN (ops ++ [OpFull]) (after toyN dot true [] toyX None [])) /\
  outcome toyN OpFull (after toyN dot true [] toyX None ops) = Ok (OArr (mkArr Dense (mkMat 2 2
    [[Some 4; Some 0]; [Some 0; Some 1]]%Z))).
Proof.
  cbv zeta. split; [vm_compute; reflexivity|]. split; [|vm_compute; reflexivity].
  vm_compute. intros H. repeat (destruct H as [H|H]; [discriminate|]). exact H.
Qed.
(*END PROP*)

Definition gap_matrix : arr (option Z) := mkArr Dense (mkMat 2 2 [[Some 5%Z; None]; [None; Some 25%Z]]).

(** That silence means finite is false if a computation was interrupted: once the kernel has raised
    below the diagonal, the object returns a matrix with an undefined entry and no warning is ever
    issued. *)
Lemma pf_C97_interrupted_refuted :
  exists (K : kernel (option Z) (option Z)) (x y : ndarray (option Z)) n m d (ops : list (op (option Z) Z)) a,
    kfmt K = true /\ admissible x (Some y) n m d /\
    let s := after toyN K false [] x (Some y) [] in
    all_warns toyN (ops ++ [OpFull]) s = [] /\
    outcome toyN OpFull (run toyN ops s) = Ok (OArr a) /\ ~ all_finite toyN a.
Proof.
  exists gap_once, toyX1, toyX1, 2, 2, 2, [OpFull], gap_matrix.
  split; [reflexivity|]. split; [split; exists []; (split; [reflexivity|constructor])|].
  cbv zeta. split; [vm_compute; reflexivity|]. split; [vm_compute; reflexivity|]. vm_compute. discriminate.
Qed.

(** It is false for user callables, which do not support format(): the warning that was due becomes a
    TypeError, and the next read returns the undefined entry silently. *)
Lemma pf_C97_callable_refuted :
  exists (K : kernel (option Z) (option Z)) k (x y : ndarray (option Z)) n m d (ops : list (op (option Z) Z)) a,
    never_raises K k x (Some y) n m d /\ admissible x (Some y) n m d /\
    let s := after toyN K false [] x (Some y) [] in
    all_warns toyN (ops ++ [OpFull]) s = [] /\
    outcome toyN OpFull (run toyN ops s) = Ok (OArr a) /\ ~ all_finite toyN a.
Proof.
  exists (callable gapk), gapk, toyX1, toyX1, 2, 2, 2, [OpFull], gap_matrix.
  split; [intros t u v _ _; reflexivity|]. split; [split; exists []; (split; [reflexivity|constructor])|].
  cbv zeta. split; [vm_compute; reflexivity|]. split; [vm_compute; reflexivity|]. vm_compute. discriminate.
Qed.

(** Indexing a part of the matrix returns undefined values silently. *)
Lemma pf_C97_part_refuted :
  exists (K : kernel (option Z) (option Z)) k (x : ndarray (option Z)) n d (o : op (option Z) Z) a,
    kfmt K = true /\ never_raises K k x None n n d /\ admissible x None n n d /\
    let s := after toyN K false [] x None [] in
    warns toyN o s = [] /\ outcome toyN o s = Ok (OArr a) /\ ~ all_finite toyN a.
Proof.
  exists gap, gapk, toyX1, 2, 2, (OpGetItem (IPair (IInt 0) (ISlice None None None))), (mkArr Dense (mkMat 1 2 [[Some 5%Z; None]])).
  split; [reflexivity|]. split; [intros t u v _ _; reflexivity|].
  split; [split; [exists []; split; [reflexivity|constructor]|reflexivity]|].
  cbv zeta. split; [vm_compute; reflexivity|]. split; [vm_compute; reflexivity|]. vm_compute. discriminate.
Qed.

(*BEGIN PROP*)
Example C17_exact_example :
  (leaves (E := option Z) (U := Z) false false 2 2 [OpFrobNorm] LDense /\ leaves (E := option Z) (U := Z) false false 2 2 [] LNothing) /\
  map (fun K => outcome toyN OpFull (after (U:=Z) toyN K false [] toyX1 None [])) [gap; callable gapk]
  = [Ok (OArr (mkArr Dense (mkMat 2 2 [[Some 5%Z; None]; [None; Some 25%Z]]))); Raise TypeError] /\
  map (fun K => warns toyN OpFull (after (U:=Z) toyN K false [] toyX1 None [])) [gap; callable gapk; dot]
  = [[WKernelMatrix]; []; []].
Proof.
  split; [|split; vm_compute; reflexivity]. split; [|constructor].
  exists OpFrobNorm, []. split; [|exact I]. exists []. split; [reflexivity|constructor].
Qed.
(*END PROP*)
