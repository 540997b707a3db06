(** Textual representations: what str shows in every state, and where it and format raise (C81). *)
From Coq Require Import String List Arith ZArith Bool Lia.
Import ListNotations.
From Verif Require Import Prelude MatModel MatFacts UtilsModel IndexModel KMModel SpecKM MFacts
  KMFacts KMInv KMHist CallableModel PrintModel ToyModel.
Local Open Scope string_scope.
Local Open Scope list_scope.
Local Open Scope nat_scope.

(*BEGIN PROP*)
(** The first sample of some attach_to in the history is acceptable. *)
Definition first_accepted {E U} (acts : list (pact E U)) : Prop :=
  exists x y n1 n2 n d, In (OpAttach x y, n1, n2) acts /\ is_sample x n d.
(** Some attach_to in the history has acceptable arguments. *)
Definition all_accepted {E U} (acts : list (pact E U)) : Prop :=
  exists x y n1 n2 n m d, In (OpAttach x y, n1, n2) acts /\ admissible x y n m d.
(*END PROP*)

Lemma append_assoc_s (a b c : string) : ((a ++ b) ++ c = a ++ (b ++ c))%string.
Proof. induction a; cbn; congruence. Qed.

Section P.
  Context {E V U : Type}.
  Variable N : numops V.

  Lemma prun_app a : forall b (s : pkm E V U), prun N (a ++ b) s = prun N b (prun N a s).
  Proof. induction a as [|x a IH]; intros; [reflexivity | apply IH]. Qed.

  Lemma pstep_fixed (a : pact E U) (s : pkm E V U) :
    p_kname (fst (pstep N a s)) = p_kname s /\ p_kernel (fst (pstep N a s)) = p_kernel s /\
    k_keep_normed (p_km (fst (pstep N a s))) = k_keep_normed (p_km s).
  Proof.
    destruct a as [[o n1] n2]. unfold pstep.
    assert (H := ident_step N o (p_km s)). unfold ident in H.
    destruct (step N o (p_km s)) as [s' r]. cbn in *. inversion H. auto.
  Qed.
  Lemma prun_fixed acts : forall (s : pkm E V U),
    p_kname (prun N acts s) = p_kname s /\ p_kernel (prun N acts s) = p_kernel s /\
    k_keep_normed (p_km (prun N acts s)) = k_keep_normed (p_km s).
  Proof.
    induction acts as [|a acts IH]; intros s; [auto|]. cbn [prun].
    destruct (IH (fst (pstep N a s))) as (-> & -> & ->). apply pstep_fixed.
  Qed.

  (** A call that is not an accepted attach_to keeps the description; the sample is set by any attach_to
      with acceptable first sample and never unset. *)
  Lemma pstep_descr o n1 n2 (s : pkm E V U) :
    (forall x y, o = OpAttach x y -> forall n m d, ~ admissible x y n m d) ->
    p_descr (fst (pstep N (o, n1, n2) s)) = p_descr s.
  Proof.
    intros H. unfold pstep. destruct (step N o (p_km s)) as [s' r] eqn:St. cbn.
    destruct o; auto. destruct r as [v|e]; auto.
    unfold step, fmap, bind in St. destruct (attach_to x y (p_km s)) as [s2 [[]|e]] eqn:At.
    - apply attach_to_inv in At. destruct At as (n & m & d & A & _). exfalso. eapply H; eauto.
    - inversion St.
  Qed.

  Lemma attach_sample x y (s : km E V U) :
    k_sample (fst (attach_to x y s)) =
      match ensure_2D_own x with Ok a => Some a | Raise _ => k_sample s end.
  Proof.
    unfold attach_to, bind, lift, modify. destruct (ensure_2D_own x) as [a|e]; [|reflexivity].
    destruct y as [y|]; [|reflexivity].
    destruct (ensure_2D_own y) as [b|e]; [|reflexivity].
    destruct (negb _); reflexivity.
  Qed.

  Lemma pstep_sample o n1 n2 (s : pkm E V U) :
    k_sample (p_km (fst (pstep N (o, n1, n2) s))) =
      match o with
      | OpAttach x y => match ensure_2D_own x with Ok a => Some a | Raise _ => k_sample (p_km s) end
      | _ => k_sample (p_km s)
      end.
  Proof.
    unfold pstep. destruct (step N o (p_km s)) as [s' r] eqn:St.
    cbn [fst p_km].
    replace s' with (fst (step N o (p_km s))) by now rewrite St.
    destruct (is_attach o) eqn:Ia.
    - destruct o; try discriminate. unfold step, fmap, bind.
      assert (At := attach_sample x y (p_km s)).
      destruct (attach_to x y (p_km s)) as [s2 [[]|e]]; exact At.
    - assert (F := frame_step N o Ia (p_km s)). unfold frame in F. inversion F. rewrite H3.
      destruct o; try discriminate; reflexivity.
  Qed.

  Lemma sample_iff (x : ndarray E) : (exists n d, is_sample x n d) <-> exists a, ensure_2D_own x = Ok a.
  Proof.
    split.
    - intros (n & d & H). rewrite (ensure_2D_own_ok x n d H). eauto.
    - intros (a & H). destruct (ensure_2D_own_inv x a H) as (n & d & Hs & _). eauto.
  Qed.

  Lemma prun_sample acts : forall (s : pkm E V U),
    (is_some (k_sample (p_km (prun N acts s))) = true <->
       is_some (k_sample (p_km s)) = true \/ first_accepted acts).
  Proof.
    induction acts as [|[[o n1] n2] acts IH]; intros s.
    - cbn. split; auto. intros [H|(x & y & a & b & n & d & [] & _)]; auto.
    - cbn [prun]. rewrite IH, pstep_sample.
      assert (FC : first_accepted ((o, n1, n2) :: acts) <->
        (exists x y, o = OpAttach x y /\ exists a, ensure_2D_own x = Ok a) \/ first_accepted acts).
      { unfold first_accepted. split.
        - intros (x & y & a & b & n & d & [H|H] & S).
          + inversion H; subst. left. exists x, y. split; auto. apply sample_iff; eauto.
          + right. eauto 10.
        - intros [(x & y & -> & S)|(x & y & a & b & n & d & H & S)].
          + apply sample_iff in S. destruct S as (n & d & S). exists x, y, n1, n2, n, d. cbn; auto.
          + exists x, y, a, b, n, d. cbn; auto. }
      rewrite FC. destruct o.
      2-16: (split; [intros [?|?]; auto | intros [?|[(? & ? & ? & _)|?]]; auto; discriminate]).
      destruct (ensure_2D_own x) as [a|e] eqn:Ex.
      + cbn. split; auto. intros _. right. left. exists x, y. eauto.
      + split; [intros [?|?]; auto|]. intros [?|[(x' & y' & Eq & a & Ha)|?]]; auto.
        inversion Eq; subst. congruence.
  Qed.

  Lemma prun_descr acts : forall (s : pkm E V U), ~ all_accepted acts ->
    p_descr (prun N acts s) = p_descr s.
  Proof.
    induction acts as [|[[o n1] n2] acts IH]; intros s H; [reflexivity|].
    cbn [prun]. rewrite IH.
    - apply pstep_descr. intros x y -> n m d A. apply H. exists x, y, n1, n2, n, m, d. cbn; auto.
    - intros (x & y & a & b & n & m & d & Hi & A). apply H. exists x, y, a, b, n, m, d. cbn; auto.
  Qed.

  Lemma pstep_attach x y n1 n2 n m d (s : pkm E V U) : admissible x y n m d ->
    p_descr (fst (pstep N (OpAttach x y, n1, n2) s)) =
      Some (match y with
            | None => n1 ++ " " ++ show_tuple [n; d]
            | Some _ => n1 ++ " " ++ show_tuple [n; d] ++ " x " ++ n2 ++ " " ++ show_tuple [m; d]
            end)%string.
  Proof.
    intros A. unfold pstep, step, fmap, bind. rewrite (attach_to_ok _ x y n m d A). cbn.
    destruct A as [_ A]. destruct y; cbn; reflexivity.
  Qed.
End P.

(** C81: before any attach_to with an acceptable first sample, str shows the name and the
    kernel. *)
Lemma pf_C81_unattached :
  forall {E V U} (N : numops V) (K : kernel E V) nrm name kstr (acts : list (pact E U)),
    ~ first_accepted acts ->
    km_str (prun N acts (p_new K nrm name kstr)) = Ok (name ++ ": " ++ kstr)%string.
Proof.
  intros E V U N K nrm name kstr acts H. unfold km_str.
  destruct (prun_fixed N acts (p_new (U:=U) K nrm name kstr)) as (-> & -> & _).
  assert (S := prun_sample N acts (p_new (U:=U) K nrm name kstr)).
  destruct (k_sample (p_km (prun N acts (p_new K nrm name kstr)))); [|reflexivity].
  exfalso. destruct (proj1 S eq_refl) as [X|X]; [discriminate | contradiction].
Qed.

(** C81: in every history, whatever is computed and whatever raises, str shows the name, the
    kernel, the normalisation flag and the names and sizes of the sample given to the last
    attach_to that was accepted. *)
Lemma pf_C81_attached :
  forall {E V U} (N : numops V) (K : kernel E V) nrm name kstr (pre post : list (pact E U))
         x y n1 n2 n m d,
    admissible x y n m d -> ~ all_accepted post ->
    km_str (prun N (pre ++ (OpAttach x y, n1, n2) :: post) (p_new K nrm name kstr)) =
    Ok (name ++ ": " ++ kstr ++ " (normed=" ++ (if nrm then "True" else "False") ++ ") on " ++
        match y with
        | None => n1 ++ " " ++ show_tuple [n; d]
        | Some _ => n1 ++ " " ++ show_tuple [n; d] ++ " x " ++ n2 ++ " " ++ show_tuple [m; d]
        end)%string.
Proof.
  intros E V U N K nrm name kstr pre post x y n1 n2 n m d A Np. unfold km_str.
  set (s0 := p_new (U:=U) K nrm name kstr).
  destruct (prun_fixed N (pre ++ (OpAttach x y, n1, n2) :: post) s0) as (-> & -> & ->).
  assert (S := prun_sample N (pre ++ (OpAttach x y, n1, n2) :: post) s0).
  replace (p_descr (prun N (pre ++ (OpAttach x y, n1, n2) :: post) s0))
    with (p_descr (fst (pstep N (OpAttach x y, n1, n2) (prun N pre s0)))).
  2:{ rewrite prun_app. cbn [prun]. rewrite prun_descr by exact Np. reflexivity. }
  rewrite (pstep_attach N x y n1 n2 n m d _ A).
  destruct (k_sample (p_km (prun N (pre ++ (OpAttach x y, n1, n2) :: post) s0))).
  - cbn [p_kname p_kernel s0 p_new p_km k_keep_normed km_new show_bool].
    f_equal. rewrite !append_assoc_s. reflexivity.
  - exfalso. assert (X : is_some (None : option (ndarray E)) = true); [|discriminate].
    apply S. right. destruct A as [A _]. exists x, y, n1, n2, n, d. split; [|exact A].
    apply in_or_app. right. left. reflexivity.
Qed.

(** C81, exactly when str raises: it is an AttributeError, and it happens if and only if some
    attach_to accepted its first sample but none was accepted altogether. *)
Lemma pf_C81_raises :
  forall {E V U} (N : numops V) (K : kernel E V) nrm name kstr (acts : list (pact E U)),
    (forall e, km_str (prun N acts (p_new K nrm name kstr)) = Raise e -> e = AttributeError) /\
    (km_str (prun N acts (p_new K nrm name kstr)) = Raise AttributeError <->
       first_accepted acts /\ ~ all_accepted acts).
Proof.
  intros E V U N K nrm name kstr acts. set (s0 := p_new (U:=U) K nrm name kstr).
  split.
  - unfold km_str. destruct (k_sample _); [|discriminate]. destruct (p_descr _); [discriminate|].
    intros e H; now inversion H.
  - split.
    + intros H. split.
      * destruct (prun_sample N acts s0) as [S _].
        unfold km_str in H. destruct (k_sample _); [|discriminate].
        destruct (S eq_refl) as [X|X]; [discriminate | exact X].
      * intros (x & y & n1 & n2 & n & m & d & Hi & A).
        (* the last accepted attach_to *)
        assert (G : forall acts : list (pact E U), all_accepted acts -> exists pre post x y n1 n2 n m d,
                  acts = pre ++ (OpAttach x y, n1, n2) :: post /\ admissible x y n m d /\ ~ all_accepted post).
        { clear. induction acts as [|[[o a] b] acts IH]; intros Ha.
          - destruct Ha as (x & y & n1 & n2 & n & m & d & [] & _).
          - assert (Dec : all_accepted acts \/ ~ all_accepted acts).
            { clear. induction acts as [|[[o a] b] acts [IH|IH]].
              - right. intros (x & y & n1 & n2 & n & m & d & [] & _).
              - left. destruct IH as (x & y & n1 & n2 & n & m & d & Hi & A).
                exists x, y, n1, n2, n, m, d. cbn; auto.
              - assert (D : (exists x y n m d, o = OpAttach x y /\ admissible x y n m d) \/
                            ~ (exists x y n m d, o = OpAttach x y /\ admissible x y n m d)).
                { destruct o as [x y| | | | | | | | | | | | | | |];
                    try (right; intros (x' & y' & n' & m' & d' & Eq & _); discriminate).
                  destruct (attach_to x y (km_new (V:=bool) (U:=U)
                             (mkKernel (fun _ _ _ => Ok true) true) true [])) as [s [[]|e]] eqn:At.
                  - apply attach_to_inv in At. destruct At as (n' & m' & d' & A' & _).
                    left. exists x, y, n', m', d'. auto.
                  - right. intros (x' & y' & n' & m' & d' & Eq & A'). inversion Eq; subst.
                    rewrite (attach_to_ok _ _ _ _ _ _ A') in At. discriminate. }
                destruct D as [(x & y & n & m & d & -> & A)|D].
                + left. exists x, y, a, b, n, m, d. cbn; auto.
                + right. intros (x & y & n1 & n2 & n & m & d & [Eq|Hi] & A).
                  * inversion Eq; subst. apply D. eauto 10.
                  * apply IH. exists x, y, n1, n2, n, m, d. auto. }
            destruct Dec as [Y|Nn].
            + destruct (IH Y) as (pre & post & x & y & n1 & n2 & n & m & d & -> & A & Np).
              exists ((o, a, b) :: pre), post, x, y, n1, n2, n, m, d. auto.
            + destruct Ha as (x & y & n1 & n2 & n & m & d & [Eq|Hi] & A).
              * inversion Eq; subst. exists [], acts, x, y, n1, n2, n, m, d. auto.
              * exfalso. apply Nn. exists x, y, n1, n2, n, m, d. auto. }
        destruct (G acts) as (pre & post & x' & y' & n1' & n2' & n' & m' & d' & -> & A' & Np).
        { exists x, y, n1, n2, n, m, d. auto. }
        assert (Z := pf_C81_attached N K nrm name kstr pre post x' y' n1' n2' n' m' d' A' Np).
        assert (X := eq_trans (eq_sym Z) H). discriminate.
    + intros [Fa Na]. unfold km_str. rewrite (prun_descr N acts s0 Na).
      destruct (prun_sample N acts s0) as [_ S]. specialize (S (or_intror Fa)).
      destruct (k_sample _); [reflexivity | discriminate].
Qed.

(** C81, in particular for KernelMatrix objects attached at least once with success: str never
    raises afterwards. Missing from the full statement: objects for which the only attach_to calls
    failed on the second sample (C81_refuted), and format (C81_format). *)
Lemma pf_C81_str_partial :
  forall {E V U} (N : numops V) (K : kernel E V) nrm name kstr (acts : list (pact E U)),
    all_accepted acts -> exists t, km_str (prun N acts (p_new K nrm name kstr)) = Ok t.
Proof.
  intros E V U N K nrm name kstr acts H.
  destruct (pf_C81_raises N K nrm name kstr acts) as [H1 H2].
  destruct (km_str (prun N acts (p_new K nrm name kstr))) as [t|e]; [eauto|].
  rewrite (H1 e eq_refl) in H2. destruct (proj1 H2 eq_refl). contradiction.
Qed.

(** C81 is false (1): after a first attach_to whose second sample is rejected, printing the object
    raises AttributeError. *)
Lemma pf_C81_refuted :
  exists (x y : ndarray (option Z)),
    km_str (prun toyN [(OpAttach x (Some y) : op _ nat, "a", "b")] (p_new dot true "km" "dot"))%string
    = Raise AttributeError.
Proof. exists toyX, toyA. reflexivity. Qed.

(** C81 is false (2): after a later attach_to that is rejected in the same way, the description is
    that of the previous samples although the object already holds the new first sample. *)
Lemma pf_C81_stale_refuted :
  exists (x x' y' : ndarray (option Z)) a,
    let s := prun toyN [(OpAttach x None : op _ nat, "a", "None"); (OpAttach x' (Some y'), "c", "d")]
               (p_new dot true "km" "dot") in
    k_sample (p_km s) = Some a /\ nd_shape a = [2; 2] /\
    km_str s = Ok "km: dot (normed=True) on a (3, 2)"%string.
Proof.
  exists toyX, toyX2, toyA. eexists. cbn. split; [reflexivity|]. split; reflexivity.
Qed.

Lemma all_strings_ok l ts : all_strings l = Ok ts <-> l = map Ok ts.
Proof.
  revert ts. induction l as [|r l IH]; intros ts; cbn.
  - destruct ts; cbn; split; intros H; try discriminate; auto.
  - destruct r as [t|e]; cbn.
    + destruct (all_strings l) as [us|e] eqn:A; cbn.
      * destruct ts as [|t' ts]; cbn; split; intros H; try discriminate.
        -- inversion H; subst. f_equal. now apply IH.
        -- inversion H; subst. f_equal. f_equal.
           assert (X : Ok us = Ok ts) by (now apply IH). now inversion X.
      * split; intros H; [discriminate|]. destruct ts as [|t' ts]; [discriminate|].
        cbn in H. inversion H; subst. exfalso.
        assert (X : @Raise (list string) e = Ok ts) by (now apply IH). discriminate.
    + split; intros H; [discriminate|]. destruct ts; discriminate.
Qed.

(** C81: printing a kernel set works exactly when printing each member does, and shows them in
    order; likewise the composites. *)
Lemma pf_C81_set :
  forall name cname ns members,
    ((exists t, set_str name ns members = Ok t) <-> forall r, In r members -> exists t, r = Ok t) /\
    (forall ts, members = map Ok ts ->
       set_str name ns members =
         Ok (name ++ "(" ++ show_nat (length ts) ++ " kernels, " ++ show_numsamp ns ++ " samples):" ++
             newline ++ tab ++ String.concat (newline ++ tab) ts ++ " ")%string) /\
    ((exists t, composite_str cname (set_str name ns members) = Ok t) <->
       forall r, In r members -> exists t, r = Ok t).
Proof.
  intros name cname ns members.
  assert (G : (exists ts, all_strings members = Ok ts) <-> forall r, In r members -> exists t, r = Ok t).
  { split.
    - intros (ts & H) r Hr. apply all_strings_ok in H. subst. apply in_map_iff in Hr.
      destruct Hr as (t & <- & _). eauto.
    - intros H. assert (X : exists ts, members = map Ok ts).
      { induction members as [|r l IH]; [exists []; reflexivity|].
        destruct (H r (or_introl eq_refl)) as (t & ->).
        destruct IH as (ts & ->); [intros; apply H; right; auto|]. exists (t :: ts). reflexivity. }
      destruct X as (ts & X). exists ts. now apply all_strings_ok. }
  assert (H1 : (exists t, set_str name ns members = Ok t) <-> exists ts, all_strings members = Ok ts).
  { unfold set_str. destruct (all_strings members) as [ts|e]; cbn; split; intros (t & H); eauto; discriminate. }
  repeat split.
  - intros H. apply G. now apply H1.
  - intros H. apply H1. now apply G.
  - intros ts ->. unfold set_str. rewrite (proj2 (all_strings_ok (map Ok ts) ts) eq_refl). cbn.
    now rewrite map_length.
  - intros (t & H). apply G, H1. unfold composite_str in H.
    destruct (set_str name ns members); [eauto | discriminate].
  - intros H. apply G, H1 in H. destruct H as (t & H). unfold composite_str. rewrite H. cbn. eauto.
Qed.

(** C81 is false for format: only the built-in kernel functions can be formatted; for every
    other class format, '{}'.format and f-strings raise TypeError whatever the state of the
    object. *)
Lemma pf_C81_format :
  forall c t,
    format_obj c t = if match c with ClsBuiltinKernel => true | _ => false end
                     then t else Raise TypeError.
Proof. intros c t. destruct c; reflexivity. Qed.

(*BEGIN PROP*)
(** A KernelMatrix attached to 3 x 2 and 2 x 2 samples, after a computation and a rejected
    attach_to; a set of it and an unattached one. *)
Example C81_example :
  let s := prun toyN [(OpAttach toyX (Some toyX2) : op _ nat, "train", "test");
                      (OpFull, "", ""); (OpAttach (mkNd [4] []) None, "bad", "None")]
             (p_new dot false "km" "linear") in
  km_str s = Ok "km: linear (normed=False) on train (3, 2) x test (2, 2)"%string /\
  set_str "S" (NSTwo 3 2) [km_str s; km_str (p_new (U := nat) dot true "k2" "poly")] =
    Ok ("S(2 kernels, (3, 2) samples):" ++ newline ++ tab ++
        "km: linear (normed=False) on train (3, 2) x test (2, 2)" ++ newline ++ tab ++ "k2: poly ")%string.
Proof. split; reflexivity. Qed.
(*END PROP*)
