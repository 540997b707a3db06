(** Operations, buckets and rankings while warnings are exceptions: property C110. *)
From Coq Require Import String Reals List Arith ZArith Bool Lia Lra.
Import ListNotations.
From Verif Require Import Prelude MatModel UtilsModel KMModel SpecKM XReal OpsModel SpecLinAlg KernelsModel
  KMXModel SetModel SpecSet BucketModel SpecBucket SpecComposite RankModel SpecRank OpWarnModel OpStrictModel.
From Verif Require Import MatFacts MFacts KMFacts KMInv OpsFacts OpsProps SetFacts SetProps ContProps KMXProps
  BucketProps CompositeFacts RankFacts RankProps AlignExact OpWarnProps.

Local Open Scope list_scope.
Local Open Scope nat_scope.

(*BEGIN PROP*)
(** What a call does while the warnings in [f] are exceptions, told from what it does otherwise ([plain]) and
    from the warnings [ws] it issues then, in order: the first one in [f], if there is any, is raised. *)
Definition strict_outcome {A} (f : owarning -> bool) (wexn : owarning -> exn) (ws : list owarning) (plain r : res A)
  : Prop :=
  match find f ws with
  | None => r = plain
  | Some v => r = Raise (wexn v)
  end.
(*END PROP*)

(** C110: is_PSD: the outcome is the usual one, unless it is accompanied by a warning that is an exception. *)
Lemma pf_C110_psd : forall f wexn eig lin a tol,
  strict_outcome f wexn (fst (is_PSD_w eig lin a tol [])) (is_PSD eig a tol) (is_PSD_e f wexn eig lin a tol).
Proof.
  intros f wexn eig lin a tol. unfold is_PSD_e, is_PSD_w, is_PSD, strict_outcome, warn_then, warn_o, modify, bind, ret, raise.
  destruct (negb (is_ndarray a)); [reflexivity|].
  destruct (negb (mr (amat a) =? mc (amat a))); [cbn; destruct (f WNotSquare); reflexivity|].
  destruct (negb _); [cbn; destruct (f WNotSymmetric); reflexivity|].
  destruct (eig (amat a)) as [l|e]; [reflexivity|].
  destruct (lin e); [reflexivity|cbn; destruct (f WUnknownFailure); reflexivity].
Qed.

(** C110: so a matrix that is accepted is accepted whatever the filter is; and with all warnings exceptions,
    False is returned only for eigenvalues: a symmetric matrix for which they are computed and one of which is
    below the tolerance, or for which they cannot be computed (LinAlgError). *)
Lemma pf_C110_psd_true : forall f wexn eig lin a tol,
  (is_PSD eig a tol = Ok true -> is_PSD_e f wexn eig lin a tol = Ok true) /\
  ((forall v, f v = true) -> is_PSD_e f wexn eig lin a tol = Ok false ->
     mr (amat a) = mc (amat a) /\
     (forall i j, i < mr (amat a) -> j < mr (amat a) -> xisclose (xget (amat a) i j) (xget (amat a) j i) = true) /\
     ((exists l v, eig (amat a) = Ok l /\ In v l /\ xltb v (xopp (Fin tol)) = true) \/
      (exists e, eig (amat a) = Raise e /\ lin e = true))).
Proof.
  intros f wexn eig lin a tol. split.
  - intros H. pose proof (pf_C110_psd f wexn eig lin a tol) as G. unfold strict_outcome in G.
    rewrite pf_C98_psd_true in G; [cbn in G; congruence|]. rewrite (proj1 (pf_C98_psd_outcome _ _ _ _ _)). exact H.
  - intros Hf. unfold is_PSD_e, warn_then. rewrite !Hf.
    destruct (is_ndarray a); [cbn [negb]|discriminate].
    destruct (mr (amat a) =? mc (amat a)) eqn:Hs; [cbn [negb]|discriminate]. apply Nat.eqb_eq in Hs.
    destruct (forallb _ _) eqn:Hsym; [cbn [negb]|discriminate]. intros H. split; [exact Hs|]. split.
    + intros i j Hi Hj. rewrite forallb_forall in Hsym. specialize (Hsym i ltac:(apply in_seq; lia)). cbv beta in Hsym.
      rewrite forallb_forall in Hsym. apply (Hsym j). apply in_seq. lia.
    + destruct (eig (amat a)) as [l|e].
      * left. exists l. injection H as H. apply negb_false_iff in H. apply existsb_exists in H.
        destruct H as (v & Hv & Hx). exists v. auto.
      * right. exists e. destruct (lin e); [auto|discriminate].
Qed.

(** C110: alignment_centered. *)
Lemma pf_C110_alignment : forall f wexn a b z c,
  strict_outcome f wexn (fst (alignment_centered_w a b z c [])) (alignment_centered a b z c)
    (alignment_centered_e f wexn a b z c).
Proof.
  intros f wexn a b z c.
  unfold alignment_centered_e, alignment_centered_w, alignment_centered, strict_outcome, warn_then.
  destruct (negb (same_shape _ _)); [reflexivity|]. destruct (negb (is_ndarray a) || _); [reflexivity|].
  assert (X : forall a, (if c then ret a else lift (center_km a)) = lift (if c then Ok a else center_km a) :> M (list owarning) _)
    by (intros; destruct c; reflexivity).
  rewrite !X. destruct (if c then Ok a else center_km a) as [ca|e]; [|reflexivity].
  destruct (if c then Ok b else center_km b) as [cb|e]; [|reflexivity].
  unfold bind, lift. cbn [rbind].
  destruct (frobenius_norm ca) as [na|e]; [|reflexivity]. cbn [rbind].
  destruct (frobenius_norm cb) as [nb|e]; [|reflexivity]. cbn [rbind].
  destruct (_ || _).
  - destruct z as [|v]; [reflexivity|]. cbn. destruct (f WZeroNorm); reflexivity.
  - destruct (frobenius_product ca cb) as [p|e]; reflexivity.
Qed.

(** C110: while that warning is an exception the value for vanishing matrices makes no difference: with any
    value, the outcome is that of value_if_zero_division='raise', but for the exception raised. *)
Lemma pf_C110_alignment_value : forall f wexn a b v c, f WZeroNorm = true ->
  alignment_centered_e f wexn a b (ZValue v) c = alignment_centered a b ZRaise c \/
  alignment_centered_e f wexn a b (ZValue v) c = Raise (wexn WZeroNorm) /\ alignment_centered a b ZRaise c = Raise ValueError.
Proof.
  intros f wexn a b v c Hf. unfold alignment_centered_e, alignment_centered, warn_then. rewrite Hf.
  destruct (negb (same_shape _ _)); [auto|]. destruct (negb (is_ndarray a) || _); [auto|].
  destruct (if c then Ok a else center_km a) as [ca|e]; [|auto].
  destruct (if c then Ok b else center_km b) as [cb|e]; [|auto]. cbn [rbind].
  destruct (frobenius_norm ca) as [na|e]; [|auto]. cbn [rbind].
  destruct (frobenius_norm cb) as [nb|e]; [|auto]. cbn [rbind].
  destruct (_ || _); auto.
Qed.

(** ** Buckets *)
Section Follow.
  Context {U : Type}.
  Variable N : numops xr.
  Variable C : cmpops xr.
  Variable f : owarning -> bool.
  Variable wexn : owarning -> exn.
  Notation World := (world xr xr U).

  Definition follows {A} (mw : M (World * list owarning) A) (m me : M World A) : Prop :=
    forall w log, exists ws, mw (w, log) = ((fst (m w), log ++ ws), snd (m w)) /\
      match find f ws with None => me w = m w | Some v => snd (me w) = Raise (wexn v) end.

  Lemma find_app : forall {A} (g : A -> bool) l l',
    find g (l ++ l') = match find g l with Some v => Some v | None => find g l' end.
  Proof. intros A g l l'. induction l as [|a l IH]; cbn; [reflexivity|]. destruct (g a); auto. Qed.

  Lemma fo_quiet : forall {A} (m : M World A), follows (quiet m) m m.
  Proof. intros A m w log. exists []. unfold quiet. cbn [fst snd]. destruct (m w). rewrite app_nil_r. split; reflexivity. Qed.
  Lemma fo_ret : forall {A} (a : A), follows (ret a) (ret a) (ret a).
  Proof. intros A a w log. exists []. rewrite app_nil_r. split; reflexivity. Qed.
  Lemma fo_raise : forall {A} e, follows (@raise _ A e) (raise e) (raise e).
  Proof. intros A e w log. exists []. rewrite app_nil_r. split; reflexivity. Qed.

  Lemma fo_bind : forall {A B} mw m me (kw : A -> M (World * list owarning) B) k ke,
    follows mw m me -> (forall a, follows (kw a) (k a) (ke a)) -> follows (bind mw kw) (bind m k) (bind me ke).
  Proof.
    intros A B mw m me kw k ke Hm Hk w log. unfold bind. destruct (Hm w log) as (ws & -> & H).
    destruct (find f ws) as [v|] eqn:Ef.
    - destruct (me w) as [w2 r2]. cbn [snd] in H. subst r2.
      destruct (m w) as [w' [a|e]]; cbn [fst snd].
      + destruct (Hk a w' (log ++ ws)) as (ws' & -> & _). exists (ws ++ ws'). rewrite app_assoc, find_app, Ef. split; reflexivity.
      + exists ws. rewrite Ef. split; reflexivity.
    - rewrite H. destruct (m w) as [w' [a|e]]; cbn [fst snd].
      + destruct (Hk a w' (log ++ ws)) as (ws' & -> & H'). exists (ws ++ ws'). rewrite app_assoc, find_app, Ef. split; [reflexivity|exact H'].
      + exists ws. rewrite Ef. split; reflexivity.
  Qed.

  Lemma fo_attempt : forall {A} v (m : M World A), follows (attempt_w v m) (attempt m) (attempt_e f wexn v m).
  Proof.
    intros A v m w log. unfold attempt_w, attempt, attempt_e, warn_then. cbn [fst snd]. destruct (m w) as [w' [a|e]]; cbn [fst].
    - exists []. rewrite app_nil_r. split; reflexivity.
    - exists [v]. split; [reflexivity|]. cbn [find]. destruct (f v); reflexivity.
  Qed.

  Lemma fo_each : forall b g p l i,
    follows (add_each_w N C b g p i l) (for_each l (fun r => attempt (append_new N C b r))) (add_each_e f wexn N C b g p i l).
  Proof.
    intros b g p l. induction l as [|r l IH]; intros i; cbn [add_each_w for_each add_each_e]; [apply fo_ret|].
    apply fo_bind; [apply fo_attempt|intros _; apply IH].
  Qed.

  Lemma fo_add : forall b c g p v,
    follows (add_parametrized_w N C b c g p v) (add_parametrized N C b c v) (add_parametrized_e f wexn N C b c g p v).
  Proof.
    intros b c g p v. unfold add_parametrized_w, add_parametrized, add_parametrized_e. destruct c; cbn [negb]; [|apply fo_raise].
    destruct v as [| | |[|r l]]; try apply fo_raise; [apply fo_ret|apply fo_each].
  Qed.

  Lemma fo_new : forall g h p, follows (bucket_new_w N C g h p) (bucket_new N C g h p) (bucket_new_e f wexn N C g h p).
  Proof.
    intros [nrm|] [chk|] p; try apply fo_raise. unfold bucket_new_w, bucket_new, bucket_new_e.
    apply fo_bind; [apply fo_quiet|intros l]. apply fo_bind; [apply fo_quiet|intros k].
    apply fo_bind; [apply fo_quiet|intros s]. apply fo_bind; [apply fo_quiet|intros _].
    repeat (apply fo_bind; [apply fo_add|intros _]). apply fo_ret.
  Qed.

  Lemma fo_make : forall st g h,
    follows (make_kernel_bucket_w N C st g h) (make_kernel_bucket N C st g h) (make_kernel_bucket_e f wexn N C st g h).
  Proof.
    intros [s|b|] g h; unfold make_kernel_bucket_w, make_kernel_bucket, make_kernel_bucket_e; [| |apply fo_raise].
    - cbv zeta. destruct (String.eqb _ _); [apply fo_new|]. destruct (String.eqb _ _); [apply fo_new|].
      destruct (String.eqb _ _); [apply fo_new|apply fo_raise].
    - intros w log. exists [WAlreadyBucket]. split; [reflexivity|]. unfold lift, warn_then. cbn [find].
      destruct (f WAlreadyBucket); reflexivity.
  Qed.

  Lemma follows_out : forall {A} mw (m me : M World A) w, follows mw m me ->
    strict_outcome f wexn (snd (fst (mw (w, [])))) (snd (m w)) (snd (me w)) /\
    (find f (snd (fst (mw (w, [])))) = None -> me w = m w).
  Proof.
    intros A mw m me w H. destruct (H w []) as (ws & -> & G). cbn [fst snd app]. unfold strict_outcome.
    destruct (find f ws); [split; [exact G|discriminate]|]. rewrite G. split; reflexivity.
  Qed.
End Follow.

(** C110: the functions of sampling.py that build buckets. If none of the warnings is an exception they leave
    the same state, too. *)
Lemma pf_C110_bucket :
  forall {U} (N : numops xr) (C : cmpops xr) f wexn (w : world xr xr U),
  (forall b c g p v, let ws := snd (fst (add_parametrized_w N C b c g p v (w, []))) in
     strict_outcome f wexn ws (snd (add_parametrized N C b c v w)) (snd (add_parametrized_e f wexn N C b c g p v w)) /\
     (find f ws = None -> add_parametrized_e f wexn N C b c g p v w = add_parametrized N C b c v w)) /\
  (forall nk sk p, let ws := snd (fst (bucket_new_w N C nk sk p (w, []))) in
     strict_outcome f wexn ws (snd (bucket_new N C nk sk p w)) (snd (bucket_new_e f wexn N C nk sk p w)) /\
     (find f ws = None -> bucket_new_e f wexn N C nk sk p w = bucket_new N C nk sk p w)) /\
  (forall st nk sk, let ws := snd (fst (make_kernel_bucket_w N C st nk sk (w, []))) in
     strict_outcome f wexn ws (snd (make_kernel_bucket N C st nk sk w)) (snd (make_kernel_bucket_e f wexn N C st nk sk w)) /\
     (find f ws = None -> make_kernel_bucket_e f wexn N C st nk sk w = make_kernel_bucket N C st nk sk w)).
Proof.
  intros U N C f wexn w. split; [|split]; intros; apply follows_out; [apply fo_add|apply fo_new|apply fo_make].
Qed.

Lemma find_map_skip : forall f g p L,
  find f (map (WSkipping g p) L) = match find (fun i => f (WSkipping g p i)) L with Some i => Some (WSkipping g p i) | None => None end.
Proof. intros f g p L. induction L as [|i L IH]; cbn; [reflexivity|]. destruct (f _); auto. Qed.

Lemma find_seq_ge : forall g i n j, find g (seq i n) = Some j -> i <= j.
Proof. intros g i n j H. apply find_some in H. destruct H as [H _]. apply in_seq in H. lia. Qed.
Lemma failing_ge : forall {A} (l : list (res A)) i j, In j (failing i l) -> i <= j.
Proof.
  intros A l. induction l as [|[a|e] l IH]; intros i j; cbn; [contradiction| |].
  - intros H. apply IH in H. lia.
  - intros [->|H]; [lia|]. apply IH in H. lia.
Qed.

Lemma each_stops : forall {U} (N : numops xr) (C : cmpops xr) f wexn k nrm g p l i (w : world xr xr U) s,
  nth_error (w_sets w) k = Some s ->
  match find (fun j => f (WSkipping g p j)) (if numsamp_eqb (s_num s) NSNone then failing i l else seq i (length l)) with
  | None => add_each_e f wexn N C (mkBucket k nrm) g p i l w = for_each l (fun r => attempt (append_new N C (mkBucket k nrm) r)) w
  | Some j => add_each_e f wexn N C (mkBucket k nrm) g p i l w =
      (fst (for_each (firstn (S j - i) l) (fun r => attempt (append_new N C (mkBucket k nrm) r)) w), Raise (wexn (WSkipping g p j)))
  end.
Proof.
  intros U N C f wexn k nrm g p l. induction l as [|r l IH]; intros i w s H.
  - destruct (numsamp_eqb _ _); reflexivity.
  - pose proof (append_new_cases N C w k nrm s r H) as Q.
    destruct (append_new N C (mkBucket k nrm) r w) as [w1 q] eqn:E. cbn [fst] in Q.
    assert (STEP : forall l', for_each (r :: l') (fun r => attempt (append_new N C (mkBucket k nrm) r)) w =
                              for_each l' (fun r => attempt (append_new N C (mkBucket k nrm) r)) w1).
    { intros l'. cbn [for_each]. unfold bind at 1. unfold attempt at 1. rewrite E. destruct q; reflexivity. }
    assert (STEPE : add_each_e f wexn N C (mkBucket k nrm) g p i (r :: l) w =
       match q with
       | Ok _ => add_each_e f wexn N C (mkBucket k nrm) g p (S i) l w1
       | Raise _ => if f (WSkipping g p i) then (w1, Raise (wexn (WSkipping g p i)))
                    else add_each_e f wexn N C (mkBucket k nrm) g p (S i) l w1
       end).
    { cbn [add_each_e]. unfold bind at 1. unfold attempt_e, warn_then. rewrite E. destruct q; [reflexivity|].
      destruct (f _); reflexivity. }
    rewrite STEPE, STEP. clear STEPE.
    destruct Q as [(K & s1 & -> & Hn & Q & Hs1 & Hn1 & Hm1)|(Hr & (e & Q) & Hs1)]; injection Q as ->.
    + specialize (IH (S i) _ s1 Hs1). rewrite Hn1 in IH. rewrite Hn. cbn [numsamp_eqb failing] in *.
      destruct (find _ (failing (S i) l)) as [j|] eqn:Ef; [|exact IH].
      assert (S i <= j) by (apply find_some in Ef; destruct Ef as [Ef _]; eapply failing_ge; exact Ef).
      replace (S j - i) with (S (S j - S i)) by lia. cbn [firstn]. rewrite STEP. exact IH.
    + specialize (IH (S i) _ s Hs1).
      assert (L : (if numsamp_eqb (s_num s) NSNone then failing i (r :: l) else seq i (length (r :: l))) =
                  i :: (if numsamp_eqb (s_num s) NSNone then failing (S i) l else seq (S i) (length l))).
      { destruct (numsamp_eqb (s_num s) NSNone) eqn:En; [|reflexivity].
        destruct r as [K|e']; [|reflexivity]. destruct (Hr K eq_refl). apply numsamp_eqb_eq. exact En. }
      rewrite L. cbn [find]. destruct (f (WSkipping g p i)).
      * replace (S i - i) with 1 by lia. cbn [firstn]. rewrite STEP. reflexivity.
      * destruct (find _ _) as [j|] eqn:Ef; [|exact IH].
        assert (S i <= j).
        { apply find_some in Ef. destruct Ef as [Ef _]. destruct (numsamp_eqb _ _); [eapply failing_ge; exact Ef|].
          apply in_seq in Ef. lia. }
        replace (S j - i) with (S (S j - S i)) by lia. cbn [firstn]. rewrite STEP. exact IH.
Qed.

(** C110: where add_parametrized_kernels stops. With the values that lead to a warning (those for which no
    kernel can be constructed; all of them once the bucket is attached): if none of these warnings is an
    exception, it does what it does otherwise. If one is, the first such is raised, and everything is as if
    only the values up to that one had been given: the kernels added before stay in the bucket, the values
    after it are not looked at. *)
Lemma pf_C110_stops :
  forall {U} (N : numops xr) (C : cmpops xr) f wexn (w : world xr xr U) b num ms g p l,
  set_is w (b_set b) num ms -> l <> [] ->
  match find (fun j => f (WSkipping g p j)) (if numsamp_eqb num NSNone then failing 0 l else seq 0 (length l)) with
  | None => add_parametrized_e f wexn N C b true g p (BIter l) w = add_parametrized N C b true (BIter l) w
  | Some j => add_parametrized_e f wexn N C b true g p (BIter l) w =
      (fst (add_parametrized N C b true (BIter (firstn (S j) l)) w), Raise (wexn (WSkipping g p j)))
  end.
Proof.
  intros U N C f wexn w [k nrm] num ms g p l (i & x & Hs) Hl. cbn [b_set] in *.
  pose proof (each_stops N C f wexn k nrm g p l 0 w _ Hs) as H. cbn [s_num] in H.
  destruct l as [|r l]; [congruence|]. unfold add_parametrized_e, add_parametrized. cbn [negb].
  destruct (find _ _) as [j|]; [|exact H]. rewrite Nat.sub_0_r in H. exact H.
Qed.

(** C110: so, for a bucket that is not attached and with all warnings exceptions: exactly the kernels of the
    values before the first one that fails are added. *)
Lemma pf_C110_prefix :
  forall {U} (N : numops xr) (C : cmpops xr) f wexn (w : world xr xr U) b ms g p pre e post,
  set_is w (b_set b) NSNone ms -> (forall v, f v = true) ->
  let r := add_parametrized_e f wexn N C b true g p (BIter (map Ok pre ++ Raise e :: post)) w in
  snd r = Raise (wexn (WSkipping g p (length pre))) /\
  exists new, set_is (fst r) (b_set b) NSNone (ms ++ new) /\ new_matrices w (fst r) (b_norm b) new pre /\
    objects_kept w (fst r) /\ other_sets_kept (b_set b) w (fst r).
Proof.
  intros U N C f wexn w [k nrm] ms g p pre e post Hs Hf r.
  assert (F : forall i, failing i (map (@Ok (kernel xr xr)) pre ++ Raise e :: post) = i + length pre :: failing (S (i + length pre)) post).
  { clear. induction pre as [|K pre IH]; intros i; cbn; [rewrite Nat.add_0_r; reflexivity|]. rewrite IH, Nat.add_succ_r. reflexivity. }
  pose proof (pf_C110_stops N C f wexn w (mkBucket k nrm) NSNone ms g p (map Ok pre ++ Raise e :: post) Hs
                ltac:(destruct pre; discriminate)) as H.
  cbn [numsamp_eqb] in H. rewrite F in H. cbn [find plus] in H. rewrite Hf in H. fold r in H. rewrite H. cbn [fst snd].
  split; [reflexivity|].
  assert (P : firstn (S (length pre)) (map (@Ok (kernel xr xr)) pre ++ Raise e :: post) = map Ok pre ++ [Raise e]).
  { rewrite firstn_app, map_length. rewrite firstn_all2 by (rewrite map_length; lia).
    replace (S (length pre) - length pre) with 1 by lia. reflexivity. }
  rewrite P.
  assert (B : built (map (@Ok (kernel xr xr)) pre ++ [Raise e]) = pre).
  { clear. induction pre as [|K pre IH]; cbn; [reflexivity|rewrite IH; reflexivity]. }
  destruct Hs as (b & x & Hs). cbn [b_set] in Hs.
  destruct (add_grows N C (BIter (map Ok pre ++ [Raise e])) pre w k nrm b ms x) as (b' & E & _).
  { split; [destruct pre; discriminate|symmetry; exact B]. }
  { exact Hs. }
  rewrite E. cbn [fst b_set b_norm]. exists (seq (length (w_objs w)) (length pre)).
  split; [exists b', x; eapply grown_set; exact Hs|].
  split; [split; [|split]|split].
  - unfold grown. cbn [w_objs]. clear. generalize (w_objs w) as os. induction pre as [|K L IH]; intros os; cbn [length seq map]; constructor.
    + rewrite nth_error_app2, Nat.sub_diag by lia. reflexivity.
    + specialize (IH (os ++ [OKM (km_new K nrm [])])). rewrite app_length in IH. cbn [length] in IH.
      replace (length os + 1) with (S (length os)) in IH by lia. rewrite <- app_assoc in IH. exact IH.
  - apply seq_NoDup.
  - intros l Hl. apply in_seq in Hl. apply nth_error_None. lia.
  - intros l o Ho. unfold grown. cbn [w_objs]. rewrite nth_error_app1; [exact Ho|]. apply nth_error_Some. congruence.
  - intros j s Hj Hsj. unfold grown. cbn [w_sets]. rewrite nth_error_upd_other by congruence. exact Hsj.
Qed.

Section NewFrame.
  Context {U : Type}.
  Variable N : numops xr.
  Variable C : cmpops xr.
  Variable f : owarning -> bool.
  Variable wexn : owarning -> exn.
  Notation World := (world xr xr U).

  Lemma add_e_grows : forall v g p (w : World) k nrm b ms x,
    nth_error (w_sets w) k = Some (mkSet NSNone b ms x) ->
    exists b' Ks r, add_parametrized_e f wexn N C (mkBucket k nrm) true g p v w = (grown w k nrm b' ms x Ks, r).
  Proof.
    intros v g p w k nrm b ms x H.
    assert (Z : forall r : res unit, exists b' Ks r', (w, r) = (grown w k nrm b' ms x Ks, r')).
    { intros r. exists b, [], r. rewrite grown_nil by exact H. reflexivity. }
    destruct v as [| | |l]; [apply Z..|]. destruct l as [|r0 l0]; [apply Z|].
    set (l := r0 :: l0). assert (Hl : l <> []) by discriminate.
    pose proof (pf_C110_stops N C f wexn w (mkBucket k nrm) NSNone ms g p l) as G.
    specialize (G ltac:(exists b, x; exact H) Hl).
    assert (X : forall l', l' <> [] -> exists b', add_parametrized N C (mkBucket k nrm) true (BIter l') w = (grown w k nrm b' ms x (built l'), Ok tt)).
    { intros l' Hl'. destruct (add_grows N C (BIter l') (built l') w k nrm b ms x) as (b' & E & _);
        [split; [exact Hl'|reflexivity]|exact H|]. exists b'. exact E. }
    destruct (find _ _) as [j|]; rewrite G.
    - destruct (X (firstn (S j) l)) as (b' & ->); [discriminate|]. do 3 eexists. reflexivity.
    - destruct (X l Hl) as (b' & ->). do 3 eexists. reflexivity.
  Qed.

  Lemma new_e_start : forall (w : World) nrm chk p,
    bucket_new_e f wexn N C (Some nrm) (Some chk) p w =
    (let b := mkBucket (length (w_sets w)) nrm in
     add_parametrized_e f wexn N C b true "PolyKernel" "degree" (bp_poly_degree p) ;;;
     add_parametrized_e f wexn N C b true "GaussianKernel" "sigma" (bp_rbf_sigma p) ;;;
     add_parametrized_e f wexn N C b true "LaplacianKernel" "gamma" (bp_laplace_gamma p) ;;;
     add_parametrized_e f wexn N C b true "SigmoidKernel" "gamma" (bp_sigmoid_gamma p) ;;;
     add_parametrized_e f wexn N C b true "SigmoidKernel" "offset" (bp_sigmoid_offset p) ;;;
     ret b) (start w nrm).
  Proof.
    intros w nrm chk p. unfold bucket_new_e.
    assert (Hl : forall {A} (l : list A) a b, list_upd (l ++ [a]) (length l) b = l ++ [b]).
    { intros A l a b. induction l as [|y l IH]; cbn; [reflexivity|]. rewrite IH. reflexivity. }
    unfold bind at 1, new_obj at 1. unfold bind at 1. unfold set_new. unfold bind at 1, new_set at 1.
    cbn [set_objs w_objs w_sets for_each]. unfold bind at 1. unfold bind at 1.
    rewrite append_ref. cbn [set_sets set_objs w_objs w_sets]. rewrite !nth_error_snoc, !Nat.eqb_refl.
    unfold joins, joined. cbn [s_init s_num numsamp_eqb negb andb orb s_members s_sample obj_num k_num_samples km_new app].
    unfold ret at 1. rewrite Hl. unfold ret at 1. unfold bind at 1, get_set at 1. cbn [set_sets w_sets w_objs].
    rewrite nth_error_snoc, Nat.eqb_refl. unfold bind at 1. unfold put_set at 1, modify at 1.
    cbn [set_sets w_sets w_objs s_num s_init s_members s_sample]. rewrite Hl. reflexivity.
  Qed.
End NewFrame.

(** C110: the constructor of buckets, whether it raises or not, leaves all existing kernel matrices and sets
    as they are. *)
Lemma pf_C110_new_frame :
  forall {U} (N : numops xr) (C : cmpops xr) f wexn (w : world xr xr U) nk sk p,
  let r := bucket_new_e f wexn N C nk sk p w in objects_kept w (fst r) /\ sets_kept w (fst r).
Proof.
  intros U N C f wexn w nk sk p r.
  destruct nk as [nrm|]; [|split; intros ? ? H; exact H].
  destruct sk as [chk|]; [|split; intros ? ? H; exact H].
  assert (G : exists b Ks q, r = (grown (start w nrm) (length (w_sets w)) nrm b [length (w_objs w)] None Ks, q)).
  { unfold r. rewrite new_e_start. cbv zeta. pose proof (start_set w nrm) as S0.
    assert (step : forall v g p Ks b (m : M (world xr xr U) bucket),
      (forall Ks b, exists b' Ks' q, m (grown (start w nrm) (length (w_sets w)) nrm b [length (w_objs w)] None Ks)
         = (grown (start w nrm) (length (w_sets w)) nrm b' [length (w_objs w)] None Ks', q)) ->
      exists b' Ks' q,
      (add_parametrized_e f wexn N C (mkBucket (length (w_sets w)) nrm) true g p v ;;; m)
        (grown (start w nrm) (length (w_sets w)) nrm b [length (w_objs w)] None Ks)
      = (grown (start w nrm) (length (w_sets w)) nrm b' [length (w_objs w)] None Ks', q)).
    { intros v g p0 Ks b m Hm.
      destruct (add_e_grows N C f wexn v g p0 _ _ nrm _ _ _ (grown_set _ _ nrm b [length (w_objs w)] None Ks _ S0))
        as (b1 & Ks1 & q & E1).
      unfold bind. rewrite E1, grown_grown. destruct q as [u|e]; [apply Hm|]. do 3 eexists. reflexivity. }
    assert (step0 : forall m : M (world xr xr U) bucket,
      (forall Ks b, exists b' Ks' q, m (grown (start w nrm) (length (w_sets w)) nrm b [length (w_objs w)] None Ks)
         = (grown (start w nrm) (length (w_sets w)) nrm b' [length (w_objs w)] None Ks', q)) ->
      exists b' Ks' q, m (start w nrm) = (grown (start w nrm) (length (w_sets w)) nrm b' [length (w_objs w)] None Ks', q)).
    { intros m Hm. specialize (Hm [] true). rewrite (grown_nil _ _ nrm _ _ _ S0) in Hm. exact Hm. }
    apply step0. intros Ks b. do 5 (apply step; intros). do 3 eexists. reflexivity. }
  destruct G as (b & Ks & q & ->). cbn [fst]. destruct (start_grown w nrm b None Ks) as (_ & _ & A3 & A4). auto.
Qed.

(** C110: make_kernel_bucket: the named strategies give what they give otherwise, whatever the filter; a
    bucket given instead of a name is returned, or the warning raised, and nothing is changed. *)
Lemma pf_C110_make :
  forall {U} (N : numops xr) (C : cmpops xr) f wexn (w : world xr xr U) nk sk,
  (forall s, make_kernel_bucket_e f wexn N C (SName s) nk sk w = make_kernel_bucket N C (SName s) nk sk w) /\
  (forall b, make_kernel_bucket_e f wexn N C (SBucket b) nk sk w =
             (w, if f WAlreadyBucket then Raise (wexn WAlreadyBucket) else Ok b)).
Proof.
  intros U N C f wexn w nk sk. split.
  - intros s. apply (proj2 (proj2 (pf_C110_bucket N C f wexn w))).
    rewrite (proj1 (proj2 (pf_C98_make N C w [] nk sk)) s). reflexivity.
  - intros b. reflexivity.
Qed.

(** ** pairwise_similarity and rankings *)
Lemma align_e_cases : forall f wexn K L v c n, f WZeroNorm = true ->
  afmt K <> Lil -> afmt L <> Lil -> mr (amat K) = n -> mc (amat K) = n -> mr (amat L) = n -> mc (amat L) = n ->
  (vanishes c n (xget (amat K)) \/ vanishes c n (xget (amat L)) ->
     alignment_centered_e f wexn K L (ZValue v) c = Raise (wexn WZeroNorm)) /\
  (~ vanishes c n (xget (amat K)) -> ~ vanishes c n (xget (amat L)) ->
     alignment_centered_e f wexn K L (ZValue v) c = alignment_centered K L (ZValue v) c).
Proof.
  intros f wexn K L v c n Hf HK HL K1 K2 L1 L2.
  pose proof (pf_C110_alignment f wexn K L (ZValue v) c) as G. unfold strict_outcome in G.
  pose proof (pf_C98_alignment_exact K L (ZValue v) c n [] HK HL K1 K2 L1 L2) as X.
  destruct (pf_C98_alignment_outcome K L (ZValue v) c []) as [_ [Y|Y]]; rewrite Y in *; cbn [app find] in *.
  - split; [|intros _ _; exact G]. intros H. assert (Z : [] = [WZeroNorm]) by (apply X; split; [exact H|discriminate]). discriminate.
  - rewrite Hf in G. split; [intros _; exact G|]. intros H1 H2. destruct (proj1 X eq_refl) as [[H|H] _]; contradiction.
Qed.

Lemma align_ok_value : forall K L v c n,
  afmt K <> Lil -> afmt L <> Lil -> mr (amat K) = n -> mc (amat K) = n -> mr (amat L) = n -> mc (amat L) = n ->
  exists u, alignment_centered K L (ZValue v) c = Ok u.
Proof.
  intros K L v c n HK HL K1 K2 L1 L2. destruct (pf_C23_exact K L (ZValue v) c n HK HL K1 K2 L1 L2) as [H1 H2].
  assert (V : forall h, vanishes c n h \/ ~ vanishes c n h).
  { intros h. destruct (finite_or_not n h) as [[A HA]|H].
    - destruct (Rle_dec (fnorm n n (as_centred c n A)) tiny) as [Hle|Hgt]; [left; exists A; auto|right].
      intros (B & HB & Hle). apply Hgt. rewrite (fnorm_of_ext n _ (as_centred c n B)); [exact Hle|].
      apply as_centred_ext. apply (num_unique n _ A B HA HB).
    - right. intros (A & HA & _). destruct H as (i & j & Hi & Hj & H). apply (H (A i j)). apply HA; assumption. }
  destruct (V (xget (amat K))) as [VK|VK]; [eexists; apply H1; auto|].
  destruct (V (xget (amat L))) as [VL|VL]; [eexists; apply H1; auto|].
  destruct (H2 VK VL) as [H3 H4].
  destruct (finite_or_not n (xget (amat K))) as [[A HA]|H]; [|eexists; apply H3; left; exact H].
  destruct (finite_or_not n (xget (amat L))) as [[B HB]|H]; [|eexists; apply H3; right; exact H].
  eexists. apply (H4 A B HA HB).
Qed.

(*BEGIN PROP*)
(** Ndarrays (or numpy matrices) of shape n x n, with any entries. *)
Definition square_arrays (n : nat) (Ks : list (arr xr)) : Prop :=
  forall K, In K Ks -> afmt K <> Lil /\ mr (amat K) = n /\ mc (amat K) = n.
(*END PROP*)

(** C110: pairwise_similarity with metric 'align' while the warning about vanishing matrices is an exception:
    it is raised exactly if some kernel matrix, centred, (nearly) vanishes; otherwise the table is the same. *)
Lemma pf_C110_pairwise :
  forall {U} f wexn co (w : world xr xr U) k num ms Ks n, f WZeroNorm = true ->
    set_is w k num ms -> fulls w ms Ks -> square_arrays n Ks ->
    ((exists K, In K Ks /\ vanishes false n (xget (amat K))) ->
       snd (pairwise_similarity_e f wexn co k "align" w) = Raise (wexn WZeroNorm)) /\
    ((forall K, In K Ks -> ~ vanishes false n (xget (amat K))) ->
       snd (pairwise_similarity_e f wexn co k "align" w) = snd (pairwise_similarity co k "align" w)).
Proof.
  intros U f wexn co w k num ms Ks n Hf Hk HF Hq.
  destruct (set_is_eq w k num ms Hk) as (s & Hs & _ & Hms). subst ms.
  assert (L : length (s_members s) = length Ks) by (eapply Forall2_len; exact HF).
  assert (Q : forall i, i < length Ks -> In (nth i Ks dflt) Ks) by (intros; apply nth_In; assumption).
  unfold pairwise_similarity_e, pairwise_similarity, metric_func_e, metric_func. cbn [String.eqb Ascii.eqb Bool.eqb].
  unfold bind, get_set, lift. rewrite Hs.
  match goal with |- context [fill_pairs _ k ?ps0 ?P0] => set (ps := ps0); set (P := P0) end.
  assert (Hps : forall i j, In (i, j) ps -> i < length Ks /\ j < length Ks).
  { intros i j H. unfold ps in H. apply pairs_in in H. lia. }
  split.
  - intros (K & HK & HV). destruct (In_nth _ _ dflt HK) as (i & Hi & Ei).
    destruct (fill_raises (fun a b => alignment_centered_e f wexn a b (ZValue (Fin 0)) false) k Ks ps P w s i i (wexn WZeroNorm) Hs HF Hps)
      as (i' & j' & e' & H1 & H2 & H3).
    + unfold ps. apply pairs_in. lia.
    + destruct (Hq _ (Q i Hi)) as (A1 & A2 & A3).
      apply (align_e_cases f wexn _ _ _ _ n Hf A1 A1 A2 A3 A2 A3). left. rewrite Ei. exact HV.
    + destruct (Hps i' j' H1) as [Hi' Hj'].
      destruct (Hq _ (Q i' Hi')) as (A1 & A2 & A3). destruct (Hq _ (Q j' Hj')) as (B1 & B2 & B3).
      destruct (align_e_cases f wexn _ _ (Fin 0) false n Hf A1 B1 A2 A3 B2 B3) as [C1 C2].
      assert (E : e' = wexn WZeroNorm).
      { pose proof (pf_C110_alignment f wexn (nth i' Ks dflt) (nth j' Ks dflt) (ZValue (Fin 0)) false) as G.
        unfold strict_outcome in G. destruct (pf_C98_alignment_outcome (nth i' Ks dflt) (nth j' Ks dflt) (ZValue (Fin 0)) false []) as [_ [Y|Y]];
          rewrite Y in G; cbn [app find] in G.
        - destruct (align_ok_value _ _ (Fin 0) false n A1 B1 A2 A3 B2 B3) as (u & Hu). congruence.
        - rewrite Hf in G. congruence. }
      destruct (fill_pairs _ k ps P w) as [w' r]. cbn [snd] in *. rewrite H3, E. reflexivity.
  - intros HN.
    set (v := fun i j => match alignment_centered (nth i Ks dflt) (nth j Ks dflt) (ZValue (Fin 0)) false with Ok u => u | Raise _ => NaN end).
    assert (V1 : forall i j, In (i, j) ps -> i < length Ks /\ j < length Ks /\
       (fun a b => alignment_centered a b (ZValue (Fin 0)) false) (nth i Ks dflt) (nth j Ks dflt) = Ok (v i j)).
    { intros i j H. destruct (Hps i j H) as [Hi Hj]. split; [exact Hi|]. split; [exact Hj|].
      destruct (Hq _ (Q i Hi)) as (A1 & A2 & A3). destruct (Hq _ (Q j Hj)) as (B1 & B2 & B3).
      destruct (align_ok_value _ _ (Fin 0) false n A1 B1 A2 A3 B2 B3) as (u & Hu). unfold v. cbv beta. rewrite Hu. reflexivity. }
    assert (V2 : forall i j, In (i, j) ps -> i < length Ks /\ j < length Ks /\
       (fun a b => alignment_centered_e f wexn a b (ZValue (Fin 0)) false) (nth i Ks dflt) (nth j Ks dflt) = Ok (v i j)).
    { intros i j H. destruct (V1 i j H) as (Hi & Hj & E). split; [exact Hi|]. split; [exact Hj|]. cbv beta in *. rewrite <- E.
      destruct (Hq _ (Q i Hi)) as (A1 & A2 & A3). destruct (Hq _ (Q j Hj)) as (B1 & B2 & B3).
      apply (align_e_cases f wexn _ _ (Fin 0) false n Hf A1 B1 A2 A3 B2 B3); apply HN; apply Q; assumption. }
    pose proof (fill_ok _ k Ks v ps P w s Hs HF V1) as E1. pose proof (fill_ok _ k Ks v ps P w s Hs HF V2) as E2.
    destruct (fill_pairs (fun a b => alignment_centered a b (ZValue (Fin 0)) false) k ps P w) as [w1 r1].
    destruct (fill_pairs (fun a b => alignment_centered_e f wexn a b (ZValue (Fin 0)) false) k ps P w) as [w2 r2].
    cbn [snd] in *. rewrite E1, E2. reflexivity.
Qed.

(** C110: the scores of kernels by alignment, for any kernel matrices and targets of matching size, with any
    value_if_zero_division that is a value: an exception exactly if there is a kernel and it or the matrix of
    the targets vanishes. *)
Lemma pf_C110_ranking :
  forall {U T} (numbers : T -> res (list xr)) best_score f wexn (w : world xr xr U) k num ms Ks (t : T) m p v ys,
    f WZeroNorm = true -> set_is w k num ms -> fulls w ms Ks -> lower m = "align/corr"%string -> align_params p ->
    default (ZValue (Fin 0)) (rp_zero p) = ZValue v -> numbers t = Ok ys -> square_arrays (length ys) Ks ->
    let c := default false (rp_centered p) in
    let yy := fun i j => xmul (nth i ys NaN) (nth j ys NaN) in
    ((exists K, In K Ks /\ (vanishes c (length ys) (xget (amat K)) \/ vanishes c (length ys) yy)) ->
       snd (rank_kernels_e f wexn numbers best_score k t m p w) = Raise (wexn WZeroNorm)) /\
    ((forall K, In K Ks -> ~ vanishes c (length ys) (xget (amat K)) /\ ~ vanishes c (length ys) yy) ->
       snd (rank_kernels_e f wexn numbers best_score k t m p w) = snd (rank_kernels numbers best_score k t m p w)).
Proof.
  intros U T numbers best_score f wexn w k num ms Ks t m p v ys Hf Hk HF Hm Hp Hz Hy Hq c yy.
  destruct (set_is_eq w k num ms Hk) as (s & Hs & _ & Hms). subst ms.
  assert (E : snd (rank_kernels_e f wexn numbers best_score k t m p w) =
    rmap (fun K => alignment_centered_e f wexn K (mkArr Dense (outer ys)) (ZValue v) c) Ks).
  { unfold rank_kernels_e, valid_method. rewrite Hm. cbn [String.eqb Ascii.eqb Bool.eqb orb negb].
    unfold alignment_ranking_e. unfold bind at 1, lift at 1. rewrite Hy. unfold bind at 1. rewrite (set_iter_eq _ _ _ Hs).
    destruct Hp as (P1 & P2 & P3). rewrite P1, P2, P3, Hz. cbn [is_some orb]. fold c.
    destruct (map_fulls (fun K => alignment_centered_e f wexn K (mkArr Dense (outer ys)) (ZValue v) c) _ _ w HF) as (w' & E & _).
    rewrite E. reflexivity. }
  assert (E0 : snd (rank_kernels numbers best_score k t m p w) =
    rmap (fun K => alignment_centered K (mkArr Dense (outer ys)) (ZValue v) c) Ks).
  { rewrite rank_align by exact Hm.
    destruct (align_ok numbers ys k t p w s Ks Hs HF Hy Hp) as (w' & E' & _). rewrite E', Hz. reflexivity. }
  rewrite E, E0. clear E E0 HF.
  assert (X : vanishes c (length ys) (xget (outer ys)) <-> vanishes c (length ys) yy).
  { assert (G : forall i j, i < length ys -> j < length ys -> xget (outer ys) i j = yy i j).
    { intros i j Hi Hj. unfold outer, xget, yy. rewrite mget_tabulate by assumption. reflexivity. }
    split; intros (A & HA & Hle); exists A; (split; [|exact Hle]); intros i j Hi Hj;
      [rewrite <- G by assumption|rewrite G by assumption]; apply HA; assumption. }
  assert (ST : forall K, In K Ks ->
    (vanishes c (length ys) (xget (amat K)) \/ vanishes c (length ys) yy ->
       alignment_centered_e f wexn K (mkArr Dense (outer ys)) (ZValue v) c = Raise (wexn WZeroNorm)) /\
    (~ vanishes c (length ys) (xget (amat K)) -> ~ vanishes c (length ys) yy ->
       alignment_centered_e f wexn K (mkArr Dense (outer ys)) (ZValue v) c = alignment_centered K (mkArr Dense (outer ys)) (ZValue v) c) /\
    (alignment_centered_e f wexn K (mkArr Dense (outer ys)) (ZValue v) c = Raise (wexn WZeroNorm) \/
     exists u, alignment_centered_e f wexn K (mkArr Dense (outer ys)) (ZValue v) c = Ok u)).
  { intros K HK. destruct (Hq K HK) as (A1 & A2 & A3).
    assert (D : afmt (mkArr Dense (outer ys)) <> Lil) by discriminate.
    destruct (align_e_cases f wexn K (mkArr Dense (outer ys)) v c (length ys) Hf A1 D A2 A3 eq_refl eq_refl) as [C1 C2].
    cbn [amat] in C1, C2. rewrite X in C1, C2. split; [exact C1|]. split; [exact C2|].
    pose proof (pf_C110_alignment f wexn K (mkArr Dense (outer ys)) (ZValue v) c) as G. unfold strict_outcome in G.
    destruct (pf_C98_alignment_outcome K (mkArr Dense (outer ys)) (ZValue v) c []) as [_ [Y|Y]]; rewrite Y in G; cbn [app find] in G.
    - right. rewrite G. apply (align_ok_value K (mkArr Dense (outer ys)) v c (length ys)); auto.
    - left. rewrite Hf in G. exact G. }
  clear Hq. split.
  - intros (K & HK & HV). induction Ks as [|K0 Ks IH]; [destruct HK|]. cbn [rmap].
    destruct (ST K0 (or_introl eq_refl)) as (S1 & _ & S3). destruct S3 as [S3|[u S3]]; rewrite S3; [reflexivity|]. cbn [rbind].
    destruct HK as [->|HK]; [rewrite (S1 HV) in S3; discriminate|].
    rewrite IH; [reflexivity| |exact HK]. intros K' HK'. apply ST. right. exact HK'.
  - intros HN. induction Ks as [|K0 Ks IH]; [reflexivity|]. cbn [rmap].
    destruct (HN K0 (or_introl eq_refl)) as [N1 N2]. rewrite (proj1 (proj2 (ST K0 (or_introl eq_refl))) N1 N2).
    rewrite IH; [reflexivity| |]; intros K' HK'; [apply ST|apply HN]; right; exact HK'.
Qed.

(** ** All of it, whatever the arguments *)
Section MayRaise.
  Context {U : Type}.
  Variable f : owarning -> bool.
  Variable wexn : owarning -> exn.
  Notation World := (world xr xr U).

  Definition mayraise {A} (me m : M World A) : Prop :=
    forall w, me w = m w \/ f WZeroNorm = true /\ snd (me w) = Raise (wexn WZeroNorm).

  Lemma mr_refl : forall {A} (m : M World A), mayraise m m.
  Proof. intros A m w. left. reflexivity. Qed.
  Lemma mr_bind : forall {A B} me m (ke k : A -> M World B), mayraise me m -> (forall a, mayraise (ke a) (k a)) ->
    mayraise (bind me ke) (bind m k).
  Proof.
    intros A B me m ke k Hm Hk w. unfold bind. destruct (Hm w) as [->|[H1 H2]].
    - destruct (m w) as [w' [a|e]]; [apply Hk|left; reflexivity].
    - right. split; [exact H1|]. destruct (me w) as [w' r]. cbn [snd] in H2. subst r. reflexivity.
  Qed.
  Lemma mr_lift : forall {A B} (a a' : A) (ke k : A -> M World B), mayraise (ke a') (k a) ->
    mayraise (bind (lift (Ok a')) ke) (bind (lift (Ok a)) k).
  Proof. intros A B a a' ke k H. exact H. Qed.
  Lemma mr_align : forall a b z c, mayraise (lift (alignment_centered_e f wexn a b z c)) (lift (alignment_centered a b z c)).
  Proof.
    intros a b z c w. unfold lift. pose proof (pf_C110_alignment f wexn a b z c) as G. unfold strict_outcome in G.
    destruct (pf_C98_alignment_outcome a b z c []) as [_ [Y|Y]]; rewrite Y in G; cbn [app find] in G.
    - left. rewrite G. reflexivity.
    - destruct (f WZeroNorm) eqn:E; [right; split; [reflexivity|exact G]|left; rewrite G; reflexivity].
  Qed.
  Lemma mr_map_each : forall {A B} (ge g : A -> M World B) l, (forall a, mayraise (ge a) (g a)) ->
    mayraise (map_each l ge) (map_each l g).
  Proof.
    intros A B ge g l H. induction l as [|a l IH]; cbn [map_each]; [apply mr_refl|].
    apply mr_bind; [apply H|intros b]. apply mr_bind; [exact IH|intros bs; apply mr_refl].
  Qed.
  Lemma mr_fill : forall ee e k ps P, (forall a b, mayraise (lift (ee a b)) (lift (e a b))) ->
    mayraise (fill_pairs ee k ps P) (fill_pairs e k ps P).
  Proof.
    intros ee e k ps. induction ps as [|[i j] ps IH]; intros P H; cbn [fill_pairs]; [apply mr_refl|].
    apply mr_bind; [apply mr_refl|intros li]. apply mr_bind; [apply mr_refl|intros Ki].
    apply mr_bind; [apply mr_refl|intros lj]. apply mr_bind; [apply mr_refl|intros Kj].
    apply mr_bind; [apply H|intros v]. apply IH. exact H.
  Qed.
End MayRaise.

Lemma mr_pairwise : forall {U} f wexn co k metric,
  mayraise (U:=U) f wexn (pairwise_similarity_e f wexn co k metric) (pairwise_similarity co k metric).
Proof.
  intros U f wexn co k metric. unfold pairwise_similarity_e, pairwise_similarity, metric_func_e, metric_func.
  apply mr_bind; [apply mr_refl|intros s].
  destruct (String.eqb metric "corr"); [apply mr_refl|]. destruct (String.eqb metric "align"); [|apply mr_refl].
  apply mr_lift. apply mr_bind; [|intros P; apply mr_refl].
  apply mr_fill. intros a b. apply mr_align.
Qed.

Lemma mr_rank : forall {U T} (numbers : T -> res (list xr)) best_score f wexn k t m p,
  mayraise (U:=U) f wexn (rank_kernels_e f wexn numbers best_score k t m p) (rank_kernels numbers best_score k t m p).
Proof.
  intros U T numbers best_score f wexn k t m p. unfold rank_kernels_e, rank_kernels.
  destruct (negb _); [apply mr_refl|]. destruct (String.eqb _ _); [|apply mr_refl].
  unfold alignment_ranking_e, alignment_ranking. apply mr_bind; [apply mr_refl|intros ys].
  apply mr_bind; [apply mr_refl|intros ms]. apply mr_map_each. intros l. apply mr_bind; [apply mr_refl|intros K].
  destruct (_ || _); [apply mr_refl|apply mr_align].
Qed.

(** C110: for all arguments and states, pairwise_similarity, rank_kernels and find_optimal_kernel do what they
    do otherwise, unless the warning about vanishing matrices is an exception and is raised. *)
Lemma pf_C110_rank_any :
  forall {U T} (numbers : T -> res (list xr)) best_score numeric co f wexn (w : world xr xr U),
  (forall k metric, pairwise_similarity_e f wexn co k metric w = pairwise_similarity co k metric w \/
     f WZeroNorm = true /\ metric = "align"%string /\ snd (pairwise_similarity_e f wexn co k metric w) = Raise (wexn WZeroNorm)) /\
  (forall k t m p, rank_kernels_e f wexn numbers best_score k t m p w = rank_kernels numbers best_score k t m p w \/
     f WZeroNorm = true /\ lower m = "align/corr"%string /\
     snd (rank_kernels_e f wexn numbers best_score k t m p w) = Raise (wexn WZeroNorm)) /\
  (forall b x t m p,
     find_optimal_kernel_e f wexn numbers best_score numeric b x t m p w = find_optimal_kernel numbers best_score numeric b x t m p w \/
     f WZeroNorm = true /\
     snd (find_optimal_kernel_e f wexn numbers best_score numeric b x t m p w) = Raise (wexn WZeroNorm)).
Proof.
  intros U T numbers best_score numeric co f wexn w. split; [|split].
  - intros k metric. destruct (String.eqb metric "align") eqn:E.
    + apply String.eqb_eq in E. destruct (mr_pairwise f wexn co k metric w) as [H|[H1 H2]]; auto.
    + left. unfold pairwise_similarity_e, pairwise_similarity, metric_func_e, metric_func. rewrite E. reflexivity.
  - intros k t m p. destruct (String.eqb (lower m) "align/corr") eqn:E.
    + apply String.eqb_eq in E. destruct (mr_rank numbers best_score f wexn k t m p w) as [H|[H1 H2]]; auto.
    + left. unfold rank_kernels_e, rank_kernels. rewrite E. reflexivity.
  - intros b x t m p. assert (G : mayraise (U:=U) f wexn (find_optimal_kernel_e f wexn numbers best_score numeric b x t m p)
                                    (find_optimal_kernel numbers best_score numeric b x t m p)).
    { unfold find_optimal_kernel_e, find_optimal_kernel. destruct b as [b|]; [|apply mr_refl].
      destruct (negb _); [apply mr_refl|]. apply mr_bind; [apply mr_refl|intros _].
      apply mr_bind; [apply mr_rank|intros scores]. apply mr_refl. }
    apply G.
Qed.

(** "A call that raises a warning leaves the bucket as it was" is refuted: of the degrees 2, (one that is
    refused), 3 the first has been added when the warning is raised; without the filter 2 and 3 are. *)
Lemma pf_C110_unchanged_refuted :
  exists (w : world xr xr unit) b l e,
    set_is w (b_set b) NSNone [0] /\
    snd (add_parametrized_e (fun _ => true) (fun _ => e) xN xC b true "PolyKernel" "degree" (BIter l) w) = Raise e /\
    set_is (fst (add_parametrized_e (fun _ => true) (fun _ => e) xN xC b true "PolyKernel" "degree" (BIter l) w)) (b_set b) NSNone [0; 1] /\
    set_is (fst (add_parametrized xN xC b true (BIter l) w)) (b_set b) NSNone [0; 1; 2].
Proof.
  exists (start w_empty true), (mkBucket 0 true),
    [Ok (builtin (KPoly 2 1 1)); Raise TypeError; Ok (builtin (KPoly 3 1 1))], RuntimeError.
  split; [do 2 eexists; reflexivity|]. split; [reflexivity|]. split; do 2 eexists; reflexivity.
Qed.

(** Cases: the constructor given that list raises; a filter for another warning changes nothing; the zero
    matrix has an alignment only while the warning is none; a rectangular matrix is refused. *)
Lemma pf_C110_example :
  let p := mkBP (BIter [Ok (builtin (KPoly 2 1 1)); Raise TypeError; Ok (builtin (KPoly 3 1 1))]) BNone BNone BNone BNone in
  let skip := fun v => match v with WSkipping _ _ _ => true | _ => false end in
  let zero := fun v => match v with WZeroNorm => true | _ => false end in
  let wexn := fun v => match v with WSkipping _ _ 1 => RuntimeError | _ => AttributeError end in
  snd (bucket_new_e (U:=unit) skip wexn xN xC (Some true) (Some false) p w_empty) = Raise RuntimeError /\
  snd (bucket_new_e (U:=unit) zero wexn xN xC (Some true) (Some false) p w_empty) = Ok (mkBucket 0 true) /\
  is_PSD_e (fun _ => true) wexn (fun _ => Ok []) (fun _ => true) (mkArr Dense (mkMat 1 2 [[Fin 1; Fin 2]])) 0 = Raise AttributeError /\
  is_PSD_e zero wexn (fun _ => Ok []) (fun _ => true) (mkArr Dense (mkMat 1 2 [[Fin 1; Fin 2]])) 0 = Ok false /\
  alignment_centered_e zero wexn (mkArr Dense (rmat 1 1 (fun _ _ => 0%R))) (mkArr Dense (rmat 1 1 (fun _ _ => 0%R)))
    (ZValue (Fin 7)) true = Raise AttributeError /\
  alignment_centered_e skip wexn (mkArr Dense (rmat 1 1 (fun _ _ => 0%R))) (mkArr Dense (rmat 1 1 (fun _ _ => 0%R)))
    (ZValue (Fin 7)) true = Ok (Fin 7).
Proof.
  cbv zeta. split; [reflexivity|]. split; [reflexivity|]. split; [reflexivity|]. split; [reflexivity|].
  assert (V : vanishes true 1 (xget (rmat 1 1 (fun _ _ => 0%R)))).
  { exists (fun _ _ => 0%R). split.
    - intros i j Hi Hj. unfold rmat, xget. rewrite mget_tabulate by assumption. reflexivity.
    - unfold as_centred, fnorm. replace (fprod _ _ _ _) with 0%R by (unfold fprod; cbn; ring).
      rewrite sqrt_0. unfold tiny. lra. }
  split.
  - match goal with |- alignment_centered_e ?f ?wx ?a ?b ?z ?c = _ =>
      destruct (align_e_cases f wx a b (Fin 7) c 1) as [G _]; try reflexivity; try discriminate end.
    apply G. left. exact V.
  - match goal with |- alignment_centered_e ?f ?wx ?a ?b ?z ?c = _ => pose proof (pf_C110_alignment f wx a b z c) as G end.
    unfold strict_outcome in G.
    match type of G with context [alignment_centered_w ?a ?b ?z ?c []] =>
      destruct (pf_C98_alignment_outcome a b z c []) as [_ [Y|Y]] end; rewrite Y in G; cbn [app find] in G; rewrite G.
    + apply (pf_C23_exact (mkArr Dense (rmat 1 1 (fun _ _ => 0%R))) (mkArr Dense (rmat 1 1 (fun _ _ => 0%R))) (ZValue (Fin 7)) true 1);
        try reflexivity; try discriminate. left. exact V.
    + apply (pf_C23_exact (mkArr Dense (rmat 1 1 (fun _ _ => 0%R))) (mkArr Dense (rmat 1 1 (fun _ _ => 0%R))) (ZValue (Fin 7)) true 1);
        try reflexivity; try discriminate. left. exact V.
Qed.
