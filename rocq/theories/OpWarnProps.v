(** The warnings of the operations and of buckets: property C98. *)
From Coq Require Import String Reals List Arith ZArith Bool Lia Lra.
Import ListNotations.
From Verif Require Import Prelude MatModel UtilsModel KMModel SpecKM XReal OpsModel SpecLinAlg KernelsModel
  KMXModel SetModel SpecSet BucketModel SpecBucket RankModel SpecRank OpWarnModel.
From Verif Require Import MatFacts MFacts KMFacts KMInv OpsFacts OpsProps SetFacts SetProps ContProps KMXProps
  BucketProps AlignExact.

Local Open Scope list_scope.
Local Open Scope nat_scope.

(** ** is_PSD *)
Lemma forallb_exists : forall {A} (f : A -> bool) l, forallb f l = false -> exists a, In a l /\ f a = false.
Proof.
  intros A f l. induction l as [|a l IH]; cbn; intros H; [discriminate|]. destruct (f a) eqn:E.
  - destruct (IH H) as (b & Hb & Hf). exists b. auto.
  - exists a. auto.
Qed.

(** C98: is_PSD with its warnings recorded returns what it returns without; it warns at most once. *)
Lemma pf_C98_psd_outcome : forall eig lin a tol log,
  snd (is_PSD_w eig lin a tol log) = is_PSD eig a tol /\
  (fst (is_PSD_w eig lin a tol log) = log \/ exists v, fst (is_PSD_w eig lin a tol log) = log ++ [v]).
Proof.
  intros eig lin a tol log. unfold is_PSD_w, is_PSD.
  destruct (negb (is_ndarray a)); [split; [reflexivity|left; reflexivity]|].
  destruct (negb (mr (amat a) =? mc (amat a))); [split; [reflexivity|right; eexists; reflexivity]|].
  destruct (negb _); [split; [reflexivity|right; eexists; reflexivity]|].
  destruct (eig (amat a)) as [l|e]; [split; [reflexivity|left; reflexivity]|].
  destruct (lin e); (split; [reflexivity|]); [left; reflexivity|right; eexists; reflexivity].
Qed.

(** C98: which warning, exactly: an ndarray that is not square; a square one with two entries a[i,j], a[j,i]
    that are not close; one whose eigenvalues could not be computed for a reason other than a LinAlgError. *)
Lemma pf_C98_psd_exact : forall eig lin a tol log v,
  fst (is_PSD_w eig lin a tol log) = log ++ [v] <->
  is_ndarray a = true /\
  (mr (amat a) <> mc (amat a) /\ v = WNotSquare \/
   mr (amat a) = mc (amat a) /\
   ((exists i j, i < mr (amat a) /\ j < mr (amat a) /\ xisclose (xget (amat a) i j) (xget (amat a) j i) = false) /\
      v = WNotSymmetric \/
    (forall i j, i < mr (amat a) -> j < mr (amat a) -> xisclose (xget (amat a) i j) (xget (amat a) j i) = true) /\
      (exists e, eig (amat a) = Raise e /\ lin e = false) /\ v = WUnknownFailure)).
Proof.
  intros eig lin a tol log v. unfold is_PSD_w.
  assert (L1 : forall P : Prop, P -> False <-> ~ P) by tauto.
  assert (N0 : forall u : owarning, log <> log ++ [u]).
  { intros u H. apply (f_equal (@length owarning)) in H. rewrite app_length in H. cbn in H. lia. }
  assert (N1 : forall u u' : owarning, log ++ [u] = log ++ [u'] <-> u = u').
  { intros u u'. split; [intros H; apply app_inv_head in H; congruence|congruence]. }
  destruct (is_ndarray a) eqn:Hnd; cbn [negb].
  2:{ cbn [raise fst]. split; [intros H; destruct (N0 _ H)|intros [H _]; discriminate]. }
  destruct (mr (amat a) =? mc (amat a)) eqn:Hsq; cbn [negb].
  2:{ apply Nat.eqb_neq in Hsq. cbn [warn_o modify bind ret fst]. rewrite N1. split.
      - intros <-. split; [reflexivity|left; auto].
      - intros (_ & [[_ H]|[H _]]); congruence. }
  apply Nat.eqb_eq in Hsq. rewrite <- Hsq.
  destruct (forallb _ (seq 0 (mr (amat a)))) eqn:Hsym; cbn [negb].
  - assert (HS : forall i j, i < mr (amat a) -> j < mr (amat a) -> xisclose (xget (amat a) i j) (xget (amat a) j i) = true).
    { intros i j Hi Hj. rewrite forallb_forall in Hsym. specialize (Hsym i ltac:(apply in_seq; lia)). cbv beta in Hsym.
      rewrite forallb_forall in Hsym. apply (Hsym j). apply in_seq. lia. }
    destruct (eig (amat a)) as [l|e] eqn:He.
    + cbn [ret fst]. split; [intros H; destruct (N0 _ H)|].
      intros (_ & [[H _]|(_ & [((i & j & Hi & Hj & H) & _)|(_ & (e & H & _) & _)])]).
      * contradiction H; reflexivity.
      * rewrite HS in H by assumption. discriminate.
      * discriminate.
    + destruct (lin e) eqn:Hl.
      * cbn [ret fst]. split; [intros H; destruct (N0 _ H)|].
        intros (_ & [[H _]|(_ & [((i & j & Hi & Hj & H) & _)|(_ & (e' & H & H') & _)])]).
        -- contradiction H; reflexivity.
        -- rewrite HS in H by assumption. discriminate.
        -- congruence.
      * cbn [warn_o modify bind ret fst]. rewrite N1. split.
        -- intros <-. split; [reflexivity|]. right. split; [reflexivity|]. right. split; [exact HS|]. eauto.
        -- intros (_ & [[H _]|(_ & [((i & j & Hi & Hj & H) & _)|(_ & _ & ->)])]).
           ++ contradiction H; reflexivity.
           ++ rewrite HS in H by assumption. discriminate.
           ++ reflexivity.
  - assert (HS : exists i j, i < mr (amat a) /\ j < mr (amat a) /\ xisclose (xget (amat a) i j) (xget (amat a) j i) = false).
    { destruct (forallb_exists _ _ Hsym) as (i & Hi & H). cbv beta in H.
      destruct (forallb_exists _ _ H) as (j & Hj & H'). apply in_seq in Hi. apply in_seq in Hj.
      exists i, j. repeat split; [lia|lia|exact H']. }
    cbn [warn_o modify bind ret fst]. rewrite N1. split.
    + intros <-. split; [reflexivity|]. right. split; [reflexivity|]. left. split; [exact HS|reflexivity].
    + intros (_ & [[H _]|(_ & [(_ & ->)|(H & _)])]).
      * contradiction H; reflexivity.
      * reflexivity.
      * destruct HS as (i & j & Hi & Hj & HS). rewrite H in HS by assumption. discriminate.
Qed.

(** C98: so True is never returned with a warning. *)
Lemma pf_C98_psd_true : forall eig lin a tol log,
  snd (is_PSD_w eig lin a tol log) = Ok true -> fst (is_PSD_w eig lin a tol log) = log.
Proof.
  intros eig lin a tol log H. unfold is_PSD_w in *.
  destruct (negb (is_ndarray a)); [discriminate|]. destruct (negb _); [discriminate|]. destruct (negb _); [discriminate|].
  destruct (eig (amat a)) as [l|e]; [reflexivity|]. destruct (lin e); [reflexivity|discriminate].
Qed.

(** ** alignment_centered *)
(** C98: alignment_centered with its warnings recorded returns what it returns without, and warns at most
    once. *)
Lemma pf_C98_alignment_outcome : forall a b z c log,
  snd (alignment_centered_w a b z c log) = alignment_centered a b z c /\
  (fst (alignment_centered_w a b z c log) = log \/ fst (alignment_centered_w a b z c log) = log ++ [WZeroNorm]).
Proof.
  intros a b z c log. unfold alignment_centered_w, alignment_centered.
  destruct (negb (same_shape _ _)); [split; [reflexivity|left; reflexivity]|].
  destruct (negb (is_ndarray a) || negb (is_ndarray b)); [split; [reflexivity|left; reflexivity]|].
  unfold bind, lift, ret, raise, warn_o, modify, rbind.
  destruct c; cbv beta iota;
    repeat (match goal with |- context [match ?x with Ok _ => _ | Raise _ => _ end] => destruct x; cbn [fst snd] end);
    try (split; [reflexivity|left; reflexivity]);
    (destruct (xisclose _ _ || xisclose _ _); [destruct z; cbn [fst snd]; (split; [reflexivity|auto])|]);
    cbn [fst snd]; (split; [reflexivity|auto]).
Qed.

(** C98: it warns exactly when it returns value_if_zero_division because one of the (centred) matrices, all
    of whose entries are finite, has (nearly) vanished. *)
Lemma pf_C98_alignment_exact : forall K L z c n log,
  afmt K <> Lil -> afmt L <> Lil -> mr (amat K) = n -> mc (amat K) = n -> mr (amat L) = n -> mc (amat L) = n ->
  (fst (alignment_centered_w K L z c log) = log ++ [WZeroNorm] <->
   (vanishes c n (xget (amat K)) \/ vanishes c n (xget (amat L))) /\ z <> ZRaise).
Proof.
  intros K L z c n log HfK HfL K1 K2 L1 L2.
  assert (HK : dec K n) by (split; [destruct K as [[] M]; [reflexivity|contradiction HfK; reflexivity|reflexivity]|auto]).
  assert (HL : dec L n) by (split; [destruct L as [[] M]; [reflexivity|contradiction HfL; reflexivity|reflexivity]|auto]).
  destruct (dec_center c K n HK) as (K' & EK & HK'). destruct (dec_center c L n HL) as (L' & EL & HL').
  destruct (norm_close c K K' n HK EK HK') as (a & Ea & A1 & A2 & _).
  destruct (norm_close c L L' n HL EL HL') as (b & Eb & B1 & B2 & _).
  assert (N0 : log <> log ++ [WZeroNorm]).
  { intros H. apply (f_equal (@length owarning)) in H. rewrite app_length in H. cbn in H. lia. }
  assert (E : alignment_centered_w K L z c log =
    (if xisclose a (Fin 0) || xisclose b (Fin 0) then
       match z with ZRaise => raise ValueError | ZValue v => warn_o WZeroNorm ;;; ret v end
     else p <- lift (frobenius_product K' L') ;; ret (xdiv p (xmul a b))) log).
  { unfold alignment_centered_w, same_shape. rewrite K1, K2, L1, L2, Nat.eqb_refl.
    rewrite (proj1 HK), (proj1 HL). cbn [andb negb orb].
    destruct c; unfold maybe_center in EK, EL.
    - injection EK as <-. injection EL as <-. unfold bind, lift, ret. rewrite Ea, Eb. reflexivity.
    - unfold bind, lift. rewrite EK, EL, Ea, Eb. reflexivity. }
  rewrite E. clear E.
  assert (V : forall M, dec M n -> vanishes c n (xget (amat M)) \/ ~ vanishes c n (xget (amat M))).
  { intros M _. destruct (pf_C23_determined ZRaise c n (xget (amat M)) (xget (amat M))) as [_ D].
    destruct (finite_or_not n (xget (amat M))) as [[A HA]|H].
    - destruct (Rle_dec (fnorm n n (as_centred c n A)) tiny) as [Hle|Hgt]; [left; exists A; auto|right].
      intros (B & HB & Hle). apply Hgt. rewrite (fnorm_of_ext n _ (as_centred c n B)); [exact Hle|].
      apply as_centred_ext. apply (num_unique n _ A B HA HB).
    - right. intros (A & HA & _). destruct H as (i & j & Hi & Hj & H). apply (H (A i j)). apply HA; assumption. }
  assert (Z : fst (match z with ZRaise => raise ValueError | ZValue v => warn_o WZeroNorm ;;; ret v end log)
              = log ++ [WZeroNorm] <-> z <> ZRaise).
  { destruct z as [|v]; cbn.
    - split; [intros H; destruct (N0 H)|intros H; contradiction H; reflexivity].
    - split; [discriminate|reflexivity]. }
  destruct (V K HK) as [VK|VK]; [rewrite (A1 VK)|rewrite (A2 VK)]; [cbn [orb]; rewrite Z; tauto|].
  destruct (V L HL) as [VL|VL]; [rewrite (B1 VL)|rewrite (B2 VL)]; cbn [orb]; [rewrite Z; tauto|].
  unfold bind, lift, ret. destruct (frobenius_product K' L'); cbn [fst]; (split; [intros H; destruct (N0 H)|tauto]).
Qed.

(** ** Buckets *)
Section Logs.
  Context {U : Type}.
  Variable N : numops xr.
  Variable C : cmpops xr.
  Notation World := (world xr xr U).

  (** [mw] does what [m] does, and adds to the warnings. *)
  Definition logs {A} (mw : M (World * list owarning) A) (m : M World A) : Prop :=
    forall w log, exists ws, mw (w, log) = ((fst (m w), log ++ ws), snd (m w)).

  Lemma logs_quiet : forall {A} (m : M World A), logs (quiet m) m.
  Proof. intros A m w log. exists []. unfold quiet. cbn [fst snd]. destruct (m w). rewrite app_nil_r. reflexivity. Qed.

  Lemma logs_bind : forall {A B} mw m (kw : A -> M (World * list owarning) B) k,
    logs mw m -> (forall a, logs (kw a) (k a)) -> logs (bind mw kw) (bind m k).
  Proof.
    intros A B mw m kw k Hm Hk w log. unfold bind. destruct (Hm w log) as (ws & ->).
    destruct (m w) as [w' [a|e]]; cbn [fst snd].
    - destruct (Hk a w' (log ++ ws)) as (ws' & ->). exists (ws ++ ws'). rewrite app_assoc. reflexivity.
    - exists ws. reflexivity.
  Qed.

  Lemma logs_ret : forall {A} (a : A), logs (ret a) (ret a).
  Proof. intros A a w log. exists []. rewrite app_nil_r. reflexivity. Qed.
  Lemma logs_raise : forall {A} e, logs (@raise _ A e) (raise e).
  Proof. intros A e w log. exists []. rewrite app_nil_r. reflexivity. Qed.

  Lemma logs_attempt : forall {A} v (m : M World A), logs (attempt_w v m) (attempt m).
  Proof.
    intros A v m w log. unfold attempt_w, attempt. cbn [fst snd]. destruct (m w) as [w' [a|e]]; cbn [fst].
    - exists []. rewrite app_nil_r. reflexivity.
    - exists [v]. reflexivity.
  Qed.

  Lemma logs_each : forall b f p l i, logs (add_each_w N C b f p i l) (for_each l (fun r => attempt (append_new N C b r))).
  Proof.
    intros b f p l. induction l as [|r l IH]; intros i; cbn [add_each_w for_each]; [apply logs_ret|].
    apply logs_bind; [apply logs_attempt|intros _; apply IH].
  Qed.

  Lemma logs_add : forall b c f p v, logs (add_parametrized_w N C b c f p v) (add_parametrized N C b c v).
  Proof.
    intros b c f p v. unfold add_parametrized_w, add_parametrized. destruct c; cbn [negb]; [|apply logs_raise].
    destruct v as [| | |[|r l]]; try apply logs_raise; [apply logs_ret|apply logs_each].
  Qed.

  Lemma logs_new : forall f g p, logs (bucket_new_w N C f g p) (bucket_new N C f g p).
  Proof.
    intros [nrm|] [chk|] p; try apply logs_raise. unfold bucket_new_w, bucket_new.
    apply logs_bind; [apply logs_quiet|intros l]. apply logs_bind; [apply logs_quiet|intros k].
    apply logs_bind; [apply logs_quiet|intros s]. apply logs_bind; [apply logs_quiet|intros _].
    repeat (apply logs_bind; [apply logs_add|intros _]). apply logs_ret.
  Qed.

  Lemma logs_make : forall st f g, logs (make_kernel_bucket_w N C st f g) (make_kernel_bucket N C st f g).
  Proof.
    intros [s|b|] f g; unfold make_kernel_bucket_w, make_kernel_bucket; [|intros w log; eexists; reflexivity|apply logs_raise].
    cbv zeta. destruct (String.eqb _ _); [apply logs_new|]. destruct (String.eqb _ _); [apply logs_new|].
    destruct (String.eqb _ _); [apply logs_new|apply logs_raise].
  Qed.
End Logs.

(** C98: the functions of sampling.py with their warnings recorded do what they do without. *)
Lemma pf_C98_bucket_outcome :
  forall {U} (N : numops xr) (C : cmpops xr) (w : world xr xr U) log,
  (forall b c f p v, exists ws, add_parametrized_w N C b c f p v (w, log) =
     ((fst (add_parametrized N C b c v w), log ++ ws), snd (add_parametrized N C b c v w))) /\
  (forall nk sk p, exists ws, bucket_new_w N C nk sk p (w, log) =
     ((fst (bucket_new N C nk sk p w), log ++ ws), snd (bucket_new N C nk sk p w))) /\
  (forall st nk sk, exists ws, make_kernel_bucket_w N C st nk sk (w, log) =
     ((fst (make_kernel_bucket N C st nk sk w), log ++ ws), snd (make_kernel_bucket N C st nk sk w))).
Proof.
  intros U N C w log. split; [|split]; intros; [apply logs_add|apply logs_new|apply logs_make].
Qed.

(** One value: a member more or a warning more. *)
Lemma append_new_cases : forall {U} (N : numops xr) (C : cmpops xr) (w : world xr xr U) k nrm s r,
  nth_error (w_sets w) k = Some s ->
  (exists K s', r = Ok K /\ s_num s = NSNone /\ append_new N C (mkBucket k nrm) r w = (fst (append_new N C (mkBucket k nrm) r w), Ok tt) /\
     nth_error (w_sets (fst (append_new N C (mkBucket k nrm) r w))) k = Some s' /\ s_num s' = NSNone /\
     s_members s' = s_members s ++ [length (w_objs w)]) \/
  ((forall K, r = Ok K -> s_num s <> NSNone) /\
   (exists e, append_new N C (mkBucket k nrm) r w = (fst (append_new N C (mkBucket k nrm) r w), Raise e)) /\
   nth_error (w_sets (fst (append_new N C (mkBucket k nrm) r w))) k = Some s).
Proof.
  intros U N C w k nrm s [K|e] H.
  - destruct (numsamp_eqb (s_num s) NSNone) eqn:En.
    + left. exists K. assert (E : s_num s = NSNone) by (apply numsamp_eqb_eq; exact En).
      destruct s as [num b ms x]. cbn [s_num] in E. subst num.
      rewrite (append_new_ok N C w k nrm b ms x K H). cbn [fst]. eexists. split; [reflexivity|]. split; [reflexivity|].
      split; [reflexivity|]. split; [exact (grown_set _ _ _ _ _ _ _ _ H)|]. split; reflexivity.
    + right. assert (E : s_num s <> NSNone) by (apply numsamp_eqb_neq; exact En).
      split; [intros; exact E|].
      assert (X : append_new N C (mkBucket k nrm) (Ok K) w =
                  (set_objs (w_objs w ++ [OKM (km_new K nrm [])]) w, Raise KMSetAdditionError)).
      { unfold append_new, bind, lift, new_obj. cbn [b_set b_norm].
        rewrite append_ref. cbn [set_objs w_objs w_sets]. rewrite nth_error_snoc, Nat.eqb_refl, H.
        unfold joins. cbn [obj_num]. change (k_num_samples (km_new K nrm [])) with NSNone.
        rewrite En, andb_false_r. reflexivity. }
      rewrite X. split; [eexists; reflexivity|exact H].
  - right. split; [intros K HK; discriminate|]. split; [eexists; reflexivity|exact H].
Qed.

(*BEGIN PROP*)
(** The positions, from [i] on, of the values for which no kernel could be constructed. *)
Fixpoint failing {A} (i : nat) (l : list (res A)) : list nat :=
  match l with
  | [] => []
  | Ok _ :: l' => failing (S i) l'
  | Raise _ :: l' => i :: failing (S i) l'
  end.
(*END PROP*)

Lemma failing_built : forall {A} (l : list (res A)) i, length (built l) + length (failing i l) = length l.
Proof. intros A l. induction l as [|[a|e] l IH]; intros i; cbn; [reflexivity|rewrite IH; reflexivity|]. rewrite <- (IH (S i)). lia. Qed.

Lemma each_exact : forall {U} (N : numops xr) (C : cmpops xr) k nrm f p l i (w : world xr xr U) log s,
  nth_error (w_sets w) k = Some s ->
  exists w' s' new,
    nth_error (w_sets w') k = Some s' /\ s_num s' = s_num s /\ s_members s' = s_members s ++ new /\
    (s_num s = NSNone -> add_each_w N C (mkBucket k nrm) f p i l (w, log)
       = ((w', log ++ map (WSkipping f p) (failing i l)), Ok tt) /\ length new = length (built l)) /\
    (s_num s <> NSNone -> add_each_w N C (mkBucket k nrm) f p i l (w, log)
       = ((w', log ++ map (WSkipping f p) (seq i (length l))), Ok tt) /\ new = []).
Proof.
  intros U N C k nrm f p l. induction l as [|r l IH]; intros i w log s H.
  - exists w, s, []. rewrite app_nil_r. split; [exact H|]. split; [reflexivity|]. split; [reflexivity|].
    split; intros _; (split; [cbn; rewrite app_nil_r; reflexivity|reflexivity]).
  - cbn [add_each_w]. unfold bind, attempt_w. cbn [fst snd].
    destruct (append_new_cases N C w k nrm s r H) as [(K & s1 & -> & Hn & E & Hs1 & Hn1 & Hm1)|(Hr & (e & E) & Hs1)].
    + rewrite E. destruct (IH (S i) _ log s1 Hs1) as (w' & s' & new & X1 & X2 & X3 & X4 & _).
      exists w', s', (length (w_objs w) :: new). split; [exact X1|]. split; [congruence|].
      split; [rewrite X3, Hm1, <- app_assoc; reflexivity|]. split; [|intros G; contradiction].
      intros _. destruct (X4 Hn1) as [Y1 Y2]. rewrite Y1. cbn [failing built length]. rewrite Y2. split; reflexivity.
    + rewrite E. destruct (IH (S i) _ (log ++ [WSkipping f p i]) s Hs1) as (w' & s' & new & X1 & X2 & X3 & X4 & X5).
      exists w', s', new. split; [exact X1|]. split; [exact X2|]. split; [exact X3|]. split.
      * intros Hn. destruct (X4 Hn) as [Y1 Y2]. rewrite Y1. destruct r as [K|e']; [destruct (Hr K eq_refl Hn)|].
        cbn [failing map built]. rewrite <- app_assoc. split; [reflexivity|exact Y2].
      * intros Hn. destruct (X5 Hn) as [Y1 Y2]. rewrite Y1. cbn [length seq map]. rewrite <- app_assoc. split; [reflexivity|exact Y2].
Qed.

(** C98: for any bucket in any state, every value given to add_parametrized_kernels leads either to a new
    member or to one warning: no value disappears unnoticed. *)
Lemma pf_C98_added_or_warned :
  forall {U} (N : numops xr) (C : cmpops xr) (w : world xr xr U) b num ms f p l log,
  set_is w (b_set b) num ms -> l <> [] ->
  let r := add_parametrized_w N C b true f p (BIter l) (w, log) in
  snd r = Ok tt /\
  exists new ws, set_is (fst (fst r)) (b_set b) num (ms ++ new) /\ snd (fst r) = log ++ ws /\
    length new + length ws = length l.
Proof.
  intros U N C w [k nrm] num ms f p l log (i & x & Hs) Hl r. cbn [b_set] in *.
  destruct (each_exact N C k nrm f p l 0 w log _ Hs) as (w' & s' & new & X1 & X2 & X3 & X4 & X5).
  assert (Er : r = add_each_w N C (mkBucket k nrm) f p 0 l (w, log)).
  { unfold r, add_parametrized_w. cbn [negb]. destruct l; [congruence|reflexivity]. }
  rewrite Er. cbn [s_num s_members] in *. destruct s' as [num' i' ms' x']. cbn [s_num s_members] in *. subst num' ms'.
  destruct num as [|n|n m].
  - destruct (X4 eq_refl) as [Y1 Y2]. rewrite Y1. cbn [fst snd]. split; [reflexivity|]. exists new. eexists.
    split; [exists i', x'; exact X1|]. split; [reflexivity|]. rewrite Y2, map_length. apply failing_built.
  - destruct (X5 ltac:(discriminate)) as [Y1 Y2]. rewrite Y1. cbn [fst snd]. split; [reflexivity|]. exists new. eexists.
    split; [exists i', x'; exact X1|]. split; [reflexivity|]. rewrite Y2, map_length, seq_length. reflexivity.
  - destruct (X5 ltac:(discriminate)) as [Y1 Y2]. rewrite Y1. cbn [fst snd]. split; [reflexivity|]. exists new. eexists.
    split; [exists i', x'; exact X1|]. split; [reflexivity|]. rewrite Y2, map_length, seq_length. reflexivity.
Qed.

(** C98: which values are warned about: those for which no kernel can be constructed while the bucket is not
    attached, all of them once it is. *)
Lemma pf_C98_warned_exact :
  forall {U} (N : numops xr) (C : cmpops xr) (w : world xr xr U) b num ms f p l log,
  set_is w (b_set b) num ms -> l <> [] ->
  snd (fst (add_parametrized_w N C b true f p (BIter l) (w, log))) =
  log ++ map (WSkipping f p) (if numsamp_eqb num NSNone then failing 0 l else seq 0 (length l)).
Proof.
  intros U N C w [k nrm] num ms f p l log (i & x & Hs) Hl. cbn [b_set] in *.
  destruct (each_exact N C k nrm f p l 0 w log _ Hs) as (w' & s' & new & X1 & X2 & X3 & X4 & X5).
  assert (Er : add_parametrized_w N C (mkBucket k nrm) true f p (BIter l) (w, log) = add_each_w N C (mkBucket k nrm) f p 0 l (w, log)).
  { unfold add_parametrized_w. cbn [negb]. destruct l; [congruence|reflexivity]. }
  rewrite Er. cbn [s_num] in *. destruct num as [|n|n m].
  - destruct (X4 eq_refl) as [Y1 _]. rewrite Y1. reflexivity.
  - destruct (X5 ltac:(discriminate)) as [Y1 _]. rewrite Y1. reflexivity.
  - destruct (X5 ltac:(discriminate)) as [Y1 _]. rewrite Y1. reflexivity.
Qed.

(** C98: arguments that are refused, and None, give no warning. *)
Lemma pf_C98_no_values :
  forall {U} (N : numops xr) (C : cmpops xr) (w : world xr xr U) b c f p v log,
  c = false \/ v = BNone \/ unacceptable v -> fst (add_parametrized_w N C b c f p v (w, log)) = (w, log).
Proof.
  intros U N C w b c f p v log H. unfold add_parametrized_w. destruct c; [|reflexivity].
  destruct H as [H|[->|[->|[->| ->]]]]; try discriminate; reflexivity.
Qed.

(*BEGIN PROP*)
(** The warnings that one of the arguments of the constructor gives rise to. *)
Definition value_warnings (f p : string) (v : bvalues) : list owarning :=
  match v with BIter l => map (WSkipping f p) (failing 0 l) | _ => [] end.
(*END PROP*)

Lemma add_unattached : forall {U} (N : numops xr) (C : cmpops xr) (w : world xr xr U) k nrm s f p v Ks log,
  nth_error (w_sets w) k = Some s -> s_num s = NSNone -> gives v Ks ->
  exists w' s', add_parametrized_w N C (mkBucket k nrm) true f p v (w, log) = ((w', log ++ value_warnings f p v), Ok tt) /\
    nth_error (w_sets w') k = Some s' /\ s_num s' = NSNone.
Proof.
  intros U N C w k nrm s f p v Ks log Hs Hn Hg. unfold add_parametrized_w. cbn [negb].
  destruct v as [| | |l]; try contradiction.
  - exists w, s. cbn [value_warnings]. rewrite app_nil_r. repeat split; assumption.
  - destruct Hg as [Hl _]. destruct (each_exact N C k nrm f p l 0 w log _ Hs) as (w' & s' & new & X1 & X2 & _ & X4 & _).
    destruct (X4 Hn) as [Y1 _]. exists w', s'. destruct l as [|r l]; [congruence|].
    split; [exact Y1|]. split; [exact X1|congruence].
Qed.

(** C98: the warnings of the constructor: one for each value that is left out, in order. *)
Lemma pf_C98_new :
  forall {U} (N : numops xr) (C : cmpops xr) (w : world xr xr U) nrm chk p K1 K2 K3 K4 K5 log,
  gives (bp_poly_degree p) K1 -> gives (bp_rbf_sigma p) K2 -> gives (bp_laplace_gamma p) K3 ->
  gives (bp_sigmoid_gamma p) K4 -> gives (bp_sigmoid_offset p) K5 ->
  snd (fst (bucket_new_w N C (Some nrm) (Some chk) p (w, log))) =
  log ++ value_warnings "PolyKernel" "degree" (bp_poly_degree p) ++
         value_warnings "GaussianKernel" "sigma" (bp_rbf_sigma p) ++
         value_warnings "LaplacianKernel" "gamma" (bp_laplace_gamma p) ++
         value_warnings "SigmoidKernel" "gamma" (bp_sigmoid_gamma p) ++
         value_warnings "SigmoidKernel" "offset" (bp_sigmoid_offset p).
Proof.
  intros U N C w nrm chk p K1 K2 K3 K4 K5 log H1 H2 H3 H4 H5.
  assert (E : bucket_new_w N C (Some nrm) (Some chk) p (w, log) =
    (let b := mkBucket (length (w_sets w)) nrm in
     add_parametrized_w N C b true "PolyKernel" "degree" (bp_poly_degree p) ;;;
     add_parametrized_w N C b true "GaussianKernel" "sigma" (bp_rbf_sigma p) ;;;
     add_parametrized_w N C b true "LaplacianKernel" "gamma" (bp_laplace_gamma p) ;;;
     add_parametrized_w N C b true "SigmoidKernel" "gamma" (bp_sigmoid_gamma p) ;;;
     add_parametrized_w N C b true "SigmoidKernel" "offset" (bp_sigmoid_offset p) ;;;
     ret b) (start w nrm, log)).
  { set (pre := (l <- new_obj (OKM (km_new (builtin KLinear) nrm [])) ;;
                 k <- set_new N C (KLIter [ARef l]) None ;;
                 s <- get_set k ;;
                 put_set k (mkSet NSNone (s_init s) (s_members s) (s_sample s)) ;;;
                 ret (mkBucket k nrm)) : M (world xr xr U) bucket).
    assert (P : pre w = (start w nrm, Ok (mkBucket (length (w_sets w)) nrm))).
    { unfold pre.
      assert (Hl : forall {A} (l : list A) a b, list_upd (l ++ [a]) (length l) b = l ++ [b]).
      { intros A l a b. induction l as [|y l IH]; cbn; [reflexivity|]. rewrite IH. reflexivity. }
      unfold bind at 1, new_obj at 1. unfold bind at 1. unfold set_new. unfold bind at 1, new_set at 1.
      cbn [set_objs w_objs w_sets for_each]. unfold bind at 1. unfold bind at 1.
      rewrite append_ref. cbn [set_sets set_objs w_objs w_sets]. rewrite !nth_error_snoc, !Nat.eqb_refl.
      unfold joins, joined. cbn [s_init s_num numsamp_eqb negb andb orb s_members s_sample obj_num k_num_samples km_new app].
      unfold ret at 1. rewrite Hl. unfold ret at 1. unfold bind at 1, get_set at 1. cbn [set_sets w_sets w_objs].
      rewrite nth_error_snoc, Nat.eqb_refl. unfold bind at 1. unfold put_set at 1, modify at 1.
      cbn [set_sets w_sets w_objs s_num s_init s_members s_sample]. rewrite Hl. reflexivity. }
    transitivity ((b <- quiet pre ;;
     add_parametrized_w N C b true "PolyKernel" "degree" (bp_poly_degree p) ;;;
     add_parametrized_w N C b true "GaussianKernel" "sigma" (bp_rbf_sigma p) ;;;
     add_parametrized_w N C b true "LaplacianKernel" "gamma" (bp_laplace_gamma p) ;;;
     add_parametrized_w N C b true "SigmoidKernel" "gamma" (bp_sigmoid_gamma p) ;;;
     add_parametrized_w N C b true "SigmoidKernel" "offset" (bp_sigmoid_offset p) ;;;
     ret b) (w, log)).
    - unfold bucket_new_w, pre. unfold bind at 1 2 3 4. unfold quiet at 1. cbn [fst snd].
      unfold bind at 6. unfold quiet. unfold bind at 6. cbn [fst snd].
      destruct (new_obj (OKM (km_new (builtin KLinear) nrm [])) w) as [w1 [l|e]]; cbn [fst snd]; [|reflexivity].
      unfold bind at 6. destruct (set_new N C (KLIter [ARef l]) None w1) as [w2 [k|e]]; cbn [fst snd]; [|reflexivity].
      unfold bind at 6. destruct (get_set k w2) as [w3 [s|e]]; cbn [fst snd]; [|reflexivity].
      unfold bind at 6. destruct (put_set k _ w3) as [w4 [u|e]]; cbn [fst snd]; reflexivity.
    - unfold bind at 1, quiet. cbn [fst snd]. rewrite P. reflexivity. }
  rewrite E. cbv zeta. clear E.
  destruct (add_unattached N C (start w nrm) _ nrm _ "PolyKernel" "degree" _ _ log (start_set w nrm) eq_refl H1) as (w1 & s1 & E1 & S1 & N1).
  unfold bind at 1. rewrite E1.
  destruct (add_unattached N C w1 _ nrm s1 "GaussianKernel" "sigma" _ _ (log ++ value_warnings "PolyKernel" "degree" (bp_poly_degree p)) S1 N1 H2)
    as (w2 & s2 & E2 & S2 & N2). unfold bind at 1. rewrite E2.
  match type of E2 with _ = ((_, ?L), _) => 
    destruct (add_unattached N C w2 _ nrm s2 "LaplacianKernel" "gamma" _ _ L S2 N2 H3) as (w3 & s3 & E3 & S3 & N3) end.
  unfold bind at 1. rewrite E3.
  match type of E3 with _ = ((_, ?L), _) => 
    destruct (add_unattached N C w3 _ nrm s3 "SigmoidKernel" "gamma" _ _ L S3 N3 H4) as (w4 & s4 & E4 & S4 & N4) end.
  unfold bind at 1. rewrite E4.
  match type of E4 with _ = ((_, ?L), _) => 
    destruct (add_unattached N C w4 _ nrm s4 "SigmoidKernel" "offset" _ _ L S4 N4 H5) as (w5 & s5 & E5 & S5 & N5) end.
  unfold bind at 1. rewrite E5. cbn [ret fst snd]. rewrite <- !app_assoc. reflexivity.
Qed.

Lemma failing_vals : forall {A} (f : A -> nkernel) l i, (forall a, accepted (f a) = true) ->
  failing i (map (fun k => res_map builtin (kernel_init k)) (map f l)) = [].
Proof.
  intros A f l. induction l as [|a l IH]; intros i H; [reflexivity|]. cbn [map failing].
  assert (Ha := H a). destruct (f a); try discriminate; cbn [kernel_init res_map]; apply IH; exact H.
Qed.

(** C98: make_kernel_bucket warns exactly if it is given a bucket (or a set), which it returns. *)
Lemma pf_C98_make :
  forall {U} (N : numops xr) (C : cmpops xr) (w : world xr xr U) log f g,
  (forall b, make_kernel_bucket_w N C (SBucket b) f g (w, log) = ((w, log ++ [WAlreadyBucket]), Ok b)) /\
  (forall s, snd (fst (make_kernel_bucket_w N C (SName s) f g (w, log))) = log) /\
  snd (fst (make_kernel_bucket_w N C SOther f g (w, log))) = log.
Proof.
  intros U N C w log f g. split; [reflexivity|]. split; [|reflexivity]. intros s.
  unfold make_kernel_bucket_w. cbv zeta.
  assert (Hnone : forall p, f = None \/ g = None -> snd (fst (bucket_new_w N C f g p (w, log))) = log).
  { intros p [->| ->]; [|destruct f]; reflexivity. }
  destruct f as [nrm|]; [|destruct (String.eqb _ _); [apply Hnone; auto|]; destruct (String.eqb _ _); [apply Hnone; auto|];
    destruct (String.eqb _ _); [apply Hnone; auto|reflexivity]].
  destruct g as [chk|]; [|destruct (String.eqb _ _); [apply Hnone; auto|]; destruct (String.eqb _ _); [apply Hnone; auto|];
    destruct (String.eqb _ _); [apply Hnone; auto|reflexivity]].
  clear Hnone.
  assert (V : forall {A} (h : A -> nkernel) l f p, (forall a, accepted (h a) = true) -> value_warnings f p (vals (map h l)) = []).
  { intros A h l f p H. unfold vals, value_warnings. rewrite failing_vals by exact H. reflexivity. }
  destruct (String.eqb _ "exhaustive"); [|destruct (String.eqb _ "light"); [|destruct (String.eqb _ "linear_only"); [|reflexivity]]].
  - erewrite pf_C98_new; unfold exhaustive_params;
      cbn [bp_poly_degree bp_rbf_sigma bp_laplace_gamma bp_sigmoid_gamma bp_sigmoid_offset];
      [|apply gives_vals; discriminate || reflexivity..].
    unfold poly_degrees, rbf_sigmas, laplace_gammas, sigmoid_gammas, sigmoid_offsets.
    rewrite !V by reflexivity. rewrite app_nil_r. reflexivity.
  - erewrite pf_C98_new; unfold light_params;
      cbn [bp_poly_degree bp_rbf_sigma bp_laplace_gamma bp_sigmoid_gamma bp_sigmoid_offset];
      [|apply gives_vals; discriminate || reflexivity..].
    unfold poly_degrees, rbf_sigmas, laplace_gammas, sigmoid_gammas, sigmoid_offsets.
    rewrite !V by reflexivity. rewrite app_nil_r. reflexivity.
  - rewrite (pf_C98_new N C w nrm chk linear_params [] [] [] [] []) by reflexivity. cbn. apply app_nil_r.
Qed.

(** A case: of the degrees 2, (one that is refused), 3 the second is warned about; the warnings before are
    kept. After attaching the bucket to a sample all three are. *)
Lemma pf_C98_example :
  let p := mkBP (BIter [Ok (builtin (KPoly 2 1 1)); Raise TypeError; Ok (builtin (KPoly 3 1 1))]) BNone BNone BNone BNone in
  snd (fst (bucket_new_w (U:=unit) xN xC (Some true) (Some false) p (w_empty, [WNotSquare])))
  = [WNotSquare; WSkipping "PolyKernel" "degree" 1] /\
  snd (fst (add_parametrized_w (U:=unit) xN xC (mkBucket 0 true) true "PolyKernel" "degree"
              (BIter [Ok (builtin (KPoly 2 1 1)); Raise TypeError; Ok (builtin (KPoly 3 1 1))])
              (mkW [] [mkSet (NSOne 2) true [] None], []))) = map (WSkipping "PolyKernel" "degree") [0; 1; 2].
Proof. split; reflexivity. Qed.
