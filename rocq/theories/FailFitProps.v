(** What a failed fit of a composite kernel leaves behind: property C66. *)
From Coq Require Import String Reals List Arith ZArith Bool Lia Lra.
Import ListNotations.
From Verif Require Import Prelude MatModel UtilsModel IndexModel KMModel SpecKM XReal OpsModel
  SpecLinAlg KernelsModel SpecKernels KMXModel SpecKMX SetModel SpecSet CompositeModel SpecComposite
  SpecFailFit.
From Verif Require Import MatFacts MFacts KMFacts KMInv KMHist KMHist2 KMProps RSum OpsFacts PSDFacts
  KMXProps SetFacts SetFacts2 SetProps ContProps FullFacts CompositeFacts CompositeProps.

Local Open Scope list_scope.
Local Open Scope nat_scope.

Section Loops.
  Context {E U : Type}.
  Notation World := (world E xr U).

  Lemma obj_full_same : forall l (w : World) K l', snd (obj_full xN l w) = Ok K ->
    snd (obj_full xN l' (fst (obj_full xN l w))) = snd (obj_full xN l' w).
  Proof.
    intros l w K l' H. rewrite (obj_full_eq l w) in H |- *.
    destruct (nth_error (w_objs w) l) as [[s|A]|] eqn:Hl; [|reflexivity|discriminate].
    cbn [fst snd] in *. rewrite !(obj_full_eq l'). cbn [set_objs w_objs].
    destruct (Nat.eq_dec l' l) as [->|Hne].
    - rewrite Hl. cbn [snd]. rewrite (nth_error_upd_same _ _ _ _ Hl). cbn [snd].
      destruct (full xN s) as [s' r] eqn:Hf. cbn [fst snd] in *. subst r.
      rewrite (full_idem xN s s' K Hf). reflexivity.
    - rewrite nth_error_upd_other by assumption.
      destruct (nth_error (w_objs w) l') as [[t|A]|]; reflexivity.
  Qed.

  Lemma combine_step_raise : forall f l (w : World) c acc e, c_km c = Some acc ->
    (snd (obj_full xN l w) = Raise e \/ exists K, snd (obj_full xN l w) = Ok K /\ f acc K = Raise e) ->
    combine_step f l (w, c) = ((fst (obj_full xN l w), c), Raise e).
  Proof.
    intros f l w c acc e Hc H.
    unfold combine_step, get_km, bind, get, ret, raise, on_world. cbn [fst snd].
    rewrite Hc. cbn [fst snd]. destruct (obj_full xN l w) as [w' r]. cbn [snd fst] in *.
    destruct H as [->|(K & -> & H)]; [reflexivity|].
    unfold put_km, bind, lift, modify. cbn beta iota. rewrite H. reflexivity.
  Qed.

  Lemma loop_fails : forall {X} (F : X -> arr xr -> arr xr -> res (arr xr)) xs1 x xs2 ms1 l ms2 Ks
      (w : World) c acc acc' e,
    fulls w ms1 Ks -> length xs1 = length ms1 -> c_km c = Some acc ->
    foldr F acc (combine xs1 Ks) = Ok acc' ->
    (snd (obj_full xN l w) = Raise e \/ exists K, snd (obj_full xN l w) = Ok K /\ F x acc' K = Raise e) ->
    exists w', for_each (combine (xs1 ++ x :: xs2) (ms1 ++ l :: ms2))
                 (fun p => combine_step (F (fst p)) (snd p)) (w, c)
               = ((w', set_km acc' c), Raise e).
  Proof.
    intros X F xs1. induction xs1 as [|y xs1 IH]; intros x xs2 ms1 l ms2 Ks w c acc acc' e HF Hlen Hc Hacc Hbad.
    - destruct ms1; [|discriminate]. cbn in Hacc. inversion Hacc; subst acc'.
      cbn [app combine for_each fst snd]. unfold bind.
      rewrite (combine_step_raise (F x) l w c acc e Hc Hbad). eexists. f_equal.
      unfold set_km. destruct c; cbn in *; subst; reflexivity.
    - destruct ms1 as [|l1 ms1]; [discriminate|]. inversion HF as [|? K ? Ks' HK HF']; subst.
      cbn [combine foldr] in Hacc. destruct (F y acc K) as [acc1|e1] eqn:HFx; [|discriminate].
      cbn [rbind] in Hacc. cbn [app combine for_each fst snd]. unfold bind.
      rewrite (combine_step_eq (F y) l1 w c acc K acc1 Hc HK HFx).
      apply (IH x xs2 ms1 l ms2 Ks' (fst (obj_full xN l1 w)) (set_km acc1 c) acc1 acc' e).
      + eapply fulls_kept; [eapply obj_full_keeps; exact HK|exact HF'].
      + inversion Hlen. reflexivity.
      + reflexivity.
      + exact Hacc.
      + rewrite (obj_full_same l1 w K l HK). exact Hbad.
  Qed.

  Lemma loop1_fails : forall (f : arr xr -> arr xr -> res (arr xr)) ms1 l ms2 Ks
      (w : World) c acc acc' e,
    fulls w ms1 Ks -> c_km c = Some acc ->
    foldr (fun (_ : unit) a K => f a K) acc (map (fun K => (tt, K)) Ks) = Ok acc' ->
    (snd (obj_full xN l w) = Raise e \/ exists K, snd (obj_full xN l w) = Ok K /\ f acc' K = Raise e) ->
    exists w', for_each (ms1 ++ l :: ms2) (combine_step f) (w, c) = ((w', set_km acc' c), Raise e).
  Proof.
    intros f ms1 l ms2 Ks w c acc acc' e HF Hc Hacc Hbad.
    destruct (loop_fails (fun (_ : unit) a K => f a K) (repeat tt (length ms1)) tt (repeat tt (length ms2))
      ms1 l ms2 Ks w c acc acc' e HF) as (w' & H).
    - apply repeat_length.
    - exact Hc.
    - rewrite <- Hacc. f_equal. rewrite (fulls_length _ _ _ HF). clear.
      induction Ks as [|K Ks IH]; [reflexivity|]. cbn. rewrite IH. reflexivity.
    - exact Hbad.
    - exists w'. rewrite <- H. change (tt :: repeat tt (length ms2)) with (repeat tt (length (l :: ms2))).
      rewrite <- repeat_app, <- app_length. generalize (ms1 ++ l :: ms2). generalize (w, c). clear.
      intros s ms. revert s. induction ms as [|l ms IH]; intros s; [reflexivity|].
      cbn [length repeat combine for_each fst snd]. unfold bind.
      destruct (combine_step f l s) as [s' [[]|e]]; [apply IH|reflexivity].
  Qed.

  (** Matrices that do not fit. *)
  Lemma bdim_misfit : forall n m, n <> 1 -> m <> n -> m <> 1 -> bdim n m = None.
  Proof.
    intros n m H1 H2 H3. unfold bdim.
    destruct (n =? m) eqn:A; [apply Nat.eqb_eq in A; congruence|].
    destruct (n =? 1) eqn:B; [apply Nat.eqb_eq in B; congruence|].
    destruct (m =? 1) eqn:D; [apply Nat.eqb_eq in D; congruence|]. reflexivity.
  Qed.
  Lemma add_misfit : forall n acc K, is_square n acc -> n <> 1 -> mr (amat K) <> n -> mr (amat K) <> 1 ->
    arr_add acc K = Raise ValueError.
  Proof. intros n acc K [H1 H2] A B D. unfold arr_add. rewrite H1, (bdim_misfit n _ A B D). reflexivity. Qed.
  Lemma mul_misfit : forall n acc K, is_square n acc -> afmt acc = Dense -> n <> 1 ->
    mr (amat K) <> n -> mr (amat K) <> 1 -> arr_mul acc K = Raise ValueError.
  Proof.
    intros n acc K [H1 H2] F A B D. unfold arr_mul. rewrite F, H1, H2, (bdim_misfit n _ A B D).
    destruct (n =? mr (amat K)) eqn:G; [apply Nat.eqb_eq in G; congruence|].
    destruct (afmt K); reflexivity.
  Qed.

  Lemma fails_add : forall n (w : World) l e acc (g : arr xr -> arr xr), is_square n acc ->
    (forall K, mr (amat (g K)) = mr (amat K)) -> member_fails n w l e ->
    snd (obj_full xN l w) = Raise e \/
    exists K, snd (obj_full xN l w) = Ok K /\ arr_add acc (g K) = Raise e.
  Proof.
    intros n w l e acc g Ha Hg [H|(K & HK & A & B & D & ->)]; [left; exact H|right].
    exists K. split; [exact HK|]. apply (add_misfit n); rewrite ?Hg; assumption.
  Qed.
  Lemma fails_mul : forall n (w : World) l e acc, is_square n acc -> afmt acc = Dense ->
    member_fails n w l e ->
    snd (obj_full xN l w) = Raise e \/
    exists K, snd (obj_full xN l w) = Ok K /\ arr_mul acc K = Raise e.
  Proof.
    intros n w l e acc Ha Hd [H|(K & HK & A & B & D & ->)]; [left; exact H|right].
    exists K. split; [exact HK|]. apply (mul_misfit n); assumption.
  Qed.

  Lemma fit_weighted_fails : forall n ws1 x ws2 (w : World) c s ms1 l ms2 Ks e,
    nth_error (w_sets w) (c_set c) = Some s -> c_num c = NSOne n -> s_members s = ms1 ++ l :: ms2 ->
    fulls w ms1 Ks -> Forall (is_square n) Ks -> length ws1 = length ms1 -> member_fails n w l e ->
    exists w' a, fit_weighted (map Fin (ws1 ++ x :: ws2)) (w, c) = ((w', set_km a c), Raise e) /\
      is_matrix n (sum_entry ws1 Ks) a.
  Proof.
    intros n ws1 x ws2 w c s ms1 l ms2 Ks e Hs Hn Hm HF HK Hlen Hbad.
    set (z := mkArr Dense (mfull n n (Fin 0))).
    destruct (fold_sum n (combine ws1 Ks) z) as (b & Hb & Sb & Nb & Fb & Eb).
    { split; reflexivity. } { reflexivity. }
    { apply Forall_forall. intros [y K] Hin. apply in_combine_r in Hin. cbn.
      rewrite Forall_forall in HK. apply HK, Hin. }
    destruct (loop_fails (fun c a K => arr_add a (arr_scale (Fin c) K)) ws1 x ws2 ms1 l ms2 Ks w
      (set_km z c) z b e HF Hlen eq_refl Hb) as (w' & H1).
    { apply (fails_add n w l e b (arr_scale (Fin x)) Sb); [reflexivity|exact Hbad]. }
    exists w', b. split.
    - unfold fit_weighted. unfold bind at 1, get. cbn [snd]. rewrite Hn. cbn [square].
      unfold bind at 1. fold z. rewrite put_km_ok. unfold bind at 1.
      rewrite (on_world_iter (c_set c) w (set_km z c) s Hs), Hm.
      replace (set_km b c) with (set_km b (set_km z c)) by reflexivity. rewrite <- H1.
      clear. generalize (w, set_km z c). generalize (ms1 ++ l :: ms2). generalize (ws1 ++ x :: ws2).
      intros ws. induction ws as [|y ws IH]; intros ms st; [reflexivity|].
      destruct ms as [|l' ms]; [reflexivity|]. cbn [map combine for_each fst snd]. unfold bind.
      match goal with |- match ?t with _ => _ end = _ => destruct t as [s' [[]|e']] end; [apply IH|reflexivity].
    - split; [exact Sb|]. split; [exact Nb|]. intros i j Hi Hj. rewrite Eb by assumption.
      cbn [z amat]. rewrite square_matrix by assumption. apply xadd_0_l.
  Qed.

  Lemma body_product_fails : forall n kw (w : World) c s ms1 l ms2 Ks e,
    nth_error (w_sets w) (c_set c) = Some s -> c_num c = NSOne n -> c_kind c = CProduct ->
    s_members s = ms1 ++ l :: ms2 ->
    fulls w ms1 Ks -> Forall (is_square n) Ks -> Forall (fun K => afmt K = Dense) Ks ->
    member_fails n w l e ->
    exists w' a, fit_body kw (w, c) = ((w', set_km a c), Raise e) /\ is_matrix n (prod_entry Ks) a.
  Proof.
    intros n kw w c s ms1 l ms2 Ks e Hs Hn Hk Hm HF HK HD Hbad. rewrite (body_start kw w c s Hs), Hk, Hn, Hm.
    cbn [square]. set (o := mkArr Dense (mfull n n (Fin 1))).
    destruct (fold_mul n (map (fun K => (tt, K)) Ks) o) as (b & Hb & Sb & Fb & Eb).
    { split; reflexivity. } { reflexivity. }
    { apply Forall_forall. intros [[] K] Hin. apply in_map_iff in Hin. destruct Hin as (K' & HK' & Hin).
      inversion HK'; subst K'. cbn. rewrite Forall_forall in HK, HD. auto. }
    destruct (loop1_fails arr_mul ms1 l ms2 Ks w (set_km o c) o b e HF eq_refl Hb) as (w' & H1).
    { apply (fails_mul n); assumption. }
    exists w', b. split; [|split; [exact Sb|split]].
    - unfold bind at 1. rewrite put_km_ok. rewrite H1. reflexivity.
    - unfold is_ndarray. rewrite Fb. reflexivity.
    - intros i j Hi Hj. rewrite Eb by assumption. unfold o. cbn [amat].
      rewrite square_matrix, xmul_1_l by assumption. unfold prod_entry. rewrite map_map. reflexivity.
  Qed.

  Lemma body_average_fails : forall n kw (w : World) c s ms1 l ms2 Ks e,
    nth_error (w_sets w) (c_set c) = Some s -> c_num c = NSOne n -> c_kind c = CAverage ->
    s_members s = ms1 ++ l :: ms2 ->
    fulls w ms1 Ks -> Forall (is_square n) Ks -> member_fails n w l e ->
    exists w' a, fit_body kw (w, c) = ((w', set_km a c), Raise e) /\
      is_matrix n (sum_entry (repeat 1%R (length ms1)) Ks) a.
  Proof.
    intros n kw w c s ms1 l ms2 Ks e Hs Hn Hk Hm HF HK Hbad. rewrite (body_start kw w c s Hs), Hk, Hn, Hm.
    cbn [square]. set (o := mkArr Dense (mfull n n (Fin 0))).
    destruct (fold_add n (map (fun K => (tt, K)) Ks) o) as (b & Hb & Sb & Nb & _ & Eb).
    { split; reflexivity. } { reflexivity. }
    { apply Forall_forall. intros [[] K] Hin. apply in_map_iff in Hin. destruct Hin as (K' & HK' & Hin).
      inversion HK'; subst K'. cbn. rewrite Forall_forall in HK. auto. }
    destruct (loop1_fails arr_add ms1 l ms2 Ks w (set_km o c) o b e HF eq_refl Hb) as (w' & H1).
    { apply (fails_add n w l e b (fun K => K) Sb); [reflexivity|exact Hbad]. }
    exists w', b. split; [|split; [exact Sb|split; [exact Nb|]]].
    - unfold bind at 1. rewrite put_km_ok. unfold bind at 1. rewrite H1. reflexivity.
    - intros i j Hi Hj. rewrite Eb by assumption. unfold o. cbn [amat].
      rewrite square_matrix, xadd_0_l by assumption. rewrite map_map. unfold sum_entry.
      rewrite (fulls_length _ _ _ HF). clear. unfold xsum. induction Ks as [|K Ks IH]; [reflexivity|].
      cbn [length repeat combine map fst snd fold_right] in *.
      rewrite <- IH, xmul_1_l. reflexivity.
  Qed.

  Lemma fit_fails_of_body : forall C numeric kw (w w' : World) c a e (P : arr xr -> Prop),
    fit_body kw (w, c) = ((w', set_km a c), Raise e) -> P a -> fit_fails C numeric kw (w, c) e P.
  Proof.
    intros C numeric kw w w' c a e P H HP. unfold fit_fails. cbv zeta.
    assert (Hs : cstep C numeric (CFit kw) (w, c) = ((w', set_km a c), Raise e)).
    { cbn [cstep]. unfold bind. rewrite fit_eq, H. reflexivity. }
    rewrite Hs. cbn [fst snd]. split; [reflexivity|]. destruct (c_fitted c) eqn:Hf.
    - split.
      + intros Hget. exfalso. revert Hget. cbn [cstep]. unfold bind, composite_KM, get_km.
        unfold bind, get, ret, raise. cbn [snd]. rewrite Hf.
        cbn. destruct (c_km c); cbn; intros Hx; discriminate Hx.
      + intros b _. exists a. split; [exact HP|]. intros post Hp.
        apply cget_eq; rewrite (crun_no_fit C numeric post _ Hp); [exact Hf|reflexivity].
    - split.
      + intros _ post Hp. apply cget_unfitted. rewrite (crun_no_fit C numeric post _ Hp). exact Hf.
      + intros b Hb. rewrite cget_unfitted in Hb by exact Hf. discriminate.
  Qed.
End Loops.

Lemma split_at : forall {A} (l : list A) p, p < length l -> exists x, 
  l = firstn p l ++ x :: skipn (S p) l /\ length (firstn p l) = p.
Proof.
  intros A l. induction l as [|a l IH]; intros p H; [cbn in H; lia|].
  destruct p as [|p]; [exists a; split; reflexivity|].
  cbn [length] in H. destruct (IH p) as (x & H1 & H2); [lia|].
  exists x. cbn [firstn skipn app length]. split; [f_equal; exact H1|congruence].
Qed.
Lemma split_nth : forall {A} (l : list A) p x, nth_error l p = Some x ->
  l = firstn p l ++ x :: skipn (S p) l /\ length (firstn p l) = p.
Proof.
  intros A l p x H. assert (Hp : p < length l) by (apply nth_error_Some; congruence).
  destruct (split_at l p Hp) as (y & H1 & H2). split; [|exact H2].
  rewrite H1 in H. rewrite nth_error_app2 in H by lia. rewrite H2, Nat.sub_diag in H.
  cbn in H. congruence.
Qed.

(** C66, when [fit] can fail inside its loop at all: in every state of the heap either all members of
    a set give their matrix (and C36 says what fit does), or there is a first one that raises. *)
Lemma pf_C66_cases :
  forall {E U} (w : world E xr U) ms,
    (exists Ks, fulls w ms Ks) \/
    exists p l Ks e, nth_error ms p = Some l /\ fulls w (firstn p ms) Ks /\ snd (obj_full xN l w) = Raise e.
Proof.
  intros E U w ms. induction ms as [|l ms IH]; [left; exists []; constructor|].
  destruct (snd (obj_full xN l w)) as [K|e] eqn:HK.
  - destruct IH as [(Ks & IH)|(p & l' & Ks & e & H1 & H2 & H3)].
    + left. exists (K :: Ks). constructor; assumption.
    + right. exists (S p), l', (K :: Ks), e. split; [exact H1|]. split; [constructor; assumption|exact H3].
  - right. exists 0, l, [], e. split; [reflexivity|]. split; [constructor|exact HK].
Qed.

(** C66, SumKernel, exactly: after any program, if the members at positions below [p] give the n x n
    matrices [Ks] and the member at position [p] raises or does not fit, then fit() raises, and what
    composite_KM returned before is replaced by the sum of [Ks] alone. *)
Lemma pf_C66_sum :
  forall {E U} C numeric k (w0 : world E xr U) c ops num ms n ms0 p l Ks e,
    comp_new NewSum (Some k) w0 = Ok c -> set_is w0 k (NSOne n) ms0 ->
    let s := crun C numeric ops (w0, c) in
    set_is (fst s) k num ms -> nth_error ms p = Some l ->
    fulls (fst s) (firstn p ms) Ks -> Forall (is_square n) Ks -> member_fails n (fst s) l e ->
    fit_fails C numeric None s e (is_matrix n (sum_entry (repeat 1%R p) Ks)).
Proof.
  intros E U C numeric k w0 c ops num ms n ms0 p l Ks e Hc H0 st Hs Hp HF HK Hbad. subst st.
  destruct (at_start C numeric _ k w0 c ops num ms n ms0 Hc H0 Hs) as (s & Hs' & Hm & Hn & Hk).
  rewrite crun_pair. destruct (comp_new_inv _ k w0 c Hc) as (_ & _ & _ & _ & _ & _ & _ & _ & Hkind).
  rewrite Hkind in Hk. destruct (split_nth ms p l Hp) as [Hsp Hlen]. rewrite <- Hm in Hsp at 1.
  destruct (fit_weighted_fails n (repeat 1%R p) 1%R (repeat 1%R (length (skipn (S p) ms))) _ _ s _ l _ Ks e
    Hs' Hn Hsp HF HK) as (w' & a & Hf & HP).
  { rewrite repeat_length. congruence. }
  { exact Hbad. }
  apply (fit_fails_of_body C numeric None _ w' _ a e); [|exact HP].
  rewrite (body_start None _ _ s Hs'), Hk. unfold bind, lift, sum_weights. rewrite <- Hf. f_equal.
  change (1%R :: repeat 1%R (length (skipn (S p) ms))) with (repeat 1%R (length (l :: skipn (S p) ms))).
  rewrite <- repeat_app. rewrite Hsp, app_length, Hlen.
  clear. induction (p + length (l :: skipn (S p) ms)) as [|m IH]; [reflexivity|]. cbn. rewrite IH. reflexivity.
Qed.

(** C66, SumKernel with weights: the weighted sum of [Ks] with the first weights. *)
Lemma pf_C66_sum_weights :
  forall {E U} C numeric k (w0 : world E xr U) c ops num ms n ms0 p l Ks e a ws,
    comp_new NewSum (Some k) w0 = Ok c -> set_is w0 k (NSOne n) ms0 ->
    let s := crun C numeric ops (w0, c) in
    set_is (fst s) k num ms -> nth_error ms p = Some l ->
    fulls (fst s) (firstn p ms) Ks -> Forall (is_square n) Ks -> member_fails n (fst s) l e ->
    is_vector a ws -> length ws = length ms ->
    fit_fails C numeric (Some a) s e (is_matrix n (sum_entry (firstn p ws) Ks)).
Proof.
  intros E U C numeric k w0 c ops num ms n ms0 p l Ks e v ws Hc H0 st Hs Hp HF HK Hbad Hv Hl. subst st.
  destruct (at_start C numeric _ k w0 c ops num ms n ms0 Hc H0 Hs) as (s & Hs' & Hm & Hn & Hk).
  rewrite crun_pair. destruct (comp_new_inv _ k w0 c Hc) as (_ & _ & _ & _ & _ & _ & _ & _ & Hkind).
  rewrite Hkind in Hk. destruct (split_nth ms p l Hp) as [Hsp Hlen]. rewrite <- Hm in Hsp at 1.
  destruct (split_at ws p) as (x & Hws & Hwl).
  { rewrite Hl. apply nth_error_Some. congruence. }
  destruct (fit_weighted_fails n (firstn p ws) x (skipn (S p) ws) _ _ s _ l _ Ks e
    Hs' Hn Hsp HF HK) as (w' & a & Hf & HP).
  { congruence. }
  { exact Hbad. }
  apply (fit_fails_of_body C numeric (Some v) _ w' _ a e); [|exact HP].
  rewrite (body_start (Some v) _ _ s Hs'), Hk. unfold bind, lift, sum_weights.
  rewrite (weights_1D_vector v ws Hv). cbn [rbind]. rewrite map_length, Hl, Hm, Nat.eqb_refl.
  rewrite <- Hf, <- Hws. reflexivity.
Qed.

(** C66, WeightedAverageKernel: the same with the weights given to the constructor; the failing
    member must be one that has a weight, as [zip] never reaches the others. *)
Lemma pf_C66_weighted :
  forall {E U} C numeric k (w0 : world E xr U) c ops num ms n ms0 p l Ks e a ws kw,
    comp_new (NewWeighted a) (Some k) w0 = Ok c -> set_is w0 k (NSOne n) ms0 -> is_vector a ws ->
    let s := crun C numeric ops (w0, c) in
    set_is (fst s) k num ms -> nth_error ms p = Some l -> p < length ws ->
    fulls (fst s) (firstn p ms) Ks -> Forall (is_square n) Ks -> member_fails n (fst s) l e ->
    fit_fails C numeric kw s e (is_matrix n (sum_entry (firstn p ws) Ks)).
Proof.
  intros E U C numeric k w0 c ops num ms n ms0 p l Ks e v ws kw Hc H0 Hv st Hs Hp Hpw HF HK Hbad. subst st.
  destruct (at_start C numeric _ k w0 c ops num ms n ms0 Hc H0 Hs) as (s & Hs' & Hm & Hn & Hk).
  rewrite crun_pair. destruct (comp_new_inv _ k w0 c Hc) as (s0 & _ & _ & _ & _ & _ & _ & _ & Hkind).
  destruct Hkind as (wl & Hwl1 & Hkind & _). rewrite (weights_1D_vector v ws Hv) in Hwl1.
  inversion Hwl1; subst wl. rewrite Hkind in Hk.
  destruct (split_nth ms p l Hp) as [Hsp Hlen]. rewrite <- Hm in Hsp at 1.
  destruct (split_at ws p Hpw) as (x & Hws & Hwl).
  destruct (fit_weighted_fails n (firstn p ws) x (skipn (S p) ws) _ _ s _ l _ Ks e
    Hs' Hn Hsp HF HK) as (w' & a & Hf & HP).
  { congruence. }
  { exact Hbad. }
  apply (fit_fails_of_body C numeric kw _ w' _ a e); [|exact HP].
  rewrite (body_start kw _ _ s Hs'), Hk. rewrite <- Hf, <- Hws. reflexivity.
Qed.

(** C66, AverageKernel: what is left is the plain SUM of [Ks], not their mean, as the division comes
    after the loop. *)
Lemma pf_C66_average :
  forall {E U} C numeric k (w0 : world E xr U) c ops num ms n ms0 p l Ks e kw,
    comp_new NewAverage (Some k) w0 = Ok c -> set_is w0 k (NSOne n) ms0 ->
    let s := crun C numeric ops (w0, c) in
    set_is (fst s) k num ms -> nth_error ms p = Some l ->
    fulls (fst s) (firstn p ms) Ks -> Forall (is_square n) Ks -> member_fails n (fst s) l e ->
    fit_fails C numeric kw s e (is_matrix n (sum_entry (repeat 1%R p) Ks)).
Proof.
  intros E U C numeric k w0 c ops num ms n ms0 p l Ks e kw Hc H0 st Hs Hp HF HK Hbad. subst st.
  destruct (at_start C numeric _ k w0 c ops num ms n ms0 Hc H0 Hs) as (s & Hs' & Hm & Hn & Hk).
  rewrite crun_pair. destruct (comp_new_inv _ k w0 c Hc) as (_ & _ & _ & _ & _ & _ & _ & _ & Hkind).
  rewrite Hkind in Hk. destruct (split_nth ms p l Hp) as [Hsp Hlen]. rewrite <- Hm in Hsp at 1.
  destruct (body_average_fails n kw _ _ s _ l _ Ks e Hs' Hn Hk Hsp HF HK Hbad) as (w' & a & Hf & HP).
  rewrite Hlen in HP. apply (fit_fails_of_body C numeric kw _ w' _ a e _ Hf HP).
Qed.

(** C66, ProductKernel over plain ndarrays: the entrywise product of [Ks]. *)
Lemma pf_C66_product :
  forall {E U} C numeric k (w0 : world E xr U) c ops num ms n ms0 p l Ks e kw,
    comp_new NewProduct (Some k) w0 = Ok c -> set_is w0 k (NSOne n) ms0 ->
    let s := crun C numeric ops (w0, c) in
    set_is (fst s) k num ms -> nth_error ms p = Some l ->
    fulls (fst s) (firstn p ms) Ks -> Forall (is_square n) Ks -> Forall (fun K => afmt K = Dense) Ks ->
    member_fails n (fst s) l e ->
    fit_fails C numeric kw s e (is_matrix n (prod_entry Ks)).
Proof.
  intros E U C numeric k w0 c ops num ms n ms0 p l Ks e kw Hc H0 st Hs Hp HF HK HD Hbad. subst st.
  destruct (at_start C numeric _ k w0 c ops num ms n ms0 Hc H0 Hs) as (s & Hs' & Hm & Hn & Hk).
  rewrite crun_pair. destruct (comp_new_inv _ k w0 c Hc) as (_ & _ & _ & _ & _ & _ & _ & _ & Hkind).
  rewrite Hkind in Hk. destruct (split_nth ms p l Hp) as [Hsp Hlen]. rewrite <- Hm in Hsp at 1.
  destruct (body_product_fails n kw _ _ s _ l _ Ks e Hs' Hn Hk Hsp HF HK HD Hbad) as (w' & a & Hf & HP).
  apply (fit_fails_of_body C numeric kw _ w' _ a e _ Hf HP).
Qed.

(** The hypotheses are met: two linear members on the points 1 and 2 and an AverageKernel, fitted once;
    then the first member is attached to the points 3 and 4, and the second one to three points. The
    next fit raises ValueError, and the entry (1, 1) of composite_KM goes from 4 to 16. *)
Lemma pf_C66_example :
  exists (w0 : world xr xr unit) c ops l Ks b,
    let s := crun xC numx ops (w0, c) in
    comp_new NewAverage (Some 0) w0 = Ok c /\ set_is w0 0 (NSOne 2) [0; 1] /\
    set_is (fst s) 0 (NSOne 2) [0; 1] /\ nth_error [0; 1] 1 = Some l /\
    fulls (fst s) (firstn 1 [0; 1]) Ks /\ Forall (is_square 2) Ks /\
    member_fails 2 (fst s) l ValueError /\
    snd (cstep xC numx CGet s) = Ok (CMat b) /\ xget (amat b) 1 1 = Fin 4 /\
    sum_entry (repeat 1%R 1) Ks 1 1 = Fin 16.
Proof.
  exists w_lin. eexists.
  exists [CFit None; CHeap (WObj 0 (OpAttach (mkNd [2; 1] [Fin 3; Fin 4]) None));
          CHeap (WObj 1 (OpAttach (mkNd [3; 1] [Fin 1; Fin 2; Fin 3]) None))].
  eexists. eexists. eexists. cbv zeta.
  split; [calc; reflexivity|]. split; [eexists; eexists; calc; reflexivity|].
  split; [eexists; eexists; calc; reflexivity|]. split; [reflexivity|].
  split; [constructor; [calc; reflexivity|constructor]|].
  split; [repeat constructor|].
  split; [right; eexists; split; [calc; reflexivity|split; [discriminate|split; [discriminate|split; [discriminate|reflexivity]]]]|].
  split; [calc; reflexivity|]. split; calc; [|f_equal; lra].
  replace (INR 2) with 2%R by (cbn; lra).
  destruct (Req_EM_T 2 0) as [H|_]; [exfalso; lra|]. f_equal. lra.
Qed.
