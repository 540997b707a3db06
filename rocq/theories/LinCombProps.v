(** Linear combinations of the members of a KernelSet: property C82. *)
From Coq Require Import String Reals List Arith ZArith Bool Lia Lra.
Import ListNotations.
From Verif Require Import Prelude MatModel UtilsModel IndexModel KMModel SpecKM XReal OpsModel
  SpecLinAlg KernelsModel SpecKernels KMXModel SpecKMX SetModel SpecSet CompositeModel SpecComposite
  LinCombModel SpecLinComb.
From Verif Require Import MatFacts MFacts KMFacts KMInv KMHist KMHist2 KMProps RSum OpsFacts PSDFacts
  KMXProps SetFacts SetFacts2 SetProps ContProps FullFacts CompositeFacts CompositeProps.

Local Open Scope list_scope.
Local Open Scope nat_scope.

(** ** One addition *)
Lemma bget_dims : forall n m (A : mat xr) i j, mr A = n -> mc A = m -> i < n -> j < m ->
  bget NaN A i j = xget A i j.
Proof.
  intros n m A i j Hr Hc Hi Hj. unfold bget, xget. rewrite Hr, Hc.
  destruct (n =? 1) eqn:H1; destruct (m =? 1) eqn:H2; try apply Nat.eqb_eq in H1; try apply Nat.eqb_eq in H2;
    try (replace i with 0 by lia); try (replace j with 0 by lia); reflexivity.
Qed.

Lemma arr_add_dims : forall n m a K, has_dims n m a -> has_dims n m K ->
  exists b, arr_add a K = Ok b /\ has_dims n m b /\ is_sparse b = false /\
    forall i j, i < n -> j < m -> xget (amat b) i j = xadd (xget (amat a) i j) (xget (amat K) i j).
Proof.
  intros n m a K [Ar Ac] [Kr Kc]. unfold arr_add. rewrite Ar, Ac, Kr, Kc, !bdim_same.
  rewrite !Nat.eqb_refl. cbn [andb negb]. rewrite andb_false_r.
  eexists. split; [reflexivity|]. split; [split; reflexivity|]. split.
  { unfold is_sparse. cbn [afmt]. destruct (afmt a), (afmt K); reflexivity. }
  intros i j Hi Hj. cbn [amat]. unfold xget at 1. rewrite mget_tabulate by assumption.
  rewrite !(bget_dims n m) by assumption. reflexivity.
Qed.

(** What the accumulator holds: the n x m matrix [f], or still the initial zeros. *)
Definition holds_acc (n m : nat) (f : nat -> nat -> xr) (acc : lcval) : Prop :=
  match acc with
  | LScalar v => v = Fin 0 /\ forall i j, f i j = Fin 0
  | LVector l => l = repeat (Fin 0) m /\ n = m /\ forall i j, f i j = Fin 0
  | LMatrix a => is_matrix2 n m f a
  end.

Lemma nth_zeros : forall m j, j < m -> nth j (repeat (Fin 0) m) NaN = Fin 0.
Proof. intros m j H. rewrite (nth_indep _ NaN (Fin 0)) by (rewrite repeat_length; exact H). apply nth_repeat. Qed.

Lemma lc_add_ok : forall n m f acc K, holds_acc n m f acc -> has_dims n m K ->
  exists b, lc_add acc K = Ok (LMatrix b) /\
    is_matrix2 n m (fun i j => xadd (f i j) (xget (amat K) i j)) b /\
    (match acc with LMatrix a => is_sparse a = false | _ => is_sparse K = false end -> is_sparse b = false) /\
    ((exists l, acc = LVector l) -> is_sparse b = false).
Proof.
  intros n m f [v|l|a] K HA HK; cbn [holds_acc lc_add] in *.
  - destruct HA as [-> Hf]. destruct (is_sparse K) eqn:Hs.
    + cbn. unfold Reqb. destruct (Req_EM_T 0 0) as [_|C]; [|exfalso; apply C; reflexivity].
      exists K. split; [reflexivity|]. split.
      { split; [exact HK|]. intros i j Hi Hj. rewrite Hf, xadd_0_l. reflexivity. }
      split; [intros; discriminate|intros (l & Hl); discriminate].
    + eexists. split; [reflexivity|]. destruct HK as [Kr Kc]. split.
      { split; [split; cbn; assumption|]. intros i j Hi Hj. cbn [amat]. unfold xget at 1.
        rewrite mget_tabulate by lia. rewrite Hf. reflexivity. }
      split; [intros _; exact Hs|intros (l & Hl); discriminate].
  - destruct HA as (-> & -> & Hf). destruct HK as [Kr Kc]. rewrite repeat_length. unfold arr_add.
    cbn [amat mr mc afmt]. rewrite Kr, Kc, bdim_same.
    assert (B : bdim 1 m = Some m).
    { unfold bdim. destruct (1 =? m) eqn:H; [apply Nat.eqb_eq in H; f_equal; exact H|reflexivity]. }
    rewrite B, !Nat.eqb_refl. cbn [andb negb]. rewrite andb_false_r. cbn [res_map].
    eexists. split; [reflexivity|].
    assert (Sp : is_sparse (mkArr (match afmt K with Dense => Dense | _ => NpMatrix end)
                  (tabulate m m (fun i j => xadd (bget NaN (mkMat 1 m [repeat (Fin 0) m]) i j)
                                                 (bget NaN (amat K) i j)))) = false).
    { unfold is_sparse. cbn [afmt]. destruct (afmt K); reflexivity. }
    split; [|split; intros _; exact Sp].
    split; [split; reflexivity|]. intros i j Hi Hj. cbn [amat]. unfold xget at 1.
    rewrite mget_tabulate by assumption. rewrite (bget_dims m m (amat K)) by assumption.
    f_equal. rewrite Hf. unfold bget. cbn [mr mc]. rewrite Nat.eqb_refl. unfold mget. cbn [md nth].
    destruct (m =? 1) eqn:H1.
    + apply nth_zeros. lia.
    + apply nth_zeros, Hj.
  - destruct HA as [Da Ea]. destruct (is_sparse a) eqn:Sa.
    + destruct (is_sparse K) eqn:Sk.
      * destruct Da as [Ar Ac]. destruct HK as [Kr Kc]. rewrite Ar, Ac, Kr, Kc, !Nat.eqb_refl. cbn [andb].
        eexists. split; [reflexivity|]. split.
        { split; [split; reflexivity|]. intros i j Hi Hj. cbn [amat]. unfold xget at 1.
          rewrite mget_tabulate by assumption. rewrite Ea by assumption. reflexivity. }
        split; [discriminate|intros (l & Hl); discriminate].
      * destruct (arr_add_dims n m K a HK Da) as (b & Hb & Db & Sb & Eb). exists b.
        rewrite Hb. split; [reflexivity|]. split.
        { split; [exact Db|]. intros i j Hi Hj. rewrite Eb, Ea, xadd_comm by assumption. reflexivity. }
        split; [discriminate|intros (l & Hl); discriminate].
    + destruct (arr_add_dims n m a K Da HK) as (b & Hb & Db & Sb & Eb). exists b.
      rewrite Hb. split; [reflexivity|]. split.
      { split; [exact Db|]. intros i j Hi Hj. rewrite Eb, Ea by assumption. reflexivity. }
      split; [intros _; exact Sb|intros (l & Hl); discriminate].
Qed.

Lemma scale_dims : forall n m c K, has_dims n m K -> has_dims n m (arr_scale c K).
Proof. intros n m c K [Hr Hc]. split; cbn; assumption. Qed.

Lemma scale_entry : forall n m c K i j, has_dims n m K -> i < n -> j < m ->
  xget (amat (arr_scale (Fin c) K)) i j = xmul (Fin c) (xget (amat K) i j).
Proof.
  intros n m c K i j [Hr Hc] Hi Hj. unfold arr_scale. cbn [amat]. unfold xget at 1.
  rewrite mget_tabulate by lia.
  destruct (is_sparse K && negb (nonzero (xget (amat K) i j))) eqn:H; [|reflexivity].
  apply andb_true_iff in H. destruct H as [_ H]. apply negb_true_iff in H.
  rewrite (nonzero_false _ H). cbn. f_equal. ring.
Qed.

(** ** The loop *)
Lemma undisturbed_refl : forall {E U} (w : world E xr U), undisturbed w w.
Proof. intros E U w. split; [reflexivity|auto]. Qed.
Lemma undisturbed_trans : forall {E U} (a b c : world E xr U),
  undisturbed a b -> undisturbed b c -> undisturbed a c.
Proof. intros E U a b c [H1 H2] [H3 H4]. split; [congruence|auto]. Qed.
Lemma undisturbed_full : forall {E U} l (w : world E xr U) K, snd (obj_full xN l w) = Ok K ->
  undisturbed w (fst (obj_full xN l w)).
Proof. intros E U l w K H. split; [apply obj_full_sets|exact (obj_full_keeps l w K H)]. Qed.

Lemma lc_loop_cons : forall {E U} weight l rest acc (w : world E xr U) K,
  snd (obj_full xN l w) = Ok K ->
  lc_loop ((weight, l) :: rest) acc w =
  match lc_add acc (arr_scale weight K) with
  | Ok acc' => lc_loop rest acc' (fst (obj_full xN l w))
  | Raise e => (fst (obj_full xN l w), Raise e)
  end.
Proof.
  intros E U weight l rest acc w K H. cbn [lc_loop]. unfold bind at 1.
  destruct (obj_full xN l w) as [w' r]. cbn [fst snd] in *. subst r. unfold bind, lift.
  destruct (lc_add acc (arr_scale weight K)); reflexivity.
Qed.

Lemma lc_loop_ok : forall {E U} n m ws ms Ks (w : world E xr U) f acc,
  fulls w ms Ks -> Forall (has_dims n m) Ks -> holds_acc n m f acc -> length ws = length ms ->
  exists w' v, lc_loop (combine (map Fin ws) ms) acc w = (w', Ok v) /\ undisturbed w w' /\
    holds_acc n m (fun i j => xadd (f i j) (sum_entry ws Ks i j)) v /\
    (ms <> [] -> exists b, v = LMatrix b) /\
    (forall a, acc = LMatrix a -> exists b, v = LMatrix b /\ (is_sparse a = false -> is_sparse b = false)) /\
    (forall l b, acc = LVector l -> v = LMatrix b -> is_sparse b = false).
Proof.
  intros E U n m ws. induction ws as [|c ws IH]; intros ms Ks w f acc HF HD HA Hl.
  - destruct ms; [|discriminate]. inversion HF; subst. exists w, acc. split; [reflexivity|].
    split; [apply undisturbed_refl|]. split.
    { assert (Z : forall i j, xadd (f i j) (sum_entry [] [] i j) = f i j).
      { intros i j. unfold sum_entry. cbn. rewrite xadd_comm, xadd_0_l. reflexivity. }
      destruct acc as [v|l|a]; cbn [holds_acc] in *.
      - destruct HA as [-> Hf]. split; [reflexivity|]. intros. rewrite Z. apply Hf.
      - destruct HA as (-> & -> & Hf). split; [reflexivity|split; [reflexivity|]]. intros. rewrite Z. apply Hf.
      - destruct HA as [D He]. split; [exact D|]. intros. rewrite Z. apply He; assumption. }
    split; [intros C; contradiction|]. split; [intros a ->; eauto|].
    intros l b -> H. discriminate.
  - destruct HF as [|l K ms Ks HK HF]; [discriminate|]. inversion HD as [|? ? D1 D2]; subst.
    cbn [map combine]. rewrite (lc_loop_cons (Fin c) l _ acc w K HK).
    destruct (lc_add_ok n m f acc (arr_scale (Fin c) K) HA (scale_dims n m _ K D1))
      as (b & Hb & Mb & Sb & Vb). rewrite Hb.
    assert (Hl' : length ws = length ms) by (cbn in Hl; lia).
    destruct (IH ms Ks (fst (obj_full xN l w)) _ (LMatrix b)
                (fulls_kept _ _ _ _ (obj_full_keeps _ _ _ HK) HF) D2 Mb Hl')
      as (w' & v & Hv & Hw & HA' & _ & Hm & _).
    exists w', v. split; [exact Hv|]. split; [eapply undisturbed_trans; [eapply undisturbed_full; exact HK|exact Hw]|].
    destruct (Hm b eq_refl) as (b' & -> & Sb'). split.
    { cbn [holds_acc] in *. destruct HA' as [D He]. split; [exact D|]. intros i j Hi Hj.
      rewrite He by assumption. rewrite (scale_entry n m) by assumption.
      unfold sum_entry. cbn [combine map]. unfold xsum. cbn [fold_right fst snd]. symmetry. apply xadd_assoc. }
    split; [eauto|]. split.
    { intros a ->. exists b'. split; [reflexivity|]. intros Ha. apply Sb', Sb, Ha. }
    intros l' b'' -> H. injection H as <-. apply Sb', Vb. eauto.
Qed.

Lemma zeros_hold : forall num n m, dims_of num n m ->
  holds_acc n m (fun _ _ => Fin 0) (lc_zeros num).
Proof.
  intros num n m [[-> ->]|[->| ->]]; cbn [lc_zeros holds_acc].
  - split; [reflexivity|split; reflexivity].
  - split; [split; reflexivity|]. intros i j Hi Hj. cbn [amat]. unfold xget, mfull.
    apply mget_tabulate; assumption.
  - split; reflexivity.
Qed.

Lemma lc_start : forall {E U} k (w : world E xr U) num ms a ws nw,
  set_is w k num ms -> is_vector a ws -> length ws = length ms ->
  linear_combination_set k a nw w =
  match normed_weights nw (map Fin ws) with
  | Ok ws' => lc_loop (combine ws' ms) (lc_zeros num) w
  | Raise e => (w, Raise e)
  end.
Proof.
  intros E U k w num ms a ws nw (b & x & Hs) Ha Hl. unfold linear_combination_set, bind, get_set.
  rewrite Hs. cbn [s_members s_num]. destruct Ha as (Hd & extra & Hsh & He) eqn:HHa.
  rewrite Hsh, Hl, Nat.eqb_refl. unfold lift. rewrite (weights_1D_vector a ws Ha).
  destruct (normed_weights nw (map Fin ws)); [|reflexivity].
  unfold set_iter, bind, get_set, ret. rewrite Hs. reflexivity.
Qed.

Lemma total_fin : forall ws, xsum (map Fin ws) = Fin (total ws).
Proof. unfold xsum, total. induction ws as [|r ws IH]; [reflexivity|]. cbn [map fold_right]. rewrite IH. reflexivity. Qed.

Lemma total_scaled : forall ws c, total (map (fun r => (r / c)%R) ws) = (total ws / c)%R.
Proof.
  unfold total. induction ws as [|r ws IH]; intros c; cbn [map fold_right]; [unfold Rdiv; ring|].
  rewrite IH. unfold Rdiv. ring.
Qed.

Lemma normed_ok : forall ws, (1/100000000 < Rabs (total ws))%R ->
  normed_weights true (map Fin ws) = Ok (map Fin (map (fun r => (r / total ws)%R) ws)).
Proof.
  intros ws H. unfold normed_weights. rewrite total_fin, isclose_zero. unfold Rleb.
  destruct (Rle_dec (Rabs (total ws)) (1/100000000)); [lra|]. f_equal. rewrite !map_map.
  apply map_ext. intros r. cbn. unfold Reqb.
  destruct (Req_EM_T (total ws) 0) as [E|]; [rewrite E, Rabs_R0 in H; lra|reflexivity].
Qed.

(** From the loop to the result. *)
Lemma lc_result : forall {E U} (w : world E xr U) num ms n m Ks ws,
  dims_of num n m -> ms <> [] \/ num = NSTwo n m -> fulls w ms Ks -> Forall (has_dims n m) Ks ->
  length ws = length ms ->
  exists w' b, lc_loop (combine (map Fin ws) ms) (lc_zeros num) w = (w', Ok (LMatrix b)) /\
    is_matrix2 n m (sum_entry ws Ks) b /\ undisturbed w w' /\ (num <> NSNone -> is_sparse b = false).
Proof.
  intros E U w num ms n m Ks ws Hd Hne HF HD Hl.
  destruct (lc_loop_ok n m ws ms Ks w _ _ HF HD (zeros_hold num n m Hd) Hl)
    as (w' & v & Hv & Hw & HA & Hm & Ha & Hvec).
  assert (B : exists b, v = LMatrix b).
  { destruct Hne as [Hne|Hne]; [exact (Hm Hne)|]. subst num.
    destruct (Ha _ eq_refl) as (b & Hb & _). eauto. }
  destruct B as [b ->]. exists w', b. split; [exact Hv|]. split; [|split; [exact Hw|]].
  - cbn [holds_acc] in HA. destruct HA as [D He]. split; [exact D|]. intros i j Hi Hj.
    rewrite He by assumption. apply xadd_0_l.
  - intros Hn. destruct Hd as [[-> ->]|[->| ->]]; [| |contradiction].
    + apply (Hvec _ b eq_refl eq_refl).
    + destruct (Ha _ eq_refl) as (b' & Hb & Hs). injection Hb as <-. apply Hs. reflexivity.
Qed.

(** C82: for a set that has members (or is made for two samples), the result is the n x m matrix whose
    entries are the weighted sums of the entries of the members' [full], dense unless the set never had
    a num_samples; any number of members, any entries (also NaN and infinite), any formats; reading
    [full] and the sets gives the same as before. *)
Lemma pf_C82_sum :
  forall {E U} k (w : world E xr U) num ms n m Ks a ws,
    set_is w k num ms -> dims_of num n m -> ms <> [] \/ num = NSTwo n m ->
    fulls w ms Ks -> Forall (has_dims n m) Ks -> is_vector a ws -> length ws = length ms ->
    exists w' b, linear_combination_set k a false w = (w', Ok (LMatrix b)) /\
      is_matrix2 n m (sum_entry ws Ks) b /\ undisturbed w w' /\
      (num <> NSNone -> is_sparse b = false).
Proof.
  intros E U k w num ms n m Ks a ws Hs Hd Hne HF HD Ha Hl.
  rewrite (lc_start k w num ms a ws false Hs Ha Hl). cbn [normed_weights].
  apply lc_result; assumption.
Qed.

(** The storage format along the loop. *)
Definition fmt_join (acc : lcval) (f : fmt) : fmt :=
  match acc with
  | LScalar _ => f
  | LVector _ => match f with Dense => Dense | _ => NpMatrix end
  | LMatrix a => match afmt a, f with Dense, Dense => Dense | Lil, Lil => Lil | _, _ => NpMatrix end
  end.

Lemma arr_add_fmt : forall a K b, arr_add a K = Ok b ->
  afmt b = match afmt a, afmt K with Dense, Dense => Dense | _, _ => NpMatrix end.
Proof.
  intros a K b. unfold arr_add. destruct (bdim _ _); [|discriminate]. destruct (bdim _ _); [|discriminate].
  destruct (_ && _); [discriminate|]. intros H. injection H as <-. reflexivity.
Qed.

Lemma lc_add_fmt : forall acc K v, lc_add acc K = Ok v ->
  exists b, v = LMatrix b /\ afmt b = fmt_join acc (afmt K).
Proof.
  intros acc K v. unfold lc_add, is_sparse. destruct acc as [x|l|a]; cbn [fmt_join].
  - destruct (afmt K) eqn:EK; [|destruct (xeqb _ _); [|discriminate]|];
      intros H; injection H as <-; eexists; (split; [reflexivity|]); cbn [afmt]; congruence.
  - destruct (arr_add _ K) as [b|] eqn:Hb; cbn [res_map]; [|discriminate]. intros H. injection H as <-.
    exists b. split; [reflexivity|]. apply arr_add_fmt in Hb. cbn [afmt] in Hb. exact Hb.
  - destruct (afmt a) eqn:Ea; destruct (afmt K) eqn:EK;
      try (destruct (_ && _); [|discriminate]; intros H; injection H as <-; eexists;
           (split; [reflexivity|reflexivity]));
      (destruct (arr_add _ _) as [b|] eqn:Hb; cbn [res_map]; [|discriminate]; intros H; injection H as <-;
       exists b; (split; [reflexivity|]); apply arr_add_fmt in Hb; rewrite ?Ea, ?EK in Hb; exact Hb).
Qed.

Lemma lc_loop_fmt : forall {E U} ws ms Ks (w w' : world E xr U) a b,
  fulls w ms Ks -> length ws = length ms ->
  lc_loop (combine ws ms) (LMatrix a) w = (w', Ok (LMatrix b)) ->
  (afmt b = Dense <-> afmt a = Dense /\ Forall (eq Dense) (map afmt Ks)) /\
  (afmt b = Lil <-> afmt a = Lil /\ Forall (eq Lil) (map afmt Ks)).
Proof.
  induction ws as [|c ws IH]; intros ms Ks w w' a b HF Hl H.
  - destruct ms; [|discriminate]. inversion HF; subst. cbn in H. injection H as _ <-.
    cbn [map]. split; (split; [intros ->; split; [reflexivity|constructor]|tauto]).
  - destruct HF as [|l K ms Ks HK HF]; [discriminate|]. cbn [combine] in H.
    rewrite (lc_loop_cons c l _ (LMatrix a) w K HK) in H.
    destruct (lc_add (LMatrix a) (arr_scale c K)) as [v|] eqn:Hv; [|discriminate].
    destruct (lc_add_fmt _ _ _ Hv) as (b0 & -> & Hb0). cbn [fmt_join] in Hb0.
    cbn [length] in Hl. injection Hl as Hl.
    destruct (IH ms Ks _ _ b0 b (fulls_kept _ _ _ _ (obj_full_keeps _ _ _ HK) HF) Hl H) as [I1 I2].
    change (afmt (arr_scale c K)) with (afmt K) in Hb0. rewrite I1, I2. cbn [map]. rewrite !Forall_cons_iff.
    destruct (afmt a), (afmt K); rewrite Hb0; split; split; intuition congruence.
Qed.

(** C82, the storage format of the result, for any weights and with and without norm_weights: a plain
    array exactly if all members' [full] are; sparse exactly if all are and the set has no num_samples;
    a numpy.matrix otherwise. *)
Lemma pf_C82_format :
  forall {E U} k (w : world E xr U) num ms Ks a ws nw w' b,
    set_is w k num ms -> ms <> [] -> fulls w ms Ks -> is_vector a ws -> length ws = length ms ->
    linear_combination_set k a nw w = (w', Ok (LMatrix b)) ->
    sum_format num (map afmt Ks) (afmt b).
Proof.
  intros E U k w num ms Ks a ws nw w' b Hs Hne HF Ha Hl H.
  rewrite (lc_start k w num ms a ws nw Hs Ha Hl) in H.
  destruct (normed_weights nw (map Fin ws)) as [ws'|] eqn:Hn; [|discriminate].
  assert (Hl' : length ws' = length ms).
  { rewrite <- Hl. unfold normed_weights in Hn. destruct nw.
    - match type of Hn with (if ?c then _ else _) = _ => destruct c end; [discriminate|]. injection Hn as <-. rewrite !map_length. reflexivity.
    - injection Hn as <-. apply map_length. }
  unfold sum_format. clear Hn Hl Ha Hs.
  destruct HF as [|l K ms Ks HK HF]; [contradiction|]. destruct ws' as [|c ws']; [discriminate|].
  cbn [combine] in H. rewrite (lc_loop_cons c l _ (lc_zeros num) w K HK) in H.
  destruct (lc_add (lc_zeros num) (arr_scale c K)) as [v|] eqn:Hv; [|discriminate].
  destruct (lc_add_fmt _ _ _ Hv) as (b0 & -> & Hb0). cbn [length] in Hl'. injection Hl' as Hl'.
  destruct (lc_loop_fmt _ _ _ _ _ b0 b (fulls_kept _ _ _ _ (obj_full_keeps _ _ _ HK) HF) Hl' H) as [I1 I2].
  change (afmt (arr_scale c K)) with (afmt K) in Hb0. rewrite I1, I2. cbn [map]. rewrite !Forall_cons_iff.
  destruct num; cbn [lc_zeros fmt_join afmt] in Hb0; destruct (afmt K); rewrite Hb0;
    split; split; intuition congruence.
Qed.

(** C82, norm_weights=True: the same with the weights divided by their total, provided it is not within
    1e-8 of zero; they add up to 1 then. *)
Lemma pf_C82_normalised :
  forall {E U} k (w : world E xr U) num ms n m Ks a ws,
    set_is w k num ms -> dims_of num n m -> ms <> [] \/ num = NSTwo n m ->
    fulls w ms Ks -> Forall (has_dims n m) Ks -> is_vector a ws -> length ws = length ms ->
    (1/100000000 < Rabs (total ws))%R ->
    total (map (fun r => (r / total ws)%R) ws) = 1%R /\
    exists w' b, linear_combination_set k a true w = (w', Ok (LMatrix b)) /\
      is_matrix2 n m (sum_entry (map (fun r => (r / total ws)%R) ws) Ks) b /\ undisturbed w w' /\
      (num <> NSNone -> is_sparse b = false).
Proof.
  intros E U k w num ms n m Ks a ws Hs Hd Hne HF HD Ha Hl Ht. split.
  - rewrite total_scaled. field. intros E0. rewrite E0, Rabs_R0 in Ht. lra.
  - rewrite (lc_start k w num ms a ws true Hs Ha Hl), (normed_ok ws Ht).
    apply lc_result; try assumption. rewrite map_length. exact Hl.
Qed.

(** C82: normalising raises RuntimeError exactly if the total of the weights is within 1e-8 of zero;
    nothing has been read then. *)
Lemma pf_C82_zero_sum :
  forall {E U} k (w : world E xr U) num ms a ws,
    set_is w k num ms -> is_vector a ws -> length ws = length ms ->
    (Rabs (total ws) <= 1/100000000)%R ->
    linear_combination_set k a true w = (w, Raise RuntimeError).
Proof.
  intros E U k w num ms a ws Hs Ha Hl Ht. rewrite (lc_start k w num ms a ws true Hs Ha Hl).
  unfold normed_weights. rewrite total_fin, isclose_zero. unfold Rleb.
  destruct (Rle_dec (Rabs (total ws)) (1/100000000)); [reflexivity|contradiction].
Qed.

(** C82: a wrong number of weights raises ValueError, and nothing has been read. *)
Lemma pf_C82_wrong_count :
  forall {E U} k (w : world E xr U) num ms a ws nw,
    set_is w k num ms -> is_vector a ws -> length ws <> length ms ->
    linear_combination_set k a nw w = (w, Raise ValueError).
Proof.
  intros E U k w num ms a ws nw (b & x & Hs) (Hd & extra & Hsh & He) Hl.
  unfold linear_combination_set, bind, get_set. rewrite Hs. cbn [s_members]. rewrite Hsh.
  destruct (length ms =? length ws) eqn:H; [apply Nat.eqb_eq in H; congruence|reflexivity].
Qed.

(** C82: a number in place of the weights (a 0-dimensional array) raises TypeError, and nothing has been
    read. *)
Lemma pf_C82_scalar_weights :
  forall {E U} k (w : world E xr U) num ms a nw,
    set_is w k num ms -> nd_shape a = [] ->
    linear_combination_set k a nw w = (w, Raise TypeError).
Proof.
  intros E U k w num ms a nw (b & x & Hs) Ha.
  unfold linear_combination_set, bind, get_set. rewrite Hs, Ha. reflexivity.
Qed.

Lemma obj_full_raise_kept : forall {E U} l l' (w : world E xr U) K e,
  snd (obj_full xN l w) = Ok K -> snd (obj_full xN l' w) = Raise e ->
  snd (obj_full xN l' (fst (obj_full xN l w))) = Raise e.
Proof.
  intros E U l l' w K e H H'.
  assert (Hne : l' <> l) by (intros ->; congruence).
  rewrite (obj_full_eq l w) in H |- *. rewrite (obj_full_eq l' w) in H'.
  destruct (nth_error (w_objs w) l) as [[s|A]|] eqn:Hl; cbn [fst]; [| |discriminate].
  - rewrite obj_full_eq. cbn [set_objs w_objs]. rewrite nth_error_upd_other by assumption.
    destruct (nth_error (w_objs w) l') as [[t|A]|]; exact H'.
  - rewrite obj_full_eq. exact H'.
Qed.

(** C82: if [full] of a member raises, its exception is raised (that of the first such member). *)
Lemma pf_C82_member_raises :
  forall {E U} k (w : world E xr U) num n m ms1 l ms2 Ks a ws e,
    set_is w k num (ms1 ++ l :: ms2) -> dims_of num n m ->
    fulls w ms1 Ks -> Forall (has_dims n m) Ks -> snd (obj_full xN l w) = Raise e ->
    is_vector a ws -> length ws = length (ms1 ++ l :: ms2) ->
    snd (linear_combination_set k a false w) = Raise e.
Proof.
  intros E U k w num n m ms1 l ms2 Ks a ws e Hs Hd HF HD He Ha Hl.
  rewrite (lc_start k w num _ a ws false Hs Ha Hl). cbn [normed_weights]. clear Hs Ha a k.
  assert (HA := zeros_hold num n m Hd). revert HA. generalize (lc_zeros num).
  generalize (fun _ _ : nat => Fin 0). revert ws Hl Ks w HF HD He.
  induction ms1 as [|l1 ms1 IH]; intros ws Hl Ks w HF HD He f acc HA.
  - destruct ws as [|c ws]; [discriminate|]. cbn [app map combine lc_loop]. unfold bind at 1.
    destruct (obj_full xN l w) as [w' r]. cbn [snd] in He. subst r. reflexivity.
  - destruct ws as [|c ws]; [discriminate|]. inversion HF as [|? K ? Ks' HK HF']; subst.
    inversion HD as [|? ? D1 D2]; subst. cbn [app map combine].
    rewrite (lc_loop_cons (Fin c) l1 _ acc w K HK).
    destruct (lc_add_ok n m f acc (arr_scale (Fin c) K) HA (scale_dims n m _ K D1))
      as (b & Hb & Mb & _ & _). rewrite Hb.
    refine (IH ws _ Ks' _ _ D2 _ _ (LMatrix b) Mb).
    + cbn in Hl. lia.
    + exact (fulls_kept _ _ _ _ (obj_full_keeps _ _ _ HK) HF').
    + exact (obj_full_raise_kept l1 l w K e HK He).
Qed.

Lemma squares_dims : forall n Ks, Forall (is_square n) Ks -> Forall (has_dims n n) Ks.
Proof. intros n Ks H. eapply Forall_impl; [|exact H]. intros a Ha. exact Ha. Qed.

(** C82: with non-negative weights, a combination of positive semidefinite matrices is positive
    semidefinite; also with normalisation, if the total is not negligible. *)
Lemma pf_C82_psd :
  forall {E U} k (w : world E xr U) num ms n Ks a ws nw,
    set_is w k num ms -> num = NSOne n \/ num = NSNone -> ms <> [] ->
    fulls w ms Ks -> Forall (psd_array n) Ks -> is_vector a ws -> length ws = length ms ->
    Forall (fun r => (0 <= r)%R) ws -> (nw = true -> (1/100000000 < total ws)%R) ->
    exists w' b, linear_combination_set k a nw w = (w', Ok (LMatrix b)) /\ psd_array n b.
Proof.
  intros E U k w num ms n Ks a ws nw Hs Hn Hne HF HP Ha Hl Hw Hnw.
  assert (Hd : dims_of num n n) by (destruct Hn as [->| ->]; [left|right; right]; auto).
  assert (HD := squares_dims n Ks (psd_squares n Ks HP)).
  assert (Q : forall vs b, Forall (fun r => (0 <= r)%R) vs -> is_matrix2 n n (sum_entry vs Ks) b -> psd_array n b).
  { intros vs b Hv [D He]. destruct (psd_array_sum n vs Ks Hv HP) as (A & PA & EA).
    split; [exact D|]. exists A. split; [exact PA|]. intros i j Hi Hj. rewrite He by assumption. apply EA; assumption. }
  destruct nw.
  - specialize (Hnw eq_refl).
    destruct (pf_C82_normalised k w num ms n n Ks a ws Hs Hd (or_introl Hne) HF HD Ha Hl) as (_ & w' & b & H & M & _).
    { rewrite Rabs_right by lra. exact Hnw. }
    exists w', b. split; [exact H|]. refine (Q _ b _ M). apply Forall_forall. intros r Hr.
    apply in_map_iff in Hr. destruct Hr as (r' & <- & Hr). rewrite Forall_forall in Hw. apply Hw in Hr.
    apply Rmult_le_pos; [exact Hr|]. left. apply Rinv_0_lt_compat. lra.
  - destruct (pf_C82_sum k w num ms n n Ks a ws Hs Hd (or_introl Hne) HF HD Ha Hl) as (w' & b & H & M & _).
    exists w', b. split; [exact H|]. exact (Q ws b Hw M).
Qed.

(** C82: on one sample it is what SumKernel computes with the same weights. *)
Lemma pf_C82_sum_kernel :
  forall {E U} C numeric k (w0 : world E xr U) c ops num ms n ms0 Ks a ws,
    comp_new NewSum (Some k) w0 = Ok c -> set_is w0 k (NSOne n) ms0 ->
    let s := crun C numeric ops (w0, c) in
    set_is (fst s) k num ms -> num = NSOne n -> ms <> [] ->
    fulls (fst s) ms Ks -> Forall (is_square n) Ks -> is_vector a ws -> length ws = length ms ->
    exists w' b, linear_combination_set k a false (fst s) = (w', Ok (LMatrix b)) /\
      fits C numeric (Some a) s (fun b' => has_dims n n b' /\
        forall i j, i < n -> j < n -> xget (amat b') i j = xget (amat b) i j).
Proof.
  intros E U C numeric k w0 c ops num ms n ms0 Ks a ws Hc H0 s Hs Hn Hne HF HK Ha Hl.
  destruct (pf_C82_sum k (fst s) num ms n n Ks a ws Hs (or_introl (conj Hn eq_refl)) (or_introl Hne) HF
              (squares_dims n Ks HK) Ha Hl) as (w' & b & H & M & _).
  exists w', b. split; [exact H|].
  destruct (pf_C36_sum_weights C numeric k w0 c ops num ms n ms0 Ks a ws Hc H0 Hs HF HK Ha Hl)
    as (b' & (S' & _ & E') & F').
  exists b'. split; [|exact F']. split; [exact S'|]. intros i j Hi Hj. destruct M as [_ M].
  rewrite M, E' by assumption. reflexivity.
Qed.

Lemma attached_full : forall {U} n m d x y (w : world xr xr U) l k, admissible x y n m d ->
  attached_to n m d x y w l k ->
  snd (obj_full xN l w) = Ok (mkArr Dense (kernel_matrix k n m d x y)).
Proof.
  intros U n m d x y w l k Hadm (K & pre & post & Hl & Hnr & Hf & Hna & Hfs & Hwi).
  assert (H := pf_C04_full_partial xN K k pre post x y n m d Hnr Hf Hadm Hna Hfs Hwi).
  rewrite obj_full_eq, Hl. cbn [snd]. unfold outcome in H. cbn [step] in H. rewrite outcome_fmap in H.
  destruct (snd (full xN _)) as [b|e]; [|discriminate].
  cbn [res_map] in H. injection H as ->. reflexivity.
Qed.

(** C82, end to end, also for two samples (train x test), where composites fail (C36_two_samples):
    if the members are KernelMatrix objects attached to the same samples, with kernels that do not raise
    and arbitrary histories of accesses, the entries are weighted sums of kernel values. *)
Lemma pf_C82_kernels :
  forall {U} k (w : world xr xr U) num ms n m d x y ks a ws,
    set_is w k num ms -> dims_of num n m -> ms <> [] -> admissible x y n m d ->
    Forall2 (attached_to n m d x y w) ms ks -> is_vector a ws -> length ws = length ms ->
    exists w' b, linear_combination_set k a false w = (w', Ok (LMatrix b)) /\
      is_matrix2 n m (fun i j =>
        xsum (map (fun p => xmul (Fin (fst p)) (entry (snd p) d x y i j)) (combine ws ks))) b /\
      undisturbed w w'.
Proof.
  intros U k w num ms n m d x y ks a ws Hs Hd Hne Hadm HM Ha Hl.
  set (Ks := map (fun k => mkArr Dense (kernel_matrix k n m d x y)) ks).
  assert (HF : fulls w ms Ks).
  { unfold Ks. clear - HM Hadm. induction HM as [|l k0 ms ks Hm H IH]; constructor; [|exact IH].
    apply attached_full; assumption. }
  assert (HD : Forall (has_dims n m) Ks).
  { apply Forall_forall. intros K HK. apply in_map_iff in HK. destruct HK as (k0 & <- & _). split; reflexivity. }
  destruct (pf_C82_sum k w num ms n m Ks a ws Hs Hd (or_introl Hne) HF HD Ha Hl) as (w' & b & H & [D M] & Hu & _).
  exists w', b. split; [exact H|]. split; [|exact Hu]. split; [exact D|]. intros i j Hi Hj.
  rewrite M by assumption. unfold sum_entry, Ks. f_equal. clear - Hi Hj. revert ks.
  induction ws as [|r ws IH]; intros [|k ks]; try reflexivity. cbn [map combine fst snd]. f_equal; [|apply IH].
  cbn [amat]. unfold xget, kernel_matrix. rewrite mget_tabulate by assumption. reflexivity.
Qed.

(*BEGIN PROP*)
(** Two KernelMatrix objects attached to [[1], [2]] and [[3]] (two samples), in a KernelSet: the
    hypotheses of C82_kernels hold. *)
Definition y3 : ndarray xr := mkNd [1; 1] [Fin 3].
Definition w_pair : world xr xr unit :=
  wrun xN xC numx
    [WNewKM lin false; WNewKM lin false; WObj 0 (OpAttach x12 (Some y3));
     WObj 1 (OpAttach x12 (Some y3)); WSetNew (KLIter [ARef 0; ARef 1]) None] w_empty.
Example C82_example :
  set_is w_pair 0 (NSTwo 2 1) [0; 1] /\ admissible x12 (Some y3) 2 1 1 /\
  attached_to 2 1 1 x12 (Some y3) w_pair 0 xdot /\ is_vector ones2 [1; 1]%R /\
  (1/100000000 < Rabs (total [1; 1]))%R.
Proof.
  split; [eexists; eexists; calc; reflexivity|]. split.
  { split; [exact (proj1 x12_ok)|]. exists []. split; [reflexivity|constructor]. }
  split.
  { exists lin, [], []. split; [calc; reflexivity|]. split; [apply linear_total; reflexivity|].
    split; [reflexivity|]. split; [reflexivity|]. split; [intros []|intros ix []]. }
  split.
  { split; [reflexivity|]. exists []. split; [reflexivity|constructor]. }
  cbn. rewrite Rabs_right; lra.
Qed.

(** A kernel matrix added to a set before it was attached, then attached and asked for its sparse form:
    the set has no num_samples, [full] is sparse, the hypotheses of C82_format hold and the combination
    is sparse. *)
Definition w_late : world xr xr unit :=
  wrun xN xC numx
    [WNewKM lin false; WSetNew (KLIter [ARef 0]) None; WObj 0 (OpAttach x12 None);
     WObj 0 OpFullSparse] w_empty.
Example C82_format_example :
  set_is w_late 0 NSNone [0] /\
  exists K w' b, fulls w_late [0] [K] /\ afmt K = Lil /\ is_vector (mkNd [1] [Fin 1]) [1%R] /\
    linear_combination_set 0 (mkNd [1] [Fin 1]) false w_late = (w', Ok (LMatrix b)) /\ afmt b = Lil.
Proof.
  split; [eexists; eexists; calc; reflexivity|].
  do 3 eexists. split; [constructor; [calc; reflexivity|constructor]|].
  split; [reflexivity|]. split; [split; [reflexivity|]; exists []; split; [reflexivity|constructor]|].
  split; [calc; destruct (Req_EM_T 0 0) as [_|N]; [reflexivity|contradiction]|reflexivity].
Qed.
(*END PROP*)

(** C82 fails for the empty set: the combination of no matrices on 2 samples is a vector of length 2, and
    without num_samples a number, not the zero matrix. *)
Lemma pf_C82_empty_refuted :
  exists (w : world xr xr unit) k k' a,
    w = wrun xN xC numx [WSetNew KLNone (Some 2); WSetNew KLNone None] w_empty /\
    set_is w k (NSOne 2) [] /\ set_is w k' NSNone [] /\ is_vector a [] /\
    snd (linear_combination_set k a false w) = Ok (LVector [Fin 0; Fin 0]) /\
    snd (linear_combination_set k' a false w) = Ok (LScalar (Fin 0)).
Proof.
  eexists. exists 0, 1, (mkNd [0] []). split; [reflexivity|].
  split; [eexists; eexists; calc; reflexivity|]. split; [eexists; eexists; calc; reflexivity|].
  split; [split; [reflexivity|exists []; split; [reflexivity|constructor]]|].
  split; calc; reflexivity.
Qed.

(** C82 fails if a member is attached to another sample behind the back of the set: the zeros of the
    old size stretch its matrix. Here the only member has the 1 x 1 matrix of [[3]], and the
    combination with weight 1 is a 1 x 2 matrix. *)
Lemma pf_C82_stale_refuted :
  exists (w : world xr xr unit) k l a K b,
    w = wrun xN xC numx [WNewKM lin false; WObj 0 (OpAttach x12 None);
                         WSetNew (KLIter [ARef 0]) None; WObj 0 (OpAttach y3 None)] w_empty /\
    set_is w k (NSOne 2) [l] /\ is_vector a [1%R] /\ snd (obj_full xN l w) = Ok K /\
    has_dims 1 1 K /\ snd (linear_combination_set k a false w) = Ok (LMatrix b) /\ has_dims 1 2 b.
Proof.
  eexists. exists 0, 0, (mkNd [1] [Fin 1]). eexists. eexists. split; [reflexivity|].
  split; [eexists; eexists; calc; reflexivity|].
  split; [split; [reflexivity|exists []; split; [reflexivity|constructor]]|].
  split; [calc; reflexivity|]. split; [split; reflexivity|].
  split; [calc; reflexivity|]. split; reflexivity.
Qed.
