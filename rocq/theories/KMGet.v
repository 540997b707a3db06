(** Index access on an attached KernelMatrix. *)
From Coq Require Import String List Arith ZArith Bool Lia.
Import ListNotations.
From Verif Require Import Prelude MatModel MatFacts UtilsModel IndexModel KMModel SpecKM MFacts
  KMFacts KMInv KMOps KMIndex KMTotal.

Lemma reshape_product : forall {V} (f : nat -> nat -> V) rows cols,
  reshape (length rows) (length cols) (map (fun p => f (fst p) (snd p)) (product rows cols))
  = map (fun i => map (fun j => f i j) cols) rows.
Proof.
  intros V f rows cols. induction rows as [|r rows IH]; [reflexivity|].
  cbn [length reshape map]. unfold product. cbn [flat_map].
  fold (product rows cols). rewrite map_app, map_map. cbn [fst snd].
  assert (Hl : length cols = length (map (fun x : nat => f r x) cols))
    by (symmetry; apply map_length).
  f_equal.
  - rewrite Hl, firstn_app, Nat.sub_diag, firstn_all. cbn [firstn]. apply app_nil_r.
  - rewrite <- IH. f_equal. rewrite Hl at 1. rewrite skipn_app, Nat.sub_diag, skipn_all.
    reflexivity.
Qed.

Lemma in_product : forall (rows cols : list nat) i j,
  In (i, j) (product rows cols) <-> In i rows /\ In j cols.
Proof.
  intros rows cols i j. unfold product. rewrite in_flat_map. split.
  - intros (a & Ha & H). apply in_map_iff in H. destruct H as (b & Hb & Hin).
    inversion Hb; subst. auto.
  - intros [Hi Hj]. exists i. split; [exact Hi|]. apply in_map_iff. eauto.
Qed.

Lemma selection_range : forall n ix l, valid1 n ix -> selection n ix l ->
  forall i, In i l -> i < n.
Proof.
  intros n ix l (_ & _ & Hr) [_ Hs] i Hi. apply Hs, Hr in Hi. lia.
Qed.

Lemma selection_whole : forall n ix l, valid1 n ix -> selection n ix l ->
  (length l =? n = true <-> l = seq 0 n).
Proof.
  intros n ix l Hv Hs. rewrite Nat.eqb_eq. split.
  - intros Hl. apply ss_full; [apply Hs|eapply selection_range; eassumption|exact Hl].
  - intros ->. apply seq_length.
Qed.

(** Resolution of a pair of index expressions. *)
Definition resolve (n m : nat) (ix : idx) : res (list nat * list nat) :=
  match ix with
  | IInvalid => Raise KMAccessError
  | IPair a b =>
      rbind (get_indices_in_sample (Some n) a) (fun r =>
      rbind (get_indices_in_sample (Some m) b) (fun c => Ok (fst r, fst c)))
  | IFlat k =>
      rbind (unravel_index k n m) (fun p =>
      rbind (get_indices_in_sample (Some n) (IInt (fst p))) (fun r =>
      rbind (get_indices_in_sample (Some m) (IInt (snd p))) (fun c => Ok (fst r, fst c))))
  end.

Lemma valid_bound : forall i j n m, i < n -> j < m -> i * m + j < n * m.
Proof. intros. nia. Qed.

Lemma unravel_ok : forall i j n m, i < n -> j < m ->
  unravel_index (Z.of_nat (i * m + j)) n m = Ok (Z.of_nat i, Z.of_nat j).
Proof.
  intros i j n m Hi Hj. unfold unravel_index.
  assert (H := valid_bound i j n m Hi Hj).
  assert (Hb : ((Z.of_nat (i * m + j) <? 0) || (Z.of_nat (n * m) <=? Z.of_nat (i * m + j)))%Z
               = false)
    by (apply orb_false_iff; split; [apply Z.ltb_ge|apply Z.leb_gt]; lia).
  rewrite Hb. f_equal. rewrite <- Nat2Z.inj_div, <- Nat2Z.inj_mod by lia.
  rewrite Nat.div_add_l by lia. rewrite Nat.div_small by lia.
  rewrite (Nat.add_comm (i * m) j), Nat.mod_add by lia. rewrite Nat.mod_small by lia.
  rewrite Nat.add_0_r. reflexivity.
Qed.

Lemma flat_split : forall (k : Z) n m, (0 <= k < Z.of_nat (n * m))%Z ->
  exists i j, i < n /\ j < m /\ k = Z.of_nat (i * m + j).
Proof.
  intros k n m Hk. exists (Z.to_nat k / m), (Z.to_nat k mod m).
  assert (Hm : m <> 0) by nia. assert (Hz : Z.to_nat k < n * m) by lia.
  split; [apply Nat.div_lt_upper_bound; nia|].
  split; [apply Nat.mod_upper_bound; exact Hm|].
  rewrite Nat.mul_comm, <- Nat.div_mod by exact Hm. lia.
Qed.

(** Valid indices resolve to the selection; the others raise. *)
Theorem resolve_valid : forall n m ix, valid n m ix ->
  exists rows cols, resolve n m ix = Ok (rows, cols) /\ selection2 n m ix rows cols /\
    (forall i, In i rows -> i < n) /\ (forall j, In j cols -> j < m) /\
    rows <> [] /\ cols <> [].
Proof.
  intros n m [a b|k|] Hv; cbn [valid resolve selection2] in *.
  - destruct Hv as [Ha Hb].
    destruct (get_indices_valid n a Ha) as (r & -> & H1 & H2 & H3).
    destruct (get_indices_valid m b Hb) as (c & -> & H4 & H5 & H6).
    exists r, c. cbn. auto 10.
  - destruct (flat_split k n m Hv) as (i & j & Hi & Hj & ->).
    rewrite unravel_ok by assumption. cbn [rbind fst snd].
    destruct (get_indices_valid n (IInt (Z.of_nat i)) (proj2 (valid1_int n i) Hi))
      as (r & -> & H1 & H2 & H3).
    destruct (get_indices_valid m (IInt (Z.of_nat j)) (proj2 (valid1_int m j) Hj))
      as (c & -> & H4 & H5 & H6).
    exists r, c. cbn. split; [reflexivity|]. split; [|auto].
    exists i, j. repeat split; auto.
    + eapply selection_unique; [exact H1|apply selection_int].
    + eapply selection_unique; [exact H4|apply selection_int].
  - destruct Hv.
Qed.

Lemma valid1_dec_aux : forall n ix r, get_indices_in_sample (Some n) ix = Ok r -> valid1 n ix.
Proof.
  intros n ix r H. rewrite get_indices_expansion in H.
  destruct (expansion_spec n ix) as [(elts & He & Hden & Hnon & Hform)|[(e & He & _)|[He _]]];
    rewrite He in H; cbn [rbind] in H; try discriminate.
  destruct (int_elts_spec elts) as [(zs & Hi & Hno & Hin)|[Hi Hbad]];
    rewrite Hi in H; cbn [rbind] in H; try discriminate.
  destruct zs as [|z zs]; [discriminate|].
  destruct (existsb (fun z0 => (Z.of_nat n <=? z0)%Z || (z0 <? 0)%Z) (z :: zs)) eqn:Hex;
    [discriminate|].
  assert (Hmem : forall w, In w (z :: zs) <-> denotes n ix w)
    by (intros w; rewrite Hin; apply Hden).
  split; [|split].
  - destruct ix; try exact I; try exact Hform. intros Hn. apply Hno, Hnon, Hn.
  - exists z. apply Hmem. left; reflexivity.
  - intros w Hw. apply Hmem in Hw.
    destruct ((Z.of_nat n <=? w)%Z || (w <? 0)%Z) eqn:Hb; [|lia].
    assert (Ht : existsb (fun z0 => (Z.of_nat n <=? z0)%Z || (z0 <? 0)%Z) (z :: zs) = true)
      by (apply existsb_exists; exists w; split; [exact Hw|exact Hb]).
    congruence.
Qed.

Lemma fits_64_spec : forall k, fits_64 k = true <-> (- 2 ^ 63 <= k < 2 ^ 64)%Z.
Proof. intros k. unfold fits_64. rewrite andb_true_iff, Z.leb_le, Z.ltb_lt. reflexivity. Qed.

Theorem resolve_invalid : forall n m ix, ~ valid n m ix ->
  exists e, resolve n m ix = Raise e /\ rejection n m ix e.
Proof.
  intros n m [a b|k|] Hv; cbn [valid resolve] in *.
  - destruct (get_indices_in_sample (Some n) a) as [ra|e] eqn:Ha; cbn [rbind].
    + destruct (get_indices_in_sample (Some m) b) as [rb|e] eqn:Hb; cbn [rbind].
      * destruct Hv. split; eapply valid1_dec_aux; eassumption.
      * destruct (get_indices_invalid m b) as (e' & He' & H).
        { intros Hvb. destruct (get_indices_valid m b Hvb) as (l & Hl & _). congruence. }
        rewrite He' in Hb. inversion Hb; subst e'. exists e. split; [reflexivity|].
        right. split; [eapply valid1_dec_aux; eassumption|]. split; [|exact H].
        intros Hvb. destruct (get_indices_valid m b Hvb) as (l & Hl & _). congruence.
    + destruct (get_indices_invalid n a) as (e' & He' & H).
      { intros Hva. destruct (get_indices_valid n a Hva) as (l & Hl & _). congruence. }
      rewrite He' in Ha. inversion Ha; subst e'. exists e. split; [reflexivity|].
      left. split; [|exact H].
      intros Hva. destruct (get_indices_valid n a Hva) as (l & Hl & _). congruence.
  - unfold unravel_index.
    destruct ((k <? 0)%Z || (Z.of_nat (n * m) <=? k)%Z) eqn:Hk; cbn [rbind].
    { eexists. split; [reflexivity|]. cbn [rejection]. rewrite <- fits_64_spec.
      destruct (fits_64 k); [left|right]; split; congruence. }
    destruct Hv. apply orb_false_iff in Hk. destruct Hk as [H1 H2].
    apply Z.ltb_ge in H1. apply Z.leb_gt in H2. split; assumption.
  - exists KMAccessError. split; reflexivity.
Qed.

Theorem resolve_flat_invalid : forall n m k, ~ valid n m (IFlat k) ->
  resolve n m (IFlat k) = Raise (if fits_64 k then ValueError else TypeError).
Proof.
  intros n m k Hv. cbn [valid resolve] in *. unfold unravel_index.
  destruct ((k <? 0)%Z || (Z.of_nat (n * m) <=? k)%Z) eqn:Hk; cbn [rbind]; [reflexivity|].
  destruct Hv. apply orb_false_iff in Hk. destruct Hk as [H1 H2].
  apply Z.ltb_ge in H1. apply Z.leb_gt in H2. split; assumption.
Qed.

(** [getitem] in terms of [resolve]. *)
Lemma getitem_resolve : forall {E V U} (N : numops V) (s : km E V U) n m ix,
  k_shape s = Some (n, m) ->
  getitem N ix s =
  match resolve n m ix with
  | Raise e => (s, Raise e)
  | Ok (rows, cols) =>
      if (length rows =? n) && (length cols =? m) then populate_fully N false true s
      else compute_for_index_combinations rows cols s
  end.
Proof.
  intros E V U N s n m ix Hs.
  assert (Hpair : forall a b, getitem_pair N a b s =
    match rbind (get_indices_in_sample (Some n) a) (fun r =>
          rbind (get_indices_in_sample (Some m) b) (fun c => Ok (fst r, fst c))) with
    | Raise e => (s, Raise e)
    | Ok (rows, cols) =>
        if (length rows =? n) && (length cols =? m) then populate_fully N false true s
        else compute_for_index_combinations rows cols s
    end).
  { intros a b. unfold getitem_pair, bind at 1, get. rewrite Hs. cbn [option_map fst snd].
    unfold bind, lift.
    destruct (get_indices_in_sample (Some n) a) as [[r ar]|e] eqn:Ha; cbn [rbind]; [|reflexivity].
    destruct (get_indices_in_sample (Some m) b) as [[c ac]|e] eqn:Hb; cbn [rbind]; [|reflexivity].
    cbn [fst snd].
    assert (Har : ar = (length r =? n)).
    { destruct (get_indices_valid n a (valid1_dec_aux _ _ _ Ha)) as (r' & Hr' & _).
      rewrite Hr' in Ha. inversion Ha. reflexivity. }
    assert (Hac : ac = (length c =? m)).
    { destruct (get_indices_valid m b (valid1_dec_aux _ _ _ Hb)) as (r' & Hr' & _).
      rewrite Hr' in Hb. inversion Hb. reflexivity. }
    subst ar ac. destruct ((length r =? n) && (length c =? m)); reflexivity. }
  destruct ix as [a b|k|]; cbn [getitem resolve].
  - apply Hpair.
  - unfold attr_or, bind at 1 2, get. rewrite Hs. cbn [ret fst snd].
    unfold ret, bind at 1, lift. destruct (unravel_index k n m) as [p|e]; cbn [rbind];
      [|reflexivity].
    apply Hpair.
  - reflexivity.
Qed.

Section Get.
  Context {E V U : Type}.
  Variable N : numops V.
  Variable K : kernel E V.
  Variable k : list E -> list E -> V.
  Variable nrm : bool.
  Variables (X Y : ndarray E) (two : bool) (n m d : nat).
  Variable base : list (call E).
  Hypothesis HX : nd_shape X = [n; d].
  Hypothesis HY : nd_shape Y = [m; d].
  Hypothesis Hone : two = false -> Y = X /\ m = n.
  Notation KM := (km E V U).
  Notation tv := (truev k X Y two d).
  Notation saneA := (@sane E V U N K k nrm X Y two n m d base).

  Lemma sub_whole : submatrix tv (seq 0 n) (seq 0 m) = KMat k X Y two n m d.
  Proof. unfold submatrix, KMat, tabulate. rewrite !seq_length. reflexivity. Qed.

  Lemma sane_shape : forall s : KM, saneA s -> k_shape s = Some (n, m).
  Proof. intros s Hs. destruct (sane_fixed N K k nrm X Y two n m d base s Hs); tauto. Qed.

  Lemma getitem_invalid : forall (s : KM) ix, saneA s -> ~ valid n m ix ->
    exists e, getitem N ix s = (s, Raise e) /\ rejection n m ix e.
  Proof.
    intros s ix Hs Hv. rewrite (getitem_resolve N s n m ix (sane_shape s Hs)).
    destruct (resolve_invalid n m ix Hv) as (e & -> & He). eauto.
  Qed.

  Lemma valid_or_not : forall ix, valid n m ix \/ ~ valid n m ix.
  Proof.
    intros ix. destruct (resolve n m ix) as [[r c]|e] eqn:Hr.
    - left. destruct ix as [a b|kk|]; cbn in *; try discriminate.
      + destruct (get_indices_in_sample (Some n) a) as [ra|] eqn:Ha; [|discriminate].
        destruct (get_indices_in_sample (Some m) b) as [rb|] eqn:Hb; [|discriminate].
        split; eapply valid1_dec_aux; eassumption.
      + unfold unravel_index in Hr.
        destruct ((kk <? 0)%Z || (Z.of_nat (n * m) <=? kk)%Z) eqn:Hk; [discriminate|].
        apply orb_false_iff in Hk. destruct Hk as [H1 H2].
        apply Z.ltb_ge in H1. apply Z.leb_gt in H2. split; assumption.
    - right. intros Hv. destruct (resolve_valid n m ix Hv) as (rows & cols & H & _). congruence.
  Qed.

  Lemma selection2_unique : forall ix r1 c1 r2 c2,
    selection2 n m ix r1 c1 -> selection2 n m ix r2 c2 -> r1 = r2 /\ c1 = c2.
  Proof.
    intros [a b|kk|] r1 c1 r2 c2 H1 H2; cbn in *.
    - destruct H1, H2. split; eapply selection_unique; eassumption.
    - destruct H1 as (i & j & Hi & Hj & -> & -> & ->).
      destruct H2 as (i' & j' & Hi' & Hj' & He & -> & ->).
      apply Nat2Z.inj in He.
      assert (i = i') by nia. subst i'. assert (j = j') by lia. subst. auto.
    - destruct H1.
  Qed.

  (** Access to a proper part, under a kernel that may raise. *)
  Lemma getitem_proper : returns_only K k X (Some Y) n m d -> forall (s : KM) ix rows cols, saneA s ->
    valid n m ix -> selection2 n m ix rows cols -> ~ whole n m rows cols ->
    holds (getitem N ix) s (fun s' r =>
      saneA s' /\ core s' = core s /\ k_full s' = k_full s /\
      ext 0 (fun p => exists i j, In i rows /\ In j cols /\ p = norm two (i, j)) s s' /\
      match r with
      | Ok a => a = mkArr Dense (submatrix tv rows cols)
      | Raise e => raised K X Y n m d e
      end).
  Proof.
    intros Hret s ix rows cols Hs Hv Hsel Hproper.
    destruct (resolve_valid n m ix Hv) as (r & c & Hr & Hsel' & HR & HC & _).
    destruct (selection2_unique ix _ _ _ _ Hsel Hsel') as [<- <-].
    unfold holds. rewrite (getitem_resolve N s n m ix (sane_shape s Hs)), Hr.
    assert (Hnot : (length rows =? n) && (length cols =? m) = false).
    { apply not_true_is_false. intros Ht. apply andb_true_iff in Ht. destruct Ht as [T1 T2].
      apply Hproper. destruct ix as [a b|kk|]; cbn in Hsel, Hv.
      - destruct Hsel, Hv. split; eapply selection_whole; eassumption.
      - destruct Hsel as (i & j & Hi & Hj & _ & -> & ->). 
        apply Nat.eqb_eq in T1, T2. cbn [length] in T1, T2.
        split; [rewrite <- T1|rewrite <- T2]; cbn; f_equal; lia.
      - destruct Hsel. }
    rewrite Hnot.
    assert (Hrange : forall p, In p (product rows cols) -> fst p < n /\ snd p < m).
    { intros [i j] Hp. apply in_product in Hp. destruct Hp. cbn. auto. }
    assert (H := eval_list_holds N K k nrm X Y two n m d base Hret HX HY Hone
                   (product rows cols) s Hs Hrange).
    change (holds (compute_for_index_combinations rows cols) s (fun s' r =>
      saneA s' /\ core s' = core s /\ k_full s' = k_full s /\
      ext 0 (fun p => exists i j, In i rows /\ In j cols /\ p = norm two (i, j)) s s' /\
      match r with
      | Ok a => a = mkArr Dense (submatrix tv rows cols)
      | Raise e => raised K X Y n m d e
      end)).
    unfold compute_for_index_combinations. apply holds_bind.
    eapply holds_conseq; [exact H|].
    intros s' r (H1 & H2 & H3 & H4 & H5).
    assert (He : ext 0 (fun p => exists i j, In i rows /\ In j cols /\ p = norm two (i, j)) s s').
    { eapply ext_weaken; [|exact H4]. cbv beta. intros p ([i j] & Hin & ->).
      apply in_product in Hin. destruct Hin. exists i, j. auto. }
    destruct r as [vs|e].
    - apply holds_ret. destruct H5 as [-> _].
      split; [exact H1|]. split; [exact H2|]. split; [exact H3|]. split; [exact He|].
      unfold submatrix. rewrite (reshape_product tv). reflexivity.
    - auto 10.
  Qed.

  (** Access to the whole matrix. *)
  Lemma getitem_whole : forall (s : KM) ix, saneA s -> valid n m ix ->
    selection2 n m ix (seq 0 n) (seq 0 m) -> getitem N ix s = populate_fully N false true s.
  Proof.
    intros s ix Hs Hv Hsel.
    destruct (resolve_valid n m ix Hv) as (r & c & Hr & Hsel' & HR & HC & _).
    destruct (selection2_unique ix _ _ _ _ Hsel Hsel') as [<- <-].
    rewrite (getitem_resolve N s n m ix (sane_shape s Hs)), Hr, !seq_length, !Nat.eqb_refl.
    reflexivity.
  Qed.
End Get.

(** ** Kernels that never raise: the state after any permitted operation *)
Section Step.
  Context {E V U : Type}.
  Variable N : numops V.
  Variable K : kernel E V.
  Variable k : list E -> list E -> V.
  Variable nrm : bool.
  Variables (X Y : ndarray E) (two : bool) (n m d : nat).
  Variable base : list (call E).
  Hypothesis Hnr : never_raises K k X (Some Y) n m d.
  Hypothesis HX : nd_shape X = [n; d].
  Hypothesis HY : nd_shape Y = [m; d].
  Hypothesis Hone : two = false -> Y = X /\ m = n.
  Variables (spi sps : bool).
  Notation KM := (km E V U).
  Notation tv := (truev k X Y two d).
  Notation goodA := (@good E V U N K k nrm X Y two n m d base spi sps).
  Notation candA := (@cand E V N k nrm X Y two n m d spi sps).

  (** Operations a history may contain under the given permissions. *)
  Definition permitted (o : op E U) : Prop :=
    match o with
    | OpAttach _ _ => False
    | OpFullSparse => nrm = false -> sps = true
    | OpGetItem ix => selection2 n m ix (seq 0 n) (seq 0 m) -> spi = true
    | _ => True
    end.

  Lemma getitem_total : forall (s : KM) ix rows cols, goodA s ->
    permitted (OpGetItem ix) -> valid n m ix -> selection2 n m ix rows cols ->
    holds (getitem N ix) s (fun s' r => goodA s' /\
      exists a, amat a = submatrix tv rows cols /\ (~ whole n m rows cols -> afmt a = Dense) /\
        (r = Ok a \/ (whole n m rows cols /\ r = Raise TypeError /\ kfmt K = false /\
                      contains_nan_inf N a = true))).
  Proof.
    intros s ix rows cols Hg Hp Hv Hsel.
    assert (Hdec : whole n m rows cols \/ ~ whole n m rows cols).
    { unfold whole. destruct (list_eq_dec Nat.eq_dec rows (seq 0 n)),
        (list_eq_dec Nat.eq_dec cols (seq 0 m)); tauto. }
    destruct Hdec as [Hw|Hw].
    - assert (Hw' := Hw). destruct Hw' as [-> ->].
      unfold holds.
      rewrite (getitem_whole N K k nrm X Y two n m d base Hone s ix (gd_sane _ _ _ _ _ _ _ _ _ _ _ _ _ s Hg) Hv Hsel).
      assert (H := pop_total N K k nrm X Y two n m d base Hnr HX HY Hone spi sps false true s Hg).
      unfold holds in H.
      destruct H as (Hg' & _ & _ & a & Ha & Hca & HM & _ & Hr).
      + discriminate.
      + discriminate.
      + intros _. rewrite (Hp Hsel). reflexivity.
      + split; [exact Hg'|]. exists a.
        split; [rewrite (HM eq_refl); symmetry; apply sub_whole|].
        split; [tauto|]. destruct Hr as [Hr|(Hr & H1 & H2)]; auto 10.
    - eapply holds_conseq;
        [apply (getitem_proper N K k nrm X Y two n m d base HX HY Hone (Hret' K k X Y n m d Hnr) s ix rows cols
                  (gd_sane _ _ _ _ _ _ _ _ _ _ _ _ _ s Hg) Hv Hsel Hw)|].
      intros s' r (H1 & H2 & H3 & _ & H5).
      split; [apply (good_same N K k nrm X Y two n m d base spi sps s); assumption|].
      destruct r as [a|e]; [|destruct (not_raised K k X Y n m d Hnr e H5)].
      exists a. subst a. cbn. auto.
  Qed.

  Theorem good_step : forall o (s : KM), permitted o -> goodA s -> goodA (fst (step N o s)).
  Proof.
    assert (Hf : forall {A B} (f : A -> B) (mm : M KM A) s,
              goodA (fst (mm s)) -> goodA (fst (fmap f mm s))).
    { intros A B f mm s H. unfold fmap, bind, ret. destruct (mm s) as [s' [a|e]]; exact H. }
    intros o s Hp Hg. destruct o; unfold step; try (apply Hf).
    - destruct Hp.
    - apply (full_total N K k nrm X Y two n m d base Hnr HX HY Hone spi sps s Hg).
    - apply (full_sparse_total N K k nrm X Y two n m d base Hnr HX HY Hone spi sps s Hg Hp).
    - destruct (Bool.bool_dec two true) as [Htwo|Htwo].
      + destruct (center_two N K k nrm X Y two n m d base spi sps s Hg Htwo) as [-> _].
        exact Hg.
      + apply not_true_is_false in Htwo.
        apply (center_total N K k nrm X Y two n m d base Hnr HX HY Hone spi sps s Hg Htwo).
    - destruct (Bool.bool_dec two true) as [Htwo|Htwo].
      + destruct (center_two N K k nrm X Y two n m d base spi sps s Hg Htwo) as [_ ->].
        exact Hg.
      + apply not_true_is_false in Htwo.
        apply (centered_total N K k nrm X Y two n m d base Hnr HX HY Hone spi sps s Hg Htwo).
    - apply (normalize_total N K k nrm X Y two n m d base Hnr HX HY Hone spi sps method s Hg).
    - apply (normed_km_total N K k nrm X Y two n m d base Hnr HX HY Hone spi sps s Hg).
    - apply (frob_total N K k nrm X Y two n m d base Hnr HX HY Hone spi sps s Hg).
    - apply (diagonal_total N K k nrm X Y two n m d base Hnr HX HY Hone spi sps s Hg).
    - destruct (valid_or_not n m ix) as [Hv|Hv].
      + destruct (resolve_valid n m ix Hv) as (rows & cols & _ & Hsel & _).
        apply (getitem_total s ix rows cols Hg Hp Hv Hsel).
      + destruct (getitem_invalid N K k nrm X Y two n m d base s ix
                    (gd_sane _ _ _ _ _ _ _ _ _ _ _ _ _ s Hg) Hv)
          as (e & -> & _). exact Hg.
    - apply good_set_attrs. exact Hg.
    - exact Hg.
    - exact Hg.
    - unfold size, bind, attr_or, bind, get, ret, raise.
      destruct (k_two s) as [[]|]; cbn; [| |exact Hg]; destruct (k_num_samples s); exact Hg.
    - unfold attr_or, bind, get, ret, raise. destruct (k_shape s); exact Hg.
    - exact Hg.
  Qed.

  Theorem good_run : forall ops (s : KM), (forall o, In o ops -> permitted o) -> goodA s ->
    goodA (run N ops s).
  Proof.
    induction ops as [|o ops IH]; intros s Hp Hg; [exact Hg|]. cbn [run]. apply IH.
    - intros o' Ho'. apply Hp. right; exact Ho'.
    - apply good_step; [apply Hp; left; reflexivity|exact Hg].
  Qed.
End Step.
