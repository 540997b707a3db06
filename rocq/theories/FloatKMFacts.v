(** Facts about KernelMatrix in double precision. *)
From Coq Require Import String ZArith Bool List Permutation Lia Lra Reals Floats.SpecFloat Arith.
Import ListNotations.
From Verif Require Import Prelude MatModel UtilsModel KMModel SpecKM KernelsModel FloatModel FloatOpsModel SpecFloats SpecFloatVal
  SpecLinAlg SpecFloatErr SpecFloatOps FloatKMModel SpecFloatKM.
From Verif Require Import MatFacts MFacts KMFacts KMInv KMOps KMHist KMHist2 KMTotal KMProps.
From Verif Require Import FloatProps FloatNormProps FloatRound FloatErrProps FloatAny FloatSum FloatDiv FloatDotProps FloatOpsFacts.
Local Open Scope nat_scope.

(** With normalized=True: the result is the normalisation of the kernel matrix in one of two storage
    formats. *)
Lemma normalised_formats :
  forall {E V U} (N : numops V) (K : kernel E V) k (pre post : list (op E U)) x y n m d o,
    (forall meth a nk, op_normalize N meth a = Ok nk -> op_normalize N default_method a = Ok nk) ->
    never_raises K k x y n m d -> kfmt K = true -> admissible x y n m d -> no_attach post ->
    (o = OpFull \/ o = OpFullSparse \/ o = OpNormedKM) ->
    exists f, (f = Dense \/ f = Lil) /\
    outcome N o (after N K true pre x y post)
    = res_map OArr
        (let A := mkArr f (kernel_matrix k n m d x y) in
         match y with
         | None => op_normalize N default_method A
         | Some y' => op_normalize2 N A
             (map (fun i => k (row_of d x i) (row_of d x i)) (seq 0 n))
             (map (fun j => k (row_of d y' j) (row_of d y' j)) (seq 0 m))
         end).
Proof.
  intros E V U N K k pre post x y n m d o Hmeth Hnr Hfmt Hadm Hno Ho.
  assert (Hg := S1_good N K k true pre post x y n m d Hadm Hno true true Hnr
                  (fun _ H => tf H) (fun H => tf H)).
  set (s := after N K true pre x y post) in *.
  destruct (sane_fixed _ _ _ _ _ _ _ _ _ _ _ _ (gs Hg)) as (_ & Hk & _).
  assert (Hr : exists r, outcome N o s = res_map OArr r /\
     normed_result N K k true (stored n d x) (stored2 n m d x y) (is_some y) n m d true true r).
  { assert (Hfs : full_sparse N s = normed_km N s).
    { unfold full_sparse, normed_km, bind, get. rewrite Hk. reflexivity. }
    assert (Hnk := normed_km_total N K k true (stored n d x) (stored2 n m d x y) (is_some y) n m d _ (nr_stored K k x y n m d Hadm Hnr) eq_refl
                 (stored2_shape x y n m d Hadm) (stored2_one x y n m d Hadm) true true _ Hg).
    destruct Ho as [Ho|[Ho|Ho]]; subst o; unfold outcome, step; rewrite outcome_fmap.
    - exists (snd (full N s)). split; [reflexivity|].
      assert (H := full_total N K k true (stored n d x) (stored2 n m d x y) (is_some y) n m d _ (nr_stored K k x y n m d Hadm Hnr) eq_refl
                 (stored2_shape x y n m d Hadm) (stored2_one x y n m d Hadm) true true _ Hg).
      unfold holds in H. destruct H as (_ & _ & H & _). exact (H eq_refl).
    - rewrite Hfs. eexists. split; [reflexivity|]. apply Hnk.
    - eexists. split; [reflexivity|]. apply Hnk. }
  destruct Hr as (r & -> & a & meth & Hc & Hr).
  exists (afmt a).
  split; [destruct Hc as [[H _]|[(_ & H & _)|(_ & H & _)]]; [auto|auto|discriminate]|]. f_equal.
  assert (HA : a = mkArr (afmt a) (kernel_matrix k n m d x y)).
  { destruct a as [f A]. cbn [afmt amat] in *. f_equal.
    rewrite <- (KMat_spec k x y n m d). destruct Hc as [[_ H]|[(_ & _ & H)|(_ & H & _)]];
      [exact H|exact H|discriminate]. }
  assert (Hgoal : normF N k (stored n d x) (stored2 n m d x y) (is_some y) n m d default_method a =
     match y with
         | None => op_normalize N default_method (mkArr (afmt a) (kernel_matrix k n m d x y))
         | Some y' => op_normalize2 N (mkArr (afmt a) (kernel_matrix k n m d x y))
             (map (fun i => k (row_of d x i) (row_of d x i)) (seq 0 n))
             (map (fun j => k (row_of d y' j) (row_of d y' j)) (seq 0 m))
         end).
  { rewrite <- HA. unfold normF. destruct y; reflexivity. }
  cbv zeta. rewrite <- Hgoal.
  destruct Hr as [(nk & -> & Hn)|[[_ H]|(e & -> & Hn)]]; [|congruence|].
  - symmetry. unfold normF in *. destruct (is_some y); [exact Hn|].
    apply (Hmeth meth). exact Hn.
  - symmetry. exact Hn.
Qed.

Lemma fN_method : forall e meth a nk,
  op_normalize (fN e) meth a = Ok nk -> op_normalize (fN e) default_method a = Ok nk.
Proof.
  intros e meth a nk. cbn [fN op_normalize]. unfold fnormalize_km.
  destruct (negb (mr (amat a) =? mc (amat a))); [discriminate|].
  change (String.eqb (lower default_method) "cosine") with true.
  destruct (String.eqb (lower meth) "cosine"); [auto|discriminate].
Qed.

(** ** Sums with one term *)
Lemma acc_one_in : forall e (ks : list nat) (f : nat -> f64) i, decent e -> NoDup ks -> In i ks ->
  f_finite (f i) = true -> (forall k, In k ks -> k <> i -> f_iszero (f k) = true) ->
  f_same (e_acc e (map f ks)) (f i).
Proof.
  intros e ks f i He Hd Hi Hf Hz. apply in_split in Hi. destruct Hi as (l1 & l2 & ->).
  assert (Hni : ~ In i (l1 ++ l2)) by (apply NoDup_remove_2; exact Hd).
  assert (Hz' : forall k, In k (l1 ++ l2) -> f_iszero (f k) = true).
  { intros k Hk. apply Hz; [|intros ->; contradiction]. apply in_app_or in Hk. apply in_or_app. cbn. tauto. }
  destruct (f_iszero (f i)) eqn:H0.
  - right. split; [|exact H0]. apply (adds_zeros _ _ (d_acc e He _)). apply forallb_forall. intros v Hv.
    apply in_map_iff in Hv. destruct Hv as (k & <- & Hk). destruct (Nat.eq_dec k i) as [->|Hk']; [exact H0|].
    apply Hz; assumption.
  - left. apply (adds_single (f i) _ _ Hf H0 (d_acc e He _) (map f (l1 ++ l2))).
    + rewrite map_app, (map_app f l1 l2). cbn [map]. apply Permutation_sym, Permutation_middle.
    + apply forallb_forall. intros v Hv. apply in_map_iff in Hv. destruct Hv as (k & <- & Hk). apply Hz'. exact Hk.
Qed.

Lemma acc_zero_in : forall e (ks : list nat) (f : nat -> f64), decent e ->
  (forall k, In k ks -> f_iszero (f k) = true) -> f_iszero (e_acc e (map f ks)) = true.
Proof.
  intros e ks f He Hz. apply (adds_zeros _ _ (d_acc e He _)). apply forallb_forall. intros v Hv.
  apply in_map_iff in Hv. destruct Hv as (k & <- & Hk). apply Hz. exact Hk.
Qed.

Lemma iszero_finite : forall x, f_iszero x = true -> f_finite x = true.
Proof. intros []; cbn; intros; try discriminate; reflexivity. Qed.

Lemma nth_map_seq : forall {A} (f : nat -> A) n i d, i < n -> nth i (map f (seq 0 n)) d = f i.
Proof.
  intros A f n i d Hi. rewrite (nth_indep _ d (f 0)) by (rewrite map_length, seq_length; exact Hi).
  rewrite map_nth, seq_nth by exact Hi. reflexivity.
Qed.

(** The products with the diagonal matrices have one term each. *)
Lemma scale_entry : forall e n m f (du dv : nat -> f64) (A : nat -> nat -> f64), decent e ->
  (forall i, i < n -> f_finite (du i) = true) ->
  (forall j, j < m -> f_finite (dv j) = true) ->
  (forall i j, i < n -> j < m -> f_finite (A i j) = true) ->
  (forall i j, i < n -> j < m -> f_finite (fmul (du i) (A i j)) = true) ->
  (forall i j, i < n -> j < m -> f_finite (fmul (fmul (du i) (A i j)) (dv j)) = true) ->
  exists B, fscale_both e (map du (seq 0 n)) (map dv (seq 0 m)) (mkArr f (tabulate n m A))
            = mkArr (match f with Lil => Dense | g => g end) (tabulate n m B) /\
    forall i j, i < n -> j < m -> f_same (B i j) (fmul (fmul (du i) (A i j)) (dv j)).
Proof.
  intros e n m f du dv A He Fu Fv FA Fp Fr.
  unfold fscale_both. cbn [afmt amat]. rewrite !map_length, !seq_length.
  match goal with |- exists B, mkArr _ (tabulate n m ?G) = _ /\ _ => exists G end.
  split; [destruct f; reflexivity|]. intros i j Hi Hj. cbv beta.
  set (ks := fun j => match f with
                | Lil => filter (fun k => fnonzero (fget (tabulate n m A) k j)) (seq 0 n)
                | _ => seq 0 n end).
  assert (HD : forall g N a b, a < N -> fdiag (map g (seq 0 N)) a b = if a =? b then g a else fzero).
  { intros g N a b Ha. unfold fdiag. rewrite nth_map_seq by exact Ha. reflexivity. }
  assert (HA : forall k l, k < n -> l < m -> fget (tabulate n m A) k l = A k l).
  { intros k l Hk Hl. unfold fget. apply mget_tabulate; assumption. }
  assert (Hks : forall l, NoDup (ks l) /\ forall k, In k (ks l) -> k < n).
  { intros l. unfold ks. destruct f; (split; [first [apply NoDup_filter|idtac]; apply seq_NoDup|]);
      intros k Hk; try (apply filter_In in Hk; destruct Hk as [Hk _]); apply in_seq in Hk; lia. }
  assert (Hin : forall l, l < m -> f_same (e_acc e (map (fun k => fmul (fdiag (map du (seq 0 n)) i k) (fget (tabulate n m A) k l)) (ks l)))
                                          (fmul (du i) (A i l))).
  { intros l Hl. destruct (Hks l) as [Hnd Hlt].
    assert (Ht : forall k, k < n -> fmul (fdiag (map du (seq 0 n)) i k) (fget (tabulate n m A) k l)
                           = fmul (if i =? k then du i else fzero) (A k l)).
    { intros k Hk. rewrite HD, HA by assumption. reflexivity. }
    assert (Hoff : forall k, In k (ks l) -> k <> i ->
              f_iszero (fmul (fdiag (map du (seq 0 n)) i k) (fget (tabulate n m A) k l)) = true).
    { intros k Hk Hki. rewrite Ht by (apply Hlt; exact Hk).
      destruct (Nat.eqb_spec i k) as [->|_]; [destruct Hki; reflexivity|].
      rewrite fmul_comm. apply fmul_zero; [apply FA; [apply Hlt; exact Hk|exact Hl]|reflexivity]. }
    destruct (in_dec Nat.eq_dec i (ks l)) as [Hik|Hik].
    - assert (Hg := acc_one_in e (ks l) (fun k => fmul (fdiag (map du (seq 0 n)) i k) (fget (tabulate n m A) k l)) i He Hnd Hik).
      cbv beta in Hg.
      rewrite (Ht i Hi), Nat.eqb_refl in Hg. apply Hg; [apply Fp; assumption|exact Hoff].
    - right. split.
      + apply acc_zero_in; [exact He|]. intros k Hk. apply Hoff; [exact Hk|]. intros ->. contradiction.
      + unfold ks in Hik. destruct f; try (destruct Hik; apply in_seq; lia).
        apply fmul_zero; [apply Fu; exact Hi|].
        destruct (f_iszero (A i l)) eqn:HZ; [reflexivity|]. destruct Hik. apply filter_In. split; [apply in_seq; lia|].
        rewrite HA by assumption. unfold fnonzero. unfold f_iszero in HZ. rewrite HZ. reflexivity. }
  set (left := fun l => e_acc e (map (fun k => fmul (fdiag (map du (seq 0 n)) i k) (fget (tabulate n m A) k l)) (ks l))) in *.
  change (f_same (e_acc e (map (fun k => fmul (left k) (fdiag (map dv (seq 0 m)) k j)) (seq 0 m)))
                 (fmul (fmul (du i) (A i j)) (dv j))).
  assert (Hfin : forall l, l < m -> f_finite (left l) = true).
  { intros l Hl. apply (f_same_finite _ _ (Hin l Hl)), Fp; assumption. }
  assert (Hmul : f_same (fmul (left j) (dv j)) (fmul (fmul (du i) (A i j)) (dv j))).
  { destruct (Hin j Hj) as [H|[Hz1 Hz2]]; [fold (left j) in H; rewrite H; left; reflexivity|]. fold (left j) in Hz1. right.
    split; rewrite fmul_comm; apply fmul_zero; auto. }
  apply (f_same_trans _ (fmul (left j) (dv j)) _); [|exact Hmul].
  assert (Hg := acc_one_in e (seq 0 m) (fun k => fmul (left k) (fdiag (map dv (seq 0 m)) k j)) j He (seq_NoDup m 0)
                  ltac:(apply in_seq; lia)). cbv beta in Hg.
  rewrite HD, Nat.eqb_refl in Hg by exact Hj. apply Hg.
  - apply (f_same_finite _ _ Hmul), Fr; assumption.
  - intros k Hk Hkj. apply in_seq in Hk. rewrite HD by lia. destruct (Nat.eqb_spec k j) as [->|_]; [destruct Hkj; reflexivity|].
    apply fmul_zero; [apply Hfin; lia|reflexivity].
Qed.

(** ** One entry, also when it underflows *)
Lemma canon_big_normal : forall x, canon x -> (bpow (-100) <= fval x)%R -> normal x.
Proof.
  intros [s|s| |s m e] C H; try contradiction.
  - cbn [fval] in H. assert (Hp := bpow_pos (-100)). lra.
  - destruct C as (D & E & Q). split; [|exact E]. destruct Q as [Q|Q]; [exact Q|exfalso]. subst e.
    assert (Hm : (IZR (Z.pos m) < bpow 53)%R).
    { rewrite bpow_IZR by lia. apply IZR_lt. assert (Hb := digits_bounds m).
      apply Z.lt_le_trans with (1 := proj2 Hb). apply Z.pow_le_mono_r; lia. }
    assert (Hm0 : (0 < IZR (Z.pos m))%R) by (apply IZR_lt; lia).
    assert (Hv : (fval (S754_finite s m (-1074)) < bpow (-100))%R).
    { rewrite fval_finite. apply Rle_lt_trans with (IZR (Z.pos m) * bpow (-1074))%R.
      - assert (Hp := bpow_pos (-1074)). assert (0 < IZR (Z.pos m) * bpow (-1074))%R by (apply Rmult_lt_0_compat; assumption).
        destruct s; cbn [sgn]; lra.
      - apply Rlt_trans with (bpow 53 * bpow (-1074))%R; [apply Rmult_lt_compat_r; [apply bpow_pos|exact Hm]|].
        rewrite <- bpow_add. apply big. lia. }
    lra.
Qed.

Local Open Scope R_scope.

Lemma entry_any : forall wi wj w, canon wi -> bpow (-100) <= fval wi <= bpow 1000 ->
  canon wj -> bpow (-100) <= fval wj <= bpow 1000 -> canon w ->
  let t := fval w / (sqrt (fval wi) * sqrt (fval wj)) in
  Rabs t <= bpow 400 ->
  let p := fmul (fdiv fone (fsqrt wi)) w in
  let r := fmul p (fdiv fone (fsqrt wj)) in
  canon (fdiv fone (fsqrt wi)) /\ canon p /\ canon r /\ Rabs (fval r - t) <= bpow (-50) * Rabs t + bpow (-1020).
Proof.
  intros wi wj w Ci Hi Cj Hj Cw t Ht p r.
  assert (Ni := canon_big_normal _ Ci (proj1 Hi)). assert (Nj := canon_big_normal _ Cj (proj1 Hj)).
  destruct (inv_sqrt_error wi Ni Hi) as [Ndi (di & Hdi & Edi)].
  destruct (inv_sqrt_error wj Nj Hj) as [Ndj (dj & Hdj & Edj)].
  assert (Hsi := sqrt_range _ Hi). assert (Hsj := sqrt_range _ Hj).
  set (Si := sqrt (fval wi)) in *. set (Sj := sqrt (fval wj)) in *.
  assert (H50 := bpow_pos (-50)). assert (Hu := ulp_small).
  assert (Hsq : ulp * ulp <= ulp / 1000) by (clear - Hu; nra).
  assert (Ew : fval w = t * Si * Sj) by (unfold t; field; split; lra).
  assert (Ht0 := Rabs_pos t).
  set (Di := fdiv fone (fsqrt wi)) in *. set (Dj := fdiv fone (fsqrt wj)) in *.
  assert (Cdi := canon_normal _ Ndi). assert (Cdj := canon_normal _ Ndj).
  assert (Hdi2 : Rabs di <= / 2) by lra. assert (Hdj2 : Rabs dj <= / 2) by lra.
  assert (E1 : fval Di * fval w = (t * Sj) * (1 + di)) by (rewrite Edi, Ew; field; lra).
  assert (B1 := rel_bounds (t * Sj) di Hdi2). rewrite <- E1 in B1.
  assert (BtS : Rabs (t * Sj) = Rabs t * Sj) by (rewrite Rabs_mult, (Rabs_pos_eq Sj) by lra; reflexivity).
  assert (BtS2 : Rabs t * Sj <= bpow 900).
  { change 900%Z with (400 + 500)%Z. rewrite bpow_add. apply Rmult_le_compat; lra. }
  assert (Hb901 := two_bpow 900). change (1 + 900)%Z with 901%Z in Hb901.
  destruct (fmul_any Di w Cdi Cw) as (Cp & Ep & _).
  { apply Rle_lt_trans with (bpow 901); [rewrite BtS in B1; lra|apply big; lia]. }
  fold p in Cp, Ep.
  (* relative error 1 + g1 and an absolute error of at most tiny *)
  set (P0 := fval Di * fval w) in *.
  assert (Hex : exists a ta, Rabs a <= ulp /\ Rabs ta <= tiny /\ fval p = P0 * (1 + a) + ta).
  { destruct (Req_dec P0 0) as [Z0|NZ].
    - exists 0, (fval p). rewrite Z0, Rabs_R0 in Ep. rewrite Rabs_R0. split; [lra|]. rewrite Z0. rewrite Rminus_0_r in Ep. split; [lra|ring].
    - set (q := fval p - P0) in *.
      destruct (Rle_lt_dec (Rabs q) (ulp * Rabs P0)) as [Hq|Hq].
      + exists (q / P0), 0. rewrite Rabs_R0. split.
        * unfold Rdiv. rewrite Rabs_mult, Rabs_inv. apply (Rmult_le_reg_r (Rabs P0)); [apply Rabs_pos_lt; exact NZ|].
          rewrite Rmult_assoc, Rinv_l, Rmult_1_r by (apply Rabs_no_R0; exact NZ). exact Hq.
        * split; [apply Rlt_le, bpow_pos|]. unfold q. field. exact NZ.
      + set (sg := if Rle_dec 0 q then 1 else -1).
        assert (Hsg : q = sg * Rabs q) by (unfold sg; destruct (Rle_dec 0 q); [rewrite Rabs_pos_eq by lra; ring|rewrite Rabs_left by lra; ring]).
        assert (Hsg1 : Rabs sg = 1) by (unfold sg; destruct (Rle_dec 0 q); [apply Rabs_R1|rewrite Rabs_left by lra; ring]).
        exists (sg * ulp * (Rabs P0 / P0)), (q - sg * (ulp * Rabs P0)). split; [|split].
        * rewrite !Rabs_mult, Hsg1, (Rabs_pos_eq ulp) by lra. unfold Rdiv. rewrite Rabs_mult, Rabs_Rabsolu, Rabs_inv, Rinv_r by (apply Rabs_no_R0; exact NZ). lra.
        * replace (q - sg * (ulp * Rabs P0)) with (sg * (Rabs q - ulp * Rabs P0)) by (rewrite Hsg at 2; ring).
          rewrite Rabs_mult, Hsg1, Rmult_1_l, Rabs_pos_eq by lra. change unit_roundoff with ulp in Ep. lra.
        * replace (P0 * (1 + sg * ulp * (Rabs P0 / P0)) + (q - sg * (ulp * Rabs P0))) with (P0 + q) by (field; exact NZ).
          unfold q. ring. }
  destruct Hex as (a & ta & Ha & Hta & Eap).
  assert (Q1 := prod_rel di a (22/10 * ulp) ulp ltac:(lra) ltac:(lra) Hdi Ha).
  set (g1 := (1 + di) * (1 + a) - 1) in *.
  assert (Ea1 : fval p = t * Sj * (1 + g1) + ta) by (rewrite Eap, E1; unfold g1; ring).
  assert (G1 : Rabs g1 <= 33/10 * ulp) by lra.
  assert (Q2 := prod_rel g1 dj (33/10 * ulp) (22/10 * ulp) ltac:(lra) ltac:(lra) G1 Hdj).
  set (g2 := (1 + g1) * (1 + dj) - 1) in *.
  assert (G2 : Rabs g2 <= 56/10 * ulp) by lra.
  set (T1 := ta * (/ Sj * (1 + dj))).
  assert (E2 : fval p * fval Dj = t * (1 + g2) + T1) by (rewrite Ea1, Edj; unfold g2, T1; field; lra).
  assert (HT1 : Rabs T1 <= tiny * bpow 51).
  { unfold T1. rewrite Rabs_mult. apply Rmult_le_compat; [apply Rabs_pos|apply Rabs_pos|exact Hta|].
    assert (B := rel_bounds (/ Sj) dj Hdj2). rewrite (Rabs_pos_eq (/ Sj)) in B by (left; apply Rinv_0_lt_compat; lra).
    assert (Hinv : / Sj <= bpow 50).
    { replace 50%Z with (- (-50))%Z by reflexivity. rewrite bpow_neg. apply Rinv_le_contravar; [exact H50|lra]. }
    assert (Hb51 := two_bpow 50). change (1 + 50)%Z with 51%Z in Hb51. lra. }
  assert (Htb : tiny * bpow 51 = bpow (-1024)) by (unfold tiny; rewrite <- bpow_add; reflexivity).
  assert (B2 := rel_bounds t g2 ltac:(lra)).
  assert (Hp2 : Rabs (fval p * fval Dj) <= 2 * Rabs t + bpow (-1024)).
  { rewrite E2. eapply Rle_trans; [apply Rabs_triang|]. lra. }
  assert (Hb401 := two_bpow 400). change (1 + 400)%Z with 401%Z in Hb401.
  assert (H1024 : bpow (-1024) <= bpow (-1023)) by (apply bpow_le; lia).
  destruct (fmul_any p Dj Cp Cdj) as (Cr & Er & _).
  { apply Rle_lt_trans with (bpow 401 + bpow 401); [|].
    - assert (bpow (-1024) <= bpow 401) by (apply bpow_le; lia). lra.
    - assert (Hb402 := two_bpow 401). change (1 + 401)%Z with 402%Z in Hb402. assert (bpow 402 < bpow 1023) by (apply big; lia). lra. }
  fold r in Cr, Er.
  split; [exact Cdi|]. split; [exact Cp|]. split; [exact Cr|].
  assert (Hg2t : Rabs (fval p * fval Dj - t) <= 56/10 * ulp * Rabs t + bpow (-1024)).
  { rewrite E2. replace (t * (1 + g2) + T1 - t) with (g2 * t + T1) by ring. eapply Rle_trans; [apply Rabs_triang|].
    rewrite Rabs_mult. assert (Rabs g2 * Rabs t <= 56/10 * ulp * Rabs t) by (apply Rmult_le_compat_r; lra). lra. }
  change unit_roundoff with ulp in Er.
  assert (Hur : ulp * Rabs (fval p * fval Dj) <= 2 * ulp * Rabs t + bpow (-1024)).
  { apply Rle_trans with (ulp * (2 * Rabs t + bpow (-1024))); [apply Rmult_le_compat_l; lra|].
    assert (Hb := bpow_pos (-1024)). assert (ulp * bpow (-1024) <= 1 * bpow (-1024)) by (apply Rmult_le_compat_r; lra). lra. }
  assert (H8 : bpow (-50) = 8 * ulp).
  { unfold ulp. change (-50)%Z with (3 + -53)%Z. rewrite bpow_add. f_equal. rewrite bpow_IZR by lia. reflexivity. }
  assert (Hty : tiny <= bpow (-1024)) by (apply bpow_le; lia).
  assert (H1020 : 16 * bpow (-1024) = bpow (-1020)).
  { change (-1020)%Z with (4 + -1024)%Z. rewrite bpow_add. f_equal. rewrite bpow_IZR by lia. reflexivity. }
  replace (fval r - t) with ((fval r - fval p * fval Dj) + (fval p * fval Dj - t)) by ring.
  eapply Rle_trans; [apply Rabs_triang|]. rewrite H8.
  assert (Hb := bpow_pos (-1024)). assert (0 <= ulp * Rabs t) by (apply Rmult_le_pos; lra). lra.
Qed.

(** ** The two normalisations *)
Lemma norm_matrix : forall e n m f (dx dy : nat -> f64) (A : nat -> nat -> f64), decent e ->
  (forall i, (i < n)%nat -> fair (dx i)) -> (forall j, (j < m)%nat -> fair (dy j)) ->
  (forall i j, (i < n)%nat -> (j < m)%nat -> f_finite (A i j) = true /\ valid_binary 53 1024 (A i j) = true /\
     Rabs (fval (A i j) / (sqrt (fval (dx i)) * sqrt (fval (dy j)))) <= bpow 400) ->
  exists B, fscale_both e (finv_sqrt (map dx (seq 0 n))) (finv_sqrt (map dy (seq 0 m))) (mkArr f (tabulate n m A))
            = mkArr (match f with Lil => Dense | g => g end) (tabulate n m B) /\
    forall i j, (i < n)%nat -> (j < m)%nat ->
      canon (B i j) /\
      f_same (B i j) (fmul (fmul (fdiv fone (fsqrt (dx i))) (A i j)) (fdiv fone (fsqrt (dy j)))) /\
      Rabs (fval (B i j) - fval (A i j) / (sqrt (fval (dx i)) * sqrt (fval (dy j))))
      <= bpow (-50) * Rabs (fval (A i j) / (sqrt (fval (dx i)) * sqrt (fval (dy j)))) + bpow (-1020).
Proof.
  intros e n m f dx dy A He Hx Hy HA. unfold finv_sqrt. rewrite !map_map.
  assert (Hfair : forall v, fair v -> canon v /\ bpow (-100) <= fval v <= bpow 1000).
  { intros v (F & V & R & _). split; [apply valid_canon; assumption|].
    assert (bpow (-100) <= bpow (-27)) by (apply bpow_le; lia). lra. }
  assert (Hall : forall i j, (i < n)%nat -> (j < m)%nat ->
     let t := fval (A i j) / (sqrt (fval (dx i)) * sqrt (fval (dy j))) in
     let p := fmul (fdiv fone (fsqrt (dx i))) (A i j) in
     let r := fmul p (fdiv fone (fsqrt (dy j))) in
     canon (fdiv fone (fsqrt (dx i))) /\ canon p /\ canon r /\ Rabs (fval r - t) <= bpow (-50) * Rabs t + bpow (-1020)).
  { intros i j Hi Hj. destruct (HA i j Hi Hj) as (F & V & T). destruct (Hfair _ (Hx i Hi)) as [Ci Ri]. destruct (Hfair _ (Hy j Hj)) as [Cj Rj].
    apply entry_any; try assumption. apply valid_canon; assumption. }
  assert (Hinv : forall v, fair v -> f_finite (fdiv fone (fsqrt v)) = true).
  { intros v Hv. destruct (Hfair v Hv) as [C R]. apply normal_finite.
    apply (inv_sqrt_error v (canon_big_normal v C (proj1 R)) R). }
  destruct (scale_entry e n m f (fun i => fdiv fone (fsqrt (dx i))) (fun j => fdiv fone (fsqrt (dy j))) A He) as (B & HB & HE).
  - intros i Hi. apply Hinv, Hx, Hi.
  - intros j Hj. apply Hinv, Hy, Hj.
  - intros i j Hi Hj. apply HA; assumption.
  - intros i j Hi Hj. apply canon_finite. apply (Hall i j Hi Hj).
  - intros i j Hi Hj. apply canon_finite. apply (Hall i j Hi Hj).
  - exists B. split; [exact HB|]. intros i j Hi Hj. destruct (Hall i j Hi Hj) as (_ & _ & Cr & Er).
    assert (HS := HE i j Hi Hj). split; [|split; [exact HS|rewrite (fval_same _ _ HS); exact Er]].
    destruct HS as [->|[Hz _]]; [exact Cr|]. destruct (B i j); try discriminate. exact I.
Qed.

Lemma any_zero_fair : forall n (d : nat -> f64), (forall i, (i < n)%nat -> fair (d i)) -> fany_zero (map d (seq 0 n)) = false.
Proof.
  intros n d H. unfold fany_zero. apply not_true_is_false. intros He. apply existsb_exists in He.
  destruct He as (v & Hv & Hc). apply in_map_iff in Hv. destruct Hv as (i & <- & Hi). apply in_seq in Hi.
  destruct (H i ltac:(lia)) as (_ & _ & _ & HF). congruence.
Qed.

Lemma any_zero_close : forall n (d : nat -> f64) i, (i < n)%nat -> fisclose (d i) fzero = true ->
  fany_zero (map d (seq 0 n)) = true.
Proof.
  intros n d i Hi H. unfold fany_zero. apply existsb_exists. exists (d i). split; [|exact H].
  apply in_map_iff. exists i. split; [reflexivity|]. apply in_seq. lia.
Qed.

Lemma fdiagonal_tab : forall n A, fdiagonal_of (tabulate n n A) = map (fun i => A i i) (seq 0 n).
Proof.
  intros n A. unfold fdiagonal_of. cbn [tabulate mr mc]. rewrite Nat.min_id. apply map_ext_in. intros i Hi. apply in_seq in Hi.
  unfold fget. change (mkMat n n _) with (tabulate n n A). apply mget_tabulate; lia.
Qed.

Lemma entry_diag : forall {E V} (k : list E -> list E -> V) d x i, entry k d x None i i = k (row_of d x i) (row_of d x i).
Proof. intros. unfold entry. rewrite Nat.leb_refl. reflexivity. Qed.

(** ** Samples *)
Lemma fsample_len : forall n d X, length (nd_data (fsample n d X)) = (n * d)%nat.
Proof.
  intros n d X. unfold fsample. cbn [nd_data]. rewrite <- (seq_length n 0) at 2.
  generalize (seq 0 n). intros l. induction l as [|a l IH]; [reflexivity|].
  cbn [flat_map length]. unfold features at 1. rewrite app_length, IH, map_length, seq_length. lia.
Qed.

Lemma features_len : forall d x, length (features d x) = d.
Proof. intros. unfold features. rewrite map_length, seq_length. reflexivity. Qed.

Lemma fsample_row : forall n d X i, (i < n)%nat -> row_of d (fsample n d X) i = features d (X i).
Proof.
  intros n d X i Hi. unfold row_of, fsample. cbn [nd_data].
  assert (H : forall s n, (i < n)%nat ->
    firstn d (skipn (i * d) (flat_map (fun i => features d (X i)) (seq s n))) = features d (X (s + i)%nat)); [|apply (H 0%nat n Hi)].
  clear n Hi. induction i as [|i IH]; intros s n Hi; (destruct n as [|n]; [lia|]); cbn [seq flat_map].
  - cbn [Nat.mul skipn]. rewrite Nat.add_0_r.
    rewrite firstn_app, features_len, Nat.sub_diag. cbn [firstn].
    rewrite app_nil_r, firstn_all2; [reflexivity|]. rewrite features_len. lia.
  - cbn [Nat.mul]. rewrite skipn_app, features_len.
    replace (d + i * d - d)%nat with (i * d)%nat by lia.
    rewrite (skipn_all2 (n := (d + i * d)%nat) (features d (X s))); [|rewrite features_len; lia].
    cbn [app]. rewrite (IH (S s) n) by lia. now rewrite Nat.add_succ_r.
Qed.

Lemma fsample_adm : forall n d X, admissible (fsample n d X) None n n d.
Proof. intros. split; [exists []; split; [reflexivity|constructor]|reflexivity]. Qed.
Lemma fsample_adm2 : forall n m d X Y, admissible (fsample n d X) (Some (fsample m d Y)) n m d.
Proof. intros. split; exists []; (split; [reflexivity|constructor]). Qed.

Lemma fsample_total : forall e k n d X,
  (forall i j, (i < n)%nat -> (j < n)%nat -> exists v, fkernel_value e k (features d (X i)) (features d (X j)) = Ok v) ->
  never_raises (fbuiltin e k) (fvalue e k) (fsample n d X) None n n d.
Proof.
  intros e k n d X HA t u v (i & Hi) (j & Hj).
  assert (Hi' : (i < n)%nat /\ u = row_of d (fsample n d X) i) by tauto.
  assert (Hj' : (j < n)%nat /\ v = row_of d (fsample n d X) j) by tauto.
  destruct Hi' as [Hi' ->], Hj' as [Hj' ->]. cbn [fbuiltin kf]. unfold fvalue, fkernel_rows.
  rewrite !fsample_row, !features_len, Nat.eqb_refl by assumption.
  destruct (HA i j Hi' Hj') as (w & ->). reflexivity.
Qed.

Lemma fsample_total2 : forall e k n m d X Y,
  (forall x y, (exists i, (i < n)%nat /\ x = X i) \/ (exists j, (j < m)%nat /\ x = Y j) ->
               (exists i, (i < n)%nat /\ y = X i) \/ (exists j, (j < m)%nat /\ y = Y j) ->
               exists v, fkernel_value e k (features d x) (features d y) = Ok v) ->
  never_raises (fbuiltin e k) (fvalue e k) (fsample n d X) (Some (fsample m d Y)) n m d.
Proof.
  intros e k n m d X Y HA t u v (i & Hi) (j & Hj).
  assert (Hrow : forall i u, (i < n)%nat /\ u = row_of d (fsample n d X) i \/ (i < m)%nat /\ u = row_of d (fsample m d Y) i ->
     exists x, u = features d x /\ ((exists i, (i < n)%nat /\ x = X i) \/ (exists j, (j < m)%nat /\ x = Y j))).
  { clear. intros i u [[Hi ->]|[Hi ->]]; rewrite fsample_row by exact Hi; eexists; (split; [reflexivity|]); eauto. }
  destruct (Hrow i u Hi) as (x & -> & Hx). destruct (Hrow j v Hj) as (y & -> & Hy).
  cbn [fbuiltin kf]. unfold fvalue, fkernel_rows. rewrite !features_len, Nat.eqb_refl.
  destruct (HA x y Hx Hy) as (w & ->). reflexivity.
Qed.

Lemma fvalue_features : forall e k d x y, fvalue e k (features d x) (features d y)
  = match fkernel_value e k (features d x) (features d y) with Ok v => v | Raise _ => S754_nan end.
Proof. intros. unfold fvalue, fkernel_rows. rewrite !features_len, Nat.eqb_refl. reflexivity. Qed.
