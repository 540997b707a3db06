(** C77: normalize_km in double precision. *)
From Coq Require Import ZArith Bool List Permutation Lia Floats.SpecFloat.
Import ListNotations.
From Verif Require Import Prelude KernelsModel FloatModel SpecFloats FloatProps.

(** ** Multiplication by one *)
Lemma fone_eq : fone = S754_finite false 4503599627370496 (-52).
Proof. vm_compute. reflexivity. Qed.

Lemma digits_shift : forall k m, digits2_pos (Pos.iter xO m k) = (digits2_pos m + k)%positive.
Proof.
  induction k as [|k IH] using Pos.peano_ind; intros m.
  - cbn. lia.
  - rewrite Pos.iter_succ. cbn [digits2_pos]. rewrite IH. lia.
Qed.

Lemma iter_pos_iter : forall (p : positive) r, iter_pos shr_1 p r = Pos.iter shr_1 r p.
Proof.
  induction p as [p IH|p IH|]; intros r; cbn [iter_pos Pos.iter]; rewrite ?IH; try reflexivity.
  rewrite <- Pos.iter_swap, <- Pos.iter_swap. reflexivity.
Qed.

Lemma shr_shift : forall k m, iter_pos shr_1 k (Build_shr_record (Zpos (Pos.iter xO m k)) false false)
  = Build_shr_record (Zpos m) false false.
Proof.
  intros k m. rewrite iter_pos_iter. revert m. induction k as [|k IH] using Pos.peano_ind; intros m.
  - reflexivity.
  - rewrite Pos.iter_succ_r with (p := k) (x := Build_shr_record _ _ _). rewrite Pos.iter_succ. cbn [shr_1 orb]. apply IH.
Qed.

Lemma fmul_one_l : forall x, valid_binary 53 1024 x = true -> fmul fone x = x.
Proof.
  intros [s|s| |s m e] Hv; rewrite fone_eq; [destruct s; reflexivity | destruct s; reflexivity | reflexivity |].
  unfold fmul, SFmul. rewrite xorb_false_l.
  replace (4503599627370496 * m)%positive with (Pos.iter xO m 52).
  2:{ cbn [Pos.iter]. lia. }
  cbn [valid_binary] in Hv. unfold bounded, canonical_mantissa in Hv. apply andb_true_iff in Hv. destruct Hv as [Hc Hb].
  apply Zeq_bool_eq in Hc.
  assert (Hf : (fexp 53 1024 (Z.pos (digits2_pos m + 52) + (-52 + e)) = e)%Z).
  { rewrite <- Hc at 2. f_equal. lia. }
  unfold binary_round_aux, shr_fexp. cbn [Zdigits2 shr_record_of_loc]. rewrite digits_shift, Hf.
  replace (e - (-52 + e))%Z with (Z.pos 52) by lia. unfold shr at 1. rewrite shr_shift.
  cbn [loc_of_shr_record round_nearest_even shr_m]. replace (-52 + e + 52)%Z with e by lia.
  cbn [Zdigits2]. rewrite Hc, Z.sub_diag. cbn [shr shr_m]. rewrite Hb. reflexivity.
Qed.

Lemma fmul_one_r : forall x, valid_binary 53 1024 x = true -> fmul x fone = x.
Proof. intros x H. rewrite fmul_comm. apply fmul_one_l. exact H. Qed.

Lemma acc_one_term : forall e n (f : nat -> f64) i, decent e -> i < n ->
  f_finite (f i) = true -> (forall k, k < n -> k <> i -> f_iszero (f k) = true) ->
  f_same (e_acc e (map f (seq 0 n))) (f i).
Proof.
  intros e n f i He Hi Hf Hz. destruct (f_iszero (f i)) eqn:H0.
  - right. split; [| exact H0]. apply (adds_zeros _ _ (d_acc e He _)). apply forallb_forall. intros v Hv.
    apply in_map_iff in Hv. destruct Hv as (k & <- & Hk). apply in_seq in Hk.
    destruct (Nat.eq_dec k i) as [-> | Hk']; [exact H0 | apply Hz; [lia | exact Hk']].
  - left. assert (Hs : seq 0 n = seq 0 i ++ i :: seq (S i) (n - S i)).
    { replace n with (i + S (n - S i)) at 1 by lia. rewrite seq_app. reflexivity. }
    apply (adds_single (f i) _ _ Hf H0 (d_acc e He _) (map f (seq 0 i) ++ map f (seq (S i) (n - S i)))).
    + rewrite Hs, map_app. cbn [map]. apply Permutation_sym, Permutation_middle.
    + apply forallb_forall. intros v Hv. rewrite <- map_app in Hv. apply in_map_iff in Hv.
      destruct Hv as (k & <- & Hk). apply in_app_or in Hk. apply Hz; destruct Hk as [Hk | Hk]; apply in_seq in Hk; lia.
Qed.

(** C77. In double precision, normalize_km leaves every finite
    matrix with ones on its diagonal exactly as it is: so the kernels with unit diagonal (C76) give the
    same symmetric matrix with normalized=True as with normalized=False. *)
Lemma pf_C77_unit_diagonal : forall e n K, decent e ->
  (forall i j, i < n -> j < n -> f_finite (K i j) = true /\ valid_binary 53 1024 (K i j) = true) ->
  (forall i, i < n -> K i i = fone) ->
  forall i j, i < n -> j < n -> f_same (fnormalize e n K i j) (K i j).
Proof.
  intros e n K He HK H1 i j Hi Hj.
  assert (Hd : forall k, k < n -> fdiv fone (fsqrt (K k k)) = fone).
  { intros k Hk. rewrite (H1 k Hk). vm_compute. reflexivity. }
  set (D := fdiagflat (fun i => K i i)).
  assert (HD : forall a b, a < n -> D a b = if a =? b then fone else fzero).
  { intros a b Ha. unfold D, fdiagflat. rewrite (Hd a Ha). reflexivity. }
  assert (Hin : forall k, k < n -> f_same (fmatmul e n D K i k) (K i k)).
  { intros k Hk. unfold fmatmul. destruct (HK i k Hi Hk) as [Hf Hv].
    assert (Hii : fmul (D i i) (K i k) = K i k) by (rewrite HD, Nat.eqb_refl by exact Hi; apply fmul_one_l; exact Hv).
    assert (Hg := acc_one_term e n (fun l => fmul (D i l) (K l k)) i He Hi). cbv beta in Hg. rewrite Hii in Hg.
    apply Hg; [exact Hf |]. intros l Hl Hli. rewrite HD by exact Hi.
    destruct (Nat.eqb_spec i l) as [-> | _]; [destruct Hli; reflexivity |].
    rewrite fmul_comm. apply fmul_zero; [apply HK; assumption | reflexivity]. }
  assert (Hfin : forall k, k < n -> f_finite (fmatmul e n D K i k) = true).
  { intros k Hk. destruct (HK i k Hi Hk) as [Hf _]. destruct (Hin k Hk) as [-> | [Hz _]]; [exact Hf |].
    destruct (fmatmul e n D K i k); try discriminate; reflexivity. }
  unfold fnormalize. cbv zeta. fold D. unfold fmatmul at 1.
  assert (Hjj : f_same (fmul (fmatmul e n D K i j) (D j j)) (K i j)).
  { rewrite HD, Nat.eqb_refl by exact Hj. destruct (HK i j Hi Hj) as [Hf Hv].
    destruct (Hin j Hj) as [-> | [Hz Hz']]; [left; apply fmul_one_r; exact Hv |].
    right. split; [| exact Hz']. rewrite fmul_comm. apply fmul_zero; [reflexivity | exact Hz]. }
  assert (Hg := acc_one_term e n (fun l => fmul (fmatmul e n D K i l) (D l j)) j He Hj). cbv beta in Hg.
  assert (Hout : f_same (e_acc e (map (fun l => fmul (fmatmul e n D K i l) (D l j)) (seq 0 n)))
                        (fmul (fmatmul e n D K i j) (D j j))).
  { apply Hg.
    - rewrite HD, Nat.eqb_refl by exact Hj. destruct (HK i j Hi Hj) as [Hf Hv].
      destruct (Hin j Hj) as [-> | [Hz Hz']]; [rewrite fmul_one_r by exact Hv; exact Hf |].
      destruct (fmatmul e n D K i j); try discriminate; reflexivity.
    - intros l Hl Hlj. rewrite HD by exact Hl. destruct (Nat.eqb_spec l j) as [-> | _]; [destruct Hlj; reflexivity |].
      apply fmul_zero; [apply Hfin; exact Hl | reflexivity]. }
  destruct Hout as [-> | [Ha Hb]]; [exact Hjj |].
  destruct Hjj as [Hjj | [_ Hc]]; [| right; split; assumption]. rewrite Hjj in Hb. right. split; assumption.
Qed.
