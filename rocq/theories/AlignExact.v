(** The scores of alignment_ranking and the centred alignment on arbitrary input: properties C23, C52, C54. *)
From Coq Require Import String Reals List Arith ZArith Bool Lia Lra.
Import ListNotations.
From Verif Require Import Prelude MatModel UtilsModel KMModel SpecKM XReal OpsModel SpecLinAlg KernelsModel
  KMXModel SetModel SpecSet CompositeModel SpecComposite BucketModel SpecBucket RankModel SpecRank.
From Verif Require Import MatFacts MFacts RSum OpsFacts OpsProps KMXProps SetFacts SetProps ContProps FullFacts CompositeFacts CompositeProps RankFacts RankProps.

Local Open Scope list_scope.
Local Open Scope nat_scope.

(*BEGIN PROP*)
(** The n x n table [f] consists of the finite numbers [A]. *)
Definition numbers_of (n : nat) (f : nat -> nat -> xr) (A : nat -> nat -> R) : Prop :=
  forall i j, i < n -> j < n -> f i j = Fin (A i j).

(** Some entry is infinite or NaN. *)
Definition has_nonfinite (n : nat) (f : nat -> nat -> xr) : Prop :=
  exists i j, i < n /\ j < n /\ forall r, f i j <> Fin r.

(** The matrix itself for the caller who says it is centred already, else the centred one. *)
Definition as_centred (c : bool) (n : nat) (A : nat -> nat -> R) : nat -> nat -> R :=
  if c then A else centred n A.

(** All entries are finite and the norm of the centred matrix is (nearly) zero. *)
Definition vanishes (c : bool) (n : nat) (f : nat -> nat -> xr) : Prop :=
  exists A, numbers_of n f A /\ (fnorm n n (as_centred c n A) <= tiny)%R.

(** The centred alignment of two n x n tables of arbitrary numbers. *)
Definition alignment_is (z : zero_div) (c : bool) (n : nat) (f g : nat -> nat -> xr) (r : res xr) : Prop :=
  (vanishes c n f \/ vanishes c n g -> r = match z with ZRaise => Raise ValueError | ZValue v => Ok v end) /\
  (~ vanishes c n f -> ~ vanishes c n g ->
     (has_nonfinite n f \/ has_nonfinite n g -> r = Ok NaN) /\
     forall A B, numbers_of n f A -> numbers_of n g B ->
       r = Ok (Fin (fprod n n (as_centred c n A) (as_centred c n B) /
                    (fnorm n n (as_centred c n A) * fnorm n n (as_centred c n B))))).
(*END PROP*)

(** ** Numbers that are not finite *)
Definition nf (a : xr) : Prop := forall r, a <> Fin r.

Lemma nf_add : forall a b, nf a \/ nf b -> nf (xadd a b).
Proof. intros [a| | |] [b| | |] [H|H] r; cbn; try discriminate; exfalso; eapply H; reflexivity. Qed.

Lemma signed_inf_nf : forall r, nf (signed_inf r).
Proof. intros r s. unfold signed_inf. repeat destruct Rlt_dec; discriminate. Qed.

Lemma nf_mul : forall a b, nf a \/ nf b -> nf (xmul a b).
Proof.
  intros [a| | |] [b| | |] [H|H] r; cbn; try discriminate; try apply signed_inf_nf; exfalso; eapply H; reflexivity.
Qed.

Lemma nf_sqrt : forall a, nf a -> nf (xsqrt a).
Proof. intros [a| | |] H r; cbn; try discriminate. exfalso; eapply H; reflexivity. Qed.

Lemma nf_div : forall a b, nf a -> nf b -> xdiv a b = NaN.
Proof.
  intros [a| | |] [b| | |] Ha Hb; cbn; try reflexivity;
    ((exfalso; eapply Ha; reflexivity) || (exfalso; eapply Hb; reflexivity)).
Qed.

Lemma nf_close : forall a, nf a -> xisclose a (Fin 0) = false.
Proof. intros [a| | |] H; cbn; try reflexivity. exfalso; eapply H; reflexivity. Qed.

Lemma nf_sum : forall n (f : nat -> xr) i, i < n -> nf (f i) -> nf (xsum (map f (seq 0 n))).
Proof.
  intros n f i Hi H. assert (Hin : In (f i) (map f (seq 0 n))) by (apply in_map, in_seq; lia).
  revert Hin. generalize (map f (seq 0 n)). intros l. induction l as [|a l IH]; intros [].
  - subst a. cbn [xsum fold_right]. apply nf_add. left. exact H.
  - cbn [xsum fold_right]. apply nf_add. right. apply IH. assumption.
Qed.

Lemma matmul_nf : forall A B i j k, i < mr A -> j < mc B -> k < mc A ->
  nf (xget A i k) \/ nf (xget B k j) -> nf (xget (matmul A B) i j).
Proof.
  intros A B i j k Hi Hj Hk H. unfold xget at 1, matmul. rewrite mget_tabulate by assumption.
  apply nf_sum with k; [exact Hk|]. apply nf_mul. exact H.
Qed.

Lemma msum_nf : forall n m f i j, i < n -> j < m -> nf (f i j) -> nf (msum (tabulate n m f)).
Proof.
  intros n m f i j Hi Hj H. unfold msum. cbn [tabulate mr mc].
  apply nf_sum with i; [exact Hi|]. apply nf_sum with j; [exact Hj|].
  change (nf (xget (tabulate n m f) i j)). unfold xget. rewrite mget_tabulate by assumption. exact H.
Qed.

(** ** Centring *)
Definition dec (K : arr xr) (n : nat) : Prop := is_ndarray K = true /\ mr (amat K) = n /\ mc (amat K) = n.

Definition maybe_center (c : bool) (K : arr xr) : res (arr xr) := if c then Ok K else center_km K.

Lemma dec_center : forall c K n, dec K n -> exists K', maybe_center c K = Ok K' /\ dec K' n.
Proof.
  intros c K n (H1 & H2 & H3). destruct c; [exists K; repeat split; assumption|].
  unfold maybe_center, center_km. rewrite H1, H2, H3, Nat.eqb_refl. eexists. split; [reflexivity|].
  split; [destruct K as [[] M]; try discriminate; reflexivity|]. split; reflexivity.
Qed.

Lemma center_nf : forall c K K' n, dec K n -> maybe_center c K = Ok K' -> has_nonfinite n (xget (amat K)) ->
  has_nonfinite n (xget (amat K')).
Proof.
  intros c K K' n (H1 & H2 & H3) E (p & q & Hp & Hq & H). destruct c; [injection E as <-; exists p, q; auto|].
  unfold maybe_center, center_km in E. rewrite H1, H2, H3, Nat.eqb_refl in E. injection E as <-.
  exists p, q. split; [exact Hp|]. split; [exact Hq|]. cbn [amat].
  apply matmul_nf with q; try assumption; [cbn [matmul tabulate mc]; lia|]. left.
  apply matmul_nf with p; try assumption; [lia|]. right. exact H.
Qed.

Lemma matmul_ext : forall A A' B B', mr A = mr A' -> mc A = mc A' -> mc B = mc B' ->
  (forall i j, i < mr A -> j < mc A -> xget A i j = xget A' i j) ->
  (forall i j, i < mc A -> j < mc B -> xget B i j = xget B' i j) -> matmul A B = matmul A' B'.
Proof.
  intros A A' B B' H1 H2 H3 HA HB. unfold matmul. rewrite <- H1, <- H2, <- H3. apply tabulate_ext.
  intros i j Hi Hj. f_equal. apply map_ext_in. intros k Hk. apply in_seq in Hk.
  rewrite HA, HB by lia. reflexivity.
Qed.

Lemma center_num : forall c K K' n A, dec K n -> maybe_center c K = Ok K' -> numbers_of n (xget (amat K)) A ->
  numbers_of n (xget (amat K')) (as_centred c n A).
Proof.
  intros c K K' n A (H1 & H2 & H3) E HA. destruct c; [injection E as <-; exact HA|].
  unfold maybe_center, center_km in E. rewrite H1, H2, H3, Nat.eqb_refl in E. injection E as <-.
  intros i j Hi Hj. cbn [amat as_centred].
  assert (EM : matmul (center_matrix n) (amat K) = matmul (center_matrix n) (rmat n n A)).
  { apply matmul_ext; try reflexivity; [exact H3|]. cbn [center_matrix tabulate mc]. rewrite H3.
    intros a b Ha Hb. rewrite HA by assumption. unfold xget, rmat. rewrite mget_tabulate by assumption. reflexivity. }
  rewrite EM, center_matrix_rmat, !matmul_rmat. unfold xget, rmat. rewrite mget_tabulate by assumption.
  f_equal. apply center_product; assumption.
Qed.

Lemma frob_dec : forall K L n, dec K n -> dec L n ->
  frobenius_product K L = Ok (msum (tabulate n n (fun i j => xmul (xget (amat K) i j) (xget (amat L) i j)))).
Proof.
  intros K L n (H1 & H2 & H3) (G1 & G2 & G3). unfold frobenius_product, same_shape.
  rewrite H2, H3, G2, G3, Nat.eqb_refl. cbn [andb negb].
  replace (is_sparse K) with false by (destruct K as [[] M]; try discriminate; reflexivity). reflexivity.
Qed.

Lemma frob_nf : forall K L n, dec K n -> dec L n ->
  has_nonfinite n (xget (amat K)) \/ has_nonfinite n (xget (amat L)) ->
  exists v, frobenius_product K L = Ok v /\ nf v.
Proof.
  intros K L n HK HL H. rewrite (frob_dec K L n HK HL). eexists. split; [reflexivity|].
  destruct H as [(i & j & Hi & Hj & H)|(i & j & Hi & Hj & H)]; apply msum_nf with i j; try assumption; apply nf_mul;
    [left|right]; exact H.
Qed.

Lemma frob_num : forall K L n A B, dec K n -> dec L n ->
  numbers_of n (xget (amat K)) A -> numbers_of n (xget (amat L)) B ->
  frobenius_product K L = Ok (Fin (fprod n n A B)).
Proof.
  intros K L n A B HK HL HA HB. rewrite (frob_dec K L n HK HL). f_equal. unfold fprod.
  rewrite <- (msum_rmat n n (fun i j => (A i j * B i j)%R)). f_equal. unfold rmat. apply tabulate_ext.
  intros i j Hi Hj. rewrite HA, HB by assumption. reflexivity.
Qed.

Lemma norm_nf : forall K n, dec K n -> has_nonfinite n (xget (amat K)) -> exists v, frobenius_norm K = Ok v /\ nf v.
Proof.
  intros K n HK H. destruct (frob_nf K K n HK HK (or_introl H)) as (v & E & Hv). exists (xsqrt v).
  unfold frobenius_norm. rewrite E. split; [reflexivity|]. apply nf_sqrt, Hv.
Qed.

Lemma norm_num : forall K n A, dec K n -> numbers_of n (xget (amat K)) A -> frobenius_norm K = Ok (Fin (fnorm n n A)).
Proof.
  intros K n A HK HA. unfold frobenius_norm. rewrite (frob_num K K n A A HK HK HA HA). cbn [res_map xsqrt].
  destruct (Rlt_dec (fprod n n A A) 0) as [H|]; [|reflexivity].
  assert (H' := fprod_self_nonneg n n A). lra.
Qed.

(** Either all entries are finite or one is not. *)
Lemma finite_or_not : forall n f, (exists A, numbers_of n f A) \/ has_nonfinite n f.
Proof.
  intros n f.
  assert (D : forall m (g : nat -> xr), (forall i, i < m -> exists r, g i = Fin r) \/ exists i, i < m /\ nf (g i)).
  { induction m as [|m IH]; intros g; [left; intros; lia|].
    destruct (IH g) as [H|(i & Hi & H)]; [|right; exists i; split; [lia|exact H]].
    destruct (g m) as [r| | |] eqn:E; [left|right; exists m; split; [lia|rewrite E; intros r; discriminate]..].
    intros i Hi. destruct (Nat.eq_dec i m) as [->|Hne]; [exists r; exact E|apply H; lia]. }
  assert (D2 : forall m, (forall i j, i < m -> j < n -> exists r, f i j = Fin r) \/
                         exists i j, i < m /\ j < n /\ nf (f i j)).
  { induction m as [|m IH]; [left; intros; lia|].
    destruct IH as [H|(i & j & Hi & Hj & H)]; [|right; exists i, j; repeat split; [lia|exact Hj|exact H]].
    destruct (D n (f m)) as [G|(j & Hj & G)]; [left|right; exists m, j; repeat split; [lia|exact Hj|exact G]].
    intros i j Hi Hj. destruct (Nat.eq_dec i m) as [->|Hne]; [apply G; exact Hj|apply H; [lia|exact Hj]]. }
  destruct (D2 n) as [H|(i & j & Hi & Hj & H)]; [left|right; exists i, j; auto].
  exists (fun i j => match f i j with Fin r => r | _ => 0%R end). intros i j Hi Hj.
  destruct (H i j Hi Hj) as [r ->]. reflexivity.
Qed.

Lemma num_unique : forall n f A B, numbers_of n f A -> numbers_of n f B ->
  forall i j, i < n -> j < n -> A i j = B i j.
Proof. intros n f A B HA HB i j Hi Hj. specialize (HA i j Hi Hj). rewrite (HB i j Hi Hj) in HA. congruence. Qed.

Lemma fnorm_of_ext : forall n A B, (forall i j, i < n -> j < n -> A i j = B i j) -> fnorm n n A = fnorm n n B.
Proof.
  intros n A B H. unfold fnorm, fprod. f_equal. apply rsum_ext. intros i Hi. apply rsum_ext. intros j Hj.
  rewrite H by assumption. reflexivity.
Qed.

Lemma as_centred_ext : forall c n A B, (forall i j, i < n -> j < n -> A i j = B i j) ->
  forall i j, i < n -> j < n -> as_centred c n A i j = as_centred c n B i j.
Proof. intros [|] n A B H i j Hi Hj; [apply H; assumption|apply centred_ext; assumption]. Qed.

(** The norm of the centred table: a number that is close to 0 exactly if the table vanishes. *)
Lemma norm_close : forall c K K' n, dec K n -> maybe_center c K = Ok K' -> dec K' n ->
  exists v, frobenius_norm K' = Ok v /\
    (vanishes c n (xget (amat K)) -> xisclose v (Fin 0) = true) /\
    (~ vanishes c n (xget (amat K)) -> xisclose v (Fin 0) = false) /\
    (has_nonfinite n (xget (amat K)) -> nf v) /\
    (forall A, numbers_of n (xget (amat K)) A -> v = Fin (fnorm n n (as_centred c n A))).
Proof.
  intros c K K' n HK E HK'. destruct (finite_or_not n (xget (amat K))) as [[A HA]|H].
  - assert (HA' := center_num c K K' n A HK E HA). exists (Fin (fnorm n n (as_centred c n A))).
    split; [apply norm_num; assumption|].
    assert (HU : forall B, numbers_of n (xget (amat K)) B -> fnorm n n (as_centred c n B) = fnorm n n (as_centred c n A)).
    { intros B HB. apply fnorm_of_ext. apply as_centred_ext. apply (num_unique n _ B A HB HA). }
    split; [|split; [|split]].
    + intros (B & HB & Hle). rewrite (HU B HB) in Hle. apply small; [apply fnorm_pos|exact Hle].
    + intros Hn. apply not_small. destruct (Rlt_le_dec (1/100000000) (fnorm n n (as_centred c n A))) as [Hlt|Hle]; [exact Hlt|].
      exfalso. apply Hn. exists A. split; [exact HA|exact Hle].
    + intros (i & j & Hi & Hj & H). exfalso. apply (H (A i j)). apply HA; assumption.
    + intros B HB. rewrite (HU B HB). reflexivity.
  - destruct (norm_nf K' n HK' (center_nf c K K' n HK E H)) as (v & Ev & Hv). exists v. split; [exact Ev|].
    assert (HnA : forall A, ~ numbers_of n (xget (amat K)) A).
    { intros A HA. destruct H as (i & j & Hi & Hj & H). apply (H (A i j)). apply HA; assumption. }
    split; [intros (A & HA & _); destruct (HnA A HA)|]. split; [intros _; apply nf_close, Hv|].
    split; [intros _; exact Hv|]. intros A HA. destruct (HnA A HA).
Qed.

(** C23: the centred alignment of any two n x n ndarrays (or numpy matrices) whatever their entries. *)
Lemma pf_C23_exact : forall K L z c n,
  afmt K <> Lil -> afmt L <> Lil -> mr (amat K) = n -> mc (amat K) = n -> mr (amat L) = n -> mc (amat L) = n ->
  alignment_is z c n (xget (amat K)) (xget (amat L)) (alignment_centered K L z c).
Proof.
  intros K L z c n HfK HfL K1 K2 L1 L2.
  assert (HK : dec K n) by (split; [destruct K as [[] M]; [reflexivity|contradiction HfK; reflexivity|reflexivity]|auto]).
  assert (HL : dec L n) by (split; [destruct L as [[] M]; [reflexivity|contradiction HfL; reflexivity|reflexivity]|auto]).
  destruct (dec_center c K n HK) as (K' & EK & HK'). destruct (dec_center c L n HL) as (L' & EL & HL').
  destruct (norm_close c K K' n HK EK HK') as (a & Ea & A1 & A2 & A3 & A4).
  destruct (norm_close c L L' n HL EL HL') as (b & Eb & B1 & B2 & B3 & B4).
  assert (E : alignment_centered K L z c =
    if xisclose a (Fin 0) || xisclose b (Fin 0) then match z with ZRaise => Raise ValueError | ZValue v => Ok v end
    else rbind (frobenius_product K' L') (fun p => Ok (xdiv p (xmul a b)))).
  { unfold alignment_centered, same_shape. rewrite K1, K2, L1, L2, Nat.eqb_refl.
    rewrite (proj1 HK), (proj1 HL). cbn [andb negb orb].
    fold (maybe_center c K). fold (maybe_center c L). rewrite EK, EL. cbn [rbind]. rewrite Ea, Eb. reflexivity. }
  rewrite E. split.
  - intros [H|H]; [rewrite (A1 H)|rewrite (B1 H), orb_true_r]; reflexivity.
  - intros NK NL. rewrite (A2 NK), (B2 NL). cbn [orb]. split.
    + intros H. destruct (frob_nf K' L' n HK' HL') as (v & Ev & Hv).
      { destruct H as [H|H]; [left; exact (center_nf c K K' n HK EK H)|right; exact (center_nf c L L' n HL EL H)]. }
      rewrite Ev. cbn [rbind]. f_equal. apply nf_div; [exact Hv|]. apply nf_mul.
      destruct H as [H|H]; [left; apply A3, H|right; apply B3, H].
    + intros A B HA HB. rewrite (frob_num K' L' n _ _ HK' HL' (center_num c K K' n A HK EK HA) (center_num c L L' n B HL EL HB)).
      cbn [rbind]. rewrite (A4 A HA), (B4 B HB). cbn [xmul xdiv].
      assert (P : forall M X, dec M n -> numbers_of n (xget (amat M)) X -> ~ vanishes c n (xget (amat M)) ->
                              (fnorm n n (as_centred c n X) > 0)%R).
      { intros M X _ HX HV. destruct (Rlt_le_dec tiny (fnorm n n (as_centred c n X))) as [H|H]; [unfold tiny in H; lra|].
        exfalso. apply HV. exists X. split; [exact HX|exact H]. }
      assert (PA := P K A HK HA NK). assert (PB := P L B HL HB NL).
      destruct (Req_EM_T _ 0) as [H|H]; [|reflexivity]. exfalso.
      assert (0 < fnorm n n (as_centred c n A) * fnorm n n (as_centred c n B))%R by (apply Rmult_lt_0_compat; assumption).
      lra.
Qed.

(** C23: what [alignment_is] describes is one outcome, and there always is one. *)
Lemma pf_C23_determined : forall z c n f g,
  (exists r, alignment_is z c n f g r) /\
  forall r r', alignment_is z c n f g r -> alignment_is z c n f g r' -> r = r'.
Proof.
  intros z c n f g.
  assert (V : forall h, vanishes c n h \/ ~ vanishes c n h).
  { intros h. destruct (finite_or_not n h) as [[A HA]|H].
    - destruct (Rle_dec (fnorm n n (as_centred c n A)) tiny) as [Hle|Hgt]; [left; exists A; auto|right].
      intros (B & HB & Hle). apply Hgt. rewrite (fnorm_of_ext n _ (as_centred c n B)); [exact Hle|].
      apply as_centred_ext. apply (num_unique n _ A B HA HB).
    - right. intros (A & HA & _). destruct H as (i & j & Hi & Hj & H). apply (H (A i j)). apply HA; assumption. }
  split.
  - exists (alignment_centered (mkArr Dense (tabulate n n f)) (mkArr Dense (tabulate n n g)) z c).
    assert (H := pf_C23_exact (mkArr Dense (tabulate n n f)) (mkArr Dense (tabulate n n g)) z c n
                   ltac:(discriminate) ltac:(discriminate) eq_refl eq_refl eq_refl eq_refl). cbn [amat] in H.
    assert (X : forall (h : nat -> nat -> xr) i j, i < n -> j < n -> xget (tabulate n n h) i j = h i j).
    { intros h i j Hi Hj. unfold xget. rewrite mget_tabulate by assumption. reflexivity. }
    assert (XN : forall h A, numbers_of n (xget (tabulate n n h)) A <-> numbers_of n h A).
    { intros h A. split; intros HA i j Hi Hj; specialize (HA i j Hi Hj); rewrite X in * by assumption; exact HA. }
    assert (XV : forall h, vanishes c n (xget (tabulate n n h)) <-> vanishes c n h).
    { intros h. split; intros (A & HA & Hle); exists A; (split; [apply XN, HA|exact Hle]). }
    assert (XF : forall h, has_nonfinite n (xget (tabulate n n h)) <-> has_nonfinite n h).
    { intros h. split; intros (i & j & Hi & Hj & HH); exists i, j; (split; [exact Hi|split; [exact Hj|]]);
        rewrite X in * by assumption; exact HH. }
    destruct H as [HV HN]. split.
    + rewrite <- (XV f), <- (XV g). exact HV.
    + rewrite <- (XV f), <- (XV g), <- (XF f), <- (XF g). intros H1 H2. destruct (HN H1 H2) as [G1 G2]. split; [exact G1|].
      intros A B HA HB. apply G2; apply XN; assumption.
  - intros r r' [HV HN] [HV' HN'].
    destruct (V f) as [Vf|Vf]; [rewrite HV, HV' by (left; exact Vf); reflexivity|].
    destruct (V g) as [Vg|Vg]; [rewrite HV, HV' by (right; exact Vg); reflexivity|].
    destruct (HN Vf Vg) as [N1 N2]. destruct (HN' Vf Vg) as [N1' N2'].
    destruct (finite_or_not n f) as [[A HA]|Hf]; [|rewrite N1, N1' by (left; exact Hf); reflexivity].
    destruct (finite_or_not n g) as [[B HB]|Hg]; [|rewrite N1, N1' by (right; exact Hg); reflexivity].
    rewrite (N2 A B HA HB), (N2' A B HA HB). reflexivity.
Qed.

(*BEGIN PROP*)
(** The score of any array [K] against any targets [y]: ValueError if their sizes differ, TypeError for a
    sparse matrix, else the alignment of K and yy'. *)
Definition scored (z : zero_div) (c : bool) (y : list xr) (K : arr xr) (r : res xr) : Prop :=
  let n := length y in
  (mr (amat K) <> n \/ mc (amat K) <> n -> r = Raise ValueError) /\
  (mr (amat K) = n -> mc (amat K) = n -> afmt K = Lil -> r = Raise TypeError) /\
  (mr (amat K) = n -> mc (amat K) = n -> afmt K <> Lil ->
   alignment_is z c n (xget (amat K)) (fun i j => xmul (nth i y NaN) (nth j y NaN)) r).
(*END PROP*)

Lemma alignment_is_ext : forall z c n f g g' r, (forall i j, i < n -> j < n -> g i j = g' i j) ->
  alignment_is z c n f g r -> alignment_is z c n f g' r.
Proof.
  intros z c n f g g' r X [HV HN].
  assert (XN : forall A, numbers_of n g' A <-> numbers_of n g A).
  { intros A. split; intros HA i j Hi Hj; specialize (HA i j Hi Hj); rewrite X in * by assumption; exact HA. }
  assert (XV : vanishes c n g' <-> vanishes c n g).
  { split; intros (A & HA & Hle); exists A; (split; [apply XN, HA|exact Hle]). }
  assert (XF : has_nonfinite n g' <-> has_nonfinite n g).
  { split; intros (i & j & Hi & Hj & HH); exists i, j; (split; [exact Hi|split; [exact Hj|]]);
      rewrite X in * by assumption; exact HH. }
  split.
  - rewrite XV. exact HV.
  - rewrite XV, XF. intros H1 H2. destruct (HN H1 H2) as [G1 G2]. split; [exact G1|].
    intros A B HA HB. apply G2; [exact HA|apply XN; exact HB].
Qed.

Lemma scored_alignment : forall z c y K, scored z c y K (alignment_centered K (mkArr Dense (outer y)) z c).
Proof.
  intros z c y K.
  assert (Ho : mr (outer y) = length y /\ mc (outer y) = length y) by (split; reflexivity).
  split; [|split].
  - intros H. unfold alignment_centered, same_shape. cbn [amat]. rewrite (proj1 Ho), (proj2 Ho).
    replace ((mr (amat K) =? length y) && (mc (amat K) =? length y)) with false; [reflexivity|].
    symmetry. apply andb_false_iff. destruct H as [H|H]; [left|right]; apply Nat.eqb_neq; exact H.
  - intros H1 H2 H3. unfold alignment_centered, same_shape. cbn [amat]. rewrite (proj1 Ho), (proj2 Ho), H1, H2, Nat.eqb_refl.
    destruct K as [f M]. cbn [afmt] in H3. subst f. reflexivity.
  - intros H1 H2 H3.
    refine (alignment_is_ext _ _ _ _ (xget (outer y)) _ _ _ (pf_C23_exact K (mkArr Dense (outer y)) z c (length y)
              H3 ltac:(discriminate) H1 H2 eq_refl eq_refl)).
    intros i j Hi Hj. unfold xget, outer. rewrite mget_tabulate by assumption. reflexivity.
Qed.

(** C54 exactly, for all kernel matrices and targets: the scores are those of the matrices one by one,
    unless one of them cannot be scored; then rank_kernels fails with the exception of the first such. *)
Lemma pf_C54_exact :
  forall {U T} (numbers : T -> res (list xr)) best_score (w : world xr xr U) k num ms Ks (t : T) p m y,
    set_is w k num ms -> fulls w ms Ks -> lower m = "align/corr"%string -> align_params p -> numbers t = Ok y ->
    exists rs,
      Forall2 (scored (default (ZValue (Fin 0)) (rp_zero p)) (default false (rp_centered p)) y) Ks rs /\
      (forall ss, rs = map Ok ss -> snd (rank_kernels numbers best_score k t m p w) = Ok ss) /\
      (forall ss e rest, rs = map Ok ss ++ Raise e :: rest ->
         snd (rank_kernels numbers best_score k t m p w) = Raise e).
Proof.
  intros U T numbers best_score w k num ms Ks t p m y Hk HF Hm Hp Hy.
  destruct (set_is_eq w k num ms Hk) as (s & Hs & _ & Hms). subst ms.
  rewrite rank_align by exact Hm.
  destruct (align_ok numbers y k t p w s Ks Hs HF Hy Hp) as (w' & E & _). rewrite E. cbn [snd].
  set (z := default (ZValue (Fin 0)) (rp_zero p)). set (c := default false (rp_centered p)).
  exists (map (fun K => alignment_centered K (mkArr Dense (outer y)) z c) Ks).
  split; [|generalize (fun K => alignment_centered K (mkArr Dense (outer y)) z c); clear; intros f; split].
  - clear. induction Ks as [|K Ks IH]; constructor; [apply scored_alignment|exact IH].
  - induction Ks as [|K Ks IH]; intros [|v ss] H; try discriminate; [reflexivity|].
    cbn [map] in H. injection H as H1 H2. cbn [rmap]. rewrite H1. cbn [rbind]. rewrite (IH ss H2). reflexivity.
  - induction Ks as [|K Ks IH]; intros [|v ss] e rest H; try discriminate; cbn [map app] in H; injection H as H1 H2;
      cbn [rmap]; rewrite H1; cbn [rbind]; [reflexivity|]. rewrite (IH ss e rest H2). reflexivity.
Qed.

(** Three cases: an infinite entry gives NaN, if the targets vary; a constant matrix gives what was asked
    for, even against infinite targets; otherwise the alignment is a number. *)
Lemma pf_C54_exact_example :
  scored ZRaise false [Fin 1; Fin (-1)] (mkArr Dense (mkMat 2 2 [[PInf; Fin 0]; [Fin 0; Fin 1]])) (Ok NaN) /\
  scored (ZValue (Fin 7)) false [PInf; Fin 1] (mkArr Dense (mkMat 2 2 [[Fin 1; Fin 1]; [Fin 1; Fin 1]])) (Ok (Fin 7)) /\
  scored ZRaise true [Fin 1; Fin 1] (mkArr Dense (mkMat 2 2 [[Fin 1; Fin 1]; [Fin 1; Fin 1]])) (Ok (Fin 1)).
Proof.
  assert (D2 : forall P : nat -> nat -> Prop, P 0 0 -> P 0 1 -> P 1 0 -> P 1 1 -> forall i j, i < 2 -> j < 2 -> P i j).
  { intros P H1 H2 H3 H4 [|[|i]] [|[|j]] Hi Hj; try lia; assumption. }
  split; [|split]; (split; [cbn; intros [H|H]; contradiction H; reflexivity|]);
    (split; [intros _ _ H; discriminate|]); intros _ _ _; (split; [intros HV|intros NV NV']).
  - exfalso. destruct HV as [(A & HA & _)|(A & HA & Hle)].
    + specialize (HA 0 0 ltac:(cbn; lia) ltac:(cbn; lia)). discriminate.
    + assert (H00 := HA 0 0 ltac:(cbn; lia) ltac:(cbn; lia)). assert (H01 := HA 0 1 ltac:(cbn; lia) ltac:(cbn; lia)).
      assert (H10 := HA 1 0 ltac:(cbn; lia) ltac:(cbn; lia)). assert (H11 := HA 1 1 ltac:(cbn; lia) ltac:(cbn; lia)).
      cbn in H00, H01, H10, H11. injection H00 as H00. injection H01 as H01. injection H10 as H10. injection H11 as H11.
      assert (E : fnorm 2 2 (as_centred false 2 A) = 2%R).
      { unfold fnorm, fprod, as_centred, centred, rowmean, colmean, allmean. cbn [rsum].
        rewrite <- H00, <- H01, <- H10, <- H11. change (INR 2) with 2%R.
        match goal with |- sqrt ?x = _ => replace x with (2 * 2)%R by field end. apply sqrt_square. lra. }
      cbn [length] in Hle. rewrite E in Hle. unfold tiny in Hle. lra.
  - split; [reflexivity|]. intros A B HA _. exfalso. specialize (HA 0 0 ltac:(cbn; lia) ltac:(cbn; lia)). discriminate.
  - reflexivity.
  - exfalso. apply NV. exists (fun _ _ => 1%R). split.
    + unfold numbers_of. apply D2; reflexivity.
    + assert (E : fnorm 2 2 (as_centred false 2 (fun _ _ => 1%R)) = 0%R).
      { unfold fnorm, fprod, as_centred, centred, rowmean, colmean, allmean. cbn [rsum]. change (INR 2) with 2%R.
        match goal with |- sqrt ?x = _ => replace x with 0%R by field end. apply sqrt_0. }
      cbn [length]. rewrite E. unfold tiny. lra.
  - exfalso. assert (E : forall A, (forall i j, i < 2 -> j < 2 -> A i j = 1%R) -> fnorm 2 2 (as_centred true 2 A) = 2%R).
    { intros A HA. unfold fnorm, fprod, as_centred. cbn [rsum]. rewrite !HA by lia.
      match goal with |- sqrt ?x = _ => replace x with (2 * 2)%R by ring end. apply sqrt_square. lra. }
    destruct HV as [(A & HA & Hle)|(A & HA & Hle)]; (assert (EA : forall i j, i < 2 -> j < 2 -> A i j = 1%R);
      [apply D2; [assert (H := HA 0 0 ltac:(cbn; lia) ltac:(cbn; lia))|assert (H := HA 0 1 ltac:(cbn; lia) ltac:(cbn; lia))
      |assert (H := HA 1 0 ltac:(cbn; lia) ltac:(cbn; lia))|assert (H := HA 1 1 ltac:(cbn; lia) ltac:(cbn; lia))]; cbn in H; injection H as H; lra|]);
      cbn [length] in Hle; rewrite (E A EA) in Hle; unfold tiny in Hle; lra.
  - split.
    + intros [(i & j & Hi & Hj & H)|(i & j & Hi & Hj & H)]; exfalso; cbn [length] in Hi, Hj;
        destruct i as [|[|i]], j as [|[|j]]; try lia; eapply H; cbn; reflexivity.
    + intros A B HA HB. cbn [length].
      assert (EA : forall i j, i < 2 -> j < 2 -> A i j = 1%R).
      { apply D2; [assert (H := HA 0 0 ltac:(cbn; lia) ltac:(cbn; lia))|assert (H := HA 0 1 ltac:(cbn; lia) ltac:(cbn; lia))
        |assert (H := HA 1 0 ltac:(cbn; lia) ltac:(cbn; lia))|assert (H := HA 1 1 ltac:(cbn; lia) ltac:(cbn; lia))];
        cbn in H; injection H as H; lra. }
      assert (EB : forall i j, i < 2 -> j < 2 -> B i j = 1%R).
      { apply D2; [assert (H := HB 0 0 ltac:(cbn; lia) ltac:(cbn; lia))|assert (H := HB 0 1 ltac:(cbn; lia) ltac:(cbn; lia))
        |assert (H := HB 1 0 ltac:(cbn; lia) ltac:(cbn; lia))|assert (H := HB 1 1 ltac:(cbn; lia) ltac:(cbn; lia))];
        cbn in H; injection H as H; lra. }
      assert (EN : forall C, (forall i j, i < 2 -> j < 2 -> C i j = 1%R) -> fnorm 2 2 (as_centred true 2 C) = 2%R).
      { intros C HC. unfold fnorm, fprod, as_centred. cbn [rsum]. rewrite !HC by lia.
        match goal with |- sqrt ?x = _ => replace x with (2 * 2)%R by ring end. apply sqrt_square. lra. }
      rewrite (EN A EA), (EN B EB). do 2 f_equal. unfold fprod, as_centred. cbn [rsum].
      rewrite !EA, !EB by lia. field.
Qed.

(** C52: the learners that CV_ranking cross-validates: whatever the case of the name, 'svm' and 'svc' stand for a
    classifier and 'svr' for a regressor on precomputed kernel matrices, C being tried at the twelve powers
    of ten from 1e-6 to 1e5; there are no others. *)
Lemma pf_C52_learner : forall name,
  match get_estimator name with
  | Ok (s, grid) =>
      (svm_regression s = false /\ (lower name = "svm"%string \/ lower name = "svc"%string) \/
       svm_regression s = true /\ lower name = "svr"%string) /\
      svm_kernel s = "precomputed"%string /\ svm_C s = 10%R /\
      length grid = 12 /\ forall i, i < 12 -> nth i grid 0%R = (10 ^ i / 1000000)%R
  | Raise e => e = NotImplementedErr /\ ~ In (lower name) ["svm"; "svc"; "svr"]%string
  end.
Proof.
  intros name.
  assert (HG : length range_C = 12 /\ forall i, i < 12 -> nth i range_C 0%R = (10 ^ i / 1000000)%R).
  { split; [reflexivity|]. intros i Hi. do 12 (destruct i as [|i]; [unfold range_C; cbn [map nth powerRZ]; rewrite ?pow_IZR, ?pow_1; simpl; lra|]). lia. }
  unfold get_estimator. destruct (String.eqb (lower name) "svm") eqn:E1.
  - cbn [orb]. apply String.eqb_eq in E1. split; [left; split; [reflexivity|left; exact E1]|].
    split; [reflexivity|]. split; [reflexivity|exact HG].
  - cbn [orb]. destruct (String.eqb (lower name) "svc") eqn:E2.
    + apply String.eqb_eq in E2. split; [left; split; [reflexivity|right; exact E2]|].
      split; [reflexivity|]. split; [reflexivity|exact HG].
    + destruct (String.eqb (lower name) "svr") eqn:E3.
      * apply String.eqb_eq in E3. split; [right; split; [reflexivity|exact E3]|].
        split; [reflexivity|]. split; [reflexivity|exact HG].
      * split; [reflexivity|]. apply String.eqb_neq in E1, E2, E3. intros [H|[H|[H|[]]]]; congruence.
Qed.
