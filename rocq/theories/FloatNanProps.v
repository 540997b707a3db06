(** C104: NaN, infinities and rejected inputs in double precision. *)
From Coq Require Import String ZArith List Bool Arith Lia Permutation Floats.SpecFloat.
Import ListNotations.
From Verif Require Import Prelude MatModel MatFacts UtilsModel KMModel SpecKM KernelsModel FloatModel FloatOpsModel FloatKMModel SpecFloats SpecFloatNan FloatProps KMProps FloatKMFacts SpecFloatOps.
From Verif Require FloatCentreProps.
Local Open Scope nat_scope.

Lemma fadd_nan_l : forall x, fadd S754_nan x = S754_nan.
Proof. reflexivity. Qed.
Lemma fadd_nan_r : forall x, fadd x S754_nan = S754_nan.
Proof. destruct x; reflexivity. Qed.
Lemma fmul_nan_l : forall x, fmul S754_nan x = S754_nan.
Proof. reflexivity. Qed.
Lemma fmul_nan_r : forall x, fmul x S754_nan = S754_nan.
Proof. destruct x; reflexivity. Qed.

Lemma adds_nan : forall l v, adds_up l v -> In S754_nan l -> v = S754_nan.
Proof.
  intros l v H. induction H as [s|v|l1 l2 l a b H1 IH1 H2 IH2 HP]; intros Hin.
  - destruct Hin.
  - destruct Hin as [Hin|[]]. symmetry in Hin. congruence.
  - apply (Permutation_in _ HP) in Hin. apply in_app_or in Hin. destruct Hin as [Hin|Hin].
    + rewrite (IH1 Hin). apply fadd_nan_l.
    + rewrite (IH2 Hin). apply fadd_nan_r.
Qed.

(** A sum with an infinite term is infinite or NaN. *)
Lemma fadd_big : forall x y, f_finite x = false \/ f_finite y = false -> f_finite (fadd x y) = false.
Proof. intros x y [H|H]; destruct x as [| | |], y as [| | |]; try discriminate H; try reflexivity; cbn; destruct (Bool.eqb _ _); reflexivity. Qed.
Lemma adds_big : forall l v, adds_up l v -> (exists x, In x l /\ f_finite x = false) -> f_finite v = false.
Proof.
  intros l v H. induction H as [s|v|l1 l2 l a b H1 IH1 H2 IH2 HP]; intros (x & Hin & Hx).
  - destruct Hin.
  - destruct Hin as [Hin|[]]. congruence.
  - apply (Permutation_in _ HP) in Hin. apply in_app_or in Hin. apply fadd_big. destruct Hin as [Hin|Hin].
    + left. apply IH1. eauto.
    + right. apply IH2. eauto.
Qed.
Lemma zero_times_big : forall x y, f_finite x = false -> f_iszero y = true -> fmul x y = S754_nan /\ fmul y x = S754_nan.
Proof. intros x y Hx Hy. destruct x; try discriminate Hx; destruct y; try discriminate Hy; split; reflexivity. Qed.

(** ** np.isclose *)

(** C104: np.isclose in double precision: NaN is close to nothing, an infinity to itself only, and the numbers close to
    zero are those of absolute value at most 1e-8. *)
Lemma pf_C104_isclose :
  (forall x, fisclose S754_nan x = false /\ fisclose x S754_nan = false) /\
  (forall s x, fisclose (S754_infinity s) x = true <-> x = S754_infinity s) /\
  (forall s x, fisclose x (S754_infinity s) = true <-> x = S754_infinity s) /\
  (forall x, fisclose x fzero = true <-> f_finite x = true /\ SFleb (fabs x) f_atol = true).
Proof.
  split; [|split; [|split]].
  - intros x. split; [reflexivity|]. unfold fisclose. destruct x; reflexivity.
  - intros s x. split; intros H.
    + destruct s, x as [z|[]| |z m e]; unfold fisclose in H; cbn in H; try discriminate H; try reflexivity; destruct z; discriminate H.
    + subst x. destruct s; reflexivity.
  - intros s x. split; intros H.
    + destruct s, x as [z|[]| |z m e]; unfold fisclose in H; cbn in H; try discriminate H; try reflexivity; destruct z; discriminate H.
    + subst x. destruct s; reflexivity.
  - intros x. destruct x as [z|z| |z m e].
    + destruct z; vm_compute; intuition.
    + destruct z; vm_compute; intuition congruence.
    + vm_compute; intuition congruence.
    + unfold fisclose. cbn [f_isfinite fzero fint binary_normalize andb f_finite].
      change (fsub (S754_finite z m e) (S754_zero false)) with (S754_finite z m e).
      change (fadd f_atol (fmul f_rtol (fabs (S754_zero false)))) with f_atol. tauto.
Qed.

(** ** Which matrices are rejected *)

Lemma existsb_nth_iff : forall {A} (f : A -> bool) l d, existsb f l = true <-> exists i, i < length l /\ f (nth i l d) = true.
Proof.
  intros A f l d. rewrite existsb_exists. split.
  - intros (x & Hx & Hf). destruct (In_nth l x d Hx) as (i & Hi & He). exists i. split; [exact Hi|]. rewrite He. exact Hf.
  - intros (i & Hi & Hf). exists (nth i l d). split; [apply nth_In, Hi|exact Hf].
Qed.

Lemma any_zero_tiny : forall l : list f64, fany_zero l = true <-> exists i, i < length l /\ tiny (nth i l S754_nan).
Proof.
  intros l. unfold fany_zero. rewrite (existsb_nth_iff _ _ S754_nan). destruct pf_C104_isclose as (_ & _ & _ & H).
  split; intros (i & Hi & Ht); exists i; (split; [exact Hi|]); apply H, Ht.
Qed.
Lemma any_zero_dec : forall l, fany_zero l = false -> forall i, i < length l -> ~ tiny (nth i l S754_nan).
Proof. intros l H i Hi Ht. assert (fany_zero l = true) by (apply any_zero_tiny; eauto). congruence. Qed.
Lemma tiny_dec : forall l, {exists i, i < length l /\ tiny (nth i l S754_nan)} + {forall i, i < length l -> ~ tiny (nth i l S754_nan)}.
Proof.
  intros l. destruct (fany_zero l) eqn:H; [left; apply any_zero_tiny, H|right; apply any_zero_dec, H].
Qed.
Lemma fdiagonal_nth : forall A i, i < Nat.min (mr A) (mc A) -> nth i (fdiagonal_of A) S754_nan = fget A i i.
Proof.
  intros A i Hi. unfold fdiagonal_of. rewrite nth_indep with (d' := fget A 0 0) by (rewrite map_length, seq_length; exact Hi).
  rewrite (map_nth (fun i => fget A i i)), seq_nth by exact Hi. reflexivity.
Qed.

(** C104: normalize_km rejects exactly: matrices that are not square (ValueError), methods other than cosine
    (NotImplementedError), and matrices with a number of absolute value at most 1e-8 on the diagonal
    (KMNormError); in particular not those with NaN, an infinity or a negative number there. *)
Lemma pf_C104_normalize_rejects : forall e method a,
  let n := mr (amat a) in
  let A := fget (amat a) in
  (n <> mc (amat a) -> fnormalize_km e method a = Raise ValueError) /\
  (n = mc (amat a) -> lower method <> "cosine"%string -> fnormalize_km e method a = Raise NotImplementedErr) /\
  (n = mc (amat a) -> lower method = "cosine"%string -> (exists i, i < n /\ tiny (A i i)) ->
     fnormalize_km e method a = Raise KMNormError) /\
  (n = mc (amat a) -> lower method = "cosine"%string -> (forall i, i < n -> ~ tiny (A i i)) ->
     exists B, fnormalize_km e method a = Ok B /\ mr (amat B) = n /\ mc (amat B) = n).
Proof.
  intros e method a n A. unfold fnormalize_km. fold n.
  assert (Hl : n = mc (amat a) -> length (fdiagonal_of (amat a)) = n).
  { intros Hn. unfold fdiagonal_of. rewrite map_length, seq_length, <- Hn. fold n. apply Nat.min_id. }
  assert (Hd : n = mc (amat a) -> forall i, i < n -> nth i (fdiagonal_of (amat a)) S754_nan = A i i).
  { intros Hn i Hi. apply fdiagonal_nth. rewrite <- Hn. fold n. rewrite Nat.min_id. exact Hi. }
  split; [|split; [|split]].
  - intros H. apply Nat.eqb_neq in H. rewrite H. reflexivity.
  - intros Hn Hm. rewrite <- Hn, Nat.eqb_refl. apply String.eqb_neq in Hm. rewrite Hm. reflexivity.
  - intros Hn Hm (i & Hi & Ht). rewrite <- Hn, Nat.eqb_refl, Hm. cbn [negb String.eqb Ascii.eqb Bool.eqb].
    replace (fany_zero _) with true; [reflexivity|]. symmetry. apply any_zero_tiny. exists i. rewrite (Hl Hn), (Hd Hn i Hi). auto.
  - intros Hn Hm Ht. rewrite <- Hn, Nat.eqb_refl, Hm. cbn [negb String.eqb Ascii.eqb Bool.eqb].
    destruct (fany_zero (fdiagonal_of (amat a))) eqn:Hz.
    + exfalso. apply any_zero_tiny in Hz. destruct Hz as (i & Hi & Hz). rewrite (Hl Hn) in Hi. rewrite (Hd Hn i Hi) in Hz. exact (Ht i Hi Hz).
    + eexists. split; [reflexivity|]. unfold fscale_both, finv_sqrt. cbn. rewrite map_length, (Hl Hn). auto.
Qed.

(** C104: normalize_km_2sample likewise. *)
Lemma pf_C104_normalize2_rejects : forall e method a (dx dy : list f64),
  let bad := length dx <> mr (amat a) \/ mc (amat a) <> length dy in
  let zero := (exists i, i < length dx /\ tiny (nth i dx S754_nan)) \/ (exists i, i < length dy /\ tiny (nth i dy S754_nan)) in
  (bad -> fnormalize_km_2sample e method a dx dy = Raise ValueError) /\
  (~ bad -> lower method <> "cosine"%string -> fnormalize_km_2sample e method a dx dy = Raise NotImplementedErr) /\
  (~ bad -> lower method = "cosine"%string -> zero -> fnormalize_km_2sample e method a dx dy = Raise KMNormError) /\
  (~ bad -> lower method = "cosine"%string -> ~ zero ->
     exists B, fnormalize_km_2sample e method a dx dy = Ok B /\ mr (amat B) = length dx /\ mc (amat B) = length dy).
Proof.
  intros e method a dx dy bad zero. unfold fnormalize_km_2sample.
  assert (Hb : negb (length dx =? mr (amat a)) || negb (mc (amat a) =? length dy) = true <-> bad).
  { unfold bad. rewrite orb_true_iff, !negb_true_iff, !Nat.eqb_neq. tauto. }
  assert (Hz : fany_zero dx || fany_zero dy = true <-> zero).
  { unfold zero. rewrite orb_true_iff, !any_zero_tiny. tauto. }
  split; [|split; [|split]].
  - intros H. apply Hb in H. rewrite H. reflexivity.
  - intros H Hm. destruct (negb _ || _); [exfalso; apply H, Hb; reflexivity|]. apply String.eqb_neq in Hm. rewrite Hm. reflexivity.
  - intros H Hm HZ. destruct (negb _ || _); [exfalso; apply H, Hb; reflexivity|]. rewrite Hm. cbn [String.eqb Ascii.eqb Bool.eqb].
    apply Hz in HZ. rewrite HZ. reflexivity.
  - intros H Hm HZ. destruct (negb _ || _); [exfalso; apply H, Hb; reflexivity|]. rewrite Hm. cbn [String.eqb Ascii.eqb Bool.eqb].
    destruct (fany_zero dx || fany_zero dy); [exfalso; apply HZ, Hz; reflexivity|].
    eexists. split; [reflexivity|]. unfold fscale_both, finv_sqrt. cbn. rewrite !map_length. auto.
Qed.

(** C104: linear_combination rejects exactly: a wrong number of weights (ValueError) and, if the weights are to be
    normalised, a sum of absolute value at most 1e-8 (RuntimeError); weights that are NaN or infinite are accepted. *)
Lemma pf_C104_combination_rejects : forall e nw w Ks,
  (length Ks <> length w -> flinear_combination e nw w Ks = Raise ValueError) /\
  (length Ks = length w -> nw = true -> tiny (e_sum e w) -> flinear_combination e nw w Ks = Raise RuntimeError) /\
  (length Ks = length w -> nw = false \/ ~ tiny (e_sum e w) -> exists C, flinear_combination e nw w Ks = Ok C).
Proof.
  intros e nw w Ks. unfold flinear_combination, fweights. destruct pf_C104_isclose as (_ & _ & _ & HZ). split; [|split].
  - intros H. apply Nat.eqb_neq in H. rewrite H. reflexivity.
  - intros -> -> Ht. rewrite Nat.eqb_refl. apply HZ in Ht. rewrite Ht. reflexivity.
  - intros -> Ht. rewrite Nat.eqb_refl. destruct nw; [|eexists; reflexivity].
    destruct (fisclose (e_sum e w) fzero) eqn:Hc; [|eexists; reflexivity].
    exfalso. apply HZ in Hc. destruct Ht as [Ht|Ht]; [discriminate|]. exact (Ht Hc).
Qed.

(** C104: center_km and frob_norm reject matrices that are not square: center_km every other, and every sparse one;
    frob_norm only sparse ones. *)
Lemma pf_C104_square_only : forall e a,
  (is_ndarray a = false \/ mr (amat a) <> mc (amat a) <-> fcenter_km e a = Raise ValueError) /\
  ((exists B, fcenter_km e a = Ok B) <-> is_ndarray a = true /\ mr (amat a) = mc (amat a)) /\
  (ffrob_norm e a = Raise ValueError <-> is_sparse a = true /\ mr (amat a) <> mc (amat a)) /\
  ((exists v, ffrob_norm e a = Ok v) <-> is_sparse a = false \/ mr (amat a) = mc (amat a)).
Proof.
  intros e a. unfold fcenter_km, ffrob_norm.
  destruct (is_ndarray a), (is_sparse a), (Nat.eqb_spec (mr (amat a)) (mc (amat a))) as [Hn|Hn];
    (split; [|split; [|split]]); split; intros; try discriminate; try (intuition congruence); try (eexists; reflexivity);
    repeat match goal with H : exists _, _ |- _ => destruct H end; try discriminate; intuition congruence.
Qed.

(** ** NaN *)

Lemma scale_nan_entry : forall e u v a p q i j, decent e ->
  p < length u -> q < length v -> i < length u -> j < length v ->
  fget (amat a) p q = S754_nan -> fget (amat (fscale_both e u v a)) i j = S754_nan.
Proof.
  intros e u v a p q i j He Hp Hq Hi Hj Hn. unfold fscale_both, fget at 1. cbn [amat].
  rewrite mget_tabulate by assumption. apply (adds_nan _ _ (d_acc e He _)). apply in_map_iff. exists q. split; [|apply in_seq; lia].
  replace (e_acc e _) with S754_nan; [apply fmul_nan_l|]. symmetry.
  apply (adds_nan _ _ (d_acc e He _)). apply in_map_iff. exists p. split; [rewrite Hn; apply fmul_nan_r|].
  assert (Hs : In p (seq 0 (length u))) by (apply in_seq; lia).
  destruct (afmt a); try exact Hs. apply filter_In. rewrite Hn. auto.
Qed.

(** C104: one NaN in a matrix, dense or sparse, makes every entry of the normalised matrix NaN. *)
Lemma pf_C104_nan_normalize : forall e, decent e ->
  (forall method a B p q, fnormalize_km e method a = Ok B -> p < mr (amat a) -> q < mr (amat a) ->
     fget (amat a) p q = S754_nan ->
     forall i j, i < mr (amat a) -> j < mr (amat a) -> fget (amat B) i j = S754_nan) /\
  (forall method a (dx dy : list f64) B p q, fnormalize_km_2sample e method a dx dy = Ok B -> p < mr (amat a) -> q < mc (amat a) ->
     fget (amat a) p q = S754_nan ->
     forall i j, i < mr (amat a) -> j < mc (amat a) -> fget (amat B) i j = S754_nan).
Proof.
  intros e He. split.
  - intros method a B p q H Hp Hq Hn i j Hi Hj. unfold fnormalize_km in H.
    destruct (Nat.eqb_spec (mr (amat a)) (mc (amat a))) as [E|]; [|discriminate H]. cbn [negb] in H.
    destruct (String.eqb _ _); [|discriminate H]. destruct (fany_zero _); [discriminate H|]. injection H as <-.
    assert (Hl : length (finv_sqrt (fdiagonal_of (amat a))) = mr (amat a)).
    { unfold finv_sqrt, fdiagonal_of. rewrite !map_length, seq_length, <- E. apply Nat.min_id. }
    apply (scale_nan_entry e _ _ a p q); rewrite ?Hl; assumption.
  - intros method a dx dy B p q H Hp Hq Hn i j Hi Hj. unfold fnormalize_km_2sample in H.
    destruct (Nat.eqb_spec (length dx) (mr (amat a))) as [E|]; [|discriminate H].
    destruct (Nat.eqb_spec (mc (amat a)) (length dy)) as [E'|]; [|discriminate H]. cbn [negb orb] in H.
    destruct (String.eqb _ _); [|discriminate H]. destruct (_ || _); [discriminate H|]. injection H as <-.
    apply (scale_nan_entry e _ _ a p q); unfold finv_sqrt; rewrite ?map_length, ?E, <- ?E'; assumption.
Qed.

Lemma matmul_nan_r : forall e n (A B : nat -> nat -> f64) k j, decent e -> k < n -> B k j = S754_nan -> forall i, fmatmul e n A B i j = S754_nan.
Proof.
  intros e n A B k j He Hk Hn i. apply (adds_nan _ _ (d_acc e He _)). apply in_map_iff. exists k. split; [rewrite Hn; apply fmul_nan_r|apply in_seq; lia].
Qed.
Lemma matmul_nan_l : forall e n (A B : nat -> nat -> f64) k i, decent e -> k < n -> A i k = S754_nan -> forall j, fmatmul e n A B i j = S754_nan.
Proof.
  intros e n A B k i He Hk Hn j. apply (adds_nan _ _ (d_acc e He _)). apply in_map_iff. exists k. split; [rewrite Hn; apply fmul_nan_l|apply in_seq; lia].
Qed.
Lemma frobenius_nan : forall e n m A B, decent e -> (exists p q, p < n /\ q < m /\ (A p q = S754_nan \/ B p q = S754_nan)) ->
  ffrobenius e n m A B = S754_nan.
Proof.
  intros e n m A B He (p & q & Hp & Hq & H). apply (adds_nan _ _ (d_sum e He _)). apply in_map_iff. exists (p * m + q). split.
  - rewrite Nat.add_comm, Nat.div_add, Nat.mod_add by lia. rewrite (Nat.div_small q m), (Nat.mod_small q m) by lia. cbn [Nat.add].
    destruct H as [H|H]; rewrite H; [apply fmul_nan_l|apply fmul_nan_r].
  - apply in_seq. nia.
Qed.

(** C104: one NaN in an ndarray makes every entry of the centred matrix NaN, and the Frobenius products with any
    matrix and its norm. *)
Lemma pf_C104_nan_dense : forall e n m (A : nat -> nat -> f64) p q, decent e -> p < n -> q < m -> A p q = S754_nan ->
  (n = m -> forall i j, fcenter e n A i j = S754_nan) /\
  (forall B, ffrobenius e n m A B = S754_nan /\ ffrobenius e n m B A = S754_nan) /\
  ffrobenius_norm e n m A = S754_nan.
Proof.
  intros e n m A p q He Hp Hq Hn. split; [|split].
  - intros <- i j. unfold fcenter. apply (matmul_nan_l e n _ _ q); [exact He|exact Hq|]. apply (matmul_nan_r e n _ _ p); assumption.
  - intros B. split; apply frobenius_nan; try exact He; exists p, q; auto.
  - unfold ffrobenius_norm. rewrite frobenius_nan; [reflexivity|exact He|]. exists p, q; auto.
Qed.

(** C104: the alignment with a matrix that has a NaN is NaN, unless the other one is constant up to 1e-8 - then
    value_if_zero_division or ValueError, as if there were no NaN. *)
Lemma pf_C104_nan_alignment : forall e n (A B : nat -> nat -> f64) value (c : bool) p q, decent e -> p < n -> q < n -> A p q = S754_nan ->
  let nb := ffrobenius_norm e n n (if c then B else fcenter e n B) in
  (~ tiny nb -> falignment e n A B value c = Ok S754_nan /\ falignment e n B A value c = Ok S754_nan) /\
  (tiny nb -> falignment e n A B value c = match value with Some v => Ok v | None => Raise ValueError end /\
              falignment e n B A value c = match value with Some v => Ok v | None => Raise ValueError end).
Proof.
  intros e n A B value c p q He Hp Hq Hn nb. destruct pf_C104_isclose as (HN & _ & _ & HZ).
  set (a := if c then A else fcenter e n A). set (b := if c then B else fcenter e n B).
  assert (Ha : a p q = S754_nan) by (unfold a; destruct c; [exact Hn|apply (pf_C104_nan_dense e n n A p q He Hp Hq Hn); reflexivity]).
  assert (Hna : ffrobenius_norm e n n a = S754_nan) by (apply (pf_C104_nan_dense e n n a p q He Hp Hq Ha)).
  assert (Hp1 : ffrobenius e n n a b = S754_nan) by (apply (pf_C104_nan_dense e n n a p q He Hp Hq Ha)).
  assert (Hp2 : ffrobenius e n n b a = S754_nan) by (apply (pf_C104_nan_dense e n n a p q He Hp Hq Ha)).
  unfold falignment. cbv zeta. fold a b. change (ffrobenius_norm e n n b) with nb. rewrite Hna.
  rewrite (proj1 (HN fzero)). cbn [orb]. rewrite orb_false_r, Hp1, Hp2. split.
  - intros Ht. destruct (fisclose nb fzero) eqn:Hc; [exfalso; apply Ht, HZ, Hc|]. split; reflexivity.
  - intros Ht. apply HZ in Ht. rewrite Ht. split; reflexivity.
Qed.

Lemma fold_fadd_nan : forall l acc, acc = S754_nan \/ In S754_nan l -> fold_left fadd l acc = S754_nan.
Proof.
  induction l as [|x l IH]; intros acc [H|H]; [exact H|destruct H|..]; cbn [fold_left].
  - apply IH. left. rewrite H. apply fadd_nan_l.
  - destruct H as [->|H]; [apply IH; left; apply fadd_nan_r|apply IH; right; exact H].
Qed.
Lemma fcombine_nan : forall w Ks i j l, l < length w -> l < length Ks ->
  (nth l w fzero = S754_nan \/ nth l Ks (fun _ _ => fzero) i j = S754_nan) -> fcombine w Ks i j = S754_nan.
Proof.
  intros w Ks i j l Hw HK H. unfold fcombine.
  assert (G : forall (ps : list (f64 * (nat -> nat -> f64))) acc,
    fold_left (fun acc p => fadd acc (fmul (fst p) (snd p i j))) ps acc = fold_left fadd (map (fun p => fmul (fst p) (snd p i j)) ps) acc).
  { induction ps as [|p ps IH]; intros acc; [reflexivity|]. cbn. apply IH. }
  rewrite G. apply fold_fadd_nan. right. apply in_map_iff. exists (nth l w fzero, nth l Ks (fun _ _ => fzero)). cbn [fst snd]. split.
  - destruct H as [H|H]; rewrite H; [apply fmul_nan_l|apply fmul_nan_r].
  - clear - Hw HK. revert l Ks Hw HK. induction w as [|x w IH]; intros l Ks Hw HK; [cbn in Hw; lia|].
    destruct Ks as [|K Ks]; [cbn in HK; lia|]. destruct l as [|l]; [left; reflexivity|].
    right. apply (IH l Ks); cbn in *; lia.
Qed.

(** C104: in a linear combination a NaN stays at its place, whatever its weight (a weight 0 does not remove it); a weight
    NaN makes the whole combination NaN, also the others being normalised. *)
Lemma pf_C104_nan_combination : forall e nw w Ks C l, decent e -> flinear_combination e nw w Ks = Ok C -> l < length w ->
  (forall i j, nth l Ks (fun _ _ => fzero) i j = S754_nan -> C i j = S754_nan) /\
  (nth l w fzero = S754_nan -> forall i j, C i j = S754_nan).
Proof.
  intros e nw w Ks C l He H Hl. unfold flinear_combination in H.
  destruct (Nat.eqb_spec (length Ks) (length w)) as [E|]; [|discriminate H].
  unfold fweights in H. assert (HK : l < length Ks) by lia.
  destruct nw.
  - destruct (fisclose (e_sum e w) fzero); [discriminate H|]. cbn in H. injection H as <-. split.
    + intros i j Hn. apply (fcombine_nan _ _ i j l); rewrite ?map_length; auto.
    + intros Hn i j. apply (fcombine_nan _ _ i j l); rewrite ?map_length; auto. left.
      rewrite nth_indep with (d' := fdiv fzero (e_sum e w)) by (rewrite map_length; exact Hl).
      rewrite (map_nth (fun v => fdiv v (e_sum e w))), Hn. reflexivity.
  - cbn in H. injection H as <-. split; intros; apply (fcombine_nan _ _ i j l); auto.
Qed.

(** C104: a matrix with a NaN is neither symmetric nor positive semidefinite, whatever the eigenvalue routine does. *)
Lemma pf_C104_nan_psd : forall n (A : nat -> nat -> f64) p q, p < n -> q < n -> A p q = S754_nan ->
  fnot_symmetric n A = true /\
  forall eigvalsh a tol, is_ndarray a = true -> n = mr (amat a) -> (forall i j, A i j = fget (amat a) i j) ->
    fis_PSD eigvalsh a tol = Ok false.
Proof.
  intros n A p q Hp Hq Hn. assert (G : forall B : nat -> nat -> f64, B p q = S754_nan -> fnot_symmetric n B = true).
  { intros B HB. unfold fnot_symmetric. apply negb_true_iff. apply not_true_is_false. intros H. rewrite forallb_forall in H.
    specialize (H p ltac:(apply in_seq; lia)). cbv beta in H. rewrite forallb_forall in H. specialize (H q ltac:(apply in_seq; lia)).
    cbv beta in H. rewrite HB in H. discriminate H. }
  split; [apply G, Hn|]. intros eigvalsh a tol Ha E HA. unfold fis_PSD. rewrite Ha. cbn [negb].
  destruct (negb (mr (amat a) =? mc (amat a))); [reflexivity|]. rewrite <- E, G; [reflexivity|]. rewrite <- HA. exact Hn.
Qed.

(** ** Infinities *)

Lemma fmul_big : forall x y, f_finite x = false -> f_finite (fmul x y) = false /\ f_finite (fmul y x) = false.
Proof. intros x y H. destruct x; try discriminate H; destruct y; split; reflexivity. Qed.

Lemma scale_big_entry : forall e u v a p q i j, decent e ->
  p < length u -> q < length v -> i < length u -> j < length v ->
  f_finite (fget (amat a) p q) = false ->
  f_finite (fget (amat (fscale_both e u v a)) i j) = false /\
  (i <> p \/ j <> q -> fget (amat (fscale_both e u v a)) i j = S754_nan).
Proof.
  intros e u v a p q i j He Hp Hq Hi Hj Hn.
  set (ks := fun j => match afmt a with Lil => filter (fun k => fnonzero (fget (amat a) k j)) (seq 0 (length u)) | _ => seq 0 (length u) end).
  set (L := fun i j => e_acc e (map (fun k => fmul (fdiag u i k) (fget (amat a) k j)) (ks j))).
  assert (HE : fget (amat (fscale_both e u v a)) i j = e_acc e (map (fun k => fmul (L i k) (fdiag v k j)) (seq 0 (length v)))).
  { unfold fscale_both, fget at 1. cbn [amat]. rewrite mget_tabulate by assumption. reflexivity. }
  rewrite HE. clear HE.
  assert (Hk : In p (ks q)).
  { assert (Hs : In p (seq 0 (length u))) by (apply in_seq; lia). unfold ks.
    destruct (afmt a); try exact Hs. apply filter_In. split; [exact Hs|]. destruct (fget (amat a) p q); try discriminate Hn; reflexivity. }
  assert (H1 : f_finite (L i q) = false).
  { apply (adds_big _ _ (d_acc e He _)). exists (fmul (fdiag u i p) (fget (amat a) p q)). split.
    - apply in_map_iff. exists p. auto.
    - apply fmul_big, Hn. }
  assert (H2 : i <> p -> L i q = S754_nan).
  { intros Hne. apply (adds_nan _ _ (d_acc e He _)). apply in_map_iff. exists p. split; [|exact Hk].
    apply zero_times_big; [exact Hn|]. unfold fdiag. apply Nat.eqb_neq in Hne. rewrite Hne. reflexivity. }
  assert (Hs : In q (seq 0 (length v))) by (apply in_seq; lia).
  split.
  - apply (adds_big _ _ (d_acc e He _)). exists (fmul (L i q) (fdiag v q j)). split; [apply in_map_iff; exists q; auto|]. apply (proj1 (fmul_big _ _ H1)).
  - intros Hne. apply (adds_nan _ _ (d_acc e He _)). apply in_map_iff. exists q. split; [|exact Hs].
    destruct (Nat.eq_dec i p) as [->|Hip]; [|rewrite (H2 Hip); apply fmul_nan_l].
    destruct Hne as [Hne|Hne]; [congruence|]. apply (proj1 (zero_times_big _ (fdiag v q j) H1
      ltac:(unfold fdiag; apply not_eq_sym, Nat.eqb_neq in Hne; rewrite Hne; reflexivity))).
Qed.

(** C104: so does an infinite entry, except possibly at its own place, where the normalised matrix has no finite number
    either. *)
Lemma pf_C104_infinite_normalize : forall e, decent e ->
  (forall method a B p q, fnormalize_km e method a = Ok B -> p < mr (amat a) -> q < mr (amat a) ->
     f_finite (fget (amat a) p q) = false ->
     forall i j, i < mr (amat a) -> j < mr (amat a) ->
       f_finite (fget (amat B) i j) = false /\ (i <> p \/ j <> q -> fget (amat B) i j = S754_nan)) /\
  (forall method a (dx dy : list f64) B p q, fnormalize_km_2sample e method a dx dy = Ok B -> p < mr (amat a) -> q < mc (amat a) ->
     f_finite (fget (amat a) p q) = false ->
     forall i j, i < mr (amat a) -> j < mc (amat a) ->
       f_finite (fget (amat B) i j) = false /\ (i <> p \/ j <> q -> fget (amat B) i j = S754_nan)).
Proof.
  intros e He. split.
  - intros method a B p q H Hp Hq Hn i j Hi Hj. unfold fnormalize_km in H.
    destruct (Nat.eqb_spec (mr (amat a)) (mc (amat a))) as [E|]; [|discriminate H]. cbn [negb] in H.
    destruct (String.eqb _ _); [|discriminate H]. destruct (fany_zero _); [discriminate H|]. injection H as <-.
    assert (Hl : length (finv_sqrt (fdiagonal_of (amat a))) = mr (amat a)).
    { unfold finv_sqrt, fdiagonal_of. rewrite !map_length, seq_length, <- E. apply Nat.min_id. }
    apply (scale_big_entry e _ _ a p q); rewrite ?Hl; assumption.
  - intros method a dx dy B p q H Hp Hq Hn i j Hi Hj. unfold fnormalize_km_2sample in H.
    destruct (Nat.eqb_spec (length dx) (mr (amat a))) as [E|]; [|discriminate H].
    destruct (Nat.eqb_spec (mc (amat a)) (length dy)) as [E'|]; [|discriminate H]. cbn [negb orb] in H.
    destruct (String.eqb _ _); [|discriminate H]. destruct (_ || _); [discriminate H|]. injection H as <-.
    apply (scale_big_entry e _ _ a p q); unfold finv_sqrt; rewrite ?map_length, ?E, <- ?E'; assumption.
Qed.

(** C104: the Frobenius norm of an ndarray with an infinite entry and no NaN is infinite. *)
Lemma pf_C104_infinite_norm : forall e n m (A : nat -> nat -> f64) p q, decent e -> p < n -> q < m ->
  f_finite (A p q) = false -> (forall i j, i < n -> j < m -> A i j <> S754_nan) ->
  ffrobenius_norm e n m A = S754_infinity false.
Proof.
  intros e n m A p q He Hp Hq Hn Hno. unfold ffrobenius_norm.
  assert (Ha := d_sum e He (map (fun k => fmul (A (k / m) (k mod m)) (A (k / m) (k mod m))) (seq 0 (n * m)))).
  change (e_sum e _) with (ffrobenius e n m A A) in Ha.
  assert (H1 : f_finite (ffrobenius e n m A A) = false).
  { apply (adds_big _ _ Ha). exists (fmul (A p q) (A p q)). split; [|apply fmul_big, Hn]. apply in_map_iff. exists (p * m + q). split.
    - rewrite Nat.add_comm, Nat.div_add, Nat.mod_add by lia. rewrite (Nat.div_small q m), (Nat.mod_small q m) by lia. reflexivity.
    - apply in_seq. nia. }
  assert (H2 : f_nonneg (ffrobenius e n m A A) = true).
  { apply (adds_nonneg _ _ Ha). apply forallb_forall. intros x Hx. apply in_map_iff in Hx. destruct Hx as (k & <- & Hk). apply in_seq in Hk.
    apply fsquare_nonneg. assert (m <> 0) by lia. apply Hno; [apply Nat.div_lt_upper_bound; lia|apply Nat.mod_upper_bound; lia]. }
  destruct (ffrobenius e n m A A) as [s|[]| |s mm ee]; try discriminate; reflexivity.
Qed.

(** ** From the kernel to the results *)

(** C104: one NaN among the kernel values of a KernelMatrix makes every entry of what full, full_sparse and
    normed_km give with normalized=True NaN - if no self-similarity is close to zero, or else they raise
    KMNormError -, after every history; centered and frob_norm too, after those without full_sparse and whole-matrix
    indices. *)
Lemma pf_C104_nan_matrix :
  forall {U} e (K : kernel f64 f64) k (pre post : list (op f64 U)) x y n m d p q, decent e ->
    never_raises K k x y n m d -> kfmt K = true -> admissible x y n m d -> no_attach post ->
    p < n -> q < m -> entry k d x y p q = S754_nan ->
    (forall o, o = OpFull \/ o = OpFullSparse \/ o = OpNormedKM ->
       outcome (fN e) o (after (fN e) K true pre x y post) = Raise KMNormError \/
       exists B, outcome (fN e) o (after (fN e) K true pre x y post) = Ok (OArr B) /\
         forall i j, i < n -> j < m -> fget (amat B) i j = S754_nan) /\
    (no_full_sparse post -> no_whole_index n m post -> forall nrm,
       outcome (fN e) OpFrobNorm (after (fN e) K nrm pre x y post) = Ok (OVal S754_nan) /\
       (y = None -> exists B, outcome (fN e) OpCentered (after (fN e) K nrm pre x y post) = Ok (OArr B) /\
          forall i j, i < n -> j < n -> fget (amat B) i j = S754_nan)).
Proof.
  intros U e K k pre post x y n m d p q He Hnr Hf Ha Hno Hp Hq Hn.
  assert (HA : fget (kernel_matrix k n m d x y) p q = S754_nan).
  { unfold fget, kernel_matrix. rewrite mget_tabulate by assumption. exact Hn. }
  assert (Hnm : y = None -> n = m) by (intros ->; destruct Ha as [_ ->]; reflexivity).
  split.
  - intros o Ho. destruct (normalised_formats (fN e) K k pre post x y n m d o (fN_method e) Hnr Hf Ha Hno Ho) as (f & Hff & HO).
    cbv zeta in HO. rewrite HO. clear HO. destruct (pf_C104_nan_normalize e He) as [N1 N2]. destruct y as [y'|].
    + cbn [fN op_normalize2]. set (a := mkArr f (kernel_matrix k n m d x (Some y'))). set (dx := map _ (seq 0 n)). set (dy := map _ (seq 0 m)).
      destruct (pf_C104_normalize2_rejects e "cosine" a dx dy) as (_ & _ & R3 & R4).
      assert (Hl : ~ (length dx <> mr (amat a) \/ mc (amat a) <> length dy)).
      { unfold dx, dy, a. cbn. rewrite !map_length, !seq_length. tauto. }
      destruct (tiny_dec dx) as [Ht|Ht1]; [left; rewrite (R3 Hl eq_refl (or_introl Ht)); reflexivity|].
      destruct (tiny_dec dy) as [Ht|Ht2]; [left; rewrite (R3 Hl eq_refl (or_intror Ht)); reflexivity|].
      right. destruct (R4 Hl eq_refl) as (B & HB & _).
      { intros [(i & Hi & Ht)|(i & Hi & Ht)]; [exact (Ht1 i Hi Ht)|exact (Ht2 i Hi Ht)]. }
      rewrite HB. exists B. split; [reflexivity|]. apply (N2 "cosine"%string a dx dy B p q HB Hp Hq HA).
    + assert (n = m) as <- by (apply Hnm; reflexivity). cbn [fN op_normalize]. set (a := mkArr f (kernel_matrix k n n d x None)).
      destruct (pf_C104_normalize_rejects e default_method a) as (_ & _ & R3 & R4).
      destruct (tiny_dec (fdiagonal_of (amat a))) as [Ht|Ht].
      * left. rewrite R3; [reflexivity|reflexivity|reflexivity|]. destruct Ht as (i & Hi & Ht).
        assert (Hi' : i < n) by (unfold fdiagonal_of in Hi; rewrite map_length, seq_length in Hi; cbn in Hi; lia).
        exists i. split; [exact Hi'|]. rewrite fdiagonal_nth in Ht by (cbn; lia). exact Ht.
      * right. destruct R4 as (B & HB & _); [reflexivity|reflexivity| |].
        { intros i Hi Hti. apply (Ht i).
          - unfold fdiagonal_of. rewrite map_length, seq_length. cbn in *. lia.
          - rewrite fdiagonal_nth by (cbn in *; lia). exact Hti. }
        rewrite HB. exists B. split; [reflexivity|]. apply (N1 default_method a B p q HB Hp Hq HA).
  - intros Hfs Hwi nrm. split.
    + rewrite (FloatCentreProps.frob_generic (fN e) K k nrm pre post x y n m d Hnr Hf Ha Hno Hfs Hwi).
      cbn [fN op_frob]. unfold ffrob_norm. cbn [is_sparse afmt amat].
      replace (ffrobenius_norm e _ _ _) with S754_nan; [reflexivity|]. symmetry.
      apply (pf_C104_nan_dense e n m (fget (kernel_matrix k n m d x y)) p q He Hp Hq HA).
    + intros Hy. assert (n = m) as <- by (apply Hnm, Hy). subst y.
      rewrite (pf_C14_centered_partial (fN e) K k nrm pre post x n d Hnr Hf Ha Hno Hfs Hwi).
      cbn [fN op_center]. unfold fcenter_km. cbn [is_ndarray afmt amat].
      change (mr (kernel_matrix k n n d x None)) with n. change (mc (kernel_matrix k n n d x None)) with n. rewrite Nat.eqb_refl.
      eexists. split; [reflexivity|]. intros i j Hi Hj. unfold fget at 1. cbn [amat]. rewrite mget_tabulate by assumption.
      apply (pf_C104_nan_dense e n n (fget (kernel_matrix k n n d x None)) p q He Hp Hq HA). reflexivity.
Qed.

(** C104: in a sparse matrix a NaN can be hidden: the Frobenius norm of the sparse matrix with rows (0, NaN) and (0, 0)
    is zero, as the entries of the matrix product are added up. *)
Lemma pf_C104_sparse_refuted : exists a : arr f64,
  afmt a = Lil /\ fget (amat a) 0 1 = S754_nan /\ forall e, decent e -> exists s, ffrob_norm e a = Ok (S754_zero s).
Proof.
  exists (mkArr Lil (mkMat 2 2 [[fzero; S754_nan]; [fzero; fzero]])). split; [reflexivity|]. split; [reflexivity|].
  intros e He. set (A := fget (mkMat 2 2 [[fzero; S754_nan]; [fzero; fzero]])).
  set (P := fun i j => e_acc e (map (fun k => fmul (A i k) (A k j)) (filter (fun k => fnonzero (A i k) && fnonzero (A k j)) (seq 0 2)))).
  change (exists s, Ok (fsqrt (e_sum e (map (fun i => e_acc e (map (P i) (seq 0 2))) (seq 0 2)))) = Ok (S754_zero s)).
  assert (Hz : forall l v, adds_up l v -> forallb f_iszero l = true -> f_iszero v = true).
  { intros l v H. induction H as [s|v|l1 l2 l a b H1 IH1 H2 IH2 HP]; intros Hl.
    - reflexivity.
    - cbn in Hl. rewrite andb_true_r in Hl. exact Hl.
    - rewrite forallb_forall in Hl.
      assert (F1 : f_iszero a = true) by (apply IH1; apply forallb_forall; intros; apply Hl; apply (Permutation_in _ (Permutation_sym HP)); apply in_or_app; auto).
      assert (F2 : f_iszero b = true) by (apply IH2; apply forallb_forall; intros; apply Hl; apply (Permutation_in _ (Permutation_sym HP)); apply in_or_app; auto).
      destruct a; try discriminate F1; destruct b; try discriminate F2. cbn. destruct (Bool.eqb _ _); reflexivity. }
  assert (HP : forall i j, i < 2 -> j < 2 -> f_iszero (P i j) = true).
  { intros i j Hi Hj. apply (Hz _ _ (d_acc e He _)). destruct i as [|[|i]]; [| |lia]; destruct j as [|[|j]]; try lia; reflexivity. }
  assert (HS : f_iszero (e_sum e (map (fun i => e_acc e (map (P i) (seq 0 2))) (seq 0 2))) = true).
  { apply (Hz _ _ (d_sum e He _)). apply forallb_forall. intros v Hv. apply in_map_iff in Hv. destruct Hv as (i & <- & Hi). apply in_seq in Hi.
    apply (Hz _ _ (d_acc e He _)). apply forallb_forall. intros v Hv. apply in_map_iff in Hv. destruct Hv as (j & <- & Hj). apply in_seq in Hj.
    apply HP; lia. }
  destruct (e_sum e _) as [s| | |]; try discriminate HS. exists s. reflexivity.
Qed.

(*BEGIN PROP*)
(** The hypotheses are met: a symmetric 3 x 3 matrix with NaN at (0, 2) and (2, 0) and ones on the diagonal, as ndarray
    and sparse, on the plain platform. *)
Definition nan3 : mat f64 := tabulate 3 3 (fun i j => if i =? j then fone else if i + j =? 2 then S754_nan else fzero).
Example C104_example :
  decent plain /\ fget nan3 0 2 = S754_nan /\ (forall i, i < 3 -> ~ tiny (fget nan3 i i)) /\
  (exists B, fnormalize_km plain "cosine" (mkArr Lil nan3) = Ok B /\ fget (amat B) 1 1 = S754_nan) /\
  (exists B, fcenter_km plain (mkArr Dense nan3) = Ok B /\ fget (amat B) 1 1 = S754_nan) /\
  falignment plain 3 (fget nan3) far3 None false = Ok S754_nan /\
  fnormalize_km plain "cosine" (mkArr Dense (tabulate 2 2 (fun i j => if i =? j then fzero else S754_nan))) = Raise KMNormError.
Proof.
  split; [apply pf_C76_platform_example|]. split; [reflexivity|]. split.
  { intros i Hi (_ & H). destruct i as [|[|[|i]]]; [..|lia]; vm_compute in H; discriminate. }
  split; [eexists; split; vm_compute; reflexivity|]. split; [eexists; split; vm_compute; reflexivity|].
  split; vm_compute; reflexivity.
Qed.
(*END PROP*)
