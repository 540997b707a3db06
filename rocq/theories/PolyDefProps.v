(** Which polynomial kernel matrices are positive definite (C111), in exact arithmetic. *)
From Coq Require Import String List Arith ZArith Bool Reals Lra Lia Psatz.
Import ListNotations.
From Verif Require Import Prelude MatModel MatFacts UtilsModel XReal SpecLinAlg RSum PSDFacts OpsModel OpsFacts OpsProps KernelsModel
  SpecKernels KernelFacts KernelProps KMXModel IndexModel KMModel SpecKM SpecSample SampleXProps SpecKMX KMProps KMXProps
  PosDefProps DefiniteProps.
Local Open Scope R_scope.

(** ** Vectors on which a positive semidefinite form vanishes *)

Lemma parallelogram : forall n A c e,
  quad n A (fun i => c i + e i) + quad n A (fun i => c i - e i) = 2 * quad n A c + 2 * quad n A e.
Proof.
  intros n A c e. unfold quad. rewrite <- !rsum_scal, <- !rsum_plus. apply rsum_ext. intros i _.
  rewrite <- !rsum_scal, <- !rsum_plus. apply rsum_ext. intros j _. ring.
Qed.
Lemma null_add : forall n A c e, psd n A -> quad n A c = 0 -> quad n A e = 0 -> quad n A (fun i => c i + e i) = 0.
Proof.
  intros n A c e [_ H] Hc He. assert (P := parallelogram n A c e).
  assert (H1 := H (fun i => c i + e i)). assert (H2 := H (fun i => c i - e i)). lra.
Qed.
Lemma null_mul : forall n A c a, quad n A c = 0 -> quad n A (fun i => a * c i) = 0.
Proof.
  intros n A c a H. transitivity (a * a * quad n A c); [|rewrite H; ring].
  unfold quad. rewrite <- rsum_scal. apply rsum_ext. intros i _. rewrite <- rsum_scal. apply rsum_ext. intros j _. ring.
Qed.
Lemma null_sum : forall n A d (e : nat -> nat -> R), psd n A -> (forall m, (m < d)%nat -> quad n A (e m) = 0) ->
  quad n A (fun i => rsum d (fun m => e m i)) = 0.
Proof.
  intros n A d e HA. induction d as [|d IH]; intros H.
  - unfold quad. apply rsum_zero. intros i _. apply rsum_zero. intros j _. cbn [rsum]. ring.
  - cbn [rsum]. apply (null_add n A (fun i => rsum d (fun m => e m i)) (e d) HA); [apply IH; intros; apply H; lia|apply H; lia].
Qed.

(** ** Affine forms *)
Definition form (d : nat) (l : R * (nat -> R)) (x : nat -> R) : R := fst l + inner d (snd l) x.
Definition pk (b g : R) (d : nat) (X : nat -> nat -> R) (i j : nat) : R := b + g * inner d (X i) (X j).

Lemma quad_split : forall n d b g X P c,
  quad n (fun i j => pk b g d X i j * P i j) c = b * quad n P c + g * rsum d (fun m => quad n P (fun i => c i * X i m)).
Proof.
  intros n d b g X P c.
  assert (E : rsum d (fun m => quad n P (fun i => c i * X i m)) = quad n (fun i j => inner d (X i) (X j) * P i j) c).
  { unfold quad. rewrite rsum_swap. apply rsum_ext. intros i _. rewrite rsum_swap. apply rsum_ext. intros j _.
    unfold inner. rewrite <- rsum_scal_r, <- rsum_scal, <- rsum_scal_r. apply rsum_ext. intros; ring. }
  rewrite E, <- !quad_scal, <- quad_plus. apply quad_ext; [|reflexivity]. intros i j _ _. unfold pk. ring.
Qed.

Lemma null_step : forall n d b g X P c l, 0 < b -> 0 < g -> psd n P ->
  quad n (fun i j => pk b g d X i j * P i j) c = 0 -> quad n P (fun i => c i * form d l (X i)) = 0.
Proof.
  intros n d b g X P c [a w] Hb Hg HP H. rewrite quad_split in H.
  assert (N : forall m, (m < d)%nat -> 0 <= quad n P (fun i => c i * X i m)) by (intros m _; apply HP).
  assert (N0 := rsum_nonneg d _ N). assert (N1 : 0 <= quad n P c) by apply HP.
  assert (Z1 : quad n P c = 0) by nra.
  assert (Z2 : rsum d (fun m => quad n P (fun i => c i * X i m)) = 0) by nra.
  assert (Z3 := rsum_nonneg_zero d _ N Z2).
  rewrite (quad_ext n P P _ (fun i => a * c i + rsum d (fun m => w m * (c i * X i m)))).
  - apply (null_add n P (fun i => a * c i) (fun i => rsum d (fun m => w m * (c i * X i m))) HP); [now apply null_mul|].
    apply (null_sum n P d (fun m i => w m * (c i * X i m)) HP). intros m Hm. apply (null_mul n P (fun i => c i * X i m)). now apply Z3.
  - reflexivity.
  - intros i _. unfold form, inner. cbn [fst snd]. rewrite Rmult_plus_distr_l, <- rsum_scal.
    f_equal; [ring|]. apply rsum_ext. intros; ring.
Qed.

Lemma psd_pk : forall n d b g X p, 0 <= b -> 0 <= g -> psd n (fun i j => pk b g d X i j ^ p).
Proof.
  intros n d b g X p Hb Hg. apply psd_pow. apply (psd_ext n (fun i j => b * 1 + g * inner d (X i) (X j))).
  - intros i j _ _. unfold pk. ring.
  - apply psd_plus; [apply psd_scal; [exact Hb|apply psd_ones]|apply psd_scal; [exact Hg|apply psd_inner]].
Qed.

Definition forms (d : nat) (ls : list (R * (nat -> R))) (x : nat -> R) : R :=
  fold_right Rmult 1 (map (fun l => form d l x) ls).

Lemma null_forms : forall n d b g X ls c, 0 < b -> 0 < g ->
  quad n (fun i j => pk b g d X i j ^ length ls) c = 0 -> rsum n (fun i => c i * forms d ls (X i)) = 0.
Proof.
  intros n d b g X ls. induction ls as [|l ls IH]; intros c Hb Hg H.
  - unfold forms. cbn [map fold_right]. cbn [length pow] in H.
    assert (E : quad n (fun _ _ => 1) c = rsum n c * rsum n c).
    { unfold quad. rewrite rsum_mult. apply rsum_ext. intros i _. apply rsum_ext. intros; ring. }
    rewrite E in H. rewrite (rsum_ext n _ c) by (intros; ring). nra.
  - cbn [length pow] in H. assert (H' := null_step n d b g X _ c l Hb Hg (psd_pk n d b g X (length ls) (Rlt_le _ _ Hb) (Rlt_le _ _ Hg)) H).
    rewrite <- (IH _ Hb Hg H'). apply rsum_ext. intros i _. unfold forms. cbn [map fold_right]. ring.
Qed.

(** ** At most degree + 1 points *)
Definition away (d : nat) (X : nat -> nat -> R) (j l : nat) : R * (nat -> R) :=
  (- inner d (fun k => X j k - X l k) (X l), fun k => X j k - X l k).

Lemma away_self : forall d X j l, form d (away d X j l) (X l) = 0.
Proof. intros. unfold form, away. cbn [fst snd]. ring. Qed.
Lemma away_pos : forall d X j l, (exists k, (k < d)%nat /\ X j k <> X l k) -> 0 < form d (away d X j l) (X j).
Proof.
  intros d X j l (k & Hk & N). unfold form, away. cbn [fst snd].
  replace (- inner d (fun k => X j k - X l k) (X l) + inner d (fun k => X j k - X l k) (X j))
    with (rsum d (fun k => (X j k - X l k) * (X j k - X l k))).
  - apply (rsum_pos d k); [intros; apply Rle_0_sqr|exact Hk|]. assert (X j k - X l k <> 0) by lra. nra.
  - unfold inner. rewrite Rplus_comm. change (?a + - ?b) with (a - b). rewrite <- rsum_minus. apply rsum_ext. intros; ring.
Qed.
Lemma form_one : forall d x, form d (1, fun _ => 0) x = 1.
Proof. intros. unfold form, inner. cbn [fst snd]. rewrite rsum_zero; [ring|]. intros; ring. Qed.

Lemma forms_zero : forall d ls x l, In l ls -> form d l x = 0 -> forms d ls x = 0.
Proof.
  intros d ls x l HI H. unfold forms. induction ls as [|l' ls IH]; [destruct HI|]. cbn [map fold_right].
  destruct HI as [->|HI]; [rewrite H; ring|rewrite (IH HI); ring].
Qed.
Lemma forms_pos : forall d ls x, (forall l, In l ls -> 0 < form d l x) -> 0 < forms d ls x.
Proof.
  intros d ls x H. unfold forms. induction ls as [|l ls IH]; [cbn; lra|]. cbn [map fold_right].
  apply Rmult_lt_0_compat; [apply H; now left|apply IH; intros; apply H; now right].
Qed.

Lemma poly_few : forall n d b g X p, 0 < b -> 0 < g -> (n <= S p)%nat -> distinct n d X ->
  pos_def n (fun i j => pk b g d X i j ^ p).
Proof.
  intros n d b g X p Hb Hg Hn HD. assert (HP := psd_pk n d b g X p (Rlt_le _ _ Hb) (Rlt_le _ _ Hg)).
  split; [apply HP|]. intros c (j & Hj & Hc). destruct (Rle_lt_or_eq_dec _ _ (proj2 HP c)) as [H|H]; [exact H|exfalso].
  set (ls := map (away d X j) (seq 0 j ++ seq (S j) (n - S j)) ++ repeat (1, fun _ : nat => 0) (p - (n - 1))).
  assert (HL : length ls = p).
  { unfold ls. rewrite app_length, map_length, app_length, !seq_length, repeat_length. lia. }
  assert (Z := null_forms n d b g X ls c Hb Hg). rewrite HL in Z. specialize (Z (eq_sym H)).
  rewrite (rsum_ext n _ (fun i => if Nat.eqb i j then c i * forms d ls (X i) else 0)) in Z.
  - rewrite (rsum_delta n j (fun i => c i * forms d ls (X i)) Hj) in Z.
    assert (P : 0 < forms d ls (X j)).
    { apply forms_pos. intros l Hl. unfold ls in Hl. apply in_app_or in Hl. destruct Hl as [Hl|Hl].
      - apply in_map_iff in Hl. destruct Hl as (q & <- & Hq). apply away_pos. apply in_app_or in Hq.
        apply HD; [exact Hj| |]; destruct Hq as [Hq|Hq]; apply in_seq in Hq; lia.
      - apply repeat_spec in Hl. subst l. rewrite form_one. lra. }
    apply Rmult_integral in Z. destruct Z; lra.
  - intros i Hi. destruct (Nat.eqb_spec i j) as [_|N]; [reflexivity|].
    rewrite (forms_zero d ls (X i) (away d X j i)); [ring| |apply away_self].
    unfold ls. apply in_or_app. left. apply in_map. apply in_or_app.
    destruct (Nat.lt_ge_cases i j); [left|right]; apply in_seq; lia.
Qed.

(** ** Too many points *)
Lemma few_features : forall n m (Y : nat -> nat -> R) A, (m < n)%nat ->
  (forall i j, (i < n)%nat -> (j < n)%nat -> A i j = rsum m (fun k => Y i k * Y j k)) -> ~ pos_def n A.
Proof.
  intros n m Y A Hm HA [_ H]. destruct (dependent m n Y Hm) as (c & Hc & Z). specialize (H c Hc).
  assert (Q : quad n A c = 0); [|lra]. unfold quad. apply rsum_zero. intros i Hi.
  rewrite (rsum_ext n _ (fun j => rsum m (fun k => c i * Y i k * (c j * Y j k)))).
  - rewrite rsum_swap. apply rsum_zero. intros k Hk. now rewrite rsum_scal, Z, Rmult_0_r.
  - intros j Hj. rewrite HA by assumption. rewrite <- rsum_scal, <- rsum_scal_r. apply rsum_ext. intros; ring.
Qed.

Lemma rsum_app : forall a m f, rsum (a + m) f = rsum a f + rsum m (fun k => f (a + k)%nat).
Proof.
  intros a m f. induction m as [|m IH]; [rewrite Nat.add_0_r; cbn; ring|].
  rewrite Nat.add_succ_r. cbn [rsum]. rewrite IH. ring.
Qed.
Lemma rsum_grid : forall N M F, (0 < M)%nat ->
  rsum (N * M) (fun q => F (q / M)%nat (q mod M)%nat) = rsum N (fun a => rsum M (F a)).
Proof.
  intros N M F HM. induction N as [|N IH]; [reflexivity|]. cbn [rsum]. rewrite <- IH.
  replace (S N * M)%nat with (N * M + M)%nat by lia. rewrite rsum_app. f_equal. apply rsum_ext. intros k Hk.
  rewrite Nat.add_comm, Nat.div_add, Nat.mod_add, Nat.div_small, Nat.mod_small by lia. reflexivity.
Qed.

Lemma poly_features : forall d b g X p, 0 <= b -> 0 <= g ->
  exists Y : nat -> nat -> R, forall i j, pk b g d X i j ^ p = rsum (S d ^ p) (fun k => Y i k * Y j k).
Proof.
  intros d b g X p Hb Hg. induction p as [|p (Y & IH)].
  - exists (fun _ _ => 1). intros i j. cbn. ring.
  - set (f := fun (i m : nat) => if Nat.eqb m d then sqrt b else sqrt g * X i m).
    exists (fun i q => Y i (q / S d)%nat * f i (q mod S d)%nat). intros i j.
    replace (S d ^ S p)%nat with (S d ^ p * S d)%nat by (cbn; lia).
    rewrite (rsum_grid (S d ^ p) (S d) (fun a m => Y i a * f i m * (Y j a * f j m))) by lia.
    cbn [pow]. rewrite IH, Rmult_comm, <- rsum_scal_r. apply rsum_ext. intros a _.
    transitivity (Y i a * Y j a * rsum (S d) (fun m => f i m * f j m)); [|rewrite <- rsum_scal; apply rsum_ext; intros; ring].
    f_equal. cbn [rsum]. unfold f at 3 4. rewrite Nat.eqb_refl, sqrt_sqrt by exact Hb.
    rewrite (rsum_ext d _ (fun m => g * (X i m * X j m))).
    + rewrite rsum_scal. unfold pk, inner. ring.
    + intros m Hm. unfold f. destruct (Nat.eqb_spec m d); [lia|].
      transitivity (sqrt g * sqrt g * (X i m * X j m)); [ring|]. rewrite sqrt_sqrt by exact Hg. reflexivity.
Qed.

Lemma rsum_first : forall n f, rsum (S n) f = f 0%nat + rsum n (fun k => f (S k)).
Proof. intros n f. rewrite <- (Nat.add_1_l n), rsum_app. cbn [rsum]. cbn [Nat.add]. ring. Qed.

Lemma line_coefficients : forall b g p, 0 <= b -> 0 <= g ->
  exists a : nat -> R, (forall k, 0 <= a k) /\ (forall k, (p < k)%nat -> a k = 0) /\ forall t, (b + g * t) ^ p = rsum (S p) (fun k => a k * t ^ k).
Proof.
  intros b g p Hb Hg. induction p as [|p (a & Ha & Hz & E)].
  - exists (fun k => match k with O => 1 | _ => 0 end). split; [intros [|k]; lra|]. split; [intros [|k] Hk; [lia|reflexivity]|].
    intros t. cbn. ring.
  - exists (fun k => b * a k + g * match k with O => 0 | S k' => a k' end). split; [|split].
    + intros k. apply Rplus_le_le_0_compat; apply Rmult_le_pos; auto. destruct k; [lra|apply Ha].
    + intros [|k] Hk; [lia|]. rewrite !Hz by lia. ring.
    + intros t. cbn [pow]. rewrite E.
      rewrite (rsum_ext (S (S p)) _ (fun k => b * (a k * t ^ k) + g * (match k with O => 0 | S k' => a k' end * t ^ k))) by (intros; ring).
      rewrite rsum_plus, !rsum_scal. rewrite (rsum_first (S p) (fun k => match k with O => 0 | S k' => a k' end * t ^ k)).
      cbn [rsum pow]. rewrite (Hz (S p)) by lia.
      rewrite (rsum_ext p (fun k => a k * (t * t ^ k)) (fun k => t * (a k * t ^ k))) by (intros; ring). rewrite rsum_scal. ring.
Qed.

Lemma poly_many : forall n d b g X p, 0 <= b -> 0 <= g -> (S d ^ p < n)%nat -> ~ pos_def n (fun i j => pk b g d X i j ^ p).
Proof.
  intros n d b g X p Hb Hg Hn. destruct (poly_features d b g X p Hb Hg) as (Y & HY).
  apply (few_features n (S d ^ p) Y); [exact Hn|]. intros i j _ _. apply HY.
Qed.
Lemma poly_line : forall n b g X p, 0 <= b -> 0 <= g -> (S p < n)%nat -> ~ pos_def n (fun i j => pk b g 1 X i j ^ p).
Proof.
  intros n b g X p Hb Hg Hn. destruct (line_coefficients b g p Hb Hg) as (a & Ha & _ & E).
  apply (few_features n (S p) (fun i k => sqrt (a k) * X i 0%nat ^ k)); [exact Hn|]. intros i j _ _.
  unfold pk. rewrite E. apply rsum_ext. intros k _. unfold inner. cbn [rsum].
  transitivity (sqrt (a k) * sqrt (a k) * (X i 0%nat * X j 0%nat) ^ k).
  - rewrite sqrt_sqrt by apply Ha. f_equal. f_equal. ring.
  - rewrite Rpow_mult_distr. ring.
Qed.

(** C111, PolyKernel (gamma > 0, b > 0): on at most degree + 1 points the matrix is positive definite exactly if no
    two of the points are the same. *)
Lemma pf_C111_poly : forall cast degree gamma b n d X, 0 < gamma -> 0 < b -> (n <= S degree)%nat ->
  (pos_def_on (fun x y => kernel_call cast (KPoly degree gamma b) DFloat x DFloat y) n d X <-> distinct n d X).
Proof.
  intros cast degree gamma b n d X Hg Hb Hn. rewrite (on_iff _ n d X (fun i j => pk b gamma d X i j ^ degree)).
  - split; [|now apply poly_few]. apply not_definite. intros i j Hi Hj H.
    assert (E : forall z, inner d z (X i) = inner d z (X j)).
    { intros z. unfold inner. apply rsum_ext. intros k Hk. rewrite (H k Hk). reflexivity. }
    assert (E' : forall z, inner d (X i) z = inner d (X j) z).
    { intros z. unfold inner. apply rsum_ext. intros k Hk. rewrite (H k Hk). reflexivity. }
    unfold pk. rewrite !E, !E'. split; reflexivity.
  - intros i j Hi Hj. rewrite call_fvec. apply poly_value.
Qed.

(** C111, PolyKernel: on more than (d + 1)^degree points it never is, d being the number of features. *)
Lemma pf_C111_poly_many : forall cast degree gamma b n d X, 0 <= gamma -> 0 <= b -> (S d ^ degree < n)%nat ->
  ~ pos_def_on (fun x y => kernel_call cast (KPoly degree gamma b) DFloat x DFloat y) n d X.
Proof.
  intros cast degree gamma b n d X Hg Hb Hn. rewrite (on_iff _ n d X (fun i j => pk b gamma d X i j ^ degree)).
  - now apply poly_many.
  - intros i j Hi Hj. rewrite call_fvec. apply poly_value.
Qed.

(** C111, PolyKernel on numbers (one feature): positive definite exactly if there are at most degree + 1 of them, all
    different. *)
Lemma pf_C111_poly_line : forall cast degree gamma b n X, 0 < gamma -> 0 < b ->
  (pos_def_on (fun x y => kernel_call cast (KPoly degree gamma b) DFloat x DFloat y) n 1 X
   <-> (n <= S degree)%nat /\ distinct n 1 X).
Proof.
  intros cast degree gamma b n X Hg Hb. split.
  - intros H. assert (Hn : (n <= S degree)%nat).
    { destruct (Nat.le_gt_cases n (S degree)) as [L|L]; [exact L|exfalso].
      rewrite (on_iff _ n 1 X (fun i j => pk b gamma 1 X i j ^ degree)) in H.
      - revert H. apply poly_line; (lra || exact L).
      - intros i j Hi Hj. rewrite call_fvec. apply poly_value. }
    split; [exact Hn|]. apply (proj1 (pf_C111_poly cast degree gamma b n 1 X Hg Hb Hn) H).
  - intros [Hn HD]. now apply pf_C111_poly.
Qed.

(** C111: the default PolyKernel(degree=3, gamma=1.0, b=1.0) on the points 0, 1, 2, ...: positive definite for four of
    them, not for five. *)
Lemma pf_C111_poly_example : forall cast, let X := fun (i _ : nat) => INR i in
  distinct 4 1 X /\ distinct 5 1 X /\
  pos_def_on (fun x y => kernel_call cast (KPoly 3 1 1) DFloat x DFloat y) 4 1 X /\
  ~ pos_def_on (fun x y => kernel_call cast (KPoly 3 1 1) DFloat x DFloat y) 5 1 X.
Proof.
  intros cast X. assert (D : forall n, distinct n 1 X).
  { intros n i j Hi Hj N. exists 0%nat. split; [lia|]. intros E. now apply INR_eq in E. }
  split; [apply D|]. split; [apply D|]. split.
  - apply pf_C111_poly_line; [lra|lra|]. split; [lia|apply D].
  - intros H. apply pf_C111_poly_line in H; [|lra|lra]. lia.
Qed.
