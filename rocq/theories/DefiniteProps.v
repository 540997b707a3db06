(** Chi2 kernels, composites, normalised and centred matrices: which are positive definite (C111), in exact
    arithmetic. *)
From Coq Require Import String List Arith ZArith Bool Reals Lra Lia Psatz.
Import ListNotations.
From Verif Require Import Prelude MatModel MatFacts UtilsModel XReal SpecLinAlg RSum PSDFacts OpsModel OpsFacts OpsProps KernelsModel
  SpecKernels KernelFacts KernelProps KMXModel IndexModel KMModel SpecKM SpecSample SampleXProps SpecKMX KMProps KMXProps
  SetModel SpecSet SetFacts2 SetProps ContProps FullFacts CompositeModel SpecComposite CompositeFacts CompositeProps PosDefProps.
Local Open Scope R_scope.

(** ** Matrices *)

Lemma def_psd : forall n A, pos_def n A -> psd n A.
Proof.
  intros n A [HS HD]. split; [exact HS|]. intros c. destruct (zero_or_not n c) as [H|H]; [|left; apply HD; exact H].
  right. symmetry. unfold quad. apply rsum_zero. intros i Hi. apply rsum_zero. intros j Hj. rewrite (H i Hi). ring.
Qed.

(** Rescaling by non-zero numbers. *)
Lemma def_scale : forall n a A, (forall i, (i < n)%nat -> a i <> 0) -> pos_def n A -> pos_def n (fun i j => a i * A i j * a j).
Proof.
  intros n a A Ha [HS HD]. split.
  - intros i j Hi Hj. rewrite (HS i j Hi Hj). ring.
  - intros c (i & Hi & Hc). assert (H := HD (fun i => c i * a i)). replace (quad n (fun i j => a i * A i j * a j) c) with (quad n A (fun i => c i * a i)).
    + apply H. exists i. split; [exact Hi|]. apply Rmult_integral_contrapositive_currified; [exact Hc|apply Ha; exact Hi].
    + unfold quad. apply rsum_ext. intros p _. apply rsum_ext. intros q _. ring.
Qed.

(** The exponential of a positive semidefinite matrix none of whose 2 x 2 differences vanish. *)
Lemma def_exp : forall n A, psd n A -> (forall i j, (i < n)%nat -> (j < n)%nat -> i <> j -> 0 < A i i - 2 * A i j + A j j) ->
  pos_def n (fun i j => exp (A i j)).
Proof.
  intros n A HA HD. destruct (psd_factor n A HA) as (B & HB).
  set (Y := fun i k => B k i).
  assert (HY : forall i j, (i < n)%nat -> (j < n)%nat -> A i j = inner n (Y i) (Y j)).
  { intros i j Hi Hj. rewrite HB by assumption. reflexivity. }
  assert (HDY : distinct n n Y).
  { intros i j Hi Hj N. assert (F : forall m, (forall k, (k < m)%nat -> Y i k = Y j k) \/ exists k, (k < m)%nat /\ Y i k <> Y j k).
    { induction m as [|m IH]; [left; intros; lia|].
      destruct IH as [H|(k & Hk & H)]; [|right; exists k; split; [lia|exact H]].
      destruct (Req_dec (Y i m) (Y j m)) as [E|E]; [|right; exists m; split; [lia|exact E]].
      left. intros k Hk. destruct (Nat.eq_dec k m) as [->|]; [exact E|apply H; lia]. }
    destruct (F n) as [H|H]; [|exact H]. exfalso. specialize (HD i j Hi Hj N).
    rewrite !HY in HD by assumption.
    assert (E : forall z, inner n z (Y i) = inner n z (Y j)).
    { intros z. unfold inner. apply rsum_ext. intros k Hk. rewrite (H k Hk). reflexivity. }
    assert (E' : inner n (Y i) (Y j) = inner n (Y j) (Y j)).
    { unfold inner. apply rsum_ext. intros k Hk. rewrite (H k Hk). reflexivity. }
    rewrite (E (Y i)), E' in HD. lra. }
  apply (pos_def_ext n (fun i j => exp (/ 2 * inner n (Y i) (Y i)) * exp (- (/ 2) * dist2 n (Y i) (Y j)) * exp (/ 2 * inner n (Y j) (Y j)))).
  - intros i j Hi Hj. rewrite <- !exp_plus, dist2_inner, HY by assumption. f_equal. field.
  - apply (def_scale n (fun i => exp (/ 2 * inner n (Y i) (Y i)))).
    + intros i _. assert (P := exp_pos (/ 2 * inner n (Y i) (Y i))). lra.
    + apply gaussian_definite_iff; [lra|exact HDY].
Qed.

Lemma chi2_pos : forall d x y, (forall k, (k < d)%nat -> 0 <= x k) -> (forall k, (k < d)%nat -> 0 <= y k) ->
  (exists k, (k < d)%nat /\ x k <> y k) -> 0 < chi2stat d x y.
Proof.
  intros d x y Hx Hy (k & Hk & N). unfold chi2stat.
  assert (P : forall j, (j < d)%nat -> 0 <= (if Req_EM_T (x j + y j) 0 then 0 else (x j - y j) * (x j - y j) / (x j + y j))).
  { intros j Hj. destruct (Req_EM_T (x j + y j) 0) as [E|E]; [lra|]. specialize (Hx j Hj). specialize (Hy j Hj).
    apply Rmult_le_pos; [apply Rle_0_sqr|]. left. apply Rinv_0_lt_compat. lra. }
  assert (Q : 0 < (if Req_EM_T (x k + y k) 0 then 0 else (x k - y k) * (x k - y k) / (x k + y k))).
  { specialize (Hx k Hk). specialize (Hy k Hk). destruct (Req_EM_T (x k + y k) 0) as [E|E]; [exfalso; apply N; lra|].
    apply Rdiv_lt_0_compat; [|lra]. assert (x k - y k <> 0) by lra. nra. }
  clear Hx Hy N. induction d as [|d IH]; [lia|]. cbn [rsum]. destruct (Nat.eq_dec k d) as [->|Hne].
  - assert (S0 : 0 <= rsum d (fun j => if Req_EM_T (x j + y j) 0 then 0 else (x j - y j) * (x j - y j) / (x j + y j)))
      by (apply rsum_nonneg; intros j Hj; apply P; lia). lra.
  - assert (S1 := IH ltac:(lia) (fun j Hj => P j ltac:(lia))). assert (S2 := P d ltac:(lia)). lra.
Qed.

Lemma chi2_definite_iff : forall g n d X, 0 < g -> (forall i k, (i < n)%nat -> (k < d)%nat -> 0 <= X i k) ->
  (pos_def n (fun i j => exp (- g * chi2stat d (X i) (X j))) <-> distinct n d X).
Proof.
  intros g n d X Hg HX. split.
  - apply not_definite. intros i j Hi Hj H. split; do 2 f_equal; unfold chi2stat; apply rsum_ext; intros k Hk; rewrite (H k Hk); reflexivity.
  - intros HD. set (A := fun i j => 4 * g * rsum d (fun k => harm (X i k) (X j k))).
    assert (E : forall i j, (i < n)%nat -> (j < n)%nat -> chi2stat d (X i) (X j) = rsum d (X i) + rsum d (X j) - 4 * rsum d (fun k => harm (X i k) (X j k))).
    { intros i j Hi Hj. unfold chi2stat.
      rewrite (rsum_ext d (fun k => if Req_EM_T (X i k + X j k) 0 then 0 else _) (fun k => X i k + X j k - 4 * harm (X i k) (X j k))).
      + rewrite rsum_minus, rsum_plus, rsum_scal.
        change (rsum d (fun k => X i k)) with (rsum d (X i)). change (rsum d (fun k => X j k)) with (rsum d (X j)). ring.
      + intros k Hk. apply chi2_harm; auto. }
    assert (Z : forall i, (i < n)%nat -> chi2stat d (X i) (X i) = 0).
    { intros i Hi. unfold chi2stat. apply rsum_zero. intros k Hk. destruct (Req_EM_T (X i k + X i k) 0); [reflexivity|]. unfold Rdiv. ring. }
    apply (pos_def_ext n (fun i j => exp (- g * rsum d (X i)) * exp (A i j) * exp (- g * rsum d (X j)))).
    + intros i j Hi Hj. rewrite <- !exp_plus, E by assumption. unfold A. f_equal. ring.
    + apply (def_scale n (fun i => exp (- g * rsum d (X i)))).
      { intros i _. assert (P := exp_pos (- g * rsum d (X i))). lra. }
      apply def_exp.
      * unfold A. apply psd_scal; [lra|]. apply (psd_rsum n d (fun k i j => harm (X i k) (X j k))). intros k Hk.
        apply (psd_harm n (fun i => X i k)). auto.
      * intros i j Hi Hj N. assert (P := chi2_pos d (X i) (X j) (fun k => HX i k Hi) (fun k => HX j k Hj) (HD i j Hi Hj N)).
        assert (Ei := E i i Hi Hi). assert (Ej := E j j Hj Hj). assert (Eij := E i j Hi Hj).
        rewrite Z in Ei, Ej by assumption. unfold A. nra.
Qed.

(** C111: the matrix of a Chi2Kernel with gamma > 0 on non-negative points is positive definite exactly if no
    two of the points are the same. *)
Lemma pf_C111_chi2 : forall cast gamma n d X, 0 < gamma ->
  (forall i k, (i < n)%nat -> (k < d)%nat -> 0 <= X i k) ->
  (pos_def_on (fun x y => kernel_call cast (KChi2 gamma) DFloat x DFloat y) n d X <-> distinct n d X).
Proof.
  intros cast gamma n d X Hg HX. rewrite (on_iff _ n d X (fun i j => exp (- gamma * chi2stat d (X i) (X j)))).
  - now apply chi2_definite_iff.
  - intros i j Hi Hj. apply pf_C30_value; auto.
Qed.

(** C111: so is the [full] of a KernelMatrix with this kernel, normalised or not, after any history (without the
    two sparse accesses when not normalised). *)
Lemma pf_C111_chi2_matrix :
  forall {U} gamma nrm (pre post : list (op xr U)) n d X, 0 < gamma ->
    (forall i k, (i < n)%nat -> (k < d)%nat -> 0 <= X i k) ->
    no_attach post -> (nrm = true \/ (no_full_sparse post /\ no_whole_index n n post)) ->
    exists B,
      outcome xN OpFull (after xN (builtin (KChi2 gamma)) nrm pre (rsample n d X) None post)
      = Ok (OArr (mkArr Dense (rmat n n B))) /\ (pos_def n B <-> distinct n d X).
Proof.
  intros U gamma nrm pre post n d X Hg HX Hno Hcase.
  set (A := fun i j => exp (- gamma * chi2stat d (X i) (X j))).
  assert (HA : finite_on (KChi2 gamma) d n n X X A) by (intros i j Hi Hj; apply chi2_value; auto).
  assert (Hsym : symmetric n A) by (apply (psd_chi2 n d X gamma); [lra|exact HX]).
  assert (Hone : forall i, A i i = 1).
  { intros i. unfold A. replace (chi2stat d (X i) (X i)) with 0; [now rewrite Rmult_0_r, exp_0|].
    symmetry. unfold chi2stat. apply rsum_zero. intros k Hk. destruct (Req_EM_T (X i k + X i k) 0); [reflexivity|]. unfold Rdiv. ring. }
  exists A. split; [|apply chi2_definite_iff; assumption].
  pose proof (rsample_total _ n d X A HA) as Hnr.
  pose proof (rsample_matrix _ n d X A HA Hsym) as HM.
  destruct nrm.
  - rewrite (pf_C03_value (builtin (KChi2 gamma)) (valueOf (KChi2 gamma)) pre post
       (rsample n d X) n d OpFull A Hnr eq_refl (rsample_adm n d X) Hno (or_introl eq_refl) HM).
    + do 3 f_equal. apply rmat_ext. intros i j Hi Hj. rewrite !Hone, Rmult_1_l, sqrt_1. field.
    + intros i Hi. rewrite Hone. lra.
  - destruct Hcase as [Hf|[Hfs Hwi]]; [discriminate|].
    rewrite (pf_C04_full_partial xN (builtin (KChi2 gamma)) (valueOf (KChi2 gamma)) pre post
       (rsample n d X) None n n d Hnr eq_refl (rsample_adm n d X) Hno Hfs Hwi), HM. reflexivity.
Qed.

(** ** Composites *)

Lemma def_plus : forall n A B, pos_def n A -> psd n B -> pos_def n (fun i j => A i j + B i j).
Proof.
  intros n A B [HS HD] [HSB HB]. split.
  - intros i j Hi Hj. rewrite (HS i j Hi Hj), (HSB i j Hi Hj). reflexivity.
  - intros c Hc. rewrite quad_plus. specialize (HD c Hc). specialize (HB c). lra.
Qed.
Lemma def_scal : forall n a A, 0 < a -> pos_def n A -> pos_def n (fun i j => a * A i j).
Proof.
  intros n a A Ha [HS HD]. split.
  - intros i j Hi Hj. rewrite (HS i j Hi Hj). reflexivity.
  - intros c Hc. rewrite quad_scal. specialize (HD c Hc). nra.
Qed.
Lemma def_diag : forall n A i, pos_def n A -> (i < n)%nat -> 0 < A i i.
Proof.
  intros n A i [_ HD] Hi. specialize (HD (fun l => if Nat.eqb l i then 1 else 0)).
  replace (A i i) with (quad n A (fun l => if Nat.eqb l i then 1 else 0)).
  - apply HD. exists i. split; [exact Hi|]. rewrite Nat.eqb_refl. lra.
  - unfold quad. rewrite (rsum_ext n _ (fun p => if Nat.eqb p i then A p i else 0)).
    + rewrite rsum_delta by exact Hi. reflexivity.
    + intros p Hp. rewrite (rsum_ext n _ (fun q => if Nat.eqb q i then (if Nat.eqb p i then 1 else 0) * A p q else 0)).
      * rewrite (rsum_delta n i (fun q => (if Nat.eqb p i then 1 else 0) * A p q)) by exact Hi. destruct (Nat.eqb p i); ring.
      * intros q _. destruct (Nat.eqb q i); ring.
Qed.

Lemma rsum_pos : forall n k f, (forall q, (q < n)%nat -> 0 <= f q) -> (k < n)%nat -> 0 < f k -> 0 < rsum n f.
Proof.
  intros n k f P Hk Q. induction n as [|n IH]; [lia|]. cbn [rsum]. destruct (Nat.eq_dec k n) as [->|N].
  - assert (0 <= rsum n f) by (apply rsum_nonneg; intros; apply P; lia). lra.
  - assert (0 < rsum n f) by (apply IH; [intros; apply P; lia|lia]). assert (G := P n ltac:(lia)). lra.
Qed.

(** The Schur product with a positive semidefinite matrix of positive diagonal. *)
Lemma def_schur : forall n A B, pos_def n A -> psd n B -> (forall i, (i < n)%nat -> 0 < B i i) -> pos_def n (fun i j => A i j * B i j).
Proof.
  intros n A B HA HB Hd. assert (HA' := def_psd n A HA). destruct (psd_factor n B HB) as (F & HF). destruct HA as [HS HD]. split.
  - intros i j Hi Hj. destruct HB as [HSB _]. rewrite (HS i j Hi Hj), (HSB i j Hi Hj). reflexivity.
  - intros c (i & Hi & Hc).
    assert (E : quad n (fun i j => A i j * B i j) c = rsum n (fun k => quad n A (fun l => c l * F k l))).
    { unfold quad. transitivity (rsum n (fun p => rsum n (fun q => rsum n (fun k => c p * F k p * A p q * (c q * F k q))))).
      - apply rsum_ext. intros p Hp. apply rsum_ext. intros q Hq. rewrite HF by assumption.
        transitivity (c p * A p q * c q * rsum n (fun k => F k p * F k q)); [ring|]. rewrite <- rsum_scal. apply rsum_ext. intros; ring.
      - transitivity (rsum n (fun p => rsum n (fun k => rsum n (fun q => c p * F k p * A p q * (c q * F k q))))).
        + apply rsum_ext. intros p _. apply rsum_swap.
        + apply rsum_swap. }
    rewrite E.
    assert (Hk : exists k, (k < n)%nat /\ F k i <> 0).
    { destruct (zero_or_not n (fun k => F k i)) as [H|H]; [exfalso|exact H]. specialize (Hd i Hi). rewrite HF in Hd by assumption.
      rewrite rsum_zero in Hd; [lra|]. intros k Hk. rewrite (H k Hk). ring. }
    destruct Hk as (k & Hk & Hne).
    assert (P : forall q, (q < n)%nat -> 0 <= quad n A (fun l => c l * F q l)) by (intros q _; apply HA').
    assert (Q : 0 < quad n A (fun l => c l * F k l)).
    { apply HD. exists i. split; [exact Hi|]. apply Rmult_integral_contrapositive_currified; assumption. }
    exact (rsum_pos n k _ P Hk Q).
Qed.

(*BEGIN PROP*)
(** An n x n matrix of finite numbers that is positive definite; one whose diagonal entries are positive. *)
Definition pd_array (n : nat) (K : arr xr) : Prop :=
  is_square n K /\ exists A, pos_def n A /\ forall i j, (i < n)%nat -> (j < n)%nat -> xget (amat K) i j = Fin (A i j).
Definition positive_diagonal (n : nat) (K : arr xr) : Prop :=
  forall i, (i < n)%nat -> exists r, 0 < r /\ xget (amat K) i i = Fin r.
(*END PROP*)

Lemma fits_pd : forall {E U} C numeric kw (s : cstate (E:=E) (U:=U)) n f,
  fits C numeric kw s (is_matrix n f) ->
  (exists A, pos_def n A /\ forall i j, (i < n)%nat -> (j < n)%nat -> f i j = Fin (A i j)) ->
  fits C numeric kw s (pd_array n).
Proof.
  intros E U C numeric kw s n f (a & (Hsq & Hnd & He) & H) (A & HA & EA).
  exists a. split; [|exact H]. split; [exact Hsq|]. exists A. split; [exact HA|].
  intros i j Hi Hj. rewrite He, EA by assumption. reflexivity.
Qed.

Lemma pd_array_sum : forall n ws Ks p r K, Forall (fun r => 0 <= r) ws -> Forall (psd_array n) Ks ->
  nth_error ws p = Some r -> nth_error Ks p = Some K -> 0 < r -> pd_array n K ->
  exists A, pos_def n A /\ forall i j, (i < n)%nat -> (j < n)%nat -> sum_entry ws Ks i j = Fin (A i j).
Proof.
  intros n ws. induction ws as [|r0 ws IH]; intros Ks p r K Hw HK Hr Hk Hpos HPD; [destruct p; discriminate|].
  destruct HK as [|K0 Ks [_ (A & HA & EA)] HK]; [destruct p; discriminate|].
  inversion Hw as [|? ? Hr0 Hw']; subst. destruct p as [|p]; cbn in Hr, Hk.
  - injection Hr as ->. injection Hk as ->. destruct HPD as [_ (P & HP & EP)].
    destruct (psd_array_sum n ws Ks Hw' HK) as (B & HB & EB).
    exists (fun i j => r * P i j + B i j). split; [apply def_plus; [apply def_scal; assumption|exact HB]|].
    intros i j Hi Hj. unfold sum_entry, xsum in *. cbn [combine map fold_right fst snd]. rewrite EP, EB by assumption. reflexivity.
  - destruct (IH Ks p r K Hw' HK Hr Hk Hpos HPD) as (B & HB & EB).
    exists (fun i j => B i j + r0 * A i j). split; [apply def_plus; [exact HB|apply psd_scal; assumption]|].
    intros i j Hi Hj. unfold sum_entry, xsum in *. cbn [combine map fold_right fst snd]. rewrite EA, EB by assumption.
    cbn. f_equal. ring.
Qed.

Lemma mean_as_sum : forall Ks i j, (0 < length Ks)%nat -> forall f, (forall K, In K Ks -> xget (amat K) i j = Fin (f K)) ->
  mean_entry Ks i j = xmul (Fin (/ INR (length Ks))) (sum_entry (repeat 1 (length Ks)) Ks i j).
Proof.
  intros Ks i j Hl f Hf. unfold mean_entry. assert (Hp : 0 < INR (length Ks)) by (apply lt_0_INR; exact Hl).
  assert (G : xsum (map (fun K => xget (amat K) i j) Ks) = sum_entry (repeat 1 (length Ks)) Ks i j /\
              exists r, sum_entry (repeat 1 (length Ks)) Ks i j = Fin r).
  { clear Hl Hp. unfold sum_entry, xsum. induction Ks as [|K Ks IH]; [split; [reflexivity|exists 0; reflexivity]|].
    cbn [length repeat combine map fold_right fst snd].
    destruct IH as (E & r & Er); [intros; apply Hf; now right|]. rewrite E, Er, (Hf K (or_introl eq_refl)). cbn.
    split; [f_equal; ring|eexists; reflexivity]. }
  destruct G as (E & r & Er). rewrite E, Er. cbn [xdiv xmul]. unfold Reqb.
  destruct (Req_EM_T (INR (length Ks)) 0) as [H0|_]; [lra|]. f_equal. unfold Rdiv. ring.
Qed.

Lemma pd_array_mean : forall n Ks p K, Forall (psd_array n) Ks -> nth_error Ks p = Some K -> pd_array n K ->
  exists A, pos_def n A /\ forall i j, (i < n)%nat -> (j < n)%nat -> mean_entry Ks i j = Fin (A i j).
Proof.
  intros n Ks p K HK Hk HPD.
  assert (Hp : (p < length Ks)%nat) by (apply nth_error_Some; rewrite Hk; discriminate).
  destruct (pd_array_sum n (repeat 1 (length Ks)) Ks p 1 K) as (A & HA & EA); [|exact HK| |exact Hk|lra|exact HPD|].
  - apply Forall_forall. intros r Hr. apply repeat_spec in Hr. lra.
  - rewrite nth_error_repeat by exact Hp. reflexivity.
  - assert (Hq : 0 < INR (length Ks)) by (apply lt_0_INR; lia).
    exists (fun i j => / INR (length Ks) * A i j). split; [apply def_scal; [now apply Rinv_0_lt_compat|exact HA]|].
    intros i j Hi Hj. rewrite (mean_as_sum Ks i j ltac:(lia) (fun K => match xget (amat K) i j with Fin r => r | _ => 0 end)).
    + rewrite EA by assumption. reflexivity.
    + intros K' HI. rewrite Forall_forall in HK. destruct (HK K' HI) as [_ (B & _ & EB)]. rewrite EB by assumption. reflexivity.
Qed.

Lemma pd_array_prod : forall n Ks, Forall (psd_array n) Ks -> Forall (positive_diagonal n) Ks ->
  exists A, psd n A /\ (forall i, (i < n)%nat -> 0 < A i i) /\ (Exists (pd_array n) Ks -> pos_def n A) /\
    forall i j, (i < n)%nat -> (j < n)%nat -> prod_entry Ks i j = Fin (A i j).
Proof.
  intros n Ks H. unfold prod_entry. induction H as [|K Ks [HSQ (A & HA & EA)] HK IH]; intros HD.
  - exists (fun _ _ => 1). split; [apply psd_ones|]. split; [intros; lra|]. split; [intros E; inversion E|reflexivity].
  - inversion HD as [|? ? HD0 HD']; subst. destruct (IH HD') as (B & HB & DB & PB & EB).
    assert (DA : forall i, (i < n)%nat -> 0 < A i i).
    { intros i Hi. destruct (HD0 i Hi) as (r & Hr & Er). rewrite EA in Er by assumption. injection Er as ->. exact Hr. }
    exists (fun i j => A i j * B i j). split; [apply psd_schur; assumption|].
    split; [intros i Hi; apply Rmult_lt_0_compat; auto|]. split.
    + intros HE. inversion HE as [? ? [_ (P & HP & EP)]|? ? HE']; subst.
      * apply def_schur; [|exact HB|exact DB]. apply (pos_def_ext n P); [|exact HP].
        intros i j Hi Hj. assert (E := EP i j Hi Hj). rewrite EA in E by assumption. injection E as ->. reflexivity.
      * apply (pos_def_ext n (fun i j => B i j * A i j)); [intros; apply Rmult_comm|]. apply def_schur; auto.
    + intros i j Hi Hj. cbn [map fold_right]. rewrite EA, EB by assumption. reflexivity.
Qed.

(** C111, SumKernel: positive definite if the members are positive semidefinite, the weights non-negative, and a
    member with a positive weight is positive definite; without weights, if one member is positive definite. *)
Lemma pf_C111_sum :
  forall {E U} C numeric k (w0 : world E xr U) c ops num ms n ms0 Ks a ws p r K,
    comp_new NewSum (Some k) w0 = Ok c -> set_is w0 k (NSOne n) ms0 ->
    set_is (fst (crun C numeric ops (w0, c))) k num ms ->
    fulls (fst (crun C numeric ops (w0, c))) ms Ks -> Forall (psd_array n) Ks ->
    is_vector a ws -> length ws = length ms -> Forall (fun r => 0 <= r) ws ->
    nth_error ws p = Some r -> nth_error Ks p = Some K -> pd_array n K ->
    (0 < r -> fits C numeric (Some a) (crun C numeric ops (w0, c)) (pd_array n)) /\
    fits C numeric None (crun C numeric ops (w0, c)) (pd_array n).
Proof.
  intros E U C numeric k w0 c ops num ms n ms0 Ks a ws p r K Hc H0 Hs HF HK Ha Hl Hp Hr Hk HPD. split.
  - intros Hpos. eapply fits_pd; [eapply pf_C36_sum_weights; eauto using psd_squares|].
    eapply pd_array_sum; eassumption.
  - eapply fits_pd; [eapply pf_C36_sum_default; eauto using psd_squares|].
    apply (pd_array_sum n _ Ks p 1 K); [|exact HK| |exact Hk|lra|exact HPD].
    + apply Forall_forall. intros q Hq. apply repeat_spec in Hq. lra.
    + apply nth_error_repeat. rewrite <- Hl. apply nth_error_Some. rewrite Hr. discriminate.
Qed.

(** C111, AverageKernel: if the members are positive semidefinite and one of them is positive definite. *)
Lemma pf_C111_average :
  forall {E U} C numeric k (w0 : world E xr U) c ops num ms n ms0 Ks kw,
    comp_new NewAverage (Some k) w0 = Ok c -> set_is w0 k (NSOne n) ms0 ->
    set_is (fst (crun C numeric ops (w0, c))) k num ms ->
    fulls (fst (crun C numeric ops (w0, c))) ms Ks -> Forall (psd_array n) Ks -> Exists (pd_array n) Ks ->
    fits C numeric kw (crun C numeric ops (w0, c)) (pd_array n).
Proof.
  intros E U C numeric k w0 c ops num ms n ms0 Ks kw Hc H0 Hs HF HK HE.
  apply Exists_exists in HE. destruct HE as (K & HI & HPD). apply In_nth_error in HI. destruct HI as (p & Hp).
  assert (Hne : ms <> []).
  { intros ->. inversion HF; subst. destruct p; discriminate. }
  eapply fits_pd; [eapply pf_C36_average; eauto using psd_squares|]. eapply pd_array_mean; eassumption.
Qed.

(** C111, ProductKernel: if the members are positive semidefinite ndarrays with positive diagonals and one of them
    is positive definite. *)
Lemma pf_C111_product :
  forall {E U} C numeric k (w0 : world E xr U) c ops num ms n ms0 Ks kw,
    comp_new NewProduct (Some k) w0 = Ok c -> set_is w0 k (NSOne n) ms0 ->
    set_is (fst (crun C numeric ops (w0, c))) k num ms ->
    fulls (fst (crun C numeric ops (w0, c))) ms Ks -> Forall (psd_array n) Ks -> Exists (pd_array n) Ks ->
    Forall (positive_diagonal n) Ks -> Forall (fun K => afmt K = Dense) Ks ->
    fits C numeric kw (crun C numeric ops (w0, c)) (pd_array n).
Proof.
  intros E U C numeric k w0 c ops num ms n ms0 Ks kw Hc H0 Hs HF HK HE HD HF'.
  eapply fits_pd; [eapply pf_C36_product_partial; eauto using psd_squares|].
  destruct (pd_array_prod n Ks HK HD) as (A & _ & _ & HP & EA). exists A. auto.
Qed.

(** C111, WeightedAverageKernel: as SumKernel, with the weights of the constructor. *)
Lemma pf_C111_weighted :
  forall {E U} C numeric k (w0 : world E xr U) c ops num ms n ms0 Ks kw a ws p r K,
    comp_new (NewWeighted a) (Some k) w0 = Ok c -> is_vector a ws -> Forall (fun r => 0 <= r) ws ->
    set_is w0 k (NSOne n) ms0 ->
    set_is (fst (crun C numeric ops (w0, c))) k num ms ->
    fulls (fst (crun C numeric ops (w0, c))) ms Ks -> Forall (psd_array n) Ks ->
    nth_error ws p = Some r -> nth_error Ks p = Some K -> 0 < r -> pd_array n K ->
    fits C numeric kw (crun C numeric ops (w0, c)) (pd_array n).
Proof.
  intros E U C numeric k w0 c ops num ms n ms0 Ks kw a ws p r K Hc Ha Hp H0 Hs HF HK Hr Hk Hpos HPD.
  eapply fits_pd; [eapply pf_C36_weighted_sum; eauto using psd_squares|]. eapply pd_array_sum; eassumption.
Qed.

(** ** Normalisation and centring *)

(** C111: normalize_km keeps a matrix positive definite, and no other matrix with such a diagonal becomes so. *)
Lemma pf_C111_normalise : forall meth f n A, lower meth = "cosine"%string ->
  (forall i, (i < n)%nat -> 1/100000000 < A i i) ->
  exists g B, normalize_km meth (mkArr f (rmat n n A)) = Ok (mkArr g (rmat n n B)) /\ (pos_def n B <-> pos_def n A).
Proof.
  intros meth f n A Hm Hd. do 2 eexists. split; [now apply pf_C19_entries|].
  assert (D : forall i, (i < n)%nat -> 0 < A i i) by (intros i Hi; specialize (Hd i Hi); lra).
  assert (S : forall i, (i < n)%nat -> 0 < sqrt (A i i)) by (intros i Hi; apply sqrt_lt_R0; auto).
  split; intros H.
  - apply (pos_def_ext n (fun i j => sqrt (A i i) * (A i j / sqrt (A i i * A j j)) * sqrt (A j j))).
    + intros i j Hi Hj. assert (Si := S i Hi). assert (Sj := S j Hj). rewrite sqrt_mult_alt by (left; auto). field. lra.
    + apply (def_scale n (fun i => sqrt (A i i))); [|exact H]. intros i Hi. specialize (S i Hi). lra.
  - apply (pos_def_ext n (fun i j => / sqrt (A i i) * A i j * / sqrt (A j j))).
    + intros i j Hi Hj. assert (Si := S i Hi). assert (Sj := S j Hj). rewrite sqrt_mult_alt by (left; auto). field. lra.
    + apply (def_scale n (fun i => / sqrt (A i i))); [|exact H]. intros i Hi. apply Rinv_neq_0_compat. specialize (S i Hi). lra.
Qed.

(** C111: the result of center_km is never positive definite (but for an empty matrix). *)
Lemma pf_C111_center : forall f n A B, (0 < n)%nat -> center_km (mkArr f (rmat n n A)) = Ok B ->
  exists M, B = mkArr f (rmat n n M) /\ ~ pos_def n M.
Proof.
  intros f n A B Hn H. assert (Hf : f <> Lil) by (intros ->; discriminate).
  rewrite pf_C18_entries in H by exact Hf. injection H as <-. eexists. split; [reflexivity|].
  intros [_ HD]. specialize (HD (fun _ => 1) (ex_intro _ 0%nat (conj Hn R1_neq_R0))).
  assert (Z : quad n (fun i j => A i j - rowmean n A i - colmean n A j + allmean n A) (fun _ => 1) = 0).
  { unfold quad. apply rsum_zero. intros i Hi.
    transitivity (rsum n (centred n A i)); [apply rsum_ext; intros; unfold centred; ring|now apply centred_row]. }
  lra.
Qed.

Ltac rle := repeat match goal with |- context [Rle_dec (Rabs (?a - ?a)) ?b] =>
  destruct (Rle_dec (Rabs (a - a)) b) as [_|N];
  [|exfalso; apply N; rewrite Rminus_diag_eq, Rabs_R0 by reflexivity; assert (H := Rabs_pos a); lra] end.

(** C111: the hypotheses are met by the points 0, 1, 2 (for chi2), and by a set of two linear kernel matrices on the
    points 1, 2, which are not positive definite, and a precomputed unit matrix. *)
Lemma pf_C111_example :
  let X := fun (i _ : nat) => INR i in
  let ops := [CHeap (WNewPre (Ok (mkNd [2; 2]%nat [Fin 1; Fin 0; Fin 0; Fin 1]))); CHeap (WAppend 0 (ARef 3))] in
  let c := mkComp CSum 0 (NSOne 2) false None in
  distinct 3 1 X /\ (forall i k, (i < 3)%nat -> (k < 1)%nat -> 0 <= X i k) /\
  comp_new NewSum (Some 0%nat) w_lin = Ok c /\ set_is w_lin 0 (NSOne 2) [0; 1]%nat /\
  set_is (fst (crun xC numx ops (w_lin, c))) 0 (NSOne 2) [0; 1; 3]%nat /\
  exists K K1, fulls (fst (crun xC numx ops (w_lin, c))) [0; 1; 3]%nat [K; K; K1] /\
    psd_array 2 K /\ ~ pd_array 2 K /\ psd_array 2 K1 /\ pd_array 2 K1 /\
    positive_diagonal 2 K /\ positive_diagonal 2 K1 /\ afmt K = Dense /\ afmt K1 = Dense.
Proof.
  cbv zeta. split; [|split].
  { intros i j Hi Hj N. exists 0%nat. split; [lia|]. intros E. now apply INR_eq in E. }
  { intros i k _ _. apply pos_INR. }
  split; [calc; reflexivity|]. split; [eexists; eexists; calc; reflexivity|].
  split; [eexists; eexists; calc; rle; calc; reflexivity|].
  exists (mkArr Dense (kernel_matrix xdot 2 2 1 x12 None)), (mkArr Dense (rmat 2 2 (fun i j => if Nat.eqb i j then 1 else 0))).
  assert (EK : forall i j, (i < 2)%nat -> (j < 2)%nat ->
     xget (amat (mkArr Dense (kernel_matrix xdot 2 2 1 x12 None))) i j = Fin (INR (S i) * INR (S j))).
  { intros i j Hi Hj. destruct i as [|[|i]]; [| |lia]; (destruct j as [|[|j]]; [| |lia]); calc; f_equal; cbn; lra. }
  assert (P1 : pos_def 2 (fun i j => if Nat.eqb i j then 1 else 0)).
  { split; [intros i j _ _; rewrite Nat.eqb_sym; reflexivity|].
    intros v (i & Hi & Hv). unfold quad. destruct i as [|[|i]]; [| |lia]; cbn in *; nra. }
  assert (E1 : forall i j, (i < 2)%nat -> (j < 2)%nat ->
     xget (amat (mkArr Dense (rmat 2 2 (fun i j => if Nat.eqb i j then 1 else 0)))) i j = Fin (if Nat.eqb i j then 1 else 0)).
  { intros i j Hi Hj. cbn [amat]. rewrite xget_rmat by assumption. reflexivity. }
  split; [|split; [|split; [|split; [|split; [|split; [|split; [|split; reflexivity]]]]]]].
  - assert (O3 : nth_error (w_objs (fst (crun xC numx
         [CHeap (WNewPre (Ok (mkNd [2; 2]%nat [Fin 1; Fin 0; Fin 0; Fin 1]))); CHeap (WAppend 0 (ARef 3))]
         (w_lin, mkComp CSum 0 (NSOne 2) false None)))) 3 = Some (OPre (rmat 2 2 (fun i j => if Nat.eqb i j then 1 else 0))))
      by (calc; rle; calc; reflexivity).
    assert (O01 : forall l, (l < 2)%nat -> nth_error (w_objs (fst (crun xC numx
         [CHeap (WNewPre (Ok (mkNd [2; 2]%nat [Fin 1; Fin 0; Fin 0; Fin 1]))); CHeap (WAppend 0 (ARef 3))]
         (w_lin, mkComp CSum 0 (NSOne 2) false None)))) l = nth_error (w_objs w_lin) l)
      by (intros [|[|l]] Hl; [| |lia]; calc; rle; calc; reflexivity).
    constructor; [rewrite obj_full_eq, O01 by lia; calc; reflexivity|].
    constructor; [rewrite obj_full_eq, O01 by lia; calc; reflexivity|].
    constructor; [rewrite obj_full_eq, O3; reflexivity|]. constructor.
  - split; [split; reflexivity|]. exists (fun i j => INR (S i) * INR (S j)).
    split; [apply (psd_rank1 2 (fun i => INR (S i)))|exact EK].
  - intros [_ (A & [HS HD] & EA)]. specialize (HD (fun i => match i with O => 2 | _ => -1 end)).
    assert (F : forall i j, (i < 2)%nat -> (j < 2)%nat -> A i j = INR (S i) * INR (S j)).
    { intros i j Hi Hj. assert (E := EA i j Hi Hj). rewrite EK in E by assumption. injection E as E. auto. }
    assert (Z : 0 < quad 2 A (fun i => match i with O => 2 | _ => -1 end)).
    { apply HD. exists 0%nat. split; [lia|lra]. }
    unfold quad in Z. cbn [rsum] in Z. rewrite !F in Z by lia. cbn in Z. lra.
  - split; [split; reflexivity|]. eexists. split; [apply def_psd; exact P1|exact E1].
  - split; [split; reflexivity|]. eexists. split; [exact P1|exact E1].
  - intros i Hi. rewrite EK by assumption. eexists. split; [|reflexivity].
    apply Rmult_lt_0_compat; apply lt_0_INR; lia.
  - intros i Hi. rewrite E1 by assumption. eexists. split; [|reflexivity]. rewrite Nat.eqb_refl. lra.
Qed.
