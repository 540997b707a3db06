(** ProductKernel with members held in any mixture of formats: properties C36 and C37. *)
From Coq Require Import String Reals List Arith ZArith Bool Lia Lra.
Import ListNotations.
From Verif Require Import Prelude MatModel UtilsModel IndexModel KMModel SpecKM XReal OpsModel
  SpecLinAlg KernelsModel SpecKernels KMXModel SpecKMX SetModel SpecSet CompositeModel SpecComposite
  SpecProduct.
From Verif Require Import MatFacts MFacts KMFacts KMInv KMHist KMHist2 KMProps RSum OpsFacts PSDFacts
  KMXProps SetFacts SetFacts2 SetProps ContProps FullFacts CompositeFacts CompositeProps.

Local Open Scope list_scope.
Local Open Scope nat_scope.

Lemma xget_tab : forall r c (f : nat -> nat -> xr) i j, i < r -> j < c -> xget (tabulate r c f) i j = f i j.
Proof. intros. unfold xget. apply mget_tabulate; assumption. Qed.

Lemma held_ext : forall n K A B, held n K A -> (forall i j, i < n -> j < n -> A i j = B i j) -> held n K B.
Proof. intros n K A B [H1 H2] H. split; [exact H1|]. intros i j Hi Hj. rewrite H2, H by assumption. reflexivity. Qed.

(** One multiplication. *)
Lemma mul_dense : forall n a K P A, held n a P -> held n K A -> afmt a = Dense -> afmt K = Dense ->
  exists b, arr_mul a K = Ok b /\ afmt b = Dense /\ held n b (fun i j => P i j * A i j)%R.
Proof.
  intros n a K P A [Sa Ea] [SK EK] Fa FK.
  destruct (arr_mul_ok n a K Sa Fa SK FK) as (b & Hb & Sb & Fb & Eb).
  exists b. split; [exact Hb|]. split; [exact Fb|]. split; [exact Sb|].
  intros i j Hi Hj. rewrite Eb, Ea, EK by assumption. reflexivity.
Qed.

Lemma dot_fin : forall n (a K : arr xr) P A i j, held n a P -> held n K A -> i < n -> j < n ->
  xsum (map (fun k => xmul (xget (amat a) i k) (xget (amat K) k j)) (seq 0 n)) = Fin (mprod n P A i j).
Proof.
  intros n a K P A i j [_ Ea] [_ EK] Hi Hj. apply xsum_fin_ext. intros k Hk.
  rewrite Ea, EK by assumption. reflexivity.
Qed.

Lemma mul_lil : forall n a K P A, held n a P -> held n K A -> afmt K = Lil ->
  exists b, arr_mul a K = Ok b /\ afmt b = afmt a /\ held n b (mprod n P A).
Proof.
  intros n a K P A Ha HK FK. assert (Ha' := Ha). assert (HK' := HK).
  destruct Ha as [[Ra Ca] Ea]. destruct HK as [[RK CK] EK].
  exists (mkArr (afmt a) (matmul_sp (amat a) (amat K))). split; [|split; [reflexivity|split]].
  - unfold arr_mul. rewrite FK, Ca, RK, Nat.eqb_refl. destruct (afmt a); reflexivity.
  - split; cbn; assumption.
  - intros i j Hi Hj. cbn [amat]. unfold matmul_sp. rewrite Ra, CK, xget_tab by assumption.
    rewrite Ca. rewrite xsum_filter.
    + apply dot_fin; assumption.
    + intros k Hk Hz. apply in_seq in Hk. apply nonzero_false in Hz. rewrite Hz, Ea by lia.
      cbn. f_equal. ring.
Qed.

Lemma mul_np : forall n a K P A, held n a P -> held n K A ->
  (afmt a = NpMatrix /\ afmt K = Dense \/ is_ndarray a = true /\ afmt K = NpMatrix) ->
  exists b, arr_mul a K = Ok b /\ afmt b = NpMatrix /\ held n b (mprod n P A).
Proof.
  intros n a K P A Ha HK F. assert (Ha' := Ha). assert (HK' := HK).
  destruct Ha as [[Ra Ca] Ea]. destruct HK as [[RK CK] EK].
  exists (mkArr NpMatrix (matmul (amat a) (amat K))). split; [|split; [reflexivity|split]].
  - unfold arr_mul. rewrite Ca, RK, Nat.eqb_refl.
    destruct F as [[-> ->]|[_ ->]]; [reflexivity|]. destruct (afmt a); reflexivity.
  - split; cbn; assumption.
  - intros i j Hi Hj. cbn [amat]. unfold matmul. rewrite Ra, CK, xget_tab by assumption.
    rewrite Ca. apply dot_fin; assumption.
Qed.

(** All of them. *)
Lemma fold_star : forall n Ks As acc P, held n acc P -> is_ndarray acc = true -> Forall2 (held n) Ks As ->
  exists b, foldr (fun _ a K => arr_mul a K) acc (map (fun K => (tt, K)) Ks) = Ok b /\
    held n b (star n (match afmt acc with Dense => true | _ => false end) P
                     (combine (map (fun K => afmt K) Ks) As)) /\
    is_ndarray b = true /\
    (afmt b = NpMatrix <-> afmt acc = NpMatrix \/ some_np_matrix Ks).
Proof.
  intros n Ks. induction Ks as [|K Ks IH]; intros As acc P Ha Hn HF; inversion HF as [|? A ? As' HK HF']; subst.
  - exists acc. split; [reflexivity|]. split; [exact Ha|]. split; [exact Hn|].
    split; [auto|]. intros [H|(K & [] & _)]. exact H.
  - assert (Hnd : forall b : arr xr, afmt b = Dense \/ afmt b = NpMatrix -> is_ndarray b = true).
    { intros b [H|H]; unfold is_ndarray; rewrite H; reflexivity. }
    assert (Fa : afmt acc = Dense \/ afmt acc = NpMatrix).
    { unfold is_ndarray in Hn. destruct (afmt acc); auto; discriminate. }
    assert (Hcons : forall Q : Prop, (Q \/ some_np_matrix (K :: Ks) <->
                                      (Q \/ afmt K = NpMatrix) \/ some_np_matrix Ks)).
    { intros Q. split.
      - intros [H|(K' & [<-|HI] & HK')]; [auto|auto|right; exists K'; auto].
      - intros [[H|H]|(K' & HI & HK')]; [auto|right; exists K; cbn; auto|right; exists K'; cbn; auto]. }
    assert (Step : exists b, arr_mul acc K = Ok b /\
      (afmt b = Dense \/ afmt b = NpMatrix) /\
      (afmt b = NpMatrix <-> afmt acc = NpMatrix \/ afmt K = NpMatrix) /\
      exists P', held n b P' /\
        star n (match afmt acc with Dense => true | _ => false end) P ((afmt K, A) :: combine (map (fun K => afmt K) Ks) As')
        = star n (match afmt b with Dense => true | _ => false end) P' (combine (map (fun K => afmt K) Ks) As')).
    { destruct (afmt K) eqn:FK.
      - destruct Fa as [Fa|Fa].
        + destruct (mul_dense n acc K P A Ha HK Fa FK) as (b & Hb & Fb & Sb).
          exists b. split; [exact Hb|]. split; [auto|]. split.
          { rewrite Fa, Fb. split; [discriminate|intros [H|H]; discriminate]. }
          eexists. split; [exact Sb|]. rewrite Fa, Fb. reflexivity.
        + destruct (mul_np n acc K P A Ha HK (or_introl (conj Fa FK))) as (b & Hb & Fb & Sb).
          exists b. split; [exact Hb|]. split; [auto|]. split; [tauto|].
          eexists. split; [exact Sb|]. rewrite Fa, Fb. reflexivity.
      - destruct (mul_lil n acc K P A Ha HK FK) as (b & Hb & Fb & Sb).
        exists b. split; [exact Hb|]. rewrite Fb. split; [exact Fa|]. split.
        { split; [auto|intros [H|H]; [exact H|discriminate]]. }
        eexists. split; [exact Sb|]. reflexivity.
      - destruct (mul_np n acc K P A Ha HK (or_intror (conj Hn FK))) as (b & Hb & Fb & Sb).
        exists b. split; [exact Hb|]. split; [auto|]. split; [tauto|].
        eexists. split; [exact Sb|]. rewrite Fb. reflexivity. }
    destruct Step as (b & Hb & Fb & Ib & P' & Hb' & Hs).
    destruct (IH As' b P' Hb' (Hnd b Fb) HF') as (b' & H1 & H2 & H3 & H4).
    exists b'. split; [cbn [map foldr]; rewrite Hb; exact H1|]. split.
    { cbn [map combine]. rewrite Hs. exact H2. }
    split; [exact H3|]. rewrite H4, Hcons, Ib. tauto.
Qed.

Lemma f2_length : forall {A B} (R : A -> B -> Prop) l l', Forall2 R l l' -> length l = length l'.
Proof. intros A B R l l' H. induction H; cbn; congruence. Qed.

Lemma held_square : forall n Ks As, Forall2 (held n) Ks As -> Forall (is_square n) Ks.
Proof. induction 1 as [|K A Ks As [H _] _ IH]; constructor; assumption. Qed.

(** C36, ProductKernel, exactly, for members with finite entries held in any formats: the all-ones
    matrix is multiplied by the members' matrices with numpy's *, which is the entrywise product only
    between plain ndarrays; the result is a numpy.matrix exactly if some member is one. *)
Lemma pf_C36_product_exact :
  forall {E U} C numeric k (w0 : world E xr U) c ops num ms n ms0 Ks As kw,
    comp_new NewProduct (Some k) w0 = Ok c -> set_is w0 k (NSOne n) ms0 ->
    set_is (fst (crun C numeric ops (w0, c))) k num ms ->
    fulls (fst (crun C numeric ops (w0, c))) ms Ks -> Forall2 (held n) Ks As ->
    fits C numeric kw (crun C numeric ops (w0, c)) (fun a =>
      held n a (star n true (fun _ _ => 1%R) (combine (map (fun K => afmt K) Ks) As)) /\
      is_ndarray a = true /\ (afmt a = NpMatrix <-> some_np_matrix Ks)).
Proof.
  intros E U C numeric k w0 c ops num ms n ms0 Ks As kw Hc H0 Hs HF HK.
  destruct (at_start C numeric _ k w0 c ops num ms n ms0 Hc H0 Hs) as (s & Hs' & Hm & Hn & Hk).
  rewrite crun_pair. destruct (comp_new_inv _ k w0 c Hc) as (_ & _ & _ & _ & _ & _ & _ & _ & Hkind).
  rewrite Hkind in Hk. rewrite <- Hm in HF.
  set (o := mkArr Dense (mfull n n (Fin 1))).
  destruct (fold_star n Ks As o (fun _ _ => 1%R)) as (b & Hb & Sb & Nb & Ib).
  { split; [split; reflexivity|]. intros i j Hi Hj. apply square_matrix; assumption. }
  { reflexivity. } { exact HK. }
  destruct (loop1_ok arr_mul (s_members s) Ks _ (set_km o (snd (crun C numeric ops (w0, c)))) o b HF eq_refl Hb)
    as (w' & H1 & _).
  apply (fits_of_body C numeric kw _ w' _ b).
  - rewrite (body_start kw _ _ s Hs'), Hk, Hn. cbn [square]. fold o.
    unfold bind at 1. rewrite put_km_ok. rewrite H1. reflexivity.
  - split; [exact Sb|]. split; [exact Nb|]. rewrite Ib. cbn. split; [intros [H|H]; [discriminate|exact H]|auto].
Qed.

(** ** Three cases in closed form *)
Lemma star_ext : forall n l plain P Q, (forall i j, i < n -> j < n -> P i j = Q i j) ->
  forall i j, i < n -> j < n -> star n plain P l i j = star n plain Q l i j.
Proof.
  intros n l. induction l as [|[f A] l IH]; intros plain P Q H i j Hi Hj; [apply H; assumption|].
  assert (HM : forall i j, i < n -> j < n -> mprod n P A i j = mprod n Q A i j).
  { intros i' j' Hi' Hj'. unfold mprod. apply rsum_ext. intros k Hk. rewrite H by assumption. reflexivity. }
  cbn [star]. destruct f; [destruct plain| |]; apply IH; try assumption.
  intros i' j' Hi' Hj'. rewrite H by assumption. reflexivity.
Qed.

Lemma star_dense : forall n Ks (As : list (nat -> nat -> R)) P l, Forall (fun K : arr xr => afmt K = Dense) Ks ->
  length Ks = length As -> forall i j, i < n -> j < n ->
  star n true P (combine (map (fun K => afmt K) Ks) As ++ l) i j
  = star n true (fun i j => P i j * hadamard As i j)%R l i j.
Proof.
  intros n Ks. induction Ks as [|K Ks IH]; intros [|A As] P l HD Hl i j Hi Hj; try discriminate Hl.
  - cbn. apply star_ext; [|assumption|assumption]. intros i' j' _ _. unfold hadamard. cbn. ring.
  - inversion HD as [|? ? FK HD']; subst. cbn [map combine List.app star]. rewrite FK.
    injection Hl as Hl. rewrite IH by assumption.
    apply star_ext; [|assumption|assumption]. intros i' j' _ _. unfold hadamard. cbn. ring.
Qed.

Lemma star_matrix : forall n Ks (As : list (nat -> nat -> R)) P, length Ks = length As ->
  star n false P (combine (map (fun K : arr xr => afmt K) Ks) As) = mprods n P As.
Proof.
  intros n Ks. induction Ks as [|K Ks IH]; intros [|A As] P Hl; try discriminate Hl; [reflexivity|].
  injection Hl as Hl. cbn [map combine star mprods fold_left].
  destruct (afmt K); apply IH; assumption.
Qed.

Lemma combine_app : forall {A B} (a1 a2 : list A) (b1 b2 : list B), length a1 = length b1 ->
  combine (a1 ++ a2) (b1 ++ b2) = combine a1 b1 ++ combine a2 b2.
Proof.
  intros A B a1. induction a1 as [|x a1 IH]; intros a2 [|y b1] b2 H; try discriminate H; [reflexivity|].
  cbn. injection H as H. rewrite IH by assumption. reflexivity.
Qed.

Lemma fits_imp : forall {E U} C numeric kw (s : cstate (E:=E) (U:=U)) (P Q : arr xr -> Prop),
  fits C numeric kw s P -> (forall a, P a -> Q a) -> fits C numeric kw s Q.
Proof. intros E U C numeric kw s P Q (a & H1 & H2) H. exists a. split; [apply H; exact H1|exact H2]. Qed.

(** C36: from the first member that is a numpy.matrix on, it is the product of matrices, of the
    entrywise product of the members before it and of the others. *)
Lemma pf_C36_product_matrices :
  forall {E U} C numeric k (w0 : world E xr U) c ops num ms n ms0 Ds K Ks As B Bs kw,
    comp_new NewProduct (Some k) w0 = Ok c -> set_is w0 k (NSOne n) ms0 ->
    set_is (fst (crun C numeric ops (w0, c))) k num ms ->
    fulls (fst (crun C numeric ops (w0, c))) ms (Ds ++ K :: Ks) ->
    Forall2 (held n) Ds As -> Forall (fun D => afmt D = Dense) Ds ->
    held n K B -> afmt K = NpMatrix -> Forall2 (held n) Ks Bs ->
    fits C numeric kw (crun C numeric ops (w0, c)) (fun a =>
      held n a (mprods n (hadamard As) (B :: Bs)) /\ afmt a = NpMatrix).
Proof.
  intros E U C numeric k w0 c ops num ms n ms0 Ds K Ks As B Bs kw Hc H0 Hs HF HD FD HK FK HKs.
  assert (HA : Forall2 (held n) (Ds ++ K :: Ks) (As ++ B :: Bs)).
  { apply Forall2_app; [exact HD|]. constructor; assumption. }
  eapply fits_imp; [exact (pf_C36_product_exact C numeric k w0 c ops num ms n ms0 _ _ kw Hc H0 Hs HF HA)|].
  assert (L1 := f2_length _ _ _ HD). assert (L2 := f2_length _ _ _ HKs).
  intros a (H1 & H2 & H3). split.
  - eapply held_ext; [exact H1|]. intros i j Hi Hj.
    rewrite map_app, combine_app by (rewrite map_length; exact L1).
    rewrite star_dense by assumption. cbn [map combine star]. rewrite FK, star_matrix by assumption.
    cbn [mprods fold_left].
    rewrite <- (star_matrix n Ks Bs) by assumption. fold (mprods n (mprod n (hadamard As) B) Bs).
    rewrite <- (star_matrix n Ks Bs) by assumption.
    apply star_ext; [|assumption|assumption]. intros i' j' _ _. unfold mprod. apply rsum_ext.
    intros l _. ring.
  - apply H3. exists K. split; [apply in_or_app; right; left; reflexivity|exact FK].
Qed.

(** C36: if the first member is sparse and the others are plain ndarrays, entry (i, j) is the sum of
    column j of the first matrix, times the product of the others' entries (i, j). *)
Lemma pf_C36_product_first_sparse :
  forall {E U} C numeric k (w0 : world E xr U) c ops num ms n ms0 K Ks A As kw,
    comp_new NewProduct (Some k) w0 = Ok c -> set_is w0 k (NSOne n) ms0 ->
    set_is (fst (crun C numeric ops (w0, c))) k num ms ->
    fulls (fst (crun C numeric ops (w0, c))) ms (K :: Ks) ->
    held n K A -> afmt K = Lil -> Forall2 (held n) Ks As -> Forall (fun D => afmt D = Dense) Ks ->
    fits C numeric kw (crun C numeric ops (w0, c)) (fun a =>
      held n a (fun i j => rsum n (fun l => A l j) * hadamard As i j)%R /\ afmt a = Dense).
Proof.
  intros E U C numeric k w0 c ops num ms n ms0 K Ks A As kw Hc H0 Hs HF HK FK HKs FKs.
  assert (HA : Forall2 (held n) (K :: Ks) (A :: As)) by (constructor; assumption).
  eapply fits_imp; [exact (pf_C36_product_exact C numeric k w0 c ops num ms n ms0 _ _ kw Hc H0 Hs HF HA)|].
  assert (L := f2_length _ _ _ HKs).
  intros a (H1 & H2 & H3). split.
  - eapply held_ext; [exact H1|]. intros i j Hi Hj. cbn [map combine star]. rewrite FK.
    rewrite <- (app_nil_r (combine _ As)). rewrite star_dense by assumption.
    cbn [star]. unfold mprod. f_equal. apply rsum_ext. intros l _. ring.
  - unfold is_ndarray in H2. destruct (afmt a); [reflexivity|discriminate|]. exfalso.
    destruct (proj1 H3 eq_refl) as (K' & [<-|HI] & HK'); [congruence|].
    rewrite Forall_forall in FKs. rewrite (FKs K' HI) in HK'. discriminate.
Qed.

(*BEGIN PROP*)
(** The indexing K[:, :], and a heap like [w_lin] after K0[:, :]. *)
Definition whole : idx := IPair (ISlice None None None) (ISlice None None None).
Definition w_first : world xr xr unit := fst (wstep xN xC numx (WObj 0 (OpGetItem whole)) w_lin).
(** A kernel that fails at its third evaluation only: the second member's K[:, :] raises, and its [full]
    is a numpy.matrix from then on. *)
Definition third_fails : kernel xr xr :=
  mkKernel (fun t u v => if t =? 2 then Raise ValueError else Ok (xdot u v)) true.
Definition w_np : world xr xr unit :=
  wrun xN xC numx
    [WNewKM lin false; WNewKM third_fails false; WNewKM lin false; WObj 0 (OpAttach x12 None);
     WObj 1 (OpAttach x12 None); WObj 2 (OpAttach x12 None); WObj 1 (OpGetItem whole);
     WSetNew (KLIter [ARef 0; ARef 1; ARef 2]) None] w_empty.

(** The entries [[1, 2], [2, 4]] and [[1, 2], [2, 0]]. *)
Definition tab2 (a b c d : R) (i j : nat) : R :=
  match i, j with O, O => a | O, _ => b | S _, O => c | S _, S _ => d end.
(*END PROP*)

Ltac pair2 :=
  intros [|[|?]] [|[|?]] ? ?; try lia; calc; try reflexivity; f_equal; cbn; try lra.

(*BEGIN PROP*)
(** The hypotheses of [C36_product_first_sparse] hold of [w_first], and of [C36_product_matrices] of
    [w_np]; those of [C36_product_exact] hold of both. *)
Example C36_product_example :
  let c := mkComp CProduct 0 (NSOne 2) false None in
  (comp_new NewProduct (Some 0) w_first = Ok c /\ set_is w_first 0 (NSOne 2) [0; 1] /\
   exists K1 K2, fulls w_first [0; 1] [K1; K2] /\
     held 2 K1 (tab2 1 2 2 4) /\ afmt K1 = Lil /\ held 2 K2 (tab2 1 2 2 4) /\ afmt K2 = Dense) /\
  (comp_new NewProduct (Some 0) w_np = Ok c /\ set_is w_np 0 (NSOne 2) [0; 1; 2] /\
   exists K1 K2 K3, fulls w_np [0; 1; 2] [K1; K2; K3] /\
     held 2 K1 (tab2 1 2 2 4) /\ afmt K1 = Dense /\ held 2 K2 (tab2 1 2 2 0) /\ afmt K2 = NpMatrix /\
     held 2 K3 (tab2 1 2 2 4)).
Proof.
  cbv zeta. split.
  - split; [calc; reflexivity|]. split; [eexists; eexists; calc; reflexivity|]. eexists. eexists. split.
    { constructor; [calc; reflexivity|]. constructor; [calc; reflexivity|constructor]. }
    split; [split; [split; reflexivity|pair2]|]. split; [reflexivity|].
    split; [split; [split; reflexivity|pair2]|]. reflexivity.
  - split; [calc; reflexivity|]. split; [eexists; eexists; calc; reflexivity|].
    eexists. eexists. eexists. split.
    { constructor; [calc; reflexivity|]. constructor; [calc; reflexivity|].
      constructor; [calc; reflexivity|constructor]. }
    split; [split; [split; reflexivity|pair2]|]. split; [reflexivity|].
    split; [split; [split; reflexivity|pair2]|]. split; [reflexivity|].
    split; [split; reflexivity|pair2].
Qed.
(*END PROP*)

(** C37 is false for ProductKernel if a member is held sparse: two positive semidefinite members, and
    the result is not even symmetric. *)
Lemma pf_C37_product_refuted :
  exists (w0 : world xr xr unit) k ms n c Ks b,
    comp_new NewProduct (Some k) w0 = Ok c /\
    set_is w0 k (NSOne n) ms /\ fulls w0 ms Ks /\ Forall (psd_array n) Ks /\
    snd (cstep xC numx (CFit None) (w0, c)) = Ok CUnit /\
    snd (cstep xC numx CGet (fst (cstep xC numx (CFit None) (w0, c)))) = Ok (CMat b) /\
    ~ psd_array n b.
Proof.
  destruct C36_product_example as [(Hc & Hs & K1 & K2 & HF & HK1 & F1 & HK2 & F2) _].
  revert Hc Hs HF. generalize w_first. intros W Hc Hs HF.
  destruct (pf_C36_product_first_sparse xC numx 0 W _ [] (NSOne 2) [0; 1] 2 [0; 1] K1 [K2]
    (tab2 1 2 2 4) [tab2 1 2 2 4] None Hc Hs Hs HF HK1 F1) as (b & (Hb & _) & Hfit & Hget).
  { constructor; [exact HK2|constructor]. } { constructor; [exact F2|constructor]. }
  cbn [crun] in Hfit, Hget. exists W, 0, [0; 1], 2. eexists. exists [K1; K2], b.
  split; [exact Hc|]. split; [exact Hs|]. split; [exact HF|].
  assert (Hpsd : forall K, held 2 K (tab2 1 2 2 4) -> psd_array 2 K).
  { intros K [H1 H2]. split; [exact H1|]. exists (tab2 1 2 2 4). split; [|exact H2].
    apply (psd_ext 2 (fun i j => INR (S i) * INR (S j))%R); [|apply (psd_rank1 2 (fun i => INR (S i)))].
    intros [|[|i]] [|[|j]] Hi Hj; try lia; cbn; lra. }
  split; [constructor; [apply Hpsd, HK1|constructor; [apply Hpsd, HK2|constructor]]|].
  split; [exact Hfit|]. split; [apply (Hget []); intros w []|].
  intros (_ & A & [Hsym _] & HA). destruct Hb as [_ Hb].
  assert (H01 := HA 0 1 ltac:(lia) ltac:(lia)). assert (H10 := HA 1 0 ltac:(lia) ltac:(lia)).
  rewrite Hb in H01, H10 by lia. injection H01 as H01. injection H10 as H10.
  assert (Hs01 := Hsym 0 1 ltac:(lia) ltac:(lia)). rewrite <- H01, <- H10 in Hs01.
  revert Hs01. unfold hadamard. cbn. lra.
Qed.
