(** Composite kernels: properties C36 - C38, C66 and C67. *)
From Coq Require Import String Reals List Arith ZArith Bool Lia Lra.
Import ListNotations.
From Verif Require Import Prelude MatModel UtilsModel IndexModel KMModel SpecKM XReal OpsModel
  SpecLinAlg KernelsModel SpecKernels KMXModel SpecKMX SetModel SpecSet CompositeModel SpecComposite.
From Verif Require Import MatFacts MFacts KMFacts KMInv KMHist KMHist2 KMProps RSum OpsFacts PSDFacts
  KMXProps SetFacts SetFacts2 SetProps ContProps FullFacts CompositeFacts.

Local Open Scope list_scope.
Local Open Scope nat_scope.

(** ** From [fit_body] to [fits] *)
Lemma fits_of_body : forall {E U} C numeric kw (w w' : world E xr U) c a (P : arr xr -> Prop),
  fit_body kw (w, c) = ((w', set_km a c), Ok tt) -> P a -> fits C numeric kw (w, c) P.
Proof.
  intros E U C numeric kw w w' c a P H HP. exists a. split; [exact HP|].
  assert (Hs : cstep C numeric (CFit kw) (w, c) = ((w', set_fitted (set_km a c)), Ok CUnit)).
  { cbn [cstep]. unfold bind. rewrite (fit_ok kw w w' c a H). reflexivity. }
  rewrite Hs. split; [reflexivity|]. intros post Hp. cbn [fst].
  apply cget_eq; rewrite (crun_no_fit C numeric post _ Hp); reflexivity.
Qed.

Section Bodies.
  Context {E U : Type}.
  Notation World := (world E xr U).

  Lemma body_start : forall kw (w : World) c s, nth_error (w_sets w) (c_set c) = Some s ->
    fit_body kw (w, c) =
    match c_kind c with
    | CSum => (wts <- lift (sum_weights (length (s_members s)) kw) ;; fit_weighted wts) (w, c)
    | CWeighted wts => fit_weighted wts (w, c)
    | CProduct =>
        (put_km (square (c_num c) (Fin 1)) ;;;
         for_each (s_members s) (combine_step arr_mul)) (w, c)
    | CAverage =>
        (put_km (square (c_num c) (Fin 0)) ;;;
         for_each (s_members s) (combine_step arr_add) ;;;
         a <- get_km ;;
         put_km (Ok (arr_div a (length (s_members s))))) (w, c)
    end.
  Proof.
    intros kw w c s H. unfold fit_body. unfold bind at 1, get at 1. cbn [snd].
    unfold bind at 1. rewrite (on_world_iter _ _ _ _ H). destruct (c_kind c); reflexivity.
  Qed.

  Lemma body_product : forall n kw (w : World) c s Ks,
    nth_error (w_sets w) (c_set c) = Some s -> c_num c = NSOne n -> c_kind c = CProduct ->
    fulls w (s_members s) Ks -> Forall (is_square n) Ks -> Forall (fun K => afmt K = Dense) Ks ->
    exists w' a, fit_body kw (w, c) = ((w', set_km a c), Ok tt) /\
      is_matrix n (prod_entry Ks) a /\ afmt a = Dense.
  Proof.
    intros n kw w c s Ks Hs Hn Hk HF HK HD. rewrite (body_start kw w c s Hs), Hk, Hn.
    cbn [square]. set (o := mkArr Dense (mfull n n (Fin 1))).
    destruct (fold_mul n (map (fun K => (tt, K)) Ks) o) as (b & Hb & Sb & Fb & Eb).
    { split; reflexivity. } { reflexivity. }
    { apply Forall_forall. intros [[] K] Hin. apply in_map_iff in Hin. destruct Hin as (K' & HK' & Hin).
      inversion HK'; subst K'. cbn. rewrite Forall_forall in HK, HD. auto. }
    destruct (loop1_ok arr_mul (s_members s) Ks w (set_km o c) o b HF eq_refl Hb) as (w' & H1 & _).
    exists w', b. split; [|split; [split; [exact Sb|split]|exact Fb]].
    - unfold bind at 1. rewrite put_km_ok. rewrite H1. reflexivity.
    - unfold is_ndarray. rewrite Fb. reflexivity.
    - intros i j Hi Hj. rewrite Eb by assumption. unfold o. cbn [amat].
      rewrite square_matrix, xmul_1_l by assumption. unfold prod_entry. rewrite map_map. reflexivity.
  Qed.

  Lemma body_average : forall n kw (w : World) c s Ks,
    nth_error (w_sets w) (c_set c) = Some s -> c_num c = NSOne n -> c_kind c = CAverage ->
    fulls w (s_members s) Ks -> Forall (is_square n) Ks ->
    exists w' a, fit_body kw (w, c) = ((w', set_km a c), Ok tt) /\ is_matrix n (mean_entry Ks) a.
  Proof.
    intros n kw w c s Ks Hs Hn Hk HF HK. rewrite (body_start kw w c s Hs), Hk, Hn.
    cbn [square]. set (o := mkArr Dense (mfull n n (Fin 0))).
    destruct (fold_add n (map (fun K => (tt, K)) Ks) o) as (b & Hb & Sb & Nb & _ & Eb).
    { split; reflexivity. } { reflexivity. }
    { apply Forall_forall. intros [[] K] Hin. apply in_map_iff in Hin. destruct Hin as (K' & HK' & Hin).
      inversion HK'; subst K'. cbn. rewrite Forall_forall in HK. auto. }
    destruct (loop1_ok arr_add (s_members s) Ks w (set_km o c) o b HF eq_refl Hb) as (w' & H1 & _).
    exists w', (arr_div b (length Ks)). split; [|split; [|split]].
    - unfold bind at 1. rewrite put_km_ok. unfold bind at 1. rewrite H1.
      rewrite (fulls_length _ _ _ HF). reflexivity.
    - destruct Sb as [Sr Sc]. split; cbn; assumption.
    - exact Nb.
    - intros i j Hi Hj. destruct Sb as [Sr Sc]. unfold arr_div. cbn [amat]. unfold xget at 1.
      rewrite mget_tabulate by lia. rewrite Eb by assumption. unfold o. cbn [amat].
      rewrite square_matrix, xadd_0_l by assumption. rewrite map_map. reflexivity.
  Qed.
End Bodies.

Lemma at_start : forall {E U} C numeric cls k (w0 : world E xr U) c ops num ms n ms0,
  comp_new cls (Some k) w0 = Ok c -> set_is w0 k (NSOne n) ms0 ->
  set_is (fst (crun C numeric ops (w0, c))) k num ms ->
  exists s, nth_error (w_sets (fst (crun C numeric ops (w0, c)))) (c_set (snd (crun C numeric ops (w0, c))))
            = Some s /\ s_members s = ms /\
    c_num (snd (crun C numeric ops (w0, c))) = NSOne n /\
    c_kind (snd (crun C numeric ops (w0, c))) = c_kind c.
Proof.
  intros E U C numeric cls k w0 c ops num ms n ms0 Hc H0 Hs.
  destruct (crun_fixed C numeric ops (w0, c)) as (Hk & Hset & Hnum). cbn [snd] in *.
  destruct (comp_new_inv cls k w0 c Hc) as (s0 & Hs0 & Hcs & Hcn & _).
  destruct H0 as (b0 & x0 & H0). rewrite H0 in Hs0. inversion Hs0; subst s0. cbn [s_num] in Hcn.
  destruct Hs as (b & x & Hs). eexists. rewrite Hset, Hcs. split; [exact Hs|]. split; [reflexivity|].
  split; congruence.
Qed.

Lemma crun_pair : forall {E U} C numeric ops (s : cstate (E:=E) (U:=U)),
  crun C numeric ops s = (fst (crun C numeric ops s), snd (crun C numeric ops s)).
Proof. intros. destruct (crun C numeric ops s); reflexivity. Qed.

(** C36, SumKernel: after any program (on the members, on the set, on the composite), if the set has
    the members [ms] and their [full] are the n x n matrices [Ks], then fit() makes composite_KM the
    sum of all of [Ks]; any number of members, any entries (also NaN and infinite), any formats. *)
Lemma pf_C36_sum_default :
  forall {E U} C numeric k (w0 : world E xr U) c ops num ms n ms0 Ks,
    comp_new NewSum (Some k) w0 = Ok c -> set_is w0 k (NSOne n) ms0 ->
    set_is (fst (crun C numeric ops (w0, c))) k num ms ->
    fulls (fst (crun C numeric ops (w0, c))) ms Ks -> Forall (is_square n) Ks ->
    fits C numeric None (crun C numeric ops (w0, c))
      (is_matrix n (sum_entry (repeat 1%R (length ms)) Ks)).
Proof.
  intros E U C numeric k w0 c ops num ms n ms0 Ks Hc H0 Hs HF HK.
  destruct (at_start C numeric _ k w0 c ops num ms n ms0 Hc H0 Hs) as (s & Hs' & Hm & Hn & Hk).
  rewrite crun_pair. destruct (comp_new_inv _ k w0 c Hc) as (_ & _ & _ & _ & _ & _ & _ & _ & Hkind).
  rewrite Hkind in Hk. rewrite <- Hm in HF.
  destruct (fit_weighted_ok n (repeat 1%R (length ms)) _ _ s Ks Hs' Hn HF HK) as (w' & a & Hf & HP & _).
  apply (fits_of_body C numeric None _ w' _ a); [|exact HP].
  rewrite (body_start None _ _ s Hs'), Hk. unfold bind, lift, sum_weights. rewrite <- Hf, Hm. f_equal.
  clear. induction (length ms) as [|m IH]; [reflexivity|]. cbn. rewrite IH. reflexivity.
Qed.

(** C36, SumKernel with weights. *)
Lemma pf_C36_sum_weights :
  forall {E U} C numeric k (w0 : world E xr U) c ops num ms n ms0 Ks a ws,
    comp_new NewSum (Some k) w0 = Ok c -> set_is w0 k (NSOne n) ms0 ->
    set_is (fst (crun C numeric ops (w0, c))) k num ms ->
    fulls (fst (crun C numeric ops (w0, c))) ms Ks -> Forall (is_square n) Ks ->
    is_vector a ws -> length ws = length ms ->
    fits C numeric (Some a) (crun C numeric ops (w0, c)) (is_matrix n (sum_entry ws Ks)).
Proof.
  intros E U C numeric k w0 c ops num ms n ms0 Ks a ws Hc H0 Hs HF HK Ha Hl.
  destruct (at_start C numeric _ k w0 c ops num ms n ms0 Hc H0 Hs) as (s & Hs' & Hm & Hn & Hk).
  rewrite crun_pair. destruct (comp_new_inv _ k w0 c Hc) as (_ & _ & _ & _ & _ & _ & _ & _ & Hkind).
  rewrite Hkind in Hk. rewrite <- Hm in HF.
  destruct (fit_weighted_ok n ws _ _ s Ks Hs' Hn HF HK) as (w' & b & Hf & HP & _).
  apply (fits_of_body C numeric (Some a) _ w' _ b); [|exact HP].
  rewrite (body_start (Some a) _ _ s Hs'), Hk. unfold bind, lift, sum_weights.
  rewrite (weights_1D_vector a ws Ha). cbn [rbind]. rewrite map_length, Hl, Hm, Nat.eqb_refl. exact Hf.
Qed.

(** C36, SumKernel with the wrong number of weights: fit raises ValueError, nothing changes. *)
Lemma pf_C36_sum_wrong_weights :
  forall {E U} C numeric k (w0 : world E xr U) c ops num ms a ws,
    comp_new NewSum (Some k) w0 = Ok c ->
    set_is (fst (crun C numeric ops (w0, c))) k num ms ->
    is_vector a ws -> length ws <> length ms ->
    cstep C numeric (CFit (Some a)) (crun C numeric ops (w0, c))
    = (crun C numeric ops (w0, c), Raise ValueError).
Proof.
  intros E U C numeric k w0 c ops num ms a ws Hc Hs Ha Hl.
  destruct (crun_fixed C numeric ops (w0, c)) as (Hk & Hset & Hnum). cbn [snd] in *.
  destruct (comp_new_inv _ k w0 c Hc) as (s0 & Hs0 & Hcs & Hcn & _ & _ & _ & _ & Hkind).
  destruct Hs as (b & x & Hs). rewrite crun_pair.
  cbn [cstep]. unfold bind. rewrite fit_eq.
  rewrite (body_start (Some a) _ _ (mkSet num b ms x)) by (rewrite Hset, Hcs; exact Hs).
  rewrite Hk, Hkind. cbn [s_members]. unfold bind, lift, sum_weights.
  rewrite (weights_1D_vector a ws Ha). cbn [rbind]. rewrite map_length.
  apply Nat.eqb_neq in Hl. rewrite Hl. reflexivity.
Qed.

(** C36, ProductKernel, provided the matrices of the members are plain ndarrays. *)
Lemma pf_C36_product_partial :
  forall {E U} C numeric k (w0 : world E xr U) c ops num ms n ms0 Ks kw,
    comp_new NewProduct (Some k) w0 = Ok c -> set_is w0 k (NSOne n) ms0 ->
    set_is (fst (crun C numeric ops (w0, c))) k num ms ->
    fulls (fst (crun C numeric ops (w0, c))) ms Ks -> Forall (is_square n) Ks ->
    Forall (fun K => afmt K = Dense) Ks ->
    fits C numeric kw (crun C numeric ops (w0, c)) (is_matrix n (prod_entry Ks)).
Proof.
  intros E U C numeric k w0 c ops num ms n ms0 Ks kw Hc H0 Hs HF HK HD.
  destruct (at_start C numeric _ k w0 c ops num ms n ms0 Hc H0 Hs) as (s & Hs' & Hm & Hn & Hk).
  rewrite crun_pair. destruct (comp_new_inv _ k w0 c Hc) as (_ & _ & _ & _ & _ & _ & _ & _ & Hkind).
  rewrite Hkind in Hk. rewrite <- Hm in HF.
  destruct (body_product n kw _ _ s Ks Hs' Hn Hk HF HK HD) as (w' & a & Hf & HP & _).
  exact (fits_of_body C numeric kw _ w' _ a _ Hf HP).
Qed.

(** C36, AverageKernel. *)
Lemma pf_C36_average :
  forall {E U} C numeric k (w0 : world E xr U) c ops num ms n ms0 Ks kw,
    comp_new NewAverage (Some k) w0 = Ok c -> set_is w0 k (NSOne n) ms0 ->
    set_is (fst (crun C numeric ops (w0, c))) k num ms ->
    fulls (fst (crun C numeric ops (w0, c))) ms Ks -> Forall (is_square n) Ks ->
    fits C numeric kw (crun C numeric ops (w0, c)) (is_matrix n (mean_entry Ks)).
Proof.
  intros E U C numeric k w0 c ops num ms n ms0 Ks kw Hc H0 Hs HF HK.
  destruct (at_start C numeric _ k w0 c ops num ms n ms0 Hc H0 Hs) as (s & Hs' & Hm & Hn & Hk).
  rewrite crun_pair. destruct (comp_new_inv _ k w0 c Hc) as (_ & _ & _ & _ & _ & _ & _ & _ & Hkind).
  rewrite Hkind in Hk. rewrite <- Hm in HF.
  destruct (body_average n kw _ _ s Ks Hs' Hn Hk HF HK) as (w' & a & Hf & HP).
  exact (fits_of_body C numeric kw _ w' _ a _ Hf HP).
Qed.

(** C36, WeightedAverageKernel: the weighted SUM of the members, without division by the total, and
    of the members the set had at construction only ([combine] stops with the shorter list). *)
Lemma pf_C36_weighted_sum :
  forall {E U} C numeric k (w0 : world E xr U) c ops num ms n ms0 Ks kw a ws,
    comp_new (NewWeighted a) (Some k) w0 = Ok c -> is_vector a ws -> set_is w0 k (NSOne n) ms0 ->
    set_is (fst (crun C numeric ops (w0, c))) k num ms ->
    fulls (fst (crun C numeric ops (w0, c))) ms Ks -> Forall (is_square n) Ks ->
    fits C numeric kw (crun C numeric ops (w0, c)) (is_matrix n (sum_entry ws Ks)).
Proof.
  intros E U C numeric k w0 c ops num ms n ms0 Ks kw a ws Hc Ha H0 Hs HF HK.
  destruct (at_start C numeric _ k w0 c ops num ms n ms0 Hc H0 Hs) as (s & Hs' & Hm & Hn & Hk).
  rewrite crun_pair. destruct (comp_new_inv _ k w0 c Hc) as (_ & _ & _ & _ & _ & _ & _ & _ & l & Hw & Hkind & _).
  rewrite (weights_1D_vector a ws Ha) in Hw. inversion Hw; subst l.
  rewrite Hkind in Hk. rewrite <- Hm in HF.
  destruct (fit_weighted_ok n ws _ _ s Ks Hs' Hn HF HK) as (w' & b & Hf & HP & _).
  apply (fits_of_body C numeric kw _ w' _ b); [|exact HP].
  rewrite (body_start kw _ _ s Hs'), Hk. exact Hf.
Qed.

Lemma xdiv_1 : forall v, xdiv v (Fin 1) = v.
Proof.
  intros [r| | |]; cbn; unfold Reqb; destruct (Req_EM_T 1 0); try lra; try reflexivity.
  - f_equal. lra.
  - destruct (Rlt_dec 1 0); [lra|reflexivity].
  - destruct (Rlt_dec 1 0); [lra|reflexivity].
Qed.

(** C36, WeightedAverageKernel: it is the weighted mean if the weights add up to 1. *)
Lemma pf_C36_weighted_partial :
  forall {E U} C numeric k (w0 : world E xr U) c ops num ms n ms0 Ks kw a ws,
    comp_new (NewWeighted a) (Some k) w0 = Ok c -> is_vector a ws -> total ws = 1%R ->
    set_is w0 k (NSOne n) ms0 ->
    set_is (fst (crun C numeric ops (w0, c))) k num ms ->
    fulls (fst (crun C numeric ops (w0, c))) ms Ks -> Forall (is_square n) Ks ->
    fits C numeric kw (crun C numeric ops (w0, c)) (is_matrix n (weighted_mean_entry ws Ks)).
Proof.
  intros E U C numeric k w0 c ops num ms n ms0 Ks kw a ws Hc Ha Ht H0 Hs HF HK.
  destruct (pf_C36_weighted_sum C numeric k w0 c ops num ms n ms0 Ks kw a ws Hc Ha H0 Hs HF HK)
    as (b & (H1 & H2 & H3) & H4).
  exists b. split; [|exact H4]. split; [exact H1|]. split; [exact H2|]. intros i j Hi Hj.
  unfold weighted_mean_entry. rewrite Ht, xdiv_1. apply H3; assumption.
Qed.

(** C36: composite_KM raises ValueError as long as no [fit] has returned. *)
Lemma pf_C36_unfitted :
  forall {E U} C numeric cls k (w0 : world E xr U) c ops,
    comp_new cls (Some k) w0 = Ok c -> no_fit_returned C numeric ops (w0, c) ->
    snd (cstep C numeric CGet (crun C numeric ops (w0, c))) = Raise ValueError.
Proof.
  intros E U C numeric cls k w0 c ops Hc Hn. apply cget_unfitted.
  destruct (comp_new_inv cls k w0 c Hc) as (_ & _ & _ & _ & Hf & _). clear Hc.
  assert (G : forall ops (s : cstate (E:=E) (U:=U)), c_fitted (snd s) = false ->
    no_fit_returned C numeric ops s -> c_fitted (snd (crun C numeric ops s)) = false).
  { clear. induction ops as [|o ops IH]; intros s Hs H; [exact Hs|]. cbn [crun].
    destruct H as [H1 H2]. apply IH; [|exact H2]. destruct o as [o|kw|].
    - rewrite cstep_no_fit by discriminate. exact Hs.
    - cbn [cstep] in H1 |- *. unfold bind in H1 |- *. rewrite fit_eq in H1 |- *.
      assert (B := calm_body kw s). destruct (fit_body kw s) as [s' [[]|e]]; [discriminate H1|].
      cbn [fst] in *. destruct B as [_ B]. congruence.
    - rewrite cstep_no_fit by discriminate. exact Hs. }
  apply G; assumption.
Qed.

(** C36: a composite is built exactly from a KernelSet that has two members or more and a
    num_samples, and, for WeightedAverageKernel, one weight per member. *)
Lemma pf_C36_constructor :
  forall {E U} cls k (w : world E xr U) num ms, set_is w k num ms ->
    (forall a, cls = NewWeighted a -> exists ws, is_vector a ws) ->
    ((exists c, comp_new cls (Some k) w = Ok c) <->
     (2 <= length ms /\ num <> NSNone /\
      forall a ws, cls = NewWeighted a -> is_vector a ws -> length ws = length ms)) /\
    (forall e, comp_new cls (Some k) w = Raise e -> e = ValueError).
Proof.
  intros E U cls k w num ms (b & x & Hs) Hv. unfold comp_new. rewrite Hs. cbn [s_members s_num].
  destruct (length ms <? 2) eqn:Hl.
  { apply Nat.ltb_lt in Hl. split; [split; [intros [c H]; discriminate|lia]|congruence]. }
  apply Nat.ltb_ge in Hl. destruct (numsamp_eqb num NSNone) eqn:Hn.
  { apply numsamp_eqb_eq in Hn. split; [split; [intros [c H]; discriminate|tauto]|congruence]. }
  apply numsamp_eqb_neq in Hn.
  destruct cls as [| | |a].
  1-3: (split; [split; [intros _; repeat split; [exact Hl|exact Hn|discriminate]|
                        intros _; eexists; reflexivity]|discriminate]).
  destruct (Hv a eq_refl) as (ws & Ha). assert (Ha' := Ha). destruct Ha as (Hd & extra & Hsh & He).
  rewrite Hsh. rewrite (weights_1D_vector a ws Ha'). cbn [res_map].
  destruct (length ms =? length ws) eqn:Hlw.
  - apply Nat.eqb_eq in Hlw. split; [|discriminate]. split.
    + intros _. split; [exact Hl|]. split; [exact Hn|]. intros a' ws' Heq (Hd' & ex' & Hs' & _).
      inversion Heq; subst a'. rewrite Hsh in Hs'. inversion Hs'. congruence.
    + intros _. eexists. reflexivity.
  - apply Nat.eqb_neq in Hlw. split; [|congruence]. split; [intros [c H]; discriminate|].
    intros (_ & _ & H). exfalso. apply Hlw. symmetry. apply (H a ws eq_refl Ha').
Qed.

(** C36: an argument that is not a KernelSet is refused with TypeError. *)
Lemma pf_C36_not_a_set :
  forall {E U} cls (w : world E xr U), comp_new cls None w = Raise TypeError.
Proof. reflexivity. Qed.

(** C36 does not extend to sets of two-sample matrices: the composite can be built, but every [fit]
    raises (TypeError unless the weights are refused first), so there never is a composite_KM. *)
Lemma pf_C36_two_samples_fit_raises :
  forall {E U} C numeric cls k (w0 : world E xr U) c ops n m ms0,
    comp_new cls (Some k) w0 = Ok c -> set_is w0 k (NSTwo n m) ms0 ->
    (forall kw, exists e, snd (cstep C numeric (CFit kw) (crun C numeric ops (w0, c))) = Raise e) /\
    snd (cstep C numeric CGet (crun C numeric ops (w0, c))) = Raise ValueError.
Proof.
  intros E U C numeric cls k w0 c ops n m ms0 Hc H0.
  destruct (comp_new_inv cls k w0 c Hc) as (s0 & Hs0 & Hcs & Hcn & Hfit & _).
  destruct H0 as (b0 & x0 & H0). rewrite H0 in Hs0. inversion Hs0; subst s0. cbn [s_num] in Hcn.
  assert (B : forall kw (s : cstate (E:=E) (U:=U)), c_num (snd s) = NSTwo n m ->
    exists e, snd (fit_body kw s) = Raise e).
  { intros kw s Hn. unfold fit_body. unfold bind at 1, get at 1. unfold bind at 1, on_world at 1.
    destruct (set_iter (c_set (snd s)) (fst s)) as [w' [ms|e]]; [|eexists; reflexivity].
    destruct (c_kind (snd s)).
    - unfold bind at 1, lift. destruct (sum_weights (length ms) kw) as [l|e]; [|eexists; reflexivity].
      unfold fit_weighted. unfold bind at 1, get at 1. unfold bind at 1. cbn [snd]. rewrite Hn.
      eexists. reflexivity.
    - unfold bind at 1. rewrite Hn. eexists. reflexivity.
    - unfold bind at 1. rewrite Hn. eexists. reflexivity.
    - unfold fit_weighted. unfold bind at 1, get at 1. unfold bind at 1. cbn [snd]. rewrite Hn.
      eexists. reflexivity. }
  assert (F : forall kw (s : cstate (E:=E) (U:=U)), c_num (snd s) = NSTwo n m ->
    exists e, snd (cstep C numeric (CFit kw) s) = Raise e).
  { intros kw s Hn. destruct (B kw s Hn) as [e He]. exists e. cbn [cstep]. unfold bind. rewrite fit_eq.
    destruct (fit_body kw s) as [s' [[]|e']]; cbn [snd] in *; [discriminate|congruence]. }
  split.
  - intros kw. apply F. destruct (crun_fixed C numeric ops (w0, c)) as (_ & _ & ->). exact Hcn.
  - apply (pf_C36_unfitted C numeric cls k w0 c ops Hc).
    assert (G : forall (s : cstate (E:=E) (U:=U)), c_num (snd s) = NSTwo n m -> no_fit_returned C numeric ops s).
    { clear -F. induction ops as [|o ops IH]; intros s Hn; [exact I|]. split.
      - destruct o as [o|kw|]; try exact I. destruct (F kw s Hn) as [e ->]. reflexivity.
      - apply IH. destruct (cstep_fixed C numeric o s) as (_ & _ & ->). exact Hn. }
    apply G. exact Hcn.
Qed.

(** ** C37 *)
Lemma psd_array_sum : forall n ws Ks, Forall (fun r => (0 <= r)%R) ws -> Forall (psd_array n) Ks ->
  exists A, psd n A /\ forall i j, i < n -> j < n -> sum_entry ws Ks i j = Fin (A i j).
Proof.
  intros n ws. unfold sum_entry. induction ws as [|r ws IH]; intros Ks Hw HK.
  - exists (fun _ _ => 0%R). split; [apply psd_zero|]. reflexivity.
  - destruct HK as [|K Ks [_ (A & HA & EA)] HK].
    + exists (fun _ _ => 0%R). split; [apply psd_zero|]. reflexivity.
    + inversion Hw as [|? ? Hr Hw']; subst. destruct (IH Ks Hw' HK) as (B & HB & EB).
      exists (fun i j => (r * A i j + B i j)%R). split.
      * apply psd_plus; [apply psd_scal; assumption|exact HB].
      * intros i j Hi Hj. cbn [combine map]. unfold xsum in *. cbn [fold_right fst snd].
        rewrite EA, EB by assumption. reflexivity.
Qed.

Lemma psd_array_prod : forall n Ks, Forall (psd_array n) Ks ->
  exists A, psd n A /\ forall i j, i < n -> j < n -> prod_entry Ks i j = Fin (A i j).
Proof.
  intros n Ks H. unfold prod_entry. induction H as [|K Ks [_ (A & HA & EA)] HK (B & HB & EB)].
  - exists (fun _ _ => 1%R). split; [apply psd_ones|]. reflexivity.
  - exists (fun i j => (A i j * B i j)%R). split; [apply psd_schur; assumption|].
    intros i j Hi Hj. cbn [map fold_right]. rewrite EA, EB by assumption. reflexivity.
Qed.

Lemma psd_array_mean : forall n Ks, 0 < length Ks -> Forall (psd_array n) Ks ->
  exists A, psd n A /\ forall i j, i < n -> j < n -> mean_entry Ks i j = Fin (A i j).
Proof.
  intros n Ks Hl H. unfold mean_entry.
  assert (G : exists A, psd n A /\ forall i j, i < n -> j < n ->
            xsum (map (fun K => xget (amat K) i j) Ks) = Fin (A i j)).
  { clear Hl. induction H as [|K Ks [_ (A & HA & EA)] HK (B & HB & EB)].
    - exists (fun _ _ => 0%R). split; [apply psd_zero|]. reflexivity.
    - exists (fun i j => (A i j + B i j)%R). split; [apply psd_plus; assumption|].
      intros i j Hi Hj. unfold xsum in *. cbn [map fold_right]. rewrite EA, EB by assumption. reflexivity. }
  destruct G as (A & HA & EA). assert (Hp : (0 < INR (length Ks))%R) by (apply lt_0_INR; exact Hl).
  exists (fun i j => (/ INR (length Ks) * A i j)%R). split.
  - apply psd_scal; [|exact HA]. left. apply Rinv_0_lt_compat. exact Hp.
  - intros i j Hi Hj. rewrite EA by assumption. cbn [xdiv]. unfold Reqb.
    destruct (Req_EM_T (INR (length Ks)) 0) as [H0|_]; [lra|]. f_equal. unfold Rdiv. ring.
Qed.

Lemma psd_squares : forall n Ks, Forall (psd_array n) Ks -> Forall (is_square n) Ks.
Proof. intros n Ks H. eapply Forall_impl; [|exact H]. intros a [Ha _]. exact Ha. Qed.

Lemma fits_psd : forall {E U} C numeric kw (s : cstate (E:=E) (U:=U)) n f,
  fits C numeric kw s (is_matrix n f) ->
  (exists A, psd n A /\ forall i j, i < n -> j < n -> f i j = Fin (A i j)) ->
  fits C numeric kw s (psd_array n).
Proof.
  intros E U C numeric kw s n f (a & (Hsq & Hnd & He) & H) (A & HA & EA).
  exists a. split; [|exact H]. split; [exact Hsq|]. exists A. split; [exact HA|].
  intros i j Hi Hj. rewrite He, EA by assumption. reflexivity.
Qed.

(** C37, SumKernel with non-negative weights. *)
Lemma pf_C37_sum :
  forall {E U} C numeric k (w0 : world E xr U) c ops num ms n ms0 Ks a ws,
    comp_new NewSum (Some k) w0 = Ok c -> set_is w0 k (NSOne n) ms0 ->
    set_is (fst (crun C numeric ops (w0, c))) k num ms ->
    fulls (fst (crun C numeric ops (w0, c))) ms Ks -> Forall (psd_array n) Ks ->
    is_vector a ws -> length ws = length ms -> Forall (fun r => (0 <= r)%R) ws ->
    fits C numeric (Some a) (crun C numeric ops (w0, c)) (psd_array n) /\
    fits C numeric None (crun C numeric ops (w0, c)) (psd_array n).
Proof.
  intros E U C numeric k w0 c ops num ms n ms0 Ks a ws Hc H0 Hs HF HK Ha Hl Hp. split.
  - eapply fits_psd; [eapply pf_C36_sum_weights; eauto using psd_squares|].
    apply psd_array_sum; assumption.
  - eapply fits_psd; [eapply pf_C36_sum_default; eauto using psd_squares|].
    apply psd_array_sum; [|assumption]. apply Forall_forall. intros r Hr. apply repeat_spec in Hr. lra.
Qed.

(** C37, ProductKernel of plain ndarrays (Schur product theorem). *)
Lemma pf_C37_product_partial :
  forall {E U} C numeric k (w0 : world E xr U) c ops num ms n ms0 Ks kw,
    comp_new NewProduct (Some k) w0 = Ok c -> set_is w0 k (NSOne n) ms0 ->
    set_is (fst (crun C numeric ops (w0, c))) k num ms ->
    fulls (fst (crun C numeric ops (w0, c))) ms Ks -> Forall (psd_array n) Ks ->
    Forall (fun K => afmt K = Dense) Ks ->
    fits C numeric kw (crun C numeric ops (w0, c)) (psd_array n).
Proof.
  intros E U C numeric k w0 c ops num ms n ms0 Ks kw Hc H0 Hs HF HK HD.
  eapply fits_psd; [eapply pf_C36_product_partial; eauto using psd_squares|].
  apply psd_array_prod. assumption.
Qed.

(** C37, AverageKernel (of a set that still has members). *)
Lemma pf_C37_average :
  forall {E U} C numeric k (w0 : world E xr U) c ops num ms n ms0 Ks kw,
    comp_new NewAverage (Some k) w0 = Ok c -> set_is w0 k (NSOne n) ms0 ->
    set_is (fst (crun C numeric ops (w0, c))) k num ms -> ms <> [] ->
    fulls (fst (crun C numeric ops (w0, c))) ms Ks -> Forall (psd_array n) Ks ->
    fits C numeric kw (crun C numeric ops (w0, c)) (psd_array n).
Proof.
  intros E U C numeric k w0 c ops num ms n ms0 Ks kw Hc H0 Hs Hne HF HK.
  eapply fits_psd; [eapply pf_C36_average; eauto using psd_squares|].
  apply psd_array_mean; [|assumption]. rewrite <- (fulls_length _ _ _ HF).
  destruct ms; [contradiction|cbn; lia].
Qed.

(** C37, WeightedAverageKernel with non-negative weights. *)
Lemma pf_C37_weighted :
  forall {E U} C numeric k (w0 : world E xr U) c ops num ms n ms0 Ks kw a ws,
    comp_new (NewWeighted a) (Some k) w0 = Ok c -> is_vector a ws -> Forall (fun r => (0 <= r)%R) ws ->
    set_is w0 k (NSOne n) ms0 ->
    set_is (fst (crun C numeric ops (w0, c))) k num ms ->
    fulls (fst (crun C numeric ops (w0, c))) ms Ks -> Forall (psd_array n) Ks ->
    fits C numeric kw (crun C numeric ops (w0, c)) (psd_array n).
Proof.
  intros E U C numeric k w0 c ops num ms n ms0 Ks kw a ws Hc Ha Hp H0 Hs HF HK.
  eapply fits_psd; [eapply pf_C36_weighted_sum; eauto using psd_squares|].
  apply psd_array_sum; assumption.
Qed.

(** ** C38 *)

(** C38, as long as the set has as many members as it had at construction: the matrix is the
    weighted sum over all of them, weight and matrix paired in order. *)
Lemma pf_C38_partial :
  forall {E U} C numeric k (w0 : world E xr U) c ops num ms n ms0 Ks kw a ws,
    comp_new (NewWeighted a) (Some k) w0 = Ok c -> is_vector a ws -> set_is w0 k (NSOne n) ms0 ->
    set_is (fst (crun C numeric ops (w0, c))) k num ms -> length ms = length ms0 ->
    fulls (fst (crun C numeric ops (w0, c))) ms Ks -> Forall (is_square n) Ks ->
    fits C numeric kw (crun C numeric ops (w0, c)) (is_matrix n (fun i j =>
      xsum (map (fun p => xmul (Fin (nth p ws 0%R)) (xget (amat (nth p Ks (mkArr Dense (mfull 0 0 NaN)))) i j))
                (seq 0 (length ms))))).
Proof.
  intros E U C numeric k w0 c ops num ms n ms0 Ks kw a ws Hc Ha H0 Hs Hl HF HK.
  assert (Hw : length ws = length Ks).
  { destruct (comp_new_inv _ k w0 c Hc) as (s0 & Hs0 & _ & _ & _ & _ & _ & _ & l & _ & _ & rest & Hsh).
    destruct H0 as (b0 & x0 & H0). rewrite H0 in Hs0. inversion Hs0; subst s0. cbn [s_members] in Hsh.
    destruct Ha as (_ & ex & Hsh' & _). rewrite Hsh in Hsh'. inversion Hsh'.
    rewrite <- (fulls_length _ _ _ HF). congruence. }
  destruct (pf_C36_weighted_sum C numeric k w0 c ops num ms n ms0 Ks kw a ws Hc Ha H0 Hs HF HK)
    as (b & (H1 & H2 & H3) & H4).
  exists b. split; [|exact H4]. split; [exact H1|]. split; [exact H2|]. intros i j Hi Hj.
  rewrite (H3 i j Hi Hj). unfold sum_entry. f_equal. rewrite (fulls_length _ _ _ HF).
  set (d := mkArr Dense (mfull 0 0 NaN)). clearbody d. clear - Hw. revert Ks Hw.
  induction ws as [|r ws IH]; intros [|K Ks] Hw; try discriminate Hw; [reflexivity|].
  cbn [length seq combine map]. f_equal. rewrite <- seq_shift, map_map.
  rewrite (IH Ks) by (cbn in Hw; lia). reflexivity.
Qed.

(** The members added after the construction do not count at all. *)
Lemma pf_C38_later_members_ignored :
  forall {E U} C numeric k (w0 : world E xr U) c ops num ms more n ms0 Ks Ks' kw a ws,
    comp_new (NewWeighted a) (Some k) w0 = Ok c -> is_vector a ws -> set_is w0 k (NSOne n) ms0 ->
    set_is (fst (crun C numeric ops (w0, c))) k num (ms ++ more) -> length ms = length ms0 ->
    fulls (fst (crun C numeric ops (w0, c))) ms Ks ->
    fulls (fst (crun C numeric ops (w0, c))) more Ks' ->
    Forall (is_square n) (Ks ++ Ks') ->
    fits C numeric kw (crun C numeric ops (w0, c)) (is_matrix n (sum_entry ws Ks)).
Proof.
  intros E U C numeric k w0 c ops num ms more n ms0 Ks Ks' kw a ws Hc Ha H0 Hs Hl HF HF' HK.
  assert (Hw : length ws = length Ks).
  { destruct (comp_new_inv _ k w0 c Hc) as (s0 & Hs0 & _ & _ & _ & _ & _ & _ & l & _ & _ & rest & Hsh).
    destruct H0 as (b0 & x0 & H0). rewrite H0 in Hs0. inversion Hs0; subst s0. cbn [s_members] in Hsh.
    destruct Ha as (_ & ex & Hsh' & _). rewrite Hsh in Hsh'. inversion Hsh'.
    rewrite <- (fulls_length _ _ _ HF). congruence. }
  destruct (pf_C36_weighted_sum C numeric k w0 c ops num (ms ++ more) n ms0 (Ks ++ Ks') kw a ws Hc Ha H0 Hs
              (Forall2_app HF HF') HK) as (b & (H1 & H2 & H3) & H4).
  exists b. split; [|exact H4]. split; [exact H1|]. split; [exact H2|]. intros i j Hi Hj.
  rewrite (H3 i j Hi Hj). unfold sum_entry. do 2 f_equal. clear - Hw. revert Ks Hw.
  induction ws as [|r ws IH]; intros [|K Ks] Hw; try discriminate Hw; [reflexivity|].
  cbn [combine app]. f_equal. apply IH. cbn in Hw. lia.
Qed.

(** ** End to end *)
Lemma member_full : forall {U} n d x (w : world xr xr U) l k, admissible x None n n d ->
  attached_member n d x w l k ->
  snd (obj_full xN l w) = Ok (mkArr Dense (kernel_matrix k n n d x None)).
Proof.
  intros U n d x w l k Hadm (K & pre & post & Hl & Hnr & Hf & Hna & Hfs & Hwi).
  assert (H := pf_C04_full_partial xN K k pre post x None n n d Hnr Hf Hadm Hna Hfs Hwi).
  rewrite obj_full_eq, Hl. cbn [snd]. unfold outcome in H. cbn [step] in H. rewrite outcome_fmap in H.
  destruct (snd (full xN _)) as [b|e]; [|discriminate].
  cbn [res_map] in H. injection H as ->. reflexivity.
Qed.

Lemma members_fulls : forall {U} n d x (w : world xr xr U) ms ks, admissible x None n n d ->
  Forall2 (attached_member n d x w) ms ks ->
  fulls w ms (map (fun k => mkArr Dense (kernel_matrix k n n d x None)) ks).
Proof.
  intros U n d x w ms ks Hadm H. induction H as [|l k ms ks Hm H IH]; constructor; [|exact IH].
  apply member_full; assumption.
Qed.

Lemma member_squares : forall n d x (ks : list (list xr -> list xr -> xr)),
  Forall (is_square n) (map (fun k => mkArr Dense (kernel_matrix k n n d x None)) ks).
Proof.
  intros n d x ks. apply Forall_forall. intros K HK. apply in_map_iff in HK.
  destruct HK as (k & <- & _). split; reflexivity.
Qed.

Lemma sum_entry_members : forall n d x ws (ks : list (list xr -> list xr -> xr)) i j, i < n -> j < n ->
  sum_entry ws (map (fun k => mkArr Dense (kernel_matrix k n n d x None)) ks) i j
  = xsum (map (fun p => xmul (Fin (fst p)) (entry (snd p) d x None i j)) (combine ws ks)).
Proof.
  intros n d x ws ks i j Hi Hj. unfold sum_entry. f_equal. revert ks.
  induction ws as [|r ws IH]; intros [|k ks]; try reflexivity. cbn [map combine fst snd]. f_equal; [|apply IH].
  cbn [amat]. unfold xget, kernel_matrix. rewrite mget_tabulate by assumption. reflexivity.
Qed.

Lemma map_members : forall n d x (ks : list (list xr -> list xr -> xr)) i j, i < n -> j < n ->
  map (fun K => xget (amat K) i j) (map (fun k => mkArr Dense (kernel_matrix k n n d x None)) ks)
  = map (fun k => entry k d x None i j) ks.
Proof.
  intros n d x ks i j Hi Hj. rewrite map_map. apply map_ext. intros k. cbn [amat].
  unfold xget, kernel_matrix. rewrite mget_tabulate by assumption. reflexivity.
Qed.

Lemma fits_ext : forall {E U} C numeric kw (s : cstate (E:=E) (U:=U)) n f g,
  fits C numeric kw s (is_matrix n f) -> (forall i j, i < n -> j < n -> f i j = g i j) ->
  fits C numeric kw s (is_matrix n g).
Proof.
  intros E U C numeric kw s n f g (a & (Hsq & Hnd & He) & H) Hfg.
  exists a. split; [|exact H]. split; [exact Hsq|]. split; [exact Hnd|].
  intros i j Hi Hj. rewrite He by assumption. apply Hfg; assumption.
Qed.

(** C36, end to end: if the members are KernelMatrix objects attached to the sample [x], with
    kernels that do not raise and arbitrary histories of accesses, the composites are made of the
    kernel values of the rows of [x] (computed once per unordered pair). *)
Lemma pf_C36_kernels_sum :
  forall {U} C numeric k (w0 : world xr xr U) c ops num ms n ms0 d x ks a ws,
    comp_new NewSum (Some k) w0 = Ok c -> set_is w0 k (NSOne n) ms0 ->
    set_is (fst (crun C numeric ops (w0, c))) k num ms ->
    admissible x None n n d ->
    Forall2 (attached_member n d x (fst (crun C numeric ops (w0, c)))) ms ks ->
    is_vector a ws -> length ws = length ms ->
    fits C numeric (Some a) (crun C numeric ops (w0, c)) (is_matrix n (fun i j =>
      xsum (map (fun p => xmul (Fin (fst p)) (entry (snd p) d x None i j)) (combine ws ks)))).
Proof.
  intros U C numeric k w0 c ops num ms n ms0 d x ks a ws Hc H0 Hs Hadm HM Ha Hl.
  eapply fits_ext; [eapply pf_C36_sum_weights; eauto using members_fulls, member_squares|].
  intros i j Hi Hj. apply sum_entry_members; assumption.
Qed.

Lemma pf_C36_kernels_product :
  forall {U} C numeric k (w0 : world xr xr U) c ops num ms n ms0 d x ks kw,
    comp_new NewProduct (Some k) w0 = Ok c -> set_is w0 k (NSOne n) ms0 ->
    set_is (fst (crun C numeric ops (w0, c))) k num ms ->
    admissible x None n n d ->
    Forall2 (attached_member n d x (fst (crun C numeric ops (w0, c)))) ms ks ->
    fits C numeric kw (crun C numeric ops (w0, c)) (is_matrix n (fun i j =>
      fold_right xmul (Fin 1) (map (fun k => entry k d x None i j) ks))).
Proof.
  intros U C numeric k w0 c ops num ms n ms0 d x ks kw Hc H0 Hs Hadm HM.
  eapply fits_ext.
  - eapply pf_C36_product_partial; eauto using members_fulls, member_squares.
    apply Forall_forall. intros K HK. apply in_map_iff in HK. destruct HK as (k' & <- & _). reflexivity.
  - intros i j Hi Hj. cbv beta. unfold prod_entry. rewrite map_members by assumption. reflexivity.
Qed.

Lemma pf_C36_kernels_average :
  forall {U} C numeric k (w0 : world xr xr U) c ops num ms n ms0 d x ks kw,
    comp_new NewAverage (Some k) w0 = Ok c -> set_is w0 k (NSOne n) ms0 ->
    set_is (fst (crun C numeric ops (w0, c))) k num ms ->
    admissible x None n n d ->
    Forall2 (attached_member n d x (fst (crun C numeric ops (w0, c)))) ms ks ->
    fits C numeric kw (crun C numeric ops (w0, c)) (is_matrix n (fun i j =>
      xdiv (xsum (map (fun k => entry k d x None i j) ks)) (Fin (INR (length ms))))).
Proof.
  intros U C numeric k w0 c ops num ms n ms0 d x ks kw Hc H0 Hs Hadm HM.
  eapply fits_ext.
  - eapply pf_C36_average; eauto using members_fulls, member_squares.
  - intros i j Hi Hj. cbv beta. unfold mean_entry. rewrite map_members by assumption.
    rewrite map_length. f_equal. do 2 f_equal. clear -HM. induction HM; cbn; congruence.
Qed.

(** C67: whenever [full] returns, reading it again at once returns the same matrix and changes
    nothing; for a KernelMatrix in any state, whatever the arithmetic. *)
Lemma pf_C67_full_repeatable :
  forall {E V U} (N : numops V) (s s' : km E V U) a,
    full N s = (s', Ok a) -> full N s' = (s', Ok a).
Proof. intros. eapply full_idem. eassumption. Qed.

(** C67, in a heap: reading [full] of some kernel matrix never changes what [full] of the same or any
    other kernel matrix returns, or the membership of a set. *)
Lemma pf_C67_full_undisturbed :
  forall {E U} l (w : world E xr U) K l' K',
    snd (obj_full xN l w) = Ok K -> snd (obj_full xN l' w) = Ok K' ->
    snd (obj_full xN l' (fst (obj_full xN l w))) = Ok K' /\
    w_sets (fst (obj_full xN l w)) = w_sets w.
Proof.
  intros E U l w K l' K' H H'. split; [exact (obj_full_keeps l w K H l' K' H')|apply obj_full_sets].
Qed.

(** ** Examples and counterexamples, with the built-in LinearKernel on the sample [[1], [2]] *)
(*BEGIN PROP*)
Definition lin : kernel xr xr := builtin KLinear.
Definition numx (l : list xr) : bool := true.
(** Two KernelMatrix objects attached to [[1], [2]], in a KernelSet; a third one is attached too. *)
Definition w_lin : world xr xr unit :=
  wrun xN xC numx
    [WNewKM lin false; WNewKM lin false; WNewKM lin false; WObj 0 (OpAttach x12 None);
     WObj 1 (OpAttach x12 None); WObj 2 (OpAttach x12 None);
     WSetNew (KLIter [ARef 0; ARef 1]) None] w_empty.
Definition ones2 : ndarray xr := mkNd [2] [Fin 1; Fin 1].

(** The hypotheses of the theorems above hold after the program K0[:, :], append(third): three
    members, one of them read as a sparse matrix. *)
Example C36_example :
  let ops : list (cop xr unit) :=
    [CHeap (WObj 0 (OpGetItem (IPair (ISlice None None None) (ISlice None None None))));
     CHeap (WAppend 0 (ARef 2)); CFit None; CGet] in
  let c := mkComp CSum 0 (NSOne 2) false None in
  comp_new NewSum (Some 0) w_lin = Ok c /\ set_is w_lin 0 (NSOne 2) [0; 1] /\
  set_is (fst (crun xC numx ops (w_lin, c))) 0 (NSOne 2) [0; 1; 2] /\
  exists Ks, fulls (fst (crun xC numx ops (w_lin, c))) [0; 1; 2] Ks /\ Forall (is_square 2) Ks /\
    map (fun K => afmt K) Ks = [Lil; Dense; Dense].
Proof.
  cbv zeta. split; [calc; reflexivity|]. split; [eexists; eexists; calc; reflexivity|].
  split; [eexists; eexists; calc; reflexivity|]. eexists. split.
  - constructor; [calc; reflexivity|]. constructor; [calc; reflexivity|].
    constructor; [calc; reflexivity|]. constructor.
  - split; [repeat constructor|reflexivity].
Qed.

(** The third kernel matrix satisfies [attached_member], and its matrix is positive semidefinite. *)
Example C37_example :
  attached_member 2 1 x12 w_lin 0 xdot /\ admissible x12 None 2 2 1 /\
  psd_array 2 (mkArr Dense (kernel_matrix xdot 2 2 1 x12 None)) /\ is_vector ones2 [1; 1]%R.
Proof.
  split; [|split; [exact x12_ok|split]].
  - exists lin, [], []. split; [calc; reflexivity|]. split; [apply linear_total; reflexivity|].
    split; [reflexivity|]. split; [reflexivity|]. split; [intros []|intros ix []].
  - split; [split; reflexivity|]. exists (fun i j => (INR (S i) * INR (S j))%R).
    split; [apply (psd_rank1 2 (fun i => INR (S i)))|].
    intros i j Hi Hj. destruct i as [|[|i]]; [| |lia]; (destruct j as [|[|j]]; [| |lia]); calc; f_equal; cbn; lra.
  - split; [reflexivity|]. exists []. split; [reflexivity|constructor].
Qed.
(*END PROP*)

(** C36 is false for WeightedAverageKernel: there is no division by the total weight. *)
Lemma pf_C36_weighted_refuted :
  exists (w0 : world xr xr unit) k ms n a ws c Ks b i j,
    comp_new (NewWeighted a) (Some k) w0 = Ok c /\ is_vector a ws /\ (0 < total ws)%R /\
    set_is w0 k (NSOne n) ms /\ fulls w0 ms Ks /\ Forall (is_square n) Ks /\ i < n /\ j < n /\
    snd (cstep xC numx (CFit None) (w0, c)) = Ok CUnit /\
    snd (cstep xC numx CGet (fst (cstep xC numx (CFit None) (w0, c)))) = Ok (CMat b) /\
    xget (amat b) i j <> weighted_mean_entry ws Ks i j.
Proof.
  exists w_lin, 0, [0; 1], 2, ones2, [1; 1]%R. eexists. eexists. eexists. exists 0, 0.
  split; [calc; reflexivity|].
  split; [split; [reflexivity|exists []; split; [reflexivity|constructor]]|].
  split; [cbn; lra|]. split; [eexists; eexists; calc; reflexivity|].
  split; [constructor; [calc; reflexivity|constructor; [calc; reflexivity|constructor]]|].
  split; [repeat constructor|]. split; [lia|]. split; [lia|].
  split; [calc; reflexivity|]. split; [calc; reflexivity|].
  calc. destruct (Req_EM_T _ _) as [H|_]; [exfalso; lra|].
  intros H. injection H. lra.
Qed.

(** C36 is false for ProductKernel if a member is held sparse: after K0[:, :], fit computes a matrix
    product. *)
Lemma pf_C36_product_refuted :
  exists (w0 : world xr xr unit) k ms n c Ks b i j,
    comp_new NewProduct (Some k) w0 = Ok c /\
    set_is w0 k (NSOne n) ms /\ fulls w0 ms Ks /\ Forall (is_square n) Ks /\ i < n /\ j < n /\
    snd (cstep xC numx (CFit None) (w0, c)) = Ok CUnit /\
    snd (cstep xC numx CGet (fst (cstep xC numx (CFit None) (w0, c)))) = Ok (CMat b) /\
    xget (amat b) i j <> prod_entry Ks i j.
Proof.
  exists (fst (wstep xN xC numx
    (WObj 0 (OpGetItem (IPair (ISlice None None None) (ISlice None None None)))) w_lin)), 0, [0; 1], 2.
  eexists. eexists. eexists. exists 0, 0.
  split; [calc; reflexivity|]. split; [eexists; eexists; calc; reflexivity|].
  split; [constructor; [calc; reflexivity|constructor; [calc; reflexivity|constructor]]|].
  split; [repeat constructor|]. split; [lia|]. split; [lia|].
  split; [calc; reflexivity|]. split; [calc; reflexivity|].
  calc. repeat (destruct (Req_EM_T _ _); try (exfalso; lra)).
  intros H. injection H. lra.
Qed.

(** C36 is false for sets of two-sample matrices: the members have matrices, the composite has not. *)
Lemma pf_C36_two_samples_refuted :
  exists (w0 : world xr xr unit) k ms n m c Ks,
    comp_new NewSum (Some k) w0 = Ok c /\ set_is w0 k (NSTwo n m) ms /\ fulls w0 ms Ks /\
    length ms = 2 /\ snd (cstep xC numx (CFit None) (w0, c)) = Raise TypeError.
Proof.
  exists (wrun xN xC numx
    [WNewKM lin false; WNewKM lin false; WObj 0 (OpAttach x12 (Some x12));
     WObj 1 (OpAttach x12 (Some x12)); WSetNew (KLIter [ARef 0; ARef 1]) None] w_empty), 0, [0; 1], 2, 2.
  eexists. eexists.
  split; [calc; reflexivity|]. split; [eexists; eexists; calc; reflexivity|].
  split; [constructor; [calc; reflexivity|constructor; [calc; reflexivity|constructor]]|].
  split; [reflexivity|]. calc. reflexivity.
Qed.

(** C38 is false: after append, fit returns but the matrix does not contain the third member, whatever
    non-zero weight one may have expected for it. *)
Lemma pf_C38_refuted :
  exists (w0 : world xr xr unit) k a ws c ops num ms Ks b i j,
    let s := crun xC numx ops (w0, c) in
    comp_new (NewWeighted a) (Some k) w0 = Ok c /\ is_vector a ws /\
    set_is (fst s) k num ms /\ length ms = 3 /\ fulls (fst s) ms Ks /\ Forall (is_square 2) Ks /\ i < 2 /\ j < 2 /\
    snd (cstep xC numx (CFit None) s) = Ok CUnit /\
    snd (cstep xC numx CGet (fst (cstep xC numx (CFit None) s))) = Ok (CMat b) /\
    forall r, (r <> 0)%R -> xget (amat b) i j <> sum_entry (ws ++ [r]) Ks i j.
Proof.
  exists w_lin, 0, ones2, [1; 1]%R. eexists. exists [CHeap (WAppend 0 (ARef 2))], (NSOne 2), [0; 1; 2].
  eexists. eexists. exists 0, 0. cbv zeta.
  split; [calc; reflexivity|].
  split; [split; [reflexivity|exists []; split; [reflexivity|constructor]]|].
  split; [eexists; eexists; calc; reflexivity|]. split; [reflexivity|].
  split; [constructor; [calc; reflexivity|constructor; [calc; reflexivity|constructor; [calc; reflexivity|constructor]]]|].
  split; [repeat constructor|]. split; [lia|]. split; [lia|].
  split; [calc; reflexivity|]. split; [calc; reflexivity|].
  intros r Hr. calc. intros H. injection H. lra.
Qed.

(** C66, the part that holds: a [fit] refused for its weights (wrong number) changes nothing. *)
Lemma pf_C66_partial :
  forall {E U} C numeric k (w0 : world E xr U) c ops num ms a ws,
    comp_new NewSum (Some k) w0 = Ok c ->
    set_is (fst (crun C numeric ops (w0, c))) k num ms ->
    is_vector a ws -> length ws <> length ms ->
    let s := crun C numeric ops (w0, c) in
    cstep C numeric CGet (fst (cstep C numeric (CFit (Some a)) s)) = cstep C numeric CGet s.
Proof.
  intros E U C numeric k w0 c ops num ms a ws Hc Hs Ha Hl s.
  unfold s. rewrite (pf_C36_sum_wrong_weights C numeric k w0 c ops num ms a ws Hc Hs Ha Hl). reflexivity.
Qed.

(** C66 is false in general: after a successful fit, a member is attached to three points; the next
    fit raises, and composite_KM silently changes from the sum of both members to the first alone. *)
Lemma pf_C66_refuted :
  exists (w0 : world xr xr unit) k c ops e b b' i j,
    let s := crun xC numx ops (w0, c) in
    comp_new NewSum (Some k) w0 = Ok c /\
    snd (cstep xC numx CGet s) = Ok (CMat b) /\
    snd (cstep xC numx (CFit None) s) = Raise e /\
    snd (cstep xC numx CGet (fst (cstep xC numx (CFit None) s))) = Ok (CMat b') /\
    xget (amat b) i j <> xget (amat b') i j.
Proof.
  exists w_lin, 0. eexists.
  exists [CFit None; CHeap (WObj 1 (OpAttach (mkNd [3; 1] [Fin 1; Fin 2; Fin 3]) None))].
  eexists. eexists. eexists. exists 0, 0. cbv zeta.
  split; [calc; reflexivity|]. split; [calc; reflexivity|]. split; [calc; reflexivity|].
  split; [calc; reflexivity|]. calc. intros H. injection H. lra.
Qed.
