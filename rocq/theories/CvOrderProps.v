(** What the scores of cross-validation rankings do not depend on (C116). *)
From Coq Require Import String Reals List Arith ZArith Bool Permutation Lia Lra.
Import ListNotations.
From Verif Require Import Prelude MatModel UtilsModel IndexModel KMModel SpecKM XReal OpsModel SpecLinAlg
  KernelsModel SpecKernels KMXModel SpecKMX SetModel SpecSet BucketModel SpecBucket CompositeModel SpecComposite RankModel SpecRank.
From Verif Require Import MatFacts RSum OpsFacts KMXProps ContProps CompositeProps RankProps OrderProps RecodeProps.
Local Open Scope list_scope.
Local Open Scope R_scope.

(** With method 'cv_risk' too, every member has the same score in whatever order the members are in the set. *)
Lemma pf_C116_cv_order :
  forall {U T} numbers best_score (w : world xr xr U) k num ms k' num' ms' Ks (t : T) p m e rs,
    set_is w k num ms -> set_is w k' num' ms' -> Permutation ms ms' -> fulls w ms Ks ->
    lower m = "cv_risk"%string -> cv_params p -> ms <> [] ->
    get_estimator (default "SVM"%string (rp_estimator p)) = Ok e ->
    Forall2 (fun K r => best_score e (default 3%Z (rp_folds p)) K t = Ok (Fin r)) Ks rs ->
    exists ss ss', snd (rank_kernels numbers best_score k t m p w) = Ok ss /\
      snd (rank_kernels numbers best_score k' t m p w) = Ok ss' /\
      Permutation (combine ms ss) (combine ms' ss').
Proof.
  intros U T numbers bs w k num ms k' num' ms' Ks t p m e rs H1 H1' P H2 H3 Hp Hm He Hr.
  assert (J : Forall2 (fun l r => exists K, snd (obj_full xN l w) = Ok K /\ bs e (default 3%Z (rp_folds p)) K t = Ok (Fin r)) ms rs).
  { clear P H1 Hm. revert rs Hr. unfold fulls in H2.
    induction H2 as [|l K ms Ks HK F IH]; intros rs Hr; inversion Hr as [|? r ? rs0 HA HAs]; subst; constructor.
    - exists K. split; [exact HK|exact HA].
    - apply IH; assumption. }
  destruct (perm_related _ ms ms' P rs J) as (rs' & J' & PA).
  assert (X : exists Ks', fulls w ms' Ks' /\ Forall2 (fun K r => bs e (default 3%Z (rp_folds p)) K t = Ok (Fin r)) Ks' rs').
  { clear - J'. induction J' as [|l r ms rs (K & HK & HA) F (Ks' & I1 & I2)]; [exists []; split; constructor|].
    exists (K :: Ks'). split; constructor; assumption. }
  destruct X as (Ks' & F' & Hr').
  assert (LF : forall A B (R : A -> B -> Prop) a b, Forall2 R a b -> length a = length b) by (intros A B R a b HR; induction HR; cbn; congruence).
  assert (PR : Permutation rs rs').
  { apply (Permutation_map snd) in PA. revert PA.
    assert (S : forall (a : list nat) (b : list R), length a = length b -> map snd (combine a b) = b).
    { induction a as [|x a IH]; intros [|y b] L; try discriminate L; [reflexivity|]. cbn. f_equal. apply IH. injection L as L. exact L. }
    rewrite (S _ _ (LF _ _ _ _ _ J)), (S _ _ (LF _ _ _ _ _ J')). intros PA2. exact PA2. }
  assert (N : rs <> []) by (intros ->; apply Hm; inversion J; reflexivity).
  assert (Ex : exists mn mx, extremes rs mn mx).
  { clear - N. induction rs as [|r rs IH]; [congruence|]. destruct rs as [|r2 rs].
    - exists r, r. split; [left; reflexivity|]. split; [left; reflexivity|]. intros v [->|[]]. lra.
    - destruct (IH ltac:(discriminate)) as (mn & mx & I1 & I2 & I3).
      exists (Rmin r mn), (Rmax r mx). split; [|split].
      + unfold Rmin. destruct (Rle_dec r mn); [left; reflexivity|right; exact I1].
      + unfold Rmax. destruct (Rle_dec r mx); [right; exact I2|left; reflexivity].
      + intros v [->|Hv].
        * split; [apply Rmin_l|apply Rmax_l].
        * specialize (I3 v Hv). pose proof (Rmin_r r mn). pose proof (Rmax_r r mx). lra. }
  destruct Ex as (mn & mx & E).
  assert (E' : extremes rs' mn mx).
  { destruct E as (E1 & E2 & E3). split; [exact (Permutation_in _ PR E1)|]. split; [exact (Permutation_in _ PR E2)|].
    intros v Hv. apply E3. exact (Permutation_in _ (Permutation_sym PR) Hv). }
  exists (map (fun r => Fin (scaled mn mx r)) rs), (map (fun r => Fin (scaled mn mx r)) rs').
  split; [exact (proj1 (pf_C52_cv numbers bs w k num ms Ks t p m e rs mn mx H1 H2 H3 Hp He Hr E))|].
  split; [exact (proj1 (pf_C52_cv numbers bs w k' num' ms' Ks' t p m e rs' mn mx H1' F' H3 Hp He Hr' E'))|].
  rewrite !combine_map_r. apply Permutation_map, PA.
Qed.

(** The unit and the origin of the cross-validation scores do not matter, if the spread stays above 1e-8. *)
Lemma pf_C116_cv_affine :
  forall {U T} numbers best_score best_score' (w : world xr xr U) k num ms Ks (t : T) p m e rs mn mx a s,
    set_is w k num ms -> fulls w ms Ks -> lower m = "cv_risk"%string -> cv_params p ->
    get_estimator (default "SVM"%string (rp_estimator p)) = Ok e ->
    Forall2 (fun K r => best_score e (default 3%Z (rp_folds p)) K t = Ok (Fin r)) Ks rs ->
    Forall2 (fun K r => best_score' e (default 3%Z (rp_folds p)) K t = Ok (Fin (a + s * r))) Ks rs ->
    extremes rs mn mx -> 0 < s -> tiny < mx - mn -> tiny < s * (mx - mn) ->
    snd (rank_kernels numbers best_score' k t m p w) = snd (rank_kernels numbers best_score k t m p w).
Proof.
  intros U T numbers bs bs' w k num ms Ks t p m e rs mn mx a s H1 H2 H3 Hp He Hr Hr' E Hs D1 D2.
  rewrite (proj1 (pf_C52_cv numbers bs w k num ms Ks t p m e rs mn mx H1 H2 H3 Hp He Hr E)).
  assert (Hr2 : Forall2 (fun K r => bs' e (default 3%Z (rp_folds p)) K t = Ok (Fin r)) Ks (map (fun r => a + s * r) rs)).
  { clear - Hr'. induction Hr'; constructor; assumption. }
  assert (E2 : extremes (map (fun r => a + s * r) rs) (a + s * mn) (a + s * mx)).
  { destruct E as (E1 & E3 & E4). split; [exact (in_map (fun r => a + s * r) rs mn E1)|].
    split; [exact (in_map (fun r => a + s * r) rs mx E3)|]. intros v Hv. apply in_map_iff in Hv as (r & <- & Hv).
    specialize (E4 r Hv). nra. }
  rewrite (proj1 (pf_C52_cv numbers bs' w k num ms Ks t p m e _ _ _ H1 H2 H3 Hp He Hr2 E2)).
  rewrite map_map. f_equal. apply map_ext. intros r. f_equal. unfold scaled, tiny in *.
  replace (a + s * mx - (a + s * mn)) with (s * (mx - mn)) by ring.
  destruct (Rle_dec (s * (mx - mn)) _); [lra|]. destruct (Rle_dec (mx - mn) _); [lra|]. field. split; lra.
Qed.

(*BEGIN PROP*)
(** A case: the two sets of [w_order] (Prop_Order.v), scored by the first entry of the matrix. *)
Example C116_cv_example :
  set_is w_order 0 (NSOne 2) [0; 1]%nat /\ set_is w_order 1 (NSOne 2) [1; 0]%nat /\ Permutation [0; 1]%nat [1; 0]%nat /\
  exists Ks r, fulls w_order [0; 1]%nat Ks /\ Forall2 (fun K r => Ok (xget (amat K) 0 0) = Ok (Fin r)) Ks [r; 3] /\ r = 1.
Proof.
  split; [eexists; eexists; calc; reflexivity|]. split; [eexists; eexists; calc; reflexivity|]. split; [apply perm_swap|].
  eexists. eexists. split.
  - constructor; [calc; reflexivity|]. constructor; [calc; reflexivity|]. constructor.
  - split; [repeat (constructor; [calc; reflexivity|]); constructor|]. lra.
Qed.
(*END PROP*)
