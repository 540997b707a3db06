(** Kernel buckets: properties C48 and C49. *)
From Coq Require Import String Reals List Arith ZArith Bool Lia Lra.
Import ListNotations.
From Verif Require Import Prelude MatModel UtilsModel KMModel SpecKM XReal KernelsModel KMXModel SetModel
  SpecSet BucketModel SpecBucket.
From Verif Require Import MatFacts MFacts KMFacts KMInv SetFacts SetProps ContProps KMXProps.

Local Open Scope list_scope.
Local Open Scope nat_scope.

Section Facts.
  Context {U : Type}.
  Variable N : numops xr.
  Variable C : cmpops xr.
  Notation World := (world xr xr U).
  Notation newkm nrm := (fun K : kernel xr xr => OKM (U:=U) (km_new K nrm [])).

  (** The state after adding kernel matrices for [Ks] to the set [k]. *)
  Definition grown (w : World) (k : nat) (nrm b : bool) (ms : list nat) x (Ks : list (kernel xr xr)) : World :=
    mkW (w_objs w ++ map (newkm nrm) Ks)
        (list_upd (w_sets w) k
           (mkSet NSNone b (ms ++ seq (length (w_objs w)) (length Ks)) x)).

  Lemma grown_grown : forall w k nrm b b' ms x Ks Ks',
    grown (grown w k nrm b ms x Ks) k nrm b' (ms ++ seq (length (w_objs w)) (length Ks)) x Ks'
    = grown w k nrm b' ms x (Ks ++ Ks').
  Proof.
    intros. unfold grown. cbn [w_objs w_sets].
    rewrite list_upd_upd, map_app, !app_length, map_length, seq_app, !app_assoc. reflexivity.
  Qed.

  Lemma grown_nil : forall w k nrm b ms x, nth_error (w_sets w) k = Some (mkSet NSNone b ms x) ->
    grown w k nrm b ms x [] = w.
  Proof.
    intros w k nrm b ms x H. unfold grown. cbn [map length seq]. rewrite !app_nil_r.
    rewrite (list_upd_same _ _ _ H). destruct w. reflexivity.
  Qed.

  Lemma grown_set : forall w k nrm b ms x Ks s, nth_error (w_sets w) k = Some s ->
    nth_error (w_sets (grown w k nrm b ms x Ks)) k
    = Some (mkSet NSNone b (ms ++ seq (length (w_objs w)) (length Ks)) x).
  Proof. intros w k nrm b ms x Ks s H. unfold grown. cbn [w_sets]. eapply nth_error_upd_same. exact H. Qed.

  Lemma append_new_ok : forall w k nrm b ms x K,
    nth_error (w_sets w) k = Some (mkSet NSNone b ms x) ->
    append_new N C (mkBucket k nrm) (Ok K) w = (grown w k nrm true ms x [K], Ok tt).
  Proof.
    intros w k nrm b ms x K H. unfold append_new, bind, lift, new_obj. cbn [b_set b_norm].
    rewrite append_ref. cbn [set_objs w_objs w_sets]. rewrite nth_error_snoc, Nat.eqb_refl, H.
    unfold joins. cbn [s_num s_init obj_num k_num_samples km_new numsamp_eqb].
    rewrite orb_true_r. unfold joined, grown, set_sets. cbn [w_objs w_sets map length seq s_num s_init
      s_members s_sample obj_num k_num_samples km_new numsamp_eqb].
    rewrite orb_true_r. reflexivity.
  Qed.

  Lemma loop_grows : forall l w k nrm b ms x,
    nth_error (w_sets w) k = Some (mkSet NSNone b ms x) ->
    exists b', for_each l (fun r => attempt (append_new N C (mkBucket k nrm) r)) w
               = (grown w k nrm b' ms x (built l), Ok tt) /\ (b = true -> b' = true).
  Proof.
    induction l as [|[K|e] l IH]; intros w k nrm b ms x H.
    - exists b. rewrite grown_nil by exact H. split; [reflexivity|auto].
    - cbn [for_each built]. unfold bind at 1. unfold attempt at 1.
      rewrite (append_new_ok w k nrm b ms x K H). cbn [fst].
      destruct (IH (grown w k nrm true ms x [K]) k nrm true _ x (grown_set _ _ _ _ _ _ _ _ H)) as (b' & Hb & Ht).
      exists b'. rewrite Hb, grown_grown. split; [reflexivity|auto].
    - cbn [for_each built]. unfold bind at 1. unfold attempt at 1.
      cbn [append_new bind lift fst]. apply IH. exact H.
  Qed.

  Lemma add_grows : forall v Ks w k nrm b ms x, gives v Ks ->
    nth_error (w_sets w) k = Some (mkSet NSNone b ms x) ->
    exists b', add_parametrized N C (mkBucket k nrm) true v w = (grown w k nrm b' ms x Ks, Ok tt)
               /\ (b = true -> b' = true).
  Proof.
    intros v Ks w k nrm b ms x Hg H. unfold add_parametrized. cbn [negb].
    destruct v as [| | |l]; try contradiction; cbn [gives] in Hg.
    - subst Ks. exists b. rewrite grown_nil by exact H. split; [reflexivity|auto].
    - destruct Hg as [Hl ->]. destruct l as [|r l]; [congruence|]. apply loop_grows. exact H.
  Qed.

  Lemma add_unacceptable : forall v b (w : World), unacceptable v ->
    exists e, add_parametrized N C b true v w = (w, Raise e) /\ (e = ValueError \/ e = TypeError).
  Proof.
    intros v b w [-> | [-> | ->]]; eexists; (split; [reflexivity|]); auto.
  Qed.

  Definition start (w : World) (nrm : bool) : World :=
    mkW (w_objs w ++ [newkm nrm (builtin KLinear)])
        (w_sets w ++ [mkSet NSNone true [length (w_objs w)] None]).

  (** Everything up to the additions. *)
  Lemma bucket_start : forall w nrm chk p,
    bucket_new N C (Some nrm) (Some chk) p w =
    (let b := mkBucket (length (w_sets w)) nrm in
     add_parametrized N C b true (bp_poly_degree p) ;;;
     add_parametrized N C b true (bp_rbf_sigma p) ;;;
     add_parametrized N C b true (bp_laplace_gamma p) ;;;
     add_parametrized N C b true (bp_sigmoid_gamma p) ;;;
     add_parametrized N C b true (bp_sigmoid_offset p) ;;;
     ret b) (start w nrm).
  Proof.
    intros w nrm chk p. unfold bucket_new.
    assert (Hl : forall {A} (l : list A) a b, list_upd (l ++ [a]) (length l) b = l ++ [b]).
    { intros A l a b. induction l as [|y l IH]; cbn; [reflexivity|]. rewrite IH. reflexivity. }
    unfold bind at 1, new_obj at 1. unfold bind at 1. unfold set_new. unfold bind at 1, new_set at 1.
    cbn [set_objs w_objs w_sets for_each]. unfold bind at 1. unfold bind at 1.
    rewrite append_ref. cbn [set_sets set_objs w_objs w_sets]. rewrite !nth_error_snoc, !Nat.eqb_refl.
    unfold joins, joined. cbn [s_init s_num numsamp_eqb negb andb orb s_members s_sample obj_num k_num_samples km_new app].
    unfold ret at 1. rewrite Hl. unfold ret at 1. unfold bind at 1, get_set at 1. cbn [set_sets w_sets w_objs].
    rewrite nth_error_snoc, Nat.eqb_refl. unfold bind at 1. unfold put_set at 1, modify at 1.
    cbn [set_sets w_sets w_objs s_num s_init s_members s_sample]. rewrite Hl. reflexivity.
  Qed.

  Lemma start_set : forall w nrm, nth_error (w_sets (start w nrm)) (length (w_sets w))
    = Some (mkSet NSNone true [length (w_objs w)] None).
  Proof. intros. unfold start. cbn [w_sets]. rewrite nth_error_snoc, Nat.eqb_refl. reflexivity. Qed.

  Lemma start_grown : forall w nrm b x Ks,
    let w' := grown (start w nrm) (length (w_sets w)) nrm b [length (w_objs w)] x Ks in
    set_is w' (length (w_sets w)) NSNone (seq (length (w_objs w)) (S (length Ks))) /\
    new_matrices w w' nrm (seq (length (w_objs w)) (S (length Ks))) (builtin KLinear :: Ks) /\
    objects_kept w w' /\ sets_kept w w'.
  Proof.
    intros w nrm b x Ks w'.
    assert (Ho : w_objs w' = w_objs w ++ map (newkm nrm) (builtin KLinear :: Ks)).
    { unfold w', grown, start. cbn [w_objs map]. rewrite <- app_assoc. reflexivity. }
    split; [|split; [split; [|split]|split]].
    - exists b, x. unfold w'. rewrite (grown_set _ _ _ _ _ _ _ _ (start_set w nrm)).
      cbn [start w_objs]. rewrite app_length. cbn [length seq app].
      replace (length (w_objs w) + 1) with (S (length (w_objs w))) by lia. reflexivity.
    - rewrite Ho. change (S (length Ks)) with (length (builtin KLinear :: Ks)).
      generalize (builtin KLinear :: Ks) as L, (w_objs w) as os. clear.
      induction L as [|K L IH]; intros os; cbn [length seq map]; constructor.
      + rewrite nth_error_app2, Nat.sub_diag by lia. reflexivity.
      + specialize (IH (os ++ [OKM (km_new K nrm [])])). rewrite app_length in IH. cbn [length] in IH.
        replace (length os + 1) with (S (length os)) in IH by lia. rewrite <- app_assoc in IH. exact IH.
    - apply seq_NoDup.
    - intros l Hl. apply in_seq in Hl. apply nth_error_None. lia.
    - intros l o H. rewrite Ho, nth_error_app1; [exact H|]. apply nth_error_Some. congruence.
    - intros j s H. assert (j < length (w_sets w)) by (apply nth_error_Some; congruence).
      unfold w', grown, start. cbn [w_sets]. rewrite nth_error_upd_other by lia.
      rewrite nth_error_app1 by assumption. exact H.
  Qed.
End Facts.

(** C48: the constructor returns an unattached bucket with the linear kernel first and then, in order,
    one kernel for each value that could be constructed, each in a new KernelMatrix normalised as
    requested; values that fail are skipped. *)
Lemma pf_C48_contents :
  forall {U} (N : numops xr) (C : cmpops xr) (w : world xr xr U) nrm chk p K1 K2 K3 K4 K5,
  gives (bp_poly_degree p) K1 -> gives (bp_rbf_sigma p) K2 -> gives (bp_laplace_gamma p) K3 ->
  gives (bp_sigmoid_gamma p) K4 -> gives (bp_sigmoid_offset p) K5 ->
  makes_bucket (bucket_new N C (Some nrm) (Some chk) p) w nrm (builtin KLinear :: K1 ++ K2 ++ K3 ++ K4 ++ K5).
Proof.
  intros U N C w nrm chk p K1 K2 K3 K4 K5 H1 H2 H3 H4 H5.
  assert (H : exists b, bucket_new N C (Some nrm) (Some chk) p w =
    (grown (start w nrm) (length (w_sets w)) nrm b [length (w_objs w)] None (K1 ++ K2 ++ K3 ++ K4 ++ K5),
     Ok (mkBucket (length (w_sets w)) nrm))).
  { rewrite bucket_start. cbv zeta.
    pose proof (start_set w nrm) as S0.
    destruct (add_grows N C _ _ _ _ nrm _ _ _ H1 S0) as (b1 & E1 & _).
    unfold bind at 1. rewrite E1.
    pose proof (grown_set _ _ nrm b1 [length (w_objs w)] None K1 _ S0) as S1.
    destruct (add_grows N C _ _ _ _ nrm _ _ _ H2 S1) as (b2 & E2 & _).
    unfold bind at 1. rewrite E2. rewrite grown_grown.
    pose proof (grown_set _ _ nrm b2 [length (w_objs w)] None (K1 ++ K2) _ S0) as S2.
    destruct (add_grows N C _ _ _ _ nrm _ _ _ H3 S2) as (b3 & E3 & _).
    unfold bind at 1. rewrite E3. rewrite grown_grown.
    pose proof (grown_set _ _ nrm b3 [length (w_objs w)] None ((K1 ++ K2) ++ K3) _ S0) as S3.
    destruct (add_grows N C _ _ _ _ nrm _ _ _ H4 S3) as (b4 & E4 & _).
    unfold bind at 1. rewrite E4. rewrite grown_grown.
    pose proof (grown_set _ _ nrm b4 [length (w_objs w)] None (((K1 ++ K2) ++ K3) ++ K4) _ S0) as S4.
    destruct (add_grows N C _ _ _ _ nrm _ _ _ H5 S4) as (b5 & E5 & _).
    unfold bind at 1. rewrite E5. rewrite grown_grown.
    exists b5. rewrite <- !app_assoc. reflexivity. }
  destruct H as [b H]. unfold makes_bucket. rewrite H. cbn [fst snd].
  destruct (start_grown w nrm b None (K1 ++ K2 ++ K3 ++ K4 ++ K5)) as (A1 & A2 & A3 & A4).
  exists (mkBucket (length (w_sets w)) nrm), (seq (length (w_objs w)) (S (length (K1 ++ K2 ++ K3 ++ K4 ++ K5)))).
  cbn [b_set b_norm]. split; [reflexivity|]. split; [reflexivity|].
  split; [apply nth_error_None; lia|]. auto.
Qed.

(** C48: an element of [values] that is not acceptable as a whole (not an iterable, without len(), or
    empty) makes the constructor raise; nothing that existed before is touched. *)
Lemma pf_C48_bad_values :
  forall {U} (N : numops xr) (C : cmpops xr) (w : world xr xr U) nrm chk p,
  unacceptable (bp_poly_degree p) \/ unacceptable (bp_rbf_sigma p) \/ unacceptable (bp_laplace_gamma p) \/
  unacceptable (bp_sigmoid_gamma p) \/ unacceptable (bp_sigmoid_offset p) ->
  let r := bucket_new N C (Some nrm) (Some chk) p w in
  (snd r = Raise ValueError \/ snd r = Raise TypeError) /\ objects_kept w (fst r) /\ sets_kept w (fst r).
Proof.
  intros U N C w nrm chk p H r.
  assert (Hd : forall v, unacceptable v \/ exists Ks, gives v Ks).
  { intros [| | |l]; [right; exists []; reflexivity|left; left; reflexivity|left; right; left; reflexivity|].
    destruct l as [|a l]; [left; right; right; reflexivity|]. right. eexists. split; [discriminate|reflexivity]. }
  assert (G : exists b Ks e, r = (grown (start w nrm) (length (w_sets w)) nrm b [length (w_objs w)] None Ks, Raise e)
                             /\ (e = ValueError \/ e = TypeError)).
  { unfold r. rewrite bucket_start. cbv zeta.
    pose proof (start_set w nrm) as S0.
    assert (step0 : forall m : M (world xr xr U) bucket, (forall Ks b, exists b' Ks' e,
         m (grown (start w nrm) (length (w_sets w)) nrm b [length (w_objs w)] None Ks)
         = (grown (start w nrm) (length (w_sets w)) nrm b' [length (w_objs w)] None Ks', Raise e)
         /\ (e = ValueError \/ e = TypeError)) ->
      exists b' Ks' e, m (start w nrm)
         = (grown (start w nrm) (length (w_sets w)) nrm b' [length (w_objs w)] None Ks', Raise e)
         /\ (e = ValueError \/ e = TypeError)).
    { intros m Hm. specialize (Hm [] true). rewrite (grown_nil _ _ nrm _ _ _ S0) in Hm. exact Hm. }
    assert (step : forall v Ks b (m : M (world xr xr U) bucket),
      (unacceptable v \/ forall Ks b, exists b' Ks' e,
         m (grown (start w nrm) (length (w_sets w)) nrm b [length (w_objs w)] None Ks)
         = (grown (start w nrm) (length (w_sets w)) nrm b' [length (w_objs w)] None Ks', Raise e)
         /\ (e = ValueError \/ e = TypeError)) ->
      exists b' Ks' e,
      (add_parametrized N C (mkBucket (length (w_sets w)) nrm) true v ;;; m)
        (grown (start w nrm) (length (w_sets w)) nrm b [length (w_objs w)] None Ks)
      = (grown (start w nrm) (length (w_sets w)) nrm b' [length (w_objs w)] None Ks', Raise e)
      /\ (e = ValueError \/ e = TypeError)).
    { intros v Ks b m Hv.
      assert (Hu : unacceptable v -> exists b' Ks' e,
        (add_parametrized N C (mkBucket (length (w_sets w)) nrm) true v ;;; m)
          (grown (start w nrm) (length (w_sets w)) nrm b [length (w_objs w)] None Ks)
        = (grown (start w nrm) (length (w_sets w)) nrm b' [length (w_objs w)] None Ks', Raise e)
        /\ (e = ValueError \/ e = TypeError)).
      { intros Hu. destruct (add_unacceptable N C v (mkBucket (length (w_sets w)) nrm)
          (grown (start w nrm) (length (w_sets w)) nrm b [length (w_objs w)] None Ks) Hu) as (e & He & He').
        exists b, Ks, e. unfold bind. rewrite He. auto. }
      destruct (Hd v) as [Hu'|[Ks1 Hg]]; [auto|]. destruct Hv as [Hv|Hm]; [auto|].
      destruct (add_grows N C _ _ _ _ nrm _ _ _ Hg (grown_set _ _ nrm b [length (w_objs w)] None Ks _ S0))
        as (b1 & E1 & _).
      unfold bind. rewrite E1, grown_grown. apply Hm. }
    apply step0. intros Ks b. apply step.
    destruct H as [H|H]; [left; exact H|right; intros Ks1 b1; apply step].
    destruct H as [H|H]; [left; exact H|right; intros Ks2 b2; apply step].
    destruct H as [H|H]; [left; exact H|right; intros Ks3 b3; apply step].
    destruct H as [H|H]; [left; exact H|right; intros Ks4 b4; apply step].
    left; exact H. }
  destruct G as (b & Ks & e & G & He). rewrite G. cbn [fst snd].
  destruct (start_grown w nrm b None Ks) as (_ & _ & A3 & A4).
  split; [destruct He as [-> | ->]; auto|]. auto.
Qed.

(** C48: flags that are not bools raise TypeError. *)
Lemma pf_C48_bad_flags :
  forall {U} (N : numops xr) (C : cmpops xr) (w : world xr xr U) f g p, f = None \/ g = None ->
  bucket_new N C f g p w = (w, Raise TypeError).
Proof. intros U N C w [f|] [g|] p [H|H]; congruence || reflexivity. Qed.

Definition accepted (k : nkernel) : bool := match k with KHadamard _ => false | _ => true end.

Lemma gives_vals : forall {A} (f : A -> nkernel) l, l <> [] -> (forall a, accepted (f a) = true) ->
  gives (vals (map f l)) (map builtin (map f l)).
Proof.
  intros A f l Hl Hf. unfold vals. cbn [gives]. split; [destruct l; [congruence|discriminate]|].
  clear Hl. induction l as [|a l IH]; [reflexivity|]. cbn [map]. rewrite IH at 1.
  specialize (Hf a). destruct (f a); [discriminate|..]; reflexivity.
Qed.

Lemma two_pow_values : (two_pow (-5) = / 32 /\ two_pow (-3) = / 8 /\ two_pow (-1) = / 2 /\ two_pow 1 = 2
    /\ two_pow 3 = 8 /\ two_pow 5 = 32)%R.
Proof.
  unfold two_pow, powerRZ. change (Pos.to_nat 5) with 5. change (Pos.to_nat 3) with 3.
  change (Pos.to_nat 1) with 1. cbn [pow].
  split; [apply f_equal; lra|]. split; [apply f_equal; lra|]. split; [apply f_equal; lra|].
  split; [lra|]. split; lra.
Qed.

Lemma powers_32 : powers (/ 32) 6 = map two_pow [-5; -3; -1; 1; 3; 5]%Z.
Proof.
  destruct two_pow_values as (T1 & T2 & T3 & T4 & T5 & T6). cbn [powers map].
  rewrite T1, T2, T3, T4, T5, T6. repeat (apply f_equal2; [lra|]). reflexivity.
Qed.
Lemma powers_8 : powers (/ 8) 5 = map two_pow [-3; -1; 1; 3; 5]%Z.
Proof.
  destruct two_pow_values as (T1 & T2 & T3 & T4 & T5 & T6). cbn [powers map].
  rewrite T2, T3, T4, T5, T6. repeat (apply f_equal2; [lra|]). reflexivity.
Qed.
Lemma powers_8_3 : powers (/ 8) 3 = map two_pow [-3; -1; 1]%Z.
Proof.
  destruct two_pow_values as (T1 & T2 & T3 & T4 & T5 & T6). cbn [powers map].
  rewrite T2, T3, T4. repeat (apply f_equal2; [lra|]). reflexivity.
Qed.

(** C48: make_kernel_bucket('exhaustive'), in any case of letters, makes a bucket with these 25
    kernels. *)
Lemma pf_C48_exhaustive :
  forall {U} (N : numops xr) (C : cmpops xr) (w : world xr xr U) nrm chk name,
  lower name = "exhaustive"%string ->
  makes_bucket (make_kernel_bucket N C (SName name) (Some nrm) (Some chk)) w nrm (map builtin exhaustive_kernels)
  /\ length exhaustive_kernels = 25.
Proof.
  intros U N C w nrm chk name H. split; [|reflexivity].
  unfold make_kernel_bucket. rewrite H. cbn [String.eqb Ascii.eqb Bool.eqb].
  unfold exhaustive_kernels, exhaustive_params. cbn [map]. rewrite !map_app.
  apply pf_C48_contents; cbn [bp_poly_degree bp_rbf_sigma bp_laplace_gamma bp_sigmoid_gamma bp_sigmoid_offset];
    unfold rbf_sigmas, laplace_gammas, sigmoid_gammas; try rewrite powers_32, map_map;
    apply gives_vals; discriminate || reflexivity.
Qed.

(** C48: make_kernel_bucket('light') makes a bucket with these 15 kernels. *)
Lemma pf_C48_light :
  forall {U} (N : numops xr) (C : cmpops xr) (w : world xr xr U) nrm chk name,
  lower name = "light"%string ->
  makes_bucket (make_kernel_bucket N C (SName name) (Some nrm) (Some chk)) w nrm (map builtin light_kernels)
  /\ length light_kernels = 15.
Proof.
  intros U N C w nrm chk name H. split; [|reflexivity].
  unfold make_kernel_bucket. rewrite H. cbn [String.eqb Ascii.eqb Bool.eqb].
  unfold light_kernels, light_params. cbn [map]. rewrite !map_app.
  apply pf_C48_contents; cbn [bp_poly_degree bp_rbf_sigma bp_laplace_gamma bp_sigmoid_gamma bp_sigmoid_offset];
    unfold rbf_sigmas, laplace_gammas, sigmoid_gammas;
    try rewrite powers_8, map_map; try rewrite powers_8_3, map_map;
    apply gives_vals; discriminate || reflexivity.
Qed.

(** C48: make_kernel_bucket('linear_only') makes a bucket with the linear kernel only. *)
Lemma pf_C48_linear_only :
  forall {U} (N : numops xr) (C : cmpops xr) (w : world xr xr U) nrm chk name,
  lower name = "linear_only"%string ->
  makes_bucket (make_kernel_bucket N C (SName name) (Some nrm) (Some chk)) w nrm [builtin KLinear].
Proof.
  intros U N C w nrm chk name H.
  unfold make_kernel_bucket. rewrite H. cbn [String.eqb Ascii.eqb Bool.eqb].
  apply (pf_C48_contents N C w nrm chk linear_params [] [] [] [] []); reflexivity.
Qed.

(** C48: any other name of a strategy raises ValueError; a bucket or a set is returned as it is. *)
Lemma pf_C48_other_strategies :
  forall {U} (N : numops xr) (C : cmpops xr) (w : world xr xr U) f g,
  (forall name, lower name <> "exhaustive"%string -> lower name <> "light"%string ->
     lower name <> "linear_only"%string -> make_kernel_bucket N C (SName name) f g w = (w, Raise ValueError)) /\
  (forall b, make_kernel_bucket N C (SBucket b) f g w = (w, Ok b)) /\
  make_kernel_bucket N C SOther f g w = (w, Raise AttributeError).
Proof.
  intros U N C w f g. split; [|split; reflexivity].
  intros name H1 H2 H3. unfold make_kernel_bucket.
  rewrite (proj2 (String.eqb_neq _ _) H1), (proj2 (String.eqb_neq _ _) H2), (proj2 (String.eqb_neq _ _) H3).
  reflexivity.
Qed.

(** C49, while the bucket is not attached: a KernelMatrix is added for each value for which the kernel
    could be constructed, in order, after the members present; values that fail are skipped.
    Missing: buckets that have been attached, see C49_attached and C49_refuted. *)
Lemma pf_C49_partial :
  forall {U} (N : numops xr) (C : cmpops xr) (w : world xr xr U) b ms v Ks,
  set_is w (b_set b) NSNone ms -> gives v Ks ->
  let r := add_parametrized N C b true v w in
  snd r = Ok tt /\ objects_kept w (fst r) /\ other_sets_kept (b_set b) w (fst r) /\
  exists new, set_is (fst r) (b_set b) NSNone (ms ++ new) /\ new_matrices w (fst r) (b_norm b) new Ks.
Proof.
  intros U N C w [k nrm] ms v Ks (b & x & Hs) Hg r. cbn [b_set b_norm] in *.
  destruct (add_grows N C v Ks w k nrm b ms x Hg Hs) as (b' & E & _). unfold r. rewrite E. cbn [fst snd].
  split; [reflexivity|]. split; [|split].
  - intros l o H. unfold grown. cbn [w_objs]. rewrite nth_error_app1; [exact H|]. apply nth_error_Some. congruence.
  - intros j s Hj H. unfold grown. cbn [w_sets]. rewrite nth_error_upd_other by exact Hj. exact H.
  - exists (seq (length (w_objs w)) (length Ks)). split; [|split; [|split]].
    + exists b', x. exact (grown_set _ _ _ _ _ _ _ _ Hs).
    + unfold grown. cbn [w_objs]. generalize (w_objs w) as os. clear.
      induction Ks as [|K L IH]; intros os; cbn [length seq map]; constructor.
      * rewrite nth_error_app2, Nat.sub_diag by lia. reflexivity.
      * specialize (IH (os ++ [OKM (km_new K nrm [])])). rewrite app_length in IH. cbn [length] in IH.
        replace (length os + 1) with (S (length os)) in IH by lia. rewrite <- app_assoc in IH. exact IH.
    + apply seq_NoDup.
    + intros l Hl. apply in_seq in Hl. apply nth_error_None. lia.
Qed.

(** C49: arguments that are refused change nothing; a generator raises TypeError, everything else that is refused
    ValueError. *)
Lemma pf_C49_refused :
  forall {U} (N : numops xr) (C : cmpops xr) (w : world xr xr U) b v,
  add_parametrized N C b false v w = (w, Raise KernelMethodsError) /\
  (unacceptable v -> add_parametrized N C b true v w = (w, Raise (match v with BNoLen => TypeError | _ => ValueError end))).
Proof. intros U N C w b v. split; [reflexivity|]. intros [->|[->| ->]]; reflexivity. Qed.

(** C49, once the bucket is attached (or has otherwise got a number of samples): the call returns
    normally but no kernel is ever added, whatever the values. *)
Lemma pf_C49_attached :
  forall {U} (N : numops xr) (C : cmpops xr) (w : world xr xr U) b n ms v Ks,
  set_is w (b_set b) n ms -> n <> NSNone -> gives v Ks ->
  let r := add_parametrized N C b true v w in
  snd r = Ok tt /\ w_sets (fst r) = w_sets w /\ objects_kept w (fst r).
Proof.
  intros U N C w [k nrm] n ms v Ks (i & x & Hs) Hn Hg r. unfold r, add_parametrized. cbn [negb b_set] in *.
  destruct v as [| | |l]; try contradiction.
  - split; [reflexivity|]. split; [reflexivity|]. intros l o H. exact H.
  - destruct Hg as [Hl _]. clear r Ks.
    assert (G : forall l (w : world xr xr U), nth_error (w_sets w) k = Some (mkSet n i ms x) ->
      let r := for_each l (fun r => attempt (append_new N C (mkBucket k nrm) r)) w in
      snd r = Ok tt /\ w_sets (fst r) = w_sets w /\ objects_kept w (fst r)).
    { clear - Hn. induction l as [|[K|e] l IH]; intros w Hs; cbv zeta in *.
      - split; [reflexivity|]. split; [reflexivity|]. intros l' o H. exact H.
      - cbn [for_each]. unfold bind at 1 2 3. unfold attempt at 1 3 5.
        assert (E : fst (append_new N C (mkBucket k nrm) (Ok K) w)
                    = set_objs (w_objs w ++ [OKM (km_new K nrm [])]) w).
        { unfold append_new, bind, lift, new_obj. cbn [b_set b_norm].
          rewrite append_ref. cbn [set_objs w_objs w_sets]. rewrite nth_error_snoc, Nat.eqb_refl, Hs.
          unfold joins. cbn [s_num s_init obj_num]. change (k_num_samples (km_new K nrm [])) with NSNone.
          rewrite (proj2 (numsamp_eqb_neq n NSNone) Hn). rewrite andb_false_r. reflexivity. }
        rewrite E. destruct (IH (set_objs (w_objs w ++ [OKM (km_new K nrm [])]) w) Hs) as (A1 & A2 & A3).
        split; [exact A1|]. split; [exact A2|]. intros l' o H. apply A3. cbn [set_objs w_objs].
        rewrite nth_error_app1; [exact H|]. apply nth_error_Some. congruence.
      - cbn [for_each]. unfold bind at 1 2 3. unfold attempt at 1 3 5. cbn [append_new bind lift fst].
        apply IH. exact Hs. }
    destruct l as [|a l]; [congruence|]. apply G. exact Hs.
Qed.

(** C49 is refuted: a program makes a bucket, attaches it to a sample and adds a polynomial kernel of
    degree 2, which can be constructed; the call returns, the bucket has the linear kernel only. *)
Lemma pf_C49_refuted :
  exists (w : world xr xr unit) b x,
    snd (make_kernel_bucket (U:=unit) xN xC (SName "linear_only") (Some true) (Some false) w_empty) = Ok b /\
    w = fst (set_attach (fun _ => true) (b_set b) x None
               (fst (make_kernel_bucket (U:=unit) xN xC (SName "linear_only") (Some true) (Some false) w_empty))) /\
    set_is w (b_set b) (NSOne 2) [0] /\
    gives (poly_degrees [2]) [builtin (KPoly 2 1 1)] /\
    snd (add_parametrized xN xC b true (poly_degrees [2]) w) = Ok tt /\
    set_is (fst (add_parametrized xN xC b true (poly_degrees [2]) w)) (b_set b) (NSOne 2) [0].
Proof.
  eexists. exists (mkBucket 0 true), x12. split; [reflexivity|]. split; [reflexivity|].
  match goal with |- set_is ?w _ _ _ /\ _ => assert (Hw : set_is w 0 (NSOne 2) [0]) end.
  { eexists. eexists. reflexivity. }
  split; [exact Hw|]. assert (Hg : gives (poly_degrees [2]) [builtin (KPoly 2 1 1)]).
  { split; [discriminate|reflexivity]. }
  split; [exact Hg|].
  destruct (pf_C49_attached xN xC _ (mkBucket 0 true) (NSOne 2) [0] _ _ Hw ltac:(discriminate) Hg) as (A1 & A2 & _).
  split; [exact A1|]. destruct Hw as (b & y & Hw). exists b, y. rewrite A2. exact Hw.
Qed.

(*BEGIN PROP*)
(** A case for C48 and C49: a bucket made from degrees 2 and 3 and one value for which the kernel cannot
    be constructed, which is skipped; then a Gaussian kernel is added. *)
Example C48_example :
  let p := mkBP (BIter [Ok (builtin (KPoly 2 1 1)); Raise TypeError; Ok (builtin (KPoly 3 1 1))])
                BNone BNone BNone BNone in
  let r := bucket_new (U:=unit) xN xC (Some true) (Some false) p w_empty in
  snd r = Ok (mkBucket 0 true) /\ set_is (fst r) 0 NSNone [0; 1; 2] /\
  w_objs (fst r) = [OKM (km_new (builtin KLinear) true []); OKM (km_new (builtin (KPoly 2 1 1)) true []);
                    OKM (km_new (builtin (KPoly 3 1 1)) true [])] /\
  gives (bp_poly_degree p) [builtin (KPoly 2 1 1); builtin (KPoly 3 1 1)] /\
  let r' := add_parametrized xN xC (mkBucket 0 true) true (rbf_sigmas [2%R]) (fst r) in
  snd r' = Ok tt /\ set_is (fst r') 0 NSNone [0; 1; 2; 3] /\
  nth_error (w_objs (fst r')) 3 = Some (OKM (km_new (builtin (KGaussian (Fin 2))) true [])).
Proof.
  cbv zeta. split; [reflexivity|]. split; [eexists; eexists; reflexivity|]. split; [reflexivity|].
  split; [split; [discriminate|reflexivity]|]. split; [reflexivity|].
  split; [eexists; eexists; reflexivity|reflexivity].
Qed.
(*END PROP*)
