(** Lemmas about composite kernels. *)
From Coq Require Import String Reals List Arith ZArith Bool Lia Lra.
Import ListNotations.
From Verif Require Import Prelude MatModel UtilsModel KMModel XReal KernelsModel OpsModel SetModel
  KMXModel SpecSet CompositeModel SpecComposite.
From Verif Require Import MatFacts MFacts KMInv OpsFacts SetFacts SetFacts2 FullFacts.

(** ** Arithmetic of numbers with infinities *)
Lemma xadd_assoc : forall a b c, xadd a (xadd b c) = xadd (xadd a b) c.
Proof. intros [] [] []; cbn; try reflexivity. f_equal. ring. Qed.

Lemma signed_inf_pos : forall r, (0 < r)%R -> signed_inf r = PInf.
Proof. intros r H. unfold signed_inf. destruct (Rlt_dec 0 r); [reflexivity|contradiction]. Qed.
Lemma signed_inf_neg : forall r, (r < 0)%R -> signed_inf r = NInf.
Proof.
  intros r H. unfold signed_inf. destruct (Rlt_dec 0 r); [lra|].
  destruct (Rlt_dec r 0); [reflexivity|contradiction].
Qed.
Lemma signed_inf_0 : signed_inf 0 = NaN.
Proof. unfold signed_inf. destruct (Rlt_dec 0 0); [lra|]. destruct (Rlt_dec 0 0); [lra|reflexivity]. Qed.

Lemma sign_cases : forall r, (0 < r)%R \/ (r < 0)%R \/ r = 0%R.
Proof. intros r. destruct (Rtotal_order 0 r) as [H|[H|H]]; auto. Qed.

Lemma signed_inf_mul : forall r s, xmul (Fin r) (signed_inf s) = signed_inf (r * s).
Proof.
  assert (P : forall r s, (0 < r -> 0 < s -> 0 < r * s)%R) by (intros; apply Rmult_lt_0_compat; assumption).
  intros r s. destruct (sign_cases r) as [Hr|[Hr|Hr]]; destruct (sign_cases s) as [Hs|[Hs|Hs]].
  - rewrite (signed_inf_pos s Hs), (signed_inf_pos (r * s)) by (apply P; assumption).
    apply signed_inf_pos, Hr.
  - assert (H := P r (- s)%R Hr). rewrite (signed_inf_neg s Hs), (signed_inf_neg (r * s)) by lra.
    cbn. apply signed_inf_neg. lra.
  - subst s. rewrite signed_inf_0, Rmult_0_r, signed_inf_0. reflexivity.
  - assert (H := P (- r)%R s). rewrite (signed_inf_pos s Hs), (signed_inf_neg (r * s)) by lra.
    apply signed_inf_neg, Hr.
  - assert (H := P (- r)%R (- s)%R). rewrite (signed_inf_neg s Hs), (signed_inf_pos (r * s)) by lra.
    cbn. apply signed_inf_pos. lra.
  - subst s. rewrite signed_inf_0, Rmult_0_r, signed_inf_0. reflexivity.
  - subst r. rewrite (signed_inf_pos s Hs), Rmult_0_l. reflexivity.
  - subst r. rewrite (signed_inf_neg s Hs), Rmult_0_l. cbn. rewrite Ropp_0. reflexivity.
  - subst s. rewrite signed_inf_0, Rmult_0_r, signed_inf_0. reflexivity.
Qed.

Lemma signed_inf_mulP : forall s, xmul PInf (signed_inf s) = signed_inf s.
Proof.
  intros s. destruct (sign_cases s) as [Hs|[Hs|Hs]].
  - rewrite (signed_inf_pos s Hs). reflexivity.
  - rewrite (signed_inf_neg s Hs). reflexivity.
  - subst s. rewrite signed_inf_0. reflexivity.
Qed.
Lemma signed_inf_mulN : forall s, xmul NInf (signed_inf s) = signed_inf (- s).
Proof.
  intros s. destruct (sign_cases s) as [Hs|[Hs|Hs]].
  - rewrite (signed_inf_pos s Hs), signed_inf_neg by lra. reflexivity.
  - rewrite (signed_inf_neg s Hs), signed_inf_pos by lra. reflexivity.
  - subst s. rewrite Ropp_0, signed_inf_0. reflexivity.
Qed.

Lemma xmul_assoc : forall a b c, xmul a (xmul b c) = xmul (xmul a b) c.
Proof.
  assert (C := xmul_comm).
  intros [r| | |] [s| | |] [t| | |];
    cbn [xmul]; try reflexivity;
    repeat first
      [ rewrite signed_inf_mul | rewrite signed_inf_mulP | rewrite signed_inf_mulN
      | rewrite (C (signed_inf _)) ];
    try reflexivity; try (f_equal; ring).
  all: lazymatch goal with
    | |- context [match signed_inf ?x with Fin v => Fin (?r * v) | _ => _ end] =>
        transitivity (xmul (Fin r) (signed_inf x)); [reflexivity|rewrite signed_inf_mul; f_equal; ring]
    | |- context [match signed_inf ?x with Fin v => signed_inf v | _ => _ end] =>
        transitivity (xmul PInf (signed_inf x)); [reflexivity|apply signed_inf_mulP]
    | |- context [match signed_inf ?x with Fin v => signed_inf (- v) | _ => _ end] =>
        transitivity (xmul NInf (signed_inf x)); [reflexivity|rewrite signed_inf_mulN; f_equal; ring]
    end.
Qed.

Lemma xmul_1_l : forall a, xmul (Fin 1) a = a.
Proof.
  intros [r| | |]; cbn; try reflexivity.
  - f_equal. ring.
  - apply signed_inf_pos. lra.
  - apply signed_inf_neg. lra.
Qed.

(** ** Arrays *)
Lemma nonzero_false : forall v, nonzero v = false -> v = Fin 0.
Proof.
  intros v H. unfold nonzero in H. apply negb_false_iff in H. destruct v; try discriminate.
  cbn in H. unfold Reqb in H. destruct (Req_EM_T r 0); [subst; reflexivity|discriminate].
Qed.

Lemma bget_square : forall n (A : mat xr) i j, mr A = n -> mc A = n -> i < n -> j < n ->
  bget NaN A i j = xget A i j.
Proof.
  intros n A i j Hr Hc Hi Hj. unfold bget, xget. rewrite Hr, Hc.
  destruct (n =? 1) eqn:H; [|reflexivity]. apply Nat.eqb_eq in H.
  replace i with 0 by lia. replace j with 0 by lia. reflexivity.
Qed.

Lemma bdim_same : forall n, bdim n n = Some n.
Proof. intros n. unfold bdim. rewrite Nat.eqb_refl. reflexivity. Qed.

Lemma arr_scale_entry : forall n c K i j, is_square n K -> i < n -> j < n ->
  xget (amat (arr_scale (Fin c) K)) i j = xmul (Fin c) (xget (amat K) i j).
Proof.
  intros n c K i j [Hr Hc] Hi Hj. unfold arr_scale. cbn [amat]. unfold xget at 1.
  rewrite mget_tabulate by lia.
  destruct (is_sparse K && negb (nonzero (xget (amat K) i j))) eqn:H; [|reflexivity].
  apply andb_true_iff in H. destruct H as [_ H]. apply negb_true_iff in H.
  rewrite (nonzero_false _ H). cbn. f_equal. ring.
Qed.

Lemma arr_scale_square : forall n c K, is_square n K -> is_square n (arr_scale c K).
Proof. intros n c K [Hr Hc]. unfold arr_scale. split; cbn; assumption. Qed.

(** The format of a sum: an ndarray if both are, a numpy.matrix otherwise. *)
Lemma arr_add_ok : forall n a K, is_square n a -> is_ndarray a = true -> is_square n K ->
  exists b, arr_add a K = Ok b /\ is_square n b /\ is_ndarray b = true /\
    (afmt a = Dense -> afmt K = Dense -> afmt b = Dense) /\
    forall i j, i < n -> j < n -> xget (amat b) i j = xadd (xget (amat a) i j) (xget (amat K) i j).
Proof.
  intros n a K [Ar Ac] Hnd [Kr Kc]. unfold arr_add. rewrite Ar, Ac, Kr, Kc, !bdim_same.
  rewrite Nat.eqb_refl. cbn [andb negb]. rewrite andb_false_r.
  eexists. split; [reflexivity|]. split; [split; reflexivity|].
  split; [unfold is_ndarray; cbn; destruct (afmt a), (afmt K); reflexivity|].
  split; [intros -> ->; reflexivity|].
  intros i j Hi Hj. cbn [amat]. unfold xget at 1. rewrite mget_tabulate by assumption.
  rewrite !(bget_square n) by assumption. reflexivity.
Qed.

Lemma arr_mul_ok : forall n a K, is_square n a -> afmt a = Dense -> is_square n K -> afmt K = Dense ->
  exists b, arr_mul a K = Ok b /\ is_square n b /\ afmt b = Dense /\
    forall i j, i < n -> j < n -> xget (amat b) i j = xmul (xget (amat a) i j) (xget (amat K) i j).
Proof.
  intros n a K [Ar Ac] Ha [Kr Kc] HK. unfold arr_mul. rewrite Ha, HK, Ar, Ac, Kr, Kc, !bdim_same.
  eexists. split; [reflexivity|]. split; [split; reflexivity|]. split; [reflexivity|].
  intros i j Hi Hj. cbn [amat]. unfold xget at 1. rewrite mget_tabulate by assumption.
  rewrite !(bget_square n) by assumption. reflexivity.
Qed.

(** ** Folding a loop *)
Fixpoint foldr {X} (F : X -> arr xr -> arr xr -> res (arr xr)) (acc : arr xr)
         (l : list (X * arr xr)) : res (arr xr) :=
  match l with
  | [] => Ok acc
  | (x, K) :: l' => rbind (F x acc K) (fun acc' => foldr F acc' l')
  end.

Lemma fold_sum : forall n l acc, is_square n acc -> is_ndarray acc = true ->
  Forall (fun p => is_square n (snd p)) l ->
  exists b, foldr (fun c a K => arr_add a (arr_scale (Fin c) K)) acc l = Ok b /\
    is_square n b /\ is_ndarray b = true /\
    (afmt acc = Dense -> Forall (fun p => afmt (snd p) = Dense) l -> afmt b = Dense) /\
    forall i j, i < n -> j < n -> xget (amat b) i j =
      xadd (xget (amat acc) i j)
           (xsum (map (fun p => xmul (Fin (fst p)) (xget (amat (snd p)) i j)) l)).
Proof.
  intros n l. induction l as [|[c K] l IH]; intros acc Ha Hn Hl.
  - exists acc. split; [reflexivity|]. repeat (split; [assumption|]). split; [auto|].
    intros i j Hi Hj. cbn [map]. unfold xsum. cbn [fold_right].
    rewrite xadd_comm, xadd_0_l. reflexivity.
  - inversion Hl as [|? ? H1 H2]; subst. cbn [snd] in H1.
    destruct (arr_add_ok n acc (arr_scale (Fin c) K) Ha Hn (arr_scale_square n _ K H1))
      as (b & Hb & Sb & Nb & Fb & Eb).
    destruct (IH b Sb Nb H2) as (b' & Hb' & Sb' & Nb' & Fb' & Eb').
    exists b'. split; [cbn [foldr]; rewrite Hb; exact Hb'|]. split; [exact Sb'|]. split; [exact Nb'|].
    split.
    { intros HD HF. inversion HF as [|? ? G1 G2]; subst. cbn [snd] in G1.
      apply Fb'; [apply Fb; assumption|assumption]. }
    intros i j Hi Hj. rewrite Eb' by assumption. rewrite Eb by assumption.
    rewrite (arr_scale_entry n) by assumption.
    cbn [map]. unfold xsum. cbn [fold_right fst snd]. rewrite xadd_assoc. reflexivity.
Qed.

Lemma fold_add : forall n l acc, is_square n acc -> is_ndarray acc = true ->
  Forall (fun p : unit * arr xr => is_square n (snd p)) l ->
  exists b, foldr (fun _ a K => arr_add a K) acc l = Ok b /\
    is_square n b /\ is_ndarray b = true /\
    (afmt acc = Dense -> Forall (fun p => afmt (snd p) = Dense) l -> afmt b = Dense) /\
    forall i j, i < n -> j < n -> xget (amat b) i j =
      xadd (xget (amat acc) i j) (xsum (map (fun p => xget (amat (snd p)) i j) l)).
Proof.
  intros n l. induction l as [|[c K] l IH]; intros acc Ha Hn Hl.
  - exists acc. split; [reflexivity|]. repeat (split; [assumption|]). split; [auto|].
    intros i j Hi Hj. cbn [map]. unfold xsum. cbn [fold_right].
    rewrite xadd_comm, xadd_0_l. reflexivity.
  - inversion Hl as [|? ? H1 H2]; subst. cbn [snd] in H1.
    destruct (arr_add_ok n acc K Ha Hn H1) as (b & Hb & Sb & Nb & Fb & Eb).
    destruct (IH b Sb Nb H2) as (b' & Hb' & Sb' & Nb' & Fb' & Eb').
    exists b'. split; [cbn [foldr]; rewrite Hb; exact Hb'|]. split; [exact Sb'|]. split; [exact Nb'|].
    split.
    { intros HD HF. inversion HF as [|? ? G1 G2]; subst. cbn [snd] in G1.
      apply Fb'; [apply Fb; assumption|assumption]. }
    intros i j Hi Hj. rewrite Eb' by assumption. rewrite Eb by assumption.
    cbn [map]. unfold xsum. cbn [fold_right fst snd]. rewrite xadd_assoc. reflexivity.
Qed.

Lemma fold_mul : forall n l acc, is_square n acc -> afmt acc = Dense ->
  Forall (fun p : unit * arr xr => is_square n (snd p) /\ afmt (snd p) = Dense) l ->
  exists b, foldr (fun _ a K => arr_mul a K) acc l = Ok b /\
    is_square n b /\ afmt b = Dense /\
    forall i j, i < n -> j < n -> xget (amat b) i j =
      xmul (xget (amat acc) i j) (fold_right xmul (Fin 1) (map (fun p => xget (amat (snd p)) i j) l)).
Proof.
  intros n l. induction l as [|[c K] l IH]; intros acc Ha Hn Hl.
  - exists acc. split; [reflexivity|]. repeat (split; [assumption|]).
    intros i j Hi Hj. cbn [map fold_right]. rewrite xmul_comm, xmul_1_l. reflexivity.
  - inversion Hl as [|? ? [H1 H1'] H2]; subst. cbn [snd] in H1, H1'.
    destruct (arr_mul_ok n acc K Ha Hn H1 H1') as (b & Hb & Sb & Nb & Eb).
    destruct (IH b Sb Nb H2) as (b' & Hb' & Sb' & Nb' & Eb').
    exists b'. split; [cbn [foldr]; rewrite Hb; exact Hb'|]. split; [exact Sb'|]. split; [exact Nb'|].
    intros i j Hi Hj. rewrite Eb' by assumption. rewrite Eb by assumption.
    cbn [map fold_right fst snd]. rewrite xmul_assoc. reflexivity.
Qed.

Section Facts.
  Context {E U : Type}.
  Variable C : cmpops xr.
  Variable numeric : list E -> bool.
  Notation World := (world E xr U).

  (** ** Reading [full] disturbs no other reading of [full] *)
  Definition same_fulls (w w' : World) : Prop :=
    forall l K, snd (obj_full xN l w) = Ok K -> snd (obj_full xN l w') = Ok K.

  Lemma obj_full_eq : forall l (w : World), obj_full xN l w =
    match nth_error (w_objs w) l with
    | None => (w, Raise NameError)
    | Some (OPre A) => (w, Ok (precomputed_full A))
    | Some (OKM s) => (set_objs (list_upd (w_objs w) l (OKM (fst (full xN s)))) w, snd (full xN s))
    end.
  Proof.
    intros l w. unfold obj_full, bind, get_obj, on_km, ret.
    destruct (nth_error (w_objs w) l) as [[s|A]|] eqn:H; try reflexivity.
    rewrite H. destruct (full xN s) as [s' r]. reflexivity.
  Qed.

  Lemma obj_full_sets : forall l (w : World), w_sets (fst (obj_full xN l w)) = w_sets w.
  Proof.
    intros l w. rewrite obj_full_eq. destruct (nth_error (w_objs w) l) as [[s|A]|]; reflexivity.
  Qed.

  Lemma obj_full_keeps : forall l (w : World) K, snd (obj_full xN l w) = Ok K ->
    same_fulls w (fst (obj_full xN l w)).
  Proof.
    intros l w K H l' K' H'. rewrite (obj_full_eq l w) in H |- *.
    destruct (nth_error (w_objs w) l) as [[s|A]|] eqn:Hl; [|exact H'|discriminate].
    cbn [fst snd] in *. rewrite obj_full_eq in H' |- *. cbn [set_objs w_objs].
    destruct (Nat.eq_dec l' l) as [->|Hne].
    - rewrite Hl in H'. cbn [snd] in H'.
      rewrite (nth_error_upd_same _ _ _ _ Hl). cbn [snd].
      destruct (full xN s) as [s' r] eqn:Hf. cbn [fst snd] in *. subst r.
      rewrite (full_idem xN s s' K Hf). exact H'.
    - rewrite nth_error_upd_other by assumption.
      destruct (nth_error (w_objs w) l') as [[t|A]|]; exact H'.
  Qed.

  Lemma fulls_kept : forall (w w' : World) ms Ks, same_fulls w w' -> fulls w ms Ks -> fulls w' ms Ks.
  Proof. intros w w' ms Ks H F. induction F; constructor; auto. Qed.

  Lemma fulls_length : forall (w : World) ms Ks, fulls w ms Ks -> length ms = length Ks.
  Proof. intros w ms Ks F. induction F; cbn; congruence. Qed.

  (** ** Loops *)
  Lemma combine_step_eq : forall f l (w : World) c acc K acc',
    c_km c = Some acc -> snd (obj_full xN l w) = Ok K -> f acc K = Ok acc' ->
    combine_step f l (w, c) = ((fst (obj_full xN l w), set_km acc' c), Ok tt).
  Proof.
    intros f l w c acc K acc' Hc HK Hf.
    unfold combine_step, get_km, bind, get, ret, raise, on_world. cbn [fst snd].
    rewrite Hc. cbn [fst snd]. destruct (obj_full xN l w) as [w' r]. cbn [snd fst] in *. subst r.
    unfold put_km, bind, lift, modify. cbn beta iota. rewrite Hf. reflexivity.
  Qed.

  Lemma loop_ok : forall {X} (F : X -> arr xr -> arr xr -> res (arr xr)) xs ms Ks (w : World) c acc acc',
    fulls w ms Ks -> c_km c = Some acc -> foldr F acc (combine xs Ks) = Ok acc' ->
    exists w', for_each (combine xs ms) (fun p => combine_step (F (fst p)) (snd p)) (w, c)
               = ((w', set_km acc' c), Ok tt) /\ w_sets w' = w_sets w /\ same_fulls w w'.
  Proof.
    intros X F xs. induction xs as [|x xs IH]; intros ms Ks w c acc acc' HF Hc Hacc.
    - cbn in Hacc. inversion Hacc; subst. exists w. cbn. split; [|split; [reflexivity|intros ? ?; auto]].
      unfold ret, set_km. destruct c; cbn in *; subst; reflexivity.
    - destruct HF as [|l K ms Ks HK HF].
      + cbn in Hacc. inversion Hacc; subst. exists w. cbn. split; [|split; [reflexivity|intros ? ?; auto]].
        unfold ret, set_km. destruct c; cbn in *; subst; reflexivity.
      + cbn [combine foldr] in Hacc. destruct (F x acc K) as [acc1|e] eqn:HFx; [|discriminate].
        cbn [rbind] in Hacc.
        destruct (IH ms Ks (fst (obj_full xN l w)) (set_km acc1 c) acc1 acc') as (w' & H1 & H2 & H3).
        * eapply fulls_kept; [eapply obj_full_keeps; exact HK|exact HF].
        * reflexivity.
        * exact Hacc.
        * exists w'. split; [|split].
          -- cbn [combine for_each fst snd]. unfold bind.
             rewrite (combine_step_eq (F x) l w c acc K acc1 Hc HK HFx). exact H1.
          -- rewrite H2. apply obj_full_sets.
          -- intros l' K' H'. apply H3, (obj_full_keeps _ _ _ HK), H'.
  Qed.

  Lemma loop1_ok : forall (f : arr xr -> arr xr -> res (arr xr)) ms Ks (w : World) c acc acc',
    fulls w ms Ks -> c_km c = Some acc ->
    foldr (fun (_ : unit) a K => f a K) acc (map (fun K => (tt, K)) Ks) = Ok acc' ->
    exists w', for_each ms (combine_step f) (w, c)
               = ((w', set_km acc' c), Ok tt) /\ w_sets w' = w_sets w /\ same_fulls w w'.
  Proof.
    intros f ms Ks w c acc acc' HF Hc Hacc.
    destruct (loop_ok (fun (_ : unit) a K => f a K) (repeat tt (length ms)) ms Ks w c acc acc' HF Hc)
      as (w' & H).
    - rewrite <- Hacc. f_equal. rewrite (fulls_length _ _ _ HF). clear.
      induction Ks as [|K Ks IH]; [reflexivity|]. cbn. rewrite IH. reflexivity.
    - exists w'. destruct H as (H & H'). split; [|exact H']. rewrite <- H.
      generalize (w, c). clear. induction ms as [|l ms IH]; intros s; [reflexivity|].
      cbn [length repeat combine for_each fst snd]. unfold bind.
      destruct (combine_step f l s) as [s' [[]|e]]; [apply IH|reflexivity].
  Qed.

  (** ** What never changes in a composite *)
  Lemma fixed_put_km : forall r (s : cstate (E:=E) (U:=U)),
    let c := snd s in let c' := snd (fst (put_km r s)) in
    fst (fst (put_km r s)) = fst s /\
    c_kind c' = c_kind c /\ c_set c' = c_set c /\ c_num c' = c_num c /\ c_fitted c' = c_fitted c.
  Proof. intros [a|e] [w c]; cbn; auto 6. Qed.

  Definition cfixed (c c' : comp) : Prop :=
    c_kind c' = c_kind c /\ c_set c' = c_set c /\ c_num c' = c_num c.
  Lemma cfixed_refl : forall c, cfixed c c.
  Proof. unfold cfixed; auto. Qed.
  Lemma cfixed_trans : forall a b c, cfixed a b -> cfixed b c -> cfixed a c.
  Proof. unfold cfixed; intuition congruence. Qed.

  (** A computation that leaves the identity of the composite, and its fitted flag, alone. *)
  Definition calm {A} (m : M (cstate (E:=E) (U:=U)) A) : Prop :=
    forall s, cfixed (snd s) (snd (fst (m s))) /\ c_fitted (snd (fst (m s))) = c_fitted (snd s).

  Lemma calm_bind : forall {A B} (m : M (cstate (E:=E) (U:=U)) A) (f : A -> M (cstate (E:=E) (U:=U)) B),
    calm m -> (forall a, calm (f a)) -> calm (bind m f).
  Proof.
    intros A B m f Hm Hf s. unfold bind. specialize (Hm s). destruct (m s) as [s' [a|e]]; [|exact Hm].
    cbn [fst] in Hm. destruct Hm as [H1 H2]. destruct (Hf a s') as [H3 H4].
    split; [eapply cfixed_trans; eassumption|congruence].
  Qed.
  Lemma calm_ret : forall {A} (a : A), calm (ret a).
  Proof. intros A a s. split; [apply cfixed_refl|reflexivity]. Qed.
  Lemma calm_raise : forall {A} e, calm (@raise (cstate (E:=E) (U:=U)) A e).
  Proof. intros A a s. split; [apply cfixed_refl|reflexivity]. Qed.
  Lemma calm_lift : forall {A} (r : res A), calm (lift r).
  Proof. intros A r s. split; [apply cfixed_refl|reflexivity]. Qed.
  Lemma calm_get : calm get.
  Proof. intros s. split; [apply cfixed_refl|reflexivity]. Qed.
  Lemma calm_world : forall {A} (m : M World A), calm (on_world m).
  Proof.
    intros A m s. unfold on_world. destruct (m (fst s)). split; [apply cfixed_refl|reflexivity].
  Qed.
  Lemma calm_put : forall r, calm (put_km r).
  Proof. intros [a|e] [w c]; cbn; split; try reflexivity; unfold cfixed; cbn; auto. Qed.
  Lemma calm_getkm : calm get_km.
  Proof.
    unfold get_km. apply calm_bind; [apply calm_get|]. intros s.
    destruct (c_km (snd s)); [apply calm_ret|apply calm_raise].
  Qed.
  Lemma calm_for_each : forall {A} (l : list A) (b : A -> M (cstate (E:=E) (U:=U)) unit),
    (forall a, calm (b a)) -> calm (for_each l b).
  Proof.
    intros A l b H. induction l as [|a l IH]; cbn [for_each]; [apply calm_ret|].
    apply calm_bind; [apply H|intros; exact IH].
  Qed.
  Lemma calm_step : forall f l, calm (combine_step f l).
  Proof.
    intros f l. unfold combine_step. apply calm_bind; [apply calm_getkm|]. intros a.
    apply calm_bind; [apply calm_world|]. intros K. apply calm_put.
  Qed.
  Lemma calm_weighted : forall l, calm (fit_weighted l).
  Proof.
    intros l. unfold fit_weighted. apply calm_bind; [apply calm_get|]. intros s.
    apply calm_bind; [apply calm_put|]. intros _. apply calm_bind; [apply calm_world|]. intros ms.
    apply calm_for_each. intros p. apply calm_step.
  Qed.

  (** [fit] without the last line. *)
  Definition fit_body (kernel_weights : option (ndarray xr)) : M (cstate (E:=E) (U:=U)) unit :=
    s <- get ;;
    ms <- on_world (set_iter (c_set (snd s))) ;;
    match c_kind (snd s) with
    | CSum =>
        wts <- lift (sum_weights (length ms) kernel_weights) ;;
        fit_weighted wts
    | CWeighted wts => fit_weighted wts
    | CProduct =>
        put_km (square (c_num (snd s)) (Fin 1)) ;;;
        for_each ms (combine_step arr_mul)
    | CAverage =>
        put_km (square (c_num (snd s)) (Fin 0)) ;;;
        for_each ms (combine_step arr_add) ;;;
        a <- get_km ;;
        put_km (Ok (arr_div a (length ms)))
    end.

  Lemma calm_body : forall kw, calm (fit_body kw).
  Proof.
    intros kw. unfold fit_body. apply calm_bind; [apply calm_get|]. intros s.
    apply calm_bind; [apply calm_world|]. intros ms. destruct (c_kind (snd s)).
    - apply calm_bind; [apply calm_lift|]. intros; apply calm_weighted.
    - apply calm_bind; [apply calm_put|]. intros _. apply calm_for_each. intros; apply calm_step.
    - apply calm_bind; [apply calm_put|]. intros _.
      apply calm_bind; [apply calm_for_each; intros; apply calm_step|]. intros _.
      apply calm_bind; [apply calm_getkm|]. intros; apply calm_put.
    - apply calm_weighted.
  Qed.

  Lemma bind_bind : forall {St A B D} (m : M St A) (f : A -> M St B) (g : M St D) s,
    bind m (fun a => bind (f a) (fun _ => g)) s = bind (bind m f) (fun _ => g) s.
  Proof. intros. unfold bind. destruct (m s) as [s' [a|e]]; reflexivity. Qed.

  Lemma fit_eq : forall kw (s : cstate (E:=E) (U:=U)), fit kw s =
    match fit_body kw s with
    | (s', Ok _) => ((fst s', set_fitted (snd s')), Ok tt)
    | (s', Raise e) => (s', Raise e)
    end.
  Proof.
    intros kw s. unfold fit, fit_body.
    match goal with |- bind get ?f s = match bind get ?g s with _ => _ end =>
      change (f s s = match g s s with (s', Ok _) => ((fst s', set_fitted (snd s')), Ok tt)
                                     | (s', Raise e) => (s', Raise e) end) end.
    cbv beta. rewrite bind_bind. unfold bind at 1, modify.
    match goal with |- match ?t with _ => _ end = _ => destruct t as [s2 [[]|e]]; reflexivity end.
  Qed.

  Lemma cstep_fixed : forall o (s : cstate (E:=E) (U:=U)),
    cfixed (snd s) (snd (fst (cstep C numeric o s))).
  Proof.
    intros [o|kw|] s.
    - apply (calm_world (wfmap COut (wstep xN C numeric o)) s).
    - cbn [cstep]. unfold bind. rewrite fit_eq. assert (H := calm_body kw s).
      destruct (fit_body kw s) as [s' [[]|e]]; cbn in *; [|apply H].
      destruct H as [H _]. exact H.
    - cbn [cstep]. unfold bind, composite_KM. unfold bind at 1, get. destruct (c_fitted (snd s)).
      + assert (H := calm_getkm s). destruct (get_km s) as [s' [a|e]]; apply H.
      + apply cfixed_refl.
  Qed.

  Lemma crun_fixed : forall ops (s : cstate (E:=E) (U:=U)),
    cfixed (snd s) (snd (crun C numeric ops s)).
  Proof.
    induction ops as [|o ops IH]; intros s; [apply cfixed_refl|]. cbn [crun].
    eapply cfixed_trans; [apply cstep_fixed|apply IH].
  Qed.

  (** Operations other than [fit] leave the composite alone. *)
  Lemma cstep_no_fit : forall o (s : cstate (E:=E) (U:=U)), (forall kw, o <> CFit kw) ->
    snd (fst (cstep C numeric o s)) = snd s.
  Proof.
    intros [o|kw|] s H.
    - cbn [cstep]. unfold on_world. destruct (wfmap _ _ _). reflexivity.
    - exfalso. apply (H kw). reflexivity.
    - cbn [cstep]. unfold bind, composite_KM, get_km. unfold bind, get, ret, raise.
      destruct (c_fitted (snd s)); [|reflexivity]. destruct (c_km (snd s)); reflexivity.
  Qed.
  Lemma crun_no_fit : forall ops (s : cstate (E:=E) (U:=U)), no_fit ops ->
    snd (crun C numeric ops s) = snd s.
  Proof.
    induction ops as [|o ops IH]; intros s H; [reflexivity|]. cbn [crun].
    rewrite IH by (intros kw Hk; apply (H kw); right; exact Hk).
    apply cstep_no_fit. intros kw ->. apply (H kw). left. reflexivity.
  Qed.

  Lemma cget_eq : forall (s : cstate (E:=E) (U:=U)) a, c_fitted (snd s) = true -> c_km (snd s) = Some a ->
    snd (cstep C numeric CGet s) = Ok (CMat a).
  Proof.
    intros s a H1 H2. cbn [cstep]. unfold bind, composite_KM, get_km. unfold bind, get, ret, raise.
    rewrite H1, H2. reflexivity.
  Qed.
  Lemma cget_unfitted : forall (s : cstate (E:=E) (U:=U)), c_fitted (snd s) = false ->
    snd (cstep C numeric CGet s) = Raise ValueError.
  Proof.
    intros s H1. cbn [cstep]. unfold bind, composite_KM. unfold bind, get, raise.
    rewrite H1. reflexivity.
  Qed.

  (** ** The constructor *)
  Lemma comp_new_inv : forall cls k (w : World) c, comp_new cls (Some k) w = Ok c ->
    exists s, nth_error (w_sets w) k = Some s /\ c_set c = k /\ c_num c = s_num s /\
      c_fitted c = false /\ c_km c = None /\ 2 <= length (s_members s) /\ s_num s <> NSNone /\
      match cls with
      | NewSum => c_kind c = CSum
      | NewProduct => c_kind c = CProduct
      | NewAverage => c_kind c = CAverage
      | NewWeighted a => exists l, weights_1D a = Ok l /\ c_kind c = CWeighted l /\
                                   exists rest, nd_shape a = length (s_members s) :: rest
      end.
  Proof.
    intros cls k w c H. unfold comp_new in H.
    destruct (nth_error (w_sets w) k) as [s|] eqn:Hs; [|discriminate]. exists s. split; [reflexivity|].
    destruct (length (s_members s) <? 2) eqn:Hl; [discriminate|]. apply Nat.ltb_ge in Hl.
    destruct (numsamp_eqb (s_num s) NSNone) eqn:Hn; [discriminate|]. apply numsamp_eqb_neq in Hn.
    destruct cls as [| | |a].
    1-3: inversion H; subst; cbn; repeat (split; [reflexivity || assumption|]); reflexivity.
    destruct (nd_shape a) as [|m rest] eqn:Hsh; [discriminate|].
    destruct (length (s_members s) =? m) eqn:Hm; [|discriminate]. apply Nat.eqb_eq in Hm. subst m.
    destruct (weights_1D a) as [l|e] eqn:Hw; [|discriminate]. cbn in H. inversion H; subst. cbn.
    repeat (split; [reflexivity || assumption|]). exists l.
    split; [reflexivity|]. split; [reflexivity|]. exists rest. reflexivity.
  Qed.

  Lemma weights_1D_vector : forall a ws, is_vector a ws -> weights_1D a = Ok (map Fin ws).
  Proof.
    intros a ws (Hd & extra & Hs & He). unfold weights_1D, ensure_ndarray_1D, ensure_ndarray_size,
      squeeze_from, nd_ndim. cbn [nd_shape nd_data]. rewrite Hs. cbn [firstn skipn].
    rewrite (filter_ones extra He). cbn. rewrite Hd. reflexivity.
  Qed.

  (** ** [fit] *)
  Lemma set_iter_eq : forall k (w : World) s, nth_error (w_sets w) k = Some s ->
    set_iter k w = (w, Ok (s_members s)).
  Proof. intros k w s H. unfold set_iter, bind, get_set, ret. rewrite H. reflexivity. Qed.

  Lemma square_matrix : forall n v i j, i < n -> j < n ->
    xget (mfull n n v) i j = v.
  Proof. intros. unfold xget, mfull. apply mget_tabulate; assumption. Qed.

  Lemma on_world_iter : forall k (w : World) (c : comp) s, nth_error (w_sets w) k = Some s ->
    on_world (set_iter k) (w, c) = ((w, c), Ok (s_members s)).
  Proof. intros k w c s H. unfold on_world. cbn [fst snd]. rewrite (set_iter_eq k w s H). reflexivity. Qed.

  Lemma put_km_ok : forall a (w : World) c, put_km (Ok a) (w, c) = ((w, set_km a c), Ok tt).
  Proof. reflexivity. Qed.

  Lemma fit_weighted_ok : forall n ws (w : World) c s Ks,
    nth_error (w_sets w) (c_set c) = Some s -> c_num c = NSOne n ->
    fulls w (s_members s) Ks -> Forall (is_square n) Ks ->
    exists w' a, fit_weighted (map Fin ws) (w, c) = ((w', set_km a c), Ok tt) /\
      is_matrix n (sum_entry ws Ks) a /\ (Forall (fun K => afmt K = Dense) Ks -> afmt a = Dense).
  Proof.
    intros n ws w c s Ks Hs Hn HF HK.
    set (z := mkArr Dense (mfull n n (Fin 0))).
    destruct (fold_sum n (combine ws Ks) z) as (b & Hb & Sb & Nb & Fb & Eb).
    { split; reflexivity. } { reflexivity. }
    { apply Forall_forall. intros [x K] Hin. apply in_combine_r in Hin. cbn.
      rewrite Forall_forall in HK. apply HK, Hin. }
    destruct (loop_ok (fun c a K => arr_add a (arr_scale (Fin c) K)) ws (s_members s) Ks w (set_km z c) z b HF
                eq_refl Hb) as (w' & H1 & H2 & H3).
    exists w', b. split; [|split].
    - unfold fit_weighted. unfold bind at 1, get. cbn [snd]. rewrite Hn. cbn [square].
      unfold bind at 1. fold z. rewrite put_km_ok. unfold bind at 1.
      rewrite (on_world_iter (c_set c) w (set_km z c) s Hs).
      replace (set_km b c) with (set_km b (set_km z c)) by reflexivity. rewrite <- H1.
      clear. generalize (w, set_km z c). generalize (s_members s). induction ws as [|x ws IH]; intros ms st; [reflexivity|].
      destruct ms as [|l ms]; [reflexivity|]. cbn [map combine for_each fst snd]. unfold bind.
      match goal with |- match ?t with _ => _ end = _ => destruct t as [s' [[]|e]] end; [apply IH|reflexivity].
    - split; [exact Sb|]. split; [exact Nb|]. intros i j Hi Hj. rewrite Eb by assumption.
      cbn [z amat]. rewrite square_matrix by assumption. apply xadd_0_l.
    - intros HD. apply Fb; [reflexivity|]. apply Forall_forall. intros [x K] Hin. apply in_combine_r in Hin.
      cbn. rewrite Forall_forall in HD. apply HD, Hin.
  Qed.

  Lemma fit_ok : forall kw (w w' : World) c a, fit_body kw (w, c) = ((w', set_km a c), Ok tt) ->
    fit kw (w, c) = ((w', set_fitted (set_km a c)), Ok tt).
  Proof. intros kw w w' c a H. rewrite fit_eq, H. reflexivity. Qed.
End Facts.
