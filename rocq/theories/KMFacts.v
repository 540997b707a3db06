(** Invariants of an attached KernelMatrix, under a kernel that may raise at any call. *)
From Coq Require Import String List Arith ZArith Bool Lia.
Import ListNotations.
From Verif Require Import Prelude MatModel MatFacts UtilsModel IndexModel KMModel SpecKM MFacts.

Lemma pair_eqb_eq : forall p q, pair_eqb p q = true <-> p = q.
Proof.
  intros [a b] [c e]. unfold pair_eqb; simpl. rewrite andb_true_iff, !Nat.eqb_eq.
  split; [intros [-> ->]; reflexivity|intros H; inversion H; auto].
Qed.

Lemma memo_find_some : forall {V} (l : list ((nat * nat) * V)) p v,
  memo_find l p = Some v -> In (p, v) l.
Proof.
  intros V l p v. induction l as [|[q w] l IH]; simpl; [discriminate|].
  destruct (pair_eqb p q) eqn:Epq.
  - apply pair_eqb_eq in Epq. subst q. intros H; inversion H; subst. left; reflexivity.
  - intros H. right. apply IH, H.
Qed.

Lemma memo_find_none : forall {V} (l : list ((nat * nat) * V)) p,
  memo_find l p = None -> ~ In p (map fst l).
Proof.
  intros V l p. induction l as [|[q w] l IH]; simpl; [intros _ []|].
  destruct (pair_eqb p q) eqn:Epq; [discriminate|].
  intros H [Hq|Hin].
  - subst q. rewrite (proj2 (pair_eqb_eq p p) eq_refl) in Epq. discriminate.
  - exact (IH H Hin).
Qed.

Lemma holds_attr_or : forall {E V U A} (f : km E V U -> option A) s a (Q : km E V U -> res A -> Prop),
  f s = Some a -> Q s (Ok a) -> holds (attr_or f) s Q.
Proof. intros E V U A f s a Q H HQ. unfold holds, attr_or, bind, get, ret. rewrite H. exact HQ. Qed.

Section Attached.
  Context {E V U : Type}.
  Variable N : numops V.
  Variable K : kernel E V.
  Variable k : list E -> list E -> V.
  Variable nrm : bool.
  Variables (X Y : ndarray E) (two : bool) (n m d : nat).
  Variable tag : nat.
  Variable base : list (call E).
  Hypothesis Hret : returns_only K k X (Some Y) n m d.
  Hypothesis HX : nd_shape X = [n; d].
  Hypothesis HY : nd_shape Y = [m; d].
  Hypothesis Hone : two = false -> Y = X /\ m = n.

  Notation KM := (km E V U).

  Definition norm (p : nat * nat) : nat * nat :=
    if two then p else (Nat.min (fst p) (snd p), Nat.max (fst p) (snd p)).

  Definition truev (i j : nat) : V :=
    let p := norm (i, j) in k (row_of d X (fst p)) (row_of d Y (snd p)).

  Definition keys (s : KM) : list (nat * nat) := map fst (k_memo s).

  (** Everything element evaluation leaves alone. *)
  Definition core (s : KM) :=
    (k_kernel s, k_keep_normed s, k_num_samples s, k_sample s, k_sample_two s,
     (k_two s, k_shape s, k_normed s, k_frob s, k_centered s),
     (k_populated s, k_lower s, k_is_centered s, k_is_normed s, k_attr s, g_tag s)).

  Record fixed (s : KM) : Prop := mkFixed {
    fx_kernel : k_kernel s = K;
    fx_keep : k_keep_normed s = nrm;
    fx_sample : k_sample s = Some X;
    fx_sample2 : k_sample_two s = Some Y;
    fx_two : k_two s = Some two;
    fx_shape : k_shape s = Some (n, m);
    fx_ns : k_num_samples s = (if two then NSTwo n m else NSOne n);
    fx_tag : g_tag s = tag
  }.

  Record memo_ok (s : KM) : Prop := mkMemoOk {
    mo_sound : forall p v, In (p, v) (k_memo s) ->
               fst p < n /\ snd p < m /\ norm p = p /\ v = truev (fst p) (snd p);
    mo_nodup : NoDup (keys s);
    mo_evals : k_evals s = length (k_memo s)
  }.

  Definition call_ok (c : call E) : Prop :=
    c_tag c = tag ->
    fst (c_ix c) < n /\ snd (c_ix c) < m /\ norm (c_ix c) = c_ix c /\
    c_x c = row_of d X (fst (c_ix c)) /\ c_y c = row_of d Y (snd (c_ix c)).

  Definition ghost_ok (s : KM) : Prop :=
    exists new, g_calls s = new ++ base /\
                successful K tag (length base) new = keys s /\
                Forall call_ok new.

  Record inv (s : KM) : Prop := mkInv {
    iv_fixed : fixed s;
    iv_memo : memo_ok s;
    iv_ghost : ghost_ok s
  }.

  (** [ext P s s']: between [s] and [s'] only own entries satisfying [P], not yet known
      in [s], were asked of the kernel. *)
  Definition ext (P : nat * nat -> Prop) (s s' : KM) : Prop :=
    incl (keys s) (keys s') /\
    exists added, g_calls s' = added ++ g_calls s /\
      forall c, In c added -> c_tag c = tag /\ P (c_ix c) /\ ~ In (c_ix c) (keys s).

  Lemma ext_refl : forall P s, ext P s s.
  Proof.
    intros P s. split; [apply incl_refl|]. exists []. split; [reflexivity|]. intros c [].
  Qed.

  Lemma ext_trans : forall P s1 s2 s3, ext P s1 s2 -> ext P s2 s3 -> ext P s1 s3.
  Proof.
    intros P s1 s2 s3 [I1 (a1 & E1 & H1)] [I2 (a2 & E2 & H2)]. split.
    - eapply incl_tran; eassumption.
    - exists (a2 ++ a1). split.
      + rewrite E2, E1, app_assoc. reflexivity.
      + intros c Hc. apply in_app_or in Hc. destruct Hc as [Hc|Hc].
        * destruct (H2 c Hc) as (Ht & HP & Hn). repeat split; auto.
        * apply H1, Hc.
  Qed.

  Lemma ext_weaken : forall (P Q : nat * nat -> Prop) s s',
    (forall p, P p -> Q p) -> ext P s s' -> ext Q s s'.
  Proof.
    intros P Q s s' HPQ [I (a & Ea & Ha)]. split; [exact I|].
    exists a. split; [exact Ea|]. intros c Hc. destruct (Ha c Hc) as (H1 & H2 & H3). auto.
  Qed.

  Lemma ext_same_memo : forall P s1 s2 s1' s2',
    k_memo s1' = k_memo s1 -> g_calls s1' = g_calls s1 ->
    k_memo s2' = k_memo s2 -> g_calls s2' = g_calls s2 ->
    ext P s1 s2 -> ext P s1' s2'.
  Proof.
    intros P s1 s2 s1' s2' Hm1 Hg1 Hm2 Hg2 H. unfold ext, keys in *.
    rewrite Hm1, Hg1, Hm2, Hg2. exact H.
  Qed.

  Lemma norm_idem : forall p, norm (norm p) = norm p.
  Proof.
    intros [a b]. unfold norm. destruct two; simpl; [reflexivity|]. f_equal; lia.
  Qed.

  Lemma norm_range : forall i j, i < n -> j < m ->
    fst (norm (i, j)) < n /\ snd (norm (i, j)) < m.
  Proof.
    intros i j Hi Hj. unfold norm. destruct two eqn:Et; simpl; [auto|].
    destruct (Hone eq_refl) as [_ ->]. lia.
  Qed.

  Lemma truev_norm : forall p, truev (fst (norm p)) (snd (norm p)) = truev (fst p) (snd p).
  Proof.
    intros [a b]. unfold truev. rewrite <- surjective_pairing, norm_idem. reflexivity.
  Qed.

  Lemma nd_row_ok : forall (x : ndarray E) r i, nd_shape x = [r; d] -> i < r ->
    nd_row x i = Ok (row_of d x i).
  Proof.
    intros x r i Hx Hi. unfold nd_row. rewrite Hx.
    destruct (i <? r) eqn:Hlt; [reflexivity|]. apply Nat.ltb_ge in Hlt. lia.
  Qed.

  Definition raised (e : exn) : Prop := exists t u v,
    is_row X (Some Y) n m d u /\ is_row X (Some Y) n m d v /\ kf K t u v = Raise e.

  Lemma eval_kernel_spec : forall s i j, inv s -> i < n -> j < m ->
    holds (eval_kernel i j) s (fun s' r =>
      inv s' /\ core s' = core s /\ k_full s' = k_full s /\
      ext (fun p => p = norm (i, j)) s s' /\
      match r with
      | Ok v => v = truev i j /\ In (norm (i, j)) (keys s')
      | Raise e => raised e
      end).
  Proof.
    intros s i j Hinv Hi Hj.
    set (p := norm (i, j)).
    assert (Hp : fst p < n /\ snd p < m) by (apply norm_range; assumption).
    assert (Hpn : norm p = p) by apply norm_idem.
    assert (Hpv : truev (fst p) (snd p) = truev i j) by (apply (truev_norm (i, j))).
    assert (Heval : eval_kernel i j s =
      match memo_find (k_memo s) p with
      | Some v => (s, Ok v)
      | None =>
          let s1 := log_calls (mkCall (g_tag s) p (row_of d X (fst p))
                                      (row_of d Y (snd p)) :: g_calls s) s in
          match kf K (length (g_calls s)) (row_of d X (fst p)) (row_of d Y (snd p)) with
          | Ok v => (store_memo p v s1, Ok v)
          | Raise e => (s1, Raise e)
          end
      end).
    { unfold eval_kernel.
      assert (Hnorm : (if j <? i
              then tw <- attr_or k_two ;; ret (if negb tw then (j, i) else (i, j))
              else ret (i, j)) s = (s, Ok p)).
      { unfold p, norm, bind, attr_or, get, bind, ret, raise.
        destruct (j <? i) eqn:Hlt.
        - rewrite (fx_two s (iv_fixed s Hinv)). apply Nat.ltb_lt in Hlt.
          destruct two; simpl; [reflexivity|].
          replace (Nat.min i j) with j by lia. replace (Nat.max i j) with i by lia. reflexivity.
        - apply Nat.ltb_ge in Hlt. destruct two; [reflexivity|]. simpl.
          replace (Nat.min i j) with i by lia. replace (Nat.max i j) with j by lia. reflexivity. }
      unfold bind at 1. rewrite Hnorm. clear Hnorm.
      unfold bind at 1, get at 1. cbv beta iota.
      destruct (memo_find (k_memo s) p) as [v|] eqn:Hfind; [reflexivity|].
      rewrite (fx_sample s (iv_fixed s Hinv)).
      unfold bind, attr_or, bind, get, ret, lift, modify.
      rewrite (fx_sample2 s (iv_fixed s Hinv)).
      rewrite (nd_row_ok X n (fst p) HX (proj1 Hp)).
      rewrite (nd_row_ok Y m (snd p) HY (proj2 Hp)).
      rewrite (fx_kernel s (iv_fixed s Hinv)).
      destruct (kf K (length (g_calls s)) (row_of d X (fst p)) (row_of d Y (snd p)));
        reflexivity. }
    unfold holds. rewrite Heval. clear Heval.
    destruct (memo_find (k_memo s) p) as [v|] eqn:Hfind.
    - simpl. apply memo_find_some in Hfind.
      destruct (mo_sound s (iv_memo s Hinv) p v Hfind) as (_ & _ & _ & Hv).
      split; [exact Hinv|]. split; [reflexivity|]. split; [reflexivity|].
      split; [apply ext_refl|]. split.
      + rewrite Hv. exact Hpv.
      + unfold keys. apply in_map_iff. exists (p, v). auto.
    - apply memo_find_none in Hfind. cbv zeta.
      destruct Hinv as [Hfix Hmemo Hghost].
      destruct Hghost as (new & Hnew & Hsucc & Hcalls).
      set (c := mkCall (g_tag s) p (row_of d X (fst p)) (row_of d Y (snd p))).
      assert (Hc : call_ok c).
      { unfold call_ok; simpl. intros _. repeat split; tauto. }
      assert (Hctag : (c_tag c =? tag) = true)
        by (simpl; rewrite (fx_tag s Hfix); apply Nat.eqb_refl).
      assert (Hlen : length (g_calls s) = length base + length new)
        by (rewrite Hnew, app_length; lia).
      assert (Hrx : is_row X (Some Y) n m d (row_of d X (fst p)))
        by (exists (fst p); left; tauto).
      assert (Hry : is_row X (Some Y) n m d (row_of d Y (snd p)))
        by (exists (snd p); right; tauto).
      assert (Hval : forall v, kf K (length (g_calls s)) (row_of d X (fst p))
                                  (row_of d Y (snd p)) = Ok v -> v = truev i j).
      { intros v Hv. destruct (Hret (length (g_calls s)) (row_of d X (fst p))
                                    (row_of d Y (snd p)) Hrx Hry) as [H|[e H]].
        - rewrite H in Hv. inversion Hv as [Hv']. rewrite <- Hpv. unfold truev.
          rewrite <- surjective_pairing, Hpn. reflexivity.
        - rewrite H in Hv. discriminate. }
      destruct (kf K (length (g_calls s)) (row_of d X (fst p)) (row_of d Y (snd p)))
        as [v|e] eqn:Hkf; simpl.
      + specialize (Hval v eq_refl). subst v.
        split; [|split; [reflexivity|split; [reflexivity|split]]].
        * constructor.
          -- destruct Hfix; constructor; assumption.
          -- constructor; simpl.
             ++ intros q w [Hq|Hq].
                ** inversion Hq; subst q w. rewrite Hpv. tauto.
                ** apply (mo_sound s Hmemo), Hq.
             ++ unfold keys; simpl. constructor; [exact Hfind|apply (mo_nodup s Hmemo)].
             ++ rewrite (mo_evals s Hmemo). reflexivity.
          -- exists (c :: new). simpl. split; [rewrite Hnew; reflexivity|]. split.
             ++ change (c_tag c) with (g_tag s). rewrite (fx_tag s Hfix), Nat.eqb_refl.
                rewrite <- Hlen. simpl in Hkf. rewrite Hkf. simpl.
                unfold keys at 1; simpl. rewrite Hsucc. reflexivity.
             ++ constructor; assumption.
        * split.
          -- unfold keys; simpl. intros q Hq. right. exact Hq.
          -- exists [c]. split; [reflexivity|]. intros c' [<-|[]]. simpl.
             rewrite (fx_tag s Hfix). auto.
        * split; [reflexivity|]. left. reflexivity.
      + split; [|split; [reflexivity|split; [reflexivity|split]]].
        * constructor.
          -- destruct Hfix; constructor; assumption.
          -- destruct Hmemo; constructor; assumption.
          -- exists (c :: new). simpl. split; [rewrite Hnew; reflexivity|]. split.
             ++ rewrite <- Hlen, Hkf. rewrite andb_false_r. exact Hsucc.
             ++ constructor; assumption.
        * split.
          -- intros q Hq. exact Hq.
          -- exists [c]. split; [reflexivity|]. intros c' [<-|[]]. simpl.
             rewrite (fx_tag s Hfix). auto.
        * unfold raised. eauto 10.
  Qed.

  (** *** Lists of evaluations *)
  Lemma eval_list_spec : forall (l : list (nat * nat)) s,
    inv s -> (forall p, In p l -> fst p < n /\ snd p < m) ->
    holds (map_each l (fun p => eval_kernel (fst p) (snd p))) s (fun s' r =>
      inv s' /\ core s' = core s /\ k_full s' = k_full s /\
      ext (fun p => exists q, In q l /\ p = norm q) s s' /\
      match r with
      | Ok vs => vs = map (fun p => truev (fst p) (snd p)) l /\
                 forall p, In p l -> In (norm p) (keys s')
      | Raise e => raised e
      end).
  Proof.
    intros l s Hinv Hl.
    set (I := fun (done : list (nat * nat)) (s' : KM) =>
                inv s' /\ core s' = core s /\ k_full s' = k_full s /\
                ext (fun p => exists q, In q l /\ p = norm q) s s' /\
                forall p, In p done -> In (norm p) (keys s')).
    set (R := fun (s' : KM) e =>
                inv s' /\ core s' = core s /\ k_full s' = k_full s /\
                ext (fun p => exists q, In q l /\ p = norm q) s s' /\ raised e).
    eapply holds_conseq.
    - apply (holds_map_each (fun p => eval_kernel (fst p) (snd p)) I
               (fun p => truev (fst p) (snd p)) R l []).
      + split; [exact Hinv|]. split; [reflexivity|]. split; [reflexivity|].
        split; [apply ext_refl|]. intros p [].
      + intros done [i j] s' (Hi' & Hc' & Hf' & He' & Hd') Hin.
        destruct (Hl _ Hin) as [Hi Hj]. simpl in Hi, Hj.
        eapply holds_conseq; [apply (eval_kernel_spec s' i j Hi' Hi Hj)|].
        intros s'' r (Hi'' & Hc'' & Hf'' & He'' & Hr).
        assert (Hex : ext (fun p => exists q, In q l /\ p = norm q) s s'').
        { eapply ext_trans; [exact He'|]. eapply ext_weaken; [|exact He''].
          intros p ->. exists (i, j). auto. }
        destruct r as [v|e].
        * destruct Hr as [-> Hk]. split; [reflexivity|].
          split; [exact Hi''|]. split; [congruence|]. split; [congruence|].
          split; [exact Hex|].
          intros p Hp. apply in_app_or in Hp. destruct Hp as [Hp|[<-|[]]]; [|exact Hk].
          apply (proj1 He''). apply Hd', Hp.
        * split; [exact Hi''|]. split; [congruence|]. split; [congruence|].
          split; [exact Hex|]. exact Hr.
    - intros s' [vs|e] H; simpl in H.
      + destruct H as [-> (H1 & H2 & H3 & H4 & H5)]. auto 10.
      + destruct H as (H1 & H2 & H3 & H4 & H5). auto 10.
  Qed.

  Lemma inv_set_full : forall x s, inv s -> inv (set_full x s).
  Proof.
    intros x s [H1 H2 H3]. constructor.
    - destruct H1; constructor; assumption.
    - destruct H2; constructor; assumption.
    - exact H3.
  Qed.

  (** *** Filling entries of the stored matrix *)
  Definition fill_body (p : nat * nat) : M KM unit :=
    v <- eval_kernel (fst p) (snd p) ;; set_full_entry (fst p) (snd p) v.

  Definition pmem (p : nat * nat) (l : list (nat * nat)) : bool := existsb (pair_eqb p) l.

  Lemma pmem_in : forall p l, pmem p l = true <-> In p l.
  Proof.
    intros p l. unfold pmem. rewrite existsb_exists. split.
    - intros [q [Hq Heq]]. apply pair_eqb_eq in Heq. subst q. exact Hq.
    - intros H. exists p. split; [exact H|]. apply pair_eqb_eq. reflexivity.
  Qed.

  (** The stored matrix after writing the true values at the positions [done]. *)
  Definition filled (f : fmt) (A : mat V) (done : list (nat * nat)) (s : KM) : Prop :=
    exists B, k_full s = Some (mkArr f B) /\ mwf n m B /\
      forall i j, i < n -> j < m ->
        mget (v_nan N) B i j =
        if pmem (i, j) done then truev i j else mget (v_nan N) A i j.

  Lemma set_full_entry_filled : forall f A done s i j,
    filled f A done s -> i < n -> j < m ->
    holds (set_full_entry i j (truev i j)) s (fun s' r =>
      r = Ok tt /\ filled f A (done ++ [(i, j)]) s' /\
      exists x, s' = set_full x s).
  Proof.
    intros f A done s i j (B & Hf & Hwf & Hg) Hi Hj.
    unfold set_full_entry, holds, attr_or, bind, get, ret, modify. rewrite Hf. simpl.
    split; [reflexivity|]. split; [|eexists; reflexivity].
    exists (mset B i j (truev i j)). split; [reflexivity|].
    split; [apply mset_wf; exact Hwf|].
    intros a b Ha Hb. rewrite (mget_mset _ n m) by assumption.
    unfold pmem. rewrite existsb_app. simpl. rewrite orb_false_r.
    unfold pair_eqb at 2; simpl.
    destruct ((a =? i) && (b =? j)) eqn:Eab.
    - rewrite orb_true_r. apply andb_true_iff in Eab. destruct Eab as [E1 E2].
      apply Nat.eqb_eq in E1, E2. subst. reflexivity.
    - rewrite orb_false_r. apply Hg; assumption.
  Qed.

  Lemma fill_list_spec : forall (l : list (nat * nat)) f A s,
    inv s -> (forall p, In p l -> fst p < n /\ snd p < m) -> filled f A [] s ->
    holds (for_each l fill_body) s (fun s' r =>
      inv s' /\ core s' = core s /\
      ext (fun p => exists q, In q l /\ p = norm q) s s' /\
      match r with
      | Ok _ => filled f A l s' /\ forall p, In p l -> In (norm p) (keys s')
      | Raise e => raised e /\ exists done, incl done l /\ filled f A done s'
      end).
  Proof.
    intros l f A s Hinv Hl Hfill.
    set (I := fun (done : list (nat * nat)) (s' : KM) =>
                inv s' /\ core s' = core s /\
                ext (fun p => exists q, In q l /\ p = norm q) s s' /\
                incl done l /\ filled f A done s' /\
                forall p, In p done -> In (norm p) (keys s')).
    set (R := fun (s' : KM) e =>
                inv s' /\ core s' = core s /\
                ext (fun p => exists q, In q l /\ p = norm q) s s' /\ raised e /\
                exists done, incl done l /\ filled f A done s').
    eapply holds_conseq.
    - apply (holds_for_each fill_body I R l []).
      + unfold I. split; [exact Hinv|]. split; [reflexivity|].
        split; [apply ext_refl|]. split; [intros p []|]. split; [exact Hfill|intros p []].
      + intros done [i j] s' (Hi' & Hc' & He' & Hincl & Hf' & Hd') Hin.
        destruct (Hl _ Hin) as [Hi Hj]. simpl in Hi, Hj.
        unfold fill_body. apply holds_bind. simpl fst. simpl snd.
        eapply holds_conseq; [apply (eval_kernel_spec s' i j Hi' Hi Hj)|].
        intros s'' r (Hi'' & Hc'' & Hf'' & He'' & Hr).
        assert (Hex : ext (fun p => exists q, In q l /\ p = norm q) s s'').
        { eapply ext_trans; [exact He'|]. eapply ext_weaken; [|exact He''].
          intros p ->. exists (i, j). auto. }
        assert (Hfill'' : filled f A done s'').
        { destruct Hf' as (B & HB & Hrest). exists B. split; [congruence|exact Hrest]. }
        destruct r as [v|e].
        * destruct Hr as [-> Hk].
          eapply holds_conseq; [apply (set_full_entry_filled f A done s'' i j Hfill'' Hi Hj)|].
          intros s3 r3 (-> & Hf3 & x & ->).
          split; [apply inv_set_full; exact Hi''|].
          split; [rewrite <- Hc', <- Hc''; reflexivity|].
          split; [eapply ext_same_memo; [| | | |exact Hex]; reflexivity|].
          split; [|split; [exact Hf3|]].
          -- intros p Hp. apply in_app_or in Hp. destruct Hp as [Hp|[<-|[]]]; auto.
          -- intros p Hp. change (keys (set_full x s'')) with (keys s'').
             apply in_app_or in Hp. destruct Hp as [Hp|[<-|[]]]; [|exact Hk].
             apply (proj1 He''). apply Hd', Hp.
        * split; [exact Hi''|]. split; [congruence|]. split; [exact Hex|].
          split; [exact Hr|]. exists done. auto.
    - intros s' [vs|e] H; simpl in H.
      + destruct H as (H1 & H2 & H3 & H4 & H5 & H6). auto 10.
      + exact H.
  Qed.

  (** *** The stored full matrix *)

  (** Everything computing the full matrix leaves alone. *)
  Definition core2 (s : KM) :=
    (k_kernel s, k_keep_normed s, k_num_samples s, k_sample s, k_sample_two s,
     (k_two s, k_shape s, k_normed s, k_frob s, k_centered s),
     (k_is_centered s, k_is_normed s, k_attr s, g_tag s)).

  Lemma core_core2 : forall s s', core s = core s' -> core2 s = core2 s'.
  Proof. intros s s' H. unfold core in H. unfold core2. congruence. Qed.

  Definition full_ok (s : KM) : Prop :=
    match k_full s with
    | None => k_populated s = false /\ k_lower s = false
    | Some a =>
        mwf n m (amat a) /\
        (forall i j, i < n -> j < m ->
           let v := mget (v_nan N) (amat a) i j in
           v = truev i j \/ v = v_nan N \/ (v = v_zero N /\ afmt a <> Dense)) /\
        (k_populated s = true -> forall i j, i < n -> j < m ->
           i <= j \/ k_lower s = true ->
           mget (v_nan N) (amat a) i j = truev i j /\ In (norm (i, j)) (keys s)) /\
        (k_lower s = true -> two = false -> forall i j, i < n -> j < m ->
           mget (v_nan N) (amat a) i j = mget (v_nan N) (amat a) j i)
    end.

  Lemma truev_sym : two = false -> forall i j, truev i j = truev j i.
  Proof.
    intros Ht i j. unfold truev, norm. rewrite Ht. cbn [fst snd].
    rewrite (Nat.min_comm i j), (Nat.max_comm i j). reflexivity.
  Qed.

  Lemma norm_sym : two = false -> forall i j, norm (i, j) = norm (j, i).
  Proof.
    intros Ht i j. unfold norm. rewrite Ht. cbn [fst snd].
    rewrite (Nat.min_comm i j), (Nat.max_comm i j). reflexivity.
  Qed.

  (** Upper-triangular positions, in the order of the double loop. *)
  Definition triu_indices : list (nat * nat) :=
    flat_map (fun i => map (pair i) (seq i (m - i))) (seq 0 n).

  Lemma in_triu : forall i j, In (i, j) triu_indices <-> i < n /\ i <= j /\ j < m.
  Proof.
    intros i j. unfold triu_indices. rewrite in_flat_map. split.
    - intros (a & Ha & Hin). apply in_map_iff in Hin. destruct Hin as (b & Hb & Hin).
      inversion Hb; subst. apply in_seq in Ha, Hin. lia.
    - intros (H1 & H2 & H3). exists i. split; [apply in_seq; lia|].
      apply in_map_iff. exists j. split; [reflexivity|]. apply in_seq. lia.
  Qed.

  Lemma in_tril : forall i j, In (i, j) (tril_indices n m) <-> i < n /\ j < i /\ j < m.
  Proof.
    intros i j. unfold tril_indices. rewrite in_flat_map. split.
    - intros (a & Ha & Hin). apply in_map_iff in Hin. destruct Hin as (b & Hb & Hin).
      inversion Hb; subst. apply in_seq in Ha, Hin. lia.
    - intros (H1 & H2 & H3). exists i. split; [apply in_seq; lia|].
      apply in_map_iff. exists j. split; [reflexivity|]. apply in_seq. lia.
  Qed.

  Lemma inv_set_populated : forall b s, inv s -> inv (set_populated b s).
  Proof.
    intros x s [H1 H2 H3]. constructor; [destruct H1; constructor; assumption| |exact H3].
    destruct H2; constructor; assumption.
  Qed.
  Lemma inv_set_lower : forall b s, inv s -> inv (set_lower b s).
  Proof.
    intros x s [H1 H2 H3]. constructor; [destruct H1; constructor; assumption| |exact H3].
    destruct H2; constructor; assumption.
  Qed.

  (** The fill value of a newly allocated matrix. *)
  Definition init_fmt (dense : bool) : fmt := if dense then Dense else Lil.
  Definition init_val (dense : bool) : V := if dense then v_nan N else v_zero N.

  Definition anything (p : nat * nat) : Prop := True.

  (** Shape of the stored matrix for a never-raising kernel. *)
  Definition tot_ok (s : KM) : Prop :=
    match k_full s with
    | None => True
    | Some a =>
        k_populated s = true /\ afmt a <> NpMatrix /\
        (k_lower s = true \/
         (afmt a = Lil /\ nrm = false /\
          forall i j, i < n -> j < m -> j < i ->
            mget (v_nan N) (amat a) i j = v_zero N))
    end.

  (** Upper part. *)
  Lemma populate_upper_spec : forall dense s, inv s -> full_ok s ->
    holds (populate_upper N dense) s (fun s' r =>
      inv s' /\ full_ok s' /\ core2 s' = core2 s /\ k_lower s' = k_lower s /\
      ext anything s s' /\ k_full s' <> None /\
      match r with
      | Ok _ =>
          match k_full s with
          | Some a => s' = s
          | None =>
              k_populated s' = true /\
              exists B, k_full s' = Some (mkArr (init_fmt dense) B) /\
                (forall i j, i < n -> j < m -> j < i ->
                   mget (v_nan N) B i j = init_val dense)
          end
      | Raise e => e = RuntimeError /\ k_full s = None /\ k_populated s' = false /\
                   exists e', raised e'
      end).
  Proof.
    intros dense s Hinv Hfull. unfold populate_upper.
    apply holds_bind, holds_get.
    assert (Hno : k_full s = None -> k_populated s = false /\ k_lower s = false).
    { intros H. unfold full_ok in Hfull. rewrite H in Hfull. exact Hfull. }
    destruct (k_full s) as [a|] eqn:Hf.
    - simpl. rewrite andb_false_r. apply holds_ret. cbn.
      split; [exact Hinv|]. split; [exact Hfull|]. split; [reflexivity|].
      split; [reflexivity|]. split; [apply ext_refl|]. split; [congruence|reflexivity].
    - destruct (Hno eq_refl) as [Hp Hl]. rewrite Hp. simpl.
      apply holds_bind. eapply holds_attr_or; [apply (fx_shape s (iv_fixed s Hinv))|].
      cbn [fst snd].
      set (a0 := if dense then mkArr Dense (mfull n m (v_nan N))
                 else mkArr Lil (mfull n m (v_zero N))).
      apply holds_bind, holds_modify.
      apply holds_bind, holds_try.
      set (s0 := set_full (Some a0) s).
      unfold holds.
      rewrite (for_each_flat_map (fun i => seq i (m - i))
                 (fun i j => v <- eval_kernel i j ;; set_full_entry i j v)
                 pair fill_body (seq 0 n) s0) by reflexivity.
      fold triu_indices.
      assert (Hs0 : inv s0) by (apply inv_set_full; exact Hinv).
      assert (Hfill0 : filled (init_fmt dense) (mfull n m (init_val dense)) [] s0).
      { exists (mfull n m (init_val dense)). split.
        - unfold s0, a0, init_fmt, init_val. destruct dense; reflexivity.
        - split; [apply tabulate_wf|]. intros i j _ _. reflexivity. }
      assert (Hrange : forall p, In p triu_indices -> fst p < n /\ snd p < m).
      { intros [i j] Hij. apply in_triu in Hij. simpl. lia. }
      assert (H := fill_list_spec triu_indices _ _ s0 Hs0 Hrange Hfill0).
      unfold holds in H. revert H.
      destruct (for_each triu_indices fill_body s0) as [s1 [u|e]]; cbn [fst snd].
      + intros (Hi1 & Hc1 & He1 & (B & HB & Hwf & Hget) & Hk).
        apply (holds_modify (set_populated true) s1).
        assert (HgetU : forall i j, i < n -> j < m -> i <= j ->
                  mget (v_nan N) B i j = truev i j /\ In (norm (i, j)) (keys s1)).
        { intros i j Hi Hj Hij. assert (Hin : In (i, j) triu_indices) by (apply in_triu; lia).
          rewrite Hget by assumption. rewrite (proj2 (pmem_in _ _) Hin).
          split; [reflexivity|apply Hk, Hin]. }
        assert (HgetL : forall i j, i < n -> j < m -> j < i ->
                  mget (v_nan N) B i j = init_val dense).
        { intros i j Hi Hj Hij. rewrite Hget by assumption.
          destruct (pmem (i, j) triu_indices) eqn:Hm.
          - apply pmem_in, in_triu in Hm. lia.
          - unfold mfull. rewrite mget_tabulate by assumption. reflexivity. }
        assert (Hcore : core2 s1 = core2 s) by (apply core_core2 in Hc1; exact Hc1).
        assert (Hlow : k_lower s1 = k_lower s) by (unfold core in Hc1; cbn in Hc1; congruence).
        split; [apply inv_set_populated; exact Hi1|].
        split; [|split; [exact Hcore|split; [exact Hlow|split; [|split]]]].
        * unfold full_ok. cbn [k_full set_populated]. rewrite HB. cbn [amat afmt].
          split; [exact Hwf|]. split; [|split].
          -- intros i j Hi Hj. cbv zeta. destruct (Nat.le_gt_cases i j) as [Hij|Hij].
             ++ left. apply HgetU; assumption.
             ++ rewrite HgetL by assumption. unfold init_val, init_fmt.
                destruct dense; [right; left; reflexivity|].
                right; right. split; [reflexivity|discriminate].
          -- intros _ i j Hi Hj [Hij|Hlt].
             ++ apply HgetU; assumption.
             ++ cbn in Hlt. congruence.
          -- cbn. intros Hlt. congruence.
        * eapply ext_weaken; [|eapply ext_same_memo; [| | | |exact He1]; reflexivity].
          intros; exact I.
        * cbn. rewrite HB. discriminate.
        * cbn. split; [reflexivity|]. exists B. split; [exact HB|exact HgetL].
      + intros (Hi1 & Hc1 & He1 & Hraise & done & Hincl & (B & HB & Hwf & Hget)).
        assert (Hcore : core2 s1 = core2 s) by (apply core_core2 in Hc1; exact Hc1).
        assert (Hlow : k_lower s1 = k_lower s) by (unfold core in Hc1; cbn in Hc1; congruence).
        assert (Hpop : k_populated s1 = k_populated s)
          by (unfold core in Hc1; cbn in Hc1; congruence).
        split; [exact Hi1|]. split; [|split; [exact Hcore|split; [exact Hlow|split; [|split]]]].
        * unfold full_ok. rewrite HB. cbn [amat afmt]. split; [exact Hwf|].
          split; [|split].
          -- intros i j Hi Hj. cbv zeta. rewrite Hget by assumption.
             destruct (pmem (i, j) done); [left; reflexivity|].
             unfold mfull. rewrite mget_tabulate by assumption. unfold init_val, init_fmt.
             destruct dense; [right; left; reflexivity|].
             right; right. split; [reflexivity|discriminate].
          -- congruence.
          -- congruence.
        * eapply ext_weaken; [|eapply ext_same_memo; [| | | |exact He1]; reflexivity].
          intros; exact I.
        * rewrite HB. discriminate.
        * split; [reflexivity|]. split; [reflexivity|]. split; [congruence|]. eauto.
  Qed.

  (** Mirroring. *)
  Lemma copy_list_spec : forall (l : list (nat * nat)) f (A : mat V) (s : KM),
    mwf n m A ->
    (forall p, In p l -> fst p < n /\ snd p < m) -> k_full s = Some (mkArr f A) ->
    holds (for_each l (fun p => set_full_entry (fst p) (snd p)
                                  (mget (v_nan N) A (snd p) (fst p)))) s (fun s' r =>
      r = Ok tt /\ exists B, s' = set_full (Some (mkArr f B)) s /\ mwf n m B /\
        forall i j, i < n -> j < m ->
          mget (v_nan N) B i j =
          if pmem (i, j) l then mget (v_nan N) A j i else mget (v_nan N) A i j).
  Proof.
    intros l f A s HA Hl Hf.
    set (I := fun (done : list (nat * nat)) (s' : KM) =>
                exists B, s' = set_full (Some (mkArr f B)) s /\ mwf n m B /\
                  forall i j, i < n -> j < m ->
                    mget (v_nan N) B i j =
                    if pmem (i, j) done then mget (v_nan N) A j i
                    else mget (v_nan N) A i j).
    eapply holds_conseq.
    - apply (holds_for_each _ I (fun _ _ => False) l []).
      + exists A. split; [destruct s; cbn in Hf |- *; subst; reflexivity|].
        split; [exact HA|]. reflexivity.
      + intros done [i j] s' (B & -> & Hwf & Hget) Hin.
        destruct (Hl _ Hin) as [Hi Hj]. cbn [fst snd] in *.
        unfold set_full_entry. apply holds_bind.
        eapply holds_attr_or; [reflexivity|]. apply holds_modify.
        exists (mset B i j (mget (v_nan N) A j i)). split; [reflexivity|].
        split; [apply mset_wf; exact Hwf|].
        intros a b Ha Hb. cbn [amat]. rewrite (mget_mset _ n m) by assumption.
        unfold pmem. rewrite existsb_app. cbn [existsb]. rewrite orb_false_r.
        unfold pair_eqb at 2; cbn [fst snd].
        destruct ((a =? i) && (b =? j)) eqn:Eab.
        * rewrite orb_true_r. apply andb_true_iff in Eab. destruct Eab as [E1 E2].
          apply Nat.eqb_eq in E1, E2. subst. reflexivity.
        * rewrite orb_false_r. apply Hget; assumption.
    - intros s' [[]|e] H; [|destruct H]. split; [reflexivity|exact H].
  Qed.

  Lemma populate_lower_spec : forall low s a, inv s -> full_ok s -> k_full s = Some a ->
    holds (populate_lower N low) s (fun s' r =>
      inv s' /\ full_ok s' /\ core2 s' = core2 s /\ k_populated s' = k_populated s /\
      ext anything s s' /\
      (exists B, k_full s' = Some (mkArr (afmt a) B) /\
         forall i j, i < n -> j < m -> i <= j ->
           mget (v_nan N) B i j = mget (v_nan N) (amat a) i j) /\
      match r with
      | Ok _ => (low = true -> k_lower s' = true) /\ (low = false -> s' = s) /\
                (k_lower s = true -> s' = s)
      | Raise e => e = RuntimeError /\ two = true /\ k_lower s' = false /\
                   exists e', raised e'
      end).
  Proof.
    intros low s a Hinv Hfull Hf. unfold populate_lower.
    apply holds_bind, holds_get.
    destruct (low && negb (k_lower s)) eqn:Hcond; simpl when.
    2:{ apply holds_ret. split; [exact Hinv|]. split; [exact Hfull|].
        split; [reflexivity|]. split; [reflexivity|]. split; [apply ext_refl|]. split.
        - exists (amat a). split; [destruct a; exact Hf|]. reflexivity.
        - split; [|split; intros; reflexivity].
          intros ->. simpl in Hcond. destruct (k_lower s); [reflexivity|discriminate]. }
    apply andb_true_iff in Hcond. destruct Hcond as [-> Hnl]. apply negb_true_iff in Hnl.
    assert (Hfull' := Hfull). unfold full_ok in Hfull'. rewrite Hf in Hfull'.
    destruct Hfull' as (Hwf & Hval & Hpop & Hsym).
    apply holds_bind, holds_try.
    apply holds_bind. eapply holds_attr_or; [apply (fx_shape s (iv_fixed s Hinv))|].
    apply holds_bind. eapply holds_attr_or; [apply (fx_two s (iv_fixed s Hinv))|].
    cbn [fst snd].
    assert (Hrange : forall p, In p (tril_indices n m) -> fst p < n /\ snd p < m).
    { intros [i j] Hij. apply in_tril in Hij. simpl. lia. }
    destruct (Bool.bool_dec two true) as [Htwo|Htwo];
      [|apply not_true_is_false in Htwo]; rewrite Htwo; cbn [negb andb].
    - (* two samples: evaluate *)
      assert (Hfill : filled (afmt a) (amat a) [] s).
      { exists (amat a). split; [destruct a; exact Hf|]. split; [exact Hwf|]. reflexivity. }
      eapply holds_conseq; [apply (fill_list_spec (tril_indices n m) _ _ s Hinv Hrange Hfill)|].
      intros s1 [u|e].
      + intros (Hi1 & Hc1 & He1 & (B & HB & HwfB & Hget) & Hk).
        apply holds_modify.
        assert (Hcore : core2 s1 = core2 s) by (apply core_core2 in Hc1; exact Hc1).
        assert (Hpp : k_populated s1 = k_populated s)
          by (unfold core in Hc1; cbn in Hc1; congruence).
        assert (HgL : forall i j, i < n -> j < m -> j < i ->
                  mget (v_nan N) B i j = truev i j /\ In (norm (i, j)) (keys s1)).
        { intros i j Hi Hj Hij. assert (Hin : In (i, j) (tril_indices n m))
            by (apply in_tril; lia).
          rewrite Hget by assumption. rewrite (proj2 (pmem_in _ _) Hin).
          split; [reflexivity|apply Hk, Hin]. }
        assert (HgU : forall i j, i < n -> j < m -> i <= j ->
                  mget (v_nan N) B i j = mget (v_nan N) (amat a) i j).
        { intros i j Hi Hj Hij. rewrite Hget by assumption.
          destruct (pmem (i, j) (tril_indices n m)) eqn:Hm; [|reflexivity].
          apply pmem_in, in_tril in Hm. lia. }
        split; [apply inv_set_lower; exact Hi1|].
        split; [|split; [exact Hcore|split; [exact Hpp|split; [|split]]]].
        * unfold full_ok. cbn [k_full set_lower]. rewrite HB. cbn [amat afmt].
          split; [exact HwfB|]. split; [|split].
          -- intros i j Hi Hj. cbv zeta. destruct (Nat.le_gt_cases i j) as [Hij|Hij].
             ++ rewrite HgU by assumption. apply Hval; assumption.
             ++ left. apply HgL; assumption.
          -- cbn. intros Hp i j Hi Hj _. destruct (Nat.le_gt_cases i j) as [Hij|Hij].
             ++ rewrite HgU by assumption.
                destruct (Hpop ltac:(congruence) i j Hi Hj (or_introl Hij)) as [H1 H2].
                split; [exact H1|]. apply (proj1 He1), H2.
             ++ apply HgL; assumption.
          -- intros _ Ht. congruence.
        * eapply ext_weaken; [|eapply ext_same_memo; [| | | |exact He1]; reflexivity].
          intros; exact I.
        * exists B. split; [exact HB|exact HgU].
        * split; [reflexivity|]. split; [discriminate|]. congruence.
      + intros (Hi1 & Hc1 & He1 & Hraise & done & Hincl & (B & HB & HwfB & Hget)).
        assert (Hcore : core2 s1 = core2 s) by (apply core_core2 in Hc1; exact Hc1).
        assert (Hpp : k_populated s1 = k_populated s)
          by (unfold core in Hc1; cbn in Hc1; congruence).
        assert (Hlow : k_lower s1 = k_lower s) by (unfold core in Hc1; cbn in Hc1; congruence).
        assert (HgU : forall i j, i < n -> j < m -> i <= j ->
                  mget (v_nan N) B i j = mget (v_nan N) (amat a) i j).
        { intros i j Hi Hj Hij. rewrite Hget by assumption.
          destruct (pmem (i, j) done) eqn:Hm; [|reflexivity].
          apply pmem_in in Hm. apply Hincl, in_tril in Hm. lia. }
        split; [exact Hi1|].
        split; [|split; [exact Hcore|split; [exact Hpp|split; [|split]]]].
        * unfold full_ok. rewrite HB. cbn [amat afmt]. split; [exact HwfB|].
          split; [|split].
          -- intros i j Hi Hj. cbv zeta. rewrite Hget by assumption.
             destruct (pmem (i, j) done); [left; reflexivity|]. apply Hval; assumption.
          -- intros Hp i j Hi Hj [Hij|Hlt]; [|congruence].
             rewrite HgU by assumption.
             destruct (Hpop ltac:(congruence) i j Hi Hj (or_introl Hij)) as [H1 H2].
             split; [exact H1|]. apply (proj1 He1), H2.
          -- intros _ Ht. congruence.
        * eapply ext_weaken; [|eapply ext_same_memo; [| | | |exact He1]; reflexivity].
          intros; exact I.
        * exists B. split; [exact HB|exact HgU].
        * split; [reflexivity|]. split; [reflexivity|]. split; [congruence|]. eauto.
    - (* one sample: mirror *)
      destruct (Hone Htwo) as [HYX Hmn].
      replace (n =? m) with true by (symmetry; apply Nat.eqb_eq; lia).
      apply holds_bind. eapply holds_attr_or; [exact Hf|].
      eapply holds_conseq;
        [apply (copy_list_spec (tril_indices n m) (afmt a) (amat a) s Hwf Hrange);
         destruct a; exact Hf|].
      intros s1 r1 (-> & B & -> & HwfB & Hget). apply holds_modify.
      assert (HgL : forall i j, i < n -> j < m -> j < i ->
                mget (v_nan N) B i j = mget (v_nan N) (amat a) j i).
      { intros i j Hi Hj Hij. assert (Hin : In (i, j) (tril_indices n m))
          by (apply in_tril; lia).
        rewrite Hget by assumption. rewrite (proj2 (pmem_in _ _) Hin). reflexivity. }
      assert (HgU : forall i j, i < n -> j < m -> i <= j ->
                mget (v_nan N) B i j = mget (v_nan N) (amat a) i j).
      { intros i j Hi Hj Hij. rewrite Hget by assumption.
        destruct (pmem (i, j) (tril_indices n m)) eqn:Hm; [|reflexivity].
        apply pmem_in, in_tril in Hm. lia. }
      split; [apply inv_set_lower, inv_set_full; exact Hinv|].
      split; [|split; [reflexivity|split; [reflexivity|split; [|split]]]].
      + unfold full_ok. cbn [k_full set_lower set_full amat afmt].
        split; [exact HwfB|]. split; [|split].
        * intros i j Hi Hj. cbv zeta. destruct (Nat.le_gt_cases i j) as [Hij|Hij].
          -- rewrite HgU by assumption. apply Hval; assumption.
          -- rewrite HgL by assumption. rewrite (truev_sym Htwo).
             apply Hval; lia.
        * cbn. intros Hp i j Hi Hj _. destruct (Nat.le_gt_cases i j) as [Hij|Hij].
          -- rewrite HgU by assumption. apply (Hpop Hp i j Hi Hj (or_introl Hij)).
          -- rewrite HgL by assumption. rewrite (truev_sym Htwo), (norm_sym Htwo).
             apply (Hpop Hp j i); lia.
        * intros _ _ i j Hi Hj. destruct (lt_eq_lt_dec i j) as [[Hij|Hij]|Hij].
          -- rewrite HgU by lia. rewrite HgL by lia. reflexivity.
          -- subst j. reflexivity.
          -- rewrite HgL by lia. rewrite HgU by lia. reflexivity.
      + eapply (ext_same_memo _ s s); try reflexivity. apply ext_refl.
      + exists B. split; [reflexivity|exact HgU].
      + split; [reflexivity|]. split; [discriminate|]. congruence.
  Qed.

  Lemma densify_spec : forall dense s a, inv s -> full_ok s -> k_full s = Some a ->
    holds (densify dense) s (fun s' r =>
      r = Ok tt /\ inv s' /\ full_ok s' /\ core2 s' = core2 s /\
      k_populated s' = k_populated s /\ k_lower s' = k_lower s /\
      k_memo s' = k_memo s /\ g_calls s' = g_calls s /\
      k_full s' = Some (mkArr (if is_sparse a && dense then NpMatrix else afmt a) (amat a))).
  Proof.
    intros dense s a Hinv Hfull Hf. unfold densify. apply holds_bind.
    eapply holds_attr_or; [exact Hf|].
    destruct (is_sparse a && dense) eqn:Hsp; cbn [when].
    - apply holds_modify. split; [reflexivity|]. split; [apply inv_set_full; exact Hinv|].
      split; [|repeat (split; [reflexivity|]); reflexivity].
      unfold full_ok in *. rewrite Hf in Hfull. cbn.
      destruct Hfull as (H1 & H2 & H3 & H4). split; [exact H1|].
      split; [|split; [exact H3|exact H4]].
      intros i j Hi Hj. cbv zeta. destruct (H2 i j Hi Hj) as [H|[H|[H _]]]; auto.
      right; right. split; [exact H|discriminate].
    - apply holds_ret. split; [reflexivity|]. split; [exact Hinv|]. split; [exact Hfull|].
      repeat (split; [reflexivity|]). destruct a; exact Hf.
  Qed.

  Lemma warn_spec : forall a (s : KM), k_kernel s = K ->
    holds (warn_if_nan_inf N a) s (fun s' r =>
      s' = s /\
      match r with
      | Ok _ => True
      | Raise e => e = TypeError /\ kfmt K = false /\ contains_nan_inf N a = true
      end).
  Proof.
    intros a s HK. unfold warn_if_nan_inf. apply holds_bind, holds_get. rewrite HK.
    destruct (contains_nan_inf N a) eqn:Hc; cbn [andb].
    - destruct (kfmt K) eqn:Hk; cbn [negb].
      + apply holds_ret. auto.
      + apply holds_raise. auto.
    - apply holds_ret. auto.
  Qed.

  Definition fmt_of (s : KM) (dense : bool) : fmt :=
    match k_full s with Some a => afmt a | None => init_fmt dense end.

  Lemma populate_spec : forall dense low s, inv s -> full_ok s ->
    holds (populate_fully N dense low) s (fun s' r =>
      inv s' /\ full_ok s' /\ core2 s' = core2 s /\ ext anything s s' /\
      match r with
      | Ok a => k_full s' = Some a /\ (low = true -> k_lower s' = true)
      | Raise e => e = TypeError \/ e = RuntimeError
      end /\
      (never_raises K k X (Some Y) n m d -> tot_ok s -> (dense = true -> k_full s = None) ->
       (low = false -> dense = false /\ nrm = false) ->
       tot_ok s' /\ k_populated s' = true /\
       (low = true -> k_lower s' = true) /\ (low = false -> k_lower s' = k_lower s) /\
       exists B, k_full s' = Some (mkArr (fmt_of s dense) B) /\
         match r with
         | Ok _ => True
         | Raise e => e = TypeError /\ kfmt K = false /\
                      contains_nan_inf N (mkArr (fmt_of s dense) B) = true
         end)).
  Proof.
    intros dense low s Hinv Hfull. unfold populate_fully.
    apply holds_bind.
    eapply holds_conseq; [apply (populate_upper_spec dense s Hinv Hfull)|].
    intros s1 r1 (Hi1 & Hf1 & Hc1 & Hl1 & He1 & Hsome & Hr1).
    assert (Hnoraise : never_raises K k X (Some Y) n m d -> forall e', raised e' -> False).
    { intros Hnr e' (t & x & y & Hx & Hy & H). rewrite (Hnr t x y Hx Hy) in H. discriminate. }
    destruct r1 as [u1|e1].
    2:{ split; [exact Hi1|]. split; [exact Hf1|]. split; [exact Hc1|]. split; [exact He1|].
        destruct Hr1 as (-> & Hn & Hp & e' & He'). split; [right; reflexivity|].
        intros Hnr. destruct (Hnoraise Hnr e' He'). }
    destruct (k_full s1) as [a1|] eqn:Hfull1; [|congruence].
    apply holds_bind.
    eapply holds_conseq; [apply (populate_lower_spec low s1 a1 Hi1 Hf1 Hfull1)|].
    intros s2 r2 (Hi2 & Hf2 & Hc2 & Hp2 & He2 & (B & HB & HBu) & Hr2).
    assert (Hext : ext anything s s2) by (eapply ext_trans; eassumption).
    destruct r2 as [u2|e2].
    2:{ split; [exact Hi2|]. split; [exact Hf2|]. split; [congruence|]. split; [exact Hext|].
        destruct Hr2 as (-> & _ & _ & e' & He'). split; [right; reflexivity|].
        intros Hnr. destruct (Hnoraise Hnr e' He'). }
    destruct Hr2 as (Hlow2 & Hsame2 & Hsame2').
    apply holds_bind.
    eapply holds_conseq; [apply (densify_spec dense s2 _ Hi2 Hf2 HB)|].
    intros s3 r3 (-> & Hi3 & Hf3 & Hc3 & Hp3 & Hl3 & Hm3 & Hg3 & Hfull3).
    apply holds_bind. eapply holds_attr_or; [exact Hfull3|].
    apply holds_bind.
    eapply holds_conseq; [apply (warn_spec _ s3 (fx_kernel s3 (iv_fixed s3 Hi3)))|].
    intros s4 r4 (-> & Hr4).
    assert (Hext3 : ext anything s s3)
      by (eapply (ext_same_memo _ s s2); [reflexivity|reflexivity|exact Hm3|exact Hg3|exact Hext]).
    assert (Hcore3 : core2 s3 = core2 s) by congruence.
    (* the total part, common to both outcomes *)
    assert (Htot : never_raises K k X (Some Y) n m d -> tot_ok s -> (dense = true -> k_full s = None) ->
       (low = false -> dense = false /\ nrm = false) ->
       tot_ok s3 /\ k_populated s3 = true /\
       (low = true -> k_lower s3 = true) /\ (low = false -> k_lower s3 = k_lower s) /\
       k_full s3 = Some (mkArr (fmt_of s dense) B)).
    { intros Hnr Htot Hd Hlw.
      assert (Hfmt : (if is_sparse (mkArr (afmt a1) B) && dense then NpMatrix else afmt a1)
                     = fmt_of s dense /\ k_populated s3 = true).
      { unfold fmt_of. destruct (k_full s) as [a|] eqn:Hfs.
        - subst s1. assert (Ha : a1 = a) by congruence. subst a1.
          destruct dense; [specialize (Hd eq_refl); discriminate|].
          rewrite andb_false_r. split; [reflexivity|].
          unfold tot_ok in Htot. rewrite Hfs in Htot. destruct Htot as (Hp & _). congruence.
        - destruct Hr1 as (Hp1 & B1 & HB1 & _).
          inversion HB1; subst a1. cbn.
          split; [|congruence].
          unfold is_sparse, init_fmt. cbn. destruct dense; reflexivity. }
      destruct Hfmt as [Hfmt Hp3'].
      assert (Hlow3 : low = true -> k_lower s3 = true) by (intros H; rewrite Hl3; auto).
      assert (Hlow3' : low = false -> k_lower s3 = k_lower s)
        by (intros H; rewrite Hl3, (Hsame2 H); congruence).
      split; [|split; [exact Hp3'|split; [exact Hlow3|split; [exact Hlow3'|]]]].
      - unfold tot_ok. rewrite Hfull3. cbn [afmt amat].
        split; [exact Hp3'|]. rewrite Hfmt. split.
        + unfold fmt_of. destruct (k_full s) as [a|] eqn:Hfs.
          * unfold tot_ok in Htot. rewrite Hfs in Htot. tauto.
          * unfold init_fmt. destruct dense; discriminate.
        + destruct low; [left; apply Hlow3; reflexivity|].
          destruct (Hlw eq_refl) as [-> Hnrm].
          specialize (Hsame2 eq_refl). subst s2.
          assert (Ha1 : a1 = mkArr (afmt a1) B) by congruence.
          unfold fmt_of. destruct (k_full s) as [a|] eqn:Hfs.
          * subst s1. assert (Ha : a1 = a) by congruence. subst a1.
            unfold tot_ok in Htot. rewrite Hfs in Htot. destruct Htot as (_ & _ & [H|H]).
            -- left. congruence.
            -- right. rewrite Ha1 in H. cbn in H. exact H.
          * destruct Hr1 as (Hp1 & B1 & HB1 & Hz). right.
            split; [reflexivity|]. split; [exact Hnrm|].
            inversion HB1 as [HB1']. rewrite HB1' in Ha1. inversion Ha1. subst B1. exact Hz.
      - rewrite Hfull3. cbn. rewrite Hfmt. reflexivity. }
    destruct r4 as [u4|e4].
    - apply holds_ret.
      split; [exact Hi3|]. split; [exact Hf3|]. split; [exact Hcore3|]. split; [exact Hext3|].
      split; [split; [exact Hfull3|intros H; rewrite Hl3; auto]|].
      intros A1 A2 A3 A4. destruct (Htot A1 A2 A3 A4) as (B1 & B2 & B3 & B4 & B5).
      repeat (split; [assumption|]). exists B. auto.
    - destruct Hr4 as (-> & Hk & Hc).
      split; [exact Hi3|]. split; [exact Hf3|]. split; [exact Hcore3|]. split; [exact Hext3|].
      split; [left; reflexivity|].
      intros A1 A2 A3 A4. destruct (Htot A1 A2 A3 A4) as (B1 & B2 & B3 & B4 & B5).
      repeat (split; [assumption|]). exists B. split; [assumption|].
      split; [reflexivity|]. split; [exact Hk|].
      rewrite B5 in Hfull3. injection Hfull3 as Hx. rewrite Hx. exact Hc.
  Qed.
End Attached.
