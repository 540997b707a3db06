(** An object whose samples are written into behaves like an object over a table of
    values. *)
From Coq Require Import String List Arith ZArith Bool Lia.
Import ListNotations.
From Verif Require Import Prelude MatModel MatFacts UtilsModel IndexModel KMModel SpecKM MFacts
  KMFacts KMInv KMHist AliasModel SpecAlias SpecTable.

Section Grow.
  Context {E V U : Type}.
  Variable N : numops V.
  Variable K : kernel E V.
  Variable k : list E -> list E -> V.
  Variables (two : bool) (n m d : nat).
  Notation KM := (km E V U).

  (** Attached to [a] (one sample, then [b] is [a]) or to [a] and [b]. *)
  Definition on (a b : ndarray E) (s : KM) : Prop :=
    nd_shape a = [n; d] /\ nd_shape b = [m; d] /\ (two = false -> b = a /\ m = n) /\
    k_kernel s = K /\ k_sample s = Some a /\ k_sample_two s = Some b /\
    k_two s = Some two /\ k_shape s = Some (n, m).

  (** Pairs under which values are stored, and the value. *)
  Definition canon (i j : nat) : Prop := two = true \/ i <= j.
  Definition kv (a b : ndarray E) (i j : nat) : V := k (row_of d a i) (row_of d b j).

  (** One evaluation at such a pair. *)
  Lemma eval_le : forall a b i j (s : KM), never_raises K k a (Some b) n m d -> on a b s ->
    canon i j -> i < n -> j < m ->
    eval_kernel i j s =
      match memo_find (k_memo s) (i, j) with
      | Some v => (s, Ok v)
      | None => (store_memo (i, j) (kv a b i j)
                   (log_calls (mkCall (g_tag s) (i, j) (row_of d a i) (row_of d b j) :: g_calls s) s),
                 Ok (kv a b i j))
      end.
  Proof.
    intros a b i j s Hnr (Ha & Hb & _ & HK & HS & HS2 & HT & HSh) Hij Hi Hj. unfold eval_kernel.
    unfold bind at 1. replace ((if j <? i then _ else _) s) with (s, Ok (i, j)).
    2:{ destruct (Nat.ltb_spec j i) as [L|_]; [|reflexivity]. unfold attr_or, bind, get, ret. rewrite HT.
        destruct Hij as [->|Hij]; [reflexivity|lia]. }
    unfold bind at 1, get at 1.
    destruct (memo_find (k_memo s) (i, j)) as [v|] eqn:Hm; [reflexivity|].
    rewrite HS. cbn [fst snd]. unfold nd_row at 1. rewrite Ha.
    destruct (Nat.ltb_spec i n) as [_|L]; [|lia].
    unfold bind, lift, attr_or, bind, get, ret. rewrite HS2. unfold nd_row. rewrite Hb.
    destruct (Nat.ltb_spec j m) as [_|L]; [|lia]. unfold modify.
    rewrite HK. change (firstn d (skipn (i * d) (nd_data a))) with (row_of d a i).
    change (firstn d (skipn (j * d) (nd_data b))) with (row_of d b j).
    rewrite (Hnr _ (row_of d a i) (row_of d b j)); [reflexivity|exists i; left; auto|exists j; right; auto].
  Qed.
  Lemma eval_out : forall a b i j (s : KM), on a b s -> canon i j -> n <= i \/ m <= j ->
    eval_kernel i j s =
      match memo_find (k_memo s) (i, j) with
      | Some v => (s, Ok v)
      | None => (s, Raise IndexError)
      end.
  Proof.
    intros a b i j s (Ha & Hb & _ & HK & HS & HS2 & HT & HSh) Hij Hj. unfold eval_kernel.
    unfold bind at 1. replace ((if j <? i then _ else _) s) with (s, Ok (i, j)).
    2:{ destruct (Nat.ltb_spec j i) as [L|_]; [|reflexivity]. unfold attr_or, bind, get, ret. rewrite HT.
        destruct Hij as [->|Hij]; [reflexivity|lia]. }
    unfold bind at 1, get at 1.
    destruct (memo_find (k_memo s) (i, j)) as [v|] eqn:Hm; [reflexivity|].
    rewrite HS. cbn [fst snd]. unfold nd_row at 1. rewrite Ha.
    unfold bind, lift, attr_or, bind, get, ret. rewrite HS2. unfold nd_row. rewrite Hb.
    destruct (Nat.ltb_spec i n) as [L|_]; [|reflexivity].
    destruct (Nat.ltb_spec j m) as [L'|_]; [lia|reflexivity].
  Qed.
  Lemma eval_flip : forall a b i j (s : KM), on a b s -> two = false -> j < i ->
    eval_kernel i j s = eval_kernel j i s.
  Proof.
    intros a b i j s (Ha & Hb & _ & HK & HS & HS2 & HT & HSh) H1 Hij. unfold eval_kernel.
    destruct (Nat.ltb_spec j i) as [_|L]; [|lia]. destruct (Nat.ltb_spec i j) as [L|_]; [lia|].
    unfold bind at 1, attr_or at 1, bind at 1, get at 1. unfold bind at 1. rewrite HT, H1. cbn [negb]. reflexivity.
  Qed.
  Lemma canon_or : forall i j, canon i j \/ two = false /\ j < i.
  Proof.
    intros i j. unfold canon. destruct two; [auto|]. destruct (Nat.le_gt_cases i j); auto.
  Qed.

  Hypothesis Hnr : forall a b, (two = false -> b = a /\ m = n) -> never_raises K k a (Some b) n m d.

  Definition ext (s t : KM) : Prop :=
    forall p v, memo_find (k_memo s) p = Some v -> memo_find (k_memo t) p = Some v.
  (** New values are kernel values of [a] and [b]. *)
  Definition from (a b : ndarray E) (s t : KM) : Prop :=
    forall i j v, canon i j -> memo_find (k_memo t) (i, j) = Some v ->
      memo_find (k_memo s) (i, j) = Some v \/ v = kv a b i j.

  Definition gr {A} (mm : M KM A) : Prop := forall a b s, on a b s ->
    on a b (fst (mm s)) /\ ext s (fst (mm s)) /\ from a b s (fst (mm s)).

  Lemma gr_bind : forall {A B} (mm : M KM A) (f : A -> M KM B),
    gr mm -> (forall a, gr (f a)) -> gr (bind mm f).
  Proof.
    intros A B mm f Hm Hf a b s Hs. unfold bind. specialize (Hm a b s Hs).
    destruct (mm s) as [s1 [c|e]]; cbn [fst snd] in *; [|exact Hm].
    destruct Hm as (O & X & F). destruct (Hf c a b s1 O) as (O' & X' & F').
    split; [exact O'|]. split; [intros p v H; apply X', X, H|].
    intros i j v Hij H. destruct (F' i j v Hij H) as [H'|H']; [|auto]. apply F; assumption.
  Qed.
  Lemma gr_id : forall {A} (mm : M KM A), (forall s, fst (mm s) = s) -> gr mm.
  Proof. intros A mm H a b s Hs. rewrite H. split; [exact Hs|]. split; [intros p v; auto|intros i j v; auto]. Qed.
  Lemma gr_modify : forall f : KM -> KM, (forall s, k_kernel (f s) = k_kernel s /\ k_sample (f s) = k_sample s /\
    k_sample_two (f s) = k_sample_two s /\ k_two (f s) = k_two s /\ k_shape (f s) = k_shape s /\
    k_memo (f s) = k_memo s) -> gr (modify f).
  Proof.
    intros f H a b s (O1 & O2 & O3 & O4 & O5 & O6 & O7 & O8). cbn [modify fst].
    destruct (H s) as (A1 & A2 & A3 & A4 & A5 & A6).
    split; [split; [exact O1|]; split; [exact O2|]; split; [exact O3|]; repeat split; congruence|].
    unfold ext, from. rewrite A6. auto.
  Qed.
  Lemma gr_attr_or : forall {A} (f : KM -> option A), gr (attr_or f).
  Proof. intros A f. apply gr_id. intros s. unfold attr_or, bind, get, ret, raise. destruct (f s); reflexivity. Qed.
  Lemma gr_when : forall c mm, gr mm -> gr (when c mm).
  Proof. intros [] mm H; [exact H|apply gr_id; reflexivity]. Qed.
  Lemma gr_try : forall {A} (mm : M KM A) e, gr mm -> gr (try_except mm e).
  Proof. intros A mm e H a b s Hs. unfold try_except. specialize (H a b s Hs). destruct (mm s) as [s' [c|e']]; exact H. Qed.
  Lemma gr_for_each : forall {A} (l : list A) f, (forall a, gr (f a)) -> gr (for_each l f).
  Proof.
    intros A l f H. induction l as [|a l IH]; cbn [for_each]; [apply gr_id; reflexivity|].
    apply gr_bind; [apply H|intros; exact IH].
  Qed.
  Lemma gr_map_each : forall {A B} (l : list A) (f : A -> M KM B), (forall a, gr (f a)) -> gr (map_each l f).
  Proof.
    intros A B l f H. induction l as [|a l IH]; cbn [map_each]; [apply gr_id; reflexivity|].
    apply gr_bind; [apply H|]. intros c. apply gr_bind; [exact IH|]. intros; apply gr_id; reflexivity.
  Qed.
  Lemma gr_fmap : forall {A B} (g : A -> B) (mm : M KM A), gr mm -> gr (fmap g mm).
  Proof. intros A B g mm H. apply gr_bind; [exact H|]. intros; apply gr_id; reflexivity. Qed.

  Lemma gr_eval : forall i j, gr (eval_kernel i j).
  Proof.
    assert (H : forall i j a b s, canon i j -> on a b s -> on a b (fst (eval_kernel i j s)) /\
              ext s (fst (eval_kernel i j s)) /\ from a b s (fst (eval_kernel i j s))).
    { intros i j a b s Hij Hs. assert (Hs' := Hs). destruct Hs' as (Ha & Hb & Ho & HK & HS & HS2 & HT & HSh).
      destruct (Nat.lt_ge_cases i n) as [Li|Li]; [destruct (Nat.lt_ge_cases j m) as [L|L]|].
      - rewrite (eval_le a b i j s (Hnr a b Ho) Hs Hij Li L).
        destruct (memo_find (k_memo s) (i, j)) as [v|] eqn:Hm; cbn [fst].
        + split; [exact Hs|]. split; [intros p w; auto|intros i' j' w; auto].
        + split; [exact Hs|].
          split.
          * intros p w Hw. cbn. destruct (pair_eqb p (i, j)) eqn:Ep; [|exact Hw].
            apply pair_eqb_eq in Ep. congruence.
          * intros i' j' w Hij' Hw. cbn [store_memo log_calls k_memo memo_find] in Hw.
            destruct (pair_eqb (i', j') (i, j)) eqn:Ep; [|auto]. apply pair_eqb_eq in Ep.
            injection Ep as -> ->. right. congruence.
      - rewrite (eval_out a b i j s Hs Hij (or_intror L)). destruct (memo_find (k_memo s) (i, j)) as [v|] eqn:Hm; cbn [fst];
          (split; [exact Hs|]; split; [intros p w; auto|intros i' j' w; auto]).
      - rewrite (eval_out a b i j s Hs Hij (or_introl Li)). destruct (memo_find (k_memo s) (i, j)) as [v|] eqn:Hm; cbn [fst];
          (split; [exact Hs|]; split; [intros p w; auto|intros i' j' w; auto]). }
    intros i j a b s Hs. destruct (canon_or i j) as [L|[H1 L]]; [apply H; assumption|].
    rewrite (eval_flip a b i j s Hs H1 L). apply H; [right; lia|exact Hs].
  Qed.
  Lemma gr_temp : forall tg x, gr (temp_diagonal tg x).
  Proof.
    intros tg x. unfold temp_diagonal. apply gr_bind; [apply gr_id; reflexivity|]. intros s0. cbv zeta.
    apply gr_bind; [apply gr_modify; intros s; repeat split|]. intros _. apply gr_id. reflexivity.
  Qed.

  Ltac gl :=
    repeat (cbv beta; lazymatch goal with
      | |- gr (ret _) => apply gr_id; reflexivity
      | |- gr (raise _) => apply gr_id; reflexivity
      | |- gr (lift _) => apply gr_id; reflexivity
      | |- gr get => apply gr_id; reflexivity
      | |- gr (attr_or _) => apply gr_attr_or
      | |- gr (modify _) => apply gr_modify; intros; repeat split
      | |- gr (when _ _) => apply gr_when
      | |- gr (try_except _ _) => apply gr_try
      | |- gr (for_each _ _) => apply gr_for_each; intros
      | |- gr (map_each _ _) => apply gr_map_each; intros
      | |- gr (fmap _ _) => apply gr_fmap
      | |- gr (bind _ _) => apply gr_bind; [|intros]
      | |- gr (eval_kernel _ _) => apply gr_eval
      | |- gr (temp_diagonal _ _) => apply gr_temp
      | |- gr (match ?x with _ => _ end) => destruct x
      | |- gr (if ?x then _ else _) => destruct x
      | |- gr (populate_fully _ _ _) =>
          unfold populate_fully, populate_upper, populate_lower, densify, warn_if_nan_inf, set_full_entry
      | |- gr (normalize _ _) => unfold normalize, warn_if_nan_inf
      | |- gr (center _) => unfold center
      | |- gr (warn_if_nan_inf _ _) => unfold warn_if_nan_inf
      end).

  Lemma gr_step : forall o : op E U, is_attach o = false -> gr (step N o).
  Proof.
    intros o Ho. destruct o; try discriminate; unfold step; apply gr_fmap;
      unfold full, full_sparse, centered, normed_km, frob_norm, diagonal, getitem, getitem_pair,
        compute_for_index_combinations, set_attr, get_attr, size; gl.
  Qed.
End Grow.

(** ** [centered] of a one-sample object *)
Lemma centered_eq : forall {E V U} (N : numops V) (s : km E V U), k_two s = Some false ->
  centered N s = if k_is_centered s then attr_or k_centered s
                 else match center N s with
                      | (s1, Ok _) => attr_or k_centered s1
                      | (s1, Raise e) => (s1, Raise e)
                      end.
Proof.
  intros E V U N s H. unfold centered, bind at 1, attr_or at 1, bind at 1, get at 1. rewrite H. unfold ret at 1.
  unfold bind at 1, get at 1. unfold bind at 1. destruct (k_is_centered s); reflexivity.
Qed.

(** ** Two objects in step *)
Section Table.
  Context {E V U : Type}.
  Variable N : numops V.
  Variable K : kernel E V.
  Variable k : list E -> list E -> V.
  Variables (two : bool) (n m d : nat).
  Hypothesis Hnr : forall a b, (two = false -> b = a /\ m = n) -> never_raises K k a (Some b) n m d.
  Variable T : nat -> nat -> V.
  Notation KM := (km E V U).
  Notation KT := (km nat V U).
  Notation gr := (@gr E V U K k two n m d _).

  Definition kT : list nat -> list nat -> V := fun u v => T (hd 0 u) (hd 0 v).

  Record Rel (s : KM) (t : KT) : Prop := mkRel {
    r_on : exists a b, on K two n m d a b s;
    r_onT : on (lookup T (kfmt K)) two n m 1 (row_numbers n) (row_numbers m) t;
    r_nrm : two = true -> k_keep_normed s = false;
    r_keep : k_keep_normed t = k_keep_normed s;
    r_num : k_num_samples t = k_num_samples s;
    r_two : k_two t = k_two s;
    r_shape : k_shape t = k_shape s;
    r_full : k_full t = k_full s;
    r_normed : k_normed t = k_normed s;
    r_frob : k_frob t = k_frob s;
    r_pop : k_populated t = k_populated s;
    r_low : k_lower t = k_lower s;
    r_isc : k_is_centered t = k_is_centered s;
    r_isn : k_is_normed t = k_is_normed s;
    r_memo : k_memo t = k_memo s;
    r_attr : k_attr t = k_attr s;
    r_cen : k_is_centered s = true -> k_centered t = k_centered s
  }.

  (** The values stored so far are those of the table. *)
  Definition fits (s : KM) : Prop :=
    forall i j v, canon two i j -> i < n -> j < m -> memo_find (k_memo s) (i, j) = Some v -> T i j = v.

  Definition sim {A} (mm : M KM A) (mm' : M KT A) : Prop :=
    gr mm /\ forall s t, Rel s t -> fits (fst (mm s)) ->
      snd (mm s) = snd (mm' t) /\ Rel (fst (mm s)) (fst (mm' t)).

  Lemma fits_ext : forall s t, ext s t -> fits t -> fits s.
  Proof. intros s t H F i j v Hij Hi Hj Hv. apply (F i j v Hij Hi Hj), H, Hv. Qed.

  Lemma sim_bind : forall {A B} (mm : M KM A) (mm' : M KT A) (f : A -> M KM B) (f' : A -> M KT B),
    sim mm mm' -> (forall a, sim (f a) (f' a)) -> sim (bind mm f) (bind mm' f').
  Proof.
    intros A B mm mm' f f' [Gm Hm] Hf. split; [apply gr_bind; [exact Gm|intros a; apply Hf]|].
    intros s t R F. unfold bind in *. specialize (Hm s t R). destruct (r_on s t R) as (a & b0 & Ha).
    destruct (Gm a b0 s Ha) as (O1 & _ & _).
    destruct (mm s) as [s1 [b|e]] eqn:Em; cbn [fst snd] in *.
    - destruct (Hf b) as [Gf Hb]. destruct (Gf a b0 s1 O1) as (_ & X & _).
      destruct (Hm (fits_ext _ _ X F)) as [H1 H2].
      destruct (mm' t) as [t1 [b'|e']]; cbn [fst snd] in *; [|discriminate]. injection H1 as <-.
      apply Hb; assumption.
    - destruct (Hm F) as [H1 H2]. destruct (mm' t) as [t1 [b'|e']]; cbn [fst snd] in *; [discriminate|].
      split; [congruence|exact H2].
  Qed.
  Lemma sim_same : forall {A} (mm : M KM A) (mm' : M KT A), (forall s, fst (mm s) = s) -> (forall t, fst (mm' t) = t) ->
    (forall s t, Rel s t -> snd (mm s) = snd (mm' t)) -> sim mm mm'.
  Proof.
    intros A mm mm' H1 H2 H3. split; [apply gr_id, H1|]. intros s t R _. rewrite H1, H2. auto.
  Qed.
  Lemma sim_ret : forall {A} (a : A), sim (ret a) (ret a).
  Proof. intros A a. apply sim_same; reflexivity. Qed.
  Lemma sim_raise : forall {A} e, sim (@raise KM A e) (raise e).
  Proof. intros A a. apply sim_same; reflexivity. Qed.
  Lemma sim_lift : forall {A} (r : res A), sim (lift r) (lift r).
  Proof. intros A a. apply sim_same; reflexivity. Qed.
  Lemma sim_attr_or : forall {A} (f : KM -> option A) (f' : KT -> option A),
    (forall s t, Rel s t -> f' t = f s) -> sim (attr_or f) (attr_or f').
  Proof.
    intros A f f' H. apply sim_same.
    - intros s. unfold attr_or, bind, get, ret, raise. destruct (f s); reflexivity.
    - intros s. unfold attr_or, bind, get, ret, raise. destruct (f' s); reflexivity.
    - intros s t R. unfold attr_or, bind, get, ret, raise. rewrite (H s t R). destruct (f s); reflexivity.
  Qed.
  Lemma sim_get : forall {A} (g : KM -> M KM A) (g' : KT -> M KT A),
    (forall s, gr (g s)) -> (forall s t, Rel s t -> sim (g s) (g' t)) -> sim (bind get g) (bind get g').
  Proof.
    intros A g g' H1 H2. split; [apply gr_bind; [apply gr_id; reflexivity|exact H1]|].
    intros s t R F. apply (H2 s t R); assumption.
  Qed.
  Lemma sim_when : forall b mm mm', sim mm mm' -> sim (when b mm) (when b mm').
  Proof. intros [] mm mm' H; [exact H|apply sim_ret]. Qed.
  Lemma sim_try : forall {A} (mm : M KM A) (mm' : M KT A) e, sim mm mm' -> sim (try_except mm e) (try_except mm' e).
  Proof.
    intros A mm mm' e [G H]. split; [apply gr_try, G|]. intros s t R F. unfold try_except in *. specialize (H s t R).
    destruct (mm s) as [s1 [a|e1]], (mm' t) as [t1 [b|e']]; cbn [fst snd] in *; destruct (H F) as [H1 H2];
      try discriminate; (split; [congruence|exact H2]).
  Qed.
  Lemma sim_for_each : forall {A} (l : list A) b b', (forall a, sim (b a) (b' a)) -> sim (for_each l b) (for_each l b').
  Proof.
    intros A l b b' H. induction l as [|a l IH]; cbn [for_each]; [apply sim_ret|].
    apply sim_bind; [apply H|intros; exact IH].
  Qed.
  Lemma sim_map_each : forall {A B} (l : list A) (b : A -> M KM B) (b' : A -> M KT B), (forall a, sim (b a) (b' a)) ->
    sim (map_each l b) (map_each l b').
  Proof.
    intros A B l b b' H. induction l as [|a l IH]; cbn [map_each]; [apply sim_ret|].
    apply sim_bind; [apply H|]. intros c. apply sim_bind; [exact IH|]. intros; apply sim_ret.
  Qed.
  Lemma sim_fmap : forall {A B} (g : A -> B) (mm : M KM A) (mm' : M KT A), sim mm mm' -> sim (fmap g mm) (fmap g mm').
  Proof. intros A B g mm mm' H. apply sim_bind; [exact H|]. intros; apply sim_ret. Qed.
  Lemma sim_modify : forall (f : KM -> KM) (f' : KT -> KT), gr (modify f) ->
    (forall s t, Rel s t -> Rel (f s) (f' t)) -> sim (modify f) (modify f').
  Proof. intros f f' G H. split; [exact G|]. intros s t R _. cbn [modify fst snd]. auto. Qed.

  Lemma row_number : forall r i, i < r -> row_of 1 (row_numbers r) i = [i].
  Proof.
    intros r i Hi. unfold row_of, row_numbers. cbn [nd_data]. rewrite Nat.mul_1_r.
    replace r with (i + S (r - i - 1)) by lia. rewrite seq_app, skipn_app, seq_length, Nat.sub_diag.
    rewrite skipn_all2 by (rewrite seq_length; lia). reflexivity.
  Qed.
  Lemma lookup_ok : never_raises (lookup T (kfmt K)) kT (row_numbers n) (Some (row_numbers m)) n m 1.
  Proof.
    intros t u v Hu Hv.
    assert (H : forall u, is_row (row_numbers n) (Some (row_numbers m)) n m 1 u -> exists i, u = [i]).
    { intros w [i [[Hi ->]|[Hi ->]]]; exists i; apply row_number, Hi. }
    destruct (H u Hu) as [i ->], (H v Hv) as [j ->]. reflexivity.
  Qed.

  Lemma Rel_store : forall s t p v c l l' , Rel s t ->
    Rel (store_memo p v (log_calls (c :: l) s)) (store_memo p v (log_calls l' t)).
  Proof.
    intros s t p v c l l' []. constructor; try assumption. cbn. congruence.
  Qed.
  Lemma sim_eval : forall i j, sim (eval_kernel i j) (eval_kernel i j).
  Proof.
    intros i j. split; [apply gr_eval, Hnr|].
    assert (H : forall i j s t, canon two i j -> Rel s t -> fits (fst (eval_kernel i j s)) ->
              snd (eval_kernel i j s) = snd (eval_kernel i j t) /\
              Rel (fst (eval_kernel i j s)) (fst (eval_kernel i j t))).
    { clear i j. intros i j s t Hij R F. destruct (r_on s t R) as (a & b & Ha).
      assert (Out : n <= i \/ m <= j -> snd (eval_kernel i j s) = snd (eval_kernel i j t) /\
              Rel (fst (eval_kernel i j s)) (fst (eval_kernel i j t))).
      { intros L. rewrite (eval_out K two n m d a b i j s Ha Hij L).
        rewrite (eval_out _ two n m 1 _ _ i j t (r_onT s t R) Hij L).
        rewrite (r_memo s t R). destruct (memo_find (k_memo s) (i, j)); (split; [reflexivity|exact R]). }
      destruct (Nat.lt_ge_cases i n) as [Li|Li]; [|auto]. destruct (Nat.lt_ge_cases j m) as [L|L]; [|auto].
      assert (Ho : two = false -> b = a /\ m = n) by apply Ha.
      rewrite (eval_le K k two n m d a b i j s (Hnr a b Ho) Ha Hij Li L) in *.
      rewrite (eval_le _ kT two n m 1 _ _ i j t lookup_ok (r_onT s t R) Hij Li L). rewrite (r_memo s t R).
      destruct (memo_find (k_memo s) (i, j)) as [v|] eqn:Hm; cbn [fst snd] in *; [split; [reflexivity|exact R]|].
      assert (Hv : kv kT 1 (row_numbers n) (row_numbers m) i j = kv k d a b i j).
      { assert (HT : T i j = kv k d a b i j).
        { apply (F i j _ Hij Li L). cbn [store_memo log_calls k_memo memo_find]. rewrite (proj2 (pair_eqb_eq _ _)); reflexivity. }
        rewrite <- HT. unfold kv. rewrite !row_number by lia. reflexivity. }
      rewrite Hv. split; [reflexivity|]. apply Rel_store, R. }
    intros s t R. destruct (r_on s t R) as (a & b & Ha). destruct (canon_or two i j) as [L|[H1 L]]; [apply H; assumption|].
    rewrite (eval_flip K two n m d a b i j s Ha H1 L), (eval_flip _ two n m 1 _ _ i j t (r_onT s t R) H1 L).
    apply H; [right; lia|exact R].
  Qed.

  Ltac gl :=
    repeat (cbv beta; lazymatch goal with
      | |- gr (ret _) => apply gr_id; reflexivity
      | |- gr (raise _) => apply gr_id; reflexivity
      | |- gr (lift _) => apply gr_id; reflexivity
      | |- gr get => apply gr_id; reflexivity
      | |- gr (attr_or _) => apply gr_attr_or
      | |- gr (modify _) => apply gr_modify; intros; repeat split
      | |- gr (when _ _) => apply gr_when
      | |- gr (try_except _ _) => apply gr_try
      | |- gr (for_each _ _) => apply gr_for_each; intros
      | |- gr (map_each _ _) => apply gr_map_each; intros
      | |- gr (fmap _ _) => apply gr_fmap
      | |- gr (bind _ _) => apply gr_bind; [|intros]
      | |- gr (eval_kernel _ _) => apply gr_eval, Hnr
      | |- gr (temp_diagonal _ _) => apply gr_temp
      | |- gr (match ?x with _ => _ end) => destruct x
      | |- gr (if ?x then _ else _) => destruct x
      | |- gr (populate_fully _ _ _) =>
          unfold populate_fully, populate_upper, populate_lower, densify, warn_if_nan_inf, set_full_entry
      | |- gr (normalize _ _) => unfold normalize, warn_if_nan_inf
      | |- gr (center _) => unfold center
      | |- gr (warn_if_nan_inf _ _) => unfold warn_if_nan_inf
      end).

  Ltac fields R := rewrite ?(r_keep _ _ R), ?(r_num _ _ R), ?(r_two _ _ R), ?(r_shape _ _ R), ?(r_full _ _ R),
    ?(r_normed _ _ R), ?(r_frob _ _ R), ?(r_pop _ _ R), ?(r_low _ _ R), ?(r_isc _ _ R), ?(r_isn _ _ R), ?(r_attr _ _ R).
  Ltac sl :=
    repeat (cbv beta; lazymatch goal with
      | |- sim (ret _) _ => apply sim_ret
      | |- sim (raise _) _ => apply sim_raise
      | |- sim (lift _) _ => apply sim_lift
      | |- sim (attr_or _) _ => apply sim_attr_or; intros ? ? []; assumption
      | |- sim (modify _) _ => apply sim_modify; [gl|intros ? ? [];
            constructor; try assumption; cbn; congruence]
      | |- sim (when _ _) _ => apply sim_when
      | |- sim (try_except _ _) _ => apply sim_try
      | |- sim (for_each _ _) _ => apply sim_for_each; intros
      | |- sim (map_each _ _) _ => apply sim_map_each; intros
      | |- sim (fmap _ _) _ => apply sim_fmap
      | |- sim (eval_kernel _ _) _ => apply sim_eval
      | |- sim (bind get _) _ => let R := fresh "R" in apply sim_get; [intros; gl|intros ? ? R; fields R]
      | |- sim (bind _ _) _ => apply sim_bind; [|intros]
      | |- sim (match ?x with _ => _ end) _ => destruct x
      | |- sim (if ?x then _ else _) _ => destruct x
      end).

  Lemma sim_warn : forall a, sim (warn_if_nan_inf N a) (warn_if_nan_inf N a).
  Proof.
    intros a. unfold warn_if_nan_inf. apply sim_get; [intros; gl|]. intros s t R.
    destruct (r_onT s t R) as (_ & _ & _ & HK & _). destruct (r_on s t R) as (x & y & _ & _ & _ & HK' & _). rewrite HK, HK'.
    cbn [lookup kfmt]. sl.
  Qed.
  Lemma sim_populate : forall dn lw, sim (populate_fully N dn lw) (populate_fully N dn lw).
  Proof.
    intros. unfold populate_fully, populate_upper, populate_lower, densify, set_full_entry. sl; apply sim_warn.
  Qed.
  Lemma flag_bind : forall {B} (f : bool -> M KM B) (f' : bool -> M KT B),
    (two = true -> sim (f true) (f' true)) -> (two = false -> sim (f false) (f' false)) ->
    (forall b, gr (f b)) -> sim (bind (attr_or k_two) f) (bind (attr_or k_two) f').
  Proof.
    intros B f f' Ht Hf Gf. split; [apply gr_bind; [apply gr_attr_or|exact Gf]|]. intros s t R.
    destruct (r_on s t R) as (a & b & Ha1 & Ha2 & Ha3 & Ha4 & Ha5 & Ha6 & Ha7 & Ha8). unfold bind, attr_or, bind, get, ret.
    rewrite (r_two s t R), Ha7. assert (H1 : two = true \/ two = false) by (destruct two; auto).
    destruct H1 as [H1|H1]; rewrite H1; [apply (Ht H1)|apply (Hf H1)]; exact R.
  Qed.
  Lemma sim_normalize : forall meth, two = false -> sim (normalize N meth) (normalize N meth).
  Proof.
    intros meth H1. unfold normalize. apply sim_get; [intros; gl|]. intros s0 t0 R0. fields R0.
    apply sim_bind; [sl; apply sim_populate|]. intros _.
    apply sim_get; [intros; gl|]. intros s1 t1 R1. fields R1. apply sim_when.
    apply flag_bind; [congruence| |intros; gl; destruct b; gl]. intros _. cbn [negb].
    apply sim_bind; [sl|]. intros _. sl. apply sim_warn.
  Qed.
  Lemma sim_center_ : sim (center N) (center N).
  Proof.
    unfold center. apply flag_bind; [intros _; sl|intros _|intros; gl]. apply sim_get; [intros; gl|]. intros s0 t0 R0. fields R0.
    apply sim_bind; [sl; apply sim_populate|]. intros _. apply sim_bind; [sl|]. intros a.
    apply sim_bind; [sl|]. intros c. split; [gl|]. intros s t R _. unfold bind, modify. cbn [fst snd].
    split; [reflexivity|]. destruct R. constructor; try assumption; reflexivity.
  Qed.
  (** [center] that returns leaves a centred matrix. *)
  Lemma center_marks : forall (s s' : KM) u, center N s = (s', Ok u) -> k_is_centered s' = true.
  Proof.
    intros s s' u H. unfold center in H. unfold bind at 1 in H.
    destruct (attr_or k_two s) as [s0 [[]|e]]; try discriminate.
    unfold bind at 1, get in H. unfold bind at 1 in H.
    destruct (when _ _ s0) as [s1 [x|e]]; [|discriminate]. unfold bind at 1 in H.
    destruct (attr_or k_full s1) as [s2 [a|e]]; [|discriminate]. unfold bind at 1, lift in H.
    destruct (op_center N a) as [c|e]; [|discriminate]. unfold bind, modify in H.
    injection H as <- _. reflexivity.
  Qed.
  Lemma sim_centered : sim (centered N) (centered N).
  Proof.
    split; [unfold centered; gl|]. intros s t R. destruct (r_on s t R) as (a & b & Ha).
    assert (Ht : k_two s = Some two) by apply Ha.
    assert (Ht' : k_two t = Some two) by (rewrite (r_two s t R); exact Ht).
    destruct (Bool.bool_dec two true) as [H1|H1].
    { unfold centered, bind, attr_or, bind, get, ret. rewrite Ht, Ht', H1. intros _. split; [reflexivity|exact R]. }
    apply not_true_is_false in H1. rewrite H1 in Ht, Ht'.
    rewrite (centered_eq N s Ht), (centered_eq N t Ht'), (r_isc s t R).
    assert (At : forall s t, Rel s t -> k_centered t = k_centered s -> fits (fst (attr_or k_centered s)) ->
              snd (attr_or k_centered s) = snd (attr_or k_centered t) /\
              Rel (fst (attr_or k_centered s)) (fst (attr_or k_centered t))).
    { intros s0 t0 R0 H0 _. unfold attr_or, bind, get. rewrite H0. destruct (k_centered s0); (split; [reflexivity|exact R0]). }
    destruct (k_is_centered s) eqn:Hc.
    - apply At; [exact R|apply (r_cen s t R Hc)].
    - destruct sim_center_ as [_ H]. specialize (H s t R). intros F.
      destruct (center N s) as [s1 [[]|e]] eqn:M; cbn [fst snd] in *.
      + assert (F1 : fits s1).
        { revert F. unfold attr_or, bind, get. destruct (k_centered s1); auto. }
        destruct (H F1) as [H0 H2]. destruct (center N t) as [t1 [[]|e']]; cbn [fst snd] in *; [|discriminate].
        apply At; [exact H2|apply (r_cen s1 t1 H2 (center_marks s s1 tt M))|exact F].
      + destruct (H F) as [H0 H2]. destruct (center N t) as [t1 [[]|e']]; cbn [fst snd] in *; [discriminate|].
        split; [congruence|exact H2].
  Qed.

  (** Operations that do not normalise, for two samples. *)
  Definition fine (o : op E U) : Prop :=
    two = true -> match o with OpNormalize _ | OpNormedKM => False | _ => True end.

  Lemma sim_step : forall o : op E U, is_attach o = false -> fine o -> sim (step N o) (step N (same_op o)).
  Proof.
    intros o Ho Hf. unfold fine in Hf. assert (H1 : two = true \/ two = false) by (destruct two; auto).
    assert (Hn : forall s t meth, Rel s t -> k_keep_normed s = true -> sim (normalize N meth) (normalize N meth)).
    { intros s t meth R Hk. destruct H1 as [H1|H1]; [rewrite (r_nrm s t R H1) in Hk; discriminate|]. apply sim_normalize, H1. }
    destruct o; try discriminate; unfold step, same_op;
      try (lazymatch goal with |- sim (fmap _ get) _ => fail | _ => apply sim_fmap end).
    - unfold full. apply sim_get; [intros; gl|]. intros s t R. fields R.
      destruct (r_on s t R) as (a & b & _ & _ & _ & _ & Hs & _). destruct (r_onT s t R) as (_ & _ & _ & _ & Hs' & _). rewrite Hs, Hs'.
      destruct (k_keep_normed s) eqn:Hk; sl; try apply sim_populate. apply (Hn s t _ R Hk).
    - unfold full_sparse. apply sim_get; [intros; gl|]. intros s t R. fields R.
      destruct (k_keep_normed s) eqn:Hk; sl; try apply sim_populate. apply (Hn s t _ R Hk).
    - apply sim_center_.
    - apply sim_centered.
    - apply sim_normalize. destruct H1 as [H1|H1]; [destruct (Hf H1)|exact H1].
    - unfold normed_km. sl. apply sim_normalize. destruct H1 as [H1|H1]; [destruct (Hf H1)|exact H1].
    - unfold frob_norm. sl. apply sim_populate.
    - unfold diagonal. sl.
    - unfold getitem, getitem_pair, compute_for_index_combinations. sl; try apply sim_populate.
    - unfold set_attr. sl.
    - unfold get_attr. sl.
    - apply sim_same; try reflexivity. intros s t R. unfold fmap, bind, get. cbn. rewrite (r_attr s t R). reflexivity.
    - unfold size. sl.
    - sl.
    - apply sim_same; try reflexivity. intros s t R. unfold fmap, bind, get. cbn. rewrite (r_num s t R). reflexivity.
  Qed.
End Table.
