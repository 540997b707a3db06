(** C07: what a rejected attach_to leaves behind. *)
From Coq Require Import String List Arith ZArith Bool Lia.
Import ListNotations.
From Verif Require Import Prelude MatModel MatFacts UtilsModel IndexModel KMModel SpecKM MFacts
  KMFacts KMInv KMOps KMIndex KMHist KMTotal KMGet KMTrack KMLog KMHist2 AliasModel SpecAlias
  AliasFacts AliasProps ToyModel.
Local Open Scope list_scope.
Local Open Scope nat_scope.

(*BEGIN PROP*)
(** km[i, j] *)
Definition element (i j : nat) : idx := IPair (IInt (Z.of_nat i)) (IInt (Z.of_nat j)).

(** The pair that the kernel is asked for: with one sample in increasing order. *)
Definition asked {E} (y : option (ndarray E)) (i j : nat) : nat * nat :=
  match y with Some _ => (i, j) | None => (Nat.min i j, Nat.max i j) end.

(** The result of km[i, j] for an outcome of the kernel. *)
Definition as_element {V U} (r : res V) : res (out V U) :=
  res_map (fun v => OArr (mkArr Dense (mkMat 1 1 [[v]]))) r.

(** The second sample. *)
Definition other {E} (x : ndarray E) (y : option (ndarray E)) : ndarray E :=
  match y with Some y' => y' | None => x end.

(** All calls of attach_to in [ops] are rejected. *)
Definition all_rejected {E U} (ops : list (op E U)) : Prop :=
  forall x y, In (OpAttach x y) ops -> forall n m d, ~ admissible x y n m d.
Definition without_attach {E U} (ops : list (op E U)) : list (op E U) :=
  filter (fun o => negb (is_attach o)) ops.
(*END PROP*)

(** ** The state after a rejection *)
Lemma reject_first : forall {E V U} (s : km E V U) x y, (forall n d, ~ is_sample x n d) ->
  fst (attach_to x y s) = s.
Proof.
  intros E V U s x y H. unfold attach_to, bind, lift. destruct (ensure_2D_own x) as [a|e] eqn:Hx; [|reflexivity].
  destruct (ensure_2D_own_inv x a Hx) as (n & d & Hs & _). destruct (H n d Hs).
Qed.

Lemma reject_second : forall {E V U} (s : km E V U) x n d y, is_sample x n d -> (forall m d', ~ is_sample y m d') ->
  attach_to x (Some y) s = (set_sample (stored n d x) s, Raise ValueError).
Proof.
  intros E V U s x n d y Hx Hy. unfold attach_to, bind, lift, modify. rewrite (ensure_2D_own_ok x n d Hx).
  destruct (ensure_2D_own y) as [b|e] eqn:E2.
  - destruct (ensure_2D_own_inv y b E2) as (m & d' & Hs & _). destruct (Hy m d' Hs).
  - now rewrite (ensure_2D_own_raise y e E2).
Qed.

Lemma reject_features : forall {E V U} (s : km E V U) x n d y m d', is_sample x n d -> is_sample y m d' -> d <> d' ->
  attach_to x (Some y) s = (set_sample_two (stored m d' y) (set_sample (stored n d x) s), Raise ValueError).
Proof.
  intros E V U s x n d y m d' Hx Hy Hd. unfold attach_to, bind, lift, modify. rewrite (ensure_2D_own_ok x n d Hx).
  rewrite (ensure_2D_own_ok y m d' Hy). cbn [nd_shape nth]. apply Nat.eqb_neq in Hd. rewrite Hd. reflexivity.
Qed.

Lemma fst_fmap : forall {St A B} (f : A -> B) (mm : M St A) s, fst ((v <- mm ;; ret (f v)) s) = fst (mm s).
Proof. intros St A B f mm s. unfold bind, ret. destruct (mm s) as [s' [v|e]]; reflexivity. Qed.
Lemma snd_fmap : forall {St A B} (f : A -> B) (mm : M St A) s, snd ((v <- mm ;; ret (f v)) s) = res_map f (snd (mm s)).
Proof. intros St A B f mm s. unfold bind, ret. destruct (mm s) as [s' [v|e]]; reflexivity. Qed.

(** One element of an object in an arbitrary state. *)
Lemma element_any : forall {E V U} (N : numops V) (s : km E V U) n m two i j,
  k_shape s = Some (n, m) -> k_two s = Some two -> i < n -> j < m -> ~ (n = 1 /\ m = 1) ->
  let p := if two then (i, j) else (Nat.min i j, Nat.max i j) in
  outcome N (OpGetItem (element i j)) s =
  as_element
    match memo_find (k_memo s) p with
    | Some v => Ok v
    | None => rbind (match k_sample s with None => Raise TypeError | Some a => nd_row a (fst p) end) (fun u =>
              rbind (match k_sample_two s with None => Raise AttributeError | Some a => nd_row a (snd p) end) (fun v =>
              kf (k_kernel s) (length (g_calls s)) u v))
    end.
Proof.
  intros E V U N s n m two i j Hs Ht Hi Hj Hnm p. unfold outcome. cbn [step]. unfold fmap. rewrite snd_fmap.
  rewrite (getitem_resolve N s n m _ Hs).
  assert (Hv : valid n m (element i j)) by (split; apply valid1_int; assumption).
  destruct (resolve_valid n m _ Hv) as (rows & cols & Hr & [S1 S2] & _). rewrite Hr.
  rewrite (selection_unique n _ _ _ S1 (selection_int n i)), (selection_unique m _ _ _ S2 (selection_int m j)).
  cbn [length].
  assert (Hw : (1 =? n) && (1 =? m) = false).
  { apply not_true_is_false. intros H. apply andb_true_iff in H. destruct H as [H1 H2]. apply Nat.eqb_eq in H1, H2. apply Hnm. auto. }
  rewrite Hw. unfold compute_for_index_combinations. rewrite snd_fmap. cbn [product flat_map map app fst snd].
  assert (HE : snd (eval_kernel i j s) =
    match memo_find (k_memo s) p with
    | Some v => Ok v
    | None => rbind (match k_sample s with None => Raise TypeError | Some a => nd_row a (fst p) end) (fun u =>
              rbind (match k_sample_two s with None => Raise AttributeError | Some a => nd_row a (snd p) end) (fun v =>
              kf (k_kernel s) (length (g_calls s)) u v))
    end).
  { unfold eval_kernel.
    assert (HP : (if j <? i then two0 <- attr_or k_two ;; ret (if negb two0 then (j, i) else (i, j)) else ret (i, j)) s = (s, Ok p)).
    { unfold p. destruct (j <? i) eqn:Hji.
      - apply Nat.ltb_lt in Hji. unfold attr_or, bind, get, ret. rewrite Ht. destruct two; cbn; [reflexivity|].
        now rewrite Nat.min_r, Nat.max_l by lia.
      - apply Nat.ltb_ge in Hji. unfold ret. destruct two; [reflexivity|]. now rewrite Nat.min_l, Nat.max_r by lia. }
    unfold bind at 1. rewrite HP. unfold bind at 1, get. destruct (memo_find (k_memo s) p) as [v|]; [reflexivity|].
    unfold attr_or, bind, get, ret, lift, raise, modify. destruct (k_sample s) as [a|]; [|reflexivity]. cbn [fst snd].
    destruct (nd_row a (fst p)) as [u|e]; [|reflexivity]. cbn [rbind].
    destruct (k_sample_two s) as [b|]; [|reflexivity]. destruct (nd_row b (snd p)) as [w|e]; [|reflexivity]. cbn [rbind].
    destruct (kf (k_kernel s) (length (g_calls s)) u w); reflexivity. }
  cbn [map_each]. unfold bind at 1.
  cbn [fst snd]. destruct (eval_kernel i j s) as [s1 [v|e]]; cbn [snd] in HE; rewrite <- HE; reflexivity.
Qed.

(** What the memo of an attached object holds. *)
Lemma memo_successful :
  forall {E V U} (N : numops V) (K : kernel E V) k nrm (pre post : list (op E U)) x y n m d,
    returns_only K k x y n m d -> admissible x y n m d -> no_attach post ->
    let s := after N K nrm pre x y post in
    let before_calls := g_calls (before N K nrm pre) in
    k_shape s = Some (n, m) /\ k_two s = Some (is_some y) /\ k_kernel s = K /\
    k_sample s = Some (stored n d x) /\ k_sample_two s = Some (stored2 n m d x y) /\
    exists old, g_calls s = old ++ before_calls /\
      forall i j, i < n -> j < m ->
        (In (asked y i j) (successful K 0 (length before_calls) old) ->
         memo_find (k_memo s) (asked y i j) = Some (entry k d x y i j)) /\
        (~ In (asked y i j) (successful K 0 (length before_calls) old) ->
         memo_find (k_memo s) (asked y i j) = None).
Proof.
  intros E V U N K k nrm pre post x y n m d Hret Hadm Hno s bc.
  destruct (S1_sane N K k nrm pre post x y n m d Hadm Hno Hret) as [[HF HM HG] _]. fold s in HF, HM, HG.
  destruct HF as [F1 F2 F3 F4 F5 F6 F7 F8]. do 5 (split; [assumption|]).
  destruct HG as (old & HO & HS & _). exists old. split; [exact HO|]. intros i j Hi Hj.
  fold bc in HS. rewrite HS. unfold keys. split.
  - intros HIn. destruct (memo_find_key _ _ HIn) as (v & Hv). rewrite Hv. f_equal.
    apply memo_find_some in Hv. destruct HM as [HM1 _ _]; destruct (HM1 _ _ Hv) as (_ & _ & _ & ->).
    rewrite truev_entry. unfold asked, entry. destruct y as [y|]; [reflexivity|]. cbn [fst snd].
    destruct (Nat.leb_spec (Nat.min i j) (Nat.max i j)); [|lia].
    destruct (Nat.leb_spec i j); [now rewrite Nat.min_l, Nat.max_r by lia|now rewrite Nat.min_r, Nat.max_l by lia].
  - intros HIn. destruct (memo_find (k_memo s) (asked y i j)) as [v|] eqn:Hv; [|reflexivity].
    apply memo_find_some in Hv. destruct HIn. apply (in_map fst) in Hv. exact Hv.
Qed.

(** C07, what is false about it, exactly. A second sample that is not a 2-D array is rejected after the
    first has been stored: elements evaluated before keep their values, the others are computed from the
    rejected first sample and the old second one; IndexError if the rejected sample has too few rows. *)
Lemma pf_C07_second_rejected :
  forall {E V U} (N : numops V) (K : kernel E V) k nrm (pre post : list (op E U)) x y n m d x' n' d' y' i j,
    returns_only K k x y n m d -> admissible x y n m d -> no_attach post ->
    is_sample x' n' d' -> (forall m' d'', ~ is_sample y' m' d'') ->
    i < n -> j < m -> ~ (n = 1 /\ m = 1) ->
    let s := after N K nrm pre x y post in
    let s' := fst (step N (OpAttach x' (Some y')) s) in
    let (a, b) := asked y i j in
    exists old, g_calls s = old ++ g_calls (before N K nrm pre) /\
      (In (a, b) (successful K 0 (length (g_calls (before N K nrm pre))) old) ->
       outcome N (OpGetItem (element i j)) s' = as_element (Ok (entry k d x y i j))) /\
      (~ In (a, b) (successful K 0 (length (g_calls (before N K nrm pre))) old) ->
       outcome N (OpGetItem (element i j)) s' =
       as_element (if a <? n' then kf K (length (g_calls s)) (row_of d' x' a) (row_of d (other x y) b)
                   else Raise IndexError)).
Proof.
  intros E V U N K k nrm pre post x y n m d x' n' d' y' i j Hret Hadm Hno Hx Hy Hi Hj Hnm s s'.
  destruct (memo_successful N K k nrm pre post x y n m d Hret Hadm Hno) as (F1 & F2 & F3 & F4 & F5 & old & HO & HM).
  fold s in F1, F2, F3, F4, F5, HO, HM. destruct (HM i j Hi Hj) as [M1 M2].
  assert (Es : s' = set_sample (stored n' d' x') s).
  { unfold s'. cbn [step]. unfold fmap. rewrite fst_fmap, (reject_second s x' n' d' y' Hx Hy). reflexivity. }
  assert (HE := element_any N s' n m (is_some y) i j). rewrite Es in HE at 1 2. cbn [set_sample k_shape k_two] in HE.
  specialize (HE F1 F2 Hi Hj Hnm). cbv zeta in HE.
  assert (Hp : (if is_some y then (i, j) else (Nat.min i j, Nat.max i j)) = asked y i j) by (destruct y; reflexivity).
  rewrite Hp in HE. destruct (asked y i j) as [a b] eqn:Hab. exists old. split; [exact HO|].
  rewrite HE, Es. cbn [set_sample k_memo k_sample k_sample_two k_kernel g_calls fst snd]. rewrite F3, F5. split; intros HIn.
  - now rewrite (M1 HIn).
  - rewrite (M2 HIn). unfold nd_row at 1, stored. cbn [nd_shape nd_data]. destruct (a <? n'); [|reflexivity].
    cbn [rbind]. unfold nd_row. rewrite (stored2_shape x y n m d Hadm).
    assert (Hb : b < m).
    { clear - Hab Hadm Hi Hj. unfold asked in Hab. destruct Hadm as [_ Hm]. destruct y; inversion Hab; subst; lia. }
    apply Nat.ltb_lt in Hb. rewrite Hb. cbn [rbind]. unfold row_of. destruct y; reflexivity.
Qed.

(** C07, the same for a second sample with another number of features: then both rejected samples have been
    stored. *)
Lemma pf_C07_features_rejected :
  forall {E V U} (N : numops V) (K : kernel E V) k nrm (pre post : list (op E U)) x y n m d x' n' d' y' m' d'' i j,
    returns_only K k x y n m d -> admissible x y n m d -> no_attach post ->
    is_sample x' n' d' -> is_sample y' m' d'' -> d' <> d'' ->
    i < n -> j < m -> ~ (n = 1 /\ m = 1) ->
    let s := after N K nrm pre x y post in
    let s' := fst (step N (OpAttach x' (Some y')) s) in
    let (a, b) := asked y i j in
    exists old, g_calls s = old ++ g_calls (before N K nrm pre) /\
      (In (a, b) (successful K 0 (length (g_calls (before N K nrm pre))) old) ->
       outcome N (OpGetItem (element i j)) s' = as_element (Ok (entry k d x y i j))) /\
      (~ In (a, b) (successful K 0 (length (g_calls (before N K nrm pre))) old) ->
       outcome N (OpGetItem (element i j)) s' =
       as_element (if (a <? n') && (b <? m') then kf K (length (g_calls s)) (row_of d' x' a) (row_of d'' y' b)
                   else Raise IndexError)).
Proof.
  intros E V U N K k nrm pre post x y n m d x' n' d' y' m' d'' i j Hret Hadm Hno Hx Hy Hd Hi Hj Hnm s s'.
  destruct (memo_successful N K k nrm pre post x y n m d Hret Hadm Hno) as (F1 & F2 & F3 & F4 & F5 & old & HO & HM).
  fold s in F1, F2, F3, F4, F5, HO, HM. destruct (HM i j Hi Hj) as [M1 M2].
  assert (Es : s' = set_sample_two (stored m' d'' y') (set_sample (stored n' d' x') s)).
  { unfold s'. cbn [step]. unfold fmap. rewrite fst_fmap, (reject_features s x' n' d' y' m' d'' Hx Hy Hd). reflexivity. }
  assert (HE := element_any N s' n m (is_some y) i j). rewrite Es in HE at 1 2. cbn [set_sample_two set_sample k_shape k_two] in HE.
  specialize (HE F1 F2 Hi Hj Hnm). cbv zeta in HE.
  assert (Hp : (if is_some y then (i, j) else (Nat.min i j, Nat.max i j)) = asked y i j) by (destruct y; reflexivity).
  rewrite Hp in HE. destruct (asked y i j) as [a b] eqn:Hab. exists old. split; [exact HO|].
  rewrite HE, Es. cbn [set_sample_two set_sample k_memo k_sample k_sample_two k_kernel g_calls fst snd]. rewrite F3. split; intros HIn.
  - now rewrite (M1 HIn).
  - rewrite (M2 HIn). unfold nd_row, stored. cbn [nd_shape nd_data]. destruct (a <? n'); [|reflexivity].
    cbn [rbind andb]. destruct (b <? m'); reflexivity.
Qed.

(** C07. Sizes and attributes survive every rejection, in every state. *)
Lemma pf_C07_sizes_kept :
  forall {E V U} (N : numops V) (s : km E V U) x y o, (forall n m d, ~ admissible x y n m d) ->
    (o = OpSize \/ o = OpShape \/ o = OpNumSamples \/ o = OpAttributes \/ exists name, o = OpGetAttr name) ->
    outcome N o (fst (step N (OpAttach x y) s)) = outcome N o s.
Proof.
  intros E V U N s x y o Hrej Ho. cbn [step]. unfold fmap. rewrite fst_fmap.
  assert (H : exists s0, fst (attach_to x y s) = s0 /\ k_two s0 = k_two s /\ k_shape s0 = k_shape s /\
            k_num_samples s0 = k_num_samples s /\ k_attr s0 = k_attr s).
  { destruct (ensure_2D_own x) as [a|e] eqn:Ex.
    - destruct (ensure_2D_own_inv x a Ex) as (n & d & Hx & _). destruct y as [y|].
      + destruct (ensure_2D_own y) as [b|e] eqn:Ey.
        * destruct (ensure_2D_own_inv y b Ey) as (m & d' & Hy & _). destruct (Nat.eq_dec d d') as [<-|Hd].
          { destruct (Hrej n m d). split; assumption. }
          rewrite (reject_features s x n d y m d' Hx Hy Hd). eexists. repeat split.
        * rewrite (reject_second s x n d y Hx). { eexists. repeat split. }
          intros m d' Hy. rewrite (ensure_2D_own_ok y m d' Hy) in Ey. discriminate.
      + destruct (Hrej n n d). split; [exact Hx|reflexivity].
    - rewrite (reject_first s x y). { eexists. repeat split. }
      intros n d Hx. rewrite (ensure_2D_own_ok x n d Hx) in Ex. discriminate. }
  destruct H as (s0 & -> & H1 & H2 & H3 & H4).
  destruct Ho as [->|[->|[->|[->|[name ->]]]]]; unfold outcome; cbn [step]; unfold fmap, size, attr_or, get_attr, bind, get, ret, raise;
    rewrite ?H1, ?H2, ?H3, ?H4; try reflexivity.
  - destruct (k_two s) as [[|]|]; try reflexivity; rewrite H3; destruct (k_num_samples s); reflexivity.
  - destruct (k_shape s); reflexivity.
Qed.

Lemma reject_swap : forall {E V U} n (s : km E V U) x y, complete n s -> (forall n m d, ~ admissible x y n m d) ->
  exists P Q, fst (attach_to x y s) = swap P Q s.
Proof.
  intros E V U n s x y Hs Hrej. assert (H3 := cp_one n s Hs). assert (H4 := cp_second n s Hs).
  destruct (k_sample s) as [A|] eqn:HA; [|discriminate].
  destruct (k_sample_two s) as [B|] eqn:HB; [|discriminate].
  destruct (ensure_2D_own x) as [a|e] eqn:Ex.
  - destruct (ensure_2D_own_inv x a Ex) as (p & d & Hx & _). destruct y as [y|].
    + destruct (ensure_2D_own y) as [b|e] eqn:Ey.
      * destruct (ensure_2D_own_inv y b Ey) as (m & d' & Hy & _). destruct (Nat.eq_dec d d') as [<-|Hd].
        { destruct (Hrej p m d). split; assumption. }
        rewrite (reject_features s x p d y m d' Hx Hy Hd). eexists _, _. reflexivity.
      * rewrite (reject_second s x p d y Hx).
        { exists (stored p d x), B. cbn [fst]. destruct s; cbn in *; subst; reflexivity. }
        intros m d' Hy. rewrite (ensure_2D_own_ok y m d' Hy) in Ey. discriminate.
    + destruct (Hrej p p d). split; [exact Hx|reflexivity].
  - rewrite (reject_first s x y).
    { exists A, B. destruct s; cbn in *; subst; reflexivity. }
    intros p d Hx. rewrite (ensure_2D_own_ok x p d Hx) in Ex. discriminate.
Qed.

Lemma run_blind : forall {E V U} (N : numops V) n (ops : list (op E U)) s P Q,
  all_rejected ops -> complete n s ->
  complete n (run N (without_attach ops) s) /\
  exists P' Q', run N ops (swap P Q s) = swap P' Q' (run N (without_attach ops) s).
Proof.
  intros E V U N n ops. induction ops as [|o l IH]; intros s P Q Hr Hs.
  { split; [exact Hs|]. exists P, Q. reflexivity. }
  assert (Hl : all_rejected l) by (intros x y Hin; apply Hr; right; exact Hin).
  unfold without_attach. cbn [filter run]. destruct (is_attach o) eqn:Ha; cbn [negb].
  - destruct o; try discriminate. cbn [step]. unfold fmap. rewrite fst_fmap.
    destruct (reject_swap n (swap P Q s) x y (swap_complete n P Q s Hs)) as (P' & Q' & ->).
    { apply Hr. left; reflexivity. }
    apply (IH s P' Q' Hl Hs).
  - cbn [run]. destruct (blind_step N n o Ha s P Q Hs) as [H1 H2]. rewrite H1. cbn [fst]. apply (IH _ P Q Hl H2).
Qed.

(** C07, the part that holds. Once [full] has returned for one sample, no rejected attach_to changes the
    outcome of any later operation: the sequence of operations without the rejected calls gives the same. *)
Lemma pf_C07_after_full :
  forall {E V U} (N : numops V) (K : kernel E V) k nrm (pre post post2 : list (op E U)) x n d o,
    never_raises K k x None n n d -> admissible x None n n d -> no_attach post ->
    is_ok (outcome N OpFull (after N K nrm pre x None post)) = true ->
    all_rejected post2 -> is_attach o = false ->
    let s := after N K nrm pre x None (post ++ [OpFull]) in
    outcome N o (run N post2 s) = outcome N o (run N (without_attach post2) s).
Proof.
  intros E V U N K k nrm pre post post2 x n d o Hnr Hadm Hno Hok Hrej Hat s.
  assert (Hs : complete n s) by (apply (full_complete N K k nrm pre post x n d); assumption).
  destruct (k_sample s) as [A|] eqn:HA; [|destruct Hs as [_ _ H _ _]; rewrite HA in H; discriminate].
  destruct (k_sample_two s) as [B|] eqn:HB; [|destruct Hs as [_ _ _ H _]; rewrite HB in H; discriminate].
  assert (Es : swap A B s = s) by (clearbody s; clear - HA HB; destruct s; cbn in *; subst; reflexivity).
  destruct (run_blind N n post2 s A B Hrej Hs) as (Hc & P & Q & HR). rewrite Es in HR. rewrite HR.
  unfold outcome. destruct (blind_step N n o Hat _ P Q Hc) as [H1 _]. now rewrite H1.
Qed.

(*BEGIN PROP*)
(** The hypotheses are met: [km[0, 1]] was read before a second sample with one feature too many was
    rejected; (0, 1) keeps its value, (1, 1) is computed from the rejected samples, and (0, 2) is missing. *)
Example C07_rejected_example :
  let x' := mkNd [2; 2] [Some 5; Some 0; Some 7; Some 0]%Z in
  let y' := mkNd [2; 3] [Some 1; Some 1; Some 1; Some 1; Some 1; Some 1]%Z in
  let s := after (U:=Z) toyN dot false [] toyX None [OpGetItem (element 0 1)] in
  let s' := fst (step toyN (OpAttach x' (Some y')) s) in
  is_sample x' 2 2 /\ is_sample y' 2 3 /\ map c_ix (g_calls s) = [(0, 1)] /\
  outcome toyN (OpGetItem (element 0 1)) s' = outcome toyN (OpGetItem (element 0 1)) s /\
  outcome toyN (OpGetItem (element 1 1)) s' = as_element (kf dot 1 [Some 7; Some 0]%Z [Some 1; Some 1; Some 1]%Z) /\
  outcome toyN (OpGetItem (element 0 2)) s' = Raise IndexError.
Proof.
  repeat split; try (exists []; split; [reflexivity|constructor]); vm_compute; reflexivity.
Qed.

(** A history with two rejected calls after [full]. *)
Example C07_after_full_example :
  let x' := mkNd [1; 2] [Some 5; Some 0]%Z in
  let y' := mkNd [2; 3] [Some 1; Some 1; Some 1; Some 1; Some 1; Some 1]%Z in
  let z' := mkNd [4] [Some 1; Some 1; Some 1; Some 1]%Z in
  let post2 := [OpAttach x' (Some y'); OpNormedKM; OpAttach x' (Some z'); OpCentered] in
  let s := after (U:=Z) toyN dot false [] toyX None [OpFull] in
  all_rejected post2 /\ without_attach post2 = [OpNormedKM; OpCentered] /\
  is_ok (outcome toyN OpFull (after (U:=Z) toyN dot false [] toyX None [])) = true /\
  k_sample (run toyN post2 s) = Some x' /\
  outcome toyN OpFull (run toyN post2 s) = outcome toyN OpFull s.
Proof.
  split; [|vm_compute; repeat split; reflexivity].
  intros x y [H|[H|[H|[H|[]]]]]; inversion H; subst; intros n m d [(e1 & H1 & _) (e2 & H2 & _)];
    cbn in H1, H2; congruence.
Qed.
(*END PROP*)
