(** C45: what the constructor of KernelSet makes of an ndarray, for every shape. *)
From Coq Require Import String List Arith ZArith Bool Lia.
Import ListNotations.
From Verif Require Import Prelude MatModel UtilsModel IndexModel KMModel SpecKM ToyModel SetModel SpecSet.
From Verif Require Import MatFacts MFacts KMFacts KMInv KMHist KMProps SetFacts SetFacts2 SetProps.

Local Open Scope list_scope.
Local Open Scope nat_scope.

(*BEGIN PROP*)
(** a[i] for an array of shape (c, n, m), row-major. *)
Definition slice3 {V} (a : ndarray V) (n m i : nat) : ndarray V :=
  mkNd [n; m] (firstn (n * m) (skipn (i * (n * m)) (nd_data a))).
(*END PROP*)

Lemma skipn_add : forall {A} a b (l : list A), skipn a (skipn b l) = skipn (b + a) l.
Proof.
  intros A a. induction b as [|b IH]; intros l; [reflexivity|]. destruct l as [|x l]; [apply skipn_nil|]. cbn. apply IH.
Qed.

Lemma nth_skipn_add : forall {A} k (l : list A) i d, nth i (skipn k l) d = nth (k + i) l d.
Proof.
  intros A. induction k as [|k IH]; intros l i d; [reflexivity|]. destruct l as [|x l]; [destruct i; reflexivity|]. cbn. apply IH.
Qed.
Lemma nth_firstn_lt : forall {A} k (l : list A) i d, i < k -> nth i (firstn k l) d = nth i l d.
Proof.
  intros A. induction k as [|k IH]; intros l i d H; [lia|]. destruct l as [|x l]; [reflexivity|]. cbn.
  destruct i as [|i]; [reflexivity|]. apply IH. lia.
Qed.

Lemma reshape_slices : forall {V} k c (l : list V),
  reshape k c l = map (fun i => firstn c (skipn (i * c) l)) (seq 0 k).
Proof.
  intros V. induction k as [|k IH]; intros c l; [reflexivity|]. cbn [reshape seq map].
  f_equal. rewrite IH, <- seq_shift, map_map. apply map_ext. intros i. rewrite skipn_add.
  f_equal.
Qed.

Section Loop.
  Context {E V U : Type}.
  Variable N : numops V.
  Variable C : cmpops V.
  Notation World := (world E V U).

  Lemma precomputed_rows : forall d (a : ndarray V) n m A, nd_shape a = [n; m] -> precomputed_new C d a = Ok A -> mr A = n.
  Proof.
    intros d a n m A Hs H. unfold precomputed_new in H. rewrite Hs in H.
    destruct (is_symmetric C d _) as [b|e]; cbn [rbind] in H; [|discriminate H].
    destruct (negb b || negb _); [discriminate H|]. injection H as <-. reflexivity.
  Qed.

  Lemma append_pre : forall k (s : kset E) n m l A (w : World), nth_error (w_sets w) k = Some s ->
    (s_init s = false /\ s_num s = NSNone \/ s_num s = NSOne n) ->
    precomputed_new C (v_nan N) (mkNd [n; m] l) = Ok A ->
    append (U := U) N C k (AArray (Ok (mkNd [n; m] l))) w =
    (mkW (w_objs w ++ [OPre A]) (list_upd (w_sets w) k
       (mkSet (NSOne n) (s_init s || numsamp_eqb (s_num s) NSNone) (s_members s ++ [length (w_objs w)]) (s_sample s))), Ok tt).
  Proof.
    intros k s n m l A w Hk Hn HA. rewrite append_array. cbn [rbind]. rewrite HA, append_ref.
    cbn [set_objs w_objs w_sets]. rewrite nth_error_snoc, Nat.eqb_refl, Hk.
    assert (Hr : mr A = n) by (apply (precomputed_rows _ _ n m A) in HA; [exact HA|reflexivity]).
    unfold joins, joined. cbn [obj_num]. rewrite Hr.
    assert (Hj : negb (s_init s) && numsamp_eqb (s_num s) NSNone || numsamp_eqb (s_num s) (NSOne n) = true).
    { destruct Hn as [[-> ->]| ->]; [reflexivity|]. apply orb_true_iff. right. apply numsamp_eqb_eq. reflexivity. }
    rewrite Hj. reflexivity.
  Qed.

  Definition pre_args (n m : nat) (ls : list (list V)) : list (karg V) :=
    map (fun l => AArray (Ok (mkNd [n; m] l))) ls.

  Lemma append_bad : forall k r e (w : World), rbind r (precomputed_new C (v_nan N)) = Raise e ->
    append (U := U) N C k (AArray r) w = (w, Raise e).
  Proof. intros k r e w H. rewrite append_array, H. reflexivity. Qed.

  Lemma loop_pre : forall n m k As ls (s : kset E) (w : World), nth_error (w_sets w) k = Some s ->
    (s_init s = false /\ s_num s = NSNone \/ s_num s = NSOne n) ->
    Forall2 (fun l A => precomputed_new C (v_nan N) (mkNd [n; m] l) = Ok A) ls As ->
    exists b,
    for_each (pre_args n m ls) (append (U := U) N C k) w =
    (mkW (w_objs w ++ map OPre As) (list_upd (w_sets w) k
       (mkSet (if length ls =? 0 then s_num s else NSOne n) b
              (s_members s ++ seq (length (w_objs w)) (length ls)) (s_sample s))), Ok tt).
  Proof.
    intros n m k. induction As as [|A As IH]; intros ls s w Hk Hn HF.
    - inversion HF; subst ls. exists (s_init s). cbn.
      rewrite !app_nil_r. destruct s as [a b c d]. cbn.
      replace (list_upd (w_sets w) k (mkSet a b c d)) with (w_sets w); [destruct w; reflexivity|].
      symmetry. apply list_upd_same. exact Hk.
    - inversion HF as [|l A' ls' As' HA HF' E1 E2]; subst. 
      set (s1 := mkSet (NSOne n) (s_init s || numsamp_eqb (s_num s) NSNone) (s_members s ++ [length (w_objs w)]) (s_sample s)).
      destruct (IH ls' s1 (mkW (w_objs w ++ [OPre A]) (list_upd (w_sets w) k s1))) as (b & Heq).
      + cbn. apply nth_error_upd_same with (1 := Hk).
      + right. reflexivity.
      + exact HF'.
      + exists b. cbn [pre_args map for_each]. unfold bind. rewrite (append_pre k s n m l A w Hk Hn HA).
        fold s1. fold (pre_args n m ls'). rewrite Heq. cbn [w_objs w_sets s1 s_members s_sample s_num length map Nat.eqb].
        rewrite list_upd_upd, <- !app_assoc. cbn [app]. rewrite app_length. cbn [length seq].
        rewrite Nat.add_1_r. destruct (length ls' =? 0); reflexivity.
  Qed.

  Lemma loop_stops : forall n m k As ls (s : kset E) l e rest (w : World), nth_error (w_sets w) k = Some s ->
    (s_init s = false /\ s_num s = NSNone \/ s_num s = NSOne n) ->
    Forall2 (fun l A => precomputed_new C (v_nan N) (mkNd [n; m] l) = Ok A) ls As ->
    precomputed_new C (v_nan N) (mkNd [n; m] l) = Raise e ->
    snd (for_each (pre_args n m (ls ++ l :: rest)) (append (U := U) N C k) w) = Raise e.
  Proof.
    intros n m k. induction As as [|A As IH]; intros ls s l e rest w Hk Hn HF He.
    - inversion HF; subst ls. cbn [app pre_args map for_each]. unfold bind. rewrite (append_bad k _ e) by exact He. reflexivity.
    - inversion HF as [|l1 A' ls' As' HA HF' E1 E2]; subst. cbn [app pre_args map for_each]. unfold bind at 1.
      rewrite (append_pre k s n m l1 A w Hk Hn HA). fold (pre_args n m (ls' ++ l :: rest)).
      apply (IH ls' (mkSet (NSOne n) (s_init s || numsamp_eqb (s_num s) NSNone) (s_members s ++ [length (w_objs w)]) (s_sample s)));
        [cbn; apply nth_error_upd_same with (1 := Hk)|right; reflexivity|exact HF'|exact He].
  Qed.
End Loop.

Lemma precomputed_error : forall {V} (C : cmpops V) d a e, precomputed_new C d a = Raise e -> e = ValueError.
Proof.
  intros V C d a e H. unfold precomputed_new in H.
  destruct (nd_shape a) as [|n [|m [|p l]]]; try (injection H as <-; reflexivity).
  unfold is_symmetric in H. cbn [mr mc] in H.
  destruct (bdim n m), (bdim m n); cbn [rbind] in H; try (injection H as <-; reflexivity);
  match type of H with (if ?b then _ else _) = _ => destruct b end; try discriminate H; injection H as <-; reflexivity.
Qed.

Lemma slices_args : forall {V} (a : ndarray V) c n m, nd_shape a = [c; n; m] ->
  subarrays a = Ok (pre_args n m (map (fun i => firstn (n * m) (skipn (i * (n * m)) (nd_data a))) (seq 0 c))).
Proof.
  intros V a c n m Hs. unfold subarrays. rewrite Hs. cbn [prod_list fold_right]. rewrite Nat.mul_1_r, reshape_slices.
  reflexivity.
Qed.

Lemma all_or_first : forall {A B} (f : A -> res B) l,
  (exists bs, Forall2 (fun a b => f a = Ok b) l bs) \/
  (exists l1 a l2 bs e, l = l1 ++ a :: l2 /\ Forall2 (fun a b => f a = Ok b) l1 bs /\ f a = Raise e).
Proof.
  intros A B f. induction l as [|a l IH]; [left; exists []; constructor|].
  destruct (f a) as [b|e] eqn:Ea.
  - destruct IH as [(bs & HF)|(l1 & a' & l2 & bs & e & -> & HF & He)].
    + left. exists (b :: bs). constructor; assumption.
    + right. exists (a :: l1), a', l2, (b :: bs), e. split; [reflexivity|]. split; [constructor; assumption|exact He].
  - right. exists [], a, l, [], e. split; [reflexivity|]. split; [constructor|exact Ea].
Qed.

Lemma Forall2_seq : forall {A B} (P : A -> B -> Prop) (f : nat -> A) l k,
  (forall i b, nth_error l i = Some b -> P (f (k + i)) b) -> Forall2 P (map f (seq k (length l))) l.
Proof.
  intros A B P f. induction l as [|b l IH]; intros k H; [constructor|]. cbn [length seq map]. constructor.
  - rewrite <- (Nat.add_0_r k). apply H. reflexivity.
  - apply IH. intros i b' Hb. rewrite Nat.add_succ_comm. apply H. exact Hb.
Qed.

(** An array of shape (c, n, m) whose slices are accepted by KernelMatrixPrecomputed gives the set of its
    slices, in order; each becomes a new kernel matrix. Nothing else changes. *)
Lemma pf_C45_array : forall E V U (N : numops V) (C : cmpops V) (numeric : list E -> bool) (w : world E V U)
    (a : ndarray V) c n m num As,
  nd_shape a = [c; n; m] -> length As = c ->
  (forall i A, nth_error As i = Some A -> precomputed_new C (v_nan N) (slice3 a n m i) = Ok A) ->
  num = None \/ num = Some n ->
  exists w' k, wstep N C numeric (WSetNew (KLArray a) num) w = (w', Ok (WSetRef k)) /\
    nth_error (w_sets w) k = None /\
    set_is w' k (if 0 <? c then NSOne n else match num with Some p => NSOne p | None => NSNone end)
           (seq (length (w_objs w)) c) /\
    w_objs w' = w_objs w ++ map OPre As /\ sets_kept w w'.
Proof.
  intros E V U N C numeric w a c n m num As Hs Hl HA Hn. cbn [wstep]. unfold wfmap, set_new, bind, new_set, lift.
  rewrite (slices_args a c n m Hs).
  set (s0 := match num with Some n => _ | None => _ end).
  set (w0 := set_sets (w_sets w ++ [s0]) w).
  assert (H0 : nth_error (w_sets w0) (length (w_sets w)) = Some s0).
  { cbn. rewrite nth_error_snoc, Nat.eqb_refl. reflexivity. }
  destruct (loop_pre N C n m (length (w_sets w)) As (map (fun i => firstn (n * m) (skipn (i * (n * m)) (nd_data a))) (seq 0 c)) s0 w0 H0)
    as (b & Heq).
  - destruct Hn as [-> | ->]; [left; split; reflexivity|right; reflexivity].
  - subst c. apply Forall2_seq. intros i A Hi. exact (HA i A Hi).
  - cbv beta iota. rewrite Heq. cbv beta iota. do 2 eexists. split; [reflexivity|].
    split; [apply nth_error_None; lia|]. rewrite map_length, seq_length. split; [|split].
    + exists b, (s_sample s0). cbn [w_sets]. erewrite nth_error_upd_same by exact H0.
      f_equal. replace (s_members s0) with (@nil nat) by (subst s0; destruct num; reflexivity). cbn [app w0 set_sets w_objs].
      f_equal. destruct c; [|reflexivity]. cbn. subst s0. destruct num; reflexivity.
    + reflexivity.
    + intros j t Hj. cbn [w_sets w0 set_sets].
      assert (Hlt : j < length (w_sets w)) by (apply nth_error_Some; congruence).
      rewrite nth_error_upd_other by lia. rewrite nth_error_app1 by exact Hlt. exact Hj.
Qed.

(** The entries of a member are those of the array. *)
Lemma pf_C45_array_entries : forall V (C : cmpops V) d (a : ndarray V) c n m i A p q,
  length (nd_data a) = c * n * m -> i < c -> p < n -> q < m ->
  precomputed_new C d (slice3 a n m i) = Ok A ->
  mr A = n /\ mc A = m /\ mget d A p q = nth ((i * n + p) * m + q) (nd_data a) d.
Proof.
  intros V C d a c n m i A p q Hd Hi Hp Hq H. unfold precomputed_new, slice3 in H. cbn [nd_shape nd_data] in H.
  destruct (is_symmetric C d _) as [b|e]; cbn [rbind] in H; [|discriminate H].
  destruct (negb b || negb _); [discriminate H|]. injection H as <-. split; [reflexivity|]. split; [reflexivity|].
  unfold mget. cbn [md mr mc]. rewrite reshape_slices.
  rewrite nth_indep with (d' := firstn m (skipn (0 * m) (firstn (n * m) (skipn (i * (n * m)) (nd_data a)))))
    by (rewrite map_length, seq_length; exact Hp).
  rewrite (map_nth (fun z => firstn m (skipn (z * m) (firstn (n * m) (skipn (i * (n * m)) (nd_data a))))) (seq 0 n) 0 p).
  rewrite seq_nth by exact Hp. cbn [Nat.add].
  rewrite nth_firstn_lt by exact Hq. rewrite nth_skipn_add.
  rewrite nth_firstn_lt by nia. rewrite nth_skipn_add. f_equal. lia.
Qed.

(** A slice not accepted makes the construction fail with ValueError. *)
Lemma pf_C45_array_bad_slice : forall E V U (N : numops V) (C : cmpops V) (numeric : list E -> bool) (w : world E V U)
    (a : ndarray V) c n m num i e,
  nd_shape a = [c; n; m] -> i < c -> precomputed_new C (v_nan N) (slice3 a n m i) = Raise e ->
  num = None \/ num = Some n ->
  snd (wstep N C numeric (WSetNew (KLArray a) num) w) = Raise ValueError.
Proof.
  intros E V U N C numeric w a c n m num i e Hs Hi He Hn. cbn [wstep]. unfold wfmap, set_new, bind, new_set, lift.
  rewrite (slices_args a c n m Hs).
  set (s0 := match num with Some n => _ | None => _ end).
  set (w0 := set_sets (w_sets w ++ [s0]) w).
  set (ls := map _ (seq 0 c)).
  assert (H0 : nth_error (w_sets w0) (length (w_sets w)) = Some s0).
  { cbn. rewrite nth_error_snoc, Nat.eqb_refl. reflexivity. }
  assert (Hin : In (nd_data (slice3 a n m i)) ls).
  { apply in_map_iff. exists i. split; [reflexivity|]. apply in_seq. lia. }
  destruct (all_or_first (fun l => precomputed_new C (v_nan N) (mkNd [n; m] l)) ls)
    as [(As & HF)|(l1 & l & l2 & As & e' & El & HF & Hl)].
  - exfalso. clearbody ls. induction HF as [|l A ls As H HF IH]; [destruct Hin|]. destruct Hin as [Hin|Hin].
    + unfold slice3 in He. cbn [nd_data slice3] in Hin. rewrite <- Hin in He. congruence.
    + apply IH. exact Hin.
  - rewrite El. assert (Hb : snd (for_each (pre_args n m (l1 ++ l :: l2)) (append (U := U) N C (length (w_sets w))) w0) = Raise e').
    { apply (loop_stops N C n m (length (w_sets w)) As l1 s0); try assumption.
      destruct Hn as [-> | ->]; [left; split; reflexivity|right; reflexivity]. }
    rewrite (precomputed_error _ _ _ _ Hl) in Hb. cbv beta iota.
    destruct (for_each _ _ w0) as [w1 [u|e1]]; cbn [snd] in Hb |- *; [discriminate Hb|injection Hb as ->; reflexivity].
Qed.

(** A number of samples that the slices do not have: the first slice decides how it fails. *)
Lemma pf_C45_array_number : forall E V U (N : numops V) (C : cmpops V) (numeric : list E -> bool) (w : world E V U)
    (a : ndarray V) c n m p,
  nd_shape a = [S c; n; m] -> p <> n ->
  snd (wstep N C numeric (WSetNew (KLArray a) (Some p)) w) =
  Raise (match precomputed_new C (v_nan N) (slice3 a n m 0) with Ok _ => KMSetAdditionError | Raise _ => ValueError end).
Proof.
  intros E V U N C numeric w a c n m p Hs Hp. cbn [wstep]. unfold wfmap, set_new, bind, new_set, lift.
  rewrite (slices_args a (S c) n m Hs). cbn [seq map pre_args for_each]. unfold bind.
  rewrite append_array. cbn [rbind]. change (mkNd [n; m] (firstn (n * m) (skipn (0 * (n * m)) (nd_data a)))) with (slice3 a n m 0).
  destruct (precomputed_new C (v_nan N) (slice3 a n m 0)) as [A|e] eqn:HA.
  - assert (Hr : mr A = n) by (apply (precomputed_rows C _ _ n m A) in HA; [exact HA|reflexivity]).
    rewrite append_ref. cbn [set_objs set_sets w_objs w_sets]. rewrite !nth_error_snoc, !Nat.eqb_refl.
    unfold joins. cbn [s_init s_num negb andb orb obj_num].
    assert (Hne : numsamp_eqb (NSOne p) (NSOne (mr A)) = false).
    { apply numsamp_eqb_neq. congruence. }
    rewrite Hne. reflexivity.
  - cbn [snd]. f_equal. exact (precomputed_error _ _ _ _ HA).
Qed.

(** Every other shape: no dimension, a TypeError (iteration over a 0-d array); first dimension zero, the
    empty set; otherwise ValueError, since what iteration yields is not a matrix. *)
Lemma pf_C45_array_shapes : forall E V U (N : numops V) (C : cmpops V) (numeric : list E -> bool) (w : world E V U)
    (a : ndarray V) num,
  (nd_shape a = [] -> snd (wstep N C numeric (WSetNew (KLArray a) num) w) = Raise TypeError) /\
  (forall rest, nd_shape a = 0 :: rest ->
     exists w' k, wstep N C numeric (WSetNew (KLArray a) num) w = (w', Ok (WSetRef k)) /\
       set_is w' k (match num with Some p => NSOne p | None => NSNone end) [] /\ w_objs w' = w_objs w) /\
  (forall c rest, nd_shape a = S c :: rest -> length rest <> 2 ->
     snd (wstep N C numeric (WSetNew (KLArray a) num) w) = Raise ValueError).
Proof.
  intros E V U N C numeric w a num. cbn [wstep]. unfold wfmap, set_new, bind, new_set, lift, subarrays.
  split; [|split].
  - intros ->. reflexivity.
  - intros rest ->. cbn. do 2 eexists. split; [reflexivity|]. split; [|reflexivity].
    destruct num; do 2 eexists; cbn; rewrite nth_error_snoc, Nat.eqb_refl; reflexivity.
  - intros c rest -> Hl. cbn [reshape map for_each]. unfold bind. rewrite append_array. cbn [rbind].
    unfold precomputed_new at 1. cbn [nd_shape].
    destruct rest as [|x [|y [|z l]]]; try reflexivity. cbn in Hl. lia.
Qed.

(** Two symmetric 2 x 2 matrices in one array; and with the second spoilt. *)
Lemma pf_C45_array_example :
  let a := mkNd [2; 2; 2] [Some 1; Some 2; Some 2; Some 5; Some 7; Some 0; Some 0; Some 7]%Z in
  let b := mkNd [2; 2; 2] [Some 1; Some 2; Some 2; Some 5; Some 7; Some 0; Some 1; Some 7]%Z in
  set_is (fst (wstep toyN toyC anynum (WSetNew (KLArray a) None) (w_empty : world _ _ Z))) 0 (NSOne 2) [0; 1] /\
  nth_error (w_objs (fst (wstep toyN toyC anynum (WSetNew (KLArray a) None) (w_empty : world _ _ Z)))) 1
    = Some (OPre (mkMat 2 2 [[Some 7; Some 0]; [Some 0; Some 7]]%Z)) /\
  snd (wstep toyN toyC anynum (WSetNew (KLArray b) None) (w_empty : world _ _ Z)) = Raise ValueError /\
  snd (wstep toyN toyC anynum (WSetNew (KLArray a) (Some 3)) (w_empty : world _ _ Z)) = Raise KMSetAdditionError.
Proof.
  cbv zeta. split; [do 2 eexists; vm_compute; reflexivity|]. repeat split; vm_compute; reflexivity.
Qed.

