(** A KernelMatrixPrecomputed and the array it shares with its caller (C114). *)
From Coq Require Import List Arith Bool Reals Lia Lra.
Import ListNotations.
From Verif Require Import Prelude MatModel UtilsModel KMModel XReal SetModel SpecSet PreModel.
From Verif Require Import MatFacts ContProps.

(*BEGIN PROP*)
(** What an operation writes into entry (i, j) of the matrix: with [shared] the argument of the constructor is the
    array itself. *)
Definition written (shared : bool) (o : @pop xr) (i j : nat) : option xr :=
  match o with
  | PWrite HArg a b v => if shared && (a =? i) && (b =? j) then Some v else None
  | PWrite HFull a b v => if (a =? i) && (b =? j) then Some v else None
  | PWrite (HRow r) _ b v => if (r =? i) && (b =? j) then Some v else None
  | PWrite (HBlock p q) a b v => if (p + a =? i) && (q + b =? j) then Some v else None
  | _ => None
  end.
(** The last value written into entry (i, j), or [v]. *)
Definition entry_after (shared : bool) (l : list pop) (v : xr) (i j : nat) : xr :=
  fold_left (fun u o => match written shared o i j with Some w => w | None => u end) l v.
(** The same for the argument of the constructor, if it is not shared. *)
Definition own_after (l : list (@pop xr)) (v : xr) (i j : nat) : xr :=
  fold_left (fun u o => match o with PWrite HArg a b w => if (a =? i) && (b =? j) then w else u | _ => u end) l v.
(*END PROP*)

Lemma mset_tabulate : forall n m (f : nat -> nat -> xr) a b v, a < n -> b < m ->
  mset (tabulate n m f) a b v = tabulate n m (fun i j => if (a =? i) && (b =? j) then v else f i j).
Proof.
  intros n m f a b v Ha Hb. assert (W := mset_wf n m (tabulate n m f) a b v (tabulate_wf n m f)).
  apply (mat_eq NaN n m); [exact W|apply tabulate_wf|]. intros i j Hi Hj.
  rewrite (mget_mset NaN n m) by (try assumption; apply tabulate_wf). rewrite !mget_tabulate by assumption.
  rewrite (Nat.eqb_sym i a), (Nat.eqb_sym j b). reflexivity.
Qed.

Definition inv (n m : nat) (shared : bool) (g h : nat -> nat -> xr) (s : @pstate xr) : Prop :=
  p_km s = 0 /\ (if shared then p_arg s = 0 /\ p_heap s = [tabulate n m g]
                 else p_arg s = 1 /\ p_heap s = [tabulate n m g; tabulate n m h]).

Lemma off : forall n m a b i j, (a <? n) && (b <? m) = false -> i < n -> j < m -> (a =? i) && (b =? j) = false.
Proof.
  intros n m a b i j H Hi Hj. destruct (Nat.eqb_spec a i) as [->|]; [|reflexivity]. destruct (Nat.eqb_spec b j) as [->|]; [|reflexivity].
  apply Nat.ltb_lt in Hi, Hj. rewrite Hi, Hj in H. discriminate.
Qed.

Lemma inv_ext : forall n m sh g g' h h' s, inv n m sh g h s ->
  (forall i j, i < n -> j < m -> g i j = g' i j) -> (forall i j, i < n -> j < m -> h i j = h' i j) -> inv n m sh g' h' s.
Proof.
  intros n m sh g g' h h' s (K & H) Eg Eh. split; [exact K|].
  rewrite <- (tabulate_ext n m g g' Eg), <- (tabulate_ext n m h h' Eh). exact H.
Qed.

Lemma inv_other : forall n m g h h' s, inv n m true g h s -> inv n m true g h' s.
Proof. intros n m g h h' s H. exact H. Qed.

Lemma inv_step : forall n m sh g h s o, inv n m sh g h s ->
  inv n m sh (fun i j => match written sh o i j with Some w => w | None => g i j end)
           (fun i j => match o with PWrite HArg a b w => if (a =? i) && (b =? j) then w else h i j | _ => h i j end)
           (pre_step o s).
Proof.
  intros n m sh g h s o (K & H).
  assert (KM : forall l a b v, l = 0 -> inv n m sh (fun i j => match (if (a =? i) && (b =? j) then Some v else None) with Some w => w | None => g i j end) h
            (let A := array_at s l in if (a <? mr A) && (b <? mc A)
             then mkP (list_upd (p_heap s) l (mset A a b v)) (p_km s) (p_arg s) (p_num s) else s)).
  { intros l a b v ->. unfold array_at. destruct sh; destruct H as [Ha Hh]; rewrite Hh; cbn [nth mr mc tabulate];
      (destruct ((a <? n) && (b <? m)) eqn:E;
       [apply andb_true_iff in E as [E1 E2]; apply Nat.ltb_lt in E1, E2; fold (tabulate n m g); rewrite mset_tabulate by assumption;
        split; [exact K|]; cbn [p_arg p_heap list_upd]; split; [exact Ha|];
        rewrite (tabulate_ext n m (fun i j => if (a =? i) && (b =? j) then v else g i j)
                   (fun i j => match (if (a =? i) && (b =? j) then Some v else None) with Some w => w | None => g i j end));
          [reflexivity|intros i j _ _; destruct ((a =? i) && (b =? j)); reflexivity]
       |apply (inv_ext n m _ g _ h h); [split; [exact K|split; assumption]|intros i j Hi Hj; rewrite (off n m a b i j E Hi Hj); reflexivity|reflexivity]]). }
  destruct o as [hd a b v|k].
  2:{ split; [exact K|exact H]. }
  destruct hd as [| |r|p q|]; cbn [pre_step target written].
  - destruct sh.
    + destruct H as [Ha Hh]. cbn [andb]. exact (inv_other n m _ _ _ _ (KM _ a b v Ha)).
    + destruct H as [Ha Hh]. unfold array_at. rewrite Ha, Hh, K. cbn [nth mr mc tabulate andb].
      destruct ((a <? n) && (b <? m)) eqn:E.
      * apply andb_true_iff in E as [E1 E2]. apply Nat.ltb_lt in E1, E2. fold (tabulate n m h). rewrite mset_tabulate by assumption.
        split; [reflexivity|]. cbn [p_arg p_heap list_upd]. split; reflexivity.
      * apply (inv_ext n m _ g _ h); [split; [exact K|split; assumption]|reflexivity|].
        intros i j Hi Hj. rewrite (off n m a b i j E Hi Hj). reflexivity.
  - exact (KM _ a b v K).
  - exact (KM _ r b v K).
  - exact (KM _ (p + a) (q + b) v K).
  - split; [exact K|exact H].
Qed.

Lemma inv_run : forall n m sh l g h s, inv n m sh g h s ->
  inv n m sh (fun i j => entry_after sh l (g i j) i j) (fun i j => own_after l (h i j) i j) (pre_run l s).
Proof.
  intros n m sh l. induction l as [|o l IH]; intros g h s H; [exact H|].
  exact (IH _ _ _ (inv_step n m sh g h s o H)).
Qed.

Lemma init_matrix : forall n m f A, precomputed_new xC NaN (array2 n m f) = Ok A -> A = tabulate n m f.
Proof.
  intros n m f A H. rewrite precomputed_array2 in H. destruct (is_symmetric xC NaN (tabulate n m f)) as [b|e]; [|discriminate H].
  cbn [rbind] in H. destruct (negb b || _); [discriminate H|]. injection H as <-. reflexivity.
Qed.

Lemma inv_init : forall n m f sh s, pre_init xC NaN sh (array2 n m f) = Ok s -> inv n m sh f f s.
Proof.
  intros n m f sh s H. unfold pre_init in H. destruct (precomputed_new xC NaN (array2 n m f)) as [A|e] eqn:E; [|discriminate H].
  apply init_matrix in E. subst A. cbn in H. injection H as <-. destruct sh; split; try reflexivity; split; reflexivity.
Qed.

Lemma init_num : forall n m f sh s, pre_init xC NaN sh (array2 n m f) = Ok s -> p_num s = n.
Proof.
  intros n m f sh s H. unfold pre_init in H. destruct (precomputed_new xC NaN (array2 n m f)) as [A|e] eqn:E; [|discriminate H].
  apply init_matrix in E. subst A. cbn in H. injection H as <-. destruct sh; reflexivity.
Qed.

Lemma inv_full : forall n m sh g h s, inv n m sh g h s -> pre_full s = tabulate n m g.
Proof. intros n m sh g h s (K & H). unfold pre_full, array_at. rewrite K. destruct sh; destruct H as [_ ->]; reflexivity. Qed.

Lemma inv_arg : forall n m sh g h s, inv n m sh g h s -> array_at s (p_arg s) = tabulate n m (if sh then g else h).
Proof. intros n m sh g h s (K & H). unfold array_at. destruct sh; destruct H as [-> ->]; reflexivity. Qed.

(** The constructor accepts every n by n array that is symmetric up to the tolerance of allclose. *)
Lemma pf_C114_init : forall n f shared, (forall i j, i < n -> j < n -> close (f i j) (f j i)) ->
  exists s, pre_init xC NaN shared (array2 n n f) = Ok s /\ p_num s = n /\ pre_full s = tabulate n n f.
Proof.
  intros n f sh Hc. unfold pre_init. rewrite (proj1 (pf_C46_square_partial n f) Hc). cbn [rbind].
  eexists. split; [reflexivity|]. destruct sh; split; reflexivity.
Qed.

(** Entry (i, j) of [full] is, at any time, the value last written to it: through [full], a row [km[r]], a
    block [km[a:, c:]], or the argument of the constructor if that was an ndarray; otherwise the entry of the
    argument. Nothing else changes it. *)
Lemma pf_C114_full : forall n m f shared s l,
  pre_init xC NaN shared (array2 n m f) = Ok s ->
  pre_full (pre_run l s) = tabulate n m (fun i j => entry_after shared l (f i j) i j).
Proof.
  intros n m f sh s l H. exact (inv_full _ _ _ _ _ _ (inv_run n m sh l f f s (inv_init n m f sh s H))).
Qed.

(** Indexing and [diag] read these entries; an index beyond the size raises KMAccessError. *)
Lemma pf_C114_reads : forall n m f shared s l i j,
  pre_init xC NaN shared (array2 n m f) = Ok s ->
  pre_item NaN i j (pre_run l s)
    = (if (i <? n) && (j <? m) then Ok (entry_after shared l (f i j) i j) else Raise KMAccessError) /\
  pre_diag NaN (pre_run l s) = map (fun k => entry_after shared l (f k k) k k) (seq 0 (Nat.min n m)).
Proof.
  intros n m f sh s l i j H. unfold pre_item, pre_diag. rewrite (pf_C114_full n m f sh s l H). cbn [mr mc tabulate].
  fold (tabulate n m (fun i j => entry_after sh l (f i j) i j)). split.
  - destruct (Nat.ltb_spec i n); [|reflexivity]. destruct (Nat.ltb_spec j m); [|reflexivity]. cbn [andb].
    rewrite mget_tabulate by assumption. reflexivity.
  - apply map_ext_in. intros k Hk. apply in_seq in Hk. rewrite mget_tabulate by lia. reflexivity.
Qed.

(** [size] is that of the array, also after assignments to [num_samples]. *)
Lemma pf_C114_size : forall n m f shared s l,
  pre_init xC NaN shared (array2 n m f) = Ok s ->
  p_num s = n /\ pre_size (pre_run l s) = n /\
  (forall k, p_num (pre_run (l ++ [PSetNum k]) s) = k /\ pre_size (pre_run (l ++ [PSetNum k]) s) = n).
Proof.
  intros n m f sh s l H. unfold pre_size. split; [exact (init_num n m f sh s H)|]. split; [rewrite (pf_C114_full n m f sh s l H); reflexivity|].
  intros k. split; [unfold pre_run; rewrite fold_left_app; reflexivity|].
  rewrite (pf_C114_full n m f sh s _ H). reflexivity.
Qed.

(** An ndarray given to the constructor and [full] are the same array at any time. *)
Lemma pf_C114_same : forall n m f s l,
  pre_init xC NaN true (array2 n m f) = Ok s ->
  array_at (pre_run l s) (p_arg (pre_run l s)) = pre_full (pre_run l s).
Proof.
  intros n m f s l H. pose proof (inv_run n m true l f f s (inv_init n m f true s H)) as I.
  rewrite (inv_full _ _ _ _ _ _ I). exact (inv_arg _ _ _ _ _ _ I).
Qed.

(** A list given to the constructor has, at any time, the entries last written into it itself, and
    writing into it does not change [full]. *)
Lemma pf_C114_list : forall n m f s l,
  pre_init xC NaN false (array2 n m f) = Ok s ->
  array_at (pre_run l s) (p_arg (pre_run l s)) = tabulate n m (fun i j => own_after l (f i j) i j) /\
  (forall i j v, pre_full (pre_run (l ++ [PWrite HArg i j v]) s) = pre_full (pre_run l s)).
Proof.
  intros n m f s l H. split; [exact (inv_arg _ _ _ _ _ _ (inv_run n m false l f f s (inv_init n m f false s H)))|].
  intros i j v. rewrite !(pf_C114_full n m f false s _ H). apply tabulate_ext. intros a b _ _.
  unfold entry_after. rewrite fold_left_app. reflexivity.
Qed.

(** The symmetry tested by the constructor is not kept: for every n above 1 and every accepted array there is one
    write of a finite number into [full], and, if the argument was an ndarray, one into the argument, after which the
    constructor would reject the matrix that [full] returns. *)
Lemma pf_C114_refuted : forall n f, 1 < n -> (forall i j, i < n -> j < n -> close (f i j) (f j i)) ->
  exists r, forall h shared s, (h = HFull \/ h = HArg /\ shared = true) ->
    pre_init xC NaN shared (array2 n n f) = Ok s ->
    exists g, pre_full (pre_step (PWrite h 0 1 (Fin r)) s) = tabulate n n g /\
              precomputed_new xC NaN (array2 n n g) = Raise ValueError.
Proof.
  intros n f Hn Hc.
  assert (F : exists r, ~ close (Fin r) (f 1 0)).
  { destruct (f 1 0) as [r| | |]; [|exists 0%R; intros []..]. exists (r + 1 + Rabs r)%R. cbn [close].
    replace (r + 1 + Rabs r - r)%R with (1 + Rabs r)%R by ring. pose proof (Rabs_pos r).
    rewrite (Rabs_right (1 + Rabs r)) by lra. lra. }
  destruct F as [r F]. exists r. intros h sh s Hh H.
  exists (fun i j => entry_after sh [PWrite h 0 1 (Fin r)] (f i j) i j). split; [exact (pf_C114_full n n f sh s [_] H)|].
  apply (proj2 (pf_C46_square_partial n _)). intros A. specialize (A 0 1 ltac:(lia) Hn). apply F.
  destruct Hh as [->|[-> ->]]; exact A.
Qed.

(** A case: the 2 by 2 identity given as an ndarray; 5 is written into entry (0, 1) of the argument, then 7
    into item 1 of the row [km[0]], 3 into the block [km[1:, 1:]], 9 beyond the array, and 8 into a copy. *)
Lemma pf_C114_example :
  let f := fun i j : nat => if i =? j then Fin 1 else Fin 0 in
  exists s, pre_init xC NaN true (array2 2 2 f) = Ok s /\
    pre_full (pre_run [PWrite HArg 0 1 (Fin 5); PWrite (HRow 0) 0 1 (Fin 7); PWrite (HBlock 1 1) 0 0 (Fin 3);
                       PWrite HFull 2 0 (Fin 9); PWrite HCopy 1 0 (Fin 8); PSetNum 6] s)
      = mkMat 2 2 [[Fin 1; Fin 7]; [Fin 0; Fin 3]].
Proof.
  intros f. assert (Hc : forall i j, i < 2 -> j < 2 -> close (f i j) (f j i)).
  { intros i j _ _. unfold f. rewrite (Nat.eqb_sym j i). destruct (i =? j); cbn [close]; rewrite Rminus_diag_eq, Rabs_R0 by reflexivity; pose proof (Rabs_pos 1); pose proof (Rabs_pos 0); lra. }
  destruct (pf_C114_init 2 f true Hc) as [s (H & _ & _)]. exists s. split; [exact H|].
  rewrite (pf_C114_full 2 2 f true s _ H). reflexivity.
Qed.

(** A case that is not square: a 1 by 2 ndarray of 3s is accepted; after 5 is written into item 1 of the row [km[0]]
    and 9 into entry (1, 0), which is beyond the array, [size] is 1 and [full] is [[3, 5]]. *)
Lemma pf_C114_row_example :
  exists s, pre_init xC NaN true (array2 1 2 (fun _ _ => Fin 3)) = Ok s /\
    let s' := pre_run [PWrite (HRow 0) 0 1 (Fin 5); PWrite HFull 1 0 (Fin 9)] s in
    pre_full s' = mkMat 1 2 [[Fin 3; Fin 5]] /\ pre_size s' = 1.
Proof.
  destruct (pre_init xC NaN true (array2 1 2 (fun _ _ => Fin 3))) as [s|e] eqn:H.
  - exists s. split; [reflexivity|]. cbv zeta. unfold pre_size. rewrite (pf_C114_full 1 2 _ true s _ H). split; reflexivity.
  - exfalso. destruct (pf_C46_one_row 2 (fun _ => Fin 3) ltac:(lia)) as [O _].
    assert (C : forall i j, i < 2 -> j < 2 -> close (Fin 3) (Fin 3)).
    { intros i j _ _. cbn [close]. rewrite Rminus_diag_eq, Rabs_R0 by reflexivity. pose proof (Rabs_pos 3). lra. }
    unfold pre_init in H. rewrite (proj1 (O C)) in H. discriminate H.
Qed.
