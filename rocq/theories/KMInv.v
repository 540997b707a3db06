(** Invariants of an attached KernelMatrix, preserved by every public operation. *)
From Coq Require Import String List Arith ZArith Bool Lia.
Import ListNotations.
From Verif Require Import Prelude MatModel MatFacts UtilsModel IndexModel KMModel SpecKM MFacts
  KMFacts.

(** ** attach_to *)

Lemma filter_ones : forall l, Forall (fun s => s = 1) l ->
  filter (fun s => negb (s =? 1)) l = [].
Proof.
  intros l H. induction H as [|x l Hx Hl IH]; [reflexivity|]. subst x. exact IH.
Qed.

Lemma filter_ones_inv : forall l, filter (fun s => negb (s =? 1)) l = [] ->
  Forall (fun s => s = 1) l.
Proof.
  intros l. induction l as [|x l IH]; intros H; [constructor|]. simpl in H.
  destruct (x =? 1) eqn:Ex; [|discriminate]. apply Nat.eqb_eq in Ex. constructor; auto.
Qed.

Lemma ensure_2D_own_ok : forall {E} (x : ndarray E) n d, is_sample x n d ->
  ensure_2D_own x = Ok (mkNd [n; d] (nd_data x)).
Proof.
  intros E x n d (extra & Hs & Hex). unfold ensure_2D_own, ensure_ndarray_2D,
    ensure_ndarray_size, squeeze_from, nd_ndim. rewrite Hs. cbn [firstn skipn nd_shape nd_data].
  rewrite (filter_ones extra Hex). reflexivity.
Qed.

Lemma ensure_2D_own_inv : forall {E} (x : ndarray E) a, ensure_2D_own x = Ok a ->
  exists n d, is_sample x n d /\ a = mkNd [n; d] (nd_data x).
Proof.
  intros E x a H. unfold ensure_2D_own, ensure_ndarray_2D, ensure_ndarray_size, squeeze_from,
    nd_ndim in H. cbn [nd_shape nd_data] in H.
  destruct (nd_shape x) as [|n [|d extra]] eqn:Hs; try discriminate.
  cbn [firstn skipn] in H. 
  destruct (filter (fun s => negb (s =? 1)) extra) as [|z zs] eqn:Hf; [|discriminate].
  cbn in H. exists n, d. split.
  - exists extra. split; [exact Hs|apply filter_ones_inv; exact Hf].
  - inversion H. reflexivity.
Qed.

Lemma ensure_2D_own_raise : forall {E} (x : ndarray E) e, ensure_2D_own x = Raise e ->
  e = ValueError.
Proof.
  intros E x e H. unfold ensure_2D_own, ensure_ndarray_2D, ensure_ndarray_size in H.
  destruct (negb (nd_ndim (squeeze_from 2 x) =? 2)); simpl in H; congruence.
Qed.

(** The stored form of a sample. *)
Definition stored {E} (n d : nat) (x : ndarray E) : ndarray E := mkNd [n; d] (nd_data x).
Definition stored2 {E} (n m d : nat) (x : ndarray E) (y : option (ndarray E)) : ndarray E :=
  match y with None => stored n d x | Some y' => stored m d y' end.

(** The state after a successful attach_to. *)
Definition attached {E V U} (s : km E V U) (x : ndarray E) (y : option (ndarray E))
           (n m d : nat) : km E V U :=
  reset (set_sizes (if is_some y then NSTwo n m else NSOne n) (n, m) (is_some y)
           (set_sample_two (stored2 n m d x y) (set_sample (stored n d x) s))).

Lemma attach_to_ok : forall {E V U} (s : km E V U) x y n m d, admissible x y n m d ->
  attach_to x y s = (attached s x y n m d, Ok tt).
Proof.
  intros E V U s x y n m d [Hx Hy]. unfold attach_to, bind, lift, modify.
  rewrite (ensure_2D_own_ok x n d Hx). cbn [nd_shape nth].
  destruct y as [y|].
  - rewrite (ensure_2D_own_ok y m d Hy). cbn [nd_shape nth].
    rewrite Nat.eqb_refl. reflexivity.
  - subst m. reflexivity.
Qed.

Lemma attach_to_inv : forall {E V U} (s s' : km E V U) x y,
  attach_to x y s = (s', Ok tt) -> exists n m d, admissible x y n m d /\
                                                 s' = attached s x y n m d.
Proof.
  intros E V U s s' x y H. unfold attach_to, bind, lift in H.
  destruct (ensure_2D_own x) as [a|e] eqn:Hx; [|discriminate].
  destruct (ensure_2D_own_inv x a Hx) as (n & d & Hs & ->).
  destruct y as [y|].
  - unfold modify in H. destruct (ensure_2D_own y) as [b|e] eqn:Hy; [|discriminate].
    destruct (ensure_2D_own_inv y b Hy) as (m & d' & Hsy & ->).
    cbn [nd_shape nth] in H. destruct (d =? d') eqn:Hd; [|discriminate].
    apply Nat.eqb_eq in Hd. subst d'. cbn [negb] in H.
    exists n, m, d. split; [split; assumption|]. inversion H. reflexivity.
  - unfold modify in H. cbn in H. exists n, n, d. split; [split; [exact Hs|reflexivity]|].
    inversion H. reflexivity.
Qed.

Section AttachInv.
  Context {E V U : Type}.
  Variable N : numops V.
  Variable K : kernel E V.
  Variable k : list E -> list E -> V.

  Lemma attached_inv : forall (s : km E V U) x y n m d, k_kernel s = K ->
    admissible x y n m d ->
    inv K k (k_keep_normed s) (stored n d x) (stored2 n m d x y) (is_some y) n m d
        (g_tag s) (g_calls s) (attached s x y n m d).
  Proof.
    intros s x y n m d HK Hadm. constructor.
    - constructor; try reflexivity. exact HK.
    - constructor; cbn.
      + intros p v [].
      + constructor.
      + reflexivity.
    - exists []. split; [reflexivity|]. split; [reflexivity|constructor].
  Qed.

  Lemma stored2_one : forall (x : ndarray E) y n m d, admissible x y n m d ->
    is_some y = false -> stored2 n m d x y = stored n d x /\ m = n.
  Proof.
    intros x y n m d [_ Hy] H. destruct y; [discriminate|]. split; [reflexivity|exact Hy].
  Qed.

  Lemma stored2_shape : forall (x : ndarray E) y n m d, admissible x y n m d ->
    nd_shape (stored2 n m d x y) = [m; d].
  Proof.
    intros x y n m d [_ Hy]. destruct y; simpl; [reflexivity|]. subst m. reflexivity.
  Qed.

  (** The matrix of the spec and the value function of the invariant agree. *)
  Lemma truev_entry : forall (x : ndarray E) y n m d i j,
    truev k (stored n d x) (stored2 n m d x y) (is_some y) d i j = entry k d x y i j.
  Proof.
    intros x y n m d i j. unfold truev, norm, entry.
    destruct y as [y|]; cbn [is_some fst snd stored2]; [reflexivity|].
    destruct (i <=? j) eqn:Hij.
    - apply Nat.leb_le in Hij. replace (Nat.min i j) with i by lia.
      replace (Nat.max i j) with j by lia. reflexivity.
    - apply Nat.leb_gt in Hij. replace (Nat.min i j) with j by lia.
      replace (Nat.max i j) with i by lia. reflexivity.
  Qed.
End AttachInv.

(** The hypotheses about the kernel, transported to the stored samples. *)
Lemma row_stored : forall {E} (x : ndarray E) y n m d u, admissible x y n m d ->
  is_row (stored n d x) (Some (stored2 n m d x y)) n m d u -> is_row x y n m d u.
Proof. intros E x y n m d u _ H. destruct y; exact H. Qed.
Lemma ret_stored : forall {E V} (K : kernel E V) k x y n m d, admissible x y n m d ->
  returns_only K k x y n m d ->
  returns_only K k (stored n d x) (Some (stored2 n m d x y)) n m d.
Proof. intros E V K k x y n m d Ha H t u v Hu Hv. apply H; eapply row_stored; eassumption. Qed.
Lemma nr_stored : forall {E V} (K : kernel E V) k x y n m d, admissible x y n m d ->
  never_raises K k x y n m d ->
  never_raises K k (stored n d x) (Some (stored2 n m d x y)) n m d.
Proof. intros E V K k x y n m d Ha H t u v Hu Hv. apply H; eapply row_stored; eassumption. Qed.

(** Hypotheses about two samples give those about each of them alone. *)
Lemma ret_first : forall {E V} (K : kernel E V) k x y n m d,
  returns_only K k x (Some y) n m d -> returns_only K k x None n n d.
Proof.
  intros E V K k x y n m d H t u v [i Hu] [j Hv].
  apply H; [exists i; left; tauto|exists j; left; tauto].
Qed.
Lemma ret_second : forall {E V} (K : kernel E V) k x y n m d,
  returns_only K k x (Some y) n m d -> returns_only K k y None m m d.
Proof.
  intros E V K k x y n m d H t u v [i Hu] [j Hv].
  apply H; [exists i; right; tauto|exists j; right; tauto].
Qed.
Lemma raised_first : forall {E V} (K : kernel E V) x y n m d e,
  raised K x x n n d e -> raised K x y n m d e.
Proof.
  intros E V K x y n m d e (t & u & v & [i Hu] & [j Hv] & H). exists t, u, v.
  split; [exists i; left; tauto|]. split; [exists j; left; tauto|exact H].
Qed.
Lemma raised_second : forall {E V} (K : kernel E V) x y n m d e,
  raised K y y m m d e -> raised K x y n m d e.
Proof.
  intros E V K x y n m d e (t & u & v & [i Hu] & [j Hv] & H). exists t, u, v.
  split; [exists i; right; tauto|]. split; [exists j; right; tauto|exact H].
Qed.

(** ** Diagonals of the temporaries of normalize *)
Section Temp.
  Context {E V U : Type}.
  Variable K : kernel E V.
  Variable k : list E -> list E -> V.

  Lemma temp_diagonal_spec : forall tg (x : ndarray E) r d (s : km E V U),
    returns_only K k x None r r d ->
    k_kernel s = K -> nd_shape x = [r; d] ->
    holds (temp_diagonal tg x) s (fun s' res =>
      exists added, s' = log_calls (added ++ g_calls s) s /\
        Forall (fun c => c_tag c = tg) added /\
        match res with
        | Ok l => l = map (fun i => k (row_of d x i) (row_of d x i)) (seq 0 r)
        | Raise e => raised K x x r r d e
        end).
  Proof.
    intros tg x r d s Hret HK Hx. unfold temp_diagonal. apply holds_bind, holds_get.
    set (t0 := km_new_tagged (k_kernel s) false (g_calls s) tg : km E V U).
    assert (Hadm : admissible x None r r d).
    { split; [|reflexivity]. exists []. split; [exact Hx|constructor]. }
    assert (Hinv := attached_inv K k t0 x None r r d HK Hadm).
    assert (Hcomp : holds (attach_to x None ;;; diagonal) t0 (fun s' res =>
              (exists added, g_calls s' = added ++ g_calls s /\
                             Forall (fun c => c_tag c = tg) added) /\
              match res with
              | Ok l => l = map (fun i => k (row_of d x i) (row_of d x i)) (seq 0 r)
              | Raise e => raised K x x r r d e
              end)).
    { apply holds_bind. unfold holds at 1. rewrite (attach_to_ok t0 x None r r d Hadm).
      cbn [fst snd]. set (t1 := attached t0 x None r r d) in *.
      unfold diagonal. apply holds_bind.
      eapply holds_attr_or; [reflexivity|]. cbn [negb is_some].
      apply holds_bind. eapply holds_attr_or; [reflexivity|]. cbn [fst].
      assert (Hrg : forall p, In p (map (fun i => (i, i)) (seq 0 r)) -> fst p < r /\ snd p < r).
      { intros p Hp. apply in_map_iff in Hp. destruct Hp as (i & <- & Hi).
        apply in_seq in Hi. simpl. lia. }
      assert (Hret' : returns_only K k (stored r d x) (Some (stored r d x)) r r d) by exact Hret.
      assert (H := eval_list_spec K k false (stored r d x) (stored r d x) false r r d tg
                     (g_calls s) Hret' eq_refl eq_refl (fun _ => conj eq_refl eq_refl)
                     (map (fun i => (i, i)) (seq 0 r)) t1 Hinv Hrg).
      assert (Hsame : forall l (st : km E V U),
                map_each (map (fun i => (i, i)) l) (fun p => eval_kernel (fst p) (snd p)) st
                = map_each l (fun i => eval_kernel i i) st).
      { intros l. induction l as [|a l IH]; intros st; [reflexivity|].
        cbn [map map_each fst snd]. unfold bind.
        destruct (eval_kernel a a st) as [st' [v|e]]; [|reflexivity].
        rewrite IH. reflexivity. }
      unfold holds in H |- *. rewrite Hsame in H.
      destruct H as (_ & _ & _ & (_ & added & Hadd & Htags) & Hr).
      split.
      - exists added. split; [exact Hadd|]. apply Forall_forall. intros c Hc.
        apply Htags, Hc.
      - destruct (snd (map_each (seq 0 r) (fun i => eval_kernel i i) t1)) as [l|e];
          [|exact Hr].
        destruct Hr as [-> _]. rewrite map_map. apply map_ext. intros i.
        unfold truev, norm. cbn [fst snd]. rewrite Nat.min_id, Nat.max_id. reflexivity. }
    unfold holds in Hcomp. destruct Hcomp as [(added & Hadd & Htags) Hr].
    cbv zeta. apply holds_bind, holds_modify, holds_lift.
    exists added. split; [rewrite Hadd; reflexivity|]. split; [exact Htags|exact Hr].
  Qed.
End Temp.
