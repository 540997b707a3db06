(** A ConstantKernelMatrix over its life: dtype, assigned attributes, cached full matrix (C113). *)
From Coq Require Import List Arith ZArith Bool Reals Lra Lia.
Import ListNotations.
From Verif Require Import Prelude MatModel UtilsModel IndexModel KMModel XReal SetModel SpecKM SpecSet ConstModel SpecConst.
From Verif Require Import MatFacts ContProps.
Local Open Scope Z_scope.

Lemma rtrunc_spec : forall r, without_fraction r (rtrunc r).
Proof.
  intros r. unfold rtrunc, without_fraction. destruct (Rle_dec 0 r) as [H|H].
  - left. destruct (base_Int_part r). split; [exact H|]. lra.
  - right. destruct (base_Int_part (- r)). rewrite opp_IZR. split; lra.
Qed.
Lemma without_fraction_unique : forall r y z, without_fraction r y -> without_fraction r z -> y = z.
Proof.
  intros r y z [[H1 [H2 H3]]|[H1 [H2 H3]]] [[G1 [G2 G3]]|[G1 [G2 G3]]]; try lra;
    (assert (IZR y < IZR (z + 1))%R by (rewrite plus_IZR; lra); assert (IZR z < IZR (y + 1))%R by (rewrite plus_IZR; lra);
     repeat match goal with H : (IZR _ < IZR _)%R |- _ => apply lt_IZR in H end; lia).
Qed.

Lemma cast_converts : forall junk rnd d v w, converts d v w -> np_cast junk rnd d v = w.
Proof.
  intros junk rnd d v w H. destruct H as [v|x|z Hz|b|z|r z Hr Hz|b|b|z b Hb|x b Hb]; unfold np_cast; try reflexivity.
  - apply Z.leb_le in Hz. now rewrite Hz.
  - assert (E : rtrunc r = z) by (apply (without_fraction_unique r); [apply rtrunc_spec|exact Hr]).
    unfold int64_ok. rewrite E. destruct (Z.leb_spec (- 2 ^ 63) z); [|lia]. destruct (Z.ltb_spec z (2 ^ 63)); [|lia]. reflexivity.
  - f_equal. destruct b; [apply negb_true_iff, Z.eqb_neq; now apply Hb|]. apply negb_false_iff, Z.eqb_eq.
    destruct (Z.eq_dec z 0) as [E|E]; [exact E|]. apply Hb in E. discriminate.
  - f_equal. destruct x as [r| | |].
    + destruct (Req_EM_T r 0) as [->|N].
      * destruct b; [|reflexivity]. exfalso. now apply (proj1 Hb).
      * symmetry. apply Hb. intros E. now injection E.
    + symmetry. apply Hb. discriminate.
    + symmetry. apply Hb. discriminate.
    + symmetry. apply Hb. discriminate.
Qed.

Section Facts.
  Variable junk : xr -> Z.
  Variable rnd : Z -> xr.
  Notation run := (const_run junk rnd).
  Notation step := (const_step junk rnd).

  Lemma full_attrs : forall s, let s' := fst (const_full_attr junk rnd s) in
    o_num s' = o_num s /\ o_value s' = o_value s /\ o_dtype s' = o_dtype s.
  Proof. intros s. unfold const_full_attr. destruct (o_KM s), (o_num s <? 0); cbn; auto. Qed.

  Lemma step_attrs : forall o s,
    o_num (step o s) = last_num (o_num s) [o] /\ o_value (step o s) = last_value (o_value s) [o] /\
    o_dtype (step o s) = last_dtype (o_dtype s) [o].
  Proof.
    intros o s. assert (F := full_attrs s). destruct o; cbn [const_step last_num last_value last_dtype]; try (cbn; auto; fail).
    unfold const_write. destruct (const_full_attr junk rnd s) as [s' [A|e]]; cbn [fst] in F |- *; [|exact F].
    destruct ((i <? mr A)%nat && (j <? mc A)%nat); exact F.
  Qed.

  Lemma run_attrs : forall l s,
    o_num (run l s) = last_num (o_num s) l /\ o_value (run l s) = last_value (o_value s) l /\
    o_dtype (run l s) = last_dtype (o_dtype s) l.
  Proof.
    induction l as [|o l IH]; intros s; [cbn; auto|]. change (run (o :: l) s) with (run l (step o s)).
    destruct (IH (step o s)) as (E1 & E2 & E3). destruct (step_attrs o s) as (F1 & F2 & F3).
    rewrite E1, E2, E3, F1, F2, F3. destruct o; cbn; auto.
  Qed.

  Lemma run_app : forall a b s, run (a ++ b) s = run b (run a s).
  Proof. intros. unfold const_run. apply fold_left_app. Qed.

  Lemma unread : forall l s, Forall (fun o => ~ uses_full o) l -> o_KM (run l s) = o_KM s.
  Proof.
    induction l as [|o l IH]; intros s H; [reflexivity|]. inversion H as [|? ? H1 H2]; subst.
    change (run (o :: l) s) with (run l (step o s)). rewrite (IH _ H2). destruct o; cbn in H1; try tauto; reflexivity.
  Qed.

  Lemma kept : forall l s A, o_KM s = Some A -> Forall (fun o => ~ writes o) l -> o_KM (run l s) = Some A.
  Proof.
    induction l as [|o l IH]; intros s A E H; [exact E|]. inversion H as [|? ? H1 H2]; subst.
    change (run (o :: l) s) with (run l (step o s)). apply IH; [|exact H2].
    destruct o; cbn in H1; try tauto; try exact E. cbn [const_step]. unfold const_full_attr. now rewrite E.
  Qed.

  Lemma fill_converts : forall l n v d w, converts (last_dtype d l) (last_value v l) w ->
    fill junk rnd (run l (const_new n v d)) = w.
  Proof.
    intros l n v d w H. unfold fill. destruct (run_attrs l (const_new n v d)) as (_ & -> & ->). now apply cast_converts.
  Qed.

  Lemma indices_nat : forall n ix, 0 <= n -> const_indices_z n ix = const_indices (Z.to_nat n) ix.
  Proof.
    intros n ix H. unfold const_indices_z, const_indices. rewrite Z2Nat.id by exact H.
    destruct ix; try reflexivity. destruct (Z.ltb_spec n 0); [lia|reflexivity].
  Qed.
End Facts.

(** C113, diag: after any operations, the value last assigned, converted to the dtype last assigned, as often as the
    num_samples last assigned says. *)
Lemma pf_C113_diag : forall junk rnd n v d l w, 0 <= last_num n l -> converts (last_dtype d l) (last_value v l) w ->
  snd (const_diag_attr junk rnd (const_run junk rnd l (const_new n v d))) = Ok (repeat w (Z.to_nat (last_num n l))).
Proof.
  intros junk rnd n v d l w Hn Hw. unfold const_diag_attr. cbn [snd]. rewrite (fill_converts junk rnd l n v d w Hw).
  destruct (run_attrs junk rnd l (const_new n v d)) as (-> & _). cbn [const_new o_num].
  destruct (Z.ltb_spec (last_num n l) 0); [lia|reflexivity].
Qed.

(** C113, indexing: the same, for one row and column per selected index. *)
Lemma pf_C113_item : forall junk rnd n v d l w a b rows cols, 0 <= last_num n l ->
  converts (last_dtype d l) (last_value v l) w ->
  cvalid (Z.to_nat (last_num n l)) a -> cvalid (Z.to_nat (last_num n l)) b ->
  cselection (Z.to_nat (last_num n l)) a rows -> cselection (Z.to_nat (last_num n l)) b cols ->
  snd (const_item_attr junk rnd (Some (a, b)) (const_run junk rnd l (const_new n v d)))
  = Ok (tabulate (length rows) (length cols) (fun _ _ => w)).
Proof.
  intros junk rnd n v d l w a b rows cols Hn Hw Ha Hb Hr Hc.
  assert (G := pf_C47_getitem (mkConst (Z.to_nat (last_num n l)) w) a b rows cols Ha Hb Hr Hc).
  unfold const_item_attr. cbn [snd]. rewrite (fill_converts junk rnd l n v d w Hw).
  destruct (run_attrs junk rnd l (const_new n v d)) as (-> & _). cbn [const_new o_num].
  rewrite !indices_nat by exact Hn. exact G.
Qed.

(** C113, full, as long as it has not been used: as diag. *)
Lemma pf_C113_full_unread : forall junk rnd n v d l w, 0 <= last_num n l -> converts (last_dtype d l) (last_value v l) w ->
  Forall (fun o => ~ uses_full o) l ->
  snd (const_full_attr junk rnd (const_run junk rnd l (const_new n v d)))
  = Ok (tabulate (Z.to_nat (last_num n l)) (Z.to_nat (last_num n l)) (fun _ _ => w)).
Proof.
  intros junk rnd n v d l w Hn Hw HU. unfold const_full_attr. rewrite (unread junk rnd l _ HU). cbn [const_new o_KM].
  rewrite (fill_converts junk rnd l n v d w Hw).
  destruct (run_attrs junk rnd l (const_new n v d)) as (-> & _). cbn [const_new o_num].
  destruct (Z.ltb_spec (last_num n l) 0); [lia|reflexivity].
Qed.

(** C113, full, once it has been read: the matrix it was at the first reading, whatever is assigned later. *)
Lemma pf_C113_full_first : forall junk rnd n v d pre post w, 0 <= last_num n pre ->
  converts (last_dtype d pre) (last_value v pre) w ->
  Forall (fun o => ~ uses_full o) pre -> Forall (fun o => ~ writes o) post ->
  snd (const_full_attr junk rnd (const_run junk rnd (pre ++ CFull :: post) (const_new n v d)))
  = Ok (tabulate (Z.to_nat (last_num n pre)) (Z.to_nat (last_num n pre)) (fun _ _ => w)).
Proof.
  intros junk rnd n v d pre post w Hn Hw HU HW. assert (E := pf_C113_full_unread junk rnd n v d pre w Hn Hw HU).
  rewrite run_app. change (CFull :: post) with ([CFull] ++ post). rewrite run_app. cbn [const_run fold_left const_step].
  set (s := const_run junk rnd pre (const_new n v d)) in *.
  assert (K : o_KM (fst (const_full_attr junk rnd s)) = Some (tabulate (Z.to_nat (last_num n pre)) (Z.to_nat (last_num n pre)) (fun _ _ => w))).
  { unfold const_full_attr in E |- *. destruct (o_KM s) as [A|] eqn:EK.
    - cbn in E |- *. injection E as ->. exact EK.
    - destruct (o_num s <? 0); cbn in E |- *; [discriminate|]. congruence. }
  unfold const_full_attr at 1. rewrite (kept junk rnd post _ _ K HW). reflexivity.
Qed.

(** C113: if the program only reads, full, diag and indexing agree at any time. *)
Lemma pf_C113_reads : forall junk rnd n v d l w, 0 <= n -> converts d v w ->
  Forall (fun o => ~ assigns o /\ ~ writes o) l ->
  let s := const_run junk rnd l (const_new n v d) in
  snd (const_full_attr junk rnd s) = Ok (tabulate (Z.to_nat n) (Z.to_nat n) (fun _ _ => w)) /\
  snd (const_diag_attr junk rnd s) = Ok (repeat w (Z.to_nat n)) /\
  (forall i j, 0 <= i < n -> 0 <= j < n ->
     snd (const_item_attr junk rnd (Some (CIInt i, CIInt j)) s) = Ok (mkMat 1 1 [[w]])) /\
  snd (const_len s) = Ok n /\ snd (const_size_attr s) = Ok n.
Proof.
  intros junk rnd n v d l w Hn Hw HR s.
  assert (HA : last_num n l = n /\ last_value v l = v /\ last_dtype d l = d).
  { clear - HR. induction HR as [|o l [H1 H2] _ IH]; [auto|]. destruct o; cbn in H1; try tauto; exact IH. }
  destruct HA as (E1 & E2 & E3).
  assert (HW : converts (last_dtype d l) (last_value v l) w) by (rewrite E2, E3; exact Hw).
  assert (HN : 0 <= last_num n l) by lia.
  assert (EN : o_num s = n) by (unfold s; rewrite (proj1 (run_attrs junk rnd l _)); exact E1).
  split; [|split; [|split; [|split]]].
  - assert (HC : Forall (fun o => ~ uses_full o) l \/ exists pre post, l = pre ++ CFull :: post /\
                   Forall (fun o => ~ uses_full o) pre /\ Forall (fun o => ~ writes o) post).
    { clear - HR. induction HR as [|o l [H1 H2] HR IH]; [now left|].
      assert (HP : Forall (fun o => ~ writes o) l) by (apply (Forall_impl _ (P := fun o => ~ assigns o /\ ~ writes o)); [tauto|exact HR]).
      destruct o; try (right; exists [], l; split; [reflexivity|split; [constructor|exact HP]]);
        try (destruct IH as [IH|(pre & post & -> & P1 & P2)];
             [left; constructor; [intros []|exact IH]
             |right; eexists (_ :: pre), post; split; [reflexivity|split; [constructor; [intros []|exact P1]|exact P2]]]).
      all: apply H2; exact I. }
    destruct HC as [HC|(pre & post & E & P1 & P2)].
    + assert (G := pf_C113_full_unread junk rnd n v d l w HN HW HC). rewrite E1 in G. exact G.
    + assert (HA : last_num n pre = n /\ last_value v pre = v /\ last_dtype d pre = d).
      { rewrite E in HR. apply Forall_app in HR as [HR _]. clear - HR.
        induction HR as [|o l [H1 H2] _ IH]; [auto|]. destruct o; cbn in H1; try tauto; exact IH. }
      destruct HA as (F1 & F2 & F3).
      assert (G := pf_C113_full_first junk rnd n v d pre post w). rewrite F1, F2, F3, <- E in G. now apply G.
  - assert (G := pf_C113_diag junk rnd n v d l w HN HW). rewrite E1 in G. exact G.
  - intros i j Hi Hj. unfold const_item_attr. cbn [snd]. unfold s. rewrite (fill_converts junk rnd l n v d w HW). fold s. rewrite EN.
    assert (X : forall i, 0 <= i < n -> const_indices_z n (CIInt i) = Ok [i]).
    { clear. intros i Hi. unfold const_indices_z. cbn [rbind existsb]. destruct (Z.leb_spec n i); [lia|].
      destruct (Z.ltb_spec i 0); [lia|]. reflexivity. }
    rewrite (X i Hi), (X j Hj). reflexivity.
  - unfold const_len. cbn [snd]. rewrite EN. destruct (Z.ltb_spec n 0); [lia|reflexivity].
  - unfold const_size_attr. cbn [snd]. now rewrite EN.
Qed.

(** C113: writing into the array that full returns changes that entry of full and nothing else. *)
Lemma pf_C113_write : forall junk rnd s i j u A, snd (const_full_attr junk rnd s) = Ok A -> (i < mr A)%nat -> (j < mc A)%nat ->
  let s' := const_step junk rnd (CWrite i j u) s in
  snd (const_full_attr junk rnd s') = Ok (mset A i j u) /\
  snd (const_diag_attr junk rnd s') = snd (const_diag_attr junk rnd s) /\
  forall ix, snd (const_item_attr junk rnd ix s') = snd (const_item_attr junk rnd ix s).
Proof.
  intros junk rnd s i j u A E Hi Hj. cbn [const_step]. unfold const_write. assert (F := full_attrs junk rnd s).
  destruct (const_full_attr junk rnd s) as [s' r]. cbn [snd fst] in E, F. subst r. destruct F as (F1 & F2 & F3).
  apply Nat.ltb_lt in Hi, Hj. rewrite Hi, Hj. cbn [andb fst]. split; [reflexivity|].
  unfold const_diag_attr, const_item_attr, fill. cbn [snd o_num o_value o_dtype]. rewrite F1, F2, F3. split; reflexivity.
Qed.

(** C113: an index beyond that array raises IndexError and does to the object what reading full does. *)
Lemma pf_C113_write_beyond : forall junk rnd s i j u A, snd (const_full_attr junk rnd s) = Ok A -> ~ ((i < mr A)%nat /\ (j < mc A)%nat) ->
  snd (const_write junk rnd i j u s) = Raise IndexError /\
  const_step junk rnd (CWrite i j u) s = const_step junk rnd CFull s.
Proof.
  intros junk rnd s i j u A E H. cbn [const_step]. unfold const_write.
  destruct (const_full_attr junk rnd s) as [s' r]. cbn [snd fst] in E |- *. subst r.
  destruct ((i <? mr A)%nat && (j <? mc A)%nat) eqn:B; [|split; reflexivity].
  exfalso. apply H. apply andb_true_iff in B as [B1 B2]. apply Nat.ltb_lt in B1, B2. split; assumption.
Qed.

(** C113: at any time, an index that is not a pair, is None or a string, is of no supported type, or is an integer
    outside 0..num_samples-1 raises KMAccessError and leaves the object as it was. *)
Lemma pf_C113_bad_index : forall junk rnd s,
  const_item_attr junk rnd None s = (s, Raise KMAccessError) /\
  (forall b, const_item_attr junk rnd (Some (CIStrNone, b)) s = (s, Raise KMAccessError)) /\
  (forall b, const_item_attr junk rnd (Some (CIOther, b)) s = (s, Raise KMAccessError)) /\
  (forall z b, o_num s <= z \/ z < 0 -> const_item_attr junk rnd (Some (CIInt z, b)) s = (s, Raise KMAccessError)) /\
  (forall i b, 0 <= i < o_num s -> b = CIStrNone \/ b = CIOther \/ (exists z, b = CIInt z /\ (o_num s <= z \/ z < 0)) ->
     const_item_attr junk rnd (Some (CIInt i, b)) s = (s, Raise KMAccessError)).
Proof.
  intros junk rnd s. assert (O : forall z, o_num s <= z \/ z < 0 -> (o_num s <=? z) || (z <? 0) = true).
  { intros z [H|H]; apply orb_true_iff; [left; apply Z.leb_le|right; apply Z.ltb_lt]; exact H. }
  repeat split.
  - intros z b H. unfold const_item_attr, const_indices_z at 1. cbn [rbind existsb]. rewrite (O z H). reflexivity.
  - intros i b Hi Hb. unfold const_item_attr, const_indices_z. cbn [rbind existsb].
    replace ((o_num s <=? i) || (i <? 0)) with false by (symmetry; apply orb_false_iff; split; [apply Z.leb_gt|apply Z.ltb_ge]; lia).
    cbn [orb rbind]. destruct Hb as [->|[->|(z & -> & H)]]; [reflexivity..|]. cbn [rbind existsb]. rewrite (O z H). reflexivity.
Qed.

(** C113: with a negative num_samples, diag, len and slices raise ValueError and integer indices KMAccessError, full
    raises ValueError unless it has been read before; none of them changes the object. *)
Lemma pf_C113_negative : forall junk rnd s, o_num s < 0 ->
  const_diag_attr junk rnd s = (s, Raise ValueError) /\ const_len s = (s, Raise ValueError) /\
  const_size_attr s = (s, Ok (o_num s)) /\
  (forall z b, const_item_attr junk rnd (Some (CIInt z, b)) s = (s, Raise KMAccessError)) /\
  (forall x y st b, const_item_attr junk rnd (Some (CISlice x y st, b)) s = (s, Raise ValueError)) /\
  (o_KM s = None -> const_full_attr junk rnd s = (s, Raise ValueError)).
Proof.
  intros junk rnd s Hn. assert (E : (o_num s <? 0) = true) by now apply Z.ltb_lt.
  split; [|split; [|split; [|split; [|split]]]].
  - unfold const_diag_attr. now rewrite E.
  - unfold const_len. now rewrite E.
  - reflexivity.
  - intros z b. unfold const_item_attr, const_indices_z. cbn [rbind existsb].
    assert (X : (o_num s <=? z) || (z <? 0) || false = true).
    { destruct (Z.ltb_spec z 0); [now rewrite orb_true_r|]. destruct (Z.leb_spec (o_num s) z); [reflexivity|lia]. }
    now rewrite X.
  - intros x y st b. unfold const_item_attr, const_indices_z. rewrite E. reflexivity.
  - intros K. unfold const_full_attr. now rewrite K, E.
Qed.

(** C113: it is false that full always agrees with diag: once full has been read, it no longer follows the attributes.
    Here a 2 x 2 matrix of 1 whose num_samples and value are then set to 3 and 2.7, with dtype int. *)
Lemma pf_C113_refuted : forall junk rnd, exists l,
  let s := const_run junk rnd l (const_new 2 (VInt 1) (Some TInt)) in
  snd (const_full_attr junk rnd s) = Ok (mkMat 2 2 [[VInt 1; VInt 1]; [VInt 1; VInt 1]]) /\
  snd (const_diag_attr junk rnd s) = Ok [VInt 2; VInt 2; VInt 2] /\
  snd (const_item_attr junk rnd (Some (CIInt 2, CIInt 2)) s) = Ok (mkMat 1 1 [[VInt 2]]).
Proof.
  intros junk rnd. exists [CFull; CSetNum 3; CSetValue (VFloat (Fin (27 / 10)))].
  assert (HW : converts (Some TInt) (VFloat (Fin (27 / 10))) (VInt 2)).
  { constructor; [left; split; lra|lia]. }
  assert (D := pf_C113_diag junk rnd 2 (VInt 1) (Some TInt) [CFull; CSetNum 3; CSetValue (VFloat (Fin (27 / 10)))] (VInt 2)).
  cbn [last_num last_dtype last_value] in D. specialize (D ltac:(lia) HW).
  assert (F := pf_C113_full_first junk rnd 2 (VInt 1) (Some TInt) [] [CSetNum 3; CSetValue (VFloat (Fin (27 / 10)))] (VInt 1)).
  cbn [last_num last_dtype last_value app] in F.
  specialize (F ltac:(lia) (cv_int 1) (Forall_nil _) ltac:(repeat constructor; intros [])).
  split; [exact F|]. split; [exact D|].
  unfold const_item_attr. cbn [snd].
  rewrite (fill_converts junk rnd [CFull; CSetNum 3; CSetValue (VFloat (Fin (27 / 10)))] 2 (VInt 1) (Some TInt) (VInt 2) HW). reflexivity.
Qed.

(** C113: a constant of -2.7 with dtype int is -2, with dtype bool True, with dtype float itself; True with dtype float
    is 1. *)
Lemma pf_C113_example : forall junk rnd,
  snd (const_diag_attr junk rnd (const_new 2 (VFloat (Fin (-27 / 10))) (Some TInt))) = Ok [VInt (-2); VInt (-2)] /\
  snd (const_diag_attr junk rnd (const_new 1 (VFloat (Fin (-27 / 10))) (Some TBool))) = Ok [VBool true] /\
  snd (const_diag_attr junk rnd (const_new 1 (VFloat (Fin (-27 / 10))) (Some TFloat))) = Ok [VFloat (Fin (-27 / 10))] /\
  snd (const_diag_attr junk rnd (const_new 1 (VBool true) (Some TFloat))) = Ok [VFloat (Fin 1)].
Proof.
  intros junk rnd. split; [|split; [|split]].
  - apply (pf_C113_diag junk rnd 2 _ _ []); [cbn; lia|]. constructor; [right; split; lra|lia].
  - apply (pf_C113_diag junk rnd 1 _ _ []); [cbn; lia|]. constructor. split; [|reflexivity]. intros _ E. injection E. lra.
  - apply (pf_C113_diag junk rnd 1 _ _ []); [cbn; lia|]. constructor.
  - apply (pf_C113_diag junk rnd 1 _ _ []); [cbn; lia|]. apply (cv_float_bool true).
Qed.
