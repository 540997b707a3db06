(** C14 and C03 exactly, for the numeric operations of the package. *)
From Coq Require Import String List Arith ZArith Bool Lia.
Import ListNotations.
From Verif Require Import Prelude XReal MatModel MatFacts UtilsModel IndexModel KMModel OpsModel KMXModel SpecKM SpecRef
  RefFacts RefProps KernelsModel KMXProps.

Local Open Scope list_scope.
Local Open Scope nat_scope.

(** C14, exactly. On one sample, [centered] is the centring of what the history left behind if that is
    a dense matrix, and raises ValueError if it is a sparse one. *)
Lemma pf_C14_exact :
  forall {E U} (K : kernel E xr) k nrm (pre post : list (op E U)) x n d,
    never_raises K k x None n n d -> admissible x None n n d -> no_attach post ->
    exists c, leaves false nrm n n post c /\
      outcome xN OpCentered (after xN K nrm pre x None post) =
      match c with
      | LNothing | LDense =>
          if first_fails xN K k n n d x None c then Raise TypeError
          else res_map OArr (center_km (mkArr Dense (kernel_matrix k n n d x None)))
      | LWhole | LUpper => Raise ValueError
      end.
Proof.
  intros E U K k nrm pre post x n d Hnr Hadm Hno.
  destruct (centered_generic xN K k nrm pre post x n d ValueError ltac:(reflexivity) Hnr Hadm Hno) as (c & Hc & Hq).
  exists c. split; [exact Hc|]. rewrite Hq. destruct c; reflexivity.
Qed.

(** C03, exactly, two samples: with normalized=True, [full] and [normed_km] are the normalisation, with
    the self-similarities of both samples, of the complete kernel matrix in one of two formats: sparse
    if km[:, :] was the first request, dense otherwise. *)
Lemma pf_C03_two_samples_exact :
  forall {E U} (K : kernel E xr) k (pre post : list (op E U)) x y n m d o,
    never_raises K k x (Some y) n m d -> kfmt K = true -> admissible x (Some y) n m d -> no_attach post ->
    (o = OpFull \/ o = OpFullSparse \/ o = OpNormedKM) ->
    exists c, leaves true true n m post c /\ c <> LUpper /\
      outcome xN o (after xN K true pre x (Some y) post) =
      res_map OArr (normalize_km_2sample "cosine" (left_matrix xN k n m d x (Some y) c)
                      (self_similarities k n d x) (self_similarities k m d y)).
Proof.
  intros E U K k pre post x y n m d o Hnr Hfmt Hadm Hno Ho.
  assert (Hoa : is_attach o = false) by (destruct Ho as [->|[->| ->]]; reflexivity).
  destruct (attached_step xN K k true pre post x (Some y) n m d o Hnr Hadm Hno Hoa)
    as (c & r & r' & Hc & Hm & HI & Hrun & Hd).
  exists c. split; [exact Hc|]. cbv zeta in Hd.
  assert (Hcu : c <> LUpper).
  { intros ->. destruct Hc as (o1 & rest & _ & [_ H] & _). discriminate. }
  split; [exact Hcu|]. cbn [is_some second] in *.
  set (F := entry k d x (Some y)) in *. set (dx := self_similarities k n d x) in *.
  set (dy := self_similarities k m d y) in *.
  assert (Hff : forall c, first_fails xN K k n m d x (Some y) c = false).
  { intros c0. unfold first_fails, unreportable. rewrite Hfmt. destruct c0; reflexivity. }
  assert (HN : forall c, c <> LUpper -> forall r0 : ref xr U, r_mat r0 = as_mat c -> inv xN n m F dx dy true true r0 ->
     snd (ref_normed_km xN n m F dx dy true (kfmt K) r0) =
     normalize_km_2sample "cosine" (left_matrix xN k n m d x (Some y) c) dx dy).
  { clear c r r' Hc Hm HI Hrun Hd Hcu. intros c Hcu r0 Hm0 (Hi0 & Hi1 & Hi2 & _).
    destruct (current_left xN K k n m d x (Some y) c r0 Hm0) as (r2 & _ & _ & Hn2 & Hcur2).
    fold F in Hcur2. rewrite Hff in Hcur2.
    unfold ref_normed_km. unfold bind at 1, get at 1. destruct (r_norm r0) as [v|].
    - destruct (Hi2 v eq_refl eq_refl) as (c1 & c0 & H3 & (H4 & H6 & H5) & Hop). rewrite Hm0 in H3.
      destruct c0 as [f0 l0]. cbn [fst snd] in *.
      destruct c; cbn in H3; try discriminate; injection H3 as <-; cbn in H4; subst f0.
      + rewrite (H5 (or_introl eq_refl)) in Hop. symmetry. exact Hop.
      + rewrite (H5 (or_intror eq_refl)) in Hop. symmetry. exact Hop.
      + contradiction.
    - unfold ref_normalize. unfold bind at 1 2. rewrite Hcur2. unfold bind at 1, get at 1. rewrite Hn2.
      cbn [op_normalize2 xN]. unfold bind at 1, lift.
      destruct (normalize_km_2sample "cosine" (left_matrix xN k n m d x (Some y) c) dx dy) as [v|e]; [|reflexivity].
      unfold reported. rewrite Hfmt. reflexivity. }
  destruct Ho as [->|[->| ->]]; cbn [ref_does ref_op] in Hd.
  - unfold giving, ref_full in Hd. unfold bind at 1 2 in Hd.
    destruct (current_left xN K k n m d x (Some y) c r Hm) as (r1 & _ & _ & Hn1 & Hcur). fold F in Hcur.
    destruct (current_inv xN n m F dx dy true true (kfmt K) r HI) as (HI1 & _). cbv zeta in HI1.
    assert (Hm1 := current_mat xN n m F (kfmt K) r). cbv beta in Hm1.
    rewrite Hff in Hcur. rewrite Hcur in Hd, HI1, Hm1. cbn [fst snd] in *. cbv iota in Hd.
    set (c' := match c with LNothing => LDense | _ => c end).
    assert (Hm' : r_mat r1 = as_mat c') by (rewrite Hm1, Hm; destruct c; reflexivity).
    assert (Hc' : c' <> LUpper) by (destruct c; try discriminate; contradiction).
    specialize (HN c' Hc' r1 Hm' HI1).
    replace (left_matrix xN k n m d x (Some y) c') with (left_matrix xN k n m d x (Some y) c) in HN
      by (destruct c; reflexivity).
    destruct (ref_normed_km xN n m F dx dy true (kfmt K) r1) as [r2 [a|e]]; cbn [snd] in HN;
      rewrite <- HN; injection Hd as _ Hq; exact Hq.
  - unfold giving, ref_full_sparse, bind in Hd.
    specialize (HN c Hcu r Hm HI). destruct (ref_normed_km xN n m F dx dy true (kfmt K) r) as [r2 [a|e]]; cbn [snd] in HN;
      rewrite <- HN; injection Hd as _ Hq; exact Hq.
  - unfold giving, bind in Hd.
    specialize (HN c Hcu r Hm HI). destruct (ref_normed_km xN n m F dx dy true (kfmt K) r) as [r2 [a|e]]; cbn [snd] in HN;
      rewrite <- HN; injection Hd as _ Hq; exact Hq.
Qed.

(*BEGIN PROP*)
(** After km[:, :] (as the first request) the centred matrix is refused; two samples likewise have
    their matrix in sparse format. *)
Example C14_exact_example :
  never_raises (builtin KLinear) xdot x12 None 2 2 1 /\ admissible x12 None 2 2 1 /\
  leaves false true 2 2 ([OpGetItem colons; OpFull] : list (op xr unit)) LWhole /\
  leaves false true 2 2 ([OpFullSparse; OpGetItem colons] : list (op xr unit)) LDense.
Proof.
  split; [apply linear_total; reflexivity|]. split; [exact x12_ok|]. split.
  - exists (OpGetItem colons), [OpFull]. split; [exists []; split; [reflexivity|constructor]|].
    left. apply colon_whole; lia.
  - exists OpFullSparse, [OpGetItem colons]. split; [exists []; split; [reflexivity|constructor]|reflexivity].
Qed.
Example C03_two_samples_exact_example :
  never_raises (builtin KLinear) xdot x12 (Some x12) 2 2 1 /\ admissible x12 (Some x12) 2 2 1 /\
  leaves true true 2 2 ([OpGetItem colons; OpFull] : list (op xr unit)) LWhole.
Proof.
  split; [apply linear_total; reflexivity|]. split; [split; exists []; (split; [reflexivity|constructor])|].
  exists (OpGetItem colons), [OpFull]. split; [exists []; split; [reflexivity|constructor]|].
  left. apply colon_whole; lia.
Qed.
(*END PROP*)
