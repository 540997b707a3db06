(** When the full matrix of a KernelMatrix is positive definite (C111), in exact arithmetic. *)
From Coq Require Import String List Arith ZArith Bool Reals Lra Lia Psatz.
Import ListNotations.
From Verif Require Import Prelude MatModel MatFacts UtilsModel XReal SpecLinAlg RSum PSDFacts OpsModel OpsFacts OpsProps KernelsModel
  SpecKernels KernelFacts KernelProps KMXModel IndexModel KMModel SpecKM SpecSample SampleXProps SpecKMX KMProps KMXProps
  CategModel SpecCateg CategProps PosDefProps DefiniteProps MatchDefProps HadDefProps PolyDefProps.
Local Open Scope R_scope.

Lemma def_normalised : forall n A, (forall i, (i < n)%nat -> 0 < A i i) ->
  (pos_def n (fun i j => A i j / sqrt (A i i * A j j)) <-> pos_def n A).
Proof.
  intros n A D. assert (S : forall i, (i < n)%nat -> 0 < sqrt (A i i)) by (intros i Hi; apply sqrt_lt_R0; auto).
  split; intros H.
  - apply (pos_def_ext n (fun i j => sqrt (A i i) * (A i j / sqrt (A i i * A j j)) * sqrt (A j j))).
    + intros i j Hi Hj. assert (Si := S i Hi). assert (Sj := S j Hj). rewrite sqrt_mult_alt by (left; auto). field. lra.
    + apply (def_scale n (fun i => sqrt (A i i))); [|exact H]. intros i Hi. specialize (S i Hi). lra.
  - apply (pos_def_ext n (fun i j => / sqrt (A i i) * A i j * / sqrt (A j j))).
    + intros i j Hi Hj. assert (Si := S i Hi). assert (Sj := S j Hj). rewrite sqrt_mult_alt by (left; auto). field. lra.
    + apply (def_scale n (fun i => / sqrt (A i i))); [|exact H]. intros i Hi. apply Rinv_neq_0_compat. specialize (S i Hi). lra.
Qed.

(** C111, KernelMatrix with any numeric kernel whose values on the sample are finite (and, if the object is normalised,
    above 1e-8 on the diagonal): full, after any history (without the two sparse accesses when not normalised), is
    positive definite exactly if the matrix of kernel values is. *)
Lemma pf_C111_matrix :
  forall {U} cast k nrm (pre post : list (op xr U)) n d X A,
    (forall i j, (i < n)%nat -> (j < n)%nat ->
       kernel_call cast k DFloat (fvec d (X i)) DFloat (fvec d (X j)) = Ok (Fin (A i j))) ->
    no_attach post ->
    (nrm = true /\ (forall i, (i < n)%nat -> 1/100000000 < A i i) \/
     nrm = false /\ no_full_sparse post /\ no_whole_index n n post) ->
    exists B,
      outcome xN OpFull (after xN (builtin k) nrm pre (rsample n d X) None post)
      = Ok (OArr (mkArr Dense (rmat n n B))) /\
      (pos_def n B <-> pos_def_on (fun x y => kernel_call cast k DFloat x DFloat y) n d X).
Proof.
  intros U cast k nrm pre post n d X A HV Hno Hcase.
  assert (HA : finite_on k d n n X X A) by (intros i j Hi Hj; rewrite <- (HV i j Hi Hj); now rewrite call_fvec).
  assert (Hsym : symmetric n A).
  { intros i j Hi Hj. assert (E := HA i j Hi Hj). rewrite value_sym, (HA j i Hj Hi) in E. now injection E. }
  assert (HD : pos_def_on (fun x y => kernel_call cast k DFloat x DFloat y) n d X <-> pos_def n A) by (apply on_iff; exact HV).
  pose proof (rsample_total _ n d X A HA) as Hnr.
  pose proof (rsample_matrix _ n d X A HA Hsym) as HM.
  destruct Hcase as [[-> Hd]|[-> [Hfs Hwi]]].
  - eexists. split.
    + apply (pf_C03_value (builtin k) (valueOf k) pre post (rsample n d X) n d OpFull A Hnr eq_refl (rsample_adm n d X) Hno
               (or_introl eq_refl) HM Hd).
    + rewrite HD. apply def_normalised. intros i Hi. specialize (Hd i Hi). lra.
  - exists A. split; [|symmetry; exact HD].
    rewrite (pf_C04_full_partial xN (builtin k) (valueOf k) pre post
       (rsample n d X) None n n d Hnr eq_refl (rsample_adm n d X) Hno Hfs Hwi), HM. reflexivity.
Qed.

(** C111, KernelMatrix with a MatchCountKernel, normalised or not: the same. *)
Lemma pf_C111_match_matrix :
  forall {U} perc nrm (pre post : list (op string U)) n d X, (1 <= d)%nat -> no_attach post ->
    (nrm = true \/ (no_full_sparse post /\ no_whole_index n n post)) ->
    exists B,
      outcome xN OpFull (after xN (categorical perc) nrm pre (csample n d X) None post)
      = Ok (OArr (mkArr Dense (rmat n n B))) /\
      (pos_def n B <-> pos_def_strings (fun x y => match_call String.eqb perc DStr x DStr y) n (fun i => map (X i) (seq 0 d))).
Proof.
  intros U perc nrm pre post n d X Hd Hno Hcase.
  assert (D : 0 < INR d) by (apply lt_0_INR; lia).
  assert (E : forall i j, agree d (fun i => map (X i) (seq 0 d)) i j = INR (matches d (X i) (X j))).
  { intros i j. rewrite <- agreements_matches. unfold agree. symmetry. apply agreements_sum; now rewrite map_length, seq_length. }
  assert (HS := strings_iff perc n d (fun i => map (X i) (seq 0 d)) Hd
                  (fun i _ => eq_trans (map_length (X i) (seq 0 d)) (seq_length d 0))).
  assert (HI : pos_def n (agree d (fun i => map (X i) (seq 0 d))) <-> pos_def n (fun i j => INR (matches d (X i) (X j)))).
  { split; apply pos_def_ext; intros; [|symmetry]; apply E. }
  assert (HF : pos_def n (fun i j => INR (matches d (X i) (X j)) / INR d) <-> pos_def n (fun i j => INR (matches d (X i) (X j)))).
  { split; intros H.
    - apply (pos_def_ext n (fun i j => INR d * (INR (matches d (X i) (X j)) / INR d))); [intros; field; lra|now apply def_scal].
    - apply (pos_def_ext n (fun i j => / INR d * INR (matches d (X i) (X j)))); [intros; field; lra|].
      apply def_scal; [now apply Rinv_0_lt_compat|exact H]. }
  destruct nrm.
  - eexists. split; [apply (pf_C83_normalised perc pre post n d X OpFull Hd Hno); now left|]. rewrite HF, HS. now symmetry.
  - destruct Hcase as [Hc|[Hfs Hwi]]; [discriminate|].
    eexists. split; [apply (pf_C83_full perc pre post n d X (fun _ => Hd) Hno Hfs Hwi)|]. rewrite HS, HI.
    unfold match_similarity. destruct perc; [exact HF|reflexivity].
Qed.

(** The normalised HadamardKernel matrix of 1 and -2, attached after another sample, read after its diagonal: positive
    definite. *)
Lemma pf_C111_matrix_example : forall {U} (u : list (op xr U)), exists B,
  outcome xN OpFull (after xN (builtin (KHadamard 1)) true u
    (rsample 2 1 (fun i _ => match i with O => 1 | _ => -2 end)) None [OpDiagonal]) = Ok (OArr (mkArr Dense (rmat 2 2 B))) /\
  pos_def 2 B.
Proof.
  intros U u. set (X := fun (i _ : nat) => match i with O => 1 | _ => -2 end).
  set (cast := fun (_ : dtype) (l : list xr) => Some l).
  destruct (pf_C111_matrix cast (KHadamard 1) true u [OpDiagonal] 2 1 X
    (fun i j => rsum 1 (fun k => harm (pw 1 (X i k)) (pw 1 (X j k)) / 2))) as (B & E & H).
  - intros i j _ _. rewrite call_fvec. apply hadamard_fin. lra.
  - reflexivity.
  - left. split; [reflexivity|]. intros i Hi. cbn [rsum].
    assert (P : forall r, r <> 0 -> pw 1 r = Rabs r).
    { intros r Hr. unfold pw. destruct (Req_EM_T r 0); [contradiction|]. apply Rpower_1. now apply Rabs_pos_lt. }
    assert (G : forall a, 0 < a -> harm a a = a / 2).
    { intros a Ha. unfold harm. destruct (Req_EM_T (a + a) 0); [lra|]. field. lra. }
    unfold X. destruct i as [|i]; rewrite P by lra.
    + rewrite Rabs_R1, G by lra. lra.
    + rewrite Rabs_left by lra. rewrite G by lra. lra.
  - exists B. split; [exact E|]. apply H. apply pf_C111_hadamard_line; [lra|]. unfold X. split.
    + intros i Hi. destruct i as [|i]; lra.
    + intros i j Hi Hj N. assert (E2 : Rabs (-2) = 2) by (rewrite Rabs_left; lra). assert (E1 : Rabs 1 = 1) by apply Rabs_R1.
      destruct i as [|[|i]], j as [|[|j]]; try lia; rewrite E1, E2; lra.
Qed.
