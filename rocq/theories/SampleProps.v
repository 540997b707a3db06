(** Kernel matrices of samples drawn from other samples (C94), in any arithmetic. *)
From Coq Require Import String List Arith ZArith Bool Lia.
Import ListNotations.
From Verif Require Import Prelude MatModel MatFacts IndexModel KMModel SpecKM SpecSample KMProps ToyModel.

Lemma drawn_row : forall {E} (d n m n' m' : nat) f g (x : ndarray E) y x' y' u,
  drawn d n m n' m' f g x y x' y' -> is_row x' y' n' m' d u -> is_row x y n m d u.
Proof.
  intros E d n m n' m' f g x y x' y' u [Hf Hg] [i [[Hi ->]|[Hi ->]]].
  - destruct (Hf i Hi) as [Hlt ->]. exists (f i). left. split; [exact Hlt|reflexivity].
  - destruct (Hg i Hi) as [Hlt Hrow]. unfold columns in Hrow. rewrite Hrow. exists (g i). right.
    split; [exact Hlt|reflexivity].
Qed.
Lemma drawn_never_raises : forall {E V} (K : kernel E V) k (d n m n' m' : nat) f g (x : ndarray E) y x' y',
  drawn d n m n' m' f g x y x' y' -> never_raises K k x y n m d -> never_raises K k x' y' n' m' d.
Proof. intros E V K k d n m n' m' f g x y x' y' Hd Hnr t u v Hu Hv. apply Hnr; eapply drawn_row; eauto. Qed.
Lemma drawn_symmetric : forall {E V} (k : list E -> list E -> V) (d n m n' m' : nat) f g (x : ndarray E) y x' y',
  drawn d n m n' m' f g x y x' y' -> symmetric_on k x y n m d -> symmetric_on k x' y' n' m' d.
Proof. intros E V k d n m n' m' f g x y x' y' Hd Hs u v Hu Hv. apply Hs; eapply drawn_row; eauto. Qed.

Lemma is_row_row : forall {E} (x : ndarray E) y n m d i, i < n -> is_row x y n m d (row_of d x i).
Proof. intros E x y n m d i Hi. exists i. left. auto. Qed.
Lemma is_row_col : forall {E} (x : ndarray E) y n m d j, j < m -> is_row x y n m d (row_of d (columns x y) j).
Proof. intros E x y n m d j Hj. exists j. right. auto. Qed.

Lemma entry_value : forall {E V} (k : list E -> list E -> V) (x : ndarray E) y n m d i j,
  (symmetric_on k x y n m d \/ y <> None) -> i < n -> j < m ->
  entry k d x y i j = k (row_of d x i) (row_of d (columns x y) j).
Proof.
  intros E V k x [y|] n m d i j Hs Hi Hj; cbn [entry columns]; [reflexivity|].
  destruct Hs as [Hs|Hs]; [|congruence].
  destruct (i <=? j); [reflexivity|]. apply Hs; [exact (is_row_col x None n m d j Hj)|].
  apply is_row_row. exact Hi.
Qed.

Lemma entry_drawn : forall {E V} (k : list E -> list E -> V) (d n m n' m' : nat) f g (x : ndarray E) y x' y' i j,
  drawn d n m n' m' f g x y x' y' -> (symmetric_on k x y n m d \/ (y <> None /\ y' <> None)) ->
  i < n' -> j < m' -> entry k d x' y' i j = entry k d x y (f i) (g j).
Proof.
  intros E V k d n m n' m' f g x y x' y' i j Hd Hs Hi Hj.
  assert (Hs' : symmetric_on k x' y' n' m' d \/ y' <> None)
    by (destruct Hs as [Hs|[_ Hs]]; [left; eapply drawn_symmetric; eauto|right; exact Hs]).
  rewrite (entry_value k x' y' n' m' d i j Hs' Hi Hj).
  destruct Hd as [Hf Hg]. destruct (Hf i Hi) as [Hfi ->]. destruct (Hg j Hj) as [Hgj ->].
  symmetry. apply (entry_value k x y n m); [|assumption|assumption].
  destruct Hs as [Hs|[Hs _]]; auto.
Qed.

(** C94. Whatever was done before and after attach_to (full_sparse apart), and in any arithmetic: if the points
    of one KernelMatrix occur among those of another, its entries are the corresponding entries of the
    other. This covers subsets, permutations and repetitions of a sample, the blocks of the matrix of a
    stacked sample, and a sample attached twice instead of once. Where one sample is attached the
    kernel has to be symmetric. *)
Lemma pf_C94_full :
  forall {E V U} (N : numops V) (K : kernel E V) k (pre post pre' post' : list (op E U)) x y x' y' n m n' m' d f g,
    never_raises K k x y n m d -> kfmt K = true -> admissible x y n m d -> admissible x' y' n' m' d ->
    no_attach post -> no_full_sparse post -> no_attach post' -> no_full_sparse post' ->
    drawn d n m n' m' f g x y x' y' ->
    (symmetric_on k x y n m d \/ (y <> None /\ y' <> None)) ->
    exists a a', outcome N OpFull (after N K false pre x y post) = Ok (OArr a) /\
      outcome N OpFull (after N K false pre' x' y' post') = Ok (OArr a') /\
      mr (amat a') = n' /\ mc (amat a') = m' /\
      forall na i j, i < n' -> j < m' -> mget na (amat a') i j = mget na (amat a) (f i) (g j).
Proof.
  intros E V U N K k pre post pre' post' x y x' y' n m n' m' d f g Hnr Hfmt Ha Ha' Hno Hns Hno' Hns' Hd Hs.
  destruct (pf_C04_contents_partial N K k pre post x y n m d Hnr Hfmt Ha Hno Hns) as (c & _ & Hc).
  destruct (pf_C04_contents_partial N K k pre' post' x' y' n' m' d
              (drawn_never_raises K k d n m n' m' f g x y x' y' Hd Hnr) Hfmt Ha' Hno' Hns') as (c' & _ & Hc').
  eexists. eexists. split; [exact Hc|]. split; [exact Hc'|]. split; [reflexivity|]. split; [reflexivity|].
  intros na i j Hi Hj. cbn [amat]. unfold kernel_matrix. rewrite mget_tabulate by assumption.
  pose proof (proj1 (proj1 Hd i Hi)). pose proof (proj1 (proj2 Hd j Hj)).
  rewrite mget_tabulate by assumption. eapply entry_drawn; eauto.
Qed.

(** C94: with the two samples exchanged the matrix is transposed. *)
Lemma pf_C94_transpose :
  forall {E V U} (N : numops V) (K : kernel E V) k (pre post pre' post' : list (op E U)) x y n m d,
    never_raises K k x (Some y) n m d -> kfmt K = true -> admissible x (Some y) n m d ->
    no_attach post -> no_full_sparse post -> no_attach post' -> no_full_sparse post' ->
    symmetric_on k x (Some y) n m d ->
    exists a a', outcome N OpFull (after N K false pre x (Some y) post) = Ok (OArr a) /\
      outcome N OpFull (after N K false pre' y (Some x) post') = Ok (OArr a') /\
      mr (amat a') = m /\ mc (amat a') = n /\
      forall na i j, i < n -> j < m -> mget na (amat a') j i = mget na (amat a) i j.
Proof.
  intros E V U N K k pre post pre' post' x y n m d Hnr Hfmt Ha Hno Hns Hno' Hns' Hs.
  assert (Hrow : forall u, is_row y (Some x) m n d u -> is_row x (Some y) n m d u)
    by (intros u [i [[Hi ->]|[Hi ->]]]; exists i; auto).
  destruct (pf_C04_contents_partial N K k pre post x (Some y) n m d Hnr Hfmt Ha Hno Hns) as (c & _ & Hc).
  assert (Hnr' : never_raises K k y (Some x) m n d) by (intros t u v Hu Hv; apply Hnr; auto).
  assert (Ha' : admissible y (Some x) m n d) by (destruct Ha as [H1 H2]; split; assumption).
  destruct (pf_C04_contents_partial N K k pre' post' y (Some x) m n d Hnr' Hfmt Ha' Hno' Hns') as (c' & _ & Hc').
  eexists. eexists. split; [exact Hc|]. split; [exact Hc'|]. split; [reflexivity|]. split; [reflexivity|].
  intros na i j Hi Hj. cbn [amat]. unfold kernel_matrix. rewrite !mget_tabulate by assumption.
  cbn [entry]. apply Hs; [exact (is_row_col x (Some y) n m d j Hj)|]. apply is_row_row. exact Hi.
Qed.

(*BEGIN PROP*)
(** The points of [toyX] in reverse order. *)
Definition toyRev : ndarray (option Z) :=
  mkNd [3; 2]%nat [Some 5; Some 6; Some 3; Some 4; Some 1; Some 2]%Z.
(*END PROP*)

(** C94: for a kernel that is not symmetric reversing one sample does not just reverse the matrix. *)
Lemma pf_C94_asymmetric_refuted : exists (K : kernel (option Z) (option Z)) k a a',
  (forall x y n m d, never_raises K k x y n m d) /\ kfmt K = true /\
  admissible toyX None 3 3 2 /\ admissible toyRev None 3 3 2 /\
  drawn 2 3 3 3 3 (fun i => 2 - i) (fun i => 2 - i) toyX None toyRev None /\
  outcome toyN OpFull (after (U := unit) toyN K false [] toyX None []) = Ok (OArr a) /\
  outcome toyN OpFull (after (U := unit) toyN K false [] toyRev None []) = Ok (OArr a') /\
  mget None (amat a') 0 2 <> mget None (amat a) 2 0.
Proof.
  exists (mkKernel (fun _ u v => Ok (asymk u v)) true), asymk. eexists. eexists.
  split; [intros x y n m d t u v _ _; reflexivity|]. split; [reflexivity|]. split; [exact toyX_ok|].
  split; [split; [exists []; split; [reflexivity|constructor]|reflexivity]|].
  split. { split; intros [|[|[|i]]] Hi; try lia; (split; [lia|reflexivity]). }
  split; [vm_compute; reflexivity|]. split; [vm_compute; reflexivity|].
  vm_compute. discriminate.
Qed.

(*BEGIN PROP*)
Lemma dotk_symmetric : forall x y n m d, symmetric_on dotk x y n m d.
Proof.
  intros x y n m d u v _ _. unfold dotk. revert v.
  induction u as [|a u IH]; intros [|b v]; try reflexivity.
  cbn. rewrite (IH v). destruct a, b; try reflexivity. cbn. rewrite Z.mul_comm. reflexivity.
Qed.
(** The hypotheses of C94_full: the first and last point of a sample against the second, as a block of the
    matrix of the whole sample; a sample in reverse order with its first point repeated. *)
Example C94_block_example :
  let x' := mkNd [2; 2]%nat [Some 1; Some 2; Some 5; Some 6]%Z in
  let y' := mkNd [1; 2]%nat [Some 3; Some 4]%Z in
  never_raises dot dotk toyX None 3 3 2 /\ admissible toyX None 3 3 2 /\ admissible x' (Some y') 2 1 2 /\
  drawn 2 3 3 2 1 (fun i => 2 * i) (fun j => 1 + j) toyX None x' (Some y') /\ symmetric_on dotk toyX None 3 3 2 /\
  outcome toyN OpFull (after (U := unit) toyN dot false [] toyX None []) =
    Ok (OArr (mkArr Dense (mkMat 3 3 [[Some 5; Some 11; Some 17]; [Some 11; Some 25; Some 39]; [Some 17; Some 39; Some 61]]%Z))) /\
  outcome toyN OpFull (after (U := unit) toyN dot false [] x' (Some y') []) =
    Ok (OArr (mkArr Dense (mkMat 2 1 [[Some 11]; [Some 39]]%Z))).
Proof.
  cbv zeta. split; [apply dot_total|]. split; [exact toyX_ok|].
  split; [split; exists []; (split; [reflexivity|constructor])|].
  split. { split; [intros [|[|i]] Hi|intros [|j] Hj]; try lia; (split; [lia|reflexivity]). }
  split; [apply dotk_symmetric|]. split; vm_compute; reflexivity.
Qed.
Example C94_repeat_example :
  let x' := mkNd [4; 2]%nat [Some 5; Some 6; Some 3; Some 4; Some 1; Some 2; Some 1; Some 2]%Z in
  admissible x' None 4 4 2 /\ drawn 2 3 3 4 4 (fun i => 2 - i) (fun i => 2 - i) toyX None x' None.
Proof.
  cbv zeta. split; [split; [exists []; split; [reflexivity|constructor]|reflexivity]|].
  split; intros [|[|[|[|i]]]] Hi; try lia; (split; [lia|reflexivity]).
Qed.
Example C94_transpose_example :
  never_raises dot dotk toyX (Some toyX2) 3 2 2 /\ admissible toyX (Some toyX2) 3 2 2 /\
  symmetric_on dotk toyX (Some toyX2) 3 2 2 /\
  outcome toyN OpFull (after (U := unit) toyN dot false [] toyX (Some toyX2) []) =
    Ok (OArr (mkArr Dense (mkMat 3 2 [[Some 2; Some 2]; [Some 6; Some 4]; [Some 10; Some 6]]%Z))) /\
  outcome toyN OpFull (after (U := unit) toyN dot false [] toyX2 (Some toyX) []) =
    Ok (OArr (mkArr Dense (mkMat 2 3 [[Some 2; Some 6; Some 10]; [Some 2; Some 4; Some 6]]%Z))).
Proof.
  split; [apply dot_total|]. split; [exact toyXX2_ok|]. split; [apply dotk_symmetric|].
  split; vm_compute; reflexivity.
Qed.
(*END PROP*)
