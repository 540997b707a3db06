(** Kernel matrices of samples drawn from other samples (C94), in exact arithmetic: normalisation, centring,
    norms, alignments and rankings.
    Generated by tools/split_props.py from SampleXProps.v: statements only, each closed by [exact]. *)
From Coq Require Import String List Arith ZArith Bool Reals Lra Lia Permutation.
Import ListNotations.
From Verif Require Import Prelude MatModel MatFacts XReal SpecLinAlg RSum KernelsModel KernelFacts KMXModel OpsModel OpsFacts OpsProps IndexModel
  KMModel SpecKM SpecSample SampleProps KMProps KMXProps SetModel SpecSet SpecComposite RankModel SpecRank RankProps.
Local Open Scope R_scope.
From Verif Require Import SampleXProps.
Local Open Scope R_scope.

(** C94 with normalized=True: for finite kernel values and self-similarities above 1e-8, after every history. *)
Theorem C94_normalized :
  forall {E U} (K : kernel E xr) (r : list E -> list E -> R) (pre post pre' post' : list (op E U))
         x y x' y' n m n' m' d f g,
    never_raises K (fun u v => Fin (r u v)) x y n m d -> kfmt K = true ->
    admissible x y n m d -> admissible x' y' n' m' d -> no_attach post -> no_attach post' ->
    drawn d n m n' m' f g x y x' y' ->
    (symmetric_on r x y n m d \/ (y <> None /\ y' <> None)) ->
    (forall u, is_row x y n m d u -> 1/100000000 < r u u) ->
    exists A, outcome xN OpFull (after xN K true pre x y post) = Ok (OArr (mkArr Dense (rmat n m A))) /\
      outcome xN OpFull (after xN K true pre' x' y' post')
      = Ok (OArr (mkArr Dense (rmat n' m' (fun i j => A (f i) (g j))))).
Proof. exact (@pf_C94_normalized). Qed.
Print Assumptions C94_normalized.

(** C94: permuting the points permutes the centred matrix. *)
Theorem C94_centered :
  forall {E U} (K : kernel E xr) k nrm nrm' (pre post pre' post' : list (op E U)) x x' n d f A,
    never_raises K k x None n n d -> kfmt K = true -> admissible x None n n d -> admissible x' None n n d ->
    no_attach post -> no_full_sparse post -> no_whole_index n n post ->
    no_attach post' -> no_full_sparse post' -> no_whole_index n n post' ->
    taken d n n f x x' -> permutes n f -> symmetric_on k x None n n d ->
    kernel_matrix k n n d x None = rmat n n A ->
    exists C, outcome xN OpCentered (after xN K nrm pre x None post) = Ok (OArr (mkArr Dense (rmat n n C))) /\
      outcome xN OpCentered (after xN K nrm' pre' x' None post')
      = Ok (OArr (mkArr Dense (rmat n n (fun i j => C (f i) (f j))))).
Proof. exact (@pf_C94_centered). Qed.
Print Assumptions C94_centered.

(** C94: permuting the points, of one sample or of either of two, does not change frob_norm. *)
Theorem C94_frob_norm :
  forall {E U} (K : kernel E xr) k nrm nrm' (pre post pre' post' : list (op E U)) x y x' y' n m d f g A,
    never_raises K k x y n m d -> kfmt K = true -> admissible x y n m d -> admissible x' y' n m d ->
    no_attach post -> no_full_sparse post -> no_whole_index n m post ->
    no_attach post' -> no_full_sparse post' -> no_whole_index n m post' ->
    drawn d n m n m f g x y x' y' -> permutes n f -> permutes m g ->
    (symmetric_on k x y n m d \/ (y <> None /\ y' <> None)) ->
    kernel_matrix k n m d x y = rmat n m A ->
    exists v, outcome xN OpFrobNorm (after xN K nrm pre x y post) = Ok (OVal (Fin v)) /\
      outcome xN OpFrobNorm (after xN K nrm' pre' x' y' post') = Ok (OVal (Fin v)).
Proof. exact (@pf_C94_frob_norm). Qed.
Print Assumptions C94_frob_norm.

(** C94: reordering the points in both matrices does not change alignment_centered, in any of its outcomes. *)
Theorem C94_alignment : forall fa fb n A B f z already, fa <> Lil -> fb <> Lil -> permutes n f ->
  alignment_centered (mkArr fa (rmat n n (fun i j => A (f i) (f j)))) (mkArr fb (rmat n n (fun i j => B (f i) (f j)))) z already
  = alignment_centered (mkArr fa (rmat n n A)) (mkArr fb (rmat n n B)) z already.
Proof. exact (@pf_C94_alignment). Qed.
Print Assumptions C94_alignment.

(** The targets [y'] and the matrices [As'] are [y] and [As] with the points in another order. *)
Definition reordered (n : nat) (f : nat -> nat) (y y' : list R) (As As' : list (nat -> nat -> R)) : Prop :=
  (forall i, (i < n)%nat -> nth i y' 0 = nth (f i) y 0) /\
  Forall2 (fun A A' => forall i j, (i < n)%nat -> (j < n)%nat -> A' i j = A (f i) (f j)) As As'.

(** C94: alignment_ranking scores every kernel alike if the points are reordered in the targets and in the
    kernel matrices. *)
Theorem C94_ranking :
  forall {U T} (numbers : T -> res (list xr)) best_score best_score' (w w' : world xr xr U) k k' num num' ms ms' Ks Ks'
         (t t' : T) p m n f y y' As As',
    set_is w k num ms -> fulls w ms Ks -> set_is w' k' num' ms' -> fulls w' ms' Ks' ->
    lower m = "align/corr"%string -> align_params p -> rp_centered p <> Some true ->
    numbers t = Ok (map Fin y) -> length y = n -> numbers t' = Ok (map Fin y') -> length y' = n ->
    finite_matrices n Ks As -> finite_matrices n Ks' As' ->
    permutes n f -> reordered n f y y' As As' ->
    snd (rank_kernels numbers best_score' k' t' m p w') = snd (rank_kernels numbers best_score k t m p w).
Proof. exact (@pf_C94_ranking). Qed.
Print Assumptions C94_ranking.

(** C94: the built-in numeric kernels meet the symmetry hypothesis. *)
Theorem C94_builtin_symmetric : forall k kv x y n m d,
  never_raises (builtin k) kv x y n m d -> symmetric_on kv x y n m d.
Proof. exact (@pf_C94_builtin_symmetric). Qed.
Print Assumptions C94_builtin_symmetric.

(** C94: without finite kernel values it is false with normalized=True: a point with an undefined value spoils
    the normalised similarities of the other points. *)
Theorem C94_normalized_nan_refuted : exists (K : kernel xr xr) k x x' a a',
  (forall y n m d, never_raises K k x y n m d) /\ kfmt K = true /\ (forall y n m d, symmetric_on k x y n m d) /\
  admissible x None 2 2 1 /\ admissible x' None 1 1 1 /\ drawn 1 2 2 1 1 (fun i => i) (fun i => i) x None x' None /\
  outcome xN OpFull (after (U := unit) xN K true [] x None []) = Ok (OArr a) /\
  outcome xN OpFull (after (U := unit) xN K true [] x' None []) = Ok (OArr a') /\
  xget (amat a) 0 0 = NaN /\ xget (amat a') 0 0 = Fin 1.
Proof. exact (@pf_C94_normalized_nan_refuted). Qed.
Print Assumptions C94_normalized_nan_refuted.

(** The sample 2, 1: [x12] in reverse order. *)
Definition x21 : ndarray xr := mkNd [2; 1]%nat [Fin 2; Fin 1].
Definition xdot_r (u v : list xr) : R := match xdot u v with Fin a => a | _ => 0 end.
Example C94_reverse_example :
  never_raises (builtin KLinear) (fun u v => Fin (xdot_r u v)) x12 None 2 2 1 /\
  admissible x12 None 2 2 1 /\ admissible x21 None 2 2 1 /\
  drawn 1 2 2 2 2 (fun i => 1 - i)%nat (fun i => 1 - i)%nat x12 None x21 None /\ permutes 2 (fun i => 1 - i)%nat /\
  symmetric_on xdot_r x12 None 2 2 1 /\
  (forall u, is_row x12 None 2 2 1 u -> 1/100000000 < xdot_r u u) /\
  kernel_matrix xdot 2 2 1 x12 None = rmat 2 2 (fun i j => INR (1 + i) * INR (1 + j)).
Proof.
  assert (Hrow : forall u, is_row x12 None 2 2 1 u -> u = [Fin 1] \/ u = [Fin 2]).
  { intros u [[|[|i]] [[Hi ->]|[Hi ->]]]; try lia; [left|left|right|right]; reflexivity. }
  split. { intros t u v Hu Hv. rewrite (linear_total x12 None 2 2 1 eq_refl eq_refl t u v Hu Hv).
    destruct (Hrow u Hu) as [->| ->]; destruct (Hrow v Hv) as [->| ->]; reflexivity. }
  split; [exact x12_ok|].
  split; [split; [exists []; split; [reflexivity|constructor]|reflexivity]|].
  split. { split; intros [|[|i]] Hi; try lia; (split; [lia|reflexivity]). }
  split. { split; lia. }
  split. { intros u v _ _. unfold xdot_r. rewrite xdot_comm. reflexivity. }
  split. { intros u Hu. destruct (Hrow u Hu) as [->| ->]; lazy -[Rplus Rmult IZR Rlt Rdiv]; lra. }
  apply tabulate_ext. intros i j Hi Hj.
  destruct i as [|[|i]]; [| |lia]; (destruct j as [|[|j]]; [| |lia]);
    lazy -[Rplus Rmult IZR]; f_equal; ring.
Qed.
Example C94_reordered_example : permutes 2 (fun i => 1 - i)%nat /\
  reordered 2 (fun i => 1 - i)%nat [3; 5] [5; 3] [fun i j => INR (i + 2 * j)] [fun i j => INR ((1 - i) + 2 * (1 - j))].
Proof.
  split; [split; lia|]. split.
  - intros [|[|i]] Hi; try lia; reflexivity.
  - constructor; [|constructor]. intros i j _ _. reflexivity.
Qed.
