(** Linear combinations of the members of a KernelSet: property C82.
    Generated by tools/split_props.py from LinCombProps.v: statements only, each closed by [exact]. *)
From Coq Require Import String Reals List Arith ZArith Bool Lia Lra.
Import ListNotations.
From Verif Require Import Prelude MatModel UtilsModel IndexModel KMModel SpecKM XReal OpsModel
  SpecLinAlg KernelsModel SpecKernels KMXModel SpecKMX SetModel SpecSet CompositeModel SpecComposite
  LinCombModel SpecLinComb.
From Verif Require Import MatFacts MFacts KMFacts KMInv KMHist KMHist2 KMProps RSum OpsFacts PSDFacts
  KMXProps SetFacts SetFacts2 SetProps ContProps FullFacts CompositeFacts CompositeProps.
From Verif Require Import LinCombProps.
Local Open Scope list_scope.
Local Open Scope nat_scope.

(** C82: for a set that has members (or is made for two samples), the result is the n x m matrix whose
    entries are the weighted sums of the entries of the members' [full], dense unless the set never had
    a num_samples; any number of members, any entries (also NaN and infinite), any formats; reading
    [full] and the sets gives the same as before. *)
Theorem C82_sum :
  forall {E U} k (w : world E xr U) num ms n m Ks a ws,
    set_is w k num ms -> dims_of num n m -> ms <> [] \/ num = NSTwo n m ->
    fulls w ms Ks -> Forall (has_dims n m) Ks -> is_vector a ws -> length ws = length ms ->
    exists w' b, linear_combination_set k a false w = (w', Ok (LMatrix b)) /\
      is_matrix2 n m (sum_entry ws Ks) b /\ undisturbed w w' /\
      (num <> NSNone -> is_sparse b = false).
Proof. exact (@pf_C82_sum). Qed.
Print Assumptions C82_sum.

(** C82, the storage format of the result, for any weights and with and without norm_weights: a plain
    array exactly if all members' [full] are; sparse exactly if all are and the set has no num_samples;
    a numpy.matrix otherwise. *)
Theorem C82_format :
  forall {E U} k (w : world E xr U) num ms Ks a ws nw w' b,
    set_is w k num ms -> ms <> [] -> fulls w ms Ks -> is_vector a ws -> length ws = length ms ->
    linear_combination_set k a nw w = (w', Ok (LMatrix b)) ->
    sum_format num (map afmt Ks) (afmt b).
Proof. exact (@pf_C82_format). Qed.
Print Assumptions C82_format.

(** C82, norm_weights=True: the same with the weights divided by their total, provided it is not within
    1e-8 of zero; they add up to 1 then. *)
Theorem C82_normalised :
  forall {E U} k (w : world E xr U) num ms n m Ks a ws,
    set_is w k num ms -> dims_of num n m -> ms <> [] \/ num = NSTwo n m ->
    fulls w ms Ks -> Forall (has_dims n m) Ks -> is_vector a ws -> length ws = length ms ->
    (1/100000000 < Rabs (total ws))%R ->
    total (map (fun r => (r / total ws)%R) ws) = 1%R /\
    exists w' b, linear_combination_set k a true w = (w', Ok (LMatrix b)) /\
      is_matrix2 n m (sum_entry (map (fun r => (r / total ws)%R) ws) Ks) b /\ undisturbed w w' /\
      (num <> NSNone -> is_sparse b = false).
Proof. exact (@pf_C82_normalised). Qed.
Print Assumptions C82_normalised.

(** C82: normalising raises RuntimeError exactly if the total of the weights is within 1e-8 of zero;
    nothing has been read then. *)
Theorem C82_zero_sum :
  forall {E U} k (w : world E xr U) num ms a ws,
    set_is w k num ms -> is_vector a ws -> length ws = length ms ->
    (Rabs (total ws) <= 1/100000000)%R ->
    linear_combination_set k a true w = (w, Raise RuntimeError).
Proof. exact (@pf_C82_zero_sum). Qed.
Print Assumptions C82_zero_sum.

(** C82: a wrong number of weights raises ValueError, and nothing has been read. *)
Theorem C82_wrong_count :
  forall {E U} k (w : world E xr U) num ms a ws nw,
    set_is w k num ms -> is_vector a ws -> length ws <> length ms ->
    linear_combination_set k a nw w = (w, Raise ValueError).
Proof. exact (@pf_C82_wrong_count). Qed.
Print Assumptions C82_wrong_count.

(** C82: a number in place of the weights (a 0-dimensional array) raises TypeError, and nothing has been
    read. *)
Theorem C82_scalar_weights :
  forall {E U} k (w : world E xr U) num ms a nw,
    set_is w k num ms -> nd_shape a = [] ->
    linear_combination_set k a nw w = (w, Raise TypeError).
Proof. exact (@pf_C82_scalar_weights). Qed.
Print Assumptions C82_scalar_weights.

(** C82: if [full] of a member raises, its exception is raised (that of the first such member). *)
Theorem C82_member_raises :
  forall {E U} k (w : world E xr U) num n m ms1 l ms2 Ks a ws e,
    set_is w k num (ms1 ++ l :: ms2) -> dims_of num n m ->
    fulls w ms1 Ks -> Forall (has_dims n m) Ks -> snd (obj_full xN l w) = Raise e ->
    is_vector a ws -> length ws = length (ms1 ++ l :: ms2) ->
    snd (linear_combination_set k a false w) = Raise e.
Proof. exact (@pf_C82_member_raises). Qed.
Print Assumptions C82_member_raises.

(** C82: with non-negative weights, a combination of positive semidefinite matrices is positive
    semidefinite; also with normalisation, if the total is not negligible. *)
Theorem C82_psd :
  forall {E U} k (w : world E xr U) num ms n Ks a ws nw,
    set_is w k num ms -> num = NSOne n \/ num = NSNone -> ms <> [] ->
    fulls w ms Ks -> Forall (psd_array n) Ks -> is_vector a ws -> length ws = length ms ->
    Forall (fun r => (0 <= r)%R) ws -> (nw = true -> (1/100000000 < total ws)%R) ->
    exists w' b, linear_combination_set k a nw w = (w', Ok (LMatrix b)) /\ psd_array n b.
Proof. exact (@pf_C82_psd). Qed.
Print Assumptions C82_psd.

(** C82: on one sample it is what SumKernel computes with the same weights. *)
Theorem C82_sum_kernel :
  forall {E U} C numeric k (w0 : world E xr U) c ops num ms n ms0 Ks a ws,
    comp_new NewSum (Some k) w0 = Ok c -> set_is w0 k (NSOne n) ms0 ->
    let s := crun C numeric ops (w0, c) in
    set_is (fst s) k num ms -> num = NSOne n -> ms <> [] ->
    fulls (fst s) ms Ks -> Forall (is_square n) Ks -> is_vector a ws -> length ws = length ms ->
    exists w' b, linear_combination_set k a false (fst s) = (w', Ok (LMatrix b)) /\
      fits C numeric (Some a) s (fun b' => has_dims n n b' /\
        forall i j, i < n -> j < n -> xget (amat b') i j = xget (amat b) i j).
Proof. exact (@pf_C82_sum_kernel). Qed.
Print Assumptions C82_sum_kernel.

(** C82, end to end, also for two samples (train x test), where composites fail (C36_two_samples):
    if the members are KernelMatrix objects attached to the same samples, with kernels that do not raise
    and arbitrary histories of accesses, the entries are weighted sums of kernel values. *)
Theorem C82_kernels :
  forall {U} k (w : world xr xr U) num ms n m d x y ks a ws,
    set_is w k num ms -> dims_of num n m -> ms <> [] -> admissible x y n m d ->
    Forall2 (attached_to n m d x y w) ms ks -> is_vector a ws -> length ws = length ms ->
    exists w' b, linear_combination_set k a false w = (w', Ok (LMatrix b)) /\
      is_matrix2 n m (fun i j =>
        xsum (map (fun p => xmul (Fin (fst p)) (entry (snd p) d x y i j)) (combine ws ks))) b /\
      undisturbed w w'.
Proof. exact (@pf_C82_kernels). Qed.
Print Assumptions C82_kernels.

(** Two KernelMatrix objects attached to [[1], [2]] and [[3]] (two samples), in a KernelSet: the
    hypotheses of C82_kernels hold. *)
Definition y3 : ndarray xr := mkNd [1; 1] [Fin 3].
Definition w_pair : world xr xr unit :=
  wrun xN xC numx
    [WNewKM lin false; WNewKM lin false; WObj 0 (OpAttach x12 (Some y3));
     WObj 1 (OpAttach x12 (Some y3)); WSetNew (KLIter [ARef 0; ARef 1]) None] w_empty.
Example C82_example :
  set_is w_pair 0 (NSTwo 2 1) [0; 1] /\ admissible x12 (Some y3) 2 1 1 /\
  attached_to 2 1 1 x12 (Some y3) w_pair 0 xdot /\ is_vector ones2 [1; 1]%R /\
  (1/100000000 < Rabs (total [1; 1]))%R.
Proof.
  split; [eexists; eexists; calc; reflexivity|]. split.
  { split; [exact (proj1 x12_ok)|]. exists []. split; [reflexivity|constructor]. }
  split.
  { exists lin, [], []. split; [calc; reflexivity|]. split; [apply linear_total; reflexivity|].
    split; [reflexivity|]. split; [reflexivity|]. split; [intros []|intros ix []]. }
  split.
  { split; [reflexivity|]. exists []. split; [reflexivity|constructor]. }
  cbn. rewrite Rabs_right; lra.
Qed.

(** A kernel matrix added to a set before it was attached, then attached and asked for its sparse form:
    the set has no num_samples, [full] is sparse, the hypotheses of C82_format hold and the combination
    is sparse. *)
Definition w_late : world xr xr unit :=
  wrun xN xC numx
    [WNewKM lin false; WSetNew (KLIter [ARef 0]) None; WObj 0 (OpAttach x12 None);
     WObj 0 OpFullSparse] w_empty.
Example C82_format_example :
  set_is w_late 0 NSNone [0] /\
  exists K w' b, fulls w_late [0] [K] /\ afmt K = Lil /\ is_vector (mkNd [1] [Fin 1]) [1%R] /\
    linear_combination_set 0 (mkNd [1] [Fin 1]) false w_late = (w', Ok (LMatrix b)) /\ afmt b = Lil.
Proof.
  split; [eexists; eexists; calc; reflexivity|].
  do 3 eexists. split; [constructor; [calc; reflexivity|constructor]|].
  split; [reflexivity|]. split; [split; [reflexivity|]; exists []; split; [reflexivity|constructor]|].
  split; [calc; destruct (Req_EM_T 0 0) as [_|N]; [reflexivity|contradiction]|reflexivity].
Qed.

(** C82 fails for the empty set: the combination of no matrices on 2 samples is a vector of length 2, and
    without num_samples a number, not the zero matrix. *)
Theorem C82_empty_refuted :
  exists (w : world xr xr unit) k k' a,
    w = wrun xN xC numx [WSetNew KLNone (Some 2); WSetNew KLNone None] w_empty /\
    set_is w k (NSOne 2) [] /\ set_is w k' NSNone [] /\ is_vector a [] /\
    snd (linear_combination_set k a false w) = Ok (LVector [Fin 0; Fin 0]) /\
    snd (linear_combination_set k' a false w) = Ok (LScalar (Fin 0)).
Proof. exact (@pf_C82_empty_refuted). Qed.
Print Assumptions C82_empty_refuted.

(** C82 fails if a member is attached to another sample behind the back of the set: the zeros of the
    old size stretch its matrix. Here the only member has the 1 x 1 matrix of [[3]], and the
    combination with weight 1 is a 1 x 2 matrix. *)
Theorem C82_stale_refuted :
  exists (w : world xr xr unit) k l a K b,
    w = wrun xN xC numx [WNewKM lin false; WObj 0 (OpAttach x12 None);
                         WSetNew (KLIter [ARef 0]) None; WObj 0 (OpAttach y3 None)] w_empty /\
    set_is w k (NSOne 2) [l] /\ is_vector a [1%R] /\ snd (obj_full xN l w) = Ok K /\
    has_dims 1 1 K /\ snd (linear_combination_set k a false w) = Ok (LMatrix b) /\ has_dims 1 2 b.
Proof. exact (@pf_C82_stale_refuted). Qed.
Print Assumptions C82_stale_refuted.
