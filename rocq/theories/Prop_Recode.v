(** What the scores of alignment rankings do not depend on (C116).
    Generated by tools/split_props.py from RecodeProps.v: statements only, each closed by [exact]. *)
From Coq Require Import String Reals List Arith ZArith Bool Permutation Lia Lra.
Import ListNotations.
From Verif Require Import Prelude MatModel UtilsModel IndexModel KMModel SpecKM XReal OpsModel SpecLinAlg
  KernelsModel SpecKernels KMXModel SpecKMX SetModel SpecSet BucketModel SpecBucket CompositeModel SpecComposite RankModel SpecRank.
From Verif Require Import MatFacts RSum OpsFacts KMXProps ContProps CompositeProps RankProps.
Local Open Scope list_scope.
Local Open Scope R_scope.
From Verif Require Import RecodeProps.
Local Open Scope list_scope.
Local Open Scope R_scope.

(** The targets [y] in another unit and from another origin. *)
Definition recode (a s : R) (y : list R) : list R := map (fun v => a + s * v) y.
(** [y] gives [p] to the points of one class and [q] to the others; there are points of both classes. *)
Definition two_classes (c : list bool) (p q : R) (y : list R) : Prop :=
  In true c /\ In false c /\ y = map (fun b : bool => if b then p else q) c.
(** The centred norm of the target matrix, that alignment_centered compares with 1e-8. *)
Definition target_norm (y : list R) : R := fnorm (length y) (length y) (centred (length y) (target_matrix y)).

(** Recoding multiplies the centred norm of the target matrix by the square of the unit. *)
Theorem C116_norm : forall a s y, target_norm (recode a s y) = s * s * target_norm y.
Proof. exact (@pf_C116_norm). Qed.
Print Assumptions C116_norm.

(** Targets in another unit and from another origin give every member the same score, whatever was asked for in case
    of a vanishing norm, if the centred norms of both target matrices are above 1e-8, or neither is. *)
Theorem C116_targets :
  forall {U T} (numbers : T -> res (list xr)) best_score (w : world xr xr U) k num ms Ks (t t' : T) p m y a s As,
    set_is w k num ms -> fulls w ms Ks -> lower m = "align/corr"%string ->
    align_params p -> rp_centered p <> Some true ->
    numbers t = Ok (map Fin y) -> numbers t' = Ok (map Fin (recode a s y)) -> finite_matrices (length y) Ks As ->
    (target_norm y <= tiny <-> target_norm (recode a s y) <= tiny) ->
    snd (rank_kernels numbers best_score k t' m p w) = snd (rank_kernels numbers best_score k t m p w).
Proof. exact (@pf_C116_targets). Qed.
Print Assumptions C116_targets.

(** In particular for a change of sign and any shift, without condition. *)
Theorem C116_sign :
  forall {U T} (numbers : T -> res (list xr)) best_score (w : world xr xr U) k num ms Ks (t t' : T) p m y a s As,
    set_is w k num ms -> fulls w ms Ks -> lower m = "align/corr"%string ->
    align_params p -> rp_centered p <> Some true ->
    numbers t = Ok (map Fin y) -> numbers t' = Ok (map Fin (recode a s y)) -> finite_matrices (length y) Ks As ->
    s = 1 \/ s = -1 ->
    snd (rank_kernels numbers best_score k t' m p w) = snd (rank_kernels numbers best_score k t m p w).
Proof. exact (@pf_C116_sign). Qed.
Print Assumptions C116_sign.

(** The numbers by which two classes are coded do not matter, if they are at least 1 apart: 0 and 1, -1 and 1 and 1 and
    2 give the same scores, and so do the codes exchanged. *)
Theorem C116_classes :
  forall {U T} (numbers : T -> res (list xr)) best_score (w : world xr xr U) k num ms Ks (t t' : T) p m c u v u' v' y y' As,
    set_is w k num ms -> fulls w ms Ks -> lower m = "align/corr"%string ->
    align_params p -> rp_centered p <> Some true ->
    two_classes c u v y -> two_classes c u' v' y' -> 1 <= Rabs (u - v) -> 1 <= Rabs (u' - v') ->
    numbers t = Ok (map Fin y) -> numbers t' = Ok (map Fin y') -> finite_matrices (length c) Ks As ->
    snd (rank_kernels numbers best_score k t' m p w) = snd (rank_kernels numbers best_score k t m p w).
Proof. exact (@pf_C116_classes). Qed.
Print Assumptions C116_classes.

(** find_optimal_kernel chooses the same kernel for the targets and for the recoded ones. *)
Theorem C116_optimal :
  forall {U T} (numbers : T -> res (list xr)) best_score numeric (w : world xr xr U) b num ms x n d (t t' : T) m cs Ks As y a s,
    set_is w (b_set b) num ms -> is_sample x n d -> numeric (nd_data x) = true ->
    num = NSNone \/ num = NSOne n -> ms <> [] ->
    Forall2 (candidate w n d x) ms cs ->
    Forall2 (fun c K => gram (snd c) (fst c) n d x = Ok K) cs Ks -> finite_matrices n Ks As ->
    lower m = "align/corr"%string -> numbers t = Ok (map Fin y) -> numbers t' = Ok (map Fin (recode a s y)) ->
    length y = n -> (target_norm y <= tiny <-> target_norm (recode a s y) <= tiny) ->
    snd (find_optimal_kernel numbers best_score numeric (Some b) x t' m no_params w)
    = snd (find_optimal_kernel numbers best_score numeric (Some b) x t m no_params w).
Proof. exact (@pf_C116_optimal). Qed.
Print Assumptions C116_optimal.

(** Every member has the same score in whatever order the members are in the set. *)
Theorem C116_order :
  forall {U T} (numbers : T -> res (list xr)) best_score (w : world xr xr U) k num ms k' num' ms' Ks (t : T) m n y As,
    set_is w k num ms -> set_is w k' num' ms' -> Permutation ms ms' -> fulls w ms Ks ->
    lower m = "align/corr"%string -> numbers t = Ok (map Fin y) -> length y = n -> finite_matrices n Ks As ->
    exists ss ss', snd (rank_kernels numbers best_score k t m no_params w) = Ok ss /\
      snd (rank_kernels numbers best_score k' t m no_params w) = Ok ss' /\
      Permutation (combine ms ss) (combine ms' ss').
Proof. exact (@pf_C116_order). Qed.
Print Assumptions C116_order.

(** The unit does matter if it is small: any targets can be divided by a number such that all scores are 0. *)
Theorem C116_refuted :
  forall {U T} (numbers : T -> res (list xr)) best_score (w : world xr xr U) k num ms Ks m y As,
    set_is w k num ms -> fulls w ms Ks -> lower m = "align/corr"%string -> finite_matrices (length y) Ks As ->
    exists s, 0 < s /\ forall t', numbers t' = Ok (map Fin (recode 0 s y)) ->
      snd (rank_kernels numbers best_score k t' m no_params w) = Ok (map (fun _ => Fin 0) As).
Proof. exact (@pf_C116_refuted). Qed.
Print Assumptions C116_refuted.

Definition real_entry (a : xr) : R := match a with Fin r => r | _ => 0 end.
(** A case: the set of two linear kernel matrices on [[1], [2]] of C36_example; the targets 1, -1 and their codes 0, 1. *)
Example C116_example :
  set_is w_lin 0 (NSOne 2) [0; 1]%nat /\ two_classes [true; false] 1 (-1) [1; -1] /\ two_classes [true; false] 0 1 [0; 1] /\
  exists Ks As, fulls w_lin [0; 1]%nat Ks /\ finite_matrices 2 Ks As.
Proof.
  split; [eexists; eexists; calc; reflexivity|].
  split; [split; [left; reflexivity|split; [right; left; reflexivity|reflexivity]]|].
  split; [split; [left; reflexivity|split; [right; left; reflexivity|reflexivity]]|].
  eexists [_; _]. eexists. split.
  - constructor; [calc; reflexivity|]. constructor; [calc; reflexivity|]. constructor.
  - repeat (apply Forall2_cons; [split; [discriminate|]|]); [| |apply Forall2_nil].
    + instantiate (1 := fun i j => real_entry (xget (kernel_matrix xdot 2 2 1 x12 None) i j)). calc. reflexivity.
    + instantiate (1 := fun i j => real_entry (xget (kernel_matrix xdot 2 2 1 x12 None) i j)). calc. reflexivity.
Qed.
