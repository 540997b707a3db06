(** C89: cross-validation scores in double precision.
    Generated by tools/split_props.py from FloatRankProps.v: statements only, each closed by [exact]. *)
From Coq Require Import ZArith Bool List Reals Lia Lra Floats.SpecFloat.
From Verif Require Import Prelude KernelsModel FloatModel SpecFloats SpecFloatVal SpecFloatErr FloatProps FloatNormProps FloatRound
  FloatAny FloatDiv FloatSum FloatOpsModel FloatOpsFacts FloatNearest FloatRankModel SpecFloatRank.
Import ListNotations.
Local Open Scope R_scope.
From Verif Require Import FloatRankProps.
Local Open Scope R_scope.

(** One score per kernel; they are finite, between 0 and 100, and in the order of the scores of
    cross-validation. *)
Theorem C89_scores : forall l, score_list l -> exists r, fcv_scores l = Ok r /\ length r = length l /\
  (forall k, (k < length l)%nat -> f_finite (nth k r fzero) = true /\ 0 <= score r k <= 100) /\
  (forall j k, (j < length l)%nat -> (k < length l)%nat -> score l j <= score l k -> score r j <= score r k).
Proof. exact (@pf_C89_scores). Qed.
Print Assumptions C89_scores.

(** When the scores are spread over more than 1.1e-8: the worst kernel gets 0, the best 100, exactly, and every
    other one its position between them, up to 202 units of roundoff at 1. *)
Theorem C89_scaled : forall l lo hi, score_list l -> smallest l lo -> largest l hi -> 11 / 10 ^ 9 < hi - lo ->
  exists r, fcv_scores l = Ok r /\ forall k, (k < length l)%nat ->
    near (100 * ((score l k - lo) / (hi - lo))) (202 * eps) (nth k r fzero) /\
    (score l k = lo -> score r k = 0) /\ (score l k = hi -> score r k = 100).
Proof. exact (@pf_C89_scaled). Qed.
Print Assumptions C89_scaled.

(** When they differ by at most 1e-8, every kernel gets 0. *)
Theorem C89_constant : forall l lo hi, score_list l -> smallest l lo -> largest l hi -> hi - lo <= / 10 ^ 8 ->
  fcv_scores l = Ok (map (fun _ => fzero) l).
Proof. exact (@pf_C89_constant). Qed.
Print Assumptions C89_constant.

(** The kernel chosen is the best one, up to three units of roundoff of the spread of the scores, or to 1.1e-8. *)
Theorem C89_chosen : forall l lo hi, score_list l -> smallest l lo -> largest l hi ->
  exists i, rbind (fcv_scores l) fargmax = Ok i /\ (i < length l)%nat /\
    (hi - score l i <= 3 * eps * (hi - lo) \/ (i = 0%nat /\ hi - lo <= 11 / 10 ^ 9)).
Proof. exact (@pf_C89_chosen). Qed.
Print Assumptions C89_chosen.

(** One score that is not a number makes all of them so, and the first kernel is chosen whatever its score. *)
Theorem C89_nan : forall l, In S754_nan l ->
  fcv_scores l = Ok (map (fun _ => S754_nan) l) /\ rbind (fcv_scores l) fargmax = Ok 0%nat.
Proof. exact (@pf_C89_nan). Qed.
Print Assumptions C89_nan.

(** Whatever the scores (infinities and NaN included), only an empty list of them raises, and it raises ValueError;
    otherwise every score is scaled and one of the kernels is chosen. *)
Theorem C89_errors : forall l : list f64,
  (l = [] -> fcv_scores l = Raise ValueError /\ rbind (fcv_scores l) fargmax = Raise ValueError /\ fargmax l = Raise ValueError) /\
  (l <> [] -> exists r i, fcv_scores l = Ok r /\ length r = length l /\
     rbind (fcv_scores l) fargmax = Ok i /\ (i < length l)%nat).
Proof. exact (@pf_C89_errors). Qed.
Print Assumptions C89_errors.

(** The scores -1, 1 - 2^-53 and 1. *)
Theorem C89_best_refuted : exists l i j, score_list l /\ (i < length l)%nat /\ (j < length l)%nat /\
  rbind (fcv_scores l) fargmax = Ok i /\ score l i < score l j /\ 1 < score l j - score l 0.
Proof. exact (@pf_C89_best_refuted). Qed.
Print Assumptions C89_best_refuted.

(** The scores 1/2 and 1/2 + 2^-28. *)
Theorem C89_close_refuted : exists l i j, score_list l /\ (i < length l)%nat /\ (j < length l)%nat /\
  rbind (fcv_scores l) fargmax = Ok i /\ score l i + / 10 ^ 9 < score l j.
Proof. exact (@pf_C89_close_refuted). Qed.
Print Assumptions C89_close_refuted.

(** The scores 1/4, 1, 1/2, 1: scaled to 0, 100, 33.3..., 100, and the second kernel is chosen. *)
Theorem C89_example :
  let l := [S754_finite false 4503599627370496 (-54); fint 1; S754_finite false 4503599627370496 (-53); fint 1] in
  score_list l /\ smallest l (1/4) /\ largest l 1 /\
  fcv_scores l = Ok [fzero; fint 100; S754_finite false 4691249611844266 (-47); fint 100] /\
  rbind (fcv_scores l) fargmax = Ok 1%nat.
Proof. exact (@pf_C89_example). Qed.
Print Assumptions C89_example.
