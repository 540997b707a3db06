(** C90: composite kernels in double precision.
    Generated by tools/split_props.py from FloatCompositeProps.v: statements only, each closed by [exact]. *)
From Coq Require Import ZArith Bool List Permutation Reals Lia Lra Floats.SpecFloat.
From Verif Require Import Prelude KernelsModel XReal MatModel FloatModel SpecFloats SpecFloatVal SpecLinAlg RSum PSDFacts
  KernelFacts SpecFloatErr FloatProps FloatNormProps FloatRound FloatAny FloatSum FloatDiv FloatDotProps
  FloatOpsModel SpecFloatOps FloatOpsFacts FloatNearest FloatRankModel SpecFloatRank FloatRankProps
  FloatCompositeModel SpecFloatComposite.
Import ListNotations.
Local Open Scope R_scope.
From Verif Require Import FloatCompositeProps.
Local Open Scope R_scope.

(** SumKernel.fit() without weights: entry (i, j) is the sum of the entries of the members, off by at most
    L eps sum_k |K_k(i,j)|. *)
Theorem C90_sum : forall L n Ks b, INR L <= bpow 50 -> all_doubles L n Ks b -> INR L * b <= bpow 1010 ->
  exists C, fsum_kernel None (members L Ks) = Ok C /\ forall i j, (i < n)%nat -> (j < n)%nat ->
    near (rsum L (fun k => mvals (Ks k) i j)) (INR L * eps * rsum L (fun k => Rabs (mvals (Ks k) i j))) (C i j).
Proof. exact (@pf_C90_sum). Qed.
Print Assumptions C90_sum.

(** SumKernel.fit(kernel_weights) and WeightedAverageKernel.fit(): they agree, and entry (i, j) is off by at most
    L eps sum_k |w_k K_k(i,j)|. *)
Theorem C90_weighted : forall L n w Ks a b, INR L <= bpow 50 ->
  (forall k, (k < L)%nat -> f_finite (w k) = true /\ valid_binary 53 1024 (w k) = true /\ Rabs (fval (w k)) <= a) ->
  all_doubles L n Ks b -> INR L * (a * b) <= bpow 1010 ->
  fsum_kernel (Some (members L w)) (members L Ks) = Ok (fweighted_kernel (members L w) (members L Ks)) /\
  forall i j, (i < n)%nat -> (j < n)%nat ->
  near (rsum L (fun k => fval (w k) * mvals (Ks k) i j))
       (INR L * eps * rsum L (fun k => Rabs (fval (w k)) * Rabs (mvals (Ks k) i j)) + INR L * least)
       (fweighted_kernel (members L w) (members L Ks) i j).
Proof. exact (@pf_C90_weighted). Qed.
Print Assumptions C90_weighted.

(** AverageKernel: off by at most (L + 1) eps times the mean of |K_k(i,j)| (and the least positive number). *)
Theorem C90_average : forall L n Ks b, (0 < L)%nat -> INR L <= bpow 50 -> all_doubles L n Ks b -> INR L * b <= bpow 1010 ->
  forall i j, (i < n)%nat -> (j < n)%nat ->
  near (rsum L (fun k => mvals (Ks k) i j) / INR L)
       ((INR L + 1) * eps * (rsum L (fun k => Rabs (mvals (Ks k) i j)) / INR L) + least)
       (faverage_kernel (members L Ks) i j).
Proof. exact (@pf_C90_average). Qed.
Print Assumptions C90_average.

(** ProductKernel of entries of magnitude at most M (at least 1): off by at most L eps M^L. *)
Theorem C90_product : forall L n Ks M, 1 <= M -> INR L <= bpow 50 -> M ^ L <= bpow 1010 -> all_doubles L n Ks M ->
  forall i j, (i < n)%nat -> (j < n)%nat ->
  near (rprod L (fun k => mvals (Ks k) i j)) (INR L * eps * M ^ L) (fproduct_kernel (members L Ks) i j).
Proof. exact (@pf_C90_product). Qed.
Print Assumptions C90_product.

(** AverageKernel and ProductKernel of members with entries between -1 and 1, such as normalized ones: the
    entries are between -1 and 1, without any rounding error beyond; they are not negative if those of the members
    are not; and they are exactly 1 where those of all members are. *)
Theorem C90_unit_range : forall L n Ks, (0 < L)%nat -> (Z.of_nat L < 2 ^ 53)%Z -> all_doubles L n Ks 1 ->
  forall i j, (i < n)%nat -> (j < n)%nat ->
  let av := faverage_kernel (members L Ks) i j in let pr := fproduct_kernel (members L Ks) i j in
  (f_finite av = true /\ -1 <= fval av <= 1) /\ (f_finite pr = true /\ -1 <= fval pr <= 1) /\
  ((forall k, (k < L)%nat -> 0 <= mvals (Ks k) i j) -> 0 <= fval av /\ 0 <= fval pr) /\
  ((forall k, (k < L)%nat -> mvals (Ks k) i j = 1) -> fval av = 1 /\ fval pr = 1).
Proof. exact (@pf_C90_unit_range). Qed.
Print Assumptions C90_unit_range.

(** They keep the order: when every member gives the pair (i, j) no more than (i', j'), so does the average, and
    the product if the entries are not negative. *)
Theorem C90_order : forall L n Ks b, (0 < L)%nat -> INR L <= bpow 50 -> all_doubles L n Ks b -> INR L * b <= bpow 1010 ->
  forall i j i' j', (i < n)%nat -> (j < n)%nat -> (i' < n)%nat -> (j' < n)%nat ->
  (forall k, (k < L)%nat -> mvals (Ks k) i j <= mvals (Ks k) i' j') ->
  fval (faverage_kernel (members L Ks) i j) <= fval (faverage_kernel (members L Ks) i' j') /\
  (1 <= b -> b ^ L <= bpow 1010 -> (forall k, (k < L)%nat -> 0 <= mvals (Ks k) i j) ->
   fval (fproduct_kernel (members L Ks) i j) <= fval (fproduct_kernel (members L Ks) i' j')).
Proof. exact (@pf_C90_order). Qed.
Print Assumptions C90_order.

(** Weights are refused exactly if there are not as many as members, with ValueError. *)
Theorem C90_weights : forall w Ks,
  (exists C, fsum_kernel (Some w) Ks = Ok C) /\ length w = length Ks \/
  fsum_kernel (Some w) Ks = Raise ValueError /\ length w <> length Ks.
Proof. exact (@pf_C90_weights). Qed.
Print Assumptions C90_weights.

(** All of them are exactly symmetric when the members are, for all floats. *)
Theorem C90_symmetric : forall Ks w n, (forall K, In K Ks -> forall i j, (i < n)%nat -> (j < n)%nat -> K i j = K j i) ->
  forall i j, (i < n)%nat -> (j < n)%nat ->
  (forall C, fsum_kernel w Ks = Ok C -> C i j = C j i) /\
  (forall ws, fweighted_kernel ws Ks i j = fweighted_kernel ws Ks j i) /\
  fproduct_kernel Ks i j = fproduct_kernel Ks j i /\ faverage_kernel Ks i j = faverage_kernel Ks j i.
Proof. exact (@pf_C90_symmetric). Qed.
Print Assumptions C90_symmetric.

(** Sums, averages and products of positive semidefinite matrices are positive semidefinite up to rounding. *)
Theorem C90_psd : forall L n Ks b, (0 < L)%nat -> INR L <= bpow 50 -> all_doubles L n Ks b -> 1 <= b ->
  INR L * b <= bpow 1010 -> b ^ L <= bpow 1010 -> (forall k, (k < L)%nat -> psd n (mvals (Ks k))) ->
  (forall C, fsum_kernel None (members L Ks) = Ok C ->
     almost_psd n (mvals C) (fun c => (INR L * eps * (INR L * b)) * (rsum n (fun i => Rabs (c i)) * rsum n (fun i => Rabs (c i))))) /\
  almost_psd n (mvals (faverage_kernel (members L Ks)))
    (fun c => ((INR L + 1) * eps * b + least) * (rsum n (fun i => Rabs (c i)) * rsum n (fun i => Rabs (c i)))) /\
  almost_psd n (mvals (fproduct_kernel (members L Ks)))
    (fun c => (INR L * eps * b ^ L) * (rsum n (fun i => Rabs (c i)) * rsum n (fun i => Rabs (c i)))).
Proof. exact (@pf_C90_psd). Qed.
Print Assumptions C90_psd.

(** The average of equal matrices need not be that matrix: with three members whose entry is the double nearest
    to 1/10 the average is larger than all of them. *)
Theorem C90_average_refuted : exists n K i j, doubles2 n n K 1 /\ psd n (mvals K) /\ (i < n)%nat /\ (j < n)%nat /\
  fval (K i j) < fval (faverage_kernel [K; K; K] i j).
Proof. exact (@pf_C90_average_refuted). Qed.
Print Assumptions C90_average_refuted.

(** The order of the members matters for sums. *)
Theorem C90_sum_order_refuted : exists Ks Ks' C C', Permutation Ks Ks' /\ (forall K, In K Ks -> doubles2 1 1 K 1) /\
  fsum_kernel None Ks = Ok C /\ fsum_kernel None Ks' = Ok C' /\ fval (C 0%nat 0%nat) < fval (C' 0%nat 0%nat).
Proof. exact (@pf_C90_sum_order_refuted). Qed.
Print Assumptions C90_sum_order_refuted.

(** A product of positive numbers need not be positive: 2^-600 with itself. *)
Theorem C90_product_refuted : exists K : nat -> nat -> f64, doubles2 1 1 K 1 /\ 0 < fval (K 0%nat 0%nat) /\
  fval (fproduct_kernel [K; K] 0%nat 0%nat) = 0.
Proof. exact (@pf_C90_product_refuted). Qed.
Print Assumptions C90_product_refuted.

(** Two members meeting the hypotheses, their average and product. *)
Theorem C90_example : all_doubles 2 2 (fun k => if Nat.eqb k 0 then half2 else tenth2) 1 /\
  INR 2 * 1 <= bpow 1010 /\ 1 ^ 2 <= bpow 1010 /\
  let Ks := members 2 (fun k => if Nat.eqb k 0 then half2 else tenth2) in
  faverage_kernel Ks 0%nat 1%nat = S754_finite false 5404319552844595 (-54) /\ faverage_kernel Ks 1%nat 1%nat = fone /\
  fproduct_kernel Ks 0%nat 1%nat = S754_finite false 7205759403792794 (-57) /\ fproduct_kernel Ks 1%nat 1%nat = fone /\
  res_map (fun C => C 1%nat 0%nat) (fsum_kernel (Some [fone; ftwo]) Ks) = Ok (S754_finite false 6305039478318694 (-53)).
Proof. exact (@pf_C90_example). Qed.
Print Assumptions C90_example.
