(** C86: the accuracy of kernels in double precision.
    Generated by tools/split_props.py from FloatDotProps.v: statements only, each closed by [exact]. *)
From Coq Require Import ZArith Bool List Permutation Reals Lia Lra Floats.SpecFloat.
From Verif Require Import Prelude KernelsModel XReal MatModel FloatModel SpecFloats SpecFloatVal SpecLinAlg RSum PSDFacts KernelFacts SpecKernels
  SpecFloatErr FloatProps FloatNormProps FloatRound FloatAny FloatSum.
Import ListNotations.
Local Open Scope R_scope.
From Verif Require Import FloatDotProps.
Local Open Scope R_scope.

(** C86: the linear kernel: with d features the value differs from the inner product by at most
    d eps sum |x_k y_k| (and d times the least positive number). Numbers below the normal range are
    included; the only restrictions are against overflow. *)
Theorem C86_linear : forall e d x y, decent e -> doubles d x -> doubles d y -> INR d <= bpow 50 ->
  absinner d (vals x) (vals y) <= bpow 1010 ->
  exists v, fkernel_value e FLinear (features d x) (features d y) = Ok v /\
    near (inner d (vals x) (vals y)) (INR d * eps * absinner d (vals x) (vals y) + INR d * least) v.
Proof. exact (@pf_C86_linear). Qed.
Print Assumptions C86_linear.

(** C86: the linear kernel on whole numbers is exact as long as sum |x_k y_k| is below 2^53. *)
Theorem C86_linear_exact : forall e d x y (a b : nat -> Z), decent e -> doubles d x -> doubles d y ->
  (forall k, (k < d)%nat -> vals x k = IZR (a k) /\ vals y k = IZR (b k)) ->
  absinner d (vals x) (vals y) < bpow 53 ->
  exists v, fkernel_value e FLinear (features d x) (features d y) = Ok v /\
    near (inner d (vals x) (vals y)) 0 v.
Proof. exact (@pf_C86_linear_exact). Qed.
Print Assumptions C86_linear_exact.

(** C86: kernel matrices of LinearKernel are symmetric, and positive semidefinite up to rounding. *)
Theorem C86_linear_psd : forall e n d X K, decent e -> (forall i, (i < n)%nat -> doubles d (X i)) ->
  INR d <= bpow 50 ->
  (forall i j, (i < n)%nat -> (j < n)%nat ->
     absinner d (vals (X i)) (vals (X j)) <= bpow 1010 /\
     fkernel_value e FLinear (features d (X i)) (features d (X j)) = Ok (K i j)) ->
  symmetric n (fun i j => fval (K i j)) /\
  almost_psd n (fun i j => fval (K i j)) (fun c =>
    INR d * eps * rsum d (fun k => rsum n (fun i => Rabs (c i * vals (X i) k)) * rsum n (fun i => Rabs (c i * vals (X i) k)))
    + INR d * least * (rsum n (fun i => Rabs (c i)) * rsum n (fun i => Rabs (c i)))).
Proof. exact (@pf_C86_linear_psd). Qed.
Print Assumptions C86_linear_psd.

(** C86: the Laplacian kernel: with an exponential that is off by at most [delta], the value is off by at
    most delta + (d + 1) eps. *)
Theorem C86_laplacian : forall e delta gamma d x y, decent e -> exp_within delta e ->
  f_finite gamma = true -> valid_binary 53 1024 gamma = true -> 0 < fval gamma ->
  doubles d x -> doubles d y -> INR d + 1 <= bpow 50 ->
  dist1 d (vals x) (vals y) <= bpow 1010 -> fval gamma * dist1 d (vals x) (vals y) <= bpow 1010 ->
  exists v, fkernel_value e (FLaplacian gamma) (features d x) (features d y) = Ok v /\
    near (exp (- fval gamma * dist1 d (vals x) (vals y))) (delta + (INR d + 1) * eps + least) v.
Proof. exact (@pf_C86_laplacian). Qed.
Print Assumptions C86_laplacian.

(** C86: the Gaussian kernel: off by at most delta + (d + 8) eps. *)
Theorem C86_gaussian : forall e delta gamma d x y, decent e -> exp_within delta e -> pow_within eps 2 e ->
  f_finite gamma = true -> valid_binary 53 1024 gamma = true -> 0 < fval gamma <= bpow 900 ->
  doubles d x -> doubles d y -> INR d + 8 <= bpow 50 ->
  dist2 d (vals x) (vals y) <= bpow 1000 -> fval gamma * dist2 d (vals x) (vals y) <= bpow 1000 ->
  exists v, fkernel_value e (FGaussian gamma) (features d x) (features d y) = Ok v /\
    near (exp (- fval gamma * dist2 d (vals x) (vals y))) (delta + (INR d + 8) * eps) v.
Proof. exact (@pf_C86_gaussian). Qed.
Print Assumptions C86_gaussian.

(** C86: kernel matrices of LaplacianKernel are symmetric, and positive semidefinite up to the rounding
    error. *)
Theorem C86_laplacian_psd : forall e delta gamma n d X K, decent e -> exp_within delta e ->
  f_finite gamma = true -> valid_binary 53 1024 gamma = true -> 0 < fval gamma ->
  (forall i, (i < n)%nat -> doubles d (X i)) -> INR d + 1 <= bpow 50 ->
  (forall i j, (i < n)%nat -> (j < n)%nat ->
     dist1 d (vals (X i)) (vals (X j)) <= bpow 1010 /\ fval gamma * dist1 d (vals (X i)) (vals (X j)) <= bpow 1010 /\
     fkernel_value e (FLaplacian gamma) (features d (X i)) (features d (X j)) = Ok (K i j)) ->
  symmetric n (fun i j => fval (K i j)) /\
  almost_psd n (fun i j => fval (K i j)) (fun c =>
    (delta + (INR d + 1) * eps + least) * (rsum n (fun i => Rabs (c i)) * rsum n (fun i => Rabs (c i)))).
Proof. exact (@pf_C86_laplacian_psd). Qed.
Print Assumptions C86_laplacian_psd.

(** C86: and those of GaussianKernel. *)
Theorem C86_gaussian_psd : forall e delta gamma n d X K, decent e -> exp_within delta e -> pow_within eps 2 e ->
  f_finite gamma = true -> valid_binary 53 1024 gamma = true -> 0 < fval gamma <= bpow 900 ->
  (forall i, (i < n)%nat -> doubles d (X i)) -> INR d + 8 <= bpow 50 ->
  (forall i j, (i < n)%nat -> (j < n)%nat ->
     dist2 d (vals (X i)) (vals (X j)) <= bpow 1000 /\ fval gamma * dist2 d (vals (X i)) (vals (X j)) <= bpow 1000 /\
     fkernel_value e (FGaussian gamma) (features d (X i)) (features d (X j)) = Ok (K i j)) ->
  symmetric n (fun i j => fval (K i j)) /\
  almost_psd n (fun i j => fval (K i j)) (fun c =>
    (delta + (INR d + 8) * eps) * (rsum n (fun i => Rabs (c i)) * rsum n (fun i => Rabs (c i)))).
Proof. exact (@pf_C86_gaussian_psd). Qed.
Print Assumptions C86_gaussian_psd.

(** C86: the sigmoid kernel. *)
Theorem C86_sigmoid : forall e delta gamma offset d x y, decent e -> tanh_within delta e ->
  f_finite gamma = true -> valid_binary 53 1024 gamma = true ->
  f_finite offset = true -> valid_binary 53 1024 offset = true ->
  doubles d x -> doubles d y -> INR d + 2 <= bpow 50 ->
  let S := absinner d (vals x) (vals y) in
  S <= bpow 1010 -> Rabs (fval offset) + Rabs (fval gamma) * (S + 1) <= bpow 1010 ->
  exists v, fkernel_value e (FSigmoid gamma offset) (features d x) (features d y) = Ok v /\
    near (tanh (fval offset + fval gamma * inner d (vals x) (vals y)))
         (delta + (INR d + 2) * eps * (Rabs (fval offset) + Rabs (fval gamma) * S)
                + (2 * Rabs (fval gamma) * INR d + 1) * least) v.
Proof. exact (@pf_C86_sigmoid). Qed.
Print Assumptions C86_sigmoid.

(** C86: the polynomial kernel of degree k with |b| >= 1 (the default is b = 1): relative to
    (|b| + |gamma| sum |x_i y_i|)^k the error is at most 2 delta + k (d + 3) eps. *)
Theorem C86_polynomial : forall e delta k gamma b d x y, decent e -> 0 <= delta -> pow_within delta k e ->
  f_finite gamma = true -> valid_binary 53 1024 gamma = true -> Rabs (fval gamma) <= bpow 900 ->
  f_finite b = true -> valid_binary 53 1024 b = true -> 1 <= Rabs (fval b) ->
  doubles d x -> doubles d y -> INR k * (INR d + 3) <= bpow 50 -> INR d + 3 <= bpow 50 ->
  let S := absinner d (vals x) (vals y) in
  let A := Rabs (fval b) + Rabs (fval gamma) * S in
  S <= bpow 1000 -> A <= bpow 1000 -> A ^ k <= bpow 1000 ->
  exists v, fkernel_value e (FPoly (fint (Z.of_nat k)) gamma b) (features d x) (features d y) = Ok v /\
    near ((fval b + fval gamma * inner d (vals x) (vals y)) ^ k)
         ((2 * delta + INR k * (INR d + 3) * eps) * A ^ k + least) v.
Proof. exact (@pf_C86_polynomial). Qed.
Print Assumptions C86_polynomial.

(** C86: the requirements on the platform can be met together. *)
Theorem C86_platform_example : exists e, decent e /\ exp_within eps e /\ pow_within eps 2 e /\ tanh_within eps e.
Proof. exact (@pf_C86_platform_example). Qed.
Print Assumptions C86_platform_example.

(** C86 on concrete data: x = (0.1, 0.2, 0.3) and y = (1, 1, 1) meet the requirements of C86_linear and
    those of C86_laplacian, C86_gaussian, C86_sigmoid and C86_polynomial (k = 2) with gamma = b = 1; the
    linear kernel on them is not exact. *)
Definition x3 (k : nat) : f64 :=
  match k with
  | O => S754_finite false 7205759403792794 (-56)
  | S O => S754_finite false 7205759403792794 (-55)
  | _ => S754_finite false 5404319552844595 (-54)
  end.
Definition y3 (k : nat) : f64 := fone.
Example C86_example :
  doubles 3 x3 /\ doubles 3 y3 /\ absinner 3 (vals x3) (vals y3) <= bpow 1010 /\
  dist1 3 (vals x3) (vals y3) <= bpow 1010 /\ dist2 3 (vals x3) (vals y3) <= bpow 1000 /\ fval fone = 1 /\
  (1 + 1 * absinner 3 (vals x3) (vals y3)) ^ 2 <= bpow 1000 /\
  exists v, fkernel_value plain FLinear (features 3 x3) (features 3 y3) = Ok v /\
    fval v <> inner 3 (vals x3) (vals y3).
Proof.
  assert (H1 : fval fone = 1).
  { rewrite fone_eq. cbn [fval]. change (-52)%Z with (- (52))%Z. rewrite bpow_neg, bpow_IZR by lia. change (2 ^ 52)%Z with 4503599627370496%Z. lra. }
  assert (V : forall k, vals y3 k = 1) by (intros; exact H1).
  assert (B56 := bpow_pos (-56)).
  assert (E55 : bpow (-55) = 2 * bpow (-56)) by (change (-55)%Z with (1 + -56)%Z; rewrite bpow_add; change (bpow 1) with (2 * 1); ring).
  assert (E54 : bpow (-54) = 4 * bpow (-56)) by (change (-54)%Z with (2 + -56)%Z; rewrite bpow_add; change (bpow 2) with (2 * (2 * 1)); ring).
  assert (E53 : bpow (-53) = 8 * bpow (-56)) by (change (-53)%Z with (3 + -56)%Z; rewrite bpow_add; change (bpow 3) with (2 * (2 * (2 * 1))); ring).
  assert (E56 : bpow (-56) = / 72057594037927936) by (change (-56)%Z with (- (56))%Z; rewrite bpow_neg, bpow_IZR by lia; reflexivity).
  assert (X0 : vals x3 0 = 7205759403792794 * bpow (-56)) by (unfold vals; cbn [x3 fval]; ring).
  assert (X1 : vals x3 1 = 14411518807585588 * bpow (-56)) by (unfold vals; cbn [x3 fval]; rewrite E55; ring).
  assert (X2 : vals x3 2 = 21617278211378380 * bpow (-56)) by (unfold vals; cbn [x3 fval]; rewrite E54; ring).
  assert (R0 : 0 < vals x3 0 < 1) by (rewrite X0, E56; lra).
  assert (R1 : 0 < vals x3 1 < 1) by (rewrite X1, E56; lra).
  assert (R2 : 0 < vals x3 2 < 1) by (rewrite X2, E56; lra).
  assert (Big : 8 <= bpow 1000).
  { replace 8 with (bpow 3) by (change (bpow 3) with (2 * (2 * (2 * 1))); ring). apply bpow_le. lia. }
  assert (Big' : bpow 1000 <= bpow 1010) by (apply bpow_le; lia).
  split; [intros [|[|[|k]]] Hk; try lia; split; reflexivity|].
  split; [intros k _; unfold y3; split; reflexivity|].
  split. { unfold absinner. cbn [rsum]. rewrite !V, !Rmult_1_r, !Rabs_pos_eq by lra. lra. }
  split. { unfold dist1. cbn [rsum]. rewrite !V, !Rabs_left by lra. lra. }
  split. { unfold dist2. cbn [rsum]. rewrite !V. nra. }
  split; [exact H1|].
  split.
  { unfold absinner. cbn [rsum]. rewrite !V, !Rmult_1_r, !Rabs_pos_eq by lra. rewrite X0, X1, X2, E56. nra. }
  exists (S754_finite false 5404319552844595 (-53)). split; [vm_compute; reflexivity|].
  unfold inner. cbn [rsum]. rewrite !V, X0, X1, X2. cbn [fval]. rewrite E53, E56. lra.
Qed.
