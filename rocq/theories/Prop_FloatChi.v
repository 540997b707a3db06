(** C86: the accuracy of Chi2Kernel and HadamardKernel in double precision.
    Generated by tools/split_props.py from FloatChiProps.v: statements only, each closed by [exact]. *)
From Coq Require Import ZArith Bool List Permutation Reals Lia Lra Floats.SpecFloat.
From Verif Require Import Prelude KernelsModel XReal MatModel FloatModel SpecFloats SpecFloatVal SpecLinAlg RSum PSDFacts KernelFacts SpecKernels
  SpecFloatErr FloatProps FloatNormProps FloatRound FloatAny FloatSum FloatDiv FloatDotProps.
Import ListNotations.
Local Open Scope R_scope.
From Verif Require Import FloatChiProps.
Local Open Scope R_scope.

(** C86: the chi-squared kernel, on features that are zero or between 2^-400 and 2^500: off by at most
    delta + (d + 8) eps. *)
Theorem C86_chi2 : forall e delta gamma d x y, decent e -> exp_within delta e -> pow_within eps 2 e ->
  f_finite gamma = true -> valid_binary 53 1024 gamma = true -> 0 < fval gamma <= bpow 400 ->
  doubles d x -> doubles d y -> INR d + 8 <= bpow 50 ->
  (forall k, (k < d)%nat -> midsize (vals x k) /\ midsize (vals y k)) ->
  exists v, fkernel_value e (FChi2 gamma) (features d x) (features d y) = Ok v /\
    near (exp (- fval gamma * chi2stat d (vals x) (vals y))) (delta + (INR d + 8) * eps) v.
Proof. exact (@pf_C86_chi2). Qed.
Print Assumptions C86_chi2.

(** C86: kernel matrices of Chi2Kernel are symmetric, and positive semidefinite up to the rounding error. *)
Theorem C86_chi2_psd : forall e delta gamma n d X K, decent e -> exp_within delta e -> pow_within eps 2 e ->
  f_finite gamma = true -> valid_binary 53 1024 gamma = true -> 0 < fval gamma <= bpow 400 ->
  (forall i, (i < n)%nat -> doubles d (X i)) -> INR d + 8 <= bpow 50 ->
  (forall i k, (i < n)%nat -> (k < d)%nat -> midsize (vals (X i) k)) ->
  (forall i j, (i < n)%nat -> (j < n)%nat ->
     fkernel_value e (FChi2 gamma) (features d (X i)) (features d (X j)) = Ok (K i j)) ->
  symmetric n (fun i j => fval (K i j)) /\
  almost_psd n (fun i j => fval (K i j)) (fun c =>
    (delta + (INR d + 8) * eps) * (rsum n (fun i => Rabs (c i)) * rsum n (fun i => Rabs (c i)))).
Proof. exact (@pf_C86_chi2_psd). Qed.
Print Assumptions C86_chi2_psd.

(** C86: the Hadamard kernel, on features with |x|^alpha zero or between 2^-400 and 2^500: with powers of
    relative error [delta] the value has relative error 4 delta + (d + 3) eps. *)
Theorem C86_hadamard : forall e delta alpha d x y, decent e -> powers_within delta alpha e -> 0 <= delta <= / 1000 ->
  doubles d x -> doubles d y -> INR d <= bpow 50 ->
  (forall k, (k < d)%nat -> midsize (abspower (fval alpha) (vals x k)) /\ midsize (abspower (fval alpha) (vals y k))) ->
  exists v, fkernel_value e (FHadamard alpha) (features d x) (features d y) = Ok v /\
    near (hadamard_sum d (fval alpha) (vals x) (vals y))
         ((4 * delta + (INR d + 3) * eps) * hadamard_sum d (fval alpha) (vals x) (vals y)) v.
Proof. exact (@pf_C86_hadamard). Qed.
Print Assumptions C86_hadamard.

(** C86: kernel matrices of HadamardKernel are symmetric, and positive semidefinite up to the rounding
    error. *)
Theorem C86_hadamard_psd : forall e delta alpha n d X K, decent e -> powers_within delta alpha e -> 0 <= delta <= / 1000 ->
  (forall i, (i < n)%nat -> doubles d (X i)) -> INR d <= bpow 50 ->
  (forall i k, (i < n)%nat -> (k < d)%nat -> midsize (abspower (fval alpha) (vals (X i) k))) ->
  (forall i j, (i < n)%nat -> (j < n)%nat ->
     fkernel_value e (FHadamard alpha) (features d (X i)) (features d (X j)) = Ok (K i j)) ->
  symmetric n (fun i j => fval (K i j)) /\
  almost_psd n (fun i j => fval (K i j)) (fun c =>
    (4 * delta + (INR d + 3) * eps) *
    quad n (fun i j => hadamard_sum d (fval alpha) (vals (X i)) (vals (X j))) (fun i => Rabs (c i))).
Proof. exact (@pf_C86_hadamard_psd). Qed.
Print Assumptions C86_hadamard_psd.

(** C86: the requirements on the platform can be met together, with squares for HadamardKernel(alpha=2). *)
Theorem C86_powers_example :
  exists e, decent e /\ exp_within eps e /\ pow_within eps 2 e /\ powers_within eps ftwo e.
Proof. exact (@pf_C86_powers_example). Qed.
Print Assumptions C86_powers_example.

(** C86 on concrete data: x = (0.1, 0.2, 0.3) and y = (1, 1, 1) meet the requirements of C86_chi2, and those of
    C86_hadamard with alpha = 2; so does (0, 0.1) with (0, 1). *)
Definition x4 (k : nat) : f64 := match k with O => fzero | _ => S754_finite false 7205759403792794 (-56) end.
Definition y4 (k : nat) : f64 := match k with O => fzero | _ => fone end.
Example C86_chi2_example :
  (doubles 3 x3 /\ doubles 3 y3 /\
   (forall k, (k < 3)%nat -> midsize (vals x3 k) /\ midsize (vals y3 k)) /\
   (forall k, (k < 3)%nat -> midsize (abspower (fval ftwo) (vals x3 k)) /\ midsize (abspower (fval ftwo) (vals y3 k)))) /\
  (doubles 2 x4 /\ doubles 2 y4 /\
   (forall k, (k < 2)%nat -> midsize (vals x4 k) /\ midsize (vals y4 k)) /\
   (forall k, (k < 2)%nat -> midsize (abspower (fval ftwo) (vals x4 k)) /\ midsize (abspower (fval ftwo) (vals y4 k)))).
Proof.
  assert (H1 : fval fone = 1) by apply (fint_any 1 ltac:(lia)).
  assert (P1 : 1 <= bpow 500) by (rewrite <- bpow_0; apply bpow_le; lia).
  assert (P2 : bpow (-400) <= 1) by (rewrite <- bpow_0; apply bpow_le; lia).
  assert (H : forall r, bpow (-100) <= r <= 1 -> midsize r /\ midsize (abspower (fval ftwo) r)).
  { intros r Hr. assert (Hp := bpow_pos (-100)). assert (B : bpow (-400) <= bpow (-100) * bpow (-100)) by (rewrite <- bpow_add; apply bpow_le; lia).
    assert (B' : bpow (-400) <= bpow (-100)) by (apply bpow_le; lia). split; [right; lra|].
    right. unfold abspower. destruct (Req_EM_T r 0); [lra|]. rewrite (proj2 ftwo_any), Rabs_pos_eq by lra.
    replace 2 with (INR 2) by (cbn; ring). rewrite Rpower_pow by lra. cbn [pow]. rewrite Rmult_1_r.
    assert (bpow (-100) * bpow (-100) <= r * r) by (apply Rmult_le_compat; lra).
    assert (r * r <= 1 * 1) by (apply Rmult_le_compat; lra). lra. }
  assert (B56 : bpow (-100) <= bpow (-56)) by (apply bpow_le; lia).
  assert (E56 : bpow (-56) = / 72057594037927936) by (change (-56)%Z with (- (56))%Z; rewrite bpow_neg, bpow_IZR by lia; reflexivity).
  assert (E55 : bpow (-55) = 2 * bpow (-56)) by (change (-55)%Z with (1 + -56)%Z; rewrite bpow_add; change (bpow 1) with (2 * 1); ring).
  assert (E54 : bpow (-54) = 4 * bpow (-56)) by (change (-54)%Z with (2 + -56)%Z; rewrite bpow_add; change (bpow 2) with (2 * (2 * 1)); ring).
  assert (R3 : forall k, (k < 3)%nat -> bpow (-100) <= vals x3 k <= 1).
  { intros [|[|[|k]]] Hk; try lia; unfold vals; cbn [x3 fval]; rewrite ?E55, ?E54; rewrite ?Rmult_1_l; rewrite E56 in *; lra. }
  assert (RY : forall k, bpow (-100) <= vals y3 k <= 1).
  { intros k. unfold vals, y3. rewrite H1, E56 in *. lra. }
  assert (M0 : midsize (fval fzero) /\ midsize (abspower (fval ftwo) (fval fzero))).
  { change (fval fzero) with 0. split; left; [reflexivity|]. unfold abspower. destruct (Req_EM_T 0 0); [reflexivity|lra]. }
  split; (split; [|split; [|split]]).
  - intros [|[|[|k]]] Hk; try lia; split; reflexivity.
  - intros k _; split; reflexivity.
  - intros k Hk. split; apply H; [apply R3, Hk|apply RY].
  - intros k Hk. split; apply H; [apply R3, Hk|apply RY].
  - intros [|[|k]] Hk; try lia; split; reflexivity.
  - intros [|[|k]] Hk; try lia; split; reflexivity.
  - intros [|[|k]] Hk; try lia; [split; apply M0|]. split; apply H; [apply (R3 0%nat); lia|apply (RY 0%nat)].
  - intros [|[|k]] Hk; try lia; [split; apply M0|]. split; apply H; [apply (R3 0%nat); lia|apply (RY 0%nat)].
Qed.
