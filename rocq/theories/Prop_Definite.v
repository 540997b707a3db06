(** Chi2 kernels, composites, normalised and centred matrices: which are positive definite (C111), in exact
    arithmetic.
    Generated by tools/split_props.py from DefiniteProps.v: statements only, each closed by [exact]. *)
From Coq Require Import String List Arith ZArith Bool Reals Lra Lia Psatz.
Import ListNotations.
From Verif Require Import Prelude MatModel MatFacts UtilsModel XReal SpecLinAlg RSum PSDFacts OpsModel OpsFacts OpsProps KernelsModel
  SpecKernels KernelFacts KernelProps KMXModel IndexModel KMModel SpecKM SpecSample SampleXProps SpecKMX KMProps KMXProps
  SetModel SpecSet SetFacts2 SetProps ContProps FullFacts CompositeModel SpecComposite CompositeFacts CompositeProps PosDefProps.
Local Open Scope R_scope.
From Verif Require Import DefiniteProps.
Local Open Scope R_scope.

(** C111: the matrix of a Chi2Kernel with gamma > 0 on non-negative points is positive definite exactly if no
    two of the points are the same. *)
Theorem C111_chi2 : forall cast gamma n d X, 0 < gamma ->
  (forall i k, (i < n)%nat -> (k < d)%nat -> 0 <= X i k) ->
  (pos_def_on (fun x y => kernel_call cast (KChi2 gamma) DFloat x DFloat y) n d X <-> distinct n d X).
Proof. exact (@pf_C111_chi2). Qed.
Print Assumptions C111_chi2.

(** C111: so is the [full] of a KernelMatrix with this kernel, normalised or not, after any history (without the
    two sparse accesses when not normalised). *)
Theorem C111_chi2_matrix :
  forall {U} gamma nrm (pre post : list (op xr U)) n d X, 0 < gamma ->
    (forall i k, (i < n)%nat -> (k < d)%nat -> 0 <= X i k) ->
    no_attach post -> (nrm = true \/ (no_full_sparse post /\ no_whole_index n n post)) ->
    exists B,
      outcome xN OpFull (after xN (builtin (KChi2 gamma)) nrm pre (rsample n d X) None post)
      = Ok (OArr (mkArr Dense (rmat n n B))) /\ (pos_def n B <-> distinct n d X).
Proof. exact (@pf_C111_chi2_matrix). Qed.
Print Assumptions C111_chi2_matrix.

(** An n x n matrix of finite numbers that is positive definite; one whose diagonal entries are positive. *)
Definition pd_array (n : nat) (K : arr xr) : Prop :=
  is_square n K /\ exists A, pos_def n A /\ forall i j, (i < n)%nat -> (j < n)%nat -> xget (amat K) i j = Fin (A i j).
Definition positive_diagonal (n : nat) (K : arr xr) : Prop :=
  forall i, (i < n)%nat -> exists r, 0 < r /\ xget (amat K) i i = Fin r.

(** C111, SumKernel: positive definite if the members are positive semidefinite, the weights non-negative, and a
    member with a positive weight is positive definite; without weights, if one member is positive definite. *)
Theorem C111_sum :
  forall {E U} C numeric k (w0 : world E xr U) c ops num ms n ms0 Ks a ws p r K,
    comp_new NewSum (Some k) w0 = Ok c -> set_is w0 k (NSOne n) ms0 ->
    set_is (fst (crun C numeric ops (w0, c))) k num ms ->
    fulls (fst (crun C numeric ops (w0, c))) ms Ks -> Forall (psd_array n) Ks ->
    is_vector a ws -> length ws = length ms -> Forall (fun r => 0 <= r) ws ->
    nth_error ws p = Some r -> nth_error Ks p = Some K -> pd_array n K ->
    (0 < r -> fits C numeric (Some a) (crun C numeric ops (w0, c)) (pd_array n)) /\
    fits C numeric None (crun C numeric ops (w0, c)) (pd_array n).
Proof. exact (@pf_C111_sum). Qed.
Print Assumptions C111_sum.

(** C111, AverageKernel: if the members are positive semidefinite and one of them is positive definite. *)
Theorem C111_average :
  forall {E U} C numeric k (w0 : world E xr U) c ops num ms n ms0 Ks kw,
    comp_new NewAverage (Some k) w0 = Ok c -> set_is w0 k (NSOne n) ms0 ->
    set_is (fst (crun C numeric ops (w0, c))) k num ms ->
    fulls (fst (crun C numeric ops (w0, c))) ms Ks -> Forall (psd_array n) Ks -> Exists (pd_array n) Ks ->
    fits C numeric kw (crun C numeric ops (w0, c)) (pd_array n).
Proof. exact (@pf_C111_average). Qed.
Print Assumptions C111_average.

(** C111, ProductKernel: if the members are positive semidefinite ndarrays with positive diagonals and one of them
    is positive definite. *)
Theorem C111_product :
  forall {E U} C numeric k (w0 : world E xr U) c ops num ms n ms0 Ks kw,
    comp_new NewProduct (Some k) w0 = Ok c -> set_is w0 k (NSOne n) ms0 ->
    set_is (fst (crun C numeric ops (w0, c))) k num ms ->
    fulls (fst (crun C numeric ops (w0, c))) ms Ks -> Forall (psd_array n) Ks -> Exists (pd_array n) Ks ->
    Forall (positive_diagonal n) Ks -> Forall (fun K => afmt K = Dense) Ks ->
    fits C numeric kw (crun C numeric ops (w0, c)) (pd_array n).
Proof. exact (@pf_C111_product). Qed.
Print Assumptions C111_product.

(** C111, WeightedAverageKernel: as SumKernel, with the weights of the constructor. *)
Theorem C111_weighted :
  forall {E U} C numeric k (w0 : world E xr U) c ops num ms n ms0 Ks kw a ws p r K,
    comp_new (NewWeighted a) (Some k) w0 = Ok c -> is_vector a ws -> Forall (fun r => 0 <= r) ws ->
    set_is w0 k (NSOne n) ms0 ->
    set_is (fst (crun C numeric ops (w0, c))) k num ms ->
    fulls (fst (crun C numeric ops (w0, c))) ms Ks -> Forall (psd_array n) Ks ->
    nth_error ws p = Some r -> nth_error Ks p = Some K -> 0 < r -> pd_array n K ->
    fits C numeric kw (crun C numeric ops (w0, c)) (pd_array n).
Proof. exact (@pf_C111_weighted). Qed.
Print Assumptions C111_weighted.

(** C111: normalize_km keeps a matrix positive definite, and no other matrix with such a diagonal becomes so. *)
Theorem C111_normalise : forall meth f n A, lower meth = "cosine"%string ->
  (forall i, (i < n)%nat -> 1/100000000 < A i i) ->
  exists g B, normalize_km meth (mkArr f (rmat n n A)) = Ok (mkArr g (rmat n n B)) /\ (pos_def n B <-> pos_def n A).
Proof. exact (@pf_C111_normalise). Qed.
Print Assumptions C111_normalise.

(** C111: the result of center_km is never positive definite (but for an empty matrix). *)
Theorem C111_center : forall f n A B, (0 < n)%nat -> center_km (mkArr f (rmat n n A)) = Ok B ->
  exists M, B = mkArr f (rmat n n M) /\ ~ pos_def n M.
Proof. exact (@pf_C111_center). Qed.
Print Assumptions C111_center.

(** C111: the hypotheses are met by the points 0, 1, 2 (for chi2), and by a set of two linear kernel matrices on the
    points 1, 2, which are not positive definite, and a precomputed unit matrix. *)
Theorem C111_example :
  let X := fun (i _ : nat) => INR i in
  let ops := [CHeap (WNewPre (Ok (mkNd [2; 2]%nat [Fin 1; Fin 0; Fin 0; Fin 1]))); CHeap (WAppend 0 (ARef 3))] in
  let c := mkComp CSum 0 (NSOne 2) false None in
  distinct 3 1 X /\ (forall i k, (i < 3)%nat -> (k < 1)%nat -> 0 <= X i k) /\
  comp_new NewSum (Some 0%nat) w_lin = Ok c /\ set_is w_lin 0 (NSOne 2) [0; 1]%nat /\
  set_is (fst (crun xC numx ops (w_lin, c))) 0 (NSOne 2) [0; 1; 3]%nat /\
  exists K K1, fulls (fst (crun xC numx ops (w_lin, c))) [0; 1; 3]%nat [K; K; K1] /\
    psd_array 2 K /\ ~ pd_array 2 K /\ psd_array 2 K1 /\ pd_array 2 K1 /\
    positive_diagonal 2 K /\ positive_diagonal 2 K1 /\ afmt K = Dense /\ afmt K1 = Dense.
Proof. exact (@pf_C111_example). Qed.
Print Assumptions C111_example.
