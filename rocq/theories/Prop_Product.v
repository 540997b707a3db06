(** ProductKernel with members held in any mixture of formats: properties C36 and C37.
    Generated by tools/split_props.py from ProductProps.v: statements only, each closed by [exact]. *)
From Coq Require Import String Reals List Arith ZArith Bool Lia Lra.
Import ListNotations.
From Verif Require Import Prelude MatModel UtilsModel IndexModel KMModel SpecKM XReal OpsModel
  SpecLinAlg KernelsModel SpecKernels KMXModel SpecKMX SetModel SpecSet CompositeModel SpecComposite
  SpecProduct.
From Verif Require Import MatFacts MFacts KMFacts KMInv KMHist KMHist2 KMProps RSum OpsFacts PSDFacts
  KMXProps SetFacts SetFacts2 SetProps ContProps FullFacts CompositeFacts CompositeProps.
From Verif Require Import ProductProps.
Local Open Scope list_scope.
Local Open Scope nat_scope.

(** C36, ProductKernel, exactly, for members with finite entries held in any formats: the all-ones
    matrix is multiplied by the members' matrices with numpy's *, which is the entrywise product only
    between plain ndarrays; the result is a numpy.matrix exactly if some member is one. *)
Theorem C36_product_exact :
  forall {E U} C numeric k (w0 : world E xr U) c ops num ms n ms0 Ks As kw,
    comp_new NewProduct (Some k) w0 = Ok c -> set_is w0 k (NSOne n) ms0 ->
    set_is (fst (crun C numeric ops (w0, c))) k num ms ->
    fulls (fst (crun C numeric ops (w0, c))) ms Ks -> Forall2 (held n) Ks As ->
    fits C numeric kw (crun C numeric ops (w0, c)) (fun a =>
      held n a (star n true (fun _ _ => 1%R) (combine (map (fun K => afmt K) Ks) As)) /\
      is_ndarray a = true /\ (afmt a = NpMatrix <-> some_np_matrix Ks)).
Proof. exact (@pf_C36_product_exact). Qed.
Print Assumptions C36_product_exact.

(** C36: from the first member that is a numpy.matrix on, it is the product of matrices, of the
    entrywise product of the members before it and of the others. *)
Theorem C36_product_matrices :
  forall {E U} C numeric k (w0 : world E xr U) c ops num ms n ms0 Ds K Ks As B Bs kw,
    comp_new NewProduct (Some k) w0 = Ok c -> set_is w0 k (NSOne n) ms0 ->
    set_is (fst (crun C numeric ops (w0, c))) k num ms ->
    fulls (fst (crun C numeric ops (w0, c))) ms (Ds ++ K :: Ks) ->
    Forall2 (held n) Ds As -> Forall (fun D => afmt D = Dense) Ds ->
    held n K B -> afmt K = NpMatrix -> Forall2 (held n) Ks Bs ->
    fits C numeric kw (crun C numeric ops (w0, c)) (fun a =>
      held n a (mprods n (hadamard As) (B :: Bs)) /\ afmt a = NpMatrix).
Proof. exact (@pf_C36_product_matrices). Qed.
Print Assumptions C36_product_matrices.

(** C36: if the first member is sparse and the others are plain ndarrays, entry (i, j) is the sum of
    column j of the first matrix, times the product of the others' entries (i, j). *)
Theorem C36_product_first_sparse :
  forall {E U} C numeric k (w0 : world E xr U) c ops num ms n ms0 K Ks A As kw,
    comp_new NewProduct (Some k) w0 = Ok c -> set_is w0 k (NSOne n) ms0 ->
    set_is (fst (crun C numeric ops (w0, c))) k num ms ->
    fulls (fst (crun C numeric ops (w0, c))) ms (K :: Ks) ->
    held n K A -> afmt K = Lil -> Forall2 (held n) Ks As -> Forall (fun D => afmt D = Dense) Ks ->
    fits C numeric kw (crun C numeric ops (w0, c)) (fun a =>
      held n a (fun i j => rsum n (fun l => A l j) * hadamard As i j)%R /\ afmt a = Dense).
Proof. exact (@pf_C36_product_first_sparse). Qed.
Print Assumptions C36_product_first_sparse.

(** The indexing K[:, :], and a heap like [w_lin] after K0[:, :]. *)
Definition whole : idx := IPair (ISlice None None None) (ISlice None None None).
Definition w_first : world xr xr unit := fst (wstep xN xC numx (WObj 0 (OpGetItem whole)) w_lin).
(** A kernel that fails at its third evaluation only: the second member's K[:, :] raises, and its [full]
    is a numpy.matrix from then on. *)
Definition third_fails : kernel xr xr :=
  mkKernel (fun t u v => if t =? 2 then Raise ValueError else Ok (xdot u v)) true.
Definition w_np : world xr xr unit :=
  wrun xN xC numx
    [WNewKM lin false; WNewKM third_fails false; WNewKM lin false; WObj 0 (OpAttach x12 None);
     WObj 1 (OpAttach x12 None); WObj 2 (OpAttach x12 None); WObj 1 (OpGetItem whole);
     WSetNew (KLIter [ARef 0; ARef 1; ARef 2]) None] w_empty.

(** The entries [[1, 2], [2, 4]] and [[1, 2], [2, 0]]. *)
Definition tab2 (a b c d : R) (i j : nat) : R :=
  match i, j with O, O => a | O, _ => b | S _, O => c | S _, S _ => d end.

(** The hypotheses of [C36_product_first_sparse] hold of [w_first], and of [C36_product_matrices] of
    [w_np]; those of [C36_product_exact] hold of both. *)
Example C36_product_example :
  let c := mkComp CProduct 0 (NSOne 2) false None in
  (comp_new NewProduct (Some 0) w_first = Ok c /\ set_is w_first 0 (NSOne 2) [0; 1] /\
   exists K1 K2, fulls w_first [0; 1] [K1; K2] /\
     held 2 K1 (tab2 1 2 2 4) /\ afmt K1 = Lil /\ held 2 K2 (tab2 1 2 2 4) /\ afmt K2 = Dense) /\
  (comp_new NewProduct (Some 0) w_np = Ok c /\ set_is w_np 0 (NSOne 2) [0; 1; 2] /\
   exists K1 K2 K3, fulls w_np [0; 1; 2] [K1; K2; K3] /\
     held 2 K1 (tab2 1 2 2 4) /\ afmt K1 = Dense /\ held 2 K2 (tab2 1 2 2 0) /\ afmt K2 = NpMatrix /\
     held 2 K3 (tab2 1 2 2 4)).
Proof.
  cbv zeta. split.
  - split; [calc; reflexivity|]. split; [eexists; eexists; calc; reflexivity|]. eexists. eexists. split.
    { constructor; [calc; reflexivity|]. constructor; [calc; reflexivity|constructor]. }
    split; [split; [split; reflexivity|pair2]|]. split; [reflexivity|].
    split; [split; [split; reflexivity|pair2]|]. reflexivity.
  - split; [calc; reflexivity|]. split; [eexists; eexists; calc; reflexivity|].
    eexists. eexists. eexists. split.
    { constructor; [calc; reflexivity|]. constructor; [calc; reflexivity|].
      constructor; [calc; reflexivity|constructor]. }
    split; [split; [split; reflexivity|pair2]|]. split; [reflexivity|].
    split; [split; [split; reflexivity|pair2]|]. split; [reflexivity|].
    split; [split; reflexivity|pair2].
Qed.

(** C37 is false for ProductKernel if a member is held sparse: two positive semidefinite members, and
    the result is not even symmetric. *)
Theorem C37_product_refuted :
  exists (w0 : world xr xr unit) k ms n c Ks b,
    comp_new NewProduct (Some k) w0 = Ok c /\
    set_is w0 k (NSOne n) ms /\ fulls w0 ms Ks /\ Forall (psd_array n) Ks /\
    snd (cstep xC numx (CFit None) (w0, c)) = Ok CUnit /\
    snd (cstep xC numx CGet (fst (cstep xC numx (CFit None) (w0, c)))) = Ok (CMat b) /\
    ~ psd_array n b.
Proof. exact (@pf_C37_product_refuted). Qed.
Print Assumptions C37_product_refuted.
