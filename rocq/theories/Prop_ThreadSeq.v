(** C101: a thread that is not interrupted does what the object of KMModel.v does.
    Generated by tools/split_props.py from ThreadSeqProps.v: statements only, each closed by [exact]. *)
From Coq Require Import List Arith Bool Lia String.
Import ListNotations.
From Verif Require Import Prelude MatModel MatFacts UtilsModel KMModel KMFacts ThreadModel SpecThread ThreadFacts ThreadProps.
From Verif Require Import ThreadSeqProps.

(** Left alone, a thread does what the sequential object does: the same outcome and the same object after,
    whatever was computed before, also when the kernel raises. So everything proved about the object of
    KMModel.v holds for a thread that is not interrupted. *)
Theorem C101_alone : forall E V U (N : numops V) (kern : kernel E V) (x y : ndarray E) two n m,
  (two = false -> n = m) -> (forall c a b, kf kern c a b = kf kern 0 a b) -> kfmt kern = true ->
  (forall i, i < n -> exists a, nd_row x i = Ok a) -> (forall j, j < m -> exists b, nd_row y j = Ok b) ->
  forall t o (s : shared V) (k : km E V U), valid_rop n m o ->
  same_object (v_nan N) kern x y two n m s k ->
  let r := alone (t_op (v_nan N) (rows_value kern x y) two n m t o) s in
  let r' := as_call N o k in
  same_object (v_nan N) kern x y two n m (fst r) (fst r') /\
  same_outcome (v_nan N) n m (fst r) (snd r) (snd r').
Proof. exact (@pf_C101_alone). Qed.
Print Assumptions C101_alone.

(** The two start out the same after attach_to, for one and for two samples. *)
Theorem C101_attached : forall E V U (N : numops V) (kern : kernel E V) (x : ndarray E) y calls (k : km E V U),
  attach_to x y (km_new kern false calls) = (k, Ok tt) ->
  exists x' y' two n m, same_object (v_nan N) kern x' y' two n m attached k /\ (two = false -> n = m) /\
    (forall i, i < n -> exists a, nd_row x' i = Ok a) /\ (forall j, j < m -> exists b, nd_row y' j = Ok b).
Proof. exact (@pf_C101_attached). Qed.
Print Assumptions C101_attached.

(** The hypotheses are met and the outcome is what one expects: three values on two points, and the matrix. *)
Theorem C101_alone_example : forall (N : numops nat), v_nan N = 99 ->
  let kern := mkKernel (fun _ a b => Ok (hd 0 a * hd 0 b)) true in
  let x := mkNd [2; 1] [3; 4] in
  let k := fst (attach_to x None (km_new (U := unit) kern false [])) in
  let r := alone (t_op 99 (rows_value kern x x) false 2 2 0 ROFull) attached in
  let r' := as_call N ROFull k in
  same_object 99 kern x x false 2 2 attached k /\ valid_rop 2 2 ROFull /\
  snd r = Ok (RRef 0) /\ array_at 99 2 2 (fst r) 0 = mkMat 2 2 [[9; 12]; [12; 16]] /\
  snd r' = Ok (inl (mkArr Dense (mkMat 2 2 [[9; 12]; [12; 16]]))) /\
  sh_evals (fst r) = 3 /\ k_evals (fst r') = 3.
Proof. exact (@pf_C101_alone_example). Qed.
Print Assumptions C101_alone_example.
