(** C108: the normalised and the centred matrix and the norm, read by several threads.
    Generated by tools/split_props.py from ThreadDerivedProps.v: statements only, each closed by [exact]. *)
From Coq Require Import List Arith Bool Lia String.
Import ListNotations.
From Verif Require Import Prelude MatModel MatFacts UtilsModel KMModel KMFacts KMGet KMHist ThreadModel SpecThread ThreadFacts ThreadProps
  ThreadSeqProps
  ThreadDerivedModel SpecThreadDerived ThreadDerivedFacts.
From Verif Require Import ThreadDerivedProps.

(** One thread may ask for anything, the others read elements and the diagonal: under every schedule the
    normalised matrix, the centred matrix and the norm it gets are those of the kernel matrix, the matrix
    itself is complete, and what the others get is right, too. The attributes may hold what an earlier
    sample left. *)
Theorem C108_single : forall V (N : numops V) kv kx ky two keep n m work d0 schedule t,
  (two = false -> n = m) -> total kv n m -> d_valid n m work ->
  (forall u, u <> t -> only_elements (nth u work [])) ->
  d_base d0 = attached -> nothing_derived d0 ->
  let d := snd (d_execute N kv kx ky two keep n m work d0 schedule) in
  (forall u o r, In (u, o, r) (d_log d) -> r = right_answer N kv kx ky two n m o) /\
  (forall u o r, In (u, o, r) (sh_log (d_base d)) -> outcome_ok (v_nan N) kv two n m (d_base d) o r) /\
  (forall o p, In (t, o, Ok (RRef p)) (sh_log (d_base d)) ->
     mkArr Dense (array_at (v_nan N) n m (d_base d) p) = the_matrix (v_nan N) kv two n m).
Proof. exact (@pf_C108_single). Qed.
Print Assumptions C108_single.

(** Once such a thread is done and the matrix populated, any number of threads may ask for anything in any
    order: every answer is right, the kernel is not called on the sample(s) again, and the matrix stays. *)
Theorem C108_after : forall V (N : numops V) kv kx ky two keep n m work d0 schedule t,
  (two = false -> n = m) -> total kv n m -> d_valid n m work -> t < List.length work ->
  (forall u, u <> t -> only_elements (nth u work [])) ->
  d_base d0 = attached -> nothing_derived d0 ->
  let c := d_execute N kv kx ky two keep n m work d0 schedule in
  d_finished c -> sh_populated (d_base (snd c)) = true ->
  forall work' schedule', d_valid n m work' ->
  let d := snd (d_execute N kv kx ky two keep n m work' (snd c) schedule') in
  (forall u o r, In (u, o, r) (d_log d) -> r = right_answer N kv kx ky two n m o) /\
  (forall u o r, In (u, o, r) (sh_log (d_base d)) -> outcome_ok (v_nan N) kv two n m (d_base d) o r) /\
  sh_calls (d_base d) = sh_calls (d_base (snd c)) /\ sh_evals (d_base d) = sh_evals (d_base (snd c)) /\
  (forall u p, In (u, ROFull, Ok (RRef p)) (sh_log (d_base d)) -> u = t \/ ~ In (u, ROFull, Ok (RRef p)) (sh_log (d_base (snd c))) ->
     mkArr Dense (array_at (v_nan N) n m (d_base d) p) = the_matrix (v_nan N) kv two n m).
Proof. exact (@pf_C108_after). Qed.
Print Assumptions C108_after.

(** Left alone, a thread does what the sequential object of KMModel.v does, derived attributes included. *)
Theorem C108_alone : forall E V U (N : numops V) (kern : kernel E V) (x y : ndarray E) kx ky two n m,
  (two = false -> n = m) -> (forall c a b, kf kern c a b = kf kern 0 a b) -> kfmt kern = true ->
  (forall i, i < n -> exists a, nd_row x i = Ok a) -> (forall j, j < m -> exists b, nd_row y j = Ok b) ->
  forall t o (d : dsh V) (k : km E V U), o = DCentered \/ o = DFrob \/ (o = DNormed /\ two = false) ->
  same_derived (v_nan N) kern x y two n m d k ->
  let r := solo (d_op N (rows_value kern x y) kx ky two n m t o) d in
  let r' := as_derived_call N o k in
  same_derived (v_nan N) kern x y two n m (fst r) (fst r') /\ snd r = snd r'.
Proof. exact (@pf_C108_alone). Qed.
Print Assumptions C108_alone.

(** The matrix of NaN that base.py:717-718 starts from, for two points, and any functions of operations.py
    that return. *)
Definition nan_matrix {V} (nan : V) : arr V := mkArr Dense (mkMat 2 2 [[nan; nan]; [nan; nan]]).
Definition numerics {V} (nan zero : V) fin nrm nrm2 cen fro : numops V :=
  mkNumops nan zero fin (fun _ a => Ok (nrm a)) nrm2 (fun a => Ok (cen a)) (fun a => Ok (fro a)).

(** For every kernel and whatever the functions compute: one thread reads [full], another asks for the rest
    a moment later. There is a schedule under which the other gets what the functions make of a matrix of
    nothing but NaN, with no exception; the object keeps it, and hands it to every later request, after
    all threads have finished. *)
Theorem C108_stale : forall V (nan zero : V) fin nrm nrm2 cen fro (k : nat -> nat -> V) kx ky,
  exists schedule,
  let N := numerics nan zero fin nrm nrm2 cen fro in
  let run := d_execute N (fun i j => Ok (k i j)) kx ky false false 2 2 in
  let c := run [[DFull]; [DNormed; DCentered; DFrob]] (underived attached) schedule in
  let req := d_op N (fun i j => Ok (k i j)) kx ky false 2 2 in
  let bad := nan_matrix nan in
  d_finished c /\
  In (1, DNormed, Ok (DArr (nrm bad))) (d_log (snd c)) /\
  In (1, DCentered, Ok (DArr (cen bad))) (d_log (snd c)) /\
  In (1, DFrob, Ok (DVal (fro bad))) (d_log (snd c)) /\
  (forall i j, i <= j -> j < 2 -> exists p, sh_full (d_base (snd c)) = Some p /\
     mget nan (array_at nan 2 2 (d_base (snd c)) p) i j = k i j) /\
  forall u, solo (req u DNormed) (snd c) = (snd c, Ok (DArr (nrm bad))) /\
    solo (req u DCentered) (snd c) = (snd c, Ok (DArr (cen bad))) /\
    solo (req u DFrob) (snd c) = (snd c, Ok (DVal (fro bad))).
Proof. exact (@pf_C108_stale). Qed.
Print Assumptions C108_stale.

(** A Frobenius norm (squared) of numbers and NaN, and a kernel. *)
Definition sq_norm (a : arr (option nat)) : option nat :=
  fold_right (fun o acc => match o, acc with Some x, Some y => Some (x * x + y) | _, _ => None end) (Some 0)
    (List.concat (md (amat a))).
Definition sq_ops : numops (option nat) :=
  numerics None (Some 0) (fun o => match o with Some _ => true | None => false end)
    (fun a => a) (fun a _ _ => Ok a) (fun a => a) sq_norm.
Definition sq_kernel (i j : nat) : res (option nat) := Ok (Some ((i + 1) * (j + 1))).

(** So "the norm a thread gets is the norm of the kernel matrix" is false when another thread is making the
    matrix: here the right answer is a number and the answer is NaN, and stays NaN. *)
Theorem C108_cold_refuted : exists schedule,
  let run := d_execute sq_ops sq_kernel (fun _ => Ok None) (fun _ => Ok None) false false 2 2 in
  let c := run [[DFull]; [DFrob]] (underived attached) schedule in
  d_finished c /\ total sq_kernel 2 2 /\
  right_answer sq_ops sq_kernel (fun _ => Ok None) (fun _ => Ok None) false 2 2 DFrob = Ok (DVal (Some 25)) /\
  In (1, DFrob, Ok (DVal None)) (d_log (snd c)) /\
  forall u, solo (d_op sq_ops sq_kernel (fun _ => Ok None) (fun _ => Ok None) false 2 2 u DFrob) (snd c)
            = (snd c, Ok (DVal None)).
Proof. exact (@pf_C108_cold_refuted). Qed.
Print Assumptions C108_cold_refuted.

(** The hypotheses are met: one thread derives, another reads the diagonal at the same time; afterwards
    three threads ask for everything in turns. *)
Theorem C108_example :
  let run := d_execute sq_ops sq_kernel (fun _ => Ok None) (fun _ => Ok None) false true 2 2 in
  let work := [[DDiagonal]; [DFrob; DFull; DCentered]] in
  let c := run work (underived attached) (List.concat (repeat [1; 0; 1] 60)) in
  let work' := [[DFrob]; [DNormed; DIndex [1] [0; 1]]; [DCentered; DFull]] in
  let d := snd (run work' (snd c) (List.concat (repeat [2; 0; 1] 60))) in
  d_valid 2 2 work /\ (forall u, u <> 1 -> only_elements (nth u work [])) /\ nothing_derived (underived (@attached (option nat))) /\
  d_finished c /\ sh_populated (d_base (snd c)) = true /\ d_valid 2 2 work' /\
  List.length (d_log (snd c)) = 3 /\ List.length (d_log d) = 7 /\
  In (0, DFrob, Ok (DVal (Some 25))) (d_log d) /\
  In (2, DFull, Ok (DArr (mkArr Dense (mkMat 2 2 [[Some 1; Some 2]; [Some 2; Some 4]])))) (d_log d) /\
  List.length (sh_calls (d_base d)) = List.length (sh_calls (d_base (snd c))).
Proof. exact (@pf_C108_example). Qed.
Print Assumptions C108_example.
