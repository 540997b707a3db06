(** What an interrupted computation leaves in the stored matrix (C08), and when the matrix of one sample is
    symmetric (C05).
    Generated by tools/split_props.py from PartProps.v: statements only, each closed by [exact]. *)
From Coq Require Import String List Arith ZArith Bool Lia.
Import ListNotations.
From Verif Require Import Prelude MatModel MatFacts UtilsModel IndexModel KMModel SpecKM MFacts
  KMFacts KMInv KMOps KMIndex KMHist KMTotal KMGet KMTrack KMHist2 KMPart SpecRef RefProps ToyModel.
From Verif Require Import PartProps.

(** The positions on and above the diagonal, row by row, and those below it. *)
Definition upper_positions (n m : nat) : list (nat * nat) :=
  filter (fun p => fst p <=? snd p) (list_prod (seq 0 n) (seq 0 m)).
Definition lower_positions (n m : nat) : list (nat * nat) :=
  filter (fun p => snd p <? fst p) (list_prod (seq 0 n) (seq 0 m)).
(** [a] has the kernel values at the positions [up] and, for two samples, [low]; for one sample it has
    at [low] the entries across the diagonal; and the value [z] at [missing]. *)
Definition computed {E V} (k : list E -> list E -> V) (d : nat) (x : ndarray E) (y : option (ndarray E))
           (na : V) (a : mat V) (up low missing : list (nat * nat)) (z : V) : Prop :=
  (forall i j, In (i, j) up -> mget na a i j = entry k d x y i j) /\
  (forall i j, In (i, j) low ->
     mget na a i j = match y with Some _ => entry k d x y i j | None => mget na a j i end) /\
  (forall i j, In (i, j) missing -> mget na a i j = z).

(** C08, exactly. With normalized=False and a kernel that may raise at any call: whenever [full] returns,
    after whatever failures, the entries on and above the diagonal are the kernel values up to some
    position, row by row, and all later ones are unevaluated; the same below the diagonal, where for one
    sample either all entries or none are copied from above it. One of the two parts is complete.
    Unevaluated entries are all NaN or all zero. *)
Theorem C08_exact :
  forall {E V U} (N : numops V) (K : kernel E V) k (pre post : list (op E U)) x y n m d a,
    returns_only K k x y n m d -> admissible x y n m d -> no_attach post ->
    outcome N OpFull (after N K false pre x y post) = Ok (OArr a) ->
    exists u u' l l' z, upper_positions n m = u ++ u' /\ lower_positions n m = l ++ l' /\
      (u' = [] \/ l' = []) /\ (y = None -> l = [] \/ l' = []) /\ (z = v_nan N \/ z = v_zero N) /\
      computed k d x y (v_nan N) (amat a) u l (u' ++ l') z.
Proof. exact (@pf_C08_exact). Qed.
Print Assumptions C08_exact.

(** C08, exactly, if nobody asked for a sparse matrix: unevaluated entries are NaN. *)
Theorem C08_exact_dense :
  forall {E V U} (N : numops V) (K : kernel E V) k (pre post : list (op E U)) x y n m d a,
    returns_only K k x y n m d -> admissible x y n m d -> no_attach post ->
    no_full_sparse post -> no_whole_index n m post ->
    outcome N OpFull (after N K false pre x y post) = Ok (OArr a) ->
    exists u u' l l', upper_positions n m = u ++ u' /\ lower_positions n m = l ++ l' /\
      (u' = [] \/ l' = []) /\ (y = None -> l = [] \/ l' = []) /\
      computed k d x y (v_nan N) (amat a) u l (u' ++ l') (v_nan N).
Proof. exact (@pf_C08_exact_dense). Qed.
Print Assumptions C08_exact_dense.

(** C08, the part that holds. If no operation since attach_to raised RuntimeError (the exception by which
    an interrupted computation of the matrix is reported) and full_sparse was not read, then [full], when it
    returns, returns the true kernel matrix, also for kernels that raise at other calls. *)
Theorem C08_uninterrupted :
  forall {E V U} (N : numops V) (K : kernel E V) k (pre post : list (op E U)) x y n m d a,
    returns_only K k x y n m d -> admissible x y n m d -> no_attach post -> no_full_sparse post ->
    ~ In (Raise RuntimeError) (trace N post (after N K false pre x y [])) ->
    outcome N OpFull (after N K false pre x y post) = Ok (OArr a) ->
    amat a = kernel_matrix k n m d x y.
Proof. exact (@pf_C08_uninterrupted). Qed.
Print Assumptions C08_uninterrupted.

(** C05, exactly. On one sample with normalized=False, [full] is symmetric after every history, unless
    full_sparse was the first request and the whole matrix was never indexed: then all entries below the
    diagonal are zero. *)
Theorem C05_exact :
  forall {E V U} (N : numops V) (K : kernel E V) k (pre post : list (op E U)) x n d a,
    never_raises K k x None n n d -> admissible x None n n d -> no_attach post ->
    outcome N OpFull (after N K false pre x None post) = Ok (OArr a) ->
    (leaves false false n n post LUpper ->
       forall i j, i < n -> j < n -> j < i -> mget (v_nan N) (amat a) i j = v_zero N) /\
    (~ leaves false false n n post LUpper ->
       forall i j, i < n -> j < n -> mget (v_nan N) (amat a) i j = mget (v_nan N) (amat a) j i).
Proof. exact (@pf_C05_exact). Qed.
Print Assumptions C05_exact.

(** The hypotheses are met: the kernel raises at every third call. The first [full] stops at (0, 2); the
    second returns only the first row without its last entry, copied to the first column. For two
    samples, the part below the diagonal is computed later, and (1, 1) stays NaN. *)
Example C08_exact_example :
  let full_of s := match outcome toyN OpFull s with Ok (OArr a) => Some (md (amat a)) | _ => None end in
  let s1 := after (U:=Z) toyN flaky_dot false [] toyX None [OpFull] in
  let s2 := after (U:=Z) toyN flaky_dot false [] toyX (Some toyX2) [OpFull; OpFull] in
  returns_only flaky_dot dotk toyX None 3 3 2 /\ admissible toyX None 3 3 2 /\
  full_of s1 = Some [[Some 5; Some 11; None]; [Some 11; None; None]; [None; None; None]]%Z /\
  upper_positions 3 3 = [(0, 0); (0, 1)] ++ [(0, 2); (1, 1); (1, 2); (2, 2)] /\
  lower_positions 3 3 = [(1, 0); (2, 0); (2, 1)] ++ [] /\
  outcome toyN OpFull (after (U:=Z) toyN flaky_dot false [] toyX (Some toyX2) []) = Raise RuntimeError /\
  outcome toyN OpFull (after (U:=Z) toyN flaky_dot false [] toyX (Some toyX2) [OpFull]) = Raise RuntimeError /\
  full_of s2 = Some [[Some 2; Some 2]; [Some 6; None]; [Some 10; Some 6]]%Z.
Proof.
  cbv zeta. split; [apply flaky_returns|]. split; [exact toyX_ok|]. vm_compute. repeat split; reflexivity.
Qed.

(** A kernel that raises at every third call, without an interrupted computation of the matrix. *)
Example C08_uninterrupted_example :
  let post := [OpGetItem (IPair (IInt 0) (IInt 0)); OpFull] in
  let x := mkNd [2; 1] [Some 2; Some 3]%Z in
  returns_only (mkKernel (fun t u v => if Nat.eqb (Nat.modulo t 4) 3 then Raise ValueError else Ok (dotk u v)) true)
               dotk x None 2 2 1 /\
  ~ In (Raise RuntimeError) (trace toyN post (after (U:=Z) toyN
      (mkKernel (fun t u v => if Nat.eqb (Nat.modulo t 4) 3 then Raise ValueError else Ok (dotk u v)) true)
      false [] x None [])).
Proof.
  cbv zeta. split.
  - intros t u v _ _. cbn [kf]. destruct (Nat.eqb _ _); eauto.
  - vm_compute. intros [H|[H|[]]]; discriminate.
Qed.

(** Both cases of C05 occur. *)
Example C05_exact_example :
  leaves (E:=option Z) (U:=Z) false false 3 3 [OpFrobNorm; OpFullSparse] LDense /\
  leaves (E:=option Z) (U:=Z) false false 3 3 [OpDiagonal; OpFullSparse; OpFrobNorm] LUpper /\
  outcome toyN OpFull (after (U:=Z) toyN dot false [] toyX None [OpDiagonal; OpFullSparse; OpFrobNorm])
  = Ok (OArr (mkArr Lil (mkMat 3 3 [[Some 5; Some 11; Some 17]; [Some 0; Some 25; Some 39]; [Some 0; Some 0; Some 61]])%Z)).
Proof.
  split; [|split; [|vm_compute; reflexivity]].
  - exists OpFrobNorm, [OpFullSparse]. split; [|exact I]. exists []. split; [reflexivity|constructor].
  - exists OpFullSparse, [OpFrobNorm]. split; [|split; [split; reflexivity|repeat constructor; intros []]].
    exists [OpDiagonal]. split; [reflexivity|]. constructor; [|constructor].
    split; [intros []|]. split; [intros [H _]; discriminate|intros []].
Qed.
