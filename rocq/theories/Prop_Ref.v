(** C85: an attached KernelMatrix behaves like its reference object; C04: exactly what [full] is.
    Generated by tools/split_props.py from RefProps.v: statements only, each closed by [exact]. *)
From Coq Require Import String List Arith ZArith Bool Lia.
Import ListNotations.
From Verif Require Import Prelude MatModel MatFacts UtilsModel IndexModel KMModel SpecKM SpecRef MFacts
  KMFacts KMInv KMOps KMIndex KMHist KMTotal KMGet KMTrack KMLog KMHist2 RefFacts ToyModel.
From Verif Require Import RefProps.
Local Open Scope list_scope.
Local Open Scope nat_scope.

(** C85. After any history [pre] and an accepted attach_to, every further sequence of operations has
    exactly the outcomes of the reference object: for every kernel that never raises, with or without
    format(), symmetric or not, one or two samples, both values of normalized, any arithmetic. *)
Theorem C85_reference :
  forall {E V U} (N : numops V) (K : kernel E V) k nrm (pre post : list (op E U)) x y n m d,
    never_raises K k x y n m d -> admissible x y n m d -> no_attach post ->
    ref_behaves N n m (entry k d x y) (self_similarities k n d x)
      (self_similarities k m d (match y with Some y' => y' | None => x end))
      (is_some y) nrm (kfmt K) post ref_new (trace N post (after N K nrm pre x y [])).
Proof. exact (@pf_C85_reference). Qed.
Print Assumptions C85_reference.

(** C04, exactly. With normalized=False, [full] is, after every history, the matrix that the history
    left behind: the whole matrix as a dense array if the first request was for a dense one (or there
    was none), the whole matrix in sparse format if km[:, :] came first or followed full_sparse, and
    only its upper triangle if full_sparse came first and km[:, :] never. *)
Theorem C04_exact :
  forall {E V U} (N : numops V) (K : kernel E V) k (pre post : list (op E U)) x y n m d,
    never_raises K k x y n m d -> admissible x y n m d -> no_attach post ->
    exists c, leaves (is_some y) false n m post c /\
      outcome N OpFull (after N K false pre x y post) =
      (if first_fails N K k n m d x y c then Raise TypeError
       else Ok (OArr (left_matrix N k n m d x y c))).
Proof. exact (@pf_C04_exact). Qed.
Print Assumptions C04_exact.

(** C61, exactly. The first frob_norm is the norm of what the history left behind. *)
Theorem C61_exact :
  forall {E V U} (N : numops V) (K : kernel E V) k nrm (pre post : list (op E U)) x y n m d,
    never_raises K k x y n m d -> admissible x y n m d -> no_attach post -> ~ In OpFrobNorm post ->
    exists c, leaves (is_some y) nrm n m post c /\
      outcome N OpFrobNorm (after N K nrm pre x y post) =
      (if first_fails N K k n m d x y c then Raise TypeError
       else res_map OVal (op_frob N (left_matrix N k n m d x y c))).
Proof. exact (@pf_C61_exact). Qed.
Print Assumptions C61_exact.

(** C61. A norm that was returned once is returned ever after, until the next attach_to. *)
Theorem C61_steady :
  forall {E V U} (N : numops V) (K : kernel E V) k nrm (pre post post2 : list (op E U)) x y n m d v,
    never_raises K k x y n m d -> admissible x y n m d -> no_attach post -> no_attach post2 ->
    outcome N OpFrobNorm (after N K nrm pre x y post) = Ok (OVal v) ->
    outcome N OpFrobNorm (after N K nrm pre x y (post ++ OpFrobNorm :: post2)) = Ok (OVal v).
Proof. exact (@pf_C61_steady). Qed.
Print Assumptions C61_steady.

(** C85. A history leaves exactly one of the four cases behind. *)
Theorem C85_one_case : forall {E U} two nrm n m (ops : list (op E U)) c1 c2,
  leaves two nrm n m ops c1 -> leaves two nrm n m ops c2 -> c1 = c2.
Proof. exact (@pf_C85_one_case). Qed.
Print Assumptions C85_one_case.

(** Histories of all four kinds. *)
Example C04_exact_example :
  never_raises dot dotk toyX None 3 3 2 /\ admissible toyX None 3 3 2 /\
  (leaves false false 3 3 ([OpSize; OpDiagonal] : list (op (option Z) Z)) LNothing /\
   leaves false false 3 3 ([OpSize; OpFrobNorm; OpFullSparse; OpGetItem colons] : list (op (option Z) Z)) LDense /\
   leaves false false 3 3 ([OpSize; OpFullSparse; OpFrobNorm; OpGetItem colons] : list (op (option Z) Z)) LWhole /\
   leaves false false 3 3 ([OpGetItem colons; OpFull] : list (op (option Z) Z)) LWhole /\
   leaves false false 3 3 ([OpSize; OpFullSparse; OpFull; OpDiagonal] : list (op (option Z) Z)) LUpper) /\
  left_matrix toyN dotk 3 3 2 toyX None LUpper =
  mkArr Lil (mkMat 3 3 [[Some 5; Some 11; Some 17]; [Some 0; Some 25; Some 39]; [Some 0; Some 0; Some 61]]%Z).
Proof.
  split; [apply dot_total|]. split; [exact toyX_ok|]. split; [exact leaves_toy|reflexivity].
Qed.

(** The reference object at work: full_sparse, full, [centered] (refused), km[:, :], full. *)
Example C85_example :
  trace toyN [OpFullSparse; OpFull; OpCentered; OpGetItem colons; OpFull]
    (after (U:=Z) toyN dot false [] toyX None []) =
  (let up := mkArr Lil (mkMat 3 3 [[Some 5; Some 11; Some 17]; [Some 0; Some 25; Some 39]; [Some 0; Some 0; Some 61]]%Z) in
   let km := mkArr Lil (mkMat 3 3 [[Some 5; Some 11; Some 17]; [Some 11; Some 25; Some 39]; [Some 17; Some 39; Some 61]]%Z) in
   [Ok (OArr up); Ok (OArr up); Raise ValueError; Ok (OArr km); Ok (OArr km)]).
Proof. vm_compute. reflexivity. Qed.

(** The norm of the upper triangle is kept although the whole matrix is known later. *)
Example C61_exact_example :
  outcome toyN OpFrobNorm (after (U:=Z) toyN dot false [] toyX None [OpFullSparse]) = Ok (OVal (Some 91%Z)) /\
  ~ In OpFrobNorm ([OpFullSparse] : list (op (option Z) Z)).
Proof. split; [vm_compute; reflexivity|]. intros [H|[]]. discriminate. Qed.
