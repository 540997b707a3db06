(** The warnings of a KernelMatrix.
    Generated by tools/split_props.py from WarnProps.v: statements only, each closed by [exact]. *)
From Coq Require Import String List Arith ZArith Bool Lia.
Import ListNotations.
From Verif Require Import Prelude MatModel MatFacts UtilsModel IndexModel KMModel SpecKM SpecRef WarnModel
  SpecWarn MFacts KMFacts KMIndex KMInv KMOps KMTotal KMGet KMProps RefFacts RefProps KMHist KMHist2 WarnFacts
  WarnSilent WarnExact ToyModel.
Local Open Scope list_scope.
From Verif Require Import WarnProps.
Local Open Scope list_scope.

(** C97. Recording the warnings changes nothing else: state and outcome of every operation are those of
    the model without them. *)
Theorem C97_recorded : forall {E V U} (N : numops V) (o : op E U) (s : km E V U) w,
  step_w N o (s, w) = ((fst (step N o s), w ++ warns N o s), outcome N o s).
Proof. exact (@pf_C97_recorded). Qed.
Print Assumptions C97_recorded.

(** C97. Silence means finite: whatever was asked of the object since samples were accepted (samples
    may even be attached again), if no warning was issued and no computation was interrupted by an
    exception of the kernel, then every whole matrix it returns has finite entries only. *)
Theorem C97_silent :
  forall {E V U} (N : numops V) (K : kernel E V) nrm (pre ops : list (op E U)) x y n m d o a,
    kfmt K = true -> admissible x y n m d -> gives_matrix o ->
    let s := after N K nrm pre x y [] in
    all_warns N (ops ++ [o]) s = [] -> ~ In (Raise RuntimeError) (trace N (ops ++ [o]) s) ->
    outcome N o (after N K nrm pre x y ops) = Ok (OArr a) -> all_finite N a.
Proof. exact (@pf_C97_silent). Qed.
Print Assumptions C97_silent.

(** The announcement made by the first request of the matrix. *)
Definition first_warning {E V} (N : numops V) (K : kernel E V) (k : list E -> list E -> V) (n m d : nat)
    (x : ndarray E) (y : option (ndarray E)) (c : left_behind) : list warning :=
  match c with LNothing => announced N (kfmt K) (kernel_matrix k n m d x y) | _ => [] end.

(** C97. What each operation announces, for kernels that return: the operations that work on the whole
    matrix announce non-finite entries if they are the first to ask for it, and never again; full_sparse
    and whole-matrix indexing announce them every time; nothing else announces anything. *)
Theorem C97_exact :
  forall {E V U} (N : numops V) (K : kernel E V) k nrm (pre post : list (op E U)) x y n m d,
    never_raises K k x y n m d -> admissible x y n m d -> no_attach post ->
    let s := after N K nrm pre x y post in
    let A := kernel_matrix k n m d x y in
    exists c, leaves (is_some y) nrm n m post c /\
      (nrm = false -> warns N OpFull s = first_warning N K k n m d x y c) /\
      warns N OpFrobNorm s = first_warning N K k n m d x y c /\
      (y = None -> warns N OpCenter s = first_warning N K k n m d x y c /\
                   warns N OpCentered s = first_warning N K k n m d x y c) /\
      (nrm = false -> warns N OpFullSparse s =
         announced N (kfmt K) (match c with LNothing | LUpper => upper_triangle N k n m d x y | _ => A end)) /\
      (forall o, asks_whole n m o -> warns N o s = announced N (kfmt K) A) /\
      (forall o, asks_nothing (is_some y) nrm n m o -> warns N o s = []).
Proof. exact (@pf_C97_exact). Qed.
Print Assumptions C97_exact.

(** What a normalisation of the left-behind matrix announces; nothing if the request of the matrix
    already failed. *)
Definition norm_warnings {E V} (N : numops V) (K : kernel E V) (k : list E -> list E -> V) (n m d : nat)
    (x : ndarray E) (y : option (ndarray E)) (method : string) (c : left_behind) : list warning :=
  if first_fails N K k n m d x y c then []
  else match y with
       | None => normalisation_warns N (kfmt K) method (left_matrix N k n m d x y c)
       | Some y' => match op_normalize2 N (left_matrix N k n m d x y c) (self_similarities k n d x)
                            (self_similarities k m d y') with
                    | Ok nk => announced N (kfmt K) (amat nk)
                    | Raise _ => []
                    end
       end.

(** C97. The first normalisation announces what the matrix itself has to announce, and then: for one
    sample non-finite results twice (once by normalize_km and once by the object), unknown methods and
    other unexpected exceptions by 'Unable to normalize'; for two samples non-finite results once. *)
Theorem C97_normalisation :
  forall {E V U} (N : numops V) (K : kernel E V) k nrm (pre post : list (op E U)) x y n m d o method,
    never_raises K k x y n m d -> admissible x y n m d -> no_attach post ->
    Forall (fun o' => forall meth, ~ normalising nrm o' meth) post -> normalising nrm o method ->
    exists c, leaves (is_some y) nrm n m post c /\
      warns N o (after N K nrm pre x y post) =
        first_warning N K k n m d x y c ++ norm_warnings N K k n m d x y method c.
Proof. exact (@pf_C97_normalisation). Qed.
Print Assumptions C97_normalisation.

(** C97. Once an operation that normalises has returned, no such operation announces anything. *)
Theorem C97_once :
  forall {E V U} (N : numops V) (K : kernel E V) k nrm (pre prev post : list (op E U)) x y n m d o method o' method' v,
    never_raises K k x y n m d -> admissible x y n m d -> no_attach (prev ++ o' :: post) ->
    normalising nrm o' method' -> outcome N o' (after N K nrm pre x y prev) = Ok v ->
    normalising nrm o method -> warns N o (after N K nrm pre x y (prev ++ o' :: post)) = [].
Proof. exact (@pf_C97_once). Qed.
Print Assumptions C97_once.

(** C17, exactly. With normalized=False, [full] returns the matrix that the history left behind,
    whatever values the kernel returns; it raises (a TypeError) exactly if it is the first request of
    the matrix, some entry is not finite and the kernel does not support format(). If the kernel does,
    the first request of a matrix with such an entry is announced by a warning. *)
Theorem C17_exact :
  forall {E V U} (N : numops V) (K : kernel E V) k (pre post : list (op E U)) x y n m d,
    never_raises K k x y n m d -> admissible x y n m d -> no_attach post ->
    let s := after N K false pre x y post in
    exists c, leaves (is_some y) false n m post c /\
      outcome N OpFull s = (if first_fails N K k n m d x y c then Raise TypeError
                            else Ok (OArr (left_matrix N k n m d x y c))) /\
      warns N OpFull s = first_warning N K k n m d x y c.
Proof. exact (@pf_C17_exact). Qed.
Print Assumptions C17_exact.

(** A kernel with an undefined value for the pair of the first and the second point. *)
Definition gapk (u v : list (option Z)) : option Z :=
  match dotk u v with Some 11%Z => None | r => r end.
Definition gap : kernel (option Z) (option Z) := mkKernel (fun _ u v => Ok (gapk u v)) true.
(** It raises at its fourth call, the first one below the diagonal. *)
Definition gap_once : kernel (option Z) (option Z) :=
  mkKernel (fun t u v => if Nat.eqb t 3 then Raise RuntimeError else Ok (gapk u v)) true.
Definition toyX1 : ndarray (option Z) := mkNd [2; 2]%nat [Some 1%Z; Some 2%Z; Some 3%Z; Some 4%Z].

Example C97_example :
  never_raises gap gapk toyX1 None 2 2 2 /\ admissible toyX1 None 2 2 2 /\
  no_attach ([OpGetItem (IPair (IInt 0) (IInt 1)); OpFull; OpFullSparse] : list (op (option Z) Z)) /\
  map (fun ops => all_warns toyN ops (after (U:=Z) toyN gap false [] toyX1 None []))
    [[OpGetItem (IPair (IInt 0) (IInt 1))]; [OpFull]; [OpFull; OpFull]; [OpFullSparse; OpFullSparse];
     [OpGetItem colons; OpFrobNorm]; [OpNormalize "cosine"]; [OpNormedKM; OpNormedKM]; [OpNormalize "other"; OpCentered]]
  = [[]; [WKernelMatrix]; [WKernelMatrix]; [WKernelMatrix; WKernelMatrix];
     [WKernelMatrix]; [WKernelMatrix; WNormalization; WKernelMatrix]; [WKernelMatrix; WNormalization; WKernelMatrix];
     [WKernelMatrix; WUnableToNormalize]].
Proof.
  split; [intros t u v _ _; reflexivity|].
  split; [split; [exists []; split; [reflexivity|constructor]|reflexivity]|]. split; vm_compute; reflexivity.
Qed.

(** The hypotheses of C97_silent are met by an object that is attached again and has everything
    requested. *)
Example C97_silent_example :
  let ops := [OpFull; OpAttach toyX2 None; OpCenter; OpNormedKM] : list (op (option Z) Z) in
  all_warns toyN (ops ++ [OpFull]) (after toyN dot true [] toyX None []) = [] /\
  ~ In (Raise RuntimeError) (trace toyN (ops ++ [OpFull]) (after toyN dot true [] toyX None [])) /\
  outcome toyN OpFull (after toyN dot true [] toyX None ops) = Ok (OArr (mkArr Dense (mkMat 2 2
    [[Some 4; Some 0]; [Some 0; Some 1]]%Z))).
Proof.
  cbv zeta. split; [vm_compute; reflexivity|]. split; [|vm_compute; reflexivity].
  vm_compute. intros H. repeat (destruct H as [H|H]; [discriminate|]). exact H.
Qed.

(** That silence means finite is false if a computation was interrupted: once the kernel has raised
    below the diagonal, the object returns a matrix with an undefined entry and no warning is ever
    issued. *)
Theorem C97_interrupted_refuted :
  exists (K : kernel (option Z) (option Z)) (x y : ndarray (option Z)) n m d (ops : list (op (option Z) Z)) a,
    kfmt K = true /\ admissible x (Some y) n m d /\
    let s := after toyN K false [] x (Some y) [] in
    all_warns toyN (ops ++ [OpFull]) s = [] /\
    outcome toyN OpFull (run toyN ops s) = Ok (OArr a) /\ ~ all_finite toyN a.
Proof. exact (@pf_C97_interrupted_refuted). Qed.
Print Assumptions C97_interrupted_refuted.

(** It is false for user callables, which do not support format(): the warning that was due becomes a
    TypeError, and the next read returns the undefined entry silently. *)
Theorem C97_callable_refuted :
  exists (K : kernel (option Z) (option Z)) k (x y : ndarray (option Z)) n m d (ops : list (op (option Z) Z)) a,
    never_raises K k x (Some y) n m d /\ admissible x (Some y) n m d /\
    let s := after toyN K false [] x (Some y) [] in
    all_warns toyN (ops ++ [OpFull]) s = [] /\
    outcome toyN OpFull (run toyN ops s) = Ok (OArr a) /\ ~ all_finite toyN a.
Proof. exact (@pf_C97_callable_refuted). Qed.
Print Assumptions C97_callable_refuted.

(** Indexing a part of the matrix returns undefined values silently. *)
Theorem C97_part_refuted :
  exists (K : kernel (option Z) (option Z)) k (x : ndarray (option Z)) n d (o : op (option Z) Z) a,
    kfmt K = true /\ never_raises K k x None n n d /\ admissible x None n n d /\
    let s := after toyN K false [] x None [] in
    warns toyN o s = [] /\ outcome toyN o s = Ok (OArr a) /\ ~ all_finite toyN a.
Proof. exact (@pf_C97_part_refuted). Qed.
Print Assumptions C97_part_refuted.

Example C17_exact_example :
  (leaves (E := option Z) (U := Z) false false 2 2 [OpFrobNorm] LDense /\ leaves (E := option Z) (U := Z) false false 2 2 [] LNothing) /\
  map (fun K => outcome toyN OpFull (after (U:=Z) toyN K false [] toyX1 None [])) [gap; callable gapk]
  = [Ok (OArr (mkArr Dense (mkMat 2 2 [[Some 5%Z; None]; [None; Some 25%Z]]))); Raise TypeError] /\
  map (fun K => warns toyN OpFull (after (U:=Z) toyN K false [] toyX1 None [])) [gap; callable gapk; dot]
  = [[WKernelMatrix]; []; []].
Proof.
  split; [|split; vm_compute; reflexivity]. split; [|constructor].
  exists OpFrobNorm, []. split; [|exact I]. exists []. split; [reflexivity|constructor].
Qed.
