(** A KernelMatrix while warnings are turned into exceptions.
    Generated by tools/split_props.py from StrictProps.v: statements only, each closed by [exact]. *)
From Coq Require Import String List Arith ZArith Bool Lia.
Import ListNotations.
From Verif Require Import Prelude MatModel MatFacts UtilsModel IndexModel KMModel SpecKM SpecRef WarnModel
  SpecWarn StrictModel SpecStrict MFacts KMFacts KMIndex KMInv KMOps KMTotal KMGet KMProps KMHist KMHist2 RefFacts RefProps
  WarnFacts WarnExact WarnProps StrictFacts StrictRef ToyModel.
Local Open Scope list_scope.
From Verif Require Import StrictProps.
Local Open Scope list_scope.

(** C106. In every state, under every filter: an operation that issues no warning the filter is about does
    what it always does; otherwise it raises the first such warning. *)
Theorem C106_warning :
  forall {E V U} (N : numops V) wexn (f : filter) (o : op E U) (s : km E V U),
    match find f (warns N o s) with
    | None => step_e N wexn f o s = step N o s
    | Some w => outcome_e N wexn f o s = Raise (wexn w)
    end.
Proof. exact (@pf_C106_warning). Qed.
Print Assumptions C106_warning.

(** C106. Without filter nothing changes, whatever the history. *)
Theorem C106_lenient :
  forall {E V U} (N : numops V) wexn (ops : list (op E U)) (s : km E V U),
    run_e N wexn (map (fun o => (lenient, o)) ops) s = run N ops s.
Proof. exact (@pf_C106_lenient). Qed.
Print Assumptions C106_lenient.

(** C106. The matrix of an unnormalised object. After any history in which every operation had its own
    filter, [full] returns the matrix that the history left behind, whatever values the kernel returns.
    Only the first request of a matrix with an entry that is not finite raises, the warning if the filter
    says so. *)
Theorem C106_full :
  forall {E V U} (N : numops V) wexn (K : kernel E V) k (pre post : list (filter * op E U)) x y n m d f,
    own_exceptions wexn -> never_raises K k x y n m d -> admissible x y n m d -> no_attach (map snd post) ->
    exists c, leaves (is_some y) false n m (map snd post) c /\
      outcome_e N wexn f OpFull (after_e N wexn K false pre x y post) =
        match c with
        | LNothing => first_outcome N wexn f (kfmt K) (left_matrix N k n m d x y c)
        | _ => Ok (OArr (left_matrix N k n m d x y c))
        end.
Proof. exact (@pf_C106_full). Qed.
Print Assumptions C106_full.

(** C106. Parts of the matrix, and the diagonal, are read as always, after any such history and under any
    filter; this holds for normalised objects as well. *)
Theorem C106_parts :
  forall {E V U} (N : numops V) wexn (K : kernel E V) k nrm (pre post : list (filter * op E U)) x y n m d f,
    never_raises K k x y n m d -> admissible x y n m d -> no_attach (map snd post) ->
    let s := after_e N wexn K nrm pre x y post in
    (forall ix, valid n m ix -> ~ selects_all n m ix ->
       exists rows cols, selection2 n m ix rows cols /\
         outcome_e N wexn f (OpGetItem ix) s = Ok (OArr (mkArr Dense (submatrix (entry k d x y) rows cols)))) /\
    (y = None -> outcome_e N wexn f OpDiagonal s = Ok (OVec (self_similarities k n d x))).
Proof. exact (@pf_C106_parts). Qed.
Print Assumptions C106_parts.

(** C106. If the normalised matrix has an entry that is not finite, an object with one sample never
    normalises while the warning of normalize_km is turned into an exception: every operation that
    normalises raises, however often it is called. *)
Theorem C106_forever :
  forall {E V U} (N : numops V) wexn (K : kernel E V) k nrm (pre post : list (filter * op E U)) x n d f o method,
    never_raises K k x None n n d -> admissible x None n n d -> no_attach (map snd post) ->
    Forall (fun fo => fst fo WNormalization = true) post -> f WNormalization = true ->
    (forall meth c v, op_normalize N meth (left_matrix N k n n d x None c) = Ok v -> ~ all_finite N v) ->
    normalising nrm o method ->
    exists e, outcome_e N wexn f o (after_e N wexn K nrm pre x None post) = Raise e.
Proof. exact (@pf_C106_forever). Qed.
Print Assumptions C106_forever.

(** C106. When the filter is lifted, a normalised object with one sample gives what it would have given:
    the normalisation of the matrix left behind, whatever was raised before. *)
Theorem C106_lifted :
  forall {E V U} (N : numops V) wexn (K : kernel E V) k (pre post : list (filter * op E U)) x n d,
    never_raises K k x None n n d -> admissible x None n n d -> no_attach (map snd post) -> kfmt K = true ->
    Forall (fun fo => forall meth, normalising true (snd fo) meth -> meth = default_method) post ->
    exists c, leaves false true n n (map snd post) c /\
      outcome_e N wexn lenient OpFull (after_e N wexn K true pre x None post) =
        res_map OArr (op_normalize N default_method (left_matrix N k n n d x None c)).
Proof. exact (@pf_C106_lifted). Qed.
Print Assumptions C106_lifted.

(** C106. An index expression that selects everything is reported every time: it raises the warning
    whenever the filter says so and some entry is not finite, also if the matrix was returned before. *)
Theorem C106_whole :
  forall {E V U} (N : numops V) wexn (K : kernel E V) k nrm (pre post : list (filter * op E U)) x y n m d f o,
    own_exceptions wexn -> never_raises K k x y n m d -> admissible x y n m d -> no_attach (map snd post) ->
    asks_whole n m o ->
    exists c, leaves (is_some y) nrm n m (map snd post) c /\
      outcome_e N wexn f o (after_e N wexn K nrm pre x y post) =
        first_outcome N wexn f (kfmt K)
          (mkArr (match c with LDense => Dense | _ => Lil end) (kernel_matrix k n m d x y)).
Proof. exact (@pf_C106_whole). Qed.
Print Assumptions C106_whole.

(** The exceptions of the examples, and the filter of one warning. *)
Definition as_exception (w : warning) : exn :=
  match w with WKernelMatrix => Custom 1 | WNormalization => Custom 2 | _ => Custom 3 end.
Definition kernel_only : filter := fun w => match w with WKernelMatrix => true | _ => false end.
Definition normalization_only : filter := fun w => match w with WNormalization => true | _ => false end.

(** The hypotheses of [C106_full] and [C106_whole] are met by a matrix with two entries that are not finite. The first
    request raises the warning; the second returns the matrix; [km[:, :]] raises each time, and a column
    never does. Without the filter everything is returned. *)
Example C106_full_case :
  own_exceptions as_exception /\ never_raises gap gapk toyX1 None 2 2 2 /\ admissible toyX1 None 2 2 2 /\
  asks_whole 2 2 (OpGetItem colons : op (option Z) Z) /\
  (let K := mkMat 2 2 [[Some 5%Z; None]; [None; Some 25%Z]] in
   let col := Ok (OArr (mkArr Dense (mkMat 2 1 [[None]; [Some 25%Z]]))) in
   let out f := map (fun h => outcome_e toyN as_exception f (snd h) (after_e (U:=Z) toyN as_exception gap false [] toyX1 None (fst h)))
     [([], OpFull); ([(f, OpFull)], OpFull); ([], OpGetItem colons); ([(f, OpGetItem colons)], OpGetItem colons);
      ([(f, OpFull); (f, OpGetItem colons)], OpGetItem colons);
      ([], OpGetItem (IPair (ISlice None None None) (IInt 1)))] in
   out severe = [Raise (Custom 1); Ok (OArr (mkArr Dense K)); Raise (Custom 1); Raise (Custom 1); Raise (Custom 1); col] /\
   out kernel_only = out severe /\
   out lenient = [Ok (OArr (mkArr Dense K)); Ok (OArr (mkArr Dense K)); Ok (OArr (mkArr Lil K)); Ok (OArr (mkArr Lil K));
                  Ok (OArr (mkArr Dense K)); col]).
Proof.
  split; [intros w; destruct w; discriminate|].
  split; [intros t u v _ _; reflexivity|].
  split; [split; [exists []; split; [reflexivity|constructor]|reflexivity]|].
  split; [apply colon_whole; lia|].
  cbv zeta. split; [vm_compute; reflexivity|]. split; vm_compute; reflexivity.
Qed.

(** The hypotheses of [C106_forever] are met: every normalisation of the matrix has entries that are not
    finite. *)
Example C106_forever_case :
  never_raises gap gapk toyX1 None 2 2 2 /\ admissible toyX1 None 2 2 2 /\
  (forall meth c v, op_normalize toyN meth (left_matrix toyN gapk 2 2 2 toyX1 None c) = Ok v -> ~ all_finite toyN v) /\
  map (fun post => outcome_e toyN as_exception severe OpNormedKM (after_e (U:=Z) toyN as_exception gap false [] toyX1 None post))
    [[]; [(severe, OpFull)]; [(severe, OpNormedKM); (severe, OpNormedKM)];
     [(normalization_only, OpNormalize "cosine"); (normalization_only, OpFull)]]
  = [Raise (Custom 1); Raise (Custom 2); Raise (Custom 2); Raise (Custom 2)].
Proof.
  split; [intros t u v _ _; reflexivity|].
  split; [split; [exists []; split; [reflexivity|constructor]|reflexivity]|].
  split; [|vm_compute; reflexivity].
  intros meth c v H. cbn [op_normalize toyN] in H. destruct (String.eqb (lower meth) "cosine"); [|discriminate].
  injection H as <-. destruct c; vm_compute; discriminate.
Qed.

(** The hypotheses of [C106_lifted] are met: a normalised object raises under the filter, and gives the
    normalised matrix when the filter is lifted. *)
Example C106_lifted_case :
  let post := [(severe, OpFull); (normalization_only, OpGetItem colons); (severe, OpNormedKM); (severe, OpNormalize default_method)]
     : list (filter * op (option Z) Z) in
  never_raises gap gapk toyX1 None 2 2 2 /\ admissible toyX1 None 2 2 2 /\ no_attach (map snd post) /\
  Forall (fun fo => forall meth, normalising true (snd fo) meth -> meth = default_method) post /\
  outcome_e toyN as_exception severe OpFull (after_e toyN as_exception gap true [] toyX1 None post) = Raise (Custom 2) /\
  outcome_e toyN as_exception lenient OpFull (after_e toyN as_exception gap true [] toyX1 None post) =
    Ok (OArr (mkArr Dense (mkMat 2 2 [[Some 5%Z; None]; [None; Some 25%Z]]))).
Proof.
  cbv zeta. split; [intros t u v _ _; reflexivity|].
  split; [split; [exists []; split; [reflexivity|constructor]|reflexivity]|].
  split; [repeat constructor|].
  split; [|split; vm_compute; reflexivity].
  repeat constructor; cbn; intros meth H; try contradiction; try congruence; try (destruct H; congruence).
Qed.

(** C106. Expected: an operation that raised because of the filter leaves the object as the same operation
    does without the filter, so that catching the warning is harmless. It does not: normed_km returns the
    normalised matrix after an ordinary first call, and raises again after one under the filter. *)
Theorem C106_same_state_refuted :
  exists (K : kernel (option Z) (option Z)) k x n d (o : op (option Z) Z),
    never_raises K k x None n n d /\ admissible x None n n d /\
    let s := after_e toyN as_exception K false [] x None [(lenient, OpFull)] in
    exists a, outcome_e toyN as_exception severe o (run_e toyN as_exception [(lenient, o)] s) = Ok (OArr a) /\
    outcome_e toyN as_exception severe o (run_e toyN as_exception [(severe, o)] s) = Raise (as_exception WNormalization).
Proof. exact (@pf_C106_same_state_refuted). Qed.
Print Assumptions C106_same_state_refuted.
