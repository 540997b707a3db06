(** Properties C01 - C17 of KernelMatrix.
    Generated by tools/split_props.py from KMProps.v: statements only, each closed by [exact]. *)
From Coq Require Import String List Arith ZArith Bool Lia Sorting.Sorted.
Import ListNotations.
From Verif Require Import Prelude MatModel MatFacts UtilsModel IndexModel KMModel SpecKM MFacts
  KMFacts KMInv KMOps KMIndex KMHist KMTotal KMGet KMTrack KMLog KMHist2 ToyModel.
From Verif Require Import KMProps.
Local Open Scope list_scope.
Local Open Scope nat_scope.

(** C01. After any history, an index access that succeeds on a proper part of the matrix
    returns a dense matrix with the selected rows and columns, ascending and without
    repetition, holding the kernel values of the attached sample(s). The kernel may raise
    at any call of the history. *)
Theorem C01_getitem_values :
  forall {E V U} (N : numops V) (K : kernel E V) k nrm (pre post : list (op E U))
         x y n m d ix rows cols a,
    returns_only K k x y n m d -> admissible x y n m d -> no_attach post ->
    selection2 n m ix rows cols -> ~ whole n m rows cols ->
    outcome N (OpGetItem ix) (after N K nrm pre x y post) = Ok (OArr a) ->
    a = mkArr Dense (submatrix (entry k d x y) rows cols).
Proof. exact (@pf_C01_getitem_values). Qed.
Print Assumptions C01_getitem_values.

(** C01, complement: with a symmetric kernel the mirrored entry is the kernel value. *)
Theorem C01_symmetric_kernel :
  forall {E V} (k : list E -> list E -> V) d x i j,
    (forall u v, k u v = k v u) ->
    entry k d x None i j = k (row_of d x i) (row_of d x j).
Proof. exact (@pf_C01_symmetric_kernel). Qed.
Print Assumptions C01_symmetric_kernel.

(** Hypotheses met: a kernel that raises on every third call, a failed full first. *)
Example C01_example :
  let o := OpGetItem (IPair (ISlice (Some 1%Z) None None) (IIter [EInt 2; EInt 0])) in
  let hist := after (U:=Z) toyN flaky_dot false [] toyX None [OpFull; OpNormedKM] in
  outcome toyN o hist = Raise RuntimeError /\
  outcome toyN o (fst (step toyN o hist))
  = Ok (OArr (mkArr Dense (mkMat 2 2 [[Some 11%Z; Some 39%Z]; [Some 17%Z; Some 61%Z]]))).
Proof. vm_compute. split; reflexivity. Qed.
Example C01_hypotheses : returns_only flaky_dot dotk toyX None 3 3 2 /\ admissible toyX None 3 3 2 /\
  is_ok (kf flaky_dot 2 [Some 1%Z] [Some 1%Z]) = false.
Proof. split; [apply flaky_returns|]. split; [exact toyX_ok|reflexivity]. Qed.

(** C02. Each pair of rows is evaluated successfully at most once between two attach_to
    calls (calls for the entries of the object itself): [new] are all kernel calls since
    the attach_to, [successful K 0] the index pairs of those that returned a value. *)
Theorem C02_pairs_once :
  forall {E V U} (N : numops V) (K : kernel E V) k nrm (pre post : list (op E U)) x y n m d,
    returns_only K k x y n m d -> admissible x y n m d -> no_attach post ->
    exists new,
      g_calls (after N K nrm pre x y post) = new ++ g_calls (before N K nrm pre) /\
      NoDup (successful K 0 (length (g_calls (before N K nrm pre))) new) /\
      forall p, In p (successful K 0 (length (g_calls (before N K nrm pre))) new) ->
        fst p < n /\ snd p < m /\ (y = None -> fst p <= snd p).
Proof. exact (@pf_C02_pairs_once). Qed.
Print Assumptions C02_pairs_once.

(** C02 for one sample: at most n(n+1)/2 successful kernel evaluations in all. *)
Theorem C02_one_sample_bound :
  forall {E V U} (N : numops V) (K : kernel E V) k nrm (pre post : list (op E U)) x n d,
    returns_only K k x None n n d -> admissible x None n n d -> no_attach post ->
    exists new,
      g_calls (after N K nrm pre x None post) = new ++ g_calls (before N K nrm pre) /\
      length (returned K (length (g_calls (before N K nrm pre))) new) <= n * (n + 1) / 2.
Proof. exact (@pf_C02_one_sample_bound). Qed.
Print Assumptions C02_one_sample_bound.

(** C02 for two samples, as long as nothing is normalised: at most n*m successful
    evaluations. Missing from the full statement: histories that normalise, for which the
    bound is false (C02_two_samples_refuted). *)
Theorem C02_two_samples_partial :
  forall {E V U} (N : numops V) (K : kernel E V) k (pre post : list (op E U)) x y n m d,
    returns_only K k x y n m d -> admissible x y n m d -> no_attach post -> no_normalisation post ->
    exists new,
      g_calls (after N K false pre x y post) = new ++ g_calls (before N K false pre) /\
      length (returned K (length (g_calls (before N K false pre))) new) <= n * m.
Proof. exact (@pf_C02_two_samples_partial). Qed.
Print Assumptions C02_two_samples_partial.

Example C02_example :
  let s := after (U:=Z) toyN flaky_dot true [OpFull] toyX None
                 [OpFull; OpDiagonal; OpGetItem (IFlat 2); OpGetItem (IFlat 6); OpNormedKM;
                  OpGetItem (IFlat 5); OpGetItem (IFlat 7); OpDiagonal; OpFull] in
  length (returned flaky_dot 0 (g_calls s)) = 6 /\ length (g_calls s) = 8.
Proof. vm_compute. split; reflexivity. Qed.

(** C04 (partial). With normalized=False and a kernel that never raises and supports
    format(), [full] is the complete dense kernel matrix after any history without
    full_sparse and without index accesses that select the whole matrix. Missing: those
    two accesses, after which the claim is false (C04_refuted_...). *)
Theorem C04_full_partial :
  forall {E V U} (N : numops V) (K : kernel E V) k (pre post : list (op E U)) x y n m d,
    never_raises K k x y n m d -> kfmt K = true -> admissible x y n m d -> no_attach post ->
    no_full_sparse post -> no_whole_index n m post ->
    outcome N OpFull (after N K false pre x y post)
    = Ok (OArr (mkArr Dense (kernel_matrix k n m d x y))).
Proof. exact (@pf_C04_full_partial). Qed.
Print Assumptions C04_full_partial.

(** C04, contents: without full_sparse the contents are right in every case; only the
    format may be a sparse matrix. *)
Theorem C04_contents_partial :
  forall {E V U} (N : numops V) (K : kernel E V) k (pre post : list (op E U)) x y n m d,
    never_raises K k x y n m d -> kfmt K = true -> admissible x y n m d -> no_attach post ->
    no_full_sparse post ->
    exists f, (f = Dense \/ f = Lil) /\
      outcome N OpFull (after N K false pre x y post)
      = Ok (OArr (mkArr f (kernel_matrix k n m d x y))).
Proof. exact (@pf_C04_contents_partial). Qed.
Print Assumptions C04_contents_partial.

Example C04_example :
  outcome toyN OpFull
    (after (U:=Z) toyN dot false [OpAttach toyA None; OpFullSparse] toyX None
       [OpFrobNorm; OpGetItem (IPair (IInt 1) (ISlice None None None)); OpNormedKM; OpCentered])
  = Ok (OArr (mkArr Dense (mkMat 3 3
      [[Some 5; Some 11; Some 17]; [Some 11; Some 25; Some 39]; [Some 17; Some 39; Some 61]]%Z)))
  /\ no_whole_index 3 3 ([OpGetItem (IPair (IInt 1) (ISlice None None None))] : list (op (option Z) Z)).
Proof.
  split; [vm_compute; reflexivity|].
  intros ix [H|[]]. inversion H; subst. intros [[_ Hs] _].
  specialize (Hs 0). cbn in Hs. destruct Hs as [Hs _].
  specialize (Hs (or_introl eq_refl)). discriminate.
Qed.

(** C05. Attached to one sample, km[i, j] and km[j, i] give the same value, at any two
    moments of any two histories since the attach_to, with any kernel, symmetric or not,
    raising or not. *)
Theorem C05_elements_symmetric :
  forall {E V U} (N : numops V) (K : kernel E V) k nrm (pre post1 post2 : list (op E U))
         x n d i j a b,
    returns_only K k x None n n d -> admissible x None n n d -> no_attach post1 -> no_attach post2 ->
    i < n -> j < n -> i <> j ->
    outcome N (OpGetItem (IPair (IInt (Z.of_nat i)) (IInt (Z.of_nat j))))
            (after N K nrm pre x None post1) = Ok (OArr a) ->
    outcome N (OpGetItem (IPair (IInt (Z.of_nat j)) (IInt (Z.of_nat i))))
            (after N K nrm pre x None post2) = Ok (OArr b) ->
    exists v, amat a = mkMat 1 1 [[v]] /\ amat b = mkMat 1 1 [[v]].
Proof. exact (@pf_C05_elements_symmetric). Qed.
Print Assumptions C05_elements_symmetric.

(** C05, full matrix: with normalized=False, [full] equals its transpose after any history
    without full_sparse, whatever the kernel raised in between. *)
Theorem C05_full_symmetric :
  forall {E V U} (N : numops V) (K : kernel E V) k (pre post : list (op E U)) x n d a,
    returns_only K k x None n n d -> admissible x None n n d -> no_attach post -> no_full_sparse post ->
    outcome N OpFull (after N K false pre x None post) = Ok (OArr a) ->
    forall i j, i < n -> j < n ->
      mget (v_nan N) (amat a) i j = mget (v_nan N) (amat a) j i.
Proof. exact (@pf_C05_full_symmetric). Qed.
Print Assumptions C05_full_symmetric.

(** An asymmetric kernel that raises on some calls; the second read returns a matrix with
    missing entries, symmetric all the same. *)
Example C05_example :
  let s := after (U:=Z) toyN flaky_asym false [] toyX None [OpFull] in
  outcome toyN OpFull (before (U:=Z) toyN flaky_asym false [OpAttach toyX None]) = Raise RuntimeError /\
  outcome toyN OpFull s
  = Ok (OArr (mkArr Dense (mkMat 3 3 [[Some 0; Some (-2); None]; [Some (-2); None; None];
                                       [None; None; None]]%Z))) /\
  returns_only flaky_asym asymk toyX None 3 3 2 /\ asymk [Some 1%Z] [Some 2%Z] <> asymk [Some 2%Z] [Some 1%Z].
Proof.
  split; [vm_compute; reflexivity|]. split; [vm_compute; reflexivity|].
  split; [apply flaky_asym_returns|]. vm_compute. discriminate.
Qed.

(** C06. After an accepted attach_to, everything that can be observed later - results,
    exceptions, attributes, and the kernel calls made - is the same as for a newly
    constructed object attached to the same data at that moment, whatever came before. *)
Theorem C06_fresh_slate :
  forall {E V U} (N : numops V) (K : kernel E V) nrm (pre post : list (op E U)) x y n m d,
    admissible x y n m d ->
    let old := after N K nrm pre x y [] in
    let new := run N [OpAttach x y] (km_new K nrm (g_calls (before N K nrm pre))) in
    trace N post old = trace N post new /\
    g_calls (run N post old) = g_calls (run N post new).
Proof. exact (@pf_C06_fresh_slate). Qed.
Print Assumptions C06_fresh_slate.

(** The earlier history leaves a centred matrix, attributes and a failed attach_to behind. *)
Example C06_example :
  trace toyN [OpGetAttr "a"%string; OpCentered; OpFull; OpShape]
    (after (U:=Z) toyN dot false [OpAttach toyA None; OpSetAttr "a"%string 7%Z; OpCentered; OpAttach toyA (Some toyX)]
           toyX None [])
  = trace toyN [OpGetAttr "a"%string; OpCentered; OpFull; OpShape]
      (run toyN [OpAttach toyX None] (km_new (U:=Z) dot false [])).
Proof. vm_compute. reflexivity. Qed.

(** C07 (partial). If the first sample is not two-dimensional, attach_to raises ValueError
    and changes nothing. Missing: rejection because of the second sample, for which the
    claim is false (C07_refuted). *)
Theorem C07_rejected_first_partial :
  forall {E V U} (N : numops V) (s : km E V U) x y,
    (forall n d, ~ is_sample x n d) ->
    step N (OpAttach x y) s = (s, Raise ValueError).
Proof. exact (@pf_C07_rejected_first_partial). Qed.
Print Assumptions C07_rejected_first_partial.

(** C07: every rejection is a ValueError. *)
Theorem C07_rejection_is_ValueError :
  forall {E V U} (N : numops V) (s : km E V U) x y,
    (forall n m d, ~ admissible x y n m d) ->
    outcome N (OpAttach x y) s = Raise ValueError.
Proof. exact (@pf_C07_rejection_is_ValueError). Qed.
Print Assumptions C07_rejection_is_ValueError.

Example C07_example : forall n d, ~ is_sample (mkNd [4] [Some 1; Some 2; Some 3; Some 4]%Z) n d.
Proof. intros n d (extra & H & _). discriminate. Qed.

(** C08 (partial). Whatever the kernel raised before, every entry of a dense matrix that
    [full] (normalized=False) returns is the true kernel value or NaN, as long as the
    sparse accesses were not used; elements read by index are always true (C01). Missing:
    "never returns unevaluated entries", which is false (C08_refuted, C08_refuted_sparse). *)
Theorem C08_true_or_nan_partial :
  forall {E V U} (N : numops V) (K : kernel E V) k (pre post : list (op E U)) x y n m d a,
    returns_only K k x y n m d -> admissible x y n m d -> no_attach post ->
    no_full_sparse post -> no_whole_index n m post ->
    outcome N OpFull (after N K false pre x y post) = Ok (OArr a) ->
    afmt a = Dense /\
    forall i j, i < n -> j < m ->
      mget (v_nan N) (amat a) i j = entry k d x y i j \/ mget (v_nan N) (amat a) i j = v_nan N.
Proof. exact (@pf_C08_true_or_nan_partial). Qed.
Print Assumptions C08_true_or_nan_partial.

(** C09, rejection: an index that is not valid raises KMAccessError (ValueError for a slice with step 0 or a
    flat index out of range, TypeError for one beyond 64 bits, or what iterating over it raises), makes no
    kernel call and changes nothing. *)
Theorem C09_invalid_rejected :
  forall {E V U} (N : numops V) (K : kernel E V) k nrm (pre post : list (op E U)) x y n m d ix,
    returns_only K k x y n m d -> admissible x y n m d -> no_attach post -> ~ valid n m ix ->
    exists e, rejection n m ix e /\
      step N (OpGetItem ix) (after N K nrm pre x y post)
      = (after N K nrm pre x y post, Raise e).
Proof. exact (@pf_C09_invalid_rejected). Qed.
Print Assumptions C09_invalid_rejected.

(** C09, acceptance: a valid index succeeds, with one row per selected row and one column
    per selected column (whole-matrix selections included), after every history. *)
Theorem C09_valid_accepted :
  forall {E V U} (N : numops V) (K : kernel E V) k nrm (pre post : list (op E U)) x y n m d
         ix rows cols,
    never_raises K k x y n m d -> kfmt K = true -> admissible x y n m d -> no_attach post ->
    valid n m ix -> selection2 n m ix rows cols ->
    exists f, outcome N (OpGetItem ix) (after N K nrm pre x y post)
              = Ok (OArr (mkArr f (submatrix (entry k d x y) rows cols))) /\
              mr (submatrix (entry k d x y) rows cols) = length rows /\
              mc (submatrix (entry k d x y) rows cols) = length cols.
Proof. exact (@pf_C09_valid_accepted). Qed.
Print Assumptions C09_valid_accepted.

(** C09: every valid index has a selection. *)
Theorem C09_selection_exists :
  forall n m ix, valid n m ix -> exists rows cols, selection2 n m ix rows cols /\
    rows <> [] /\ cols <> [].
Proof. exact (@pf_C09_selection_exists). Qed.
Print Assumptions C09_selection_exists.

Example C09_example :
  valid 3 3 (IPair (ISlice (Some (-1)%Z) None (Some (-2)%Z)) (IIter [EInt 1; EInt 1])) /\
  selection2 3 3 (IPair (ISlice (Some (-1)%Z) None (Some (-2)%Z)) (IIter [EInt 1; EInt 1]))
             [0; 2] [1] /\
  ~ valid 3 3 (IPair (IInt 0) (IIter [EInt 3])) /\
  ~ valid 3 3 (IPair (IInt (-1)) (IInt 0)).
Proof.
  assert (Hs : forall z, denotes 3 (ISlice (Some (-1)%Z) None (Some (-2)%Z)) z <->
                         (z = 2 \/ z = 0)%Z).
  { intros z. change (denotes 3 (ISlice (Some (-1)%Z) None (Some (-2)%Z)) z)
      with (exists q : nat, z = (2 + Z.of_nat q * -2)%Z /\ (-1 < z)%Z). split.
    - intros (q & -> & H). lia.
    - intros [-> | ->]; [exists 0|exists 1]; lia. }
  assert (Hi : forall z, denotes 3 (IIter [EInt 1; EInt 1]) z <-> z = 1%Z).
  { intros z. cbn. split; [intros [H|[H|[]]]; congruence|intros ->; auto]. }
  split; [|split; [|split]].
  - split; (split; [|split]).
    + discriminate.
    + exists 0%Z. apply Hs. auto.
    + intros z Hz. apply Hs in Hz. lia.
    + cbn. intros [H|[H|[]]]; discriminate.
    + exists 1%Z. apply Hi. reflexivity.
    + intros z Hz. apply Hi in Hz. lia.
  - split; (split; [repeat constructor|]).
    + intros i. rewrite Hs. cbn. lia.
    + intros i. rewrite Hi. cbn. lia.
  - intros [_ (_ & _ & H)]. specialize (H 3%Z (or_introl eq_refl)). lia.
  - intros [(_ & _ & H) _]. specialize (H (-1)%Z eq_refl). lia.
Qed.

(** C10 (partial). For strictly increasing index lists within range the result has shape
    (len(set_i), len(set_j)) with entry (a, b) the kernel between set_i[a] and set_j[b].
    Missing: lists that are not strictly increasing, for which it is false (C10_refuted_...). *)
Theorem C10_increasing_partial :
  forall {E V U} (N : numops V) (K : kernel E V) k nrm (pre post : list (op E U)) x y n m d
         (li lj : list nat),
    never_raises K k x y n m d -> kfmt K = true -> admissible x y n m d -> no_attach post ->
    StronglySorted lt li -> StronglySorted lt lj -> li <> [] -> lj <> [] ->
    (forall i, In i li -> i < n) -> (forall j, In j lj -> j < m) ->
    exists f, outcome N (OpGetItem (IPair (IIter (map (fun i => EInt (Z.of_nat i)) li))
                                          (IIter (map (fun j => EInt (Z.of_nat j)) lj))))
                      (after N K nrm pre x y post)
              = Ok (OArr (mkArr f (mkMat (length li) (length lj)
                           (map (fun i => map (fun j => entry k d x y i j) lj) li)))).
Proof. exact (@pf_C10_increasing_partial). Qed.
Print Assumptions C10_increasing_partial.

Example C10_example :
  outcome toyN (OpGetItem (IPair (IIter (map (fun i => EInt (Z.of_nat i)) [0; 2]))
                                 (IIter (map (fun j => EInt (Z.of_nat j)) [1; 2]))))
     (after (U:=Z) toyN dot true ([] : list (op (option Z) Z)) toyX None [OpFull])
  = Ok (OArr (mkArr Dense (mkMat 2 2 [[Some 11; Some 17]; [Some 39; Some 61]]%Z))).
Proof. vm_compute. reflexivity. Qed.

(** C11. km[k] with one integer is km[k // c, k % c], in every attached state. *)
Theorem C11_flat_is_row_major :
  forall {E V U} (N : numops V) (K : kernel E V) k nrm (pre post : list (op E U)) x y n m d q,
    returns_only K k x y n m d -> admissible x y n m d -> no_attach post ->
    (0 <= q < Z.of_nat (n * m))%Z ->
    step N (OpGetItem (IFlat q)) (after N K nrm pre x y post)
    = step N (OpGetItem (IPair (IInt (q / Z.of_nat m)) (IInt (q mod Z.of_nat m))))
           (after N K nrm pre x y post).
Proof. exact (@pf_C11_flat_is_row_major). Qed.
Print Assumptions C11_flat_is_row_major.

(** C11: the value is the kernel value of that row and column. *)
Theorem C11_flat_value :
  forall {E V U} (N : numops V) (K : kernel E V) k nrm (pre post : list (op E U)) x y n m d i j,
    never_raises K k x y n m d -> kfmt K = true -> admissible x y n m d -> no_attach post ->
    i < n -> j < m ->
    exists f, outcome N (OpGetItem (IFlat (Z.of_nat (i * m + j)))) (after N K nrm pre x y post)
              = Ok (OArr (mkArr f (mkMat 1 1 [[entry k d x y i j]]))).
Proof. exact (@pf_C11_flat_value). Qed.
Print Assumptions C11_flat_value.

(** C11: any other integer raises ValueError, or TypeError if it does not fit in 64 bits, and changes nothing. *)
Theorem C11_flat_out_of_range :
  forall {E V U} (N : numops V) (K : kernel E V) k nrm (pre post : list (op E U)) x y n m d q,
    returns_only K k x y n m d -> admissible x y n m d -> no_attach post ->
    ~ (0 <= q < Z.of_nat (n * m))%Z ->
    exists e, (if ((- 2 ^ 63 <=? q) && (q <? 2 ^ 64))%Z then e = ValueError else e = TypeError) /\
      step N (OpGetItem (IFlat q)) (after N K nrm pre x y post)
      = (after N K nrm pre x y post, Raise e).
Proof. exact (@pf_C11_flat_out_of_range). Qed.
Print Assumptions C11_flat_out_of_range.

Example C11_example :
  outcome toyN (OpGetItem (IFlat 4)) (after (U:=Z) toyN dot false ([] : list (op (option Z) Z)) toyX (Some toyX2) [])
  = Ok (OArr (mkArr Dense (mkMat 1 1 [[Some 10%Z]]))) /\
  admissible toyX (Some toyX2) 3 2 2 /\ entry dotk 2 toyX (Some toyX2) 2 0 = Some 10%Z /\
  trace toyN [OpGetItem (IFlat 6); OpGetItem (IFlat (-1)); OpGetItem (IFlat (2 ^ 64)); OpGetItem (IPair (IInt 0) (IFails KeyError))]
        (after (U:=Z) toyN dot false ([] : list (op (option Z) Z)) toyX (Some toyX2) [])
  = [Raise ValueError; Raise ValueError; Raise TypeError; Raise KeyError].
Proof. vm_compute. split; [reflexivity|]. split; [exact toyXX2_ok|]. split; reflexivity. Qed.

(** C12. attach_to, accepted or not, never calls the kernel. *)
Theorem C12_attach_evaluates_nothing :
  forall {E V U} (N : numops V) (s : km E V U) x y,
    g_calls (fst (step N (OpAttach x y) s)) = g_calls s.
Proof. exact (@pf_C12_attach_evaluates_nothing). Qed.
Print Assumptions C12_attach_evaluates_nothing.

(** C12. An index access to a proper part calls the kernel only for requested pairs (with
    one sample, in mirrored order) that were not evaluated before. *)
Theorem C12_only_requested :
  forall {E V U} (N : numops V) (K : kernel E V) k nrm (pre post : list (op E U)) x y n m d
         ix rows cols,
    returns_only K k x y n m d -> admissible x y n m d -> no_attach post ->
    valid n m ix -> selection2 n m ix rows cols -> ~ whole n m rows cols ->
    let s := after N K nrm pre x y post in
    exists old added,
      g_calls s = old ++ g_calls (before N K nrm pre) /\
      g_calls (fst (step N (OpGetItem ix) s)) = added ++ g_calls s /\
      forall c, In c added ->
        ~ In (c_ix c) (successful K 0 (length (g_calls (before N K nrm pre))) old) /\
        exists i j, In i rows /\ In j cols /\
          (c_ix c = (i, j) \/ (y = None /\ c_ix c = (j, i))) /\
          c_x c = row_of d x (fst (c_ix c)) /\
          c_y c = row_of d (match y with Some y' => y' | None => x end) (snd (c_ix c)).
Proof. exact (@pf_C12_only_requested). Qed.
Print Assumptions C12_only_requested.

(** C12 (partial). Once [full] has been returned, index accesses and further reads of [full]
    evaluate nothing (kernel that does not raise; one sample, or normalized=True, or no
    full_sparse). Missing: the other cases, for which it is false (C12_refuted). *)
Theorem C12_nothing_after_full_partial :
  forall {E V U} (N : numops V) (K : kernel E V) k nrm (pre post : list (op E U)) x y n m d o,
    never_raises K k x y n m d -> admissible x y n m d -> no_attach post ->
    y = None \/ nrm = true \/ no_full_sparse post ->
    is_ok (outcome N OpFull (after N K nrm pre x y post)) = true ->
    (o = OpFull \/ exists ix, o = OpGetItem ix) ->
    let s := fst (step N OpFull (after N K nrm pre x y post)) in
    g_calls (fst (step N o s)) = g_calls s.
Proof. exact (@pf_C12_nothing_after_full_partial). Qed.
Print Assumptions C12_nothing_after_full_partial.

Example C12_example :
  let s := after (U:=Z) toyN dot false [] toyX None [OpGetItem (IFlat 1)] in
  map c_ix (g_calls s) = [(0, 1)] /\
  map c_ix (g_calls (fst (step toyN (OpGetItem (IPair (IIter [EInt 1; EInt 2]) (IInt 0))) s)))
    = [(0, 2); (0, 1)] /\
  is_ok (outcome toyN OpFull s) = true.
Proof. vm_compute. repeat split; reflexivity. Qed.

(** C13. diagonal() on one sample, whatever happened before, if it succeeds; the kernel
    may raise at any call. *)
Theorem C13_diagonal_values :
  forall {E V U} (N : numops V) (K : kernel E V) k nrm (pre post : list (op E U)) x n d vs,
    returns_only K k x None n n d -> admissible x None n n d -> no_attach post ->
    outcome N OpDiagonal (after N K nrm pre x None post) = Ok (OVec vs) ->
    vs = map (fun i => k (row_of d x i) (row_of d x i)) (seq 0 n).
Proof. exact (@pf_C13_diagonal_values). Qed.
Print Assumptions C13_diagonal_values.

(** C13. It succeeds whenever the kernel does not raise. *)
Theorem C13_diagonal_total :
  forall {E V U} (N : numops V) (K : kernel E V) k nrm (pre post : list (op E U)) x n d,
    never_raises K k x None n n d -> admissible x None n n d -> no_attach post ->
    outcome N OpDiagonal (after N K nrm pre x None post)
    = Ok (OVec (map (fun i => k (row_of d x i) (row_of d x i)) (seq 0 n))).
Proof. exact (@pf_C13_diagonal_total). Qed.
Print Assumptions C13_diagonal_total.

(** C13. On two samples it raises KMAccessError and changes nothing. *)
Theorem C13_diagonal_two_samples :
  forall {E V U} (N : numops V) (K : kernel E V) k nrm (pre post : list (op E U)) x y n m d,
    returns_only K k x (Some y) n m d -> admissible x (Some y) n m d -> no_attach post ->
    step N OpDiagonal (after N K nrm pre x (Some y) post)
    = (after N K nrm pre x (Some y) post, Raise KMAccessError).
Proof. exact (@pf_C13_diagonal_two_samples). Qed.
Print Assumptions C13_diagonal_two_samples.

Example C13_example :
  outcome toyN OpDiagonal (after (U:=Z) toyN dot true [] toyX None [OpFull; OpCentered])
  = Ok (OVec [Some 5; Some 25; Some 61]%Z).
Proof. vm_compute. reflexivity. Qed.

(** C14 (partial). On one sample, [centered] is the centering of the raw kernel matrix, or
    raises what the centering raises, after any history without full_sparse and without
    whole-matrix index accesses. Missing: those accesses, after which it is false
    (C14_refuted). *)
Theorem C14_centered_partial :
  forall {E V U} (N : numops V) (K : kernel E V) k nrm (pre post : list (op E U)) x n d,
    never_raises K k x None n n d -> kfmt K = true -> admissible x None n n d -> no_attach post ->
    no_full_sparse post -> no_whole_index n n post ->
    outcome N OpCentered (after N K nrm pre x None post)
    = res_map OArr (op_center N (mkArr Dense (kernel_matrix k n n d x None))).
Proof. exact (@pf_C14_centered_partial). Qed.
Print Assumptions C14_centered_partial.

(** C14. On two samples [centered] raises KMAccessError and center() NotImplementedError;
    nothing changes. *)
Theorem C14_two_samples :
  forall {E V U} (N : numops V) (K : kernel E V) k nrm (pre post : list (op E U)) x y n m d,
    returns_only K k x (Some y) n m d -> admissible x (Some y) n m d -> no_attach post ->
    let s := after N K nrm pre x (Some y) post in
    step N OpCentered s = (s, Raise KMAccessError) /\
    step N OpCenter s = (s, Raise NotImplementedErr).
Proof. exact (@pf_C14_two_samples). Qed.
Print Assumptions C14_two_samples.

Example C14_example :
  outcome toyN OpCentered (after (U:=Z) toyN dot true [] toyX None [OpFull; OpDiagonal])
  = Ok (OArr (mkArr Dense (mkMat 3 3
      [[Some 0; Some 6; Some 12]; [Some 6; Some 20; Some 34]; [Some 12; Some 34; Some 56]]%Z))).
Proof. vm_compute. reflexivity. Qed.

(** C15. After any sequence of operations (accepted or not), get_attr returns the value
    most recently set under that name since the last accepted attach_to, or the default
    ([None]) if there is none. *)
Theorem C15_attributes :
  forall {E V U} (N : numops V) (K : kernel E V) nrm (ops : list (op E U)) name,
    outcome N (OpGetAttr name) (run N ops (km_new K nrm [])) = Ok (OAttr (last_value name ops None)).
Proof. exact (@pf_C15_attributes). Qed.
Print Assumptions C15_attributes.

Example C15_example :
  let ops := [OpSetAttr "a" 1%Z; OpAttach toyX None; OpSetAttr "b" 2%Z; OpSetAttr "a" 3%Z;
              OpAttach toyA (Some toyX); OpFull; OpSetAttr "b" 4%Z]%string in
  let s := run toyN ops (km_new dot true []) in
  outcome toyN (OpGetAttr "a"%string) s = Ok (OAttr (Some 3%Z)) /\
  outcome toyN (OpGetAttr "b"%string) s = Ok (OAttr (Some 4%Z)) /\
  outcome toyN (OpGetAttr "c"%string) s = Ok (OAttr None).
Proof. vm_compute. repeat split; reflexivity. Qed.

(** C16. shape, num_samples and size/len after attach_to and any further accesses. *)
Theorem C16_sizes :
  forall {E V U} (N : numops V) (K : kernel E V) nrm (pre post : list (op E U)) x y n m d,
    admissible x y n m d -> no_attach post ->
    let s := after N K nrm pre x y post in
    outcome N OpShape s = Ok (OPairNat (n, m)) /\
    outcome N OpNumSamples s = Ok (ONum (match y with None => NSOne n | Some _ => NSTwo n m end)) /\
    outcome N OpSize s = Ok (OInt (n * m)).
Proof. exact (@pf_C16_sizes). Qed.
Print Assumptions C16_sizes.

(** C16. Every matrix returned by [full] or [full_sparse] (normalized=False) or by a
    whole-matrix index has n rows and m columns; the kernel may raise at any call. *)
Theorem C16_shapes_of_matrices :
  forall {E V U} (N : numops V) (K : kernel E V) k (pre post : list (op E U)) x y n m d o a,
    returns_only K k x y n m d -> admissible x y n m d -> no_attach post ->
    (o = OpFull \/ o = OpFullSparse \/ exists ix, o = OpGetItem ix /\ valid n m ix /\ selects_all n m ix) ->
    outcome N o (after N K false pre x y post) = Ok (OArr a) ->
    mr (amat a) = n /\ mc (amat a) = m /\ length (md (amat a)) = n /\
    Forall (fun r => length r = m) (md (amat a)).
Proof. exact (@pf_C16_shapes_of_matrices). Qed.
Print Assumptions C16_shapes_of_matrices.

Example C16_example :
  trace toyN [OpShape; OpNumSamples; OpSize]
        (after (U:=Z) toyN flaky_dot true [OpAttach toyA None] toyX (Some toyX2) [OpFull; OpFullSparse])
  = [Ok (OPairNat (3, 2)); Ok (ONum (NSTwo 3 2)); Ok (OInt 6)].
Proof. vm_compute. reflexivity. Qed.

(** C17 (partial). With normalized=False and a kernel that supports format() (all built-in
    kernels do), [full] returns a matrix after every history, whatever values - NaN and
    infinities included - the kernel returns. Missing: user callables wrapped in
    KernelFromCallable, for which it is false (C17_refuted). *)
Theorem C17_no_exception_partial :
  forall {E V U} (N : numops V) (K : kernel E V) k (pre post : list (op E U)) x y n m d,
    never_raises K k x y n m d -> kfmt K = true -> admissible x y n m d -> no_attach post ->
    exists a, outcome N OpFull (after N K false pre x y post) = Ok (OArr a) /\
      forall i j, i < n -> j < m -> i <= j ->
        mget (v_nan N) (amat a) i j = entry k d x y i j.
Proof. exact (@pf_C17_no_exception_partial). Qed.
Print Assumptions C17_no_exception_partial.

Example C17_example :
  outcome toyN OpFull
    (after (U:=Z) toyN (mkKernel (fun _ _ _ => Ok None) true) false [] toyA (Some toyB) [])
  = Ok (OArr (mkArr Dense (mkMat 1 1 [[None]]))).
Proof. vm_compute. reflexivity. Qed.
