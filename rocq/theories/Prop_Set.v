(** KernelSet: properties C39 - C45 and C65.
    Generated by tools/split_props.py from SetProps.v: statements only, each closed by [exact]. *)
From Coq Require Import String List Arith ZArith Bool Lia.
Import ListNotations.
From Verif Require Import Prelude MatModel UtilsModel IndexModel KMModel SpecKM ToyModel SetModel SpecSet.
From Verif Require Import MatFacts MFacts KMFacts KMInv KMHist KMProps SetFacts SetFacts2.
From Verif Require Import SetProps.
Local Open Scope list_scope.
Local Open Scope nat_scope.

(** C39. Whatever the program does - constructing kernel matrices and sets, append, extend, take,
    attach_to, attributes, any method of any kernel matrix, failing or not - every member of every
    set has the num_samples of the set, as long as no operation changes the num_samples of a
    member of a set without being an attach_to of that set. *)
Theorem C39_members_size_compatible :
  forall {E V U} (N : numops V) (C : cmpops V) (numeric : list E -> bool) (ops : list (wop E V U)),
    considerate N C numeric ops w_empty -> consistent (wrun N C numeric ops w_empty).
Proof. exact (@pf_C39_members_size_compatible). Qed.
Print Assumptions C39_members_size_compatible.

(** C39, for programs that do not call attach_to of a kernel matrix directly and attach a set only
    when it already has a num_samples. *)
Theorem C39_same_size_samples :
  forall {E V U} (N : numops V) (C : cmpops V) (numeric : list E -> bool) (ops : list (wop E V U)),
    sized_attach N C numeric ops w_empty -> consistent (wrun N C numeric ops w_empty).
Proof. exact (@pf_C39_same_size_samples). Qed.
Print Assumptions C39_same_size_samples.

(** Toy instance for the examples: exact comparison of integers. *)
Definition toyC : cmpops (option Z) :=
  mkCmp (fun a b => match a, b with Some x, Some y => Z.eqb x y | _, _ => false end) (fun _ => true).
Definition anynum (l : list (option Z)) : bool := true.
Definition wtoy (ops : list (wop (option Z) (option Z) Z)) : world (option Z) (option Z) Z :=
  wrun toyN toyC anynum ops w_empty.
Definition sym2 : ndarray (option Z) := mkNd [2; 2] [Some 1; Some 2; Some 2; Some 5]%Z.

(** Two kernel matrices attached to three points in a set with num_samples = 3; a precomputed
    2 x 2 matrix is refused; then the set is attached to another sample of three points. *)
Definition toy_program : list (wop (option Z) (option Z) Z) :=
  [WNewKM dot false; WNewKM dot true; WObj 0 OpFull; WSetNew KLNone (Some 3);
   WAppend 0 (AArray (Ok sym2)); WAttach 0 toyX None; WSetNew (KLOne 0) None;
   WTake 1 [0; 0]%Z; WExtend 1 (Some 2)].

Example C39_example :
  sized_attach toyN toyC anynum toy_program w_empty /\
  set_is (wtoy toy_program) 1 NSNone [0; 0; 0] /\ set_is (wtoy toy_program) 2 NSNone [0; 0] /\
  set_is (wtoy toy_program) 0 (NSOne 3) [].
Proof.
  split; [|repeat split; eexists; eexists; vm_compute; reflexivity].
  cbn [toy_program sized_attach]. repeat split. intros ms (b & x & H). vm_compute in H. discriminate.
Qed.

(** Without the proviso C39 is false, with set operations alone: take shares the kernel matrices,
    so attaching the subset re-attaches members of the original set. *)
Theorem C39_shared_members_refuted :
  exists ops : list (wop (option Z) (option Z) Z),
    (forall l o, ~ In (WObj l o) ops) /\ ~ consistent (wtoy ops).
Proof. exact (@pf_C39_shared_members_refuted). Qed.
Print Assumptions C39_shared_members_refuted.

(** C40, append of a kernel matrix: accepted exactly if the set is uninitialised or has the same
    num_samples; it is then the last member and nothing else changes. *)
Theorem C40_append :
  forall {E V U} (N : numops V) (C : cmpops V) (numeric : list E -> bool)
         (w : world E V U) k l n ms m,
    set_is w k n ms -> has_num w l m -> uninitialised w k \/ n = m ->
    exists w', wstep N C numeric (WAppend k (ARef l)) w = (w', Ok WUnit) /\
      set_is w' k m (ms ++ [l]) /\ w_objs w' = w_objs w /\ other_sets_kept k w w'.
Proof. exact (@pf_C40_append). Qed.
Print Assumptions C40_append.

(** C40, append of a kernel matrix of another size: KMSetAdditionError, nothing changes. *)
Theorem C40_append_mismatch :
  forall {E V U} (N : numops V) (C : cmpops V) (numeric : list E -> bool)
         (w : world E V U) k l n ms m,
    set_is w k n ms -> has_num w l m -> ~ uninitialised w k -> n <> m ->
    wstep N C numeric (WAppend k (ARef l)) w = (w, Raise KMSetAdditionError).
Proof. exact (@pf_C40_append_mismatch). Qed.
Print Assumptions C40_append_mismatch.

(** C40, append of an array accepted by KernelMatrixPrecomputed: a new kernel matrix holding it is
    the last member. *)
Theorem C40_append_array :
  forall {E V U} (N : numops V) (C : cmpops V) (numeric : list E -> bool)
         (w : world E V U) k a A n ms,
    set_is w k n ms -> precomputed_new C (v_nan N) a = Ok A ->
    uninitialised w k \/ n = NSOne (precomputed_size A) ->
    exists w' l, wstep N C numeric (WAppend k (AArray (Ok a))) w = (w', Ok WUnit) /\
      nth_error (w_objs w) l = None /\ nth_error (w_objs w') l = Some (OPre A) /\
      set_is w' k (NSOne (precomputed_size A)) (ms ++ [l]) /\
      objects_kept w w' /\ other_sets_kept k w w'.
Proof. exact (@pf_C40_append_array). Qed.
Print Assumptions C40_append_array.

(** C40, append never changes the set when it raises, whatever the argument and the set. *)
Theorem C40_append_raises :
  forall {E V U} (N : numops V) (C : cmpops V) (numeric : list E -> bool)
         (w w' : world E V U) k a e,
    wstep N C numeric (WAppend k a) w = (w', Raise e) -> w_sets w' = w_sets w /\ objects_kept w w'.
Proof. exact (@pf_C40_append_raises). Qed.
Print Assumptions C40_append_raises.

(** C40, extend by a set whose members have its num_samples: all its members are appended in
    order, also when a set is extended by itself. *)
Theorem C40_extend :
  forall {E V U} (N : numops V) (C : cmpops V) (numeric : list E -> bool)
         (w : world E V U) k k' n ms ms',
    set_is w k n ms -> set_is w k' n ms' -> consistent_set w k' ->
    exists w', wstep N C numeric (WExtend k (Some k')) w = (w', Ok WUnit) /\
      set_is w' k n (ms ++ ms') /\ w_objs w' = w_objs w /\ other_sets_kept k w w'.
Proof. exact (@pf_C40_extend). Qed.
Print Assumptions C40_extend.

(** C40, extend by a set with another num_samples (also: an uninitialised empty set by a set with a
    num_samples) or by something that is not a set: KMSetAdditionError, nothing changes. *)
Theorem C40_extend_mismatch :
  forall {E V U} (N : numops V) (C : cmpops V) (numeric : list E -> bool) (w : world E V U) k,
    (forall k' n n' ms ms', set_is w k n ms -> set_is w k' n' ms' -> n <> n' ->
       wstep N C numeric (WExtend k (Some k')) w = (w, Raise KMSetAdditionError)) /\
    wstep N C numeric (WExtend k None) w = (w, Raise KMSetAdditionError).
Proof. exact (@pf_C40_extend_mismatch). Qed.
Print Assumptions C40_extend_mismatch.

(** C40, after any program that does not re-attach members behind the back of a set, an extend
    that raises changes nothing. *)
Theorem C40_extend_raises :
  forall {E V U} (N : numops V) (C : cmpops V) (numeric : list E -> bool) (ops : list (wop E V U))
         k other w' e,
    considerate N C numeric ops w_empty ->
    wstep N C numeric (WExtend k other) (wrun N C numeric ops w_empty) = (w', Raise e) ->
    w' = wrun N C numeric ops w_empty.
Proof. exact (@pf_C40_extend_raises). Qed.
Print Assumptions C40_extend_raises.

(** Two sets of two kernel matrices on three points; a precomputed 2 x 2 matrix is refused by
    both append and extend; extending by the other set and by itself. *)
Definition toy_sets : list (wop (option Z) (option Z) Z) :=
  [WNewKM dot false; WNewKM dot true; WObj 0 (OpAttach toyX None); WObj 1 (OpAttach toyX None);
   WSetNew (KLIter [ARef 0; ARef 1]) None; WSetNew (KLOne 1) None;
   WSetNew (KLIter [AArray (Ok sym2)]) None].

Example C40_example :
  let w := wtoy toy_sets in
  considerate toyN toyC anynum toy_sets w_empty /\
  set_is w 0 (NSOne 3) [0; 1] /\ set_is w 1 (NSOne 3) [1] /\ set_is w 2 (NSOne 2) [2] /\
  has_num w 2 (NSOne 2) /\ ~ uninitialised w 0 /\
  set_is (wrun toyN toyC anynum [WExtend 0 (Some 1); WExtend 0 (Some 2); WExtend 0 (Some 0)] w)
    0 (NSOne 3) [0; 1; 1; 0; 1; 1].
Proof.
  cbv zeta. split; [|repeat split].
  - cbn [toy_sets considerate]. repeat split; try exact I;
      try (apply nums_kept_considerate, nums_kept_step; exact I);
      intros k (_ & n & ms & l & m & (b & x & Hset) & _); destruct k; vm_compute in Hset; discriminate.
  - eexists; eexists; vm_compute; reflexivity.
  - eexists; eexists; vm_compute; reflexivity.
  - eexists; eexists; vm_compute; reflexivity.
  - eexists; split; vm_compute; reflexivity.
  - intros (ms & x & H). vm_compute in H. discriminate.
  - eexists; eexists; vm_compute; reflexivity.
Qed.

(** C40 is false for a set with members re-attached behind its back: extend adds some members and
    then raises. *)
Theorem C40_extend_refuted :
  exists (ops : list (wop (option Z) (option Z) Z)) w',
    wstep toyN toyC anynum (WExtend 1 (Some 0)) (wtoy ops) = (w', Raise KMSetAdditionError) /\
    set_is (wtoy ops) 1 (NSOne 3) [2] /\ set_is w' 1 (NSOne 3) [2; 0].
Proof. exact (@pf_C40_extend_refuted). Qed.
Print Assumptions C40_extend_refuted.

(** C41, indexing: kset[i] is the i-th member for 0 <= i < size, IndexError for every other integer
    (also negative), ValueError for anything that is not an integer; nothing changes. *)
Theorem C41_getitem :
  forall {E V U} (N : numops V) (C : cmpops V) (numeric : list E -> bool)
         (w : world E V U) k n ms,
    set_is w k n ms ->
    (forall i l, nth_error ms i = Some l ->
       wstep N C numeric (WGetItem k (Some (Z.of_nat i))) w = (w, Ok (WRef l))) /\
    (forall z, (z < 0 \/ Z.of_nat (length ms) <= z)%Z ->
       wstep N C numeric (WGetItem k (Some z)) w = (w, Raise IndexError)) /\
    wstep N C numeric (WGetItem k None) w = (w, Raise ValueError).
Proof. exact (@pf_C41_getitem). Qed.
Print Assumptions C41_getitem.

(** C41, take on a set whose members have its num_samples: a new set with exactly the selected
    members in the requested order, with the num_samples of the set if any member is selected; the
    existing sets and kernel matrices are unchanged. *)
Theorem C41_take :
  forall {E V U} (N : numops V) (C : cmpops V) (numeric : list E -> bool)
         (w : world E V U) k n ms ix ls,
    set_is w k n ms -> consistent_set w k -> selected ms ix ls ->
    exists w' k', wstep N C numeric (WTake k ix) w = (w', Ok (WSetRef k')) /\
      nth_error (w_sets w) k' = None /\
      set_is w' k' (match ls with [] => NSNone | _ => n end) ls /\
      w_objs w' = w_objs w /\ sets_kept w w'.
Proof. exact (@pf_C41_take). Qed.
Print Assumptions C41_take.

(** C41, take whatever the state of the set: if it succeeds the result is a new set with exactly
    the selected members in the requested order. *)
Theorem C41_take_selects :
  forall {E V U} (N : numops V) (C : cmpops V) (numeric : list E -> bool)
         (w w' : world E V U) k n ms ix k',
    set_is w k n ms -> wstep N C numeric (WTake k ix) w = (w', Ok (WSetRef k')) ->
    exists ls n', selected ms ix ls /\ nth_error (w_sets w) k' = None /\ set_is w' k' n' ls /\
      w_objs w' = w_objs w /\ sets_kept w w'.
Proof. exact (@pf_C41_take_selects). Qed.
Print Assumptions C41_take_selects.

(** C41, an index out of range: take and get_kernel_funcs raise IndexError and change nothing. *)
Theorem C41_take_out_of_range :
  forall {E V U} (N : numops V) (C : cmpops V) (numeric : list E -> bool)
         (w : world E V U) k n ms ix z,
    set_is w k n ms -> In z ix -> (z < 0 \/ Z.of_nat (length ms) <= z)%Z ->
    wstep N C numeric (WTake k ix) w = (w, Raise IndexError) /\
    wstep N C numeric (WKernels k ix) w = (w, Raise IndexError).
Proof. exact (@pf_C41_take_out_of_range). Qed.
Print Assumptions C41_take_out_of_range.

(** C41, iteration yields the members in order, len their number, get_kernel_funcs the kernels of
    the selected members in the requested order; nothing changes. *)
Theorem C41_iter :
  forall {E V U} (N : numops V) (C : cmpops V) (numeric : list E -> bool)
         (w : world E V U) k n ms,
    set_is w k n ms ->
    wstep N C numeric (WIter k) w = (w, Ok (WRefs ms)) /\
    wstep N C numeric (WLen k) w = (w, Ok (WInt (length ms))) /\
    wstep N C numeric (WNum k) w = (w, Ok (WNumS n)) /\
    (forall ix ls ks, selected ms ix ls ->
       Forall2 (fun l K => exists s, nth_error (w_objs w) l = Some (OKM s) /\ k_kernel s = K) ls ks ->
       wstep N C numeric (WKernels k ix) w = (w, Ok (WKers ks))).
Proof. exact (@pf_C41_iter). Qed.
Print Assumptions C41_iter.

Example C41_example :
  let w := wtoy toy_sets in
  consistent_set w 0 /\ selected [0; 1] [1; 0; 1]%Z [1; 0; 1] /\
  wstep toyN toyC anynum (WGetItem 0 (Some (-1))%Z) w = (w, Raise IndexError) /\
  set_is (fst (wstep toyN toyC anynum (WTake 0 [1; 0; 1]%Z) w)) 3 (NSOne 3) [1; 0; 1].
Proof.
  cbv zeta. split; [|split; [|split]].
  - intros n ms (b & x & H) l Hl. vm_compute in H. inversion H; subst.
    destruct Hl as [<-|[<-|[]]]; eexists; split; vm_compute; reflexivity.
  - repeat constructor; try lia.
  - vm_compute. reflexivity.
  - eexists; eexists; vm_compute; reflexivity.
Qed.

(** C42, for everything but attach_to and set_attr: constructing kernel matrices or sets, taking
    subsets, indexing, iterating, reading attributes, and append/extend of another set never change
    the set [k] or any kernel matrix. *)
Theorem C42_partial :
  forall {E V U} (N : numops V) (C : cmpops V) (numeric : list E -> bool)
         (w : world E V U) o k s,
    ~ may_change o k -> nth_error (w_sets w) k = Some s ->
    nth_error (w_sets (fst (wstep N C numeric o w))) k = Some s /\
    objects_kept w (fst (wstep N C numeric o w)).
Proof. exact (@pf_C42_partial). Qed.
Print Assumptions C42_partial.

(** C42, attach_to and set_attr of a set, succeeding or not: every kernel matrix that is not a
    member of it is unchanged, and so is every other set. Together with C42_partial: operations on
    one set cannot affect another with which it shares no member. *)
Theorem C42_disjoint :
  forall {E V U} (N : numops V) (C : cmpops V) (numeric : list E -> bool)
         (w : world E V U) o k n ms,
    set_is w k n ms ->
    (exists x attr, o = WAttach k x attr) \/ (exists name vals, o = WSetAttr k name vals) ->
    (forall l, ~ In l ms -> nth_error (w_objs (fst (wstep N C numeric o w))) l = nth_error (w_objs w) l) /\
    other_sets_kept k w (fst (wstep N C numeric o w)).
Proof. exact (@pf_C42_disjoint). Qed.
Print Assumptions C42_disjoint.

(** C42 is false: attaching a subset obtained by take re-attaches the kernel matrices of the
    original set. *)
Theorem C42_attach_subset_refuted :
  exists (ops : list (wop (option Z) (option Z) Z)) w' l,
    set_is (wtoy ops) 0 (NSOne 3) [0; 1] /\ In l [0; 1] /\
    wstep toyN toyC anynum (WAttach 3 toyX None) (wtoy (ops ++ [WTake 0 [1]%Z])) = (w', Ok WUnit) /\
    nth_error (w_objs w') l <> nth_error (w_objs (wtoy ops)) l.
Proof. exact (@pf_C42_attach_subset_refuted). Qed.
Print Assumptions C42_attach_subset_refuted.

(** C43. If attach_to of a set succeeds, the argument is a numeric sample, every member is a
    KernelMatrix and has been attached to it, exactly as by its own attach_to (see C06), and then
    given the attribute, if any; the set has num_samples = len(x) and the same members; nothing
    else changes. *)
Theorem C43_attach :
  forall {E V U} (N : numops V) (C : cmpops V) (numeric : list E -> bool)
         (w w' : world E V U) k x attr n ms,
    set_is w k n ms -> wstep N C numeric (WAttach k x attr) w = (w', Ok WUnit) ->
    exists m, numeric_sample numeric x m /\ (n = NSNone \/ n = NSOne m) /\
      set_is w' k (NSOne m) ms /\
      (forall l, In l ms -> exists s, nth_error (w_objs w) l = Some (OKM s) /\
         nth_error (w_objs w') l
         = Some (OKM (run N (OpAttach x None :: match attr with
                                                | None => []
                                                | Some (name, u) => [OpSetAttr name u]
                                                end) s))) /\
      (forall l, ~ In l ms -> nth_error (w_objs w') l = nth_error (w_objs w) l) /\
      other_sets_kept k w w'.
Proof. exact (@pf_C43_attach). Qed.
Print Assumptions C43_attach.

(** C43, when it succeeds: a numeric sample, a set of KernelMatrix objects (or an empty one), with
    no num_samples yet or that of the sample. *)
Theorem C43_succeeds :
  forall {E V U} (N : numops V) (C : cmpops V) (numeric : list E -> bool)
         (w : world E V U) k x attr n ms m,
    set_is w k n ms -> numeric_sample numeric x m -> n = NSNone \/ n = NSOne m ->
    (forall l, In l ms -> is_km w l) ->
    exists w', wstep N C numeric (WAttach k x attr) w = (w', Ok WUnit).
Proof. exact (@pf_C43_succeeds). Qed.
Print Assumptions C43_succeeds.

(** C43, the wrong length, or something that is not a numeric sample: ValueError; all kernel
    matrices, num_samples and members are unchanged. *)
Theorem C43_wrong_sample :
  forall {E V U} (N : numops V) (C : cmpops V) (numeric : list E -> bool)
         (w : world E V U) k x attr n ms,
    set_is w k n ms ->
    (forall m, ~ numeric_sample numeric x m) \/
    (exists m, numeric_sample numeric x m /\ n <> NSNone /\ n <> NSOne m) ->
    exists w', wstep N C numeric (WAttach k x attr) w = (w', Raise ValueError) /\
      w_objs w' = w_objs w /\ set_is w' k n ms /\ other_sets_kept k w w'.
Proof. exact (@pf_C43_wrong_sample). Qed.
Print Assumptions C43_wrong_sample.

(** C43, a set with a KernelMatrixPrecomputed member (which has no attach_to): AttributeError at the
    first such member. The members before it are attached to the new sample (without the attribute),
    it and those after it are not, and the set has the num_samples of the new sample. *)
Theorem C43_precomputed :
  forall {E V U} (N : numops V) (C : cmpops V) (numeric : list E -> bool)
         (w : world E V U) k x attr n before l after A m,
    set_is w k n (before ++ l :: after) -> numeric_sample numeric x m -> n = NSNone \/ n = NSOne m ->
    (forall j, In j before -> is_km w j) -> nth_error (w_objs w) l = Some (OPre A) ->
    exists w', wstep N C numeric (WAttach k x attr) w = (w', Raise AttributeError) /\
      set_is w' k (NSOne m) (before ++ l :: after) /\
      (forall j, In j before -> exists s, nth_error (w_objs w) j = Some (OKM s) /\
         nth_error (w_objs w') j = Some (OKM (run N [OpAttach x None] s))) /\
      (forall j, ~ In j before -> nth_error (w_objs w') j = nth_error (w_objs w) j) /\
      other_sets_kept k w w'.
Proof. exact (@pf_C43_precomputed). Qed.
Print Assumptions C43_precomputed.

(** A set of two KernelMatrix objects with computed entries, attached to another sample of three
    points with an attribute; a sample of two points is refused. *)
Definition toyY : ndarray (option Z) :=
  mkNd [3; 2] [Some 0; Some 1; Some 1; Some 1; Some 2; Some 0]%Z.
Example C43_example :
  let w := wtoy (toy_sets ++ [WObj 0 OpFull; WObj 1 OpFull]) in
  set_is w 0 (NSOne 3) [0; 1] /\ numeric_sample anynum toyY 3 /\ numeric_sample anynum toyX2 2 /\
  (forall l, In l [0; 1] -> is_km w l) /\
  (exists w', wstep toyN toyC anynum (WAttach 0 toyY (Some ("a"%string, 7%Z))) w = (w', Ok WUnit) /\
     attr_of w' 1 "a" (Some 7%Z) /\
     snd (wstep toyN toyC anynum (WObj 0 OpFull) w')
     = Ok (WOut (OArr (mkArr Dense (mkMat 3 3 [[Some 1; Some 1; Some 0]; [Some 1; Some 2; Some 2];
                                                [Some 0; Some 2; Some 4]]%Z))))) /\
  snd (wstep toyN toyC anynum (WAttach 0 toyX2 None) w) = Raise ValueError.
Proof.
  cbv zeta. split; [|split; [|split; [|split; [|split]]]].
  - eexists; eexists; vm_compute; reflexivity.
  - split; [|reflexivity]. exists 2, []. split; [reflexivity|constructor].
  - split; [|reflexivity]. exists 2, []. split; [reflexivity|constructor].
  - intros l [<-|[<-|[]]]; eexists; vm_compute; reflexivity.
  - eexists. split; [vm_compute; reflexivity|]. split; [|vm_compute; reflexivity].
    eexists. split; vm_compute; reflexivity.
  - vm_compute. reflexivity.
Qed.

Definition sym3 : ndarray (option Z) :=
  mkNd [3; 3] [Some 1; Some 2; Some 0; Some 2; Some 1; Some 0; Some 0; Some 0; Some 1]%Z.

(** Nothing like all-or-nothing holds there: a set of a KernelMatrix and a precomputed 3 x 3 matrix,
    with the entries of the first computed. After the failed attach_to they are those of the other
    sample. *)
Theorem C43_atomic_refuted :
  exists (ops : list (wop (option Z) (option Z) Z)) x e w',
    wstep toyN toyC anynum (WAttach 0 x None) (wtoy ops) = (w', Raise e) /\
    set_is (wtoy ops) 0 (NSOne 3) [0; 1] /\ set_is w' 0 (NSOne 3) [0; 1] /\
    snd (wstep toyN toyC anynum (WObj 0 OpFull) w')
    <> snd (wstep toyN toyC anynum (WObj 0 OpFull) (wtoy ops)).
Proof. exact (@pf_C43_atomic_refuted). Qed.
Print Assumptions C43_atomic_refuted.

(** C44 (partial: a sequence of length 1 is not broadcast, and members must be KernelMatrix
    objects, see the refutations), a sequence of one value per member: member i gets value i,
    nothing else changes. The members must be distinct: with repetitions the last value wins. *)
Theorem C44_sequence_partial :
  forall {E V U} (N : numops V) (C : cmpops V) (numeric : list E -> bool)
         (w : world E V U) k n ms name vs,
    set_is w k n ms -> (forall l, In l ms -> is_km w l) -> NoDup ms -> length vs = length ms ->
    exists w', wstep N C numeric (WSetAttr k name (ASeq vs)) w = (w', Ok WUnit) /\
      w_sets w' = w_sets w /\
      (forall i l v s, nth_error ms i = Some l -> nth_error vs i = Some v ->
         nth_error (w_objs w) l = Some (OKM s) ->
         nth_error (w_objs w') l = Some (OKM (with_attr N name v s))) /\
      (forall l, ~ In l ms -> nth_error (w_objs w') l = nth_error (w_objs w) l).
Proof. exact (@pf_C44_sequence_partial). Qed.
Print Assumptions C44_sequence_partial.

(** C44, a scalar or a str: every member gets the value. *)
Theorem C44_scalar :
  forall {E V U} (N : numops V) (C : cmpops V) (numeric : list E -> bool)
         (w : world E V U) k n ms name u,
    set_is w k n ms -> (forall l, In l ms -> is_km w l) ->
    exists w', wstep N C numeric (WSetAttr k name (AScalar u)) w = (w', Ok WUnit) /\
      w_sets w' = w_sets w /\
      (forall l s, In l ms -> nth_error (w_objs w) l = Some (OKM s) ->
         nth_error (w_objs w') l = Some (OKM (with_attr N name u s))) /\
      (forall l, ~ In l ms -> nth_error (w_objs w') l = nth_error (w_objs w) l).
Proof. exact (@pf_C44_scalar). Qed.
Print Assumptions C44_scalar.

(** C44, a sequence of another length: ValueError and nothing is set, whatever the members. *)
Theorem C44_wrong_length :
  forall {E V U} (N : numops V) (C : cmpops V) (numeric : list E -> bool)
         (w : world E V U) k n ms name vs,
    set_is w k n ms -> length vs <> length ms ->
    wstep N C numeric (WSetAttr k name (ASeq vs)) w = (w, Raise ValueError).
Proof. exact (@pf_C44_wrong_length). Qed.
Print Assumptions C44_wrong_length.

(** C44, get_attr: the attribute of every member, in order (None: value_if_not_found), changing
    nothing. *)
Theorem C44_get_attr :
  forall {E V U} (N : numops V) (C : cmpops V) (numeric : list E -> bool)
         (w : world E V U) k n ms name vs,
    set_is w k n ms -> Forall2 (fun l v => attr_of w l name v) ms vs ->
    wstep N C numeric (WGetAttr k name) w = (w, Ok (WAttrs vs)).
Proof. exact (@pf_C44_get_attr). Qed.
Print Assumptions C44_get_attr.

(** C44, set_attr as seen by get_attr, of this or any other name. *)
Theorem C44_attr_value :
  forall {E V U} (N : numops V) name (u : U) (s : km E V U) name',
    dict_get (k_attr (with_attr N name u s)) name'
    = if String.eqb name' name then Some u else dict_get (k_attr s) name'.
Proof. exact (@pf_C44_attr_value). Qed.
Print Assumptions C44_attr_value.

Example C44_example :
  let w := wtoy toy_sets in
  set_is w 0 (NSOne 3) [0; 1] /\ (forall l, In l [0; 1] -> is_km w l) /\ NoDup [0; 1] /\
  snd (wstep toyN toyC anynum (WGetAttr 0 "a")
        (fst (wstep toyN toyC anynum (WSetAttr 0 "a" (ASeq [4; 9]%Z)) w)))
  = Ok (WAttrs [Some 4; Some 9]%Z).
Proof.
  cbv zeta. split; [|split; [|split]].
  - eexists; eexists; vm_compute; reflexivity.
  - intros l [<-|[<-|[]]]; eexists; vm_compute; reflexivity.
  - repeat constructor; cbn; intuition; discriminate.
  - vm_compute. reflexivity.
Qed.

(** C44 is false for a sequence of length 1, which is documented to be broadcast: for every set
    with another number of members it raises ValueError. *)
Theorem C44_length_one_refuted :
  exists (w : world (option Z) (option Z) Z) k n ms v,
    set_is w k n ms /\ ms <> [] /\ (forall l, In l ms -> is_km w l) /\
    wstep toyN toyC anynum (WSetAttr k "a" (ASeq [v])) w = (w, Raise ValueError).
Proof. exact (@pf_C44_length_one_refuted). Qed.
Print Assumptions C44_length_one_refuted.

(** C44 is false for sets with a KernelMatrixPrecomputed, which has no set_attr: the members before
    it are changed, then AttributeError is raised. *)
Theorem C44_precomputed_refuted :
  exists (ops : list (wop (option Z) (option Z) Z)) w',
    set_is (wtoy ops) 0 (NSOne 2) [0; 1] /\
    wstep toyN toyC anynum (WSetAttr 0 "a" (AScalar 4%Z)) (wtoy ops) = (w', Raise AttributeError) /\
    attr_of (wtoy ops) 0 "a" None /\ attr_of w' 0 "a" (Some 4%Z).
Proof. exact (@pf_C44_precomputed_refuted). Qed.
Print Assumptions C44_precomputed_refuted.

(** C45 (partial: KernelMatrix and KernelMatrixPrecomputed objects). KernelSet(km_list=K) has the
    single member K and its num_samples; a given num_samples must agree. *)
Theorem C45_one_matrix_partial :
  forall {E V U} (N : numops V) (C : cmpops V) (numeric : list E -> bool)
         (w : world E V U) l m num,
    has_num w l m -> num = None \/ (exists n, num = Some n /\ m = NSOne n) ->
    exists w' k, wstep N C numeric (WSetNew (KLOne l) num) w = (w', Ok (WSetRef k)) /\
      nth_error (w_sets w) k = None /\ set_is w' k m [l] /\ w_objs w' = w_objs w /\ sets_kept w w'.
Proof. exact (@pf_C45_one_matrix_partial). Qed.
Print Assumptions C45_one_matrix_partial.

(** C45, several kernel matrices: KernelSet(km_list=[K1, K2, ...]) has exactly these members, in
    order, and their num_samples. *)
Theorem C45_list :
  forall {E V U} (N : numops V) (C : cmpops V) (numeric : list E -> bool)
         (w : world E V U) ls m num,
    (forall l, In l ls -> has_num w l m) -> ls <> [] ->
    num = None \/ (exists n, num = Some n /\ m = NSOne n) ->
    exists w' k, wstep N C numeric (WSetNew (KLIter (map ARef ls)) num) w = (w', Ok (WSetRef k)) /\
      nth_error (w_sets w) k = None /\ set_is w' k m ls /\ w_objs w' = w_objs w /\ sets_kept w w'.
Proof. exact (@pf_C45_list). Qed.
Print Assumptions C45_list.

(** C45, anything else (a string, a number, a kernel function, ...) is refused with TypeError, and
    no kernel matrix or set changes. *)
Theorem C45_other_types :
  forall {E V U} (N : numops V) (C : cmpops V) (numeric : list E -> bool) (w : world E V U) num,
    snd (wstep N C numeric (WSetNew KLOther num) w) = Raise TypeError /\
    w_objs (fst (wstep N C numeric (WSetNew KLOther num) w)) = w_objs w /\
    sets_kept w (fst (wstep N C numeric (WSetNew KLOther num) w)).
Proof. exact (@pf_C45_other_types). Qed.
Print Assumptions C45_other_types.

(** C45 is false for 2-dimensional arrays, every one with at least one row: the array is iterated
    row by row, and a row is not a matrix (ValueError). *)
Theorem C45_ndarray_refuted :
  (forall {E V U} (N : numops V) (C : cmpops V) (numeric : list E -> bool)
          (w : world E V U) (a : ndarray V) n m num,
     nd_shape a = [S n; m] -> length (nd_data a) = S n * m ->
     snd (wstep N C numeric (WSetNew (KLArray a) num) w) = Raise ValueError) /\
  exists (a : ndarray (option Z)) A, precomputed_new toyC None a = Ok A /\
    snd (wstep toyN toyC anynum (WSetNew (KLArray a) None) (w_empty : world _ _ Z)) = Raise ValueError.
Proof. exact (@pf_C45_ndarray_refuted). Qed.
Print Assumptions C45_ndarray_refuted.

Example C45_example :
  has_num (wtoy toy_sets) 2 (NSOne 2) /\ has_num (wtoy toy_sets) 0 (NSOne 3) /\
  set_is (fst (wstep toyN toyC anynum (WSetNew (KLOne 2) (Some 2)) (wtoy toy_sets))) 3 (NSOne 2) [2].
Proof.
  split; [|split].
  - eexists; split; vm_compute; reflexivity.
  - eexists; split; vm_compute; reflexivity.
  - eexists; eexists; vm_compute; reflexivity.
Qed.

(** C65. Being a member of sets does not matter to a kernel matrix: in every state a program can
    reach, each KernelMatrix is in a state it could also have reached by calls of its own methods,
    so that everything said of single KernelMatrix objects (C01 - C17, C61 - C64) holds of it. *)
Theorem C65_ordinary_members :
  forall {E V U} (N : numops V) (C : cmpops V) (numeric : list E -> bool) (ops : list (wop E V U)) l s,
    nth_error (w_objs (wrun N C numeric ops w_empty)) l = Some (OKM s) ->
    exists K nrm pre, s = before N K nrm pre.
Proof. exact (@pf_C65_ordinary_members). Qed.
Print Assumptions C65_ordinary_members.

(** C65, and a kernel matrix that was a member of an attached set is afterwards a KernelMatrix
    attached to the set's sample: it has a history of the form used by those properties. *)
Theorem C65_after_attach :
  forall {E V U} (N : numops V) (C : cmpops V) (numeric : list E -> bool) (ops : list (wop E V U))
         k x n ms l w',
    set_is (wrun N C numeric ops w_empty) k n ms -> In l ms ->
    wstep N C numeric (WAttach k x None) (wrun N C numeric ops w_empty) = (w', Ok WUnit) ->
    exists K nrm pre m d, admissible x None m m d /\
      nth_error (w_objs w') l = Some (OKM (after N K nrm pre x None [])).
Proof. exact (@pf_C65_after_attach). Qed.
Print Assumptions C65_after_attach.

Example C65_example :
  let w := wtoy (toy_sets ++ [WObj 0 OpFull]) in
  exists s w', nth_error (w_objs w) 0 = Some (OKM s) /\ set_is w 0 (NSOne 3) [0; 1] /\
    wstep toyN toyC anynum (WAttach 0 toyY None) w = (w', Ok WUnit).
Proof.
  eexists; eexists. split; [vm_compute; reflexivity|].
  split; [eexists; eexists; vm_compute; reflexivity|]. vm_compute. reflexivity.
Qed.
