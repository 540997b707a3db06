(** Kernel buckets: properties C48 and C49.
    Generated by tools/split_props.py from BucketProps.v: statements only, each closed by [exact]. *)
From Coq Require Import String Reals List Arith ZArith Bool Lia Lra.
Import ListNotations.
From Verif Require Import Prelude MatModel UtilsModel KMModel SpecKM XReal KernelsModel KMXModel SetModel
  SpecSet BucketModel SpecBucket.
From Verif Require Import MatFacts MFacts KMFacts KMInv SetFacts SetProps ContProps KMXProps.
From Verif Require Import BucketProps.
Local Open Scope list_scope.
Local Open Scope nat_scope.

(** C48: the constructor returns an unattached bucket with the linear kernel first and then, in order,
    one kernel for each value that could be constructed, each in a new KernelMatrix normalised as
    requested; values that fail are skipped. *)
Theorem C48_contents :
  forall {U} (N : numops xr) (C : cmpops xr) (w : world xr xr U) nrm chk p K1 K2 K3 K4 K5,
  gives (bp_poly_degree p) K1 -> gives (bp_rbf_sigma p) K2 -> gives (bp_laplace_gamma p) K3 ->
  gives (bp_sigmoid_gamma p) K4 -> gives (bp_sigmoid_offset p) K5 ->
  makes_bucket (bucket_new N C (Some nrm) (Some chk) p) w nrm (builtin KLinear :: K1 ++ K2 ++ K3 ++ K4 ++ K5).
Proof. exact (@pf_C48_contents). Qed.
Print Assumptions C48_contents.

(** C48: an element of [values] that is not acceptable as a whole (not an iterable, without len(), or
    empty) makes the constructor raise; nothing that existed before is touched. *)
Theorem C48_bad_values :
  forall {U} (N : numops xr) (C : cmpops xr) (w : world xr xr U) nrm chk p,
  unacceptable (bp_poly_degree p) \/ unacceptable (bp_rbf_sigma p) \/ unacceptable (bp_laplace_gamma p) \/
  unacceptable (bp_sigmoid_gamma p) \/ unacceptable (bp_sigmoid_offset p) ->
  let r := bucket_new N C (Some nrm) (Some chk) p w in
  (snd r = Raise ValueError \/ snd r = Raise TypeError) /\ objects_kept w (fst r) /\ sets_kept w (fst r).
Proof. exact (@pf_C48_bad_values). Qed.
Print Assumptions C48_bad_values.

(** C48: flags that are not bools raise TypeError. *)
Theorem C48_bad_flags :
  forall {U} (N : numops xr) (C : cmpops xr) (w : world xr xr U) f g p, f = None \/ g = None ->
  bucket_new N C f g p w = (w, Raise TypeError).
Proof. exact (@pf_C48_bad_flags). Qed.
Print Assumptions C48_bad_flags.

(** C48: make_kernel_bucket('exhaustive'), in any case of letters, makes a bucket with these 25
    kernels. *)
Theorem C48_exhaustive :
  forall {U} (N : numops xr) (C : cmpops xr) (w : world xr xr U) nrm chk name,
  lower name = "exhaustive"%string ->
  makes_bucket (make_kernel_bucket N C (SName name) (Some nrm) (Some chk)) w nrm (map builtin exhaustive_kernels)
  /\ length exhaustive_kernels = 25.
Proof. exact (@pf_C48_exhaustive). Qed.
Print Assumptions C48_exhaustive.

(** C48: make_kernel_bucket('light') makes a bucket with these 15 kernels. *)
Theorem C48_light :
  forall {U} (N : numops xr) (C : cmpops xr) (w : world xr xr U) nrm chk name,
  lower name = "light"%string ->
  makes_bucket (make_kernel_bucket N C (SName name) (Some nrm) (Some chk)) w nrm (map builtin light_kernels)
  /\ length light_kernels = 15.
Proof. exact (@pf_C48_light). Qed.
Print Assumptions C48_light.

(** C48: make_kernel_bucket('linear_only') makes a bucket with the linear kernel only. *)
Theorem C48_linear_only :
  forall {U} (N : numops xr) (C : cmpops xr) (w : world xr xr U) nrm chk name,
  lower name = "linear_only"%string ->
  makes_bucket (make_kernel_bucket N C (SName name) (Some nrm) (Some chk)) w nrm [builtin KLinear].
Proof. exact (@pf_C48_linear_only). Qed.
Print Assumptions C48_linear_only.

(** C48: any other name of a strategy raises ValueError; a bucket or a set is returned as it is. *)
Theorem C48_other_strategies :
  forall {U} (N : numops xr) (C : cmpops xr) (w : world xr xr U) f g,
  (forall name, lower name <> "exhaustive"%string -> lower name <> "light"%string ->
     lower name <> "linear_only"%string -> make_kernel_bucket N C (SName name) f g w = (w, Raise ValueError)) /\
  (forall b, make_kernel_bucket N C (SBucket b) f g w = (w, Ok b)) /\
  make_kernel_bucket N C SOther f g w = (w, Raise AttributeError).
Proof. exact (@pf_C48_other_strategies). Qed.
Print Assumptions C48_other_strategies.

(** C49, while the bucket is not attached: a KernelMatrix is added for each value for which the kernel
    could be constructed, in order, after the members present; values that fail are skipped.
    Missing: buckets that have been attached, see C49_attached and C49_refuted. *)
Theorem C49_partial :
  forall {U} (N : numops xr) (C : cmpops xr) (w : world xr xr U) b ms v Ks,
  set_is w (b_set b) NSNone ms -> gives v Ks ->
  let r := add_parametrized N C b true v w in
  snd r = Ok tt /\ objects_kept w (fst r) /\ other_sets_kept (b_set b) w (fst r) /\
  exists new, set_is (fst r) (b_set b) NSNone (ms ++ new) /\ new_matrices w (fst r) (b_norm b) new Ks.
Proof. exact (@pf_C49_partial). Qed.
Print Assumptions C49_partial.

(** C49: arguments that are refused change nothing; a generator raises TypeError, everything else that is refused
    ValueError. *)
Theorem C49_refused :
  forall {U} (N : numops xr) (C : cmpops xr) (w : world xr xr U) b v,
  add_parametrized N C b false v w = (w, Raise KernelMethodsError) /\
  (unacceptable v -> add_parametrized N C b true v w = (w, Raise (match v with BNoLen => TypeError | _ => ValueError end))).
Proof. exact (@pf_C49_refused). Qed.
Print Assumptions C49_refused.

(** C49, once the bucket is attached (or has otherwise got a number of samples): the call returns
    normally but no kernel is ever added, whatever the values. *)
Theorem C49_attached :
  forall {U} (N : numops xr) (C : cmpops xr) (w : world xr xr U) b n ms v Ks,
  set_is w (b_set b) n ms -> n <> NSNone -> gives v Ks ->
  let r := add_parametrized N C b true v w in
  snd r = Ok tt /\ w_sets (fst r) = w_sets w /\ objects_kept w (fst r).
Proof. exact (@pf_C49_attached). Qed.
Print Assumptions C49_attached.

(** C49 is refuted: a program makes a bucket, attaches it to a sample and adds a polynomial kernel of
    degree 2, which can be constructed; the call returns, the bucket has the linear kernel only. *)
Theorem C49_refuted :
  exists (w : world xr xr unit) b x,
    snd (make_kernel_bucket (U:=unit) xN xC (SName "linear_only") (Some true) (Some false) w_empty) = Ok b /\
    w = fst (set_attach (fun _ => true) (b_set b) x None
               (fst (make_kernel_bucket (U:=unit) xN xC (SName "linear_only") (Some true) (Some false) w_empty))) /\
    set_is w (b_set b) (NSOne 2) [0] /\
    gives (poly_degrees [2]) [builtin (KPoly 2 1 1)] /\
    snd (add_parametrized xN xC b true (poly_degrees [2]) w) = Ok tt /\
    set_is (fst (add_parametrized xN xC b true (poly_degrees [2]) w)) (b_set b) (NSOne 2) [0].
Proof. exact (@pf_C49_refuted). Qed.
Print Assumptions C49_refuted.

(** A case for C48 and C49: a bucket made from degrees 2 and 3 and one value for which the kernel cannot
    be constructed, which is skipped; then a Gaussian kernel is added. *)
Example C48_example :
  let p := mkBP (BIter [Ok (builtin (KPoly 2 1 1)); Raise TypeError; Ok (builtin (KPoly 3 1 1))])
                BNone BNone BNone BNone in
  let r := bucket_new (U:=unit) xN xC (Some true) (Some false) p w_empty in
  snd r = Ok (mkBucket 0 true) /\ set_is (fst r) 0 NSNone [0; 1; 2] /\
  w_objs (fst r) = [OKM (km_new (builtin KLinear) true []); OKM (km_new (builtin (KPoly 2 1 1)) true []);
                    OKM (km_new (builtin (KPoly 3 1 1)) true [])] /\
  gives (bp_poly_degree p) [builtin (KPoly 2 1 1); builtin (KPoly 3 1 1)] /\
  let r' := add_parametrized xN xC (mkBucket 0 true) true (rbf_sigmas [2%R]) (fst r) in
  snd r' = Ok tt /\ set_is (fst r') 0 NSNone [0; 1; 2; 3] /\
  nth_error (w_objs (fst r')) 3 = Some (OKM (km_new (builtin (KGaussian (Fin 2))) true [])).
Proof.
  cbv zeta. split; [reflexivity|]. split; [eexists; eexists; reflexivity|]. split; [reflexivity|].
  split; [split; [discriminate|reflexivity]|]. split; [reflexivity|].
  split; [eexists; eexists; reflexivity|reflexivity].
Qed.
