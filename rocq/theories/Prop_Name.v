(** What the text of kernels, kernel matrices and kernel sets tells: property C99.
    Generated by tools/split_props.py from NameProps.v: statements only, each closed by [exact]. *)
From Coq Require Import String Ascii List Arith ZArith Bool Lia DecimalString Decimal DecimalFacts DecimalNat DecimalZ.
Import ListNotations.
From Verif Require Import Prelude MatModel UtilsModel IndexModel KMModel SpecKM CallableModel PrintModel NameModel.
From Verif Require Import MatFacts MFacts KMFacts KMInv KMHist ToyModel PrintProps.
Local Open Scope string_scope.
Local Open Scope list_scope.
Local Open Scope nat_scope.
From Verif Require Import NameProps.
Local Open Scope string_scope.
Local Open Scope list_scope.
Local Open Scope nat_scope.

(** The character [c] does not occur in [s]. *)
Fixpoint free_of (c : ascii) (s : string) : Prop :=
  match s with EmptyString => True | String d s' => d <> c /\ free_of c s' end.

(** How parameters are shown: different parameters differently, without commas, spaces or line breaks (true of
    Python's int and float). *)
Definition readable {P} (show : P -> string) : Prop :=
  (forall a b, show a = show b -> a = b) /\
  forall a, free_of "," (show a) /\ free_of " " (show a) /\ free_of (ascii_of_nat 10) (show a).

(** The same kernel with the default skip_input_checks=False: class and parameters only. *)
Definition checked {P} (k : bkernel P) : bkernel P :=
  match k with
  | OHadamard a _ => OHadamard a false
  | OPoly d g b _ => OPoly d g b false
  | OGaussian s _ => OGaussian s false
  | OLaplacian g _ => OLaplacian g false
  | OChi2 g _ => OChi2 g false
  | OSigmoid g o _ => OSigmoid g o false
  | OLinear _ => OLinear false
  | OMatch p _ => OMatch p false
  end.

(** str of an int. *)
Definition show_int (z : Z) : string := NilZero.string_of_int (Z.to_int z).

(** C99: two built-in kernels have the same text exactly if they are of the same class and have the same
    parameters; only skip_input_checks is not shown. *)
Theorem C99_same : forall {P} (show : P -> string) (k l : bkernel P), readable show ->
  (kernel_str show k = kernel_str show l <-> checked k = checked l).
Proof. exact (@pf_C99_same). Qed.
Print Assumptions C99_same.

(** C99: so for kernels as constructed: equal texts mean the same class and the same parameters, where a
    GaussianKernel shows the bandwidth it works with. *)
Theorem C99_constructed : forall {P} (show : P -> string) nz eps (c d k l : bkernel P), readable show ->
  construct nz eps c = Ok k -> construct nz eps d = Ok l ->
  (kernel_str show k = kernel_str show l <->
   checked c = checked d \/
   exists s t b b', c = OGaussian s b /\ d = OGaussian t b' /\ eps s = eps t).
Proof. exact (@pf_C99_constructed). Qed.
Print Assumptions C99_constructed.

(** C99: the text starts with the name of the kernel, which tells the class (and for the categorical kernel,
    whether it returns percentages); it has no space or line break. *)
Theorem C99_name : forall {P} (show : P -> string) (k : bkernel P), readable show ->
  (exists rest, kernel_str show k = (kernel_name k ++ rest)%string) /\
  free_of " " (kernel_str show k) /\ free_of (ascii_of_nat 10) (kernel_str show k).
Proof. exact (@pf_C99_name). Qed.
Print Assumptions C99_name.

(** C99: KernelMatrix(kernel, normalized) is a TypeError exactly if the first is not a kernel function or the
    second not a bool. *)
Theorem C99_constructor : forall {K} (k : karg K) n,
  (check_km_args k n = Raise TypeError <-> (forall f, k <> KAFunction f) \/ (forall b, n <> NABool b)) /\
  (forall f b, check_km_args k n = Ok (f, b) <-> k = KAFunction f /\ n = NABool b).
Proof. exact (@pf_C99_constructor). Qed.
Print Assumptions C99_constructor.

(** C99: kernel matrices of the same name, attached (in whatever history) to samples called the same, have
    the same text exactly if their kernels have the same class and parameters, the normalisation flag is the
    same, and so are the sizes of the samples. *)
Theorem C99_matrices :
  forall {E V U P} (N : numops V) (show : P -> string) name (k l : bkernel P) (K L : kernel E V) b b'
         (pre pre' post post' : list (pact E U)) x x' n1 n2 n n' d d',
    readable show -> admissible x None n n d -> ~ all_accepted post ->
    admissible x' None n' n' d' -> ~ all_accepted post' ->
    (km_str (prun N (pre ++ (OpAttach x None, n1, n2) :: post) (p_new K b name (kernel_str show k))) =
     km_str (prun N (pre' ++ (OpAttach x' None, n1, n2) :: post') (p_new L b' name (kernel_str show l))) <->
     checked k = checked l /\ b = b' /\ n = n' /\ d = d').
Proof. exact (@pf_C99_matrices). Qed.
Print Assumptions C99_matrices.

(** C99: two sets of the same name whose members have texts without line breaks have the same text exactly if
    they have the same number of samples and members with the same texts in the same order. *)
Theorem C99_sets : forall name ns ns' ts us,
  Forall (free_of (ascii_of_nat 10)) ts -> Forall (free_of (ascii_of_nat 10)) us ->
  (set_str name ns (map Ok ts) = set_str name ns' (map Ok us) <-> ns = ns' /\ ts = us).
Proof. exact (@pf_C99_sets). Qed.
Print Assumptions C99_sets.

(** C99: integers are shown so. *)
Theorem C99_readable : readable show_int.
Proof. exact (@pf_C99_readable). Qed.
Print Assumptions C99_readable.

(** C99: the hypotheses are met; and a kernel of the default parameters is shown with all of them. *)
Theorem C99_example :
  kernel_str show_int (OPoly 3 1 (-1) true)%Z = "polynomial(degree=3,gamma=1,b=-1)" /\
  kernel_str show_int (OPoly 3 1 (-1) true)%Z <> kernel_str show_int (OPoly 3 11 1 true)%Z /\
  kernel_str show_int (OLaplacian 1%Z false) <> kernel_str show_int (OChi2 1%Z false) /\
  kernel_str show_int (OMatch true false) = "MatchPerc" /\
  construct (Z.eqb 0) (Z.max 1) (OGaussian 0%Z false) = Ok (OGaussian 1%Z false) /\
  construct (Z.eqb 0) (Z.max 1) (OHadamard 0%Z false) = Raise ValueError.
Proof. exact (@pf_C99_example). Qed.
Print Assumptions C99_example.

(** The class of a kernel, as the user names it; MatchCountKernel counts twice, by its return_perc. *)
Definition kernel_class {P} (k : bkernel P) : string :=
  match k with
  | OHadamard _ _ => "Hadamard" | OPoly _ _ _ _ => "Poly" | OGaussian _ _ => "Gaussian"
  | OLaplacian _ _ => "Laplacian" | OChi2 _ _ => "Chi2" | OSigmoid _ _ _ => "Sigmoid"
  | OLinear _ => "Linear" | OMatch perc _ => if perc then "MatchPerc" else "MatchCount"
  end.

(** C99: the name alone tells the class of a built-in kernel. *)
Theorem C99_classes : forall {P} (k k' : bkernel P),
  kernel_name k = kernel_name k' <-> kernel_class k = kernel_class k'.
Proof. exact (@pf_C99_classes). Qed.
Print Assumptions C99_classes.

(** C99: the text of a kernel made from a callable: its name, followed by the keyword arguments if there are
    any. *)
Theorem C99_callable : forall {A V} (show_dict : list (string * A) -> string) (k : kfc A V),
  (kc_params k = [] -> kfc_str show_dict k = kc_name k) /\
  (kc_params k <> [] -> kfc_str show_dict k = (kc_name k ++ "(" ++ show_dict (kc_params k) ++ ")")%string).
Proof. exact (@pf_C99_callable). Qed.
Print Assumptions C99_callable.

(** C99: kernels made from callables are another matter: the name given to KernelFromCallable is arbitrary, so
    one that computes something else can have the text of a built-in kernel. *)
Theorem C99_callable_refuted : forall {V} (v : V),
  exists (k : kfc unit V), kfc_str (fun _ => "") k = kernel_str show_int (OGaussian 2%Z false) /\
    forall x y, kfc_call k x y = Ok v.
Proof. exact (@pf_C99_callable_refuted). Qed.
Print Assumptions C99_callable_refuted.
