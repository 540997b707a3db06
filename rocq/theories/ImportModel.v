(** The package and its modules as Python's import system sees them: __init__.py, _version.py
    and the import statements and top-level names of all other files. *)
From Coq Require Import String List Bool Arith.
Import ListNotations.
Local Open Scope string_scope.

(** The modules of the package: kernelmethods/__init__.py, the files beside it, and the directory
    tests, which has no __init__.py and so is an empty namespace package. (The test files in it
    are not modelled.) *)
Inductive modname :=
  Pkg | Config | Utils | Operations | Base | Numeric | Sampling | Ranking | Algorithms | Categorical | Version | Tests.

Definition modname_eqb (a b : modname) : bool :=
  match a, b with
  | Pkg, Pkg | Config, Config | Utils, Utils | Operations, Operations | Base, Base | Numeric, Numeric
  | Sampling, Sampling | Ranking, Ranking | Algorithms, Algorithms | Categorical, Categorical
  | Version, Version | Tests, Tests => true
  | _, _ => false
  end.

(** The submodules by the names of their files. *)
Definition submodules : list (string * modname) :=
  [("config", Config); ("utils", Utils); ("operations", Operations); ("base", Base);
   ("numeric_kernels", Numeric); ("sampling", Sampling); ("ranking", Ranking);
   ("algorithms", Algorithms); ("categorical", Categorical); ("_version", Version); ("tests", Tests)].

(** The other distributions the files import from; the standard library is always there. *)
Inductive library := Stdlib | Numpy | Scipy | Sklearn.
Record installed := mkInstalled { numpy : bool; scipy : bool; sklearn : bool }.
Definition available (e : installed) (l : library) : bool :=
  match l with Stdlib => true | Numpy => numpy e | Scipy => scipy e | Sklearn => sklearn e end.

(** What a name can be bound to: what the module [m] defines under the name [n], a module, or
    something from another distribution. Two names bound to equal [obj] are bound to one object. *)
Inductive obj := Def (m : modname) (n : string) | Mod (m : modname) | Ext (l : library) (n : string).

(** The statements at the top level of a module: [from l import a as b, ...] and [import l as b];
    [from kernelmethods.m import names]; [from kernelmethods import m as b]; definitions and
    assignments; [b = a]. *)
Inductive stmt :=
| SExt (l : library) (names : list (string * string))
| SFrom (m : modname) (names : list string)
| SSub (m : modname) (b : string)
| SDef (names : list string)
| SAlias (b a : string).

(** The top levels of the files, in their order: __init__.py:5-27, config.py:1-69,
    utils.py:2-184, operations.py:18-389, base.py:9-1538, numeric_kernels.py:1-449,
    sampling.py:1-292, ranking.py:11-153, algorithms.py:8-563, categorical.py:14-120,
    _version.py:3-26 (where [__version__] is bound whichever branch is taken). Evaluating the
    definitions themselves does not raise. *)
Definition body (m : modname) : list stmt :=
  match m with
  | Pkg => (* __init__.py *)
      [SDef ["__all__"];
       SFrom Base ["BaseKernelFunction"; "KernelMatrix"; "KernelSet"];
       SFrom Config ["KMAccessError"; "KMNormError"; "KMSetAdditionError"; "KernelMethodsException"];
       SFrom Numeric ["Chi2Kernel"; "GaussianKernel"; "LaplacianKernel"; "LinearKernel"; "PolyKernel"; "SigmoidKernel"; "HadamardKernel"];
       SFrom Sampling ["KernelBucket"];
       SFrom Version ["__version__"];
       SDef ["__author__"; "__email__"; "__getattr__"]]
  | Config => (* config.py *)
      [SExt Stdlib [("operator.add", "add"); ("operator.mul", "mul")];
       SExt Numpy [("numpy", "np")];
       SDef ["KernelMethodsException"; "KMAccessError"; "KMNormError"; "KMSetAdditionError"; "KernelMethodsWarning"; "Chi2NegativeValuesException"; "VALID_KERNEL_MATRIX_OPS"; "OPER_KM_OPS"; "kernel_bucket_strategies"; "default_degree_values_poly_kernel"; "default_sigma_values_gaussian_kernel"; "default_gamma_values_laplacian_kernel"; "default_gamma_values_sigmoid_kernel"; "default_offset_values_sigmoid_kernel"; "light_degree_values_poly_kernel"; "light_sigma_values_gaussian_kernel"; "light_gamma_values_laplacian_kernel"; "light_gamma_values_sigmoid_kernel"; "light_offset_values_sigmoid_kernel"; "VALID_RANKING_METHODS"; "km_dtype"; "dtype_categorical"]]
  | Utils => (* utils.py *)
      [SExt Numpy [("numpy", "np")];
       SExt Scipy [("scipy.sparse.issparse", "issparse")];
       SSub Config "config";
       SExt Stdlib [("collections.abc.Iterable", "Iterable")];
       SDef ["check_input_arrays"; "ensure_ndarray_2D"; "ensure_ndarray_1D"; "ensure_ndarray_size"; "check_callable"; "get_callable_name"; "_float_eps"; "_ensure_min_eps"; "not_symmetric"; "check_operation_kernel_matrix"; "min_max_scale"; "contains_nan_inf"; "is_iterable_but_not_str"]]
  | Operations => (* operations.py *)
      [SExt Stdlib [("traceback", "traceback")];
       SExt Stdlib [("warnings.warn", "warn")];
       SExt Numpy [("numpy", "np")];
       SFrom Config ["KMNormError"; "KernelMethodsException"];
       SFrom Utils ["contains_nan_inf"; "ensure_ndarray_1D"];
       SExt Numpy [("numpy.multiply", "elem_wise_multiply")];
       SExt Scipy [("scipy.linalg.LinAlgError", "LinAlgError"); ("scipy.linalg.eigh", "eigh")];
       SDef ["is_positive_semidefinite"];
       SAlias "is_PSD" "is_positive_semidefinite";
       SDef ["center_km"; "normalize_km"; "normalize_km_2sample"; "frobenius_product"; "frobenius_norm"; "alignment_centered"; "eval_similarity"; "linear_combination"]]
  | Base => (* base.py *)
      [SExt Stdlib [("abc.ABC", "ABC"); ("abc.abstractmethod", "abstractmethod")];
       SExt Stdlib [("collections.abc.Iterable", "Iterable")];
       SExt Stdlib [("copy.copy", "copy")];
       SExt Stdlib [("itertools.product", "iter_product")];
       SExt Stdlib [("warnings.warn", "warn")];
       SExt Numpy [("numpy", "np")];
       SSub Config "cfg";
       SFrom Config ["KMAccessError"; "KMSetAdditionError"; "KernelMethodsWarning"];
       SFrom Operations ["center_km"; "frobenius_norm"; "is_PSD"; "normalize_km"; "normalize_km_2sample"];
       SFrom Utils ["check_callable"; "contains_nan_inf"; "ensure_ndarray_1D"; "ensure_ndarray_2D"; "get_callable_name"; "not_symmetric"];
       SExt Scipy [("scipy.sparse.issparse", "issparse"); ("scipy.sparse.lil_matrix", "lil_matrix")];
       SDef ["BaseKernelFunction"; "KernelFromCallable"; "KernelMatrix"; "KernelMatrixPrecomputed"; "ConstantKernelMatrix"; "VALID_KERNEL_MATRIX_TYPES"; "KernelSet"; "CompositeKernel"; "SumKernel"; "ProductKernel"; "AverageKernel"; "WeightedAverageKernel"]]
  | Numeric => (* numeric_kernels.py *)
      [SExt Numpy [("numpy", "np")];
       SFrom Base ["BaseKernelFunction"];
       SFrom Config ["Chi2NegativeValuesException"];
       SFrom Utils ["_ensure_min_eps"; "check_input_arrays"];
       SDef ["HadamardKernel"; "PolyKernel"; "GaussianKernel"; "LaplacianKernel"; "Chi2Kernel"; "SigmoidKernel"; "LinearKernel"; "DEFINED_KERNEL_FUNCS"]]
  | Sampling => (* sampling.py *)
      [SExt Stdlib [("functools.partial", "partial")];
       SExt Stdlib [("warnings.warn", "warn")];
       SExt Numpy [("numpy", "np")];
       SSub Config "cfg";
       SFrom Base ["BaseKernelFunction"; "KernelMatrix"; "KernelSet"];
       SFrom Config ["KernelMethodsException"; "KernelMethodsWarning"];
       SFrom Numeric ["GaussianKernel"; "LaplacianKernel"; "LinearKernel"; "PolyKernel"; "SigmoidKernel"];
       SFrom Operations ["alignment_centered"];
       SFrom Utils ["is_iterable_but_not_str"];
       SExt Scipy [("scipy.stats.pearsonr", "pearsonr")];
       SDef ["KernelBucket"; "make_kernel_bucket"; "ideal_kernel"; "correlation_km"; "pairwise_similarity"]]
  | Ranking => (* ranking.py *)
      [SExt Numpy [("numpy", "np")];
       SSub Config "cfg";
       SFrom Operations ["alignment_centered"];
       SFrom Sampling ["KernelBucket"];
       SFrom Utils ["min_max_scale"];
       SDef ["find_optimal_kernel"; "rank_kernels"; "CV_ranking"; "alignment_ranking"; "get_estimator"]]
  | Algorithms => (* algorithms.py *)
      [SExt Stdlib [("abc.abstractmethod", "abstractmethod")];
       SExt Stdlib [("copy.deepcopy", "deepcopy")];
       SExt Numpy [("numpy", "np")];
       SExt Sklearn [("sklearn.base.BaseEstimator", "BaseEstimator"); ("sklearn.base.ClassifierMixin", "ClassifierMixin"); ("sklearn.base.RegressorMixin", "RegressorMixin"); ("sklearn.base.is_classifier", "is_classifier"); ("sklearn.base.is_regressor", "is_regressor")];
       SExt Sklearn [("sklearn.exceptions.NotFittedError", "NotFittedError")];
       SExt Sklearn [("sklearn.svm.SVC", "SVC"); ("sklearn.svm.SVR", "SVR")];
       SExt Sklearn [("sklearn.utils.validation.check_X_y", "check_X_y"); ("sklearn.utils.validation.check_array", "check_array")];
       SSub Config "cfg";
       SFrom Base ["KernelMatrix"];
       SFrom Numeric ["GaussianKernel"];
       SFrom Ranking ["find_optimal_kernel"; "get_estimator"];
       SFrom Sampling ["KernelBucket"; "make_kernel_bucket"];
       SDef ["BaseKernelMachine"; "KernelMachine"; "KernelMachineRegressor"; "BaseOptimalKernelMachine"; "OptimalKernelSVR"; "OptimalKernelSVC"]]
  | Categorical => (* categorical.py *)
      [SExt Numpy [("numpy", "np")];
       SFrom Base ["BaseKernelFunction"];
       SFrom Utils ["check_input_arrays"];
       SSub Config "cfg";
       SDef ["MatchCountKernel"; "_check_categorical_arrays"; "_ensure_type_size"]]
  | Version => (* _version.py *)
      [SExt Stdlib [("importlib.metadata.PackageNotFoundError", "PackageNotFoundError"); ("importlib.metadata.version", "version")];
       SExt Stdlib [("pathlib.Path", "Path")];
       SExt Stdlib [("subprocess", "subprocess")];
       SDef ["_version_from_git"; "__version__"]]
  | Tests => []
  end.

(** __init__.py:5-12. *)
Definition exports : list string :=
  ["KernelMatrix"; "BaseKernelFunction"; "KernelMethodsException"; "KMAccessError"; "KMNormError";
   "KMSetAdditionError"; "PolyKernel"; "GaussianKernel"; "LaplacianKernel"; "LinearKernel";
   "Chi2Kernel"; "SigmoidKernel"; "HadamardKernel"; "KernelBucket"; "KernelSet";
   "KernelMachine"; "OptimalKernelSVC"; "OptimalKernelSVR"].

(** The names __init__.py:30-35 answers to, and those it imports from algorithms.py, 36-41. *)
Definition lazy_names : list string :=
  ["KernelMachine"; "KernelMachineRegressor"; "OptimalKernelSVC"; "OptimalKernelSVR"].
Definition lazy_imports : list string :=
  ["KernelMachine"; "KernelMachineRegressor"; "OptimalKernelSVC"; "OptimalKernelSVR"].

(** A namespace is an association list in the order of binding; binding again keeps the place. *)
Definition space := list (string * obj).
Fixpoint find (n : string) (s : space) : option obj :=
  match s with [] => None | (k, o) :: r => if String.eqb k n then Some o else find n r end.
Fixpoint assign (n : string) (o : obj) (s : space) : space :=
  match s with
  | [] => [(n, o)]
  | (k, p) :: r => if String.eqb k n then (k, o) :: r else (k, p) :: assign n o r
  end.

(** [sys.modules], restricted to the package: the modules begun or finished, with their
    namespaces. (The names every module has, such as __name__ and __file__, are left out.) *)
Definition modules := list (modname * space).
Fixpoint ns (m : modname) (s : modules) : option space :=
  match s with [] => None | (k, a) :: r => if modname_eqb k m then Some a else ns m r end.
Fixpoint put (m : modname) (a : space) (s : modules) : modules :=
  match s with
  | [] => [(m, a)]
  | (k, b) :: r => if modname_eqb k m then (k, a) :: r else (k, b) :: put m a r
  end.
Fixpoint drop (m : modname) (s : modules) : modules :=
  match s with
  | [] => []
  | (k, b) :: r => if modname_eqb k m then r else (k, b) :: drop m r
  end.
Definition bind_in (m : modname) (n : string) (o : obj) (s : modules) : modules :=
  match ns m s with Some a => put m (assign n o a) s | None => s end.

(** What an import or an attribute can raise. [Stuck] is Python's RecursionError: no import does. *)
Inductive ierr := AttributeErr | ImportErr | NotInstalled (l : library) | NoModule | Stuck.
Inductive ires (A : Type) := IOk (a : A) | IErr (e : ierr).
Arguments IOk {A}. Arguments IErr {A}.

Definition sub_name (m : modname) : string :=
  match List.find (fun p => modname_eqb (snd p) m) submodules with Some p => fst p | None => "" end.

Fixpoint foldM {A} (f : A -> modules -> modules * ires unit) (l : list A) (s : modules) : modules * ires unit :=
  match l with
  | [] => (s, IOk tt)
  | a :: r => match f a s with (s1, IOk _) => foldM f r s1 | (s1, IErr e) => (s1, IErr e) end
  end.

Section Import.
  Variable e : installed.

  (** One statement of the module [me]; [load] imports a module of the package. A name that the
      other module does not have (yet) is an ImportError. [from kernelmethods import m] looks at
      the attributes of the package, imports the submodule when there is none, and falls back to
      sys.modules (the attribute is missing when an earlier import of the package failed half way). *)
  Definition run_stmt (load : modname -> modules -> modules * ires unit) (me : modname) (c : stmt) (s : modules)
    : modules * ires unit :=
    match c with
    | SExt l names =>
        if available e l then (fold_left (fun s p => bind_in me (snd p) (Ext l (fst p)) s) names s, IOk tt)
        else (s, IErr (NotInstalled l))
    | SFrom m names =>
        match load m s with
        | (s1, IOk _) =>
            foldM (fun n s => match ns m s with
                              | Some a => match find n a with
                                          | Some o => (bind_in me n o s, IOk tt)
                                          | None => (s, IErr ImportErr)
                                          end
                              | None => (s, IErr ImportErr)
                              end) names s1
        | r => r
        end
    | SSub m b =>
        match match ns Pkg s with Some a => find (sub_name m) a | None => None end with
        | Some o => (bind_in me b o s, IOk tt)
        | None => match load m s with
                  | (s1, IOk _) => (bind_in me b (Mod m) s1, IOk tt)
                  | r => r
                  end
        end
    | SDef names => (fold_left (fun s n => bind_in me n (Def me n) s) names s, IOk tt)
    | SAlias b a => match match ns me s with Some d => find a d | None => None end with
                    | Some o => (bind_in me b o s, IOk tt)
                    | None => (s, IErr ImportErr)
                    end
    end.

  (** Importing a module: nothing when it is in sys.modules, even half imported; otherwise it is
      entered there, its body run, and, for a submodule, its name bound in the package. When the
      body raises, the entry is removed again, those of the modules it imported stay. *)
  Fixpoint load (fuel : nat) (m : modname) (s : modules) : modules * ires unit :=
    match ns m s with
    | Some _ => (s, IOk tt)
    | None =>
        match fuel with
        | 0 => (s, IErr Stuck)
        | S f => match foldM (run_stmt (load f) m) (body m) (put m [] s) with
                 | (s1, IOk _) => (match m with Pkg => s1 | _ => bind_in Pkg (sub_name m) (Mod m) s1 end, IOk tt)
                 | (s1, IErr x) => (drop m s1, IErr x)
                 end
        end
    end.

  (** An import inside an import is one of twelve modules that are not yet begun. *)
  Definition import : modname -> modules -> modules * ires unit := load 12.

  (** [kernelmethods.n] when the package is imported, __init__.py:27-51. *)
  Definition attribute (n : string) (s : modules) : modules * ires obj :=
    match match ns Pkg s with Some a => find n a | None => None end with
    | Some o => (s, IOk o)
    | None =>
        if existsb (String.eqb n) lazy_names then
          match import Algorithms s with
          | (s1, IOk _) =>
              match ns Algorithms s1 with
              | Some a => if forallb (fun i => match find i a with Some _ => true | None => false end) lazy_imports
                          then match find n a with Some o => (s1, IOk o) | None => (s1, IErr ImportErr) end
                          else (s1, IErr ImportErr)
              | None => (s1, IErr ImportErr)
              end
          | (s1, IErr x) => (s1, IErr x)
          end
        else (s, IErr AttributeErr)
    end.

  (** [from kernelmethods import n]: hasattr, which lets through what is not an AttributeError,
      then the submodule of that name, if there is one, then the attribute. *)
  Definition from_package (n : string) (s : modules) : modules * ires obj :=
    match attribute n s with
    | (s1, IErr AttributeErr) =>
        match List.find (fun p => String.eqb (fst p) n) submodules with
        | Some (_, m) =>
            match import m s1 with
            | (s2, IOk _) => match attribute n s2 with
                             | (s3, IErr AttributeErr) => (s3, IOk (Mod m))
                             | r => r
                             end
            | (s2, IErr x) => (s2, IErr x)
            end
        | None => (s1, IErr ImportErr)
        end
    | (s1, IOk _) => attribute n s1
    | r => r
    end.

  (** [from kernelmethods import *]: the names of __all__ one after the other. *)
  Fixpoint from_all (l : list string) (s : modules) : modules * ires (list (string * obj)) :=
    match l with
    | [] => (s, IOk [])
    | n :: r => match from_package n s with
                | (s1, IOk o) => match from_all r s1 with
                                 | (s2, IOk t) => (s2, IOk ((n, o) :: t))
                                 | q => q
                                 end
                | (s1, IErr x) => (s1, IErr x)
                end
    end.

  (** [import kernelmethods.a] and [from kernelmethods.a import n]. *)
  Definition import_sub (a : string) (s : modules) : modules * ires modname :=
    match List.find (fun p => String.eqb (fst p) a) submodules with
    | Some (_, m) => match import m s with (s1, IOk _) => (s1, IOk m) | (s1, IErr x) => (s1, IErr x) end
    | None => (s, IErr NoModule)
    end.
  Definition from_sub (a n : string) (s : modules) : modules * ires obj :=
    match import_sub a s with
    | (s1, IOk m) => match match ns m s1 with Some d => find n d | None => None end with
                     | Some o => (s1, IOk o)
                     | None => (s1, IErr ImportErr)
                     end
    | (s1, IErr x) => (s1, IErr x)
    end.

  (** What a program can do with the package; each of these imports it first. *)
  Inductive use :=
  | Import | Attribute (n : string) | FromPackage (n : string) | FromAll
  | ImportSub (a : string) | FromSub (a n : string).

  Definition on_ok {A B} (f : A -> B) (r : modules * ires A) : modules * ires B :=
    match r with (s, IOk a) => (s, IOk (f a)) | (s, IErr x) => (s, IErr x) end.

  (** The new bindings of the program. *)
  Definition do_use (u : use) (s : modules) : modules * ires (list (string * obj)) :=
    match import Pkg s with
    | (s0, IErr x) => (s0, IErr x)
    | (s0, IOk _) =>
        match u with
        | Import => (s0, IOk [("kernelmethods", Mod Pkg)])
        | Attribute n => on_ok (fun o => [(n, o)]) (attribute n s0)
        | FromPackage n => on_ok (fun o => [(n, o)]) (from_package n s0)
        | FromAll => from_all exports s0
        | ImportSub a => on_ok (fun _ => [("kernelmethods", Mod Pkg)]) (import_sub a s0)
        | FromSub a n => on_ok (fun o => [(n, o)]) (from_sub a n s0)
        end
    end.

  (** A program in a fresh interpreter, which goes on after exceptions. *)
  Definition session (us : list use) : modules := fold_left (fun s u => fst (do_use u s)) us [].
End Import.
