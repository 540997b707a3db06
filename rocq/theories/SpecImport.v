(** Vocabulary of the statements about imports: where the classes of the package live and which
    uses need which module. *)
From Coq Require Import String List Bool.
From Verif Require Import ImportModel.
Import ListNotations.
Local Open Scope string_scope.

(** The names the package offers directly, with the module of each, and the estimators. *)
Definition home (n : string) : option modname :=
  if existsb (String.eqb n) ["KernelMatrix"; "KernelSet"; "BaseKernelFunction"] then Some Base
  else if existsb (String.eqb n) ["KernelMethodsException"; "KMAccessError"; "KMNormError"; "KMSetAdditionError"] then Some Config
  else if existsb (String.eqb n) ["PolyKernel"; "GaussianKernel"; "LaplacianKernel"; "LinearKernel"; "Chi2Kernel"; "SigmoidKernel"; "HadamardKernel"] then Some Numeric
  else if String.eqb n "KernelBucket" then Some Sampling
  else None.
Definition estimator (n : string) : bool :=
  existsb (String.eqb n) ["KernelMachine"; "KernelMachineRegressor"; "OptimalKernelSVC"; "OptimalKernelSVR"].

(** The name of a file of the package, without .py. *)
Definition file_of (m : modname) : string :=
  match m with
  | Pkg => "__init__" | Config => "config" | Utils => "utils" | Operations => "operations" | Base => "base"
  | Numeric => "numeric_kernels" | Sampling => "sampling" | Ranking => "ranking" | Algorithms => "algorithms"
  | Categorical => "categorical" | Version => "_version" | Tests => "tests"
  end.
(** The modules that [import kernelmethods] imports, and the four it does not. *)
Definition eager (m : modname) : bool :=
  match m with Ranking | Algorithms | Categorical | Tests => false | _ => true end.

(** [u] asks for the submodule [m] by its name. *)
Definition names_file (m : modname) (u : use) : bool :=
  match u with
  | FromPackage n | ImportSub n | FromSub n _ => String.eqb n (file_of m)
  | _ => false
  end.
(** [u] needs algorithms.py: it names the file or one of the estimators. *)
Definition wants_estimators (u : use) : bool :=
  names_file Algorithms u ||
  match u with Attribute n | FromPackage n => estimator n | FromAll => true | _ => false end.

(** Whether a module that [import kernelmethods] does not import is there after the program [us]. *)
Definition needed (e : installed) (us : list use) (m : modname) : bool :=
  match m with
  | Algorithms => sklearn e && existsb wants_estimators us
  | Ranking => existsb (names_file Ranking) us || (sklearn e && existsb wants_estimators us)
  | Categorical | Tests => existsb (names_file m) us
  | _ => true
  end.

(** Names of the form __x and the names of the modules aside, what a program may ask for. *)
Definition unknown (n : string) : bool :=
  negb (prefix "__" n) && negb (estimator n) &&
  negb (match home n with Some _ => true | None => false end) &&
  negb (existsb (String.eqb n) ["config"; "utils"; "operations"; "base"; "numeric_kernels"; "sampling"; "ranking"; "algorithms"; "categorical"; "_version"; "tests"]).
