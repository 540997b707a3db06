(** C105: importing the package and its names.
    Generated by tools/split_props.py from ImportProps.v: statements only, each closed by [exact]. *)
From Coq Require Import String List Bool Arith Lia.
From Verif Require Import ImportModel SpecImport.
Import ListNotations.
Local Open Scope string_scope.
From Verif Require Import ImportProps.
Local Open Scope string_scope.

(** C105: [import kernelmethods] needs numpy and scipy only, at any point of any program; without
    them everything fails with the first one that is missing. *)
Theorem C105_import :
  forall e us,
    snd (do_use e Import (session e us)) =
      (if numpy e then if scipy e then IOk [("kernelmethods", Mod Pkg)] else IErr (NotInstalled Scipy)
       else IErr (NotInstalled Numpy)) /\
    (forall u, numpy e && scipy e = false ->
       snd (do_use e u (session e us)) = snd (do_use e Import (session e us))).
Proof. exact (@pf_C105_import). Qed.
Print Assumptions C105_import.

(** C105: the result of every use is the same at any point of any program, except for the
    attributes named like the modules that the package does not import itself. *)
Theorem C105_history_free :
  forall e us u, (forall m, eager m = false -> u <> Attribute (file_of m)) ->
    snd (do_use e u (session e us)) = snd (do_use e u []).
Proof. exact (@pf_C105_history_free). Qed.
Print Assumptions C105_history_free.

(** C105: the fifteen names other than the estimators are at any point what their modules
    define, whichever way they are imported, and fetching them from the package loads nothing. *)
Theorem C105_names :
  forall e us n m, numpy e = true -> scipy e = true -> home n = Some m ->
    snd (do_use e (Attribute n) (session e us)) = IOk [(n, Def m n)] /\
    snd (do_use e (FromPackage n) (session e us)) = IOk [(n, Def m n)] /\
    snd (do_use e (FromSub (file_of m) n) (session e us)) = IOk [(n, Def m n)] /\
    fst (do_use e (Attribute n) (session e us)) = fst (do_use e Import (session e us)) /\
    fst (do_use e (FromPackage n) (session e us)) = fst (do_use e Import (session e us)).
Proof. exact (@pf_C105_names). Qed.
Print Assumptions C105_names.

(** C105: the four estimators are there exactly when scikit-learn is; otherwise asking for them
    (and so hasattr) raises ModuleNotFoundError, not AttributeError. *)
Theorem C105_estimators :
  forall e us n, numpy e = true -> scipy e = true -> estimator n = true ->
    forall u, In u [Attribute n; FromPackage n; FromSub "algorithms" n] ->
      snd (do_use e u (session e us)) = (if sklearn e then IOk [(n, Def Algorithms n)] else IErr (NotInstalled Sklearn)) /\
      (sklearn e = false -> fst (do_use e u (session e us)) = fst (do_use e Import (session e us))).
Proof. exact (@pf_C105_estimators). Qed.
Print Assumptions C105_estimators.

(** C105: [from kernelmethods import *] binds the names of __all__ to what the attributes are; it
    needs scikit-learn. *)
Theorem C105_star :
  forall e us, numpy e = true -> scipy e = true ->
    (sklearn e = false -> snd (do_use e FromAll (session e us)) = IErr (NotInstalled Sklearn)) /\
    (sklearn e = true -> exists l, snd (do_use e FromAll (session e us)) = IOk l /\ map fst l = exports /\
       forall n o, In (n, o) l -> forall us', snd (do_use e (Attribute n) (session e us')) = IOk [(n, o)]).
Proof. exact (@pf_C105_star). Qed.
Print Assumptions C105_star.

(** C105: these names are the fifteen that have a module above and three of the four estimators, each
    once; KernelMachineRegressor is left out. *)
Theorem C105_all :
  NoDup exports /\
  forall n, In n exports <-> (exists m, home n = Some m) \/ (estimator n = true /\ n <> "KernelMachineRegressor").
Proof. exact (@pf_C105_all). Qed.
Print Assumptions C105_all.

(** C105: every other name raises AttributeError as an attribute, ImportError in
    [from kernelmethods import], ModuleNotFoundError as a module; nothing is loaded. *)
Theorem C105_unknown :
  forall e us n, numpy e = true -> scipy e = true -> unknown n = true ->
    do_use e (Attribute n) (session e us) = (fst (do_use e Import (session e us)), IErr AttributeErr) /\
    do_use e (FromPackage n) (session e us) = (fst (do_use e Import (session e us)), IErr ImportErr) /\
    do_use e (ImportSub n) (session e us) = (fst (do_use e Import (session e us)), IErr NoModule) /\
    (forall k, do_use e (FromSub n k) (session e us) = (fst (do_use e Import (session e us)), IErr NoModule)).
Proof. exact (@pf_C105_unknown). Qed.
Print Assumptions C105_unknown.

(** C105: a submodule is an attribute of the package exactly when something has imported it: at
    once for config, utils, operations, base, numeric_kernels, sampling and _version, for the
    others after a use that needs it. By import statement they are always there, algorithms
    when scikit-learn is. *)
Theorem C105_submodules :
  forall e us m, numpy e = true -> scipy e = true -> m <> Pkg ->
    snd (do_use e (Attribute (file_of m)) (session e us)) =
      (if needed e us m then IOk [(file_of m, Mod m)] else IErr AttributeErr) /\
    snd (do_use e (FromPackage (file_of m)) (session e us)) =
      (if sklearn e || negb (modname_eqb m Algorithms) then IOk [(file_of m, Mod m)] else IErr (NotInstalled Sklearn)).
Proof. exact (@pf_C105_submodules). Qed.
Print Assumptions C105_submodules.

(** C105: what a module itself imports from elsewhere is an attribute of it, under the name it was given
    there and no other: numpy is [np] in base, numpy's multiply is [elem_wise_multiply] in operations. *)
Theorem C105_aliases :
  forall e us, numpy e = true -> scipy e = true ->
    snd (do_use e (FromSub "operations" "elem_wise_multiply") (session e us))
      = IOk [("elem_wise_multiply", Ext Numpy "numpy.multiply")] /\
    snd (do_use e (FromSub "operations" "multiply") (session e us)) = IErr ImportErr /\
    snd (do_use e (FromSub "base" "np") (session e us)) = IOk [("np", Ext Numpy "numpy")] /\
    snd (do_use e (FromSub "base" "numpy") (session e us)) = IErr ImportErr.
Proof. exact (@pf_C105_aliases). Qed.
Print Assumptions C105_aliases.

(** C105: [kernelmethods.ranking] is an AttributeError after [import kernelmethods] and a module
    after fetching an estimator; KernelMachineRegressor is answered but not in __all__; the
    composite kernels and MatchCountKernel are not offered by the package. *)
Theorem C105_example :
  let e := mkInstalled true true true in
  snd (do_use e (Attribute "ranking") (session e [Import])) = IErr AttributeErr /\
  snd (do_use e (Attribute "ranking") (session e [Import; Attribute "OptimalKernelSVC"])) = IOk [("ranking", Mod Ranking)] /\
  snd (do_use e (Attribute "KernelMachineRegressor") []) = IOk [("KernelMachineRegressor", Def Algorithms "KernelMachineRegressor")] /\
  ~ In "KernelMachineRegressor" exports /\
  unknown "SumKernel" = true /\ unknown "MatchCountKernel" = true /\
  snd (do_use e (FromSub "categorical" "MatchCountKernel") []) = IOk [("MatchCountKernel", Def Categorical "MatchCountKernel")] /\
  home "PolyKernel" = Some Numeric /\ estimator "OptimalKernelSVR" = true /\
  snd (do_use (mkInstalled true true false) (Attribute "KernelMachine") []) = IErr (NotInstalled Sklearn).
Proof. exact (@pf_C105_example). Qed.
Print Assumptions C105_example.
