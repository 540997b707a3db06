(** Model of the kernel functions as configured objects: constructors, names and text
    (numeric_kernels.py, categorical.py, and KernelFromCallable in base.py), and the checks of the
    constructor of KernelMatrix. *)
From Coq Require Import String List Bool.
Import ListNotations.
From Verif Require Import Prelude CallableModel.
Local Open Scope string_scope.

(** The built-in kernels with the attributes their constructors set; [P] is the type of the Python
    objects given as parameters. Assigning to the attributes later is not modelled. *)
Inductive bkernel (P : Type) : Type :=
| OHadamard (alpha : P) (skip : bool)              (* numeric_kernels.py:38-61 *)
| OPoly (degree gamma b : P) (skip : bool)         (* numeric_kernels.py:109-135 *)
| OGaussian (sigma : P) (skip : bool)              (* numeric_kernels.py:170-193 *)
| OLaplacian (gamma : P) (skip : bool)             (* numeric_kernels.py:227-247 *)
| OChi2 (gamma : P) (skip : bool)                  (* numeric_kernels.py:294-314 *)
| OSigmoid (gamma offset : P) (skip : bool)        (* numeric_kernels.py:363-387 *)
| OLinear (skip : bool)                            (* numeric_kernels.py:417-431 *)
| OMatch (return_perc skip : bool).                (* categorical.py:37-48 *)
Arguments OHadamard {P}. Arguments OPoly {P}. Arguments OGaussian {P}. Arguments OLaplacian {P}.
Arguments OChi2 {P}. Arguments OSigmoid {P}. Arguments OLinear {P}. Arguments OMatch {P}.

Section Names.
  Context {P : Type}.
  (** [str] of a parameter (as done by ['{}'.format]); [np.isclose(alpha, 0.0)]; utils.py:130-133
      [_ensure_min_eps]. *)
  Variable show : P -> string.
  Variable near_zero : P -> bool.
  Variable at_least_eps : P -> P.

  (** The constructors: the object made from the given parameters. *)
  Definition construct (k : bkernel P) : res (bkernel P) :=
    match k with
    | OHadamard alpha _ => if near_zero alpha then Raise ValueError else Ok k  (* lines 56-59 *)
    | OGaussian sigma skip => Ok (OGaussian (at_least_eps sigma) skip)         (* line 190 *)
    | _ => Ok k
    end.

  (** The attribute [name]: numeric_kernels.py:54, 128, 186, 243, 310, 382, 430; categorical.py:43-46. *)
  Definition kernel_name (k : bkernel P) : string :=
    match k with
    | OHadamard _ _ => "Hadamard"
    | OPoly _ _ _ _ => "polynomial"
    | OGaussian _ _ => "gaussian"
    | OLaplacian _ _ => "laplacian"
    | OChi2 _ _ => "chi2"
    | OSigmoid _ _ _ => "sigmoid"
    | OLinear _ => "linear"
    | OMatch perc _ => if perc then "MatchPerc" else "MatchCount"
    end.

  (** [__str__]: numeric_kernels.py:79-82, 147-151, 205-208, 259-262, 334-337, 399-402, 443-446;
      categorical.py:80-83. [__repr__] and [__format__] call it (base.py:75-85). *)
  Definition kernel_str (k : bkernel P) : string :=
    kernel_name k ++
    match k with
    | OHadamard alpha _ => "(alpha=" ++ show alpha ++ ")"
    | OPoly degree gamma b _ =>
        "(degree=" ++ show degree ++ ",gamma=" ++ show gamma ++ ",b=" ++ show b ++ ")"
    | OGaussian sigma _ => "(sigma=" ++ show sigma ++ ")"
    | OLaplacian gamma _ => "(gamma=" ++ show gamma ++ ")"
    | OChi2 gamma _ => "(gamma=" ++ show gamma ++ ")"
    | OSigmoid gamma offset _ => "(gamma=" ++ show gamma ++ ",offset=" ++ show offset ++ ")"
    | OLinear _ => ""
    | OMatch _ _ => ""
    end.
End Names.

(** base.py:137-141 [KernelFromCallable.__str__]; [show_dict] is Python's [str] of a dict. *)
Definition kfc_str {A V} (show_dict : list (string * A) -> string) (k : kfc A V) : string :=
  kc_name k ++ (if Nat.ltb 0 (length (kc_params k)) then "(" ++ show_dict (kc_params k) ++ ")" else "").

(** What the constructor of KernelMatrix is given: a kernel function or something else, a bool or
    something else (also 0, 1, None or a numpy bool). *)
Inductive karg (K : Type) : Type := KAFunction (k : K) | KAOther.
Inductive narg : Type := NABool (b : bool) | NAOther.
Arguments KAFunction {K}. Arguments KAOther {K}.

(** base.py:197-203: the checks, in order. *)
Definition check_km_args {K} (k : karg K) (n : narg) : res (K * bool) :=
  match k with
  | KAOther => Raise TypeError
  | KAFunction f => match n with NAOther => Raise TypeError | NABool b => Ok (f, b) end
  end.
