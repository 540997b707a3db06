(** Vocabulary to state what a KernelMatrix warns about. *)
From Coq Require Import String List Arith Bool.
Import ListNotations.
From Verif Require Import Prelude MatModel IndexModel KMModel SpecKM SpecRef WarnModel.

(** The warnings issued by an operation, and by a sequence of operations whose exceptions are caught. *)
Definition warns {E V U} (N : numops V) (o : op E U) (s : km E V U) : list warning :=
  snd (fst (step_w N o (s, []))).
Definition all_warns {E V U} (N : numops V) (ops : list (op E U)) (s : km E V U) : list warning :=
  snd (run_w N ops (s, [])).

(** All entries are finite. *)
Definition all_finite {V} (N : numops V) (a : arr V) : Prop := mall (v_finite N) (amat a) = true.

(** A matrix is announced if it has an infinite or undefined entry; objects without format() cannot
    be part of the text. *)
Definition announced {V} (N : numops V) (formats : bool) (a : mat V) : list warning :=
  if formats && negb (mall (v_finite N) a) then [WKernelMatrix] else [].

(** Operations that return a whole matrix. *)
Definition gives_matrix {E U} (o : op E U) : Prop :=
  o = OpFull \/ o = OpFullSparse \/ o = OpNormedKM \/ o = OpGetItem colons.

(** Operations that normalise, with the method they use. *)
Definition normalising {E U} (nrm : bool) (o : op E U) (method : string) : Prop :=
  match o with
  | OpNormalize m => m = method
  | OpNormedKM => method = default_method
  | OpFull | OpFullSparse => nrm = true /\ method = default_method
  | _ => False
  end.

(** What the normalisation of one sample's n x n matrix [a] announces: [normalize_km] reports
    unexpected exceptions (not its own) and results that are not finite; these are reported a second
    time by the object. *)
Definition normalisation_warns {V} (N : numops V) (formats : bool) (method : string) (a : arr V)
  : list warning :=
  match op_normalize N method a with
  | Ok nk => if mall (v_finite N) (amat nk) then []
             else WNormalization :: (if formats then [WKernelMatrix] else [])
  | Raise e => match e with KMNormError | KernelMethodsError => [] | _ => [WUnableToNormalize] end
  end.
