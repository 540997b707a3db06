(** Vocabulary for a KernelMatrix used while warnings are turned into exceptions. *)
From Coq Require Import String List Arith Bool.
Import ListNotations.
From Verif Require Import Prelude MatModel IndexModel KMModel SpecKM SpecRef WarnModel SpecWarn StrictModel.

(** The outcome of an operation under a filter. *)
Definition outcome_e {E V U} (N : numops V) (wexn : warning -> exn) (f : filter) (o : op E U) (s : km E V U)
  : res (out V U) := snd (step_e N wexn f o s).

(** The filters that turn nothing, and everything, into exceptions. *)
Definition lenient : filter := fun _ => false.
Definition severe : filter := fun _ => true.

(** The object after a history under filters: anything at first, then samples are attached, then
    anything. *)
Definition after_e {E V U} (N : numops V) (wexn : warning -> exn) (K : kernel E V) (nrm : bool)
    (pre : list (filter * op E U)) (x : ndarray E) (y : option (ndarray E)) (post : list (filter * op E U))
  : km E V U :=
  run_e N wexn (pre ++ (lenient, OpAttach x y) :: post) (km_new K nrm []).

(** The outcome of a request of the whole matrix [a] of a kernel object that supports format() or not,
    under the filter [f], if the request is the first one. *)
Definition first_outcome {V U} (N : numops V) (wexn : warning -> exn) (f : filter) (formats : bool) (a : arr V)
  : res (out V U) :=
  if mall (v_finite N) (amat a) then Ok (OArr a)
  else if negb formats then Raise TypeError
  else if f WKernelMatrix then Raise (wexn WKernelMatrix) else Ok (OArr a).

(** The exceptions for warnings are not those the rest of the code raises. *)
Definition own_exceptions (wexn : warning -> exn) : Prop :=
  forall w, wexn w <> TypeError.
