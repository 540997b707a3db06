(** Vocabulary to state properties of OptimalKernelSVC and OptimalKernelSVR. *)
From Coq Require Import String Reals List Arith ZArith Bool.
Import ListNotations.
From Verif Require Import Prelude MatModel KMModel SpecKM XReal OpsModel KernelsModel KMXModel SpecKMX SetModel
  SpecSet BucketModel SpecBucket RankModel SpecRank AlgoModel SpecAlgo.

(** The kernels of a strategy: the documented contents of the bucket. *)
Definition strategy_kernels (s : string) : option (list nkernel) :=
  if String.eqb (lower s) "exhaustive" then Some exhaustive_kernels
  else if String.eqb (lower s) "light" then Some light_kernels
  else if String.eqb (lower s) "linear_only" then Some [KLinear]
  else None.

Section SpecOpt.
  Context {U Q : Type}.
  Notation Heap := (world xr xr U).

  (** The object at [l] is a KernelMatrix of the kernel [K], normalised or not. *)
  Definition matrix_of (w : Heap) (l : nat) (K : kernel xr xr) (nrm : bool) : Prop :=
    exists pre, nth_error (w_objs w) l = Some (OKM (before xN K nrm pre)).

  (** What the parameter k_bucket offers to the search: the kernels (and whether they are normalised)
      of the user's bucket, whose num_samples is [num], or those of the strategy. *)
  Definition offers (v : option (oval Q)) (w : Heap) (num : numsamp) (Ks : list (kernel xr xr * bool)) : Prop :=
    match v with
    | Some (OVBucket b) =>
        exists ms, set_is w (b_set b) num ms /\ Forall2 (fun l K => matrix_of w l (fst K) (snd K)) ms Ks
    | Some (OVStr s) =>
        num = NSNone /\
        exists ks, strategy_kernels s = Some ks /\ Ks = map (fun k => (builtin k, true)) ks
    | _ => False
    end.

  (** Everything that existed in [w] is as it was. *)
  Definition untouched (w w' : Heap) : Prop := objects_kept w w' /\ sets_kept w w'.

End SpecOpt.

(** [G] is the matrix of the kernel, normalised or not, on the n points [x]; what there is to get for
    the n' points [z] against the n points [x] (the matrix, or the failure of its normalisation). *)
Definition has_gram (x : ndarray xr) (n d : nat) (K : kernel xr xr * bool) (G : arr xr) : Prop :=
  exists v, never_raises (fst K) v x None n n d /\ kfmt (fst K) = true /\ gram (snd K) v n d x = Ok G.
Definition has_cross (z x : ndarray xr) (n' n d : nat) (K : kernel xr xr * bool) (G : res (arr xr)) : Prop :=
  exists v, never_raises (fst K) v z (Some x) n' n d /\ kfmt (fst K) = true /\ cross_gram (snd K) v n' n d z x = G.

Section OReturns.
  Context {U XIn YIn W Y F P Q : Type}.
  Variable S : sklearn XIn YIn W Y F P.
  Variable self_fit : svm_self Q -> F -> arr xr -> Y -> W -> F * res unit.
  Variable self_predict : svm_self Q -> F -> arr xr -> res P.
  Variable numbers : Y -> res (list xr).
  Variable best_score : svm * list R -> Z -> arr xr -> Y -> res xr.
  Variable numeric : list xr -> bool.
  Variable C : cmpops xr.

  (** The outcome of an operation, in a state of estimator and heap. *)
  Definition oreturned (op : oop XIn YIn W Q) (s : optimal Y F Q * world xr xr U) : res (oout P Q) :=
    snd (ostep S self_fit self_predict numbers best_score numeric C op s).

  (** Nothing but predictions and reading of parameters; no call of fit. *)
  Definition only_oreads (os : list (oop XIn YIn W Q)) : Prop :=
    forall o, In o os -> match o with OPredict _ | OGet => True | _ => False end.
  Definition no_ofit (os : list (oop XIn YIn W Q)) : Prop :=
    forall o, In o os -> match o with OFit _ _ _ => False | _ => True end.
  Definition no_oset (os : list (oop XIn YIn W Q)) : Prop :=
    forall o, In o os -> match o with OSet _ => False | _ => True end.
End OReturns.
