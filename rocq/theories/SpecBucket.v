(** Vocabulary to state properties of kernel buckets. *)
From Coq Require Import String Reals List Arith ZArith.
Import ListNotations.
From Verif Require Import Prelude MatModel KMModel XReal KernelsModel KMXModel SetModel SpecSet BucketModel.

(** The kernels that could be constructed, in order. *)
Fixpoint built {A} (l : list (res A)) : list A :=
  match l with
  | [] => []
  | Ok K :: l' => K :: built l'
  | Raise _ :: l' => built l'
  end.

(** [values] are acceptable and give the kernels [Ks]. *)
Definition gives (values : bvalues) (Ks : list (kernel xr xr)) : Prop :=
  match values with
  | BNone => Ks = []
  | BIter l => l <> [] /\ Ks = built l
  | BNotIterable | BNoLen => False
  end.

Definition unacceptable (values : bvalues) : Prop :=
  values = BNotIterable \/ values = BNoLen \/ values = BIter [].

Section SpecBucket.
  Context {U : Type}.
  Notation World := (world xr xr U).

  (** The locations [ms] hold, in [w'], KernelMatrix objects created since [w], one for each of the
      kernels [Ks], normalised or not, not attached to any sample, without attributes. *)
  Definition new_matrices (w w' : World) (nrm : bool) (ms : list nat) (Ks : list (kernel xr xr)) : Prop :=
    Forall2 (fun l K => nth_error (w_objs w') l = Some (OKM (km_new K nrm []))) ms Ks /\
    NoDup ms /\ forall l, In l ms -> nth_error (w_objs w) l = None.

  (** [m] returns a bucket, new and not attached, with new kernel matrices for [Ks] as members;
      nothing that existed before is touched. *)
  Definition makes_bucket (m : M World bucket) (w : World) (nrm : bool) (Ks : list (kernel xr xr)) : Prop :=
    exists b ms, snd (m w) = Ok b /\ b_norm b = nrm /\ nth_error (w_sets w) (b_set b) = None /\
      set_is (fst (m w)) (b_set b) NSNone ms /\ new_matrices w (fst (m w)) nrm ms Ks /\
      objects_kept w (fst (m w)) /\ sets_kept w (fst (m w)).
End SpecBucket.

(** The documented contents of the three strategies (docstring of KernelBucket and the ranges of
    config.py: powers of two with odd exponents from -5 to 5, or from -3 to 1, or from -3 to 5). *)
Definition two_pow (e : Z) : R := powerRZ 2 e.
Definition exhaustive_kernels : list nkernel :=
  KLinear ::
  map (fun d => KPoly d 1 1) [2; 3; 4] ++
  map (fun e => KGaussian (Fin (two_pow e))) [-5; -3; -1; 1; 3; 5]%Z ++
  map (fun e => KLaplacian (two_pow e)) [-5; -3; -1; 1; 3; 5]%Z ++
  map (fun e => KSigmoid (two_pow e) 1) [-5; -3; -1; 1; 3; 5]%Z ++
  map (fun o => KSigmoid 1 o) [-2; 1; 2]%R.
Definition light_kernels : list nkernel :=
  KLinear ::
  map (fun d => KPoly d 1 1) [2; 3] ++
  map (fun e => KGaussian (Fin (two_pow e))) [-3; -1; 1]%Z ++
  map (fun e => KLaplacian (two_pow e)) [-3; -1; 1]%Z ++
  map (fun e => KSigmoid (two_pow e) 1) [-3; -1; 1; 3; 5]%Z ++
  map (fun o => KSigmoid 1 o) [1]%R.
