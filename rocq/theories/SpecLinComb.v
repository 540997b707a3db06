(** Vocabulary for the linear combination of the members of a KernelSet. *)
From Coq Require Import String Reals List Arith Bool.
Import ListNotations.
From Verif Require Import Prelude MatModel KMModel SpecKM XReal SetModel KMXModel CompositeModel
  SpecComposite.

(** An n x m matrix, of any storage format. *)
Definition has_dims (n m : nat) (a : arr xr) : Prop := mr (amat a) = n /\ mc (amat a) = m.

(** [a] is an n x m matrix with the entries [f]. *)
Definition is_matrix2 (n m : nat) (f : nat -> nat -> xr) (a : arr xr) : Prop :=
  has_dims n m a /\ forall i j, i < n -> j < m -> xget (amat a) i j = f i j.

(** The matrices of a set with this num_samples are n x m. A set to which kernel matrices were added
    before they were attached has none. *)
Definition dims_of (num : numsamp) (n m : nat) : Prop :=
  (num = NSOne n /\ m = n) \/ num = NSTwo n m \/ num = NSNone.

(** Nothing that a program can observe of sets and of [full] has changed from [w] to [w']. *)
Definition undisturbed {E U} (w w' : world E xr U) : Prop :=
  w_sets w' = w_sets w /\
  forall l K, snd (obj_full xN l w) = Ok K -> snd (obj_full xN l w') = Ok K.

(** The kernel matrix at [l] is a KernelMatrix (not normalised, kernel value [k]) attached to one
    sample or two, with arbitrary operations before and no re-attachment, full_sparse or whole-matrix
    indexing since. *)
Definition attached_to {U} (n m d : nat) (x : ndarray xr) (y : option (ndarray xr)) (w : world xr xr U)
           (l : nat) (k : list xr -> list xr -> xr) : Prop :=
  exists (K : kernel xr xr) pre post,
    nth_error (w_objs w) l = Some (OKM (after xN K false pre x y post)) /\
    never_raises K k x y n m d /\ kfmt K = true /\ no_attach post /\
    no_full_sparse post /\ no_whole_index n m post.

(** The storage format of a combination of matrices of the formats [fs] for a set with this
    num_samples: a plain array if all are; sparse if all are and the set has no num_samples (so that the
    accumulation does not start with an array of zeros); a numpy.matrix otherwise. *)
Definition sum_format (num : numsamp) (fs : list fmt) (f : fmt) : Prop :=
  (f = Dense <-> Forall (eq Dense) fs) /\
  (f = Lil <-> num = NSNone /\ Forall (eq Lil) fs).
