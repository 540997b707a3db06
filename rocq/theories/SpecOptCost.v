(** Vocabulary for the kernel evaluations of buckets and of the optimal-kernel machines (C102). *)
From Coq Require Import String Reals List Arith ZArith Bool.
Import ListNotations.
From Verif Require Import Prelude MatModel KMModel SpecKM XReal SetModel SpecSet BucketModel AlgoModel.

(** The kernel calls the object at [l] has made so far (a copy starts with those of the original). *)
Definition calls_at {E V U} (w : world E V U) (l : nat) : nat :=
  match nth_error (w_objs w) l with Some (OKM s) => length (g_calls s) | _ => 0 end.

(** The calls the kernel matrices offered by the parameter k_bucket have made: those of the user's bucket,
    or none for a strategy, whose [q] kernel matrices are new. *)
Definition calls_offered {U Q} (v : option (oval Q)) (w : world xr xr U) (q : nat) (cs : list nat) : Prop :=
  match v with
  | Some (OVBucket b) => exists num ms, set_is w (b_set b) num ms /\ cs = map (calls_at w) ms
  | _ => cs = repeat 0 q
  end.
