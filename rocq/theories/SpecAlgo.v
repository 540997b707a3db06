(** Vocabulary to state properties of the estimators. *)
From Coq Require Import String Reals List Arith ZArith Bool.
Import ListNotations.
From Verif Require Import Prelude MatModel KMModel SpecKM XReal OpsModel KMXModel SetModel SpecSet BucketModel
  RankModel SpecRank AlgoModel.

(** The matrix of kernel values between the n test points [z] and the m training points [x],
    normalised by the self-similarities of both or not. *)
Definition cross_gram (nrm : bool) (k : list xr -> list xr -> xr) (n m d : nat) (z x : ndarray xr)
  : res (arr xr) :=
  let K := mkArr Dense (kernel_matrix k n m d z (Some x)) in
  if nrm
  then normalize_km_2sample "cosine" K (map (fun i => k (row_of d z i) (row_of d z i)) (seq 0 n))
                                       (map (fun j => k (row_of d x j) (row_of d x j)) (seq 0 m))
  else Ok K.

Section SpecAlgo.
  Context {XIn YIn W Y F P : Type}.
  Variable S : sklearn XIn YIn W Y F P.

  (** The validated training data: floating-point targets for regressors. *)
  Definition validated (regressor : bool) (X : XIn) (y : YIn) (x : ndarray xr) (ys : Y) : Prop :=
    if regressor
    then exists y0, sk_check_X_y S true X y = Ok (x, y0) /\ sk_float S y0 = Ok ys
    else sk_check_X_y S false X y = Ok (x, ys).

  (** The outcome of the last operation of a program. *)
  Definition returned (o : mop XIn YIn W) (m : machine Y F) : res (mout P) := snd (mstep S o m).

  (** Nothing but predictions and reading of parameters. *)
  Definition only_reads (os : list (mop XIn YIn W)) : Prop :=
    forall o, In o os -> match o with MPredict _ | MGet | MElsewhere _ => True | _ => False end.
  Definition no_fit (os : list (mop XIn YIn W)) : Prop :=
    forall o, In o os -> match o with MFit _ _ _ => False | _ => True end.
End SpecAlgo.

(** The value of a keyword argument, or else the old value. *)
Definition given {A} (ps : list (string * A)) (n : string) (old : A) : A :=
  match dict_get ps n with Some v => v | None => old end.
