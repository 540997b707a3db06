(** The categorical kernel (categorical.py) as the kernel of a KernelMatrix. *)
From Coq Require Import String Reals List Bool Arith.
Import ListNotations.
From Verif Require Import Prelude MatModel UtilsModel KMModel XReal KernelsModel.

(** A [MatchCountKernel(return_perc)] object in a KernelMatrix attached to samples of strings:
    base.py:563-583 passes two rows, which are 1-D arrays of the dtype of the sample (attach_to
    keeps it, base.py:251,266), to categorical.py:55-77. It has a [__str__] and inherits object's
    [__format__], so format() works. Strings are compared as unicode strings. *)
Definition categorical (return_perc : bool) : kernel string xr :=
  mkKernel (fun _ u v => match_call String.eqb return_perc DStr (mkNd [length u] u) DStr (mkNd [length v] v))
           true.
