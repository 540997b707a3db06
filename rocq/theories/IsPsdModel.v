(** Model of BaseKernelFunction.is_psd (base.py:60-68). *)
From Coq Require Import String Reals List Bool Arith.
Import ListNotations.
From Verif Require Import Prelude MatModel UtilsModel KMModel XReal OpsModel KernelsModel KMXModel.

(** The default of [tolerance], operations.py:29. *)
Definition psd_tolerance : R := (1 / 1000000)%R.

(** base.py:60-68 [is_psd] of a kernel whose values are numbers; [sample] is the random sample drawn
    ([np.random.rand(50, 4)]). *)
Definition is_psd (eigvalsh : mat xr -> res (list xr)) (K : kernel xr xr) (sample : ndarray xr) : res bool :=
  snd ((attach_to (U:=unit) sample None ;;;
        a <- full xN ;;
        lift (is_PSD eigvalsh a psd_tolerance)) (km_new K true [])).

(** A MatchCountKernel as the kernel of a KernelMatrix over samples of dtype [dt] with elements
    compared by [ceqb] (categorical.py:55-77). *)
Definition match_kernel {E} (ceqb : E -> E -> bool) (return_perc : bool) (dt : dtype) : kernel E xr :=
  mkKernel (fun _ u v => match_call ceqb return_perc dt (mkNd [length u] u) dt (mkNd [length v] v)) true.
