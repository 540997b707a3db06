(** KernelMatrix (KMModel.v) over the library's own arithmetic (OpsModel.v) and built-in numeric
    kernels (KernelsModel.v). *)
From Coq Require Import String Reals List Bool Arith.
Import ListNotations.
From Verif Require Import Prelude MatModel KMModel XReal OpsModel KernelsModel.

(** The functions of operations.py that base.py imports at lines 19-21:
    normalize_km (base.py:486), normalize_km_2sample, always with its default method
    (base.py:499-501), center_km (base.py:458), frobenius_norm (base.py:531). *)
Definition xN : numops xr :=
  mkNumops NaN (Fin 0) x_isfinite normalize_km
           (fun a dx dy => normalize_km_2sample "cosine" a dx dy) center_km frobenius_norm.

(** A built-in numeric kernel object as the kernel of a KernelMatrix (base.py:195-199). *)
Definition builtin (k : nkernel) : kernel xr xr := mkKernel (fun _ u v => kernel_rows k u v) true.

(** The same, but the call number [t0] is interrupted (KeyboardInterrupt, MemoryError, ...). *)
Definition interrupted (t0 : nat) (k : nkernel) : kernel xr xr :=
  mkKernel (fun t u v => if t =? t0 then Raise (Custom 0) else kernel_rows k u v) true.
