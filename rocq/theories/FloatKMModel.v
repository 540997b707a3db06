(** KernelMatrix (KMModel.v) over double precision arithmetic with rounding (FloatModel.v,
    FloatOpsModel.v), and is_PSD / is_psd on top of it; KMXModel.v, OpsModel.v and IsPsdModel.v are the same
    over exact numbers. *)
From Coq Require Import String ZArith List Bool Arith Floats.SpecFloat.
Import ListNotations.
From Verif Require Import Prelude MatModel UtilsModel KMModel KernelsModel FloatModel FloatOpsModel.
Local Open Scope nat_scope.

(** [A[i, j]] *)
Definition fget (A : mat f64) (i j : nat) : f64 := mget S754_nan A i j.

(** [KM.diagonal()], operations.py:178. *)
Definition fdiagonal_of (A : mat f64) : list f64 := map (fun i => fget A i i) (seq 0 (Nat.min (mr A) (mc A))).

(** [np.isclose(v, 0.0).any()], operations.py:179, 247-248. *)
Definition fany_zero (v : list f64) : bool := existsb (fun x => fisclose x fzero) v.

(** [1 / np.sqrt(diag)], operations.py:186, 255-256. *)
Definition finv_sqrt (v : list f64) : list f64 := map (fun x => fdiv fone (fsqrt x)) v.

(** [np.diagflat(v)] *)
Definition fdiag (v : list f64) (i j : nat) : f64 := if Nat.eqb i j then nth i v S754_nan else fzero.

(** Entries that a lil_matrix stores. *)
Definition fnonzero (x : f64) : bool := negb (match x with S754_zero _ => true | _ => false end).

Section FloatKM.
  Variable e : platform.

  (** [diagflat(u) @ KM @ diagflat(v)], operations.py:188, 258. With a sparse KM only its stored entries
      enter the sums of the first product. *)
  Definition fscale_both (u v : list f64) (a : arr f64) : arr f64 :=
    let A := fget (amat a) in
    let ks j := match afmt a with
                | Lil => filter (fun k => fnonzero (A k j)) (seq 0 (length u))
                | _ => seq 0 (length u)
                end in
    let left i j := e_acc e (map (fun k => fmul (fdiag u i k) (A k j)) (ks j)) in
    mkArr (match afmt a with Lil => Dense | f => f end)
          (tabulate (length u) (length v)
             (fun i j => e_acc e (map (fun k => fmul (left i k) (fdiag v k j)) (seq 0 (length v))))).

  (** operations.py:144-204 [normalize_km]. *)
  Definition fnormalize_km (method : string) (a : arr f64) : res (arr f64) :=
    if negb (mr (amat a) =? mc (amat a)) then Raise ValueError
    else if String.eqb (lower method) "cosine" then
      let km_diag := fdiagonal_of (amat a) in
      if fany_zero km_diag then Raise KMNormError
      else Ok (fscale_both (finv_sqrt km_diag) (finv_sqrt km_diag) a)
    else Raise NotImplementedErr.

  (** operations.py:207-263 [normalize_km_2sample]. *)
  Definition fnormalize_km_2sample (method : string) (a : arr f64) (dx dy : list f64) : res (arr f64) :=
    if negb (length dx =? mr (amat a)) || negb (mc (amat a) =? length dy) then Raise ValueError
    else if String.eqb (lower method) "cosine" then
      if fany_zero dx || fany_zero dy then Raise KMNormError
      else Ok (fscale_both (finv_sqrt dx) (finv_sqrt dy) a)
    else Raise NotImplementedErr.

  (** operations.py:104-141 [center_km]. *)
  Definition fcenter_km (a : arr f64) : res (arr f64) :=
    if is_ndarray a then
      if mr (amat a) =? mc (amat a) then
        Ok (mkArr (afmt a) (tabulate (mr (amat a)) (mr (amat a)) (fcenter e (mr (amat a)) (fget (amat a)))))
      else Raise ValueError
    else Raise ValueError.

  (** operations.py:266-311 [frobenius_norm]; for a sparse matrix it is the entries of the matrix product
      that are added up (see frobenius_product in OpsModel.v). *)
  Definition ffrob_norm (a : arr f64) : res f64 :=
    let A := fget (amat a) in
    let n := mr (amat a) in
    if is_sparse a then
      if n =? mc (amat a) then
        let P i j := e_acc e (map (fun k => fmul (A i k) (A k j))
                                  (filter (fun k => fnonzero (A i k) && fnonzero (A k j)) (seq 0 n))) in
        Ok (fsqrt (e_sum e (map (fun i => e_acc e (map (P i) (seq 0 n))) (seq 0 n))))
      else Raise ValueError
    else Ok (ffrobenius_norm e n (mc (amat a)) A).

  (** What base.py imports from operations.py at lines 19-21, as in KMXModel.v. *)
  Definition fN : numops f64 :=
    mkNumops S754_nan fzero f_isfinite fnormalize_km
             (fun a dx dy => fnormalize_km_2sample "cosine" a dx dy) fcenter_km ffrob_norm.

  (** A built-in numeric kernel on two rows (check_input_arrays, utils.py:31-38: of rows, only the sizes
      are to be compared). *)
  Definition fkernel_rows (k : fkernel) (x y : list f64) : res f64 :=
    if Nat.eqb (length x) (length y) then fkernel_value e k x y else Raise ValueError.

  (** ... as the kernel of a KernelMatrix (base.py:195-199). *)
  Definition fbuiltin (k : fkernel) : kernel f64 f64 := mkKernel (fun _ u v => fkernel_rows k u v) true.
End FloatKM.

(** operations.py:28-101 [is_positive_semidefinite]; [eigvalsh] is scipy's eigh (see OpsModel.v). *)
Definition fis_PSD (eigvalsh : mat f64 -> res (list f64)) (a : arr f64) (tol : f64) : res bool :=
  if negb (is_ndarray a) then Raise TypeError
  else if negb (mr (amat a) =? mc (amat a)) then Ok false
  else if fnot_symmetric (mr (amat a)) (fget (amat a)) then Ok false
  else match eigvalsh (amat a) with
       | Raise _ => Ok false
       | Ok l => Ok (negb (existsb (fun v => fltb v (fopp tol)) l))
       end.

(** The default of [tolerance], the double 1e-6 (operations.py:29). *)
Definition f_psd_tolerance : f64 := S754_finite false 4722366482869645 (-72).

(** base.py:60-68 [is_psd]. *)
Definition fis_psd (e : platform) (eigvalsh : mat f64 -> res (list f64)) (K : kernel f64 f64)
                   (sample : ndarray f64) : res bool :=
  snd ((attach_to (U:=unit) sample None ;;;
        a <- full (fN e) ;;
        lift (fis_PSD eigvalsh a f_psd_tolerance)) (km_new K true [])).
