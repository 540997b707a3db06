(** Calls of the numeric kernels on two 1-D arrays of any two numeric or boolean dtypes, with and
    without input validation (skip_input_checks). KernelsModel.v has float64 arrays with validation,
    IntModel.v two integer arrays of one dtype with validation. Parameters as in IntModel.v; conversions
    of integers to float64 are exact as there. *)
From Coq Require Import Reals List Bool Arith ZArith.
Import ListNotations.
From Verif Require Import Prelude MatModel KMModel XReal KernelsModel IntModel.
Local Open Scope Z_scope.

(** A 1-D array of dtype float64, of an integer dtype, or of dtype bool. *)
Inductive vec : Type :=
| VFloat (l : list xr)
| VInt (t : itype) (l : list Z)
| VBool (l : list bool).

Definition ofB (b : bool) : Z := if b then 1 else 0.

Definition vlen (v : vec) : nat :=
  match v with VFloat l => length l | VInt _ l => length l | VBool l => length l end.

(** [.astype(np.float64)] *)
Definition as_float (v : vec) : list xr :=
  match v with VFloat l => l | VInt _ l => map ofZ l | VBool l => map (fun b => ofZ (ofB b)) l end.

(** numpy's [result_type] of two integer dtypes; None stands for float64 (uint64 with a signed type). *)
Definition wrank (w : iwidth) : nat := match w with W8 => 0 | W16 => 1 | W32 => 2 | W64 => 3 end.
Definition wmax (v w : iwidth) : iwidth := if (wrank v <=? wrank w)%nat then w else v.
Definition wider (w : iwidth) : option iwidth :=
  match w with W8 => Some W16 | W16 => Some W32 | W32 => Some W64 | W64 => None end.
Definition promote (s t : itype) : option itype :=
  match i_signed s, i_signed t with
  | true, false => option_map (fun w => mkIt (wmax (i_width s) w) true) (wider (i_width t))
  | false, true => option_map (fun w => mkIt (wmax (i_width t) w) true) (wider (i_width s))
  | b, _ => Some (mkIt (wmax (i_width s) (i_width t)) b)
  end.

(** The operands of a binary ufunc or of [np.dot], converted to their common dtype. *)
Inductive operands : Type :=
| PFloat (x y : list xr)
| PInt (t : itype) (x y : list Z)
| PBool (x y : list bool).

Definition common (x y : vec) : operands :=
  match x, y with
  | VInt s a, VInt t b =>
      match promote s t with Some p => PInt p a b | None => PFloat (map ofZ a) (map ofZ b) end
  | VInt t a, VBool b => PInt t a (map ofB b)
  | VBool a, VInt t b => PInt t (map ofB a) b
  | VBool a, VBool b => PBool a b
  | _, _ => PFloat (as_float x) (as_float y)
  end.

(** Broadcasting of two 1-D arrays: equal lengths, or one of length 1; otherwise ValueError. *)
Definition bcast {A B} (x : list A) (y : list B) : res (list A * list B) :=
  if (length x =? length y)%nat then Ok (x, y) else
  match x, y with
  | [a], _ => Ok (repeat a (length y), y)
  | _, [b] => Ok (x, repeat b (length x))
  | _, _ => Raise ValueError
  end.

(** [np.dot(x, y)] and [x.dot(y.T)] of 1-D arrays: no broadcasting; on booleans a disjunction of
    conjunctions. *)
Definition vdot (x y : vec) : res xr :=
  if (vlen x =? vlen y)%nat
  then Ok (match common x y with
           | PFloat a b => xdot a b
           | PInt t a b => ofZ (idot t a b)
           | PBool a b => ofZ (ofB (existsb (fun p => fst p && snd p) (combine a b)))
           end)
  else Raise ValueError.

(** [x - y]: numpy refuses to subtract booleans. [x + y] of booleans is a disjunction. *)
Definition vsub (x y : vec) : res vec :=
  match common x y with
  | PFloat a b => res_map (fun p => VFloat (zip xsub (fst p) (snd p))) (bcast a b)
  | PInt t a b => res_map (fun p => VInt t (zip (isub t) (fst p) (snd p))) (bcast a b)
  | PBool _ _ => Raise TypeError
  end.
Definition vadd (x y : vec) : res vec :=
  match common x y with
  | PFloat a b => res_map (fun p => VFloat (zip xadd (fst p) (snd p))) (bcast a b)
  | PInt t a b => res_map (fun p => VInt t (zip (iadd t) (fst p) (snd p))) (bcast a b)
  | PBool a b => res_map (fun p => VBool (zip orb (fst p) (snd p))) (bcast a b)
  end.

(** [np.sum(np.abs(d))] and [np.power(d, 2)] of a difference, which is never boolean. *)
Definition vsumabs (d : vec) : xr :=
  match d with
  | VFloat l => xsum (map xabs l)
  | VInt t l => ofZ (isum t (map (iabs t) l))
  | VBool l => xsum (map xabs (as_float d))
  end.
Definition vsquare (d : vec) : vec :=
  match d with
  | VFloat l => VFloat (map (fun a => xmul a a) l)
  | VInt t l => VInt t (map (fun a => ipow t a 2) l)
  | VBool l => VBool l
  end.

(** [(x < 0).any()] *)
Definition vneg (x : vec) : bool :=
  match x with
  | VFloat l => existsb (fun v => xltb v (Fin 0)) l
  | VInt _ l => existsb (fun v => v <? 0) l
  | VBool _ => false
  end.

(** [np.power(np.abs(x), alpha)] with an integer alpha >= 1; the power of a boolean array has dtype
    int64. *)
Definition vpowabs (alpha : nat) (x : vec) : vec :=
  match x with
  | VFloat l => VFloat (map (fun v => xpower (xabs v) (INR alpha)) l)
  | VInt t l => VInt t (map (fun v => ipow t (iabs t v) alpha) l)
  | VBool l => VInt (mkIt W64 true) (map (fun v => ipow (mkIt W64 true) (ofB v) alpha) l)
  end.

(** numeric_kernels.py:73-76 on the powers. The boolean mask has the broadcast length; indexing an
    array of another length with it raises IndexError. *)
Definition vhadamard (ax ay : vec) : res xr :=
  let masked {A} (a b : list A) (v : xr) : res xr :=
    rbind (bcast a b) (fun _ => if (length a =? length b)%nat then Ok v else Raise IndexError) in
  match common ax ay with
  | PFloat a b =>
      masked a b (xsum (map (fun p => xdiv (fst p) (snd p)) (filter (fun p => xltb (Fin 0) (snd p))
                    (zip (fun u v => (xmul u v, xmul (Fin 2) (xadd u v))) a b))))
  | PInt t a b =>
      masked a b (xsum (map (fun p => xdiv (ofZ (fst p)) (ofZ (snd p))) (filter (fun p => 0 <? snd p)
                    (zip (fun u v => (imul t u v, imul t 2 (iadd t u v))) a b))))
  | PBool _ _ => Raise TypeError (* the powers are never boolean *)
  end.

(** The bodies of the __call__ methods after the validation: numeric_kernels.py:70-76, 144, 202, 256,
    323-331, 396, 440. *)
Definition kernel_body (k : ikernel) (x y : vec) : res xr :=
  match k with
  | IHadamard alpha => vhadamard (vpowabs alpha x) (vpowabs alpha y)
  | IPoly degree gamma b => res_map (fun s => xpow (xadd (Fin b) (xmul (Fin gamma) s)) degree) (vdot x y)
  | IGaussian sigma =>
      res_map (fun d => let nrm := xnorm2 (as_float d) in
                        xexp (xmul (xopp (gaussian_gamma sigma)) (xmul nrm nrm))) (vsub x y)
  | ILaplacian gamma => res_map (fun d => xexp (xmul (Fin (- gamma)) (vsumabs d))) (vsub x y)
  | IChi2 gamma =>
      if vneg x || vneg y then Raise Chi2NegativeValues
      else rbind (vsub x y) (fun d => res_map (fun s =>
             xexp (xmul (Fin (- gamma)) (xnansum (zip xdiv (as_float (vsquare d)) (as_float s)))))
             (vadd x y))
  | ISigmoid gamma offset => res_map (fun s => xtanh (xadd (Fin offset) (xmul (Fin gamma) s))) (vdot x y)
  | ILinear => vdot x y
  end.

(** [check_input_arrays] on a 1-D array (utils.py:60-100): everything is converted to float64 for
    Chi2Kernel, only booleans (not a subtype of np.number) for the others. *)
Definition validated (k : ikernel) (x : vec) : vec :=
  match k, x with
  | IChi2 _, _ => VFloat (as_float x)
  | _, VBool _ => VFloat (as_float x)
  | _, _ => x
  end.

(** [kernel(x, y)]; numeric_kernels.py:67-68, 141-142, 199-200, 253-254, 320-321, 393-394, 437-438. *)
Definition kernel_vec (skip : bool) (k : ikernel) (x y : vec) : res xr :=
  if skip then kernel_body k x y
  else if (vlen x =? vlen y)%nat then kernel_body k (validated k x) (validated k y)
  else Raise ValueError.

(** ** Inside a KernelMatrix *)

(** An element of a sample with its dtype (samples of a KernelMatrix keep their dtype, base.py:251,
    266), and the row of such a sample, all elements of which have one dtype. *)
Inductive elt : Type := EF (v : xr) | EI (t : itype) (z : Z) | EB (b : bool).
Definition elt_xr (e : elt) : xr :=
  match e with EF v => v | EI _ z => ofZ z | EB b => ofZ (ofB b) end.
Definition elt_Z (e : elt) : Z := match e with EI _ z => z | EB b => ofB b | EF _ => 0 end.
Definition elt_bool (e : elt) : bool := match e with EB b => b | _ => false end.
Definition row_vec (l : list elt) : vec :=
  match l with
  | EI t _ :: _ => VInt t (map elt_Z l)
  | EB _ :: _ => VBool (map elt_bool l)
  | _ => VFloat (map elt_xr l)
  end.

Definition builtin_vec (skip : bool) (k : ikernel) : kernel elt xr :=
  mkKernel (fun _ x y => kernel_vec skip k (row_vec x) (row_vec y)) true.
