(** Vocabulary for C113: the attributes a program has last assigned, and conversions of numbers. *)
From Coq Require Import List Arith ZArith Bool Reals.
Import ListNotations.
From Verif Require Import XReal ConstModel.
Local Open Scope Z_scope.

(** The value of the attributes after the operations [l], given the first ones. *)
Fixpoint last_num (n : Z) (l : list cop) : Z :=
  match l with [] => n | CSetNum m :: l' => last_num m l' | _ :: l' => last_num n l' end.
Fixpoint last_value (v : cval) (l : list cop) : cval :=
  match l with [] => v | CSetValue w :: l' => last_value w l' | _ :: l' => last_value v l' end.
Fixpoint last_dtype (d : option cdt) (l : list cop) : option cdt :=
  match l with [] => d | CSetDtype e :: l' => last_dtype e l' | _ :: l' => last_dtype d l' end.

(** Operations that use the full matrix; that write into it; that assign attributes. *)
Definition uses_full (o : cop) : Prop := match o with CFull | CWrite _ _ _ => True | _ => False end.
Definition writes (o : cop) : Prop := match o with CWrite _ _ _ => True | _ => False end.
Definition assigns (o : cop) : Prop := match o with CSetNum _ | CSetValue _ | CSetDtype _ => True | _ => False end.

(** [z] is [r] without its fraction. *)
Definition without_fraction (r : R) (z : Z) : Prop :=
  (0 <= r /\ IZR z <= r < IZR z + 1 \/ r < 0 /\ IZR z - 1 < r <= IZR z)%R.

(** Conversions that do not depend on rounding or on the processor. *)
Inductive converts : option cdt -> cval -> cval -> Prop :=
| cv_none : forall v, converts None v v
| cv_float : forall x, converts (Some TFloat) (VFloat x) (VFloat x)
| cv_float_int : forall z, Z.abs z <= 2 ^ 53 -> converts (Some TFloat) (VInt z) (VFloat (Fin (IZR z)))
| cv_float_bool : forall b, converts (Some TFloat) (VBool b) (VFloat (Fin (if b then 1 else 0)%R))
| cv_int : forall z, converts (Some TInt) (VInt z) (VInt z)
| cv_int_float : forall r z, without_fraction r z -> - 2 ^ 63 <= z < 2 ^ 63 -> converts (Some TInt) (VFloat (Fin r)) (VInt z)
| cv_int_bool : forall b, converts (Some TInt) (VBool b) (VInt (if b then 1 else 0))
| cv_bool : forall b, converts (Some TBool) (VBool b) (VBool b)
| cv_bool_int : forall z b, (b = true <-> z <> 0) -> converts (Some TBool) (VInt z) (VBool b)
| cv_bool_float : forall x b, (b = true <-> x <> Fin 0) -> converts (Some TBool) (VFloat x) (VBool b).
