(** Model of the textual representations: [__str__], [__repr__] and [__format__] of the classes of
    base.py. *)
From Coq Require Import String Ascii List Arith Bool DecimalString Decimal.
Import ListNotations.
From Verif Require Import Prelude MatModel UtilsModel IndexModel KMModel CallableModel.
Local Open Scope string_scope.

Definition newline : string := String (ascii_of_nat 10) EmptyString.
Definition tab : string := String (ascii_of_nat 9) EmptyString.

(** [str] of an int, of a tuple of ints of length at least two, and of a bool. *)
Definition show_nat (n : nat) : string := NilZero.string_of_uint (Nat.to_uint n).
Definition show_tuple (l : list nat) : string := "(" ++ String.concat ", " (map show_nat l) ++ ")".
Definition show_bool (b : bool) : string := if b then "True" else "False".
Definition show_numsamp (n : numsamp) : string :=
  match n with
  | NSNone => "None"
  | NSOne n => show_nat n
  | NSTwo n m => show_tuple [n; m]
  end.

(** A KernelMatrix with what is printed of it: its name, [str] of its kernel, and the attribute
    [_sample_descr] (absent until an attach_to has run to its end). *)
Record pkm (E V U : Type) : Type := mkPKM {
  p_km : km E V U; p_kname : string; p_kernel : string; p_descr : option string
}.
Arguments mkPKM {E V U}.
Arguments p_km {E V U} p.
Arguments p_kname {E V U} p.
Arguments p_kernel {E V U} p.
Arguments p_descr {E V U} p.

(** One method call; the two names matter for attach_to only ([str] of name_one, name_two). *)
Definition pact (E U : Type) : Type := (op E U * string * string)%type.

Section Print.
  Context {E V U : Type}.
  Variable N : numops V.

  (** base.py:261-263, 277-280: the description is assigned just before the final [_reset], which
      cannot raise, so exactly when attach_to returns. *)
  Definition describe (x : ndarray E) (name_one : string) (y : option (ndarray E)) (name_two : string)
    : string :=
    match y with
    | None => name_one ++ " " ++ show_tuple (nd_shape x)
    | Some y' => name_one ++ " " ++ show_tuple (nd_shape x) ++ " x " ++ name_two ++ " " ++ show_tuple (nd_shape y')
    end.

  Definition pstep (a : pact E U) (s : pkm E V U) : pkm E V U * res (out V U) :=
    let '(o, n1, n2) := a in
    let '(s', r) := step N o (p_km s) in
    let d := match o, r with
             | OpAttach _ y, Ok _ =>
                 match k_sample s', k_sample_two s' with
                 | Some x', Some y' => Some (describe x' n1 (if is_some y then Some y' else None) n2)
                 | _, _ => p_descr s
                 end
             | _, _ => p_descr s
             end in
    (mkPKM s' (p_kname s) (p_kernel s) d, r).

  Fixpoint prun (acts : list (pact E U)) (s : pkm E V U) : pkm E V U :=
    match acts with [] => s | a :: acts' => prun acts' (fst (pstep a s)) end.

  (** base.py:205-214: a new object. *)
  Definition p_new (K : kernel E V) (nrm : bool) (name kstr : string) : pkm E V U :=
    mkPKM (km_new K nrm []) name kstr None.

  (** base.py:763-772 [KernelMatrix.__str__]. *)
  Definition km_str (s : pkm E V U) : res string :=
    let t := p_kname s ++ ": " ++ p_kernel s in
    match k_sample (p_km s) with
    | None => Ok t
    | Some _ =>
        match p_descr s with
        | None => Raise AttributeError
        | Some d => Ok (t ++ " (normed=" ++ show_bool (k_keep_normed (p_km s)) ++ ") on " ++ d)
        end
    end.
End Print.

(** [map(str, ...)] joined: the first member that raises stops it. *)
Fixpoint all_strings (l : list (res string)) : res (list string) :=
  match l with
  | [] => Ok []
  | r :: l' => rbind r (fun t => rbind (all_strings l') (fun ts => Ok (t :: ts)))
  end.

(** base.py:1241-1246 [KernelSet.__str__]; [members] are the results of [str] on the members. *)
Definition set_str (name : string) (ns : numsamp) (members : list (res string)) : res string :=
  rbind (all_strings members) (fun ts =>
    Ok (name ++ "(" ++ show_nat (length members) ++ " kernels, " ++ show_numsamp ns ++ " samples):"
        ++ newline ++ tab ++ String.concat (newline ++ tab) ts ++ " ")).

(** base.py:1427-1430 [__str__] of the composites. *)
Definition composite_str (name : string) (set : res string) : res string :=
  rbind set (fun t => Ok (name ++ "-->" ++ t)).

(** base.py:858-861, 1027-1031 [__str__] of precomputed and constant matrices ([value]: [str] of the
    constant). *)
Definition precomputed_str (name : string) (n : nat) : res string :=
  Ok (name ++ "(num_samples=" ++ show_nat n ++ ")").
Definition constant_str (name value : string) (n : nat) : res string :=
  Ok (name ++ "(value=" ++ value ++ ",size=" ++ show_nat n ++ ")").

(** The classes and the parameters of their [__format__]: BaseKernelFunction defines
    [__format__(self, _)] (base.py:76); the others alias [__format__ = __str__]
    (base.py:145, 776, 865, 1035, 1250, 1434), a method of one parameter. *)
Inductive pycls : Type :=
| ClsBuiltinKernel | ClsFromCallable | ClsKernelMatrix | ClsPrecomputed | ClsConstant | ClsKernelSet
| ClsComposite.
Definition format_params (c : pycls) : list param :=
  match c with
  | ClsBuiltinKernel => [mkParam "self" PosOrKw false; mkParam "_" PosOrKw false]
  | _ => [mkParam "self" PosOrKw false]
  end.

(** [format(obj, spec)], also ['{}'.format(obj)] and f-strings: the call of [__format__] with the object
    and the format specification; [str_result] is what [str(obj)] does. *)
Definition format_obj (c : pycls) (str_result : res string) : res string :=
  rbind (bind_call (format_params c) [tt; tt] []) (fun _ => str_result).
