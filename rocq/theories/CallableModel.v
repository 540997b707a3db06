(** Model of KernelFromCallable (base.py:88-146) with check_callable (utils.py:103-116), together with
    the rules by which Python binds the arguments of a call to the parameters of a function.
    Values are of an arbitrary type [A]; nothing else is assumed of the callables. *)
From Coq Require Import String List Arith Bool.
Import ListNotations.
From Verif Require Import Prelude UtilsModel.
Local Open Scope string_scope.
Local Open Scope list_scope.

(** The kinds of parameters of a Python function ([inspect.Parameter.kind]). *)
Inductive pkind : Type := PosOnly | PosOrKw | VarPos | KwOnly | VarKw.
(** One parameter: its name, kind, and whether it has a default. *)
Record param : Type := mkParam { p_name : string; p_kind : pkind; p_default : bool }.

(** What a parameter is bound to in a call: an argument, its default, the tuple of surplus positional
    arguments, or the dict of surplus keyword arguments. *)
Inductive bound (A : Type) : Type :=
| BArg (a : A) | BDefault | BTuple (l : list A) | BDict (l : list (string * A)).
Arguments BArg {A} a.
Arguments BDefault {A}.
Arguments BTuple {A} l.
Arguments BDict {A} l.

(** An object given as input_func. [c_sig]: what [inspect.signature] reports, [None] if it raises
    ValueError (builtin and C functions); [c_name]: its [__name__], if it has one; [c_body]: what a call
    does once its arguments are bound. *)
Record callable_obj (A V : Type) : Type := mkCallable {
  c_callable : bool;
  c_sig : option (list param);
  c_fname : option string;
  c_body : list (string * bound A) -> res V
}.
Arguments mkCallable {A V}.
Arguments c_callable {A V} c.
Arguments c_sig {A V} c.
Arguments c_fname {A V} c.
Arguments c_body {A V} c.

Definition positional (p : param) : bool :=
  match p_kind p with PosOnly | PosOrKw => true | _ => false end.
(** Parameters that may be given by keyword. *)
Definition by_keyword (p : param) : bool :=
  match p_kind p with PosOrKw | KwOnly => true | _ => false end.
Definition has_kind (k : pkind) (sig : list param) : bool :=
  existsb (fun p => match p_kind p, k with
                    | PosOnly, PosOnly | PosOrKw, PosOrKw | VarPos, VarPos | KwOnly, KwOnly
                    | VarKw, VarKw => true
                    | _, _ => false
                    end) sig.

Fixpoint kw_find {A} (l : list (string * A)) (n : string) : option A :=
  match l with
  | [] => None
  | (m, a) :: l' => if String.eqb n m then Some a else kw_find l' n
  end.

Section Bind.
  Context {A V : Type}.

  (** Python's binding of a call with positional arguments pos and keywords kw: positional arguments go to the positional parameters
      from left to right, then the keywords, then the defaults. [surplus] are the keywords that name
      no parameter. A parameter given twice, or required and not given, is a TypeError. *)
  Fixpoint bind_args (surplus : list (string * A)) (sig : list param) (pos : list A) (kw : list (string * A))
    : res (list (string * bound A)) :=
    match sig with
    | [] => match pos with [] => Ok [] | _ => Raise TypeError end
    | p :: sig' =>
        match p_kind p with
        | VarPos => rbind (bind_args surplus sig' [] kw) (fun l => Ok ((p_name p, BTuple pos) :: l))
        | VarKw => rbind (bind_args surplus sig' pos kw) (fun l => Ok ((p_name p, BDict surplus) :: l))
        | PosOnly | PosOrKw =>
            match pos with
            | a :: pos' =>
                if by_keyword p && is_some (kw_find kw (p_name p)) then Raise TypeError
                else rbind (bind_args surplus sig' pos' kw) (fun l => Ok ((p_name p, BArg a) :: l))
            | [] =>
                match (if by_keyword p then kw_find kw (p_name p) else None) with
                | Some a => rbind (bind_args surplus sig' [] kw) (fun l => Ok ((p_name p, BArg a) :: l))
                | None =>
                    if p_default p
                    then rbind (bind_args surplus sig' [] kw) (fun l => Ok ((p_name p, BDefault) :: l))
                    else Raise TypeError
                end
            end
        | KwOnly =>
            match kw_find kw (p_name p) with
            | Some a => rbind (bind_args surplus sig' pos kw) (fun l => Ok ((p_name p, BArg a) :: l))
            | None =>
                if p_default p
                then rbind (bind_args surplus sig' pos kw) (fun l => Ok ((p_name p, BDefault) :: l))
                else Raise TypeError
            end
        end
    end.

  Definition known (sig : list param) (n : string) : bool :=
    existsb (fun p => by_keyword p && String.eqb (p_name p) n) sig.
  Definition surplus_of (sig : list param) (kw : list (string * A)) : list (string * A) :=
    filter (fun x => negb (known sig (fst x))) kw.

  Definition bind_call (sig : list param) (pos : list A) (kw : list (string * A))
    : res (list (string * bound A)) :=
    if negb (has_kind VarKw sig) && negb (Nat.eqb (length (surplus_of sig kw)) 0) then Raise TypeError
    else bind_args (surplus_of sig kw) sig pos kw.

  (** Calling it. An object that is not callable raises TypeError. Functions whose signature is unknown
      never get here (the constructor rejects them) and are given no other meaning. *)
  Definition call_obj (f : callable_obj A V) (pos : list A) (kw : list (string * A)) : res V :=
    if negb (c_callable f) then Raise TypeError
    else match c_sig f with
         | None => Raise TypeError
         | Some sig => rbind (bind_call sig pos kw) (c_body f)
         end.

  (** The object built: its function, the extra keyword arguments and its name. *)
  Record kfc : Type := mkKfc { kc_func : callable_obj A V; kc_params : list (string * A); kc_name : string }.

  (** utils.py:103-116 [check_callable(input_func, min_num_args=2)]: [signature] of a builtin raises
      ValueError; the number of parameters of any kind is compared with 2. *)
  Definition check_callable_obj (f : callable_obj A V) : res (callable_obj A V) :=
    if negb (c_callable f) then check_callable None f 2
    else match c_sig f with
         | None => Raise ValueError
         | Some sig => check_callable (Some (length sig)) f 2
         end.

  (** base.py:106-128 [KernelFromCallable.__init__], called with the function and keywords [kws]
      (giving the name by position is the same as giving the keyword [name]). [str_of] is Python's
      [str], [is_none] recognises None. The keyword [name] is taken by the constructor; the keywords
      [self] and [input_func] name parameters already given, a TypeError; all others are func_params. *)
  Definition kfc_new (str_of : A -> string) (is_none : A -> bool) (f : callable_obj A V)
             (kws : list (string * A)) : res kfc :=
    if is_some (kw_find kws "self") || is_some (kw_find kws "input_func") then Raise TypeError
    else
      let name := match kw_find kws "name" with
                  | Some a => if is_none a then None else Some (str_of a)
                  | None => None
                  end in
      let params := filter (fun x => negb (String.eqb (fst x) "name")) kws in
      rbind (check_callable_obj f) (fun g => Ok (mkKfc g params (get_callable_name (c_fname f) name))).

  (** base.py:131-134 [__call__]: the function applied to the two inputs and the stored keywords. *)
  Definition kfc_call (k : kfc) (x y : A) : res V := call_obj (kc_func k) [x; y] (kc_params k).
End Bind.
Arguments kfc : clear implicits.
