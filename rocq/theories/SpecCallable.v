(** Vocabulary for the properties of kernels made from callables: what a Python signature is and which
    calls it accepts, stated without the binding algorithm. *)
From Coq Require Import String List Arith Bool Sorting.Sorted.
Import ListNotations.
From Verif Require Import Prelude CallableModel.

(** Order of the kinds in a signature: positional-only, ordinary, at most one star parameter,
    keyword-only, at most one double-star parameter. Names are distinct. *)
Definition rank (k : pkind) : nat :=
  match k with PosOnly => 0 | PosOrKw => 1 | VarPos => 2 | KwOnly => 3 | VarKw => 4 end.
Definition before_param (p q : param) : Prop :=
  rank (p_kind p) < rank (p_kind q) \/
  (p_kind p = p_kind q /\ p_kind p <> VarPos /\ p_kind p <> VarKw).
Definition signature (sig : list param) : Prop :=
  StronglySorted before_param sig /\ NoDup (map p_name sig).

(** The parameters filled by position, in order. *)
Definition is_positional (p : param) : Prop := p_kind p = PosOnly \/ p_kind p = PosOrKw.
Definition positionals (sig : list param) : list param :=
  filter (fun p => match p_kind p with PosOnly | PosOrKw => true | _ => false end) sig.
Definition named (p : param) : Prop := p_kind p = PosOrKw \/ p_kind p = KwOnly.
Definition required (p : param) : Prop :=
  p_default p = false /\ p_kind p <> VarPos /\ p_kind p <> VarKw.
Definition variadic (k : pkind) (sig : list param) : Prop := exists p, In p sig /\ p_kind p = k.

(** The call with [n] positional arguments and keywords [keys] suits the signature: there is room for
    the positional ones, no parameter is given twice, every required one is given, and every keyword
    goes somewhere. *)
Definition suits (sig : list param) (n : nat) (keys : list string) : Prop :=
  (n <= length (positionals sig) \/ variadic VarPos sig) /\
  (forall p, In p (firstn n (positionals sig)) -> p_kind p = PosOrKw -> ~ In (p_name p) keys) /\
  (forall p, In p sig -> required p ->
     In p (firstn n (positionals sig)) \/ (named p /\ In (p_name p) keys)) /\
  (forall key, In key keys ->
     (exists p, In p sig /\ named p /\ p_name p = key) \/ variadic VarKw sig).

(** What each parameter receives. *)
Definition receives {A} (sig : list param) (pos : list A) (kw : list (string * A))
           (env : list (string * bound A)) : Prop :=
  map fst env = map p_name sig /\
  (forall i p a, nth_error (positionals sig) i = Some p -> nth_error pos i = Some a ->
     In (p_name p, BArg a) env) /\
  (forall p a, In p sig -> named p -> In (p_name p, a) kw -> In (p_name p, BArg a) env) /\
  (forall p, In p sig -> p_kind p <> VarPos -> p_kind p <> VarKw ->
     ~ In p (firstn (length pos) (positionals sig)) ->
     ~ (named p /\ In (p_name p) (map fst kw)) -> In (p_name p, BDefault) env) /\
  (forall p, In p sig -> p_kind p = VarPos ->
     In (p_name p, BTuple (skipn (length (positionals sig)) pos)) env) /\
  (forall p, In p sig -> p_kind p = VarKw ->
     exists l, In (p_name p, BDict l) env /\
       forall key a, In (key, a) l <->
         In (key, a) kw /\ ~ exists q, In q sig /\ named q /\ p_name q = key).

(** The keywords left for the function by the constructor of the kernel. *)
Definition passed_on {A} (kws : list (string * A)) (key : string) : Prop :=
  In key (map fst kws) /\ key <> "name"%string.
