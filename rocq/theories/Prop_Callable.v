(** Kernels made from callables (KernelFromCallable): which callables are accepted and what happens
    when the kernel is called (C80).
    Generated by tools/split_props.py from CallableProps.v: statements only, each closed by [exact]. *)
From Coq Require Import String List Arith Bool Lia Sorting.Sorted.
Import ListNotations.
From Verif Require Import Prelude UtilsModel MatModel KMModel SpecKM CallableModel SpecCallable.
Local Open Scope string_scope.
Local Open Scope list_scope.
From Verif Require Import CallableProps.
Local Open Scope string_scope.
Local Open Scope list_scope.

(** C80, the constructor, exactly: an object that is not callable is a TypeError, a builtin a
    ValueError, and a callable is accepted if and only if it has two parameters of any kind and
    the keywords do not repeat an argument of the constructor. *)
Theorem C80_constructor :
  forall {A V} (str_of : A -> string) is_none (f : callable_obj A V) kws,
    (forall e, kfc_new str_of is_none f kws = Raise e -> e = TypeError \/ e = ValueError) /\
    (c_callable f = false -> kfc_new str_of is_none f kws = Raise TypeError) /\
    (In "self" (map fst kws) \/ In "input_func" (map fst kws) ->
       kfc_new str_of is_none f kws = Raise TypeError) /\
    (kfc_new str_of is_none f kws = Raise ValueError <->
       c_callable f = true /\ c_sig f = None /\
       ~ In "self" (map fst kws) /\ ~ In "input_func" (map fst kws)) /\
    ((exists k, kfc_new str_of is_none f kws = Ok k) <->
       c_callable f = true /\ (exists sig, c_sig f = Some sig /\ 2 <= length sig) /\
       ~ In "self" (map fst kws) /\ ~ In "input_func" (map fst kws)).
Proof. exact (@pf_C80_constructor). Qed.
Print Assumptions C80_constructor.

(** C80, the name: the one given, unless it is None; otherwise the name of the function, or the empty
    text if it has none. *)
Theorem C80_named :
  forall {A V} (str_of : A -> string) is_none (f : callable_obj A V) kws k,
    kfc_new str_of is_none f kws = Ok k -> NoDup (map fst kws) ->
    (forall a, In ("name", a) kws -> is_none a = false -> kc_name k = str_of a) /\
    (~ In "name" (map fst kws) \/ (exists a, In ("name", a) kws /\ is_none a = true) ->
       (forall n, c_fname f = Some n -> kc_name k = n) /\ (c_fname f = None -> kc_name k = "")).
Proof. exact (@pf_C80_named). Qed.
Print Assumptions C80_named.

(** C80, the call, exactly: for every accepted callable the call with x and y succeeds in
    reaching the function if and only if two positional arguments and the keywords passed on suit
    its signature; then each parameter receives what Python's rules say (x and y by position, the
    keywords by name, defaults for the rest) and the result is that of the function. Otherwise
    every call raises TypeError. *)
Theorem C80_call :
  forall {A V} (str_of : A -> string) is_none (f : callable_obj A V) kws k sig keys,
    kfc_new str_of is_none f kws = Ok k -> c_sig f = Some sig -> signature sig ->
    NoDup (map fst kws) -> (forall key, In key keys <-> passed_on kws key) ->
    (suits sig 2 keys ->
       forall x y, exists given env,
         (forall key a, In (key, a) given <-> In (key, a) kws /\ key <> "name") /\
         receives sig [x; y] given env /\ kfc_call k x y = c_body f env) /\
    (~ suits sig 2 keys -> forall x y, kfc_call k x y = Raise TypeError).
Proof. exact (@pf_C80_call). Qed.
Print Assumptions C80_call.

(** C80, part that holds for ordinary kernels: a callable whose first two parameters are
    positional, where no keyword names these two, every other required parameter is given by
    keyword, and every keyword names a parameter, is accepted; every call reaches it, with x in the
    first parameter and y in the second. Missing from the full statement: acceptance of exactly the
    callables that can be called so (C80_accepted_refuted, C80_rejected_refuted). *)
Theorem C80_ordinary_partial :
  forall {A V} (str_of : A -> string) is_none (f : callable_obj A V) kws p q rest,
    c_callable f = true -> c_sig f = Some (p :: q :: rest) -> signature (p :: q :: rest) ->
    is_positional p -> is_positional q -> NoDup (map fst kws) ->
    ~ In (p_name p) (map fst kws) -> ~ In (p_name q) (map fst kws) ->
    (forall r, In r rest -> required r -> named r /\ In (p_name r) (map fst kws)) ->
    (forall key, In key (map fst kws) ->
       key <> "name" /\ key <> "self" /\ key <> "input_func" /\
       exists r, In r rest /\ named r /\ p_name r = key) ->
    exists k, kfc_new str_of is_none f kws = Ok k /\
      forall x y, exists env, receives (p :: q :: rest) [x; y] kws env /\
        In (p_name p, BArg x) env /\ In (p_name q, BArg y) env /\
        kfc_call k x y = c_body f env.
Proof. exact (@pf_C80_ordinary_partial). Qed.
Print Assumptions C80_ordinary_partial.

(** C80: such a kernel never raises inside a KernelMatrix when the function itself returns,
    so the theorems on KernelMatrix (C01 to C16) apply to it. [row] embeds rows of the sample into
    the values of Python. *)
Theorem C80_kernel_matrix :
  forall {A V E} (row : list E -> A) (str_of : A -> string) is_none (f : callable_obj A V) kws k sig keys fmt,
    kfc_new str_of is_none f kws = Ok k -> c_sig f = Some sig -> signature sig ->
    NoDup (map fst kws) -> (forall key, In key keys <-> passed_on kws key) ->
    suits sig 2 keys -> (forall env, exists v, c_body f env = Ok v) ->
    exists kfun, (forall u v, kfc_call k (row u) (row v) = Ok (kfun u v)) /\
      forall x y n m d,
        never_raises (mkKernel (fun _ u v => kfc_call k (row u) (row v)) fmt) kfun x y n m d.
Proof. exact (@pf_C80_kernel_matrix). Qed.
Print Assumptions C80_kernel_matrix.

(** C80 is false (1): a function of one positional and one required keyword-only parameter is
    accepted, though every call of the kernel raises TypeError. *)
Theorem C80_accepted_refuted :
  exists (f : callable_obj nat nat) sig k,
    c_sig f = Some sig /\ signature sig /\ ~ suits sig 2 [] /\
    kfc_new (fun _ => "") (fun _ => false) f [] = Ok k /\
    forall x y, kfc_call k x y = Raise TypeError.
Proof. exact (@pf_C80_accepted_refuted). Qed.
Print Assumptions C80_accepted_refuted.

(** C80 is false (2): a callable that takes any number of positional arguments (a single star
    parameter) could be called with two, but is rejected. *)
Theorem C80_rejected_refuted :
  exists (f : callable_obj nat nat) sig,
    c_callable f = true /\ c_sig f = Some sig /\ signature sig /\ suits sig 2 [] /\
    (forall x y, call_obj f [x; y] [] = Ok (x + y)) /\
    kfc_new (fun _ => "") (fun _ => false) f [] = Raise TypeError.
Proof. exact (@pf_C80_rejected_refuted). Qed.
Print Assumptions C80_rejected_refuted.

(** C80 is false (3): a parameter of the function called name cannot be given: the keyword is
    taken by the constructor, which accepts the function, and every call raises TypeError though
    the call with that keyword suits the function. *)
Theorem C80_name_refuted :
  exists (f : callable_obj nat nat) sig kws k,
    c_sig f = Some sig /\ signature sig /\ suits sig 2 (map fst kws) /\
    (forall x y, exists v, call_obj f [x; y] kws = Ok v) /\
    kfc_new (fun _ => "") (fun _ => false) f kws = Ok k /\
    forall x y, kfc_call k x y = Raise TypeError.
Proof. exact (@pf_C80_name_refuted). Qed.
Print Assumptions C80_name_refuted.

(** A function f(x, y, degree=2, *, gamma) with the keyword gamma: the hypotheses of
    C80_ordinary_partial hold and the call passes 3, 4, the default and 5. *)
Example C80_example :
  let sig := [mkParam "x" PosOrKw false; mkParam "y" PosOrKw false; mkParam "degree" PosOrKw true;
              mkParam "gamma" KwOnly false] in
  signature sig /\ suits sig 2 ["gamma"] /\
  exists k, kfc_new (fun _ => "") (fun _ => false)
              (mkCallable true (Some sig) (Some "f") (fun env => Ok env)) [("gamma", 5)] = Ok k /\
    kc_name k = "f" /\
    kfc_call k 3 4 = Ok [("x", BArg 3); ("y", BArg 4); ("degree", BDefault); ("gamma", BArg 5)].
Proof.
  cbv zeta.
  assert (S : signature [mkParam "x" PosOrKw false; mkParam "y" PosOrKw false;
                         mkParam "degree" PosOrKw true; mkParam "gamma" KwOnly false]).
  { split.
    - repeat first [apply SSorted_cons | apply SSorted_nil | apply Forall_cons | apply Forall_nil];
        first [solve [right; cbn; repeat split; discriminate] | left; cbn; repeat constructor].
    - cbn. repeat constructor; cbn; intuition discriminate. }
  split; [exact S|]. split.
  - unfold suits, positionals, variadic, required, named. cbn. repeat split.
    + left. repeat constructor.
    + intros p [H|[H|[]]] _ [K|[]]; subst; discriminate.
    + intros p [H|[H|[H|[H|[]]]]] (R & _); subst; cbn in *; auto; discriminate.
    + intros key [H|[]]. left. exists (mkParam "gamma" KwOnly false). cbn. auto 10.
  - eexists. split; [reflexivity|]. split; reflexivity.
Qed.
