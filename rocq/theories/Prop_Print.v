(** Textual representations: what str shows in every state, and where it and format raise (C81).
    Generated by tools/split_props.py from PrintProps.v: statements only, each closed by [exact]. *)
From Coq Require Import String List Arith ZArith Bool Lia.
Import ListNotations.
From Verif Require Import Prelude MatModel MatFacts UtilsModel IndexModel KMModel SpecKM MFacts
  KMFacts KMInv KMHist CallableModel PrintModel ToyModel.
Local Open Scope string_scope.
Local Open Scope list_scope.
Local Open Scope nat_scope.
From Verif Require Import PrintProps.
Local Open Scope string_scope.
Local Open Scope list_scope.
Local Open Scope nat_scope.

(** The first sample of some attach_to in the history is acceptable. *)
Definition first_accepted {E U} (acts : list (pact E U)) : Prop :=
  exists x y n1 n2 n d, In (OpAttach x y, n1, n2) acts /\ is_sample x n d.
(** Some attach_to in the history has acceptable arguments. *)
Definition all_accepted {E U} (acts : list (pact E U)) : Prop :=
  exists x y n1 n2 n m d, In (OpAttach x y, n1, n2) acts /\ admissible x y n m d.

(** C81: before any attach_to with an acceptable first sample, str shows the name and the
    kernel. *)
Theorem C81_unattached :
  forall {E V U} (N : numops V) (K : kernel E V) nrm name kstr (acts : list (pact E U)),
    ~ first_accepted acts ->
    km_str (prun N acts (p_new K nrm name kstr)) = Ok (name ++ ": " ++ kstr)%string.
Proof. exact (@pf_C81_unattached). Qed.
Print Assumptions C81_unattached.

(** C81: in every history, whatever is computed and whatever raises, str shows the name, the
    kernel, the normalisation flag and the names and sizes of the sample given to the last
    attach_to that was accepted. *)
Theorem C81_attached :
  forall {E V U} (N : numops V) (K : kernel E V) nrm name kstr (pre post : list (pact E U))
         x y n1 n2 n m d,
    admissible x y n m d -> ~ all_accepted post ->
    km_str (prun N (pre ++ (OpAttach x y, n1, n2) :: post) (p_new K nrm name kstr)) =
    Ok (name ++ ": " ++ kstr ++ " (normed=" ++ (if nrm then "True" else "False") ++ ") on " ++
        match y with
        | None => n1 ++ " " ++ show_tuple [n; d]
        | Some _ => n1 ++ " " ++ show_tuple [n; d] ++ " x " ++ n2 ++ " " ++ show_tuple [m; d]
        end)%string.
Proof. exact (@pf_C81_attached). Qed.
Print Assumptions C81_attached.

(** C81, exactly when str raises: it is an AttributeError, and it happens if and only if some
    attach_to accepted its first sample but none was accepted altogether. *)
Theorem C81_raises :
  forall {E V U} (N : numops V) (K : kernel E V) nrm name kstr (acts : list (pact E U)),
    (forall e, km_str (prun N acts (p_new K nrm name kstr)) = Raise e -> e = AttributeError) /\
    (km_str (prun N acts (p_new K nrm name kstr)) = Raise AttributeError <->
       first_accepted acts /\ ~ all_accepted acts).
Proof. exact (@pf_C81_raises). Qed.
Print Assumptions C81_raises.

(** C81, in particular for KernelMatrix objects attached at least once with success: str never
    raises afterwards. Missing from the full statement: objects for which the only attach_to calls
    failed on the second sample (C81_refuted), and format (C81_format). *)
Theorem C81_str_partial :
  forall {E V U} (N : numops V) (K : kernel E V) nrm name kstr (acts : list (pact E U)),
    all_accepted acts -> exists t, km_str (prun N acts (p_new K nrm name kstr)) = Ok t.
Proof. exact (@pf_C81_str_partial). Qed.
Print Assumptions C81_str_partial.

(** C81 is false (1): after a first attach_to whose second sample is rejected, printing the object
    raises AttributeError. *)
Theorem C81_refuted :
  exists (x y : ndarray (option Z)),
    km_str (prun toyN [(OpAttach x (Some y) : op _ nat, "a", "b")] (p_new dot true "km" "dot"))%string
    = Raise AttributeError.
Proof. exact (@pf_C81_refuted). Qed.
Print Assumptions C81_refuted.

(** C81 is false (2): after a later attach_to that is rejected in the same way, the description is
    that of the previous samples although the object already holds the new first sample. *)
Theorem C81_stale_refuted :
  exists (x x' y' : ndarray (option Z)) a,
    let s := prun toyN [(OpAttach x None : op _ nat, "a", "None"); (OpAttach x' (Some y'), "c", "d")]
               (p_new dot true "km" "dot") in
    k_sample (p_km s) = Some a /\ nd_shape a = [2; 2] /\
    km_str s = Ok "km: dot (normed=True) on a (3, 2)"%string.
Proof. exact (@pf_C81_stale_refuted). Qed.
Print Assumptions C81_stale_refuted.

(** C81: printing a kernel set works exactly when printing each member does, and shows them in
    order; likewise the composites. *)
Theorem C81_set :
  forall name cname ns members,
    ((exists t, set_str name ns members = Ok t) <-> forall r, In r members -> exists t, r = Ok t) /\
    (forall ts, members = map Ok ts ->
       set_str name ns members =
         Ok (name ++ "(" ++ show_nat (length ts) ++ " kernels, " ++ show_numsamp ns ++ " samples):" ++
             newline ++ tab ++ String.concat (newline ++ tab) ts ++ " ")%string) /\
    ((exists t, composite_str cname (set_str name ns members) = Ok t) <->
       forall r, In r members -> exists t, r = Ok t).
Proof. exact (@pf_C81_set). Qed.
Print Assumptions C81_set.

(** C81 is false for format: only the built-in kernel functions can be formatted; for every
    other class format, '{}'.format and f-strings raise TypeError whatever the state of the
    object. *)
Theorem C81_format :
  forall c t,
    format_obj c t = if match c with ClsBuiltinKernel => true | _ => false end
                     then t else Raise TypeError.
Proof. exact (@pf_C81_format). Qed.
Print Assumptions C81_format.

(** A KernelMatrix attached to 3 x 2 and 2 x 2 samples, after a computation and a rejected
    attach_to; a set of it and an unattached one. *)
Example C81_example :
  let s := prun toyN [(OpAttach toyX (Some toyX2) : op _ nat, "train", "test");
                      (OpFull, "", ""); (OpAttach (mkNd [4] []) None, "bad", "None")]
             (p_new dot false "km" "linear") in
  km_str s = Ok "km: linear (normed=False) on train (3, 2) x test (2, 2)"%string /\
  set_str "S" (NSTwo 3 2) [km_str s; km_str (p_new (U := nat) dot true "k2" "poly")] =
    Ok ("S(2 kernels, (3, 2) samples):" ++ newline ++ tab ++
        "km: linear (normed=False) on train (3, 2) x test (2, 2)" ++ newline ++ tab ++ "k2: poly ")%string.
Proof. split; reflexivity. Qed.
