(** KernelSet.set_attr, and attach_to of a subset, in full generality: properties C42 and C44.
    Generated by tools/split_props.py from AttrProps.v: statements only, each closed by [exact]. *)
From Coq Require Import String List Arith ZArith Bool Lia.
Import ListNotations.
From Verif Require Import Prelude MatModel UtilsModel IndexModel KMModel SpecKM ToyModel SetModel SpecSet.
From Verif Require Import MatFacts MFacts KMFacts KMInv KMHist KMProps SetFacts SetFacts2 SetProps.
Local Open Scope list_scope.
Local Open Scope nat_scope.
From Verif Require Import AttrProps.
Local Open Scope list_scope.
Local Open Scope nat_scope.

(** C44, exactly: let [vs] be one value per member (or the scalar, repeated), and [p] the number of
    members before the first KernelMatrixPrecomputed. set_attr sets the values of these [p] members,
    in their order (a member that is repeated keeps its last value), changes nothing else, and then
    raises AttributeError unless that were all members. *)
Theorem C44_exact :
  forall {E V U} (N : numops V) (C : cmpops V) (numeric : list E -> bool)
         (w : world E V U) k n ms name vals vs p,
    set_is w k n ms ->
    (exists u, vals = AScalar u /\ vs = repeat u (length ms)) \/ vals = ASeq vs /\ length vs = length ms ->
    (forall l, In l (firstn p ms) -> is_km w l) ->
    p = length ms \/ (exists l A, nth_error ms p = Some l /\ nth_error (w_objs w) l = Some (OPre A)) ->
    exists w',
      wstep N C numeric (WSetAttr k name vals) w
        = (w', if p =? length ms then Ok WUnit else Raise AttributeError) /\
      w_sets w' = w_sets w /\
      (forall i l v s, i < p -> nth_error ms i = Some l -> nth_error vs i = Some v ->
         (forall j, i < j < p -> nth_error ms j <> Some l) ->
         nth_error (w_objs w) l = Some (OKM s) ->
         nth_error (w_objs w') l = Some (OKM (with_attr N name v s))) /\
      (forall l, ~ In l (firstn p ms) -> nth_error (w_objs w') l = nth_error (w_objs w) l).
Proof. exact (@pf_C44_exact). Qed.
Print Assumptions C44_exact.

(** The hypotheses are met with a repeated member and a precomputed one: the set of the objects
    0, 1, 0, 2, of which 2 is precomputed. After set_attr of 1, 2, 3, 4 the objects 0 and 1 have the
    values 3 and 2. *)
Theorem C44_exact_example :
  exists ops w',
    set_is (wtoy ops) 0 (NSOne 2) [0; 1; 0; 2] /\
    (forall l, In l (firstn 3 [0; 1; 0; 2]) -> is_km (wtoy ops) l) /\
    (exists A, nth_error (w_objs (wtoy ops)) 2 = Some (OPre A)) /\
    wstep toyN toyC anynum (WSetAttr 0 "a" (ASeq [1; 2; 3; 4]%Z)) (wtoy ops) = (w', Raise AttributeError) /\
    attr_of w' 0 "a" (Some 3%Z) /\ attr_of w' 1 "a" (Some 2%Z).
Proof. exact (@pf_C44_exact_example). Qed.
Print Assumptions C44_exact_example.

(** C42, exactly: if a subset obtained by take is attached to a sample, the original set keeps its
    members and its num_samples; its members that were taken are attached to the new sample, as by
    their own attach_to, and given the attribute, if any; every other kernel matrix is unchanged. *)
Theorem C42_exact :
  forall {E V U} (N : numops V) (C : cmpops V) (numeric : list E -> bool)
         (w w1 w' : world E V U) k n ms ix k' x attr,
    set_is w k n ms -> wstep N C numeric (WTake k ix) w = (w1, Ok (WSetRef k')) ->
    wstep N C numeric (WAttach k' x attr) w1 = (w', Ok WUnit) ->
    set_is w' k n ms /\
    (forall z l, In z ix -> nth_error ms (Z.to_nat z) = Some l ->
       exists s, nth_error (w_objs w) l = Some (OKM s) /\
         nth_error (w_objs w') l
         = Some (OKM (run N (OpAttach x None :: match attr with
                                                | None => []
                                                | Some (name, u) => [OpSetAttr name u]
                                                end) s))) /\
    (forall l, (forall z, In z ix -> nth_error ms (Z.to_nat z) <> Some l) ->
       nth_error (w_objs w') l = nth_error (w_objs w) l).
Proof. exact (@pf_C42_exact). Qed.
Print Assumptions C42_exact.

(** The hypotheses are met: of a set of two kernel matrices on three points the second one is taken and
    attached to another sample of three points; the first keeps its elements, the second does not. *)
Theorem C42_exact_example :
  exists w1 w' y,
    set_is (wtoy toy_sets) 0 (NSOne 3) [0; 1] /\
    wstep toyN toyC anynum (WTake 0 [1]%Z) (wtoy toy_sets) = (w1, Ok (WSetRef 3)) /\
    wstep toyN toyC anynum (WAttach 3 y None) w1 = (w', Ok WUnit) /\
    nth_error (w_objs w') 0 = nth_error (w_objs (wtoy toy_sets)) 0 /\
    nth_error (w_objs w') 1 <> nth_error (w_objs (wtoy toy_sets)) 1.
Proof. exact (@pf_C42_exact_example). Qed.
Print Assumptions C42_exact_example.
