(** C07: what a rejected attach_to leaves behind.
    Generated by tools/split_props.py from RejectProps.v: statements only, each closed by [exact]. *)
From Coq Require Import String List Arith ZArith Bool Lia.
Import ListNotations.
From Verif Require Import Prelude MatModel MatFacts UtilsModel IndexModel KMModel SpecKM MFacts
  KMFacts KMInv KMOps KMIndex KMHist KMTotal KMGet KMTrack KMLog KMHist2 AliasModel SpecAlias
  AliasFacts AliasProps ToyModel.
Local Open Scope list_scope.
Local Open Scope nat_scope.
From Verif Require Import RejectProps.
Local Open Scope list_scope.
Local Open Scope nat_scope.

(** km[i, j] *)
Definition element (i j : nat) : idx := IPair (IInt (Z.of_nat i)) (IInt (Z.of_nat j)).

(** The pair that the kernel is asked for: with one sample in increasing order. *)
Definition asked {E} (y : option (ndarray E)) (i j : nat) : nat * nat :=
  match y with Some _ => (i, j) | None => (Nat.min i j, Nat.max i j) end.

(** The result of km[i, j] for an outcome of the kernel. *)
Definition as_element {V U} (r : res V) : res (out V U) :=
  res_map (fun v => OArr (mkArr Dense (mkMat 1 1 [[v]]))) r.

(** The second sample. *)
Definition other {E} (x : ndarray E) (y : option (ndarray E)) : ndarray E :=
  match y with Some y' => y' | None => x end.

(** All calls of attach_to in [ops] are rejected. *)
Definition all_rejected {E U} (ops : list (op E U)) : Prop :=
  forall x y, In (OpAttach x y) ops -> forall n m d, ~ admissible x y n m d.
Definition without_attach {E U} (ops : list (op E U)) : list (op E U) :=
  filter (fun o => negb (is_attach o)) ops.

(** C07, what is false about it, exactly. A second sample that is not a 2-D array is rejected after the
    first has been stored: elements evaluated before keep their values, the others are computed from the
    rejected first sample and the old second one; IndexError if the rejected sample has too few rows. *)
Theorem C07_second_rejected :
  forall {E V U} (N : numops V) (K : kernel E V) k nrm (pre post : list (op E U)) x y n m d x' n' d' y' i j,
    returns_only K k x y n m d -> admissible x y n m d -> no_attach post ->
    is_sample x' n' d' -> (forall m' d'', ~ is_sample y' m' d'') ->
    i < n -> j < m -> ~ (n = 1 /\ m = 1) ->
    let s := after N K nrm pre x y post in
    let s' := fst (step N (OpAttach x' (Some y')) s) in
    let (a, b) := asked y i j in
    exists old, g_calls s = old ++ g_calls (before N K nrm pre) /\
      (In (a, b) (successful K 0 (length (g_calls (before N K nrm pre))) old) ->
       outcome N (OpGetItem (element i j)) s' = as_element (Ok (entry k d x y i j))) /\
      (~ In (a, b) (successful K 0 (length (g_calls (before N K nrm pre))) old) ->
       outcome N (OpGetItem (element i j)) s' =
       as_element (if a <? n' then kf K (length (g_calls s)) (row_of d' x' a) (row_of d (other x y) b)
                   else Raise IndexError)).
Proof. exact (@pf_C07_second_rejected). Qed.
Print Assumptions C07_second_rejected.

(** C07, the same for a second sample with another number of features: then both rejected samples have been
    stored. *)
Theorem C07_features_rejected :
  forall {E V U} (N : numops V) (K : kernel E V) k nrm (pre post : list (op E U)) x y n m d x' n' d' y' m' d'' i j,
    returns_only K k x y n m d -> admissible x y n m d -> no_attach post ->
    is_sample x' n' d' -> is_sample y' m' d'' -> d' <> d'' ->
    i < n -> j < m -> ~ (n = 1 /\ m = 1) ->
    let s := after N K nrm pre x y post in
    let s' := fst (step N (OpAttach x' (Some y')) s) in
    let (a, b) := asked y i j in
    exists old, g_calls s = old ++ g_calls (before N K nrm pre) /\
      (In (a, b) (successful K 0 (length (g_calls (before N K nrm pre))) old) ->
       outcome N (OpGetItem (element i j)) s' = as_element (Ok (entry k d x y i j))) /\
      (~ In (a, b) (successful K 0 (length (g_calls (before N K nrm pre))) old) ->
       outcome N (OpGetItem (element i j)) s' =
       as_element (if (a <? n') && (b <? m') then kf K (length (g_calls s)) (row_of d' x' a) (row_of d'' y' b)
                   else Raise IndexError)).
Proof. exact (@pf_C07_features_rejected). Qed.
Print Assumptions C07_features_rejected.

(** C07. Sizes and attributes survive every rejection, in every state. *)
Theorem C07_sizes_kept :
  forall {E V U} (N : numops V) (s : km E V U) x y o, (forall n m d, ~ admissible x y n m d) ->
    (o = OpSize \/ o = OpShape \/ o = OpNumSamples \/ o = OpAttributes \/ exists name, o = OpGetAttr name) ->
    outcome N o (fst (step N (OpAttach x y) s)) = outcome N o s.
Proof. exact (@pf_C07_sizes_kept). Qed.
Print Assumptions C07_sizes_kept.

(** C07, the part that holds. Once [full] has returned for one sample, no rejected attach_to changes the
    outcome of any later operation: the sequence of operations without the rejected calls gives the same. *)
Theorem C07_after_full :
  forall {E V U} (N : numops V) (K : kernel E V) k nrm (pre post post2 : list (op E U)) x n d o,
    never_raises K k x None n n d -> admissible x None n n d -> no_attach post ->
    is_ok (outcome N OpFull (after N K nrm pre x None post)) = true ->
    all_rejected post2 -> is_attach o = false ->
    let s := after N K nrm pre x None (post ++ [OpFull]) in
    outcome N o (run N post2 s) = outcome N o (run N (without_attach post2) s).
Proof. exact (@pf_C07_after_full). Qed.
Print Assumptions C07_after_full.

(** The hypotheses are met: [km[0, 1]] was read before a second sample with one feature too many was
    rejected; (0, 1) keeps its value, (1, 1) is computed from the rejected samples, and (0, 2) is missing. *)
Example C07_rejected_example :
  let x' := mkNd [2; 2] [Some 5; Some 0; Some 7; Some 0]%Z in
  let y' := mkNd [2; 3] [Some 1; Some 1; Some 1; Some 1; Some 1; Some 1]%Z in
  let s := after (U:=Z) toyN dot false [] toyX None [OpGetItem (element 0 1)] in
  let s' := fst (step toyN (OpAttach x' (Some y')) s) in
  is_sample x' 2 2 /\ is_sample y' 2 3 /\ map c_ix (g_calls s) = [(0, 1)] /\
  outcome toyN (OpGetItem (element 0 1)) s' = outcome toyN (OpGetItem (element 0 1)) s /\
  outcome toyN (OpGetItem (element 1 1)) s' = as_element (kf dot 1 [Some 7; Some 0]%Z [Some 1; Some 1; Some 1]%Z) /\
  outcome toyN (OpGetItem (element 0 2)) s' = Raise IndexError.
Proof.
  repeat split; try (exists []; split; [reflexivity|constructor]); vm_compute; reflexivity.
Qed.

(** A history with two rejected calls after [full]. *)
Example C07_after_full_example :
  let x' := mkNd [1; 2] [Some 5; Some 0]%Z in
  let y' := mkNd [2; 3] [Some 1; Some 1; Some 1; Some 1; Some 1; Some 1]%Z in
  let z' := mkNd [4] [Some 1; Some 1; Some 1; Some 1]%Z in
  let post2 := [OpAttach x' (Some y'); OpNormedKM; OpAttach x' (Some z'); OpCentered] in
  let s := after (U:=Z) toyN dot false [] toyX None [OpFull] in
  all_rejected post2 /\ without_attach post2 = [OpNormedKM; OpCentered] /\
  is_ok (outcome toyN OpFull (after (U:=Z) toyN dot false [] toyX None [])) = true /\
  k_sample (run toyN post2 s) = Some x' /\
  outcome toyN OpFull (run toyN post2 s) = outcome toyN OpFull s.
Proof.
  split; [|vm_compute; repeat split; reflexivity].
  intros x y [H|[H|[H|[H|[]]]]]; inversion H; subst; intros n m d [(e1 & H1 & _) (e2 & H2 & _)];
    cbn in H1, H2; congruence.
Qed.
