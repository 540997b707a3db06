(** C103: iterating over kernel matrices and sets, membership and truth value.
    Generated by tools/split_props.py from IterProps.v: statements only, each closed by [exact]. *)
From Coq Require Import String List Arith ZArith Bool Lia.
From Verif Require Import Prelude MatModel MatFacts UtilsModel IndexModel KMModel SpecKM SetModel SpecSet IterModel MFacts KMFacts KMInv KMHist KMHist2 KMProps CostProps SetFacts ToyModel SetProps.
Import ListNotations.
Local Open Scope km_scope.
From Verif Require Import IterProps.
Local Open Scope km_scope.

(** C103: what a loop or a search does is determined. *)
Theorem C103_deterministic :
  forall {St A} (g : Z -> M St A) (hit : A -> bool) i s,
    (forall l s' r l2 s2 r2, loop g i s l s' r -> loop g i s l2 s2 r2 -> l2 = l /\ s2 = s' /\ r2 = r) /\
    (forall s' r s2 r2, search g hit i s s' r -> search g hit i s s2 r2 -> s2 = s' /\ r2 = r).
Proof. exact (@pf_C103_deterministic). Qed.
Print Assumptions C103_deterministic.

(** C103: a loop over an attached KernelMatrix goes through its entries row by row, each as a 1 x 1
    matrix and with the object doing just what indexing does, and then always raises ValueError instead of
    ending (IndexError, which __getitem__ never raises by itself, would end it). *)
Theorem C103_loop :
  forall {E V U} (N : numops V) (K : kernel E V) k nrm (pre post : list (op E U)) x y n m d,
    never_raises K k x y n m d -> kfmt K = true -> admissible x y n m d -> no_attach post ->
    (Z.of_nat (n * m) < 2 ^ 64)%Z ->
    exists l,
      loop (fun i => getitem N (IFlat i)) 0 (after N K nrm pre x y post) l
           (after N K nrm pre x y (post ++ map (fun q => OpGetItem (IFlat (Z.of_nat q))) (seq 0 (n * m))))
           (Some ValueError) /\
      map amat l = map (fun p => mkMat 1 1 [[entry k d x y (fst p) (snd p)]]) (product (seq 0 n) (seq 0 m)).
Proof. exact (@pf_C103_loop). Qed.
Print Assumptions C103_loop.

(** C103: v in km is True if v is an entry and otherwise raises ValueError; it is never False. *)
Theorem C103_contains :
  forall {E V U} (N : numops V) (K : kernel E V) k nrm (pre post : list (op E U)) x y n m d (eqb : V -> V -> bool) v,
    never_raises K k x y n m d -> kfmt K = true -> admissible x y n m d -> no_attach post ->
    (Z.of_nat (n * m) < 2 ^ 64)%Z ->
    exists s', search (fun i => getitem N (IFlat i)) (item_equals eqb v) 0 (after N K nrm pre x y post) s'
      (if existsb (fun p => eqb (entry k d x y (fst p) (snd p)) v) (product (seq 0 n) (seq 0 m))
       then Ok true else Raise ValueError).
Proof. exact (@pf_C103_contains). Qed.
Print Assumptions C103_contains.

(** C103: the truth value is whether there are entries, also if the kernel raises, and asking for it changes
    nothing; before attach_to it raises AttributeError. *)
Theorem C103_truth :
  forall {E V U} (N : numops V) (K : kernel E V) nrm (pre post : list (op E U)) x y n m d,
    admissible x y n m d -> no_attach post ->
    km_truth (after N K nrm pre x y post) = (after N K nrm pre x y post, Ok (negb (n * m =? 0))) /\
    (no_attach pre -> km_truth (before N K nrm pre) = (before N K nrm pre, Raise AttributeError)).
Proof. exact (@pf_C103_truth). Qed.
Print Assumptions C103_truth.

(** C103: a loop over a KernelMatrixPrecomputed goes through its rows and then raises KMAccessError; one over a
    ConstantKernelMatrix raises it at once. *)
Theorem C103_other_classes :
  forall {V} (C : cmpops V) d (a : ndarray V) A (c : cmatrix V),
    precomputed_new C d a = Ok A ->
    loop (precomputed_item A) 0 tt (md A) tt (Some KMAccessError) /\
    length (md A) = mr A /\
    loop (constant_item c) 0 tt [] tt (Some KMAccessError).
Proof. exact (@pf_C103_other_classes). Qed.
Print Assumptions C103_other_classes.

(** C103: a loop over a KernelSet visits exactly the members it had when the loop began, in order, whatever the
    rounds do - also if they append to this very set -, and ends normally. *)
Theorem C103_set_loop :
  forall {E V U} (N : numops V) (C : cmpops V) (numeric : list E -> bool) (bodies : nat -> list (wop E V U)) k n ms w,
    set_is w k n ms ->
    set_for N C numeric bodies k w =
      (wrun N C numeric (flat_map bodies (seq 0 (length ms))) w, Ok ms).
Proof. exact (@pf_C103_set_loop). Qed.
Print Assumptions C103_set_loop.

Definition oeqb (a b : option Z) : bool :=
  match a, b with Some u, Some v => Z.eqb u v | None, None => true | _, _ => false end.

(** The loop of C103 on three samples: the matrix has nine entries, 39 is among them, 18 is not; the loop and the search with their hypotheses met. *)
Example C103_example :
  (map (fun p => entry dotk 2 toyX None (fst p) (snd p)) (product (seq 0 3) (seq 0 3))) =
    [Some 5; Some 11; Some 17; Some 11; Some 25; Some 39; Some 17; Some 39; Some 61]%Z.
Proof. vm_compute. reflexivity. Qed.

Example C103_example_loop :
  let s := after toyN dot false ([] : list (op (option Z) Z)) toyX None [OpDiagonal] in
  (exists l s', loop (fun i => getitem toyN (IFlat i)) 0 s l s' (Some ValueError) /\ length l = 9) /\
  (exists s', search (fun i => getitem toyN (IFlat i)) (item_equals oeqb (Some 39%Z)) 0 s s' (Ok true)) /\
  (exists s', search (fun i => getitem toyN (IFlat i)) (item_equals oeqb (Some 18%Z)) 0 s s' (Raise ValueError)) /\
  snd (km_truth s) = Ok true.
Proof.
  cbn zeta. split; [|split; [|split]].
  - destruct (pf_C103_loop toyN dot dotk false ([] : list (op (option Z) Z)) [OpDiagonal] toyX None 3 3 2
      (dot_total _ _ _ _ _) eq_refl toyX_ok eq_refl eq_refl) as (l & Hl & Hm).
    exists l. eexists. split; [exact Hl|]. rewrite <- (map_length (@amat (option Z))), Hm. reflexivity.
  - exact (pf_C103_contains toyN dot dotk false ([] : list (op (option Z) Z)) [OpDiagonal] toyX None 3 3 2 oeqb (Some 39%Z)
      (dot_total _ _ _ _ _) eq_refl toyX_ok eq_refl eq_refl).
  - exact (pf_C103_contains toyN dot dotk false ([] : list (op (option Z) Z)) [OpDiagonal] toyX None 3 3 2 oeqb (Some 18%Z)
      (dot_total _ _ _ _ _) eq_refl toyX_ok eq_refl eq_refl).
  - vm_compute. reflexivity.
Qed.

(** A kernel that raises IndexError ends the loop early and silently. *)
Example C103_silent_end :
  let K := mkKernel (fun c u v => if c =? 2 then Raise IndexError else Ok (dotk u v)) true in
  let s := after toyN K false ([] : list (op (option Z) Z)) toyX None [] in
  exists l s', loop (fun i => getitem toyN (IFlat i)) 0 s l s' None /\ length l = 2.
Proof.
  cbn zeta. eexists. eexists. split.
  - eapply loop_next; [vm_compute; reflexivity|]. eapply loop_next; [vm_compute; reflexivity|].
    apply loop_end. vm_compute. reflexivity.
  - reflexivity.
Qed.

(** Every round appends the first kernel matrix to the set gone through: two rounds, four members at the end. *)
Example C103_example_set :
  let w := wtoy [WNewKM dot false; WNewKM dot false; WSetNew (KLIter [ARef 0; ARef 1]) None] in
  let r := set_for toyN toyC anynum (fun _ => [WAppend 0 (ARef 0)]) 0 w in
  set_is w 0 NSNone [0; 1] /\ snd r = Ok [0; 1] /\ set_is (fst r) 0 NSNone [0; 1; 0; 0].
Proof. cbn zeta. split; [eexists; eexists; vm_compute; reflexivity|]. split; [vm_compute; reflexivity|]. eexists; eexists; vm_compute; reflexivity. Qed.

(** Two rows, then KMAccessError. *)
Example C103_example_precomputed :
  precomputed_new toyC None sym2 = Ok (mkMat 2 2 [[Some 1; Some 2]; [Some 2; Some 5]]%Z).
Proof. vm_compute. reflexivity. Qed.
