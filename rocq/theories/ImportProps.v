(** C105: importing the package and its names. *)
From Coq Require Import String List Bool Arith Lia.
From Verif Require Import ImportModel SpecImport.
Import ListNotations.
Local Open Scope string_scope.

(** ** The states a program can be in *)
Definition lib_eqb (a b : library) : bool :=
  match a, b with Stdlib, Stdlib | Numpy, Numpy | Scipy, Scipy | Sklearn, Sklearn => true | _, _ => false end.
Definition obj_eqb (a b : obj) : bool :=
  match a, b with
  | Def m n, Def m' n' => modname_eqb m m' && String.eqb n n'
  | Mod m, Mod m' => modname_eqb m m'
  | Ext l n, Ext l' n' => lib_eqb l l' && String.eqb n n'
  | _, _ => false
  end.
Fixpoint list_eqb {A} (f : A -> A -> bool) (a b : list A) : bool :=
  match a, b with
  | [], [] => true
  | x :: a, y :: b => if f x y then list_eqb f a b else false
  | _, _ => false
  end.
Definition space_eqb : space -> space -> bool :=
  list_eqb (fun p q => if String.eqb (fst p) (fst q) then obj_eqb (snd p) (snd q) else false).
Definition state_eqb : modules -> modules -> bool :=
  list_eqb (fun p q => if modname_eqb (fst p) (fst q) then space_eqb (snd p) (snd q) else false).
(** What tells the states apart: the order in which the modules were begun and finished. *)
Definition order (s : modules) : list modname :=
  map fst s ++ flat_map (fun p => match p with (Pkg, a) => flat_map (fun q => match snd q with Mod m => [m] | _ => [] end) a | _ => [] end) s.
Definition mem (s : modules) (l : list modules) : bool :=
  match List.find (fun t => list_eqb modname_eqb (order s) (order t)) l with Some t => state_eqb t s | None => false end.

Lemma modname_eqb_eq : forall a b, modname_eqb a b = true <-> a = b.
Proof. intros a b; split; [destruct a, b; try discriminate; reflexivity|intros ->; destruct b; reflexivity]. Qed.
Lemma lib_eqb_eq : forall a b, lib_eqb a b = true -> a = b.
Proof. intros a b; destruct a, b; try discriminate; reflexivity. Qed.
Lemma obj_eqb_eq : forall a b, obj_eqb a b = true -> a = b.
Proof.
  intros [m n|m|l n] [m' n'|m'|l' n']; cbn; try discriminate; rewrite ?andb_true_iff.
  - intros [H K]. apply modname_eqb_eq in H. apply String.eqb_eq in K. congruence.
  - intros H. apply modname_eqb_eq in H. congruence.
  - intros [H K]. apply lib_eqb_eq in H. apply String.eqb_eq in K. congruence.
Qed.
Lemma list_eqb_eq : forall {A} (f : A -> A -> bool), (forall x y, f x y = true -> x = y) -> forall a b, list_eqb f a b = true -> a = b.
Proof.
  intros A f Hf a. induction a as [|x a IH]; intros [|y b]; cbn; try discriminate; [reflexivity|].
  destruct (f x y) eqn:E; [|discriminate]. intros H. rewrite (Hf _ _ E), (IH _ H). reflexivity.
Qed.
Lemma state_eqb_eq : forall a b, state_eqb a b = true -> a = b.
Proof.
  intros a b. apply list_eqb_eq. intros [m x] [n y]; cbn. destruct (modname_eqb m n) eqn:E; [|discriminate].
  apply modname_eqb_eq in E. intros H. f_equal; [exact E|]. revert H. apply list_eqb_eq.
  intros [p u] [q v]; cbn. destruct (String.eqb p q) eqn:F; [|discriminate]. apply String.eqb_eq in F. intros H. apply obj_eqb_eq in H. congruence.
Qed.
Lemma mem_In : forall s l, mem s l = true -> In s l.
Proof.
  intros s l. unfold mem. destruct (List.find _ l) as [t|] eqn:E; [|discriminate]. intros H. apply state_eqb_eq in H. subst t.
  exact (proj1 (find_some _ _ E)).
Qed.

Definition files : list string :=
  ["config"; "utils"; "operations"; "base"; "numeric_kernels"; "sampling"; "ranking"; "algorithms"; "categorical"; "_version"; "tests"].
Definition late : list modname := [Ranking; Algorithms; Categorical; Tests].

Fixpoint add_new (l acc : list modules) : list modules :=
  match l with [] => acc | s :: r => add_new r (if mem s acc then acc else s :: acc) end.
Fixpoint grow (e : installed) (k : nat) (acc front : list modules) : list modules :=
  match k with
  | 0 => acc
  | S k => let next := filter (fun s => negb (mem s acc)) (add_new (flat_map (fun s => map (fun m => fst (import e m s)) late) front) []) in
           match next with [] => acc | _ => grow e k (next ++ acc) next end
  end.
Definition start (e : installed) : modules := fst (do_use e Import []).
Definition states (e : installed) : list modules := grow e 8 [start e] [start e].

Definition subs : list modname := [Config; Utils; Operations; Base; Numeric; Sampling; Ranking; Algorithms; Categorical; Version; Tests].
Definition has (m : modname) (s : modules) : bool := match ns m s with Some _ => true | None => false end.
Definition nonfile (p : string * obj) : bool := negb (existsb (String.eqb (fst p)) files).
Definition opt_eqb {A} (f : A -> A -> bool) (x y : option A) : bool :=
  match x, y with Some a, Some b => f a b | None, None => true | _, _ => false end.
Definition full (e : installed) (m : modname) : option space := ns m (fst (import e m (start e))).
Definition can (e : installed) (m : modname) : bool := match m with Algorithms => sklearn e | _ => true end.
Definition pulled (m m' : modname) : bool :=
  modname_eqb m m' || match m, m' with Algorithms, Ranking => true | _, _ => false end.

Definition check_load (e : installed) (l : list modules) (s : modules) (m : modname) : bool :=
  match import e m s with
  | (s1, IOk _) => can e m && mem s1 l && forallb (fun m' => Bool.eqb (has m' s1) (has m' s || pulled m m')) subs
  | (s1, IErr (NotInstalled Sklearn)) => negb (can e m) && state_eqb s1 s
  | _ => false
  end.
Definition check (e : installed) (l : list modules) (a0 : space) (fulls : list (modname * option space)) (s : modules) : bool :=
  match ns Pkg s with
  | Some a =>
      space_eqb (filter nonfile a) a0
      && forallb (fun m => opt_eqb obj_eqb (find (file_of m) a) (if has m s then Some (Mod m) else None)) subs
      && forallb (fun m => if has m s then can e m else negb (eager m)) subs
      && forallb (fun p => if has (fst p) s then opt_eqb space_eqb (ns (fst p) s) (snd p) else true) fulls
      && forallb (fun m => if has m s then true else check_load e l s m) late
      && (negb (has Algorithms s) || has Ranking s)
  | None => false
  end.
Definition fixed (e : installed) : space := match ns Pkg (start e) with Some a => filter nonfile a | None => [] end.

Definition ests : list string := ["KernelMachine"; "KernelMachineRegressor"; "OptimalKernelSVC"; "OptimalKernelSVR"].
Definition check_est (e : installed) (a0 : space) (d : option space) (n : string) : bool :=
  opt_eqb obj_eqb (find n a0) None &&
  (if sklearn e
   then match d with
        | Some a => opt_eqb obj_eqb (find n a) (Some (Def Algorithms n)) &&
                    forallb (fun i => match find i a with Some _ => true | None => false end) lazy_imports
        | None => false
        end
   else true).

Definition plain_exports : list string :=
  ["KernelMatrix"; "KernelSet"; "BaseKernelFunction"; "KernelMethodsException"; "KMAccessError"; "KMNormError"; "KMSetAdditionError";
   "PolyKernel"; "GaussianKernel"; "LaplacianKernel"; "LinearKernel"; "Chi2Kernel"; "SigmoidKernel"; "HadamardKernel"; "KernelBucket"].
Definition check_home (e : installed) (a0 : space) (n : string) : bool :=
  match home n with
  | Some m => can e m && negb (modname_eqb m Pkg) && opt_eqb obj_eqb (find n a0) (Some (Def m n)) &&
              opt_eqb obj_eqb (match full e m with Some a => find n a | None => None end) (Some (Def m n))
  | None => false
  end.
(** The other names in the package: those beginning with two underscores. *)
Definition check_rest (a0 : space) : bool :=
  forallb (fun p => prefix "__" (fst p) || match home (fst p) with Some _ => true | None => false end) a0.

Definition good (e : installed) : bool :=
  let l := states e in
  mem (start e) l && forallb (check e l (fixed e) (map (fun m => (m, full e m)) subs)) l
  && forallb (check_est e (fixed e) (full e Algorithms)) ests
  && (forallb (check_home e (fixed e)) plain_exports && check_rest (fixed e))
  && match import e Pkg [] with (_, IOk _) => forallb (fun m => negb (has m (start e))) late | _ => false end.
Lemma start_eq : forall e, start e = fst (do_use e Import []). Proof. reflexivity. Qed.
Opaque states start full fixed.
Lemma all_good : forall b, good (mkInstalled true true b) = true.
Proof. intros [|]; vm_cast_no_check (eq_refl true). Qed.

(** ** What the check says of each state *)
Section Installed.
  Variable e : installed.
  Hypothesis G : good e = true.
  Notation b := (sklearn e).

  Definition ok (s : modules) : Prop := In s (states e).
  Definition attr0 (n : string) : option obj := find n (fixed e).

  Lemma sub_In : forall m, m <> Pkg -> In m subs.
  Proof. intros [| | | | | | | | | | |] H; try (now contradiction H); cbn; auto 20. Qed.
  Lemma good_parts : mem (start e) (states e) = true /\
    forallb (check e (states e) (fixed e) (map (fun m => (m, full e m)) subs)) (states e) = true /\
    forallb (check_est e (fixed e) (full e Algorithms)) ests = true /\
    forallb (check_home e (fixed e)) plain_exports = true /\ check_rest (fixed e) = true /\
    match import e Pkg [] with (_, IOk _) => forallb (fun m => negb (has m (start e))) late | _ => false end = true.
  Proof.
    apply andb_true_iff in G. destruct G as [G1 G6]. apply andb_true_iff in G1. destruct G1 as [G1 G4]. apply andb_true_iff in G1. destruct G1 as [G1 G3].
    apply andb_true_iff in G1. destruct G1 as [G1 G2]. apply andb_true_iff in G4. destruct G4 as [G4 G5].
    exact (conj G1 (conj G2 (conj G3 (conj G4 (conj G5 G6))))).
  Qed.
  Lemma ok_start : ok (start e).
  Proof. exact (mem_In _ _ (proj1 good_parts)). Qed.
  Lemma ok_check : forall s, ok s -> check e (states e) (fixed e) (map (fun m => (m, full e m)) subs) s = true.
  Proof. intros s Hs. exact (proj1 (forallb_forall _ _) (proj1 (proj2 good_parts)) s Hs). Qed.
  Lemma opt_eqb_eq : forall {A} (f : A -> A -> bool), (forall x y, f x y = true -> x = y) -> forall x y, opt_eqb f x y = true -> x = y.
  Proof. intros A f Hf [x|] [y|]; cbn; try discriminate; [intros H; rewrite (Hf _ _ H)|]; reflexivity. Qed.
  Lemma space_eqb_eq : forall x y, space_eqb x y = true -> x = y.
  Proof.
    apply list_eqb_eq. intros [p u] [q v]; cbn. destruct (String.eqb p q) eqn:F; [|discriminate].
    apply String.eqb_eq in F. intros H. apply obj_eqb_eq in H. congruence.
  Qed.
  Lemma find_filter : forall n a, existsb (String.eqb n) files = false -> find n (filter nonfile a) = find n a.
  Proof.
    intros n a H. induction a as [|[k o] a IH]; [reflexivity|]. cbn. unfold nonfile at 1. cbn [fst].
    destruct (String.eqb k n) eqn:K.
    - apply String.eqb_eq in K. subst k. rewrite H. cbn. rewrite String.eqb_refl. reflexivity.
    - destruct (negb (existsb (String.eqb k) files)); cbn; rewrite ?K; exact IH.
  Qed.

  Lemma ok_pkg : forall s, ok s -> exists a, ns Pkg s = Some a /\
    (forall n, existsb (String.eqb n) files = false -> find n a = attr0 n) /\
    (forall m, m <> Pkg -> find (file_of m) a = if has m s then Some (Mod m) else None) /\
    (forall m, m <> Pkg -> eager m = true -> has m s = true) /\
    (forall m, m <> Pkg -> has m s = true -> can e m = true /\ ns m s = full e m) /\
    (forall m, m <> Pkg -> has m s = false -> check_load e (states e) s m = true) /\
    (has Algorithms s = true -> has Ranking s = true).
  Proof.
    intros s Hs. pose proof (ok_check s Hs) as H. unfold check in H. destruct (ns Pkg s) as [a|] eqn:Ea; [|discriminate].
    rewrite !andb_true_iff in H. destruct H as (((((H1 & H2) & H3) & H4) & H5) & H6).
    exists a. split; [reflexivity|]. rewrite forallb_forall in H2, H3, H4, H5.
    split; [|split; [|split; [|split; [|split]]]].
    - intros n Hn. apply space_eqb_eq in H1. unfold attr0. rewrite <- H1. symmetry. apply find_filter, Hn.
    - intros m Hm. exact (opt_eqb_eq _ obj_eqb_eq _ _ (H2 m (sub_In m Hm))).
    - intros m Hm He. specialize (H3 m (sub_In m Hm)). cbv beta in H3. destruct (has m s); [reflexivity|]. rewrite He in H3. discriminate H3.
    - intros m Hm Hh. specialize (H3 m (sub_In m Hm)). cbv beta in H3. rewrite Hh in H3. split; [exact H3|].
      specialize (H4 (m, full e m) (in_map (fun m => (m, full e m)) _ _ (sub_In m Hm))). cbn [fst snd] in H4. rewrite Hh in H4.
      exact (opt_eqb_eq _ space_eqb_eq _ _ H4).
    - intros m Hm Hh. assert (L : In m late).
      { specialize (H3 m (sub_In m Hm)). cbv beta in H3. rewrite Hh in H3. destruct m; try discriminate H3; try (now contradiction Hm); cbn; auto. }
      specialize (H5 m L). cbv beta in H5. rewrite Hh in H5. exact H5.
    - intros HA. rewrite HA in H6. exact H6.
  Qed.

  Lemma import_loaded : forall m s, has m s = true -> import e m s = (s, IOk tt).
  Proof. intros m s H. unfold has in H. unfold import. cbn [load]. destruct (ns m s); [reflexivity|discriminate]. Qed.

  (** Importing a module from a state of the program. *)
  Lemma ok_import : forall s m, ok s -> m <> Pkg ->
    (can e m = false /\ has m s = false /\ import e m s = (s, IErr (NotInstalled Sklearn))) \/
    (can e m = true /\ exists s1, import e m s = (s1, IOk tt) /\ ok s1 /\ ns m s1 = full e m /\ has m s1 = true /\
       (forall m', m' <> Pkg -> has m' s1 = has m' s || pulled m m')).
  Proof.
    intros s m Hs Hm. destruct (ok_pkg s Hs) as (a & Ea & _ & _ & He & Hh & Hl & HR).
    destruct (has m s) eqn:H.
    - right. destruct (Hh m Hm H) as [C F]. split; [exact C|]. exists s. split; [exact (import_loaded m s H)|]. split; [exact Hs|].
      split; [exact F|]. split; [exact H|]. intros m' Hm'. destruct (has m' s) eqn:H'; [reflexivity|]. cbn.
      symmetry. destruct (pulled m m') eqn:P; [|reflexivity]. exfalso. unfold pulled in P. apply orb_true_iff in P. destruct P as [P|P].
      + apply modname_eqb_eq in P. congruence.
      + destruct m; try discriminate P. destruct m'; try discriminate P. rewrite (HR H) in H'. discriminate H'.
    - specialize (Hl m Hm H). unfold check_load in Hl. destruct (import e m s) as [s1 [[]|x]].
      + rewrite !andb_true_iff in Hl. destruct Hl as ((C & I) & P). right. split; [exact C|]. exists s1. split; [reflexivity|].
        apply mem_In in I. split; [exact I|]. rewrite forallb_forall in P.
        assert (H1 : has m s1 = true).
        { specialize (P m (sub_In m Hm)). apply eqb_prop in P. rewrite P. unfold pulled. rewrite (proj2 (modname_eqb_eq m m) eq_refl). apply orb_true_r. }
        destruct (ok_pkg s1 I) as (a1 & _ & _ & _ & _ & F & _ & _). split; [exact (proj2 (F m Hm H1))|]. split; [exact H1|].
        intros m' Hm'. exact (eqb_prop _ _ (P m' (sub_In m' Hm'))).
      + destruct x as [| |[]| |]; try discriminate Hl. apply andb_true_iff in Hl. destruct Hl as [C S]. left.
        apply negb_true_iff in C. apply state_eqb_eq in S. subst s1. repeat split; assumption.
  Qed.

  (** ** One use *)
  Lemma estimator_In : forall n, estimator n = true ->
    n = "KernelMachine" \/ n = "KernelMachineRegressor" \/ n = "OptimalKernelSVC" \/ n = "OptimalKernelSVR".
  Proof.
    intros n H. unfold estimator in H. cbn [existsb] in H. rewrite !orb_true_iff, !String.eqb_eq in H.
    destruct H as [H|[H|[H|[H|H]]]]; auto. discriminate H.
  Qed.
  Lemma estimator_facts : forall n, estimator n = true ->
    existsb (String.eqb n) files = false /\ attr0 n = None /\
    (b = true -> exists a, full e Algorithms = Some a /\ find n a = Some (Def Algorithms n) /\
       forallb (fun i => match find i a with Some _ => true | None => false end) lazy_imports = true).
  Proof.
    intros n H. apply estimator_In in H.
    assert (I : In n ests) by (cbn; destruct H as [-> | [-> | [-> | ->]]]; auto).
    pose proof (proj1 (forallb_forall _ _) (proj1 (proj2 (proj2 good_parts))) n I) as C. unfold check_est in C. apply andb_true_iff in C. destruct C as [C D].
    split; [destruct H as [-> | [-> | [-> | ->]]]; reflexivity|]. split; [exact (opt_eqb_eq _ obj_eqb_eq _ _ C)|].
    intros B. rewrite B in D. destruct (full e Algorithms) as [a|]; [|discriminate D]. apply andb_true_iff in D. destruct D as [D1 D2].
    exists a. split; [reflexivity|]. split; [exact (opt_eqb_eq _ obj_eqb_eq _ _ D1)|exact D2].
  Qed.

  Definition moved (s s1 : modules) (f : modname -> bool) : Prop :=
    ok s1 /\ forall m', m' <> Pkg -> has m' s1 = has m' s || f m'.
  Lemma stay : forall s f, ok s -> (forall m', m' <> Pkg -> f m' = true -> has m' s = true) -> moved s s f.
  Proof.
    intros s f H K. split; [exact H|]. intros m' Hm. destruct (f m') eqn:F; [rewrite (K m' Hm F); reflexivity|symmetry; apply orb_false_r].
  Qed.

  Definition est_res (n : string) : ires obj := if b then IOk (Def Algorithms n) else IErr (NotInstalled Sklearn).
  Lemma attribute_plain : forall n s, ok s -> existsb (String.eqb n) files = false -> estimator n = false ->
    attribute e n s = (s, match attr0 n with Some o => IOk o | None => IErr AttributeErr end).
  Proof.
    intros n s Hs Hn He. destruct (ok_pkg s Hs) as (a & Ea & Hf & _). unfold attribute. rewrite Ea, (Hf n Hn).
    change (existsb (String.eqb n) lazy_names) with (estimator n). rewrite He. destruct (attr0 n); reflexivity.
  Qed.
  Lemma attribute_est : forall n s, ok s -> estimator n = true ->
    snd (attribute e n s) = est_res n /\ moved s (fst (attribute e n s)) (fun m' => b && pulled Algorithms m').
  Proof.
    intros n s Hs He. destruct (estimator_facts n He) as (Hn & H0 & Hfull). destruct (ok_pkg s Hs) as (a & Ea & Hf & _).
    unfold attribute. rewrite Ea, (Hf n Hn), H0. change (existsb (String.eqb n) lazy_names) with (estimator n). rewrite He.
    unfold est_res.
    destruct (ok_import s Algorithms Hs ltac:(discriminate)) as [(C & Hh & ->)|(C & s1 & -> & H1 & F & Hh & P)]; cbn in C; rewrite C.
    - cbn. split; [reflexivity|]. apply stay; [exact Hs|]. discriminate.
    - destruct (Hfull C) as (d & Fd & Ff & Fl). rewrite F, Fd, Fl, Ff. cbn [fst snd andb]. split; [reflexivity|]. split; [exact H1|exact P].
  Qed.
  Lemma file_In : forall n, existsb (String.eqb n) files = true -> exists m, m <> Pkg /\ n = file_of m.
  Proof.
    intros n H. unfold files in H. cbn [existsb] in H. rewrite !orb_true_iff, !String.eqb_eq in H.
    repeat destruct H as [H|H]; try discriminate H; subst n;
      [exists Config|exists Utils|exists Operations|exists Base|exists Numeric|exists Sampling|exists Ranking|exists Algorithms|exists Categorical|exists Version|exists Tests]; split; try discriminate; reflexivity.
  Qed.
  Lemma attribute_file : forall m s, ok s -> m <> Pkg ->
    attribute e (file_of m) s = (s, if has m s then IOk (Mod m) else IErr AttributeErr).
  Proof.
    intros m s Hs Hm. destruct (ok_pkg s Hs) as (a & Ea & _ & Hf & _). unfold attribute. rewrite Ea, (Hf m Hm).
    destruct (has m s); [reflexivity|]. destruct m; try (now contradiction Hm); reflexivity.
  Qed.
  Lemma submodule_of : forall m, m <> Pkg -> List.find (fun p => String.eqb (fst p) (file_of m)) submodules = Some (file_of m, m).
  Proof. intros [| | | | | | | | | | |] H; try (now contradiction H); reflexivity. Qed.
  Lemma no_submodule : forall n, existsb (String.eqb n) files = false -> List.find (fun p => String.eqb (fst p) n) submodules = None.
  Proof.
    intros n H. unfold files in H. cbn [existsb] in H. rewrite !orb_false_iff in H. unfold submodules. cbn [List.find fst].
    repeat match goal with |- (if String.eqb ?x n then _ else _) = _ => rewrite (String.eqb_sym x n) end.
    repeat match type of H with _ /\ _ => let K := fresh in destruct H as [K H]; rewrite ?(String.eqb_sym _ n), ?K end.
    repeat (rewrite (String.eqb_sym _ n); match goal with K : (n =? _)%string = false |- _ => rewrite K; clear K end). reflexivity.
  Qed.

  Definition plain_res (n : string) : ires obj := match attr0 n with Some o => IOk o | None => IErr ImportErr end.
  Lemma from_plain : forall n s, ok s -> existsb (String.eqb n) files = false -> estimator n = false ->
    from_package e n s = (s, plain_res n).
  Proof.
    intros n s Hs Hn He. pose proof (attribute_plain n s Hs Hn He) as A. unfold from_package, plain_res. rewrite A.
    destruct (attr0 n) eqn:E; [exact A|]. rewrite (no_submodule n Hn). reflexivity.
  Qed.
  Lemma pulled_idem : forall m s, ok s -> has m s = true -> forall m', m' <> Pkg -> pulled m m' = true -> has m' s = true.
  Proof.
    intros m s Hs Hm m' Hm' H. unfold pulled in H. apply orb_true_iff in H. destruct H as [H|H].
    - apply modname_eqb_eq in H. congruence.
    - destruct m; try discriminate H. destruct m'; try discriminate H. destruct (ok_pkg s Hs) as (a & _ & _ & _ & _ & _ & _ & HR). exact (HR Hm).
  Qed.
  Lemma from_est : forall n s, ok s -> estimator n = true ->
    snd (from_package e n s) = est_res n /\ moved s (fst (from_package e n s)) (fun m' => b && pulled Algorithms m').
  Proof.
    intros n s Hs He. pose proof (attribute_est n s Hs He) as [A M]. unfold from_package.
    destruct (attribute e n s) as [s1 r]. cbn [fst snd] in A, M. subst r. unfold est_res. destruct b eqn:B.
    - destruct M as [O P]. destruct (attribute_est n s1 O He) as [A2 [O2 P2]]. split; [rewrite A2; unfold est_res; rewrite B; reflexivity|].
      split; [exact O2|]. intros m' Hm'. rewrite (P2 m' Hm'), (P m' Hm'). rewrite B. destruct (has m' s), (pulled Algorithms m'); reflexivity.
    - cbn. split; [reflexivity|exact M].
  Qed.
  Definition file_res (m : modname) : ires obj := if can e m then IOk (Mod m) else IErr (NotInstalled Sklearn).
  Lemma from_file : forall m s, ok s -> m <> Pkg ->
    snd (from_package e (file_of m) s) = file_res m /\ moved s (fst (from_package e (file_of m) s)) (fun m' => can e m && pulled m m').
  Proof.
    intros m s Hs Hm. unfold from_package, file_res. rewrite (attribute_file m s Hs Hm). destruct (has m s) eqn:H.
    - rewrite (attribute_file m s Hs Hm), H. cbn [fst snd].
      destruct (ok_pkg s Hs) as (a & _ & _ & _ & _ & Hh & _). destruct (Hh m Hm H) as [C _]. rewrite C. split; [reflexivity|].
      apply stay; [exact Hs|]. cbn. exact (pulled_idem m s Hs H).
    - rewrite (submodule_of m Hm).
      destruct (ok_import s m Hs Hm) as [(C & Hh & ->)|(C & s1 & -> & H1 & F & Hh & P)]; rewrite C.
      + cbn. split; [reflexivity|]. apply stay; [exact Hs|]. discriminate.
      + rewrite (attribute_file m s1 H1 Hm), Hh. cbn. split; [reflexivity|]. split; [exact H1|exact P].
  Qed.
  Lemma import_file : forall m s, ok s -> m <> Pkg ->
    snd (import_sub e (file_of m) s) = (if can e m then IOk m else IErr (NotInstalled Sklearn)) /\
    moved s (fst (import_sub e (file_of m) s)) (fun m' => can e m && pulled m m') /\
    (can e m = true -> ns m (fst (import_sub e (file_of m) s)) = full e m).
  Proof.
    intros m s Hs Hm. unfold import_sub. rewrite (submodule_of m Hm).
    destruct (ok_import s m Hs Hm) as [(C & Hh & ->)|(C & s1 & -> & H1 & F & Hh & P)]; rewrite C; cbn [fst snd].
    - split; [reflexivity|]. split; [|discriminate]. apply stay; [exact Hs|]. discriminate.
    - split; [reflexivity|]. split; [|intros _; exact F]. split; [exact H1|exact P].
  Qed.
  Definition sub_res (m : modname) (n : string) : ires obj :=
    if can e m then match match full e m with Some d => find n d | None => None end with Some o => IOk o | None => IErr ImportErr end
    else IErr (NotInstalled Sklearn).
  Lemma from_sub_file : forall m n s, ok s -> m <> Pkg ->
    snd (from_sub e (file_of m) n s) = sub_res m n /\ moved s (fst (from_sub e (file_of m) n s)) (fun m' => can e m && pulled m m').
  Proof.
    intros m n s Hs Hm. destruct (import_file m s Hs Hm) as (A & M & F). unfold from_sub, sub_res.
    destruct (import_sub e (file_of m) s) as [s1 r]. cbn [fst snd] in A, M, F. subst r. destruct (can e m) eqn:C; [|cbn; split; [reflexivity|exact M]].
    rewrite (F eq_refl). destruct (match full e m with Some d => find n d | None => None end); cbn; split; try reflexivity; exact M.
  Qed.

  (** [from_all] on names that are not files. *)
  Definition name_res (n : string) : ires obj := if estimator n then est_res n else plain_res n.
  Fixpoint all_res (l : list string) : ires (list (string * obj)) :=
    match l with
    | [] => IOk []
    | n :: r => match name_res n with IOk o => match all_res r with IOk t => IOk ((n, o) :: t) | q => q end | IErr x => IErr x end
    end.
  Lemma from_all_res : forall l s, ok s -> (forall n, In n l -> existsb (String.eqb n) files = false) ->
    snd (from_all e l s) = all_res l /\
    exists t, moved s (fst (from_all e l s)) t /\ (forall m', t m' = true -> b = true /\ pulled Algorithms m' = true) /\
      ((exists o, all_res l = IOk o) -> existsb estimator l = true -> forall m', pulled Algorithms m' = true -> t m' = true).
  Proof.
    induction l as [|n l IH]; intros s Hs Hl.
    - cbn. split; [reflexivity|]. exists (fun _ => false). split; [apply stay; [exact Hs|discriminate]|]. split; discriminate.
    - assert (HnF := Hl n (or_introl eq_refl)).
      assert (S : snd (from_package e n s) = name_res n /\ moved s (fst (from_package e n s)) (fun m' => b && estimator n && pulled Algorithms m')).
      { unfold name_res. destruct (estimator n) eqn:En.
        - rewrite andb_true_r. exact (from_est n s Hs En).
        - rewrite (from_plain n s Hs HnF En). split; [reflexivity|]. rewrite andb_false_r. apply stay; [exact Hs|discriminate]. }
      destruct S as [A M]. cbn [from_all all_res]. destruct (from_package e n s) as [s1 r]. cbn [fst snd] in A, M. rewrite <- A.
      destruct r as [o|x].
      + destruct M as [O P]. destruct (IH s1 O (fun k Hk => Hl k (or_intror Hk))) as (A2 & t & [O2 P2] & T1 & T2).
        destruct (from_all e l s1) as [s2 r2]. cbn [fst snd] in A2, O2, P2. rewrite <- A2.
        destruct r2 as [t2|x2]; cbn [fst snd]; (split; [reflexivity|]);
          exists (fun m' => (b && estimator n && pulled Algorithms m') || t m');
          (split; [split; [exact O2|intros m' Hm'; rewrite (P2 m' Hm'), (P m' Hm'); symmetry; apply orb_assoc]|]);
          (split; [intros m' H; apply orb_true_iff in H; destruct H as [H|H]; [rewrite !andb_true_iff in H; tauto|exact (T1 m' H)]|]);
          intros [o' Ho] He m' Hp; [|discriminate Ho].
        cbn [existsb] in He. apply orb_true_iff in He. destruct He as [He|He].
        * rewrite He, Hp. unfold name_res in A. rewrite He in A. unfold est_res in A. destruct b; [reflexivity|discriminate A].
        * apply orb_true_iff. right. apply T2; [|exact He|exact Hp]. eexists. symmetry. exact A2.
      + split; [reflexivity|]. eexists. split; [exact M|]. split.
        * intros m' H. cbv beta in H. rewrite !andb_true_iff in H. tauto.
        * intros [o Ho]. discriminate Ho.
  Qed.

  Lemma finish : forall s s1 f u, ok s -> moved s s1 f -> (forall m, m <> Pkg -> eager m = false -> f m = needed e [u] m) ->
    moved s s1 (needed e [u]).
  Proof.
    intros s s1 f u Hs [O P] H. split; [exact O|]. intros m Hm. rewrite (P m Hm). destruct (eager m) eqn:E.
    - destruct (ok_pkg s Hs) as (a & _ & _ & _ & He & _). rewrite (He m Hm E). reflexivity.
    - rewrite (H m Hm E). reflexivity.
  Qed.
  Lemma files_not_est : forall m, estimator (file_of m) = false.
  Proof. intros []; reflexivity. Qed.
  Lemma not_file : forall n m, existsb (String.eqb n) files = false -> m <> Pkg -> String.eqb n (file_of m) = false.
  Proof.
    intros n m H Hm. destruct (String.eqb n (file_of m)) eqn:E; [|reflexivity]. apply String.eqb_eq in E. subst n.
    destruct m; try discriminate H. now contradiction Hm.
  Qed.
  Lemma file_eqb : forall m m', String.eqb (file_of m) (file_of m') = modname_eqb m m'.
  Proof. intros [] []; reflexivity. Qed.

  Lemma pkg_loaded : forall s, ok s -> import e Pkg s = (s, IOk tt).
  Proof. intros s Hs. apply import_loaded. unfold has. destruct (ok_pkg s Hs) as (a & -> & _). reflexivity. Qed.
  Lemma on_ok_fst : forall {A B} (f : A -> B) r, fst (on_ok f r) = fst r.
  Proof. intros A B f [s [a|x]]; reflexivity. Qed.
  Definition okmap {A B} (f : A -> B) (r : ires A) : ires B := match r with IOk a => IOk (f a) | IErr x => IErr x end.
  Lemma on_ok_snd : forall {A B} (f : A -> B) r, snd (on_ok f r) = okmap f (snd r).
  Proof. intros A B f [s [a|x]]; reflexivity. Qed.

  Lemma exports_nonfile : forall n, In n exports -> existsb (String.eqb n) files = false.
  Proof. intros n H. unfold exports in H. cbn [In] in H. repeat destruct H as [<-|H]; try reflexivity. contradiction H. Qed.

  Lemma home_In : forall n m, home n = Some m -> In n plain_exports.
  Proof.
    intros n m. unfold home.
    repeat match goal with
    | |- context [if ?c then _ else _] => destruct c eqn:?
    end; try discriminate; intros _;
      repeat match goal with H : existsb _ _ = true |- _ => cbn [existsb] in H; rewrite !orb_true_iff, !String.eqb_eq in H | H : (_ =? _)%string = true |- _ => apply String.eqb_eq in H; subst; cbn; auto 20 end;
      repeat match goal with H : _ \/ _ |- _ => destruct H as [H|H] end; subst; try discriminate; cbn; auto 20.
  Qed.
  Lemma home_facts : forall n m, home n = Some m ->
    existsb (String.eqb n) files = false /\ estimator n = false /\ m <> Pkg /\ can e m = true /\ attr0 n = Some (Def m n) /\ sub_res m n = IOk (Def m n).
  Proof.
    intros n m H. pose proof (home_In n m H) as I.
    pose proof (proj1 (forallb_forall _ _) (proj1 (proj2 (proj2 (proj2 good_parts)))) n I) as C. unfold check_home in C. rewrite H in C.
    rewrite !andb_true_iff in C. destruct C as (((C & C0) & C1) & C2). apply (opt_eqb_eq _ obj_eqb_eq) in C1. apply (opt_eqb_eq _ obj_eqb_eq) in C2.
    split; [|split]; [clear - I; cbn [In plain_exports] in I; repeat destruct I as [<-|I]; try reflexivity; contradiction I
                      |clear - I; cbn [In plain_exports] in I; repeat destruct I as [<-|I]; try reflexivity; contradiction I|].
    split; [intros ->; discriminate C0|]. split; [exact C|]. split; [exact C1|]. unfold sub_res. rewrite C, C2. reflexivity.
  Qed.
  Lemma all_res_ok : forall l, (forall n, In n l -> exists o, name_res n = IOk o) -> exists o, all_res l = IOk o.
  Proof.
    induction l as [|n l IH]; intros H; [eexists; reflexivity|]. cbn [all_res]. destruct (H n (or_introl eq_refl)) as [o ->].
    destruct (IH (fun k Hk => H k (or_intror Hk))) as [t ->]. eexists; reflexivity.
  Qed.
  Lemma exports_cases : forall n, In n exports -> estimator n = true \/ exists m, home n = Some m.
  Proof. intros n H. unfold exports in H. cbn [In] in H. repeat destruct H as [<-|H]; try (left; reflexivity); try (right; eexists; reflexivity). contradiction H. Qed.
  Lemma exports_ok : b = true -> exists o, all_res exports = IOk o.
  Proof.
    intros B. apply all_res_ok. intros n H. destruct (exports_cases n H) as [E|[m Hm]]; unfold name_res.
    - rewrite E. unfold est_res. rewrite B. eexists; reflexivity.
    - destruct (home_facts n m Hm) as (_ & -> & _ & _ & A & _). unfold plain_res. rewrite A. eexists; reflexivity.
  Qed.

  Lemma step : forall u s, ok s -> moved s (fst (do_use e u s)) (needed e [u]).
  Proof.
    intros u s Hs. unfold do_use. rewrite (pkg_loaded s Hs).
    assert (Z : forall v, (forall m, m <> Pkg -> eager m = false -> needed e [v] m = false) -> moved s s (needed e [v])).
    { intros v Hv. apply (finish s s (fun _ => false) v Hs); [apply stay; [exact Hs|discriminate]|]. intros m Hm He. symmetry. exact (Hv m Hm He). }
    destruct u as [|n|n| |a|a n]; rewrite ?on_ok_fst.
    - apply Z. intros [] Hm He; try discriminate He; cbn; rewrite ?andb_false_r; reflexivity.
    - destruct (estimator n) eqn:En.
      + apply (finish s _ _ _ Hs (proj2 (attribute_est n s Hs En))). intros m' Hm' He. unfold needed, wants_estimators, names_file. cbn [existsb]. rewrite En. destruct m'; try discriminate He; cbn; rewrite ?andb_false_r, ?andb_true_r; reflexivity.
      + assert (F : fst (attribute e n s) = s).
        { destruct (existsb (String.eqb n) files) eqn:Fn.
          - destruct (file_In n Fn) as (m & Hm & ->). rewrite (attribute_file m s Hs Hm). reflexivity.
          - rewrite (attribute_plain n s Hs Fn En). reflexivity. }
        rewrite F. apply Z. intros m' Hm' He. unfold needed, wants_estimators, names_file. cbn [existsb]. rewrite En. destruct m'; try discriminate He; cbn; rewrite ?andb_false_r, ?andb_true_r; reflexivity.
    - destruct (existsb (String.eqb n) files) eqn:Fn.
      + destruct (file_In n Fn) as (m & Hm & ->). apply (finish s _ _ _ Hs (proj2 (from_file m s Hs Hm))).
        intros m' Hm' He. unfold needed, wants_estimators, names_file. cbn [existsb]. rewrite !file_eqb, files_not_est.
        destruct m' ; try discriminate He; destruct m; try (now contradiction Hm); cbn; rewrite ?andb_false_r, ?andb_true_r; reflexivity.
      + destruct (estimator n) eqn:En.
        * apply (finish s _ _ _ Hs (proj2 (from_est n s Hs En))).
          intros m' Hm' He. unfold needed, wants_estimators, names_file. cbn [existsb]. rewrite En, !(not_file n _ Fn) by (try discriminate; exact Hm').
          destruct m'; try discriminate He; cbn; rewrite ?andb_false_r, ?andb_true_r; reflexivity.
        * rewrite (from_plain n s Hs Fn En). apply Z. intros m' Hm' He. unfold needed, wants_estimators, names_file. cbn [existsb].
          rewrite En, !(not_file n _ Fn) by (try discriminate; exact Hm').
          destruct m'; try discriminate He; cbn; rewrite ?andb_false_r, ?andb_true_r; reflexivity.
    - destruct (from_all_res exports s Hs exports_nonfile) as (A & t & M & T1 & T2).
      apply (finish s _ t _ Hs M). intros m' Hm' He.
      pose proof exports_ok as R.
      destruct b eqn:B.
      + destruct (pulled Algorithms m') eqn:P.
        * rewrite (T2 (R eq_refl) eq_refl m' P). destruct m'; try discriminate P; cbn; rewrite B; reflexivity.
        * assert (T : t m' = false) by (destruct (t m') eqn:T; [destruct (T1 m' T); congruence|reflexivity]). rewrite T.
          destruct m'; try discriminate He; try discriminate P; reflexivity.
      + assert (T : t m' = false) by (destruct (t m') eqn:T; [destruct (T1 m' T); congruence|reflexivity]). rewrite T.
        destruct m'; try discriminate He; cbn; rewrite ?B; reflexivity.
    - destruct (existsb (String.eqb a) files) eqn:Fn.
      + destruct (file_In a Fn) as (m & Hm & ->). apply (finish s _ _ _ Hs (proj1 (proj2 (import_file m s Hs Hm)))).
        intros m' Hm' He. unfold needed, wants_estimators, names_file. cbn [existsb]. rewrite !file_eqb.
        destruct m' ; try discriminate He; destruct m; try (now contradiction Hm); cbn; rewrite ?andb_false_r, ?andb_true_r; reflexivity.
      + unfold import_sub. rewrite (no_submodule a Fn). apply Z. intros m' Hm' He. unfold needed, wants_estimators, names_file. cbn [existsb].
        rewrite !(not_file a _ Fn) by (try discriminate; exact Hm').
        destruct m'; try discriminate He; cbn; rewrite ?andb_false_r, ?andb_true_r; reflexivity.
    - destruct (existsb (String.eqb a) files) eqn:Fn.
      + destruct (file_In a Fn) as (m & Hm & ->). apply (finish s _ _ _ Hs (proj2 (from_sub_file m n s Hs Hm))).
        intros m' Hm' He. unfold needed, wants_estimators, names_file. cbn [existsb]. rewrite !file_eqb.
        destruct m' ; try discriminate He; destruct m; try (now contradiction Hm); cbn; rewrite ?andb_false_r, ?andb_true_r; reflexivity.
      + unfold from_sub, import_sub. rewrite (no_submodule a Fn). apply Z. intros m' Hm' He. unfold needed, wants_estimators, names_file. cbn [existsb].
        rewrite !(not_file a _ Fn) by (try discriminate; exact Hm').
        destruct m'; try discriminate He; cbn; rewrite ?andb_false_r, ?andb_true_r; reflexivity.
  Qed.

  (** What a use yields does not depend on the state, except for the attributes named like the
      modules that are not imported with the package. *)
  Lemma same_result : forall u s s', ok s -> ok s' ->
    (forall m, m <> Pkg -> eager m = false -> u <> Attribute (file_of m)) -> snd (do_use e u s) = snd (do_use e u s').
  Proof.
    intros u s s' Hs Hs' Hu. unfold do_use. rewrite (pkg_loaded s Hs), (pkg_loaded s' Hs').
    destruct u as [|n|n| |a|a n]; rewrite ?on_ok_snd; [reflexivity|f_equal|f_equal| |f_equal|f_equal].
    - destruct (existsb (String.eqb n) files) eqn:Fn.
      + destruct (file_In n Fn) as (m & Hm & ->). rewrite (attribute_file m s Hs Hm), (attribute_file m s' Hs' Hm). cbn [snd].
        destruct (eager m) eqn:Em; [|now contradiction (Hu m Hm Em)].
        destruct (ok_pkg s Hs) as (x & _ & _ & _ & He & _). destruct (ok_pkg s' Hs') as (x' & _ & _ & _ & He' & _).
        rewrite (He m Hm Em), (He' m Hm Em). reflexivity.
      + destruct (estimator n) eqn:En.
        * rewrite (proj1 (attribute_est n s Hs En)), (proj1 (attribute_est n s' Hs' En)). reflexivity.
        * rewrite (attribute_plain n s Hs Fn En), (attribute_plain n s' Hs' Fn En). reflexivity.
    - destruct (existsb (String.eqb n) files) eqn:Fn.
      + destruct (file_In n Fn) as (m & Hm & ->). rewrite (proj1 (from_file m s Hs Hm)), (proj1 (from_file m s' Hs' Hm)). reflexivity.
      + destruct (estimator n) eqn:En.
        * rewrite (proj1 (from_est n s Hs En)), (proj1 (from_est n s' Hs' En)). reflexivity.
        * rewrite (from_plain n s Hs Fn En), (from_plain n s' Hs' Fn En). reflexivity.
    - rewrite (proj1 (from_all_res exports s Hs exports_nonfile)), (proj1 (from_all_res exports s' Hs' exports_nonfile)). reflexivity.
    - destruct (existsb (String.eqb a) files) eqn:Fn.
      + destruct (file_In a Fn) as (m & Hm & ->). rewrite (proj1 (import_file m s Hs Hm)), (proj1 (import_file m s' Hs' Hm)). reflexivity.
      + unfold import_sub. rewrite (no_submodule a Fn). reflexivity.
    - destruct (existsb (String.eqb a) files) eqn:Fn.
      + destruct (file_In a Fn) as (m & Hm & ->). rewrite (proj1 (from_sub_file m n s Hs Hm)), (proj1 (from_sub_file m n s' Hs' Hm)). reflexivity.
      + unfold from_sub, import_sub. rewrite (no_submodule a Fn). reflexivity.
  Qed.

  Lemma first_use : forall u, do_use e u [] = do_use e u (start e).
  Proof.
    intros u. pose proof (proj2 (proj2 (proj2 (proj2 (proj2 good_parts))))) as H.
    unfold do_use at 2. rewrite (pkg_loaded _ ok_start). unfold do_use. rewrite start_eq. unfold do_use.
    destruct (import e Pkg []) as [s0 [[]|x]]; [reflexivity|discriminate H].
  Qed.
  Lemma needed_app : forall us u m, needed e (us ++ [u])%list m = needed e us m || needed e [u] m.
  Proof.
    intros us u m. unfold needed. destruct m; rewrite ?existsb_app; cbn [existsb]; rewrite ?orb_false_r; try reflexivity.
    - destruct (existsb _ us), (names_file Ranking u), (sklearn e), (existsb _ us), (wants_estimators u); reflexivity.
    - destruct (sklearn e), (existsb _ us), (wants_estimators u); reflexivity.
  Qed.
  (** The state in which the next use finds the package. *)
  Definition now_at (us : list use) : modules := match us with [] => start e | _ => session e us end.
  Lemma now_do : forall us u, do_use e u (session e us) = do_use e u (now_at us).
  Proof. intros [|v us] u; [exact (first_use u)|reflexivity]. Qed.
  Lemma now_step : forall us u, now_at (us ++ [u])%list = fst (do_use e u (now_at us)).
  Proof.
    intros us u. rewrite <- now_do. unfold now_at at 1, session. destruct (us ++ [u])%list eqn:E; [destruct us; discriminate E|].
    rewrite <- E, fold_left_app. reflexivity.
  Qed.
  Lemma now_ok : forall us, ok (now_at us) /\ forall m, m <> Pkg -> has m (now_at us) = needed e us m.
  Proof.
    intros us. induction us as [|u us [O H]] using rev_ind.
    - cbn [now_at]. split; [exact ok_start|]. intros m Hm. destruct (ok_pkg _ ok_start) as (a & _ & _ & _ & He & _).
      destruct (eager m) eqn:E; [rewrite (He m Hm E); destruct m; try discriminate E; reflexivity|].
      pose proof (proj2 (proj2 (proj2 (proj2 (proj2 good_parts))))) as L. destruct (import e Pkg []) as [s0 [[]|x]]; [|discriminate L].
      rewrite forallb_forall in L. assert (I : In m late) by (destruct m; try discriminate E; cbn; auto).
      specialize (L m I). apply negb_true_iff in L. rewrite L. destruct m; try discriminate E; cbn; rewrite ?andb_false_r; reflexivity.
    - rewrite now_step. destruct (step u _ O) as [O1 P]. split; [exact O1|]. intros m Hm. rewrite (P m Hm), (H m Hm). symmetry. apply needed_app.
  Qed.
End Installed.

(** ** The theorems *)
Lemma bad_numpy : forall sc sk u, do_use (mkInstalled false sc sk) u [] = ([], IErr (NotInstalled Numpy)).
Proof. intros sc sk u. reflexivity. Qed.
Definition half (sk : bool) : modules := fst (do_use (mkInstalled true false sk) Import []).
Lemma bad_scipy : forall sk u, do_use (mkInstalled true false sk) u [] = (half sk, IErr (NotInstalled Scipy)) /\
  do_use (mkInstalled true false sk) u (half sk) = (half sk, IErr (NotInstalled Scipy)).
Proof. intros sk u. split; vm_compute; reflexivity. Qed.
Lemma bad_session : forall e us u, numpy e && scipy e = false ->
  snd (do_use e u (session e us)) = IErr (NotInstalled (if numpy e then Scipy else Numpy)).
Proof.
  intros [np sc sk] us u. cbn [numpy scipy]. destruct np; cbn.
  - intros ->. assert (H : session (mkInstalled true false sk) us = [] \/ session (mkInstalled true false sk) us = half sk).
    { induction us as [|v us IH] using rev_ind; [left; reflexivity|right]. unfold session in *. rewrite fold_left_app. cbn [fold_left].
      destruct IH as [->| ->]; [rewrite (proj1 (bad_scipy sk v))|rewrite (proj2 (bad_scipy sk v))]; reflexivity. }
    destruct H as [->| ->]; [rewrite (proj1 (bad_scipy sk u))|rewrite (proj2 (bad_scipy sk u))]; reflexivity.
  - intros _. assert (H : session (mkInstalled false sc sk) us = []).
    { induction us as [|v us IH] using rev_ind; [reflexivity|]. unfold session in *. rewrite fold_left_app. cbn [fold_left]. rewrite IH. rewrite (bad_numpy sc sk v). reflexivity. }
    rewrite H, bad_numpy. reflexivity.
Qed.
Lemma good_of : forall e, numpy e = true -> scipy e = true -> good e = true.
Proof. intros [np sc sk]. cbn [numpy scipy]. intros -> ->. exact (all_good sk). Qed.

(** C105: [import kernelmethods] needs numpy and scipy only, at any point of any program; without
    them everything fails with the first one that is missing. *)
Lemma pf_C105_import :
  forall e us,
    snd (do_use e Import (session e us)) =
      (if numpy e then if scipy e then IOk [("kernelmethods", Mod Pkg)] else IErr (NotInstalled Scipy)
       else IErr (NotInstalled Numpy)) /\
    (forall u, numpy e && scipy e = false ->
       snd (do_use e u (session e us)) = snd (do_use e Import (session e us))).
Proof.
  intros e us. split.
  - destruct (numpy e && scipy e) eqn:B.
    + apply andb_true_iff in B. destruct B as [B1 B2]. rewrite B1, B2. pose proof (good_of e B1 B2) as G.
      rewrite (now_do e G us Import). unfold do_use. rewrite (pkg_loaded e G _ (proj1 (now_ok e G us))). reflexivity.
    + rewrite (bad_session e us Import B). destruct (numpy e); [|reflexivity]. cbn in B. rewrite B. reflexivity.
  - intros u B. rewrite (bad_session e us u B), (bad_session e us Import B). reflexivity.
Qed.

(** C105: the result of every use is the same at any point of any program, except for the
    attributes named like the modules that the package does not import itself. *)
Lemma pf_C105_history_free :
  forall e us u, (forall m, eager m = false -> u <> Attribute (file_of m)) ->
    snd (do_use e u (session e us)) = snd (do_use e u []).
Proof.
  intros e us u Hu. destruct (numpy e && scipy e) eqn:B.
  - apply andb_true_iff in B. destruct B as [B1 B2]. pose proof (good_of e B1 B2) as G.
    rewrite (now_do e G us u), (first_use e G u). apply (same_result e G); [exact (proj1 (now_ok e G us))|exact (ok_start e G)|].
    intros m _ Hm. exact (Hu m Hm).
  - rewrite (bad_session e us u B). symmetry. exact (bad_session e [] u B).
Qed.

(** C105: the fifteen names other than the estimators are at any point what their modules
    define, whichever way they are imported, and fetching them from the package loads nothing. *)
Lemma pf_C105_names :
  forall e us n m, numpy e = true -> scipy e = true -> home n = Some m ->
    snd (do_use e (Attribute n) (session e us)) = IOk [(n, Def m n)] /\
    snd (do_use e (FromPackage n) (session e us)) = IOk [(n, Def m n)] /\
    snd (do_use e (FromSub (file_of m) n) (session e us)) = IOk [(n, Def m n)] /\
    fst (do_use e (Attribute n) (session e us)) = fst (do_use e Import (session e us)) /\
    fst (do_use e (FromPackage n) (session e us)) = fst (do_use e Import (session e us)).
Proof.
  intros e us n m B1 B2 H. pose proof (good_of e B1 B2) as G. destruct (home_facts e G n m H) as (Fn & En & Hm & C & A & Sr).
  pose proof (proj1 (now_ok e G us)) as O. rewrite !(now_do e G us). unfold do_use. rewrite (pkg_loaded e G _ O).
  rewrite !on_ok_snd, !on_ok_fst, (attribute_plain e G n _ O Fn En), (from_plain e G n _ O Fn En), (proj1 (from_sub_file e G m n _ O Hm)).
  unfold plain_res. rewrite A, Sr. cbn. auto.
Qed.

(** C105: the four estimators are there exactly when scikit-learn is; otherwise asking for them
    (and so hasattr) raises ModuleNotFoundError, not AttributeError. *)
Lemma pf_C105_estimators :
  forall e us n, numpy e = true -> scipy e = true -> estimator n = true ->
    forall u, In u [Attribute n; FromPackage n; FromSub "algorithms" n] ->
      snd (do_use e u (session e us)) = (if sklearn e then IOk [(n, Def Algorithms n)] else IErr (NotInstalled Sklearn)) /\
      (sklearn e = false -> fst (do_use e u (session e us)) = fst (do_use e Import (session e us))).
Proof.
  intros e us n B1 B2 En u Hu. pose proof (good_of e B1 B2) as G. pose proof (proj1 (now_ok e G us)) as O.
  rewrite !(now_do e G us). unfold do_use. rewrite (pkg_loaded e G _ O). set (s := now_at e us) in *.
  cbn [In] in Hu. destruct Hu as [<-|[<-|[<-|[]]]]; rewrite on_ok_snd, on_ok_fst.
  - rewrite (proj1 (attribute_est e G n s O En)). split; [unfold est_res; destruct (sklearn e); reflexivity|].
    intros B. unfold attribute. destruct (ok_pkg e G s O) as (a & -> & Hf & _). destruct (estimator_facts e G n En) as (Fn & A0 & _).
    rewrite (Hf n Fn), A0. destruct (existsb (String.eqb n) lazy_names); [|reflexivity].
    destruct (ok_import e G s Algorithms O ltac:(discriminate)) as [(C & Hh & ->)|(C & _)]; [reflexivity|cbn in C; congruence].
  - rewrite (proj1 (from_est e G n s O En)). split; [unfold est_res; destruct (sklearn e); reflexivity|].
    intros B. unfold from_package, attribute. destruct (ok_pkg e G s O) as (a & -> & Hf & _). destruct (estimator_facts e G n En) as (Fn & A0 & _).
    rewrite (Hf n Fn), A0. change (existsb (String.eqb n) lazy_names) with (estimator n). rewrite En.
    destruct (ok_import e G s Algorithms O ltac:(discriminate)) as [(C & Hh & ->)|(C & _)]; [reflexivity|cbn in C; congruence].
  - change "algorithms" with (file_of Algorithms). rewrite (proj1 (from_sub_file e G Algorithms n s O ltac:(discriminate))). split.
    + unfold sub_res. cbn [can]. destruct (sklearn e) eqn:B; [|reflexivity].
      destruct (estimator_facts e G n En) as (_ & _ & X). destruct (X B) as (a & -> & -> & _). reflexivity.
    + intros B. unfold from_sub, import_sub. rewrite (submodule_of Algorithms ltac:(discriminate)).
      destruct (ok_import e G s Algorithms O ltac:(discriminate)) as [(C & Hh & I)|(C & _)]; [|cbn in C; congruence].
      rewrite I. reflexivity.
Qed.

(** C105: [from kernelmethods import *] binds the names of __all__ to what the attributes are; it
    needs scikit-learn. *)
Lemma pf_C105_star :
  forall e us, numpy e = true -> scipy e = true ->
    (sklearn e = false -> snd (do_use e FromAll (session e us)) = IErr (NotInstalled Sklearn)) /\
    (sklearn e = true -> exists l, snd (do_use e FromAll (session e us)) = IOk l /\ map fst l = exports /\
       forall n o, In (n, o) l -> forall us', snd (do_use e (Attribute n) (session e us')) = IOk [(n, o)]).
Proof.
  intros e us B1 B2. pose proof (good_of e B1 B2) as G. pose proof (proj1 (now_ok e G us)) as O.
  rewrite (now_do e G us). unfold do_use at 1 2. rewrite (pkg_loaded e G _ O).
  rewrite (proj1 (from_all_res e G exports _ O exports_nonfile)).
  assert (N : forall n, In n exports -> name_res e n = (if estimator n then est_res e n else match home n with Some m => IOk (Def m n) | None => IErr ImportErr end)).
  { intros n I. unfold name_res. destruct (exports_cases n I) as [E|[m Hm]].
    - rewrite E. reflexivity.
    - destruct (home_facts e G n m Hm) as (_ & E & _ & _ & A & _). rewrite E. unfold plain_res. rewrite A, Hm. reflexivity. }
  split.
  - intros B. assert (K : forall l, incl l exports -> existsb estimator l = true -> all_res e l = IErr (NotInstalled Sklearn)).
    { induction l as [|n l IH]; [discriminate|]. intros Hi He. cbn [all_res]. rewrite (N n (Hi n (or_introl eq_refl))). cbn [existsb] in He.
      destruct (estimator n) eqn:En; [unfold est_res; rewrite B; reflexivity|]. cbn [orb] in He.
      destruct (exports_cases n (Hi n (or_introl eq_refl))) as [E|[m ->]]; [congruence|].
      rewrite (IH (fun k Hk => Hi k (or_intror Hk)) He). reflexivity. }
    apply K; [apply incl_refl|reflexivity].
  - intros B. assert (K : forall l, incl l exports -> exists t, all_res e l = IOk t /\ map fst t = l /\ forall n o, In (n, o) t -> In n l /\ name_res e n = IOk o).
    { induction l as [|n l IH]; intros Hi; [exists []; repeat split; contradiction|].
      destruct (IH (fun k Hk => Hi k (or_intror Hk))) as (t & At & Mt & It).
      assert (Ho : exists o, name_res e n = IOk o).
      { rewrite (N n (Hi n (or_introl eq_refl))). destruct (exports_cases n (Hi n (or_introl eq_refl))) as [E|[m Hm]].
        - rewrite E. unfold est_res. rewrite B. eexists; reflexivity.
        - rewrite Hm. destruct (estimator n); [unfold est_res; rewrite B|]; eexists; reflexivity. }
      destruct Ho as [o Ho]. exists ((n, o) :: t). cbn [all_res map fst]. rewrite Ho, At, Mt. split; [reflexivity|]. split; [reflexivity|].
      intros n' o' [H|H]; [inversion H; subst; split; [left; reflexivity|exact Ho]|]. destruct (It n' o' H) as [I R]. split; [right; exact I|exact R]. }
    destruct (K exports (incl_refl _)) as (t & At & Mt & It). exists t. split; [exact At|]. split; [exact Mt|].
    intros n o Hno us'. destruct (It n o Hno) as [I R]. pose proof (proj1 (now_ok e G us')) as O'.
    rewrite (now_do e G us'). unfold do_use. rewrite (pkg_loaded e G _ O'), on_ok_snd. unfold name_res in R.
    destruct (estimator n) eqn:En.
    + rewrite (proj1 (attribute_est e G n _ O' En)), R. reflexivity.
    + rewrite (attribute_plain e G n _ O' (exports_nonfile n I) En). unfold plain_res in R. cbn [snd]. destruct (attr0 e n); [inversion R; reflexivity|discriminate R].
Qed.

(** C105: these names are the fifteen that have a module above and three of the four estimators, each
    once; KernelMachineRegressor is left out. *)
Lemma pf_C105_all :
  NoDup exports /\
  forall n, In n exports <-> (exists m, home n = Some m) \/ (estimator n = true /\ n <> "KernelMachineRegressor").
Proof.
  split.
  - unfold exports. repeat (constructor; [cbn [In]; intros H; repeat destruct H as [H|H]; try discriminate H; exact H|]). constructor.
  - intros n. split.
    + intros H. unfold exports in H. cbn [In] in H.
      repeat (destruct H as [<-|H]; [first [left; eexists; reflexivity | right; split; [reflexivity|discriminate]]|]). contradiction.
    + intros [[m H]|[H N]].
      * revert H. unfold home, existsb.
        repeat match goal with |- context [String.eqb n ?c] => destruct (String.eqb_spec n c); [subst; intros _; cbn [In exports]; tauto|] end.
        cbn. discriminate.
      * revert H. unfold estimator, existsb.
        repeat match goal with |- context [String.eqb n ?c] => destruct (String.eqb_spec n c); [subst; intros _; first [contradiction|cbn [In exports]; tauto]|] end.
        cbn. discriminate.
Qed.

(** C105: every other name raises AttributeError as an attribute, ImportError in
    [from kernelmethods import], ModuleNotFoundError as a module; nothing is loaded. *)
Lemma pf_C105_unknown :
  forall e us n, numpy e = true -> scipy e = true -> unknown n = true ->
    do_use e (Attribute n) (session e us) = (fst (do_use e Import (session e us)), IErr AttributeErr) /\
    do_use e (FromPackage n) (session e us) = (fst (do_use e Import (session e us)), IErr ImportErr) /\
    do_use e (ImportSub n) (session e us) = (fst (do_use e Import (session e us)), IErr NoModule) /\
    (forall k, do_use e (FromSub n k) (session e us) = (fst (do_use e Import (session e us)), IErr NoModule)).
Proof.
  intros e us n B1 B2 H. pose proof (good_of e B1 B2) as G. pose proof (proj1 (now_ok e G us)) as O.
  unfold unknown in H. rewrite !andb_true_iff, !negb_true_iff in H. destruct H as (((P & En) & Hh) & Fn). change (existsb (String.eqb n) files = false) in Fn.
  assert (A : attr0 e n = None).
  { unfold attr0. pose proof (proj1 (proj2 (proj2 (proj2 (proj2 (good_parts e G)))))) as R. revert R. unfold check_rest.
    generalize (fixed e). induction s as [|[k o] s IH]; [reflexivity|]. cbn [forallb fst find]. intros R. apply andb_true_iff in R. destruct R as [R1 R2].
    destruct (String.eqb k n) eqn:K; [|exact (IH R2)]. apply String.eqb_eq in K. subst k. rewrite P in R1. cbn in R1. rewrite Hh in R1. discriminate R1. }
  assert (Q : forall k, do_use e (FromSub n k) (session e us) = (fst (do_use e Import (session e us)), IErr NoModule)).
  { intros k. rewrite !(now_do e G us). unfold do_use. rewrite (pkg_loaded e G _ O). unfold from_sub, import_sub. rewrite (no_submodule n Fn). reflexivity. }
  split; [|split; [|split; [|exact Q]]]; clear Q; rewrite !(now_do e G us); unfold do_use; rewrite (pkg_loaded e G _ O).
  - rewrite (attribute_plain e G n _ O Fn En), A. reflexivity.
  - rewrite (from_plain e G n _ O Fn En). unfold plain_res. rewrite A. reflexivity.
  - unfold import_sub. rewrite (no_submodule n Fn). reflexivity.
Qed.

(** C105: a submodule is an attribute of the package exactly when something has imported it: at
    once for config, utils, operations, base, numeric_kernels, sampling and _version, for the
    others after a use that needs it. By import statement they are always there, algorithms
    when scikit-learn is. *)
Lemma pf_C105_submodules :
  forall e us m, numpy e = true -> scipy e = true -> m <> Pkg ->
    snd (do_use e (Attribute (file_of m)) (session e us)) =
      (if needed e us m then IOk [(file_of m, Mod m)] else IErr AttributeErr) /\
    snd (do_use e (FromPackage (file_of m)) (session e us)) =
      (if sklearn e || negb (modname_eqb m Algorithms) then IOk [(file_of m, Mod m)] else IErr (NotInstalled Sklearn)).
Proof.
  intros e us m B1 B2 Hm. pose proof (good_of e B1 B2) as G. destruct (now_ok e G us) as [O H].
  rewrite !(now_do e G us). unfold do_use. rewrite (pkg_loaded e G _ O), !on_ok_snd.
  rewrite (attribute_file e G m _ O Hm), (proj1 (from_file e G m _ O Hm)), (H m Hm). cbn [snd]. split.
  - destruct (needed e us m); reflexivity.
  - unfold file_res. destruct m; cbn; rewrite ?orb_true_r; try reflexivity. rewrite orb_false_r. destruct (sklearn e); reflexivity.
Qed.

(** C105: what a module itself imports from elsewhere is an attribute of it, under the name it was given
    there and no other: numpy is [np] in base, numpy's multiply is [elem_wise_multiply] in operations. *)
Lemma pf_C105_aliases :
  forall e us, numpy e = true -> scipy e = true ->
    snd (do_use e (FromSub "operations" "elem_wise_multiply") (session e us))
      = IOk [("elem_wise_multiply", Ext Numpy "numpy.multiply")] /\
    snd (do_use e (FromSub "operations" "multiply") (session e us)) = IErr ImportErr /\
    snd (do_use e (FromSub "base" "np") (session e us)) = IOk [("np", Ext Numpy "numpy")] /\
    snd (do_use e (FromSub "base" "numpy") (session e us)) = IErr ImportErr.
Proof.
  intros e us B1 B2. rewrite !(pf_C105_history_free e us) by (intros m _; discriminate).
  destruct e as [np sc sk]. cbn [numpy scipy] in B1, B2. subst. destruct sk; vm_compute; repeat split; reflexivity.
Qed.

(** C105: [kernelmethods.ranking] is an AttributeError after [import kernelmethods] and a module
    after fetching an estimator; KernelMachineRegressor is answered but not in __all__; the
    composite kernels and MatchCountKernel are not offered by the package. *)
Lemma pf_C105_example :
  let e := mkInstalled true true true in
  snd (do_use e (Attribute "ranking") (session e [Import])) = IErr AttributeErr /\
  snd (do_use e (Attribute "ranking") (session e [Import; Attribute "OptimalKernelSVC"])) = IOk [("ranking", Mod Ranking)] /\
  snd (do_use e (Attribute "KernelMachineRegressor") []) = IOk [("KernelMachineRegressor", Def Algorithms "KernelMachineRegressor")] /\
  ~ In "KernelMachineRegressor" exports /\
  unknown "SumKernel" = true /\ unknown "MatchCountKernel" = true /\
  snd (do_use e (FromSub "categorical" "MatchCountKernel") []) = IOk [("MatchCountKernel", Def Categorical "MatchCountKernel")] /\
  home "PolyKernel" = Some Numeric /\ estimator "OptimalKernelSVR" = true /\
  snd (do_use (mkInstalled true true false) (Attribute "KernelMachine") []) = IErr (NotInstalled Sklearn).
Proof.
  cbv zeta. repeat split; try (vm_compute; reflexivity).
  unfold exports. cbn [In]. intros H. repeat destruct H as [H|H]; try discriminate H. exact H.
Qed.
