(** C79 exactly: an object whose samples are written into is an object over a table
    of values, each of them a kernel value of the samples as they were at some moment.
    Generated by tools/split_props.py from TableProps.v: statements only, each closed by [exact]. *)
From Coq Require Import String List Arith ZArith Bool Lia.
Import ListNotations.
From Verif Require Import Prelude MatModel MatFacts UtilsModel IndexModel KMModel SpecKM MFacts
  KMFacts KMInv KMHist AliasModel SpecAlias SpecTable TableFacts ToyModel.
From Verif Require Import TableProps.

(** C79, for one sample and exactly: whatever the caller writes into the sample, into the matrices
    the object returned, and calls in between, the outcomes of all calls are those of an object
    whose sample nobody writes into and whose kernel looks its values up in a table [T]. Each
    value of the table is the kernel value of the sample as it was at some moment. *)
Theorem C79_exact :
  forall {E V U} (N : numops V) (K : kernel E V) k nrm (pre : list (op E U)) acts x n d,
    (forall x', never_raises K k x' None n n d) -> admissible x None n n d -> same_sample acts ->
    exists T : nat -> nat -> V,
      (forall i j, i <= j < n -> exists p q, acts = p ++ q /\ T i j = entry k d (written p x) None i j) /\
      forall pre', ctrace N acts (after N K nrm pre x None [])
                   = ctrace N (same_acts acts)
                       (after N (lookup T (kfmt K)) nrm pre' (row_numbers n) None []).
Proof. exact (@pf_C79_exact). Qed.
Print Assumptions C79_exact.

(** The same for two samples, for an object made with [normalized=False] as long as the caller
    does not ask for the normalised matrix. (With it the statement is false,
    C79_two_samples_refuted: the norms are taken from the samples as they are at that moment.) *)
Theorem C79_exact_two :
  forall {E V U} (N : numops V) (K : kernel E V) k (pre : list (op E U)) acts x y n m d,
    (forall x' y', never_raises K k x' (Some y') n m d) -> admissible x (Some y) n m d ->
    same_sample acts -> no_normalising acts ->
    exists T : nat -> nat -> V,
      (forall i j, i < n -> j < m -> exists p q, acts = p ++ q /\
         T i j = entry k d (written p x) (Some (written_two p y)) i j) /\
      forall pre', ctrace N acts (after N K false pre x (Some y) [])
                   = ctrace N (same_acts acts)
                       (after N (lookup T (kfmt K)) false pre' (row_numbers n) (Some (row_numbers m)) []).
Proof. exact (@pf_C79_exact_two). Qed.
Print Assumptions C79_exact_two.

(** Hypotheses met: [km.attach_to(X); km[0, 1]; X[1, 1] = 7; km.full] over X = [[2, 1], [0, 1]].
    Entry (0, 1) is a value of the old sample, the rest are values of the new one. *)
Example C79_exact_example :
  let x := mkNd [2; 2] [Some 2%Z; Some 1%Z; Some 0%Z; Some 1%Z] in
  let acts := [Call (OpGetItem (IFlat 1)); WSample 3 (Some 7%Z); Call OpFull] in
  let T := fun i j => match i, j with 0, 0 => Some 5%Z | 0, 1 => Some 1%Z | _, _ => Some 49%Z end in
  (forall x', never_raises dot dotk x' None 2 2 2) /\ admissible x None 2 2 2 /\ same_sample (U:=Z) acts /\
  T 0 1 = entry dotk 2 x None 0 1 /\ T 0 0 = entry dotk 2 (written (U:=Z) acts x) None 0 0 /\
  T 1 1 = entry dotk 2 (written (U:=Z) acts x) None 1 1 /\ T 0 1 <> entry dotk 2 (written (U:=Z) acts x) None 0 1 /\
  ctrace toyN acts (after (U:=Z) toyN dot false [] x None [])
  = ctrace toyN (same_acts acts) (after (U:=Z) toyN (lookup T true) false [] (row_numbers 2) None []).
Proof.
  cbv zeta. split; [intros; apply dot_total|]. split; [split; [exists []; split; [reflexivity|constructor]|reflexivity]|].
  split; [reflexivity|]. repeat split; try reflexivity. vm_compute. discriminate.
Qed.

(** Hypotheses of the two-sample form met: [km.attach_to(X, Y); km[0, 1]; Y[1, 0] = 9; km.full]. *)
Example C79_exact_two_example :
  let x := mkNd [1; 1] [Some 2%Z] in let y := mkNd [2; 1] [Some 3%Z; Some 4%Z] in
  let acts := [Call (OpGetItem (IFlat 1)); WSampleTwo 1 (Some 9%Z); WSample 0 (Some 5%Z); Call OpFull] in
  let T := fun i j => match j with 0 => Some 15%Z | _ => Some 8%Z end in
  (forall x' y', never_raises dot dotk x' (Some y') 1 2 1) /\ admissible x (Some y) 1 2 1 /\
  same_sample (U:=Z) acts /\ no_normalising (U:=Z) acts /\
  T 0 1 = entry dotk 1 x (Some y) 0 1 /\
  T 0 0 = entry dotk 1 (written (U:=Z) acts x) (Some (written_two (U:=Z) acts y)) 0 0 /\
  T 0 1 <> entry dotk 1 (written (U:=Z) acts x) (Some (written_two (U:=Z) acts y)) 0 1 /\
  ctrace toyN acts (after (U:=Z) toyN dot false [] x (Some y) [])
  = ctrace toyN (same_acts acts) (after (U:=Z) toyN (lookup T true) false [] (row_numbers 1) (Some (row_numbers 2)) []).
Proof.
  cbv zeta. split; [intros; apply dot_total|].
  split; [split; exists []; (split; [reflexivity|constructor])|].
  split; [reflexivity|]. split; [|repeat split; try reflexivity; vm_compute; discriminate].
  intros o Ho. cbn in Ho. repeat (destruct Ho as [Ho|Ho]; [inversion Ho; exact I|]); destruct Ho.
Qed.
