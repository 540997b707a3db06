(** Vocabulary for C78 and C79: which actions of the caller are considered. *)
From Coq Require Import List Bool.
Import ListNotations.
From Verif Require Import Prelude MatModel IndexModel KMModel SpecKM AliasModel.

(** The caller does not attach another sample. *)
Definition c_attach {E V U} (a : cact E V U) : bool :=
  match a with Call o => is_attach o | _ => false end.
Definition same_sample {E V U} (acts : list (cact E V U)) : Prop :=
  forallb (fun a => negb (c_attach a)) acts = true.

(** The caller writes into a sample. *)
Definition to_sample {E V U} (a : cact E V U) : bool :=
  match a with WSample _ _ | WSampleTwo _ _ => true | _ => false end.
(** The caller writes into a matrix or dict the object returned. *)
Definition to_result {E V U} (a : cact E V U) : bool :=
  match a with WFull _ _ _ | WNormed _ _ _ | WCentered _ _ _ | WAttrs _ _ => true | _ => false end.

Definition leaves_sample {E V U} (acts : list (cact E V U)) : Prop :=
  forallb (fun a => negb (to_sample a)) acts = true.

(** The same actions without the writes into samples. *)
Definition without_sample_writes {E V U} (acts : list (cact E V U)) : list (cact E V U) :=
  filter (fun a => negb (to_sample a)) acts.
