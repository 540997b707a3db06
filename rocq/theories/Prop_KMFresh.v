(** C75: a KernelMatrix to which no sample could be attached.
    Generated by tools/split_props.py from KMFreshProps.v: statements only, each closed by [exact]. *)
From Coq Require Import String List Arith ZArith Bool Lia.
Import ListNotations.
From Verif Require Import Prelude MatModel UtilsModel IndexModel KMModel SpecKM KMInv KMProps.
From Verif Require Import KMFreshProps.

(** No attach_to in the history was accepted (there may have been attempts). *)
Definition never_attached {E U} (ops : list (op E U)) : Prop :=
  forall x y, In (OpAttach x y) ops -> accepts x y = false.

(** Operations that report about the kernel matrix, i.e. all but attach_to, the user attributes and
    num_samples. *)
Definition reports {E U} (o : op E U) : bool :=
  match o with
  | OpAttach _ _ | OpSetAttr _ _ | OpGetAttr _ | OpAttributes | OpNumSamples => false
  | _ => true
  end.

(** C75. As long as no attach_to has been accepted (rejected attempts, attributes and failed reads may
    have come before), every operation that reports about the kernel matrix raises an exception, the
    kernel is never called, and num_samples is None. *)
Theorem C75_reports :
  forall {E V U} (N : numops V) (K : kernel E V) nrm (ops : list (op E U)) o,
    never_attached ops -> reports o = true ->
    exists e, outcome N o (before N K nrm ops) = Raise e.
Proof. exact (@pf_C75_reports). Qed.
Print Assumptions C75_reports.

(** C75. No kernel call is made, not even by the operations that raise. *)
Theorem C75_no_calls :
  forall {E V U} (N : numops V) (K : kernel E V) nrm (ops : list (op E U)),
    never_attached ops -> g_calls (before N K nrm ops) = [].
Proof. exact (@pf_C75_no_calls). Qed.
Print Assumptions C75_no_calls.

(** C75. num_samples is None. *)
Theorem C75_num_samples :
  forall {E V U} (N : numops V) (K : kernel E V) nrm (ops : list (op E U)),
    never_attached ops -> outcome N OpNumSamples (before N K nrm ops) = Ok (ONum NSNone).
Proof. exact (@pf_C75_num_samples). Qed.
Print Assumptions C75_num_samples.

(** C75. Before any attempt to attach a sample, full raises ValueError; a malformed index raises
    KMAccessError; everything else that reports about the matrix raises AttributeError, except that an
    index pair may be refused for its own sake first. *)
Theorem C75_exceptions :
  forall {E V U} (N : numops V) (K : kernel E V) nrm (ops : list (op E U)) o,
    no_attach ops -> reports o = true ->
    outcome N o (before N K nrm ops) =
      Raise (match o with
             | OpFull => ValueError
             | OpGetItem IInvalid => KMAccessError
             | OpGetItem (IPair (IFails e) _) => e
             | OpGetItem (IPair (IIter l) _) =>
                 if forallb (fun e => match e with EInt _ => true | ENonInt => false end) l
                    && negb (Nat.eqb (length l) 0)
                 then AttributeError else KMAccessError
             | _ => AttributeError
             end).
Proof. exact (@pf_C75_exceptions). Qed.
Print Assumptions C75_exceptions.

(** C75 with rejected attempts: the ValueError of full is lost once attach_to(x, y) has stored x and then
    refused y; full then raises AttributeError. *)
Theorem C75_rejected :
  forall {E V U} (N : numops V) (K : kernel E V) nrm (pre : list (op E U)) x y n d m d',
    never_attached pre -> is_sample x n d -> is_sample y m d' -> d <> d' ->
    outcome N OpFull (before N K nrm (pre ++ [OpAttach x (Some y)])) = Raise AttributeError.
Proof. exact (@pf_C75_rejected). Qed.
Print Assumptions C75_rejected.

(** C75 applies: a failed read, a rejected sample (one axis), an attribute. *)
Example C75_example : forall {V} (N : numops V) (K : kernel nat V) nrm,
  never_attached (U:=nat) [OpFull; OpAttach (mkNd [3] [1; 2; 3]) None; OpSetAttr "a"%string 1] /\
  outcome (U:=nat) N OpFull
    (before N K nrm [OpFull; OpAttach (mkNd [3] [1; 2; 3]) None; OpSetAttr "a"%string 1]) = Raise ValueError.
Proof.
  intros V N K nrm. split; [| reflexivity].
  intros x y [H | [H | [H | []]]]; inversion H; reflexivity.
Qed.
