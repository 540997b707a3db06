(** A ConstantKernelMatrix over its life: dtype, assigned attributes, cached full matrix (C113).
    Generated by tools/split_props.py from ConstProps.v: statements only, each closed by [exact]. *)
From Coq Require Import List Arith ZArith Bool Reals Lra Lia.
Import ListNotations.
From Verif Require Import Prelude MatModel UtilsModel IndexModel KMModel XReal SetModel SpecKM SpecSet ConstModel SpecConst.
From Verif Require Import MatFacts ContProps.
Local Open Scope Z_scope.
From Verif Require Import ConstProps.
Local Open Scope Z_scope.

(** C113, diag: after any operations, the value last assigned, converted to the dtype last assigned, as often as the
    num_samples last assigned says. *)
Theorem C113_diag : forall junk rnd n v d l w, 0 <= last_num n l -> converts (last_dtype d l) (last_value v l) w ->
  snd (const_diag_attr junk rnd (const_run junk rnd l (const_new n v d))) = Ok (repeat w (Z.to_nat (last_num n l))).
Proof. exact (@pf_C113_diag). Qed.
Print Assumptions C113_diag.

(** C113, indexing: the same, for one row and column per selected index. *)
Theorem C113_item : forall junk rnd n v d l w a b rows cols, 0 <= last_num n l ->
  converts (last_dtype d l) (last_value v l) w ->
  cvalid (Z.to_nat (last_num n l)) a -> cvalid (Z.to_nat (last_num n l)) b ->
  cselection (Z.to_nat (last_num n l)) a rows -> cselection (Z.to_nat (last_num n l)) b cols ->
  snd (const_item_attr junk rnd (Some (a, b)) (const_run junk rnd l (const_new n v d)))
  = Ok (tabulate (length rows) (length cols) (fun _ _ => w)).
Proof. exact (@pf_C113_item). Qed.
Print Assumptions C113_item.

(** C113, full, as long as it has not been used: as diag. *)
Theorem C113_full_unread : forall junk rnd n v d l w, 0 <= last_num n l -> converts (last_dtype d l) (last_value v l) w ->
  Forall (fun o => ~ uses_full o) l ->
  snd (const_full_attr junk rnd (const_run junk rnd l (const_new n v d)))
  = Ok (tabulate (Z.to_nat (last_num n l)) (Z.to_nat (last_num n l)) (fun _ _ => w)).
Proof. exact (@pf_C113_full_unread). Qed.
Print Assumptions C113_full_unread.

(** C113, full, once it has been read: the matrix it was at the first reading, whatever is assigned later. *)
Theorem C113_full_first : forall junk rnd n v d pre post w, 0 <= last_num n pre ->
  converts (last_dtype d pre) (last_value v pre) w ->
  Forall (fun o => ~ uses_full o) pre -> Forall (fun o => ~ writes o) post ->
  snd (const_full_attr junk rnd (const_run junk rnd (pre ++ CFull :: post) (const_new n v d)))
  = Ok (tabulate (Z.to_nat (last_num n pre)) (Z.to_nat (last_num n pre)) (fun _ _ => w)).
Proof. exact (@pf_C113_full_first). Qed.
Print Assumptions C113_full_first.

(** C113: if the program only reads, full, diag and indexing agree at any time. *)
Theorem C113_reads : forall junk rnd n v d l w, 0 <= n -> converts d v w ->
  Forall (fun o => ~ assigns o /\ ~ writes o) l ->
  let s := const_run junk rnd l (const_new n v d) in
  snd (const_full_attr junk rnd s) = Ok (tabulate (Z.to_nat n) (Z.to_nat n) (fun _ _ => w)) /\
  snd (const_diag_attr junk rnd s) = Ok (repeat w (Z.to_nat n)) /\
  (forall i j, 0 <= i < n -> 0 <= j < n ->
     snd (const_item_attr junk rnd (Some (CIInt i, CIInt j)) s) = Ok (mkMat 1 1 [[w]])) /\
  snd (const_len s) = Ok n /\ snd (const_size_attr s) = Ok n.
Proof. exact (@pf_C113_reads). Qed.
Print Assumptions C113_reads.

(** C113: writing into the array that full returns changes that entry of full and nothing else. *)
Theorem C113_write : forall junk rnd s i j u A, snd (const_full_attr junk rnd s) = Ok A -> (i < mr A)%nat -> (j < mc A)%nat ->
  let s' := const_step junk rnd (CWrite i j u) s in
  snd (const_full_attr junk rnd s') = Ok (mset A i j u) /\
  snd (const_diag_attr junk rnd s') = snd (const_diag_attr junk rnd s) /\
  forall ix, snd (const_item_attr junk rnd ix s') = snd (const_item_attr junk rnd ix s).
Proof. exact (@pf_C113_write). Qed.
Print Assumptions C113_write.

(** C113: an index beyond that array raises IndexError and does to the object what reading full does. *)
Theorem C113_write_beyond : forall junk rnd s i j u A, snd (const_full_attr junk rnd s) = Ok A -> ~ ((i < mr A)%nat /\ (j < mc A)%nat) ->
  snd (const_write junk rnd i j u s) = Raise IndexError /\
  const_step junk rnd (CWrite i j u) s = const_step junk rnd CFull s.
Proof. exact (@pf_C113_write_beyond). Qed.
Print Assumptions C113_write_beyond.

(** C113: at any time, an index that is not a pair, is None or a string, is of no supported type, or is an integer
    outside 0..num_samples-1 raises KMAccessError and leaves the object as it was. *)
Theorem C113_bad_index : forall junk rnd s,
  const_item_attr junk rnd None s = (s, Raise KMAccessError) /\
  (forall b, const_item_attr junk rnd (Some (CIStrNone, b)) s = (s, Raise KMAccessError)) /\
  (forall b, const_item_attr junk rnd (Some (CIOther, b)) s = (s, Raise KMAccessError)) /\
  (forall z b, o_num s <= z \/ z < 0 -> const_item_attr junk rnd (Some (CIInt z, b)) s = (s, Raise KMAccessError)) /\
  (forall i b, 0 <= i < o_num s -> b = CIStrNone \/ b = CIOther \/ (exists z, b = CIInt z /\ (o_num s <= z \/ z < 0)) ->
     const_item_attr junk rnd (Some (CIInt i, b)) s = (s, Raise KMAccessError)).
Proof. exact (@pf_C113_bad_index). Qed.
Print Assumptions C113_bad_index.

(** C113: with a negative num_samples, diag, len and slices raise ValueError and integer indices KMAccessError, full
    raises ValueError unless it has been read before; none of them changes the object. *)
Theorem C113_negative : forall junk rnd s, o_num s < 0 ->
  const_diag_attr junk rnd s = (s, Raise ValueError) /\ const_len s = (s, Raise ValueError) /\
  const_size_attr s = (s, Ok (o_num s)) /\
  (forall z b, const_item_attr junk rnd (Some (CIInt z, b)) s = (s, Raise KMAccessError)) /\
  (forall x y st b, const_item_attr junk rnd (Some (CISlice x y st, b)) s = (s, Raise ValueError)) /\
  (o_KM s = None -> const_full_attr junk rnd s = (s, Raise ValueError)).
Proof. exact (@pf_C113_negative). Qed.
Print Assumptions C113_negative.

(** C113: it is false that full always agrees with diag: once full has been read, it no longer follows the attributes.
    Here a 2 x 2 matrix of 1 whose num_samples and value are then set to 3 and 2.7, with dtype int. *)
Theorem C113_refuted : forall junk rnd, exists l,
  let s := const_run junk rnd l (const_new 2 (VInt 1) (Some TInt)) in
  snd (const_full_attr junk rnd s) = Ok (mkMat 2 2 [[VInt 1; VInt 1]; [VInt 1; VInt 1]]) /\
  snd (const_diag_attr junk rnd s) = Ok [VInt 2; VInt 2; VInt 2] /\
  snd (const_item_attr junk rnd (Some (CIInt 2, CIInt 2)) s) = Ok (mkMat 1 1 [[VInt 2]]).
Proof. exact (@pf_C113_refuted). Qed.
Print Assumptions C113_refuted.

(** C113: a constant of -2.7 with dtype int is -2, with dtype bool True, with dtype float itself; True with dtype float
    is 1. *)
Theorem C113_example : forall junk rnd,
  snd (const_diag_attr junk rnd (const_new 2 (VFloat (Fin (-27 / 10))) (Some TInt))) = Ok [VInt (-2); VInt (-2)] /\
  snd (const_diag_attr junk rnd (const_new 1 (VFloat (Fin (-27 / 10))) (Some TBool))) = Ok [VBool true] /\
  snd (const_diag_attr junk rnd (const_new 1 (VFloat (Fin (-27 / 10))) (Some TFloat))) = Ok [VFloat (Fin (-27 / 10))] /\
  snd (const_diag_attr junk rnd (const_new 1 (VBool true) (Some TFloat))) = Ok [VFloat (Fin 1)].
Proof. exact (@pf_C113_example). Qed.
Print Assumptions C113_example.
